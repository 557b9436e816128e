(** The driver on two texts with the same characters: both runs are the same up to the
    offsets of tokens (C65). *)
From Verif Require Import Bytes Utf8 Float64 GoTime Ast Lexer LexFacts Utf8Facts LexSpec LexProofs Tables Parser Grammar Tok CertData Cert Driver DriverInv Trees
  Machine Blame Where Placed Alike Lockstep Decoded.
Open Scope Z_scope.

(** * Cells up to offsets *)
Definition er_tok (t : token) : token := Token (tk_ast t) (tk_value t) (tk_lit t) 0 (tk_prevDot t).
Definition er (c : slot) : slot :=
  Slot (yys c) (er_tok (v_token c)) (v_stmt_if c) (v_opt_elseif_list c) (v_opt_else c) (v_stmt c) (v_stmt_loop c) (v_funcProc c) (v_body c) (v_opt_body c) (v_params c) (v_param c)
    (v_exprs c) (option_map er_tok (v_opt_export c)) (option_map er_tok (v_opt_directive c)) (v_explicit_variables c) (v_global_variables c)
    (v_opt_explicit_variables c) (map er_tok (v_identifiers c)) (v_goToLabel c).

(** * Positions *)
Definition at_same (c1 c2 : bytes) (t1 t2 : token) : Prop :=
  exists s1 s2, steps c1 c2 s1 s2 /\ tk_off t1 = (length c1 - length s1)%nat /\ tk_off t2 = (length c2 - length s2)%nat.
Lemma lf_runes (l : bytes) : ~ In LF l -> ~ In 10 (runes l).
Proof.
  induction l as [l IH] using LexFacts.bytes_ind. intros H X. destruct l as [|b l]; [destruct X|]. assert (N : b :: l <> []) by discriminate. rewrite (runes_eq (b :: l)) in X. destruct X as [X|X].
  - unfold cur in X. destruct (decode_shape _ N) as [E|[E1 E2]]; [rewrite E in X; discriminate X|]. rewrite X in E2. apply H.
    rewrite <- (firstn_skipn (snd (decode (b :: l))) (b :: l)), <- E2. left. reflexivity.
  - apply (IH (adv (b :: l))); [apply adv_length, N| |exact X]. intros Y. apply H. unfold adv in Y. rewrite <- (firstn_skipn (snd (decode (b :: l))) (b :: l)). apply in_or_app. right. exact Y.
Qed.
Lemma runes_lines (ls : list bytes) v : runes (concat (map (fun l => l ++ [LF]) ls) ++ v) = concat (map (fun l => runes l ++ [10]) ls) ++ runes v.
Proof.
  induction ls as [|l ls IH]; [reflexivity|]. cbn [map concat]. rewrite <- !app_assoc, <- IH. set (x := concat _ ++ v). clearbody x. cbn [app].
  rewrite runes_lead by reflexivity. apply f_equal. change (LF :: x) with (encode 10 ++ x). apply runes_app_encode. reflexivity.
Qed.
Lemma lines_inj (ls : list (list Z)) : forall ls' v v', Forall (fun l => ~ In 10 l) ls -> Forall (fun l => ~ In 10 l) ls' -> ~ In 10 v -> ~ In 10 v' ->
  concat (map (fun l => l ++ [10]) ls) ++ v = concat (map (fun l => l ++ [10]) ls') ++ v' -> ls = ls' /\ v = v'.
Proof.
  assert (S : forall a b x y : list Z, ~ In 10 a -> ~ In 10 b -> a ++ 10 :: x = b ++ 10 :: y -> a = b /\ x = y).
  { clear. induction a as [|c a IH]; intros [|d b] x y Ha Hb H; cbn [app] in H.
    - injection H as <-. auto.
    - injection H as <- _. exfalso. apply Hb. left. reflexivity.
    - injection H as -> _. exfalso. apply Ha. left. reflexivity.
    - injection H as <- H. destruct (IH b x y) as [-> ->]; auto; intros X; [apply Ha|apply Hb]; right; exact X. }
  induction ls as [|l ls IH]; intros [|l' ls'] v v' F1 F2 G1 G2 E; cbn [map concat app] in E.
  - auto.
  - exfalso. apply G1. rewrite E, <- !app_assoc. apply in_or_app. right. left. reflexivity.
  - exfalso. apply G2. rewrite <- E, <- !app_assoc. apply in_or_app. right. left. reflexivity.
  - inversion F1; inversion F2; subst. rewrite <- !app_assoc in E. cbn [app] in E. apply S in E as [-> E]; [|assumption|assumption].
    destruct (IH ls' v v') as [-> ->]; auto.
Qed.
Lemma place_runes p q : runes p = runes q -> count_eol p = count_eol q /\ length (runes (after_last_eol p p)) = length (runes (after_last_eol q q)).
Proof.
  intros H. destruct (lines_of p) as (ls & v & E1 & E2 & E3 & E4 & E5), (lines_of q) as (ls' & v' & E1' & E2' & E3' & E4' & E5').
  rewrite E4, E4', E5, E5'. rewrite E1, E1', !runes_lines in H.
  assert (M : forall l : list bytes, map (fun l => runes l ++ [10]) l = map (fun l => l ++ [10]) (map runes l)) by (intros l; rewrite map_map; reflexivity).
  rewrite !M in H. apply lines_inj in H as [H1 H2].
  - split; [|rewrite H2; reflexivity]. apply (f_equal (@length _)) in H1. rewrite !map_length in H1. exact (f_equal Z.of_nat H1).
  - rewrite Forall_map. eapply Forall_impl; [|exact E2]. intros l. apply lf_runes.
  - rewrite Forall_map. eapply Forall_impl; [|exact E2']. intros l. apply lf_runes.
  - apply lf_runes, E3.
  - apply lf_runes, E3'.
Qed.
Lemma suffix_cut s c : suffix s c -> c = firstn (length c - length s) c ++ s /\ skipn (length c - length s) c = s.
Proof.
  intros (p & ->). rewrite app_length. replace (length p + length s - length s)%nat with (length p) by lia.
  rewrite firstn_app, firstn_all, Nat.sub_diag, skipn_app, skipn_all, Nat.sub_diag. cbn [firstn skipn app]. rewrite app_nil_r. auto.
Qed.
Lemma steps_suffix c1 c2 s1 s2 : steps c1 c2 s1 s2 -> suffix s1 c1 /\ suffix s2 c2.
Proof. intros (k & -> & ->). split; apply iter_suffix. Qed.
Lemma at_same_position c1 c2 t1 t2 : runes c1 = runes c2 -> at_same c1 c2 t1 t2 -> GetPosition c1 (tk_off t1) = GetPosition c2 (tk_off t2).
Proof.
  intros H (s1 & s2 & Hs & -> & ->). destruct (steps_suffix _ _ _ _ Hs) as [S1 S2]. destruct (suffix_cut _ _ S1) as [A1 _], (suffix_cut _ _ S2) as [A2 _].
  pose proof (steps_before _ _ _ _ _ _ H Hs A1 A2) as P. unfold GetPosition. destruct (place_runes _ _ P) as [-> ->]. reflexivity.
Qed.

(** * Nodes *)
Section Codes.
Context (c1 c2 : bytes) (HC : runes c1 = runes c2).
Record DR (a1 a2 : astnode) : Prop := {
  dr_code1 : a_code a1 = c1;
  dr_code2 : a_code a2 = c2;
  dr_module : a_module a1 = a_module a2;
  dr_loop : a_isLoop a1 = a_isLoop a2;
  dr_try : a_isTry a1 = a_isTry a2;
  dr_function : a_isFunction a1 = a_isFunction a2;
  dr_err : a_err a1 = a_err a2;
  dr_cur : er_tok (a_cur a1) = er_tok (a_cur a2);
  dr_at : at_same c1 c2 (a_cur a1) (a_cur a2) }.
Lemma Error_dr a1 a2 m : DR a1 a2 -> RR DR (Error a1 m) (Error a2 m).
Proof.
  intros [H1 H2 H3 H4 H5 H6 H7 H8 H9]. unfold Error. pose proof H8 as H8'. injection H8' as I1 I2 I3 I4. rewrite <- I1. destruct (tk_ast (a_cur a1)); cbn [RR]; [|reflexivity].
  rewrite H1, H2, (at_same_position _ _ _ _ HC H9), I3. constructor; cbn [set_err a_code a_module a_isLoop a_isTry a_isFunction a_cur a_err]; auto.
Qed.
Lemma DR_module a1 a2 m : DR a1 a2 -> DR (set_module a1 m) (set_module a2 m).
Proof. intros []. constructor; auto. Qed.
Lemma gvar_dr v a1 a2 : DR a1 a2 -> RR DR (append_gvar v a1) (append_gvar v a2).
Proof.
  intros H. unfold append_gvar. rewrite <- (dr_module _ _ H). destruct (negb _); [apply Error_dr, H|].
  destruct (Parser.mem _ _); [apply Error_dr, DR_module, H|]. cbn [RR]. apply DR_module, H.
Qed.
Lemma gvars_dr vs : forall a1 a2, DR a1 a2 -> RR DR (append_gvars vs a1) (append_gvars vs a2).
Proof. induction vs as [|v vs IH]; intros a1 a2 H; cbn [append_gvars]; [exact H|]. eapply RR_bind; [apply gvar_dr, H|exact IH]. Qed.
Lemma stmts_dr b a1 a2 : DR a1 a2 -> RR DR (append_stmts b a1) (append_stmts b a2).
Proof. intros H. unfold append_stmts. rewrite <- (dr_module _ _ H). apply DR_module, H. Qed.
Lemma func_dr f a1 a2 : DR a1 a2 -> RR DR (append_func f a1) (append_func f a2).
Proof. intros H. unfold append_func. rewrite <- (dr_module _ _ H). destruct (_ && _); [apply Error_dr, H|]. apply DR_module, H. Qed.
Lemma DR_function a1 a2 b : DR a1 a2 -> DR (set_function a1 b) (set_function a2 b).
Proof. intros []. constructor; auto. Qed.
Lemma DR_loop a1 a2 n : DR a1 a2 -> DR (add_loop a1 n) (add_loop a2 n).
Proof. intros []. constructor; cbn [add_loop a_code a_module a_isLoop a_isTry a_isFunction a_cur a_err]; auto; congruence. Qed.
Lemma DR_try a1 a2 n : DR a1 a2 -> DR (add_try a1 n) (add_try a2 n).
Proof. intros []. constructor; cbn [add_try a_code a_module a_isLoop a_isTry a_isFunction a_cur a_err]; auto; congruence. Qed.
Lemma loopop_dr u1 u2 a1 a2 : tk_lit u1 = tk_lit u2 -> DR a1 a2 -> RR DR (checkLoopOperator u1 a1) (checkLoopOperator u2 a2).
Proof. intros E H. unfold checkLoopOperator. rewrite E, <- (dr_loop _ _ H). destruct (_ =? 0); [apply Error_dr, H|exact H]. Qed.
Lemma throw_dr u1 u2 s a1 a2 : tk_lit u1 = tk_lit u2 -> DR a1 a2 -> RR DR (checkThrowParam u1 s a1) (checkThrowParam u2 s a2).
Proof. intros E H. unfold checkThrowParam. rewrite E, <- (dr_try _ _ H). destruct (_ && _); [apply Error_dr, H|exact H]. Qed.
Lemma return_dr s a1 a2 : DR a1 a2 -> RR DR (checkReturnParam s a1) (checkReturnParam s a2).
Proof. intros H. unfold checkReturnParam. rewrite <- (dr_function _ _ H). destruct (_ && _); [apply Error_dr, H|exact H]. Qed.

Definition CR (x y : slot * astnode) : Prop := er (fst x) = er (fst y) /\ DR (snd x) (snd y).
Lemma act_dr r d1 d2 a1 a2 : prodno r -> (forall i, er (d1 i) = er (d2 i)) -> DR a1 a2 -> RR CR (act r d1 (d1 1%nat) a1) (act r d2 (d2 1%nat) a2).
Proof.
  intros Hr HS HA.
  assert (F1 : forall i, v_stmt_if (d1 i) = v_stmt_if (d2 i)) by (intros i; exact (f_equal v_stmt_if (HS i))).
  assert (F2 : forall i, v_opt_elseif_list (d1 i) = v_opt_elseif_list (d2 i)) by (intros i; exact (f_equal v_opt_elseif_list (HS i))).
  assert (F3 : forall i, v_opt_else (d1 i) = v_opt_else (d2 i)) by (intros i; exact (f_equal v_opt_else (HS i))).
  assert (F4 : forall i, v_stmt (d1 i) = v_stmt (d2 i)) by (intros i; exact (f_equal v_stmt (HS i))).
  assert (F5 : forall i, v_stmt_loop (d1 i) = v_stmt_loop (d2 i)) by (intros i; exact (f_equal v_stmt_loop (HS i))).
  assert (F6 : forall i, v_funcProc (d1 i) = v_funcProc (d2 i)) by (intros i; exact (f_equal v_funcProc (HS i))).
  assert (F7 : forall i, v_body (d1 i) = v_body (d2 i)) by (intros i; exact (f_equal v_body (HS i))).
  assert (F8 : forall i, v_opt_body (d1 i) = v_opt_body (d2 i)) by (intros i; exact (f_equal v_opt_body (HS i))).
  assert (F9 : forall i, v_params (d1 i) = v_params (d2 i)) by (intros i; exact (f_equal v_params (HS i))).
  assert (F10 : forall i, v_param (d1 i) = v_param (d2 i)) by (intros i; exact (f_equal v_param (HS i))).
  assert (F11 : forall i, v_exprs (d1 i) = v_exprs (d2 i)) by (intros i; exact (f_equal v_exprs (HS i))).
  assert (F12 : forall i, option_map er_tok (v_opt_export (d1 i)) = option_map er_tok (v_opt_export (d2 i))) by (intros i; exact (f_equal v_opt_export (HS i))).
  assert (F13 : forall i, option_map er_tok (v_opt_directive (d1 i)) = option_map er_tok (v_opt_directive (d2 i))) by (intros i; exact (f_equal v_opt_directive (HS i))).
  assert (F14 : forall i, v_explicit_variables (d1 i) = v_explicit_variables (d2 i)) by (intros i; exact (f_equal v_explicit_variables (HS i))).
  assert (F15 : forall i, v_global_variables (d1 i) = v_global_variables (d2 i)) by (intros i; exact (f_equal v_global_variables (HS i))).
  assert (F16 : forall i, v_opt_explicit_variables (d1 i) = v_opt_explicit_variables (d2 i)) by (intros i; exact (f_equal v_opt_explicit_variables (HS i))).
  assert (F17 : forall i, map er_tok (v_identifiers (d1 i)) = map er_tok (v_identifiers (d2 i))) by (intros i; exact (f_equal v_identifiers (HS i))).
  assert (F18 : forall i, v_goToLabel (d1 i) = v_goToLabel (d2 i)) by (intros i; exact (f_equal v_goToLabel (HS i))).
  assert (F19 : forall i, yys (d1 i) = yys (d2 i)) by (intros i; exact (f_equal yys (HS i))).
  assert (F20 : forall i, er_tok (v_token (d1 i)) = er_tok (v_token (d2 i))) by (intros i; exact (f_equal v_token (HS i))).
  assert (HL : forall i, tk_lit (v_token (d1 i)) = tk_lit (v_token (d2 i))) by (intros i; exact (f_equal tk_lit (F20 i))).
  assert (HV : forall i, tk_value (v_token (d1 i)) = tk_value (v_token (d2 i))) by (intros i; exact (f_equal tk_value (F20 i))).
  assert (G1 : forall i, is_some (v_opt_export (d1 i)) = is_some (v_opt_export (d2 i))).
  { intros i. specialize (F12 i). destruct (v_opt_export (d1 i)), (v_opt_export (d2 i)); cbn in *; congruence. }
  assert (G2 : forall i, match v_opt_directive (d1 i) with Some t => tk_lit t | None => [] end = match v_opt_directive (d2 i) with Some t => tk_lit t | None => [] end).
  { intros i. specialize (F13 i). destruct (v_opt_directive (d1 i)), (v_opt_directive (d2 i)); cbn in *; unfold er_tok in *; congruence. }
  assert (G3 : forall i, map tk_lit (v_identifiers (d1 i)) = map tk_lit (v_identifiers (d2 i))).
  { intros i. pose proof (f_equal (map tk_lit) (F17 i)) as E. rewrite !map_map in E. exact E. }
  Local Ltac erased F1 F2 F3 F4 F5 F6 F7 F8 F9 F10 F11 F12 F13 F14 F15 F16 F17 F18 F19 F20 :=
  unfold er; cbn [yys v_token v_stmt_if v_opt_elseif_list v_opt_else v_stmt v_stmt_loop v_funcProc v_body v_opt_body v_params
  v_param v_exprs v_opt_export v_opt_directive v_explicit_variables v_global_variables v_opt_explicit_variables v_identifiers v_goToLabel
  set_yys set_token set_stmt_if set_opt_elseif_list set_opt_else set_stmt set_stmt_loop set_funcProc set_body set_opt_body set_params set_param
  set_exprs set_opt_export set_opt_directive set_explicit_variables set_global_variables set_opt_explicit_variables set_identifiers set_goToLabel option_map map];
  rewrite ?map_app; cbn [map];
  rewrite ?F1, ?F2, ?F3, ?F4, ?F5, ?F6, ?F7, ?F8, ?F9, ?F10, ?F11, ?F12, ?F13, ?F14, ?F15, ?F16, ?F17, ?F18, ?F19, ?F20; reflexivity.
  all_prods r Hr; cbn [act]; unfold lit_of, binop, createFunctionOrProcedure;
  rewrite ?HL, ?HV, ?F1, ?F2, ?F3, ?F4, ?F5, ?F6, ?F7, ?F8, ?F9, ?F10, ?F11, ?F14, ?F15, ?F16, ?F18, ?G1, ?G2, ?G3.
  all: try (cbn [RR]; split; [|exact HA]; cbn [fst]; erased F1 F2 F3 F4 F5 F6 F7 F8 F9 F10 F11 F12 F13 F14 F15 F16 F17 F18 F19 F20).
  all: try (cbn [RR]; split; [cbn [fst]; erased F1 F2 F3 F4 F5 F6 F7 F8 F9 F10 F11 F12 F13 F14 F15 F16 F17 F18 F19 F20|
    cbn [snd]; first [apply DR_function|apply DR_loop|apply DR_try]; exact HA]).
  all: try (eapply RR_bind; [first [apply stmts_dr|apply gvars_dr|apply func_dr|apply loopop_dr; [apply HL|]|apply throw_dr; [apply HL|]|apply return_dr]; exact HA|];
    intros b1 b2 HB; cbn [RR]; split; [cbn [fst]; erased F1 F2 F3 F4 F5 F6 F7 F8 F9 F10 F11 F12 F13 F14 F15 F16 F17 F18 F19 F20|exact HB]).
  - (* 12 *) cbn [RR]. split; [|exact HA]. cbn [fst]. pose proof (G3 3%nat) as E.
    rewrite <- !(map_map tk_lit (fun n => GVar _ n _)). rewrite E. erased F1 F2 F3 F4 F5 F6 F7 F8 F9 F10 F11 F12 F13 F14 F15 F16 F17 F18 F19 F20.
  - (* 19 *) eapply RR_bind; [destruct (_ && _); [apply Error_dr; exact HA|exact HA]|].
    intros b1 b2 HB. cbn [RR]. split; [|exact HB]. cbn [fst]. destruct (is_nil _); [apply HS|].
    erased F1 F2 F3 F4 F5 F6 F7 F8 F9 F10 F11 F12 F13 F14 F15 F16 F17 F18 F19 F20.
  - (* 26 *) destruct (appendVars _ _) as [[m [n|]]|]; cbn [bind]; [| |reflexivity].
    + eapply RR_bind; [apply Error_dr; exact HA|]. intros b1 b2 HB. cbn [RR]. split; [apply HS|exact HB].
    + cbn [RR]. split; [|exact HA]. cbn [fst]. erased F1 F2 F3 F4 F5 F6 F7 F8 F9 F10 F11 F12 F13 F14 F15 F16 F17 F18 F19 F20.
  - (* 27 *) destruct (appendVars _ _) as [[m [n|]]|]; cbn [bind]; [| |reflexivity].
    + eapply RR_bind; [apply Error_dr; exact HA|]. intros b1 b2 HB. cbn [RR]. split; [|exact HB].
      cbn [fst]. erased F1 F2 F3 F4 F5 F6 F7 F8 F9 F10 F11 F12 F13 F14 F15 F16 F17 F18 F19 F20.
    + cbn [RR]. split; [|exact HA]. cbn [fst]. erased F1 F2 F3 F4 F5 F6 F7 F8 F9 F10 F11 F12 F13 F14 F15 F16 F17 F18 F19 F20.
  - (* param *) destruct (v_param (d2 1%nat)) as [[x n] b] eqn:Ep. cbn [RR]. split; [|exact HA].
    cbn [fst]. erased F1 F2 F3 F4 F5 F6 F7 F8 F9 F10 F11 F12 F13 F14 F15 F16 F17 F18 F19 F20.
Qed.

(** * The scanner *)
Definition TR (t1 t2 : token) : Prop := er_tok t1 = er_tok t2 /\ at_same c1 c2 t1 t2.
Lemma Next_tr t1 t2 : TR t1 t2 -> exists k u1 u2 e, Next c1 t1 = (k, u1, e) /\ Next c2 t2 = (k, u2, e) /\ TR u1 u2.
Proof.
  intros [E (s1 & s2 & Hs & O1 & O2)]. injection E as _ E2 _ E4. unfold Next. destruct (steps_suffix _ _ _ _ Hs) as [S1 S2].
  rewrite O1, O2. destruct (suffix_cut _ _ S1) as [_ ->], (suffix_cut _ _ S2) as [_ ->]. rewrite <- E4.
  destruct (R_next (steps c1 c2) (fun s t => steps_cur c1 c2 s t HC) (steps_adv c1 c2) (tk_prevDot t1) _ _ Hs) as (r & s1' & s2' & pd & -> & -> & Hs').
  assert (G : forall v, TR (Token true v (lr_lit r) (length c1 - length s1') pd) (Token true v (lr_lit r) (length c2 - length s2') pd)).
  { intros v. split; [reflexivity|]. exists s1', s2'. auto. }
  rewrite <- E2.
  repeat match goal with
  | |- exists k u1 u2 e, (if ?b then _ else _) = _ /\ _ => destruct b
  | |- exists k u1 u2 e, match ?b with _ => _ end = _ /\ _ => destruct b
  end; do 4 eexists; (split; [reflexivity|split; [reflexivity|apply G]]).
Qed.
Lemma c_nil : c1 = [] <-> c2 = [].
Proof.
  split; intros E; rewrite E in HC; [destruct c2 as [|b x]|destruct c1 as [|b x]]; try reflexivity; rewrite (runes_eq (b :: x)) in HC; discriminate HC.
Qed.
Lemma Lex_dr a1 a2 t1 t2 : DR a1 a2 -> TR t1 t2 -> exists k u1 u2 b1 b2, Lex a1 t1 = (k, u1, b1) /\ Lex a2 t2 = (k, u2, b2) /\ TR u1 u2 /\ DR b1 b2.
Proof.
  intros HA HT. unfold Lex. rewrite (dr_code1 _ _ HA), (dr_code2 _ _ HA).
  destruct (Next_tr _ _ HT) as (k & u1 & u2 & e & E1 & E2 & HU). pose proof c_nil as N. rewrite E1, E2.
  destruct c1 as [|x1 y1] eqn:D1, c2 as [|x2 y2] eqn:D2; [|destruct N as [N _]; discriminate (N eq_refl)|destruct N as [_ N]; discriminate (N eq_refl)|]; rewrite <- D1, <- D2 in *.
  - do 5 eexists. split; [reflexivity|]. split; [reflexivity|]. auto.
  - destruct e as [e|].
    + do 5 eexists. split; [reflexivity|]. split; [reflexivity|]. split; [exact HU|]. destruct HA. constructor; auto.
    + destruct (k =? EOF); do 5 eexists; (split; [reflexivity|]; split; [reflexivity|]; split; [exact HU|]); [exact HA|]. destruct HU, HA. constructor; auto.
Qed.

(** * The driver *)
Record PR (p1 p2 : pst) : Prop := {
  pr_stk : map er (p_stk p1) = map er (p_stk p2);
  pr_above : map er (p_above p1) = map er (p_above p2);
  pr_state : p_state p1 = p_state p2;
  pr_lval : er (p_lval p1) = er (p_lval p2);
  pr_at : at_same c1 c2 (v_token (p_lval p1)) (v_token (p_lval p2));
  pr_char : p_char p1 = p_char p2;
  pr_tok : p_tok p1 = p_tok p2;
  pr_ast : DR (p_ast p1) (p_ast p2) }.
Definition SR (x y : sres) : Prop :=
  match x, y with Next_ p, Next_ q => PR p q | Done n a, Done k b => n = k /\ DR a b | Crash p, Crash q => p = q | _, _ => False end.
Lemma SR_bind {A} (Q : A -> A -> Prop) x y f g : RR Q x y -> (forall a b, Q a b -> SR (f a) (g b)) -> SR (sbind x f) (sbind y g).
Proof. destruct x, y; cbn; intros H G; try contradiction; auto. Qed.
Lemma RR_refl {A} (x : res A) : RR eq x x. Proof. destruct x; reflexivity. Qed.
Lemma er_yys v w n : er v = er w -> er (set_yys v n) = er (set_yys w n).
Proof. intros H. change (set_yys (er v) n = set_yys (er w) n). rewrite H. reflexivity. Qed.
Lemma er_token v w t u : er v = er w -> er_tok t = er_tok u -> er (set_token v t) = er (set_token w u).
Proof. intros H E. change (set_token (er v) (er_tok t) = set_token (er w) (er_tok u)). rewrite H, E. reflexivity. Qed.
Lemma cons_er x y l k : map er (x :: l) = map er (y :: k) -> er x = er y /\ map er l = map er k.
Proof. cbn [map]. generalize (er x) (er y) (map er l) (map er k). intros a b u v H. injection H. auto. Qed.
Lemma map_tl_er (l k : list slot) : map er l = map er k -> map er (tl l) = map er (tl k).
Proof. destruct l, k; intros H; try discriminate H; [reflexivity|]. apply (cons_er _ _ _ _ H). Qed.
Lemma push_pr p q v w st : PR p q -> er v = er w -> PR (push p v st) (push q w st).
Proof. intros [] E. constructor; cbn [push p_stk p_above p_state p_lval p_char p_tok p_ast]; auto; [cbn [map]; f_equal; [apply er_yys, E|assumption]|apply map_tl_er; assumption]. Qed.
Lemma ensure_pr p q : PR p q -> RR PR (ensure p) (ensure q).
Proof.
  intros H. unfold ensure. rewrite <- (pr_char _ _ H). destruct (_ <? 0); [|exact H].
  destruct (Lex_dr _ _ (v_token (p_lval p)) (v_token (p_lval q)) (pr_ast _ _ H)) as (k & u1 & u2 & b1 & b2 & -> & -> & [T1 T2] & HB).
  { split; [exact (f_equal v_token (pr_lval _ _ H))|exact (pr_at _ _ H)]. }
  eapply RR_bind; [apply RR_refl|]. intros x y <-. destruct H. cbn [RR]. constructor; cbn [p_stk p_above p_state p_lval p_char p_tok p_ast]; auto.
  - apply er_token; assumption.
Qed.
Lemma pop_pr n : forall s1 s2 a1 a2, map er s1 = map er s2 -> map er a1 = map er a2 ->
  match pop n s1 a1, pop n s2 a2 with
  | Some (x, y), Some (x', y') => map er x = map er x' /\ map er y = map er y'
  | None, None => True
  | _, _ => False
  end.
Proof.
  induction n as [|n IH]; intros s1 s2 a1 a2 H1 H2; cbn [pop]; [auto|]. destruct s1 as [|x s1], s2 as [|y s2]; try discriminate H1; [exact I|].
  apply cons_er in H1 as [E H1]. apply IH; [exact H1|]. cbn [map]. rewrite E, H2. reflexivity.
Qed.
Lemma nth_er l k i : map er l = map er k -> er (nth i l zero_slot) = er (nth i k zero_slot).
Proof. intros H. change (er (nth i l zero_slot)) with (er (nth i l zero_slot)). rewrite <- !(map_nth er), H. reflexivity. Qed.
Lemma reduce_pr p q r : r <> 0 -> PR p q -> SR (reduce p r) (reduce q r).
Proof.
  intros Hr H. unfold reduce. assert (P : (exists n, tab yyR2 r = Ok n /\ prodno r) \/ exists e, tab yyR2 r = Panic e).
  { unfold tab. destruct (r <? 0) eqn:L; [right; eauto|]. destruct (nth_error yyR2 (Z.to_nat r)) eqn:E; [left|right; eauto]. eexists. split; [reflexivity|].
    apply Z.ltb_ge in L. assert (X : (Z.to_nat r < length yyR2)%nat) by (apply nth_error_Some; congruence). unfold prodno, n_prods. change (length yyR2) with 113%nat in X. lia. }
  destruct P as [(n & -> & P)|(e & ->)]; cbn [sbind]; [|reflexivity].
  pose proof (pop_pr (Z.to_nat n) _ _ _ _ (pr_stk _ _ H) (pr_above _ _ H)) as X.
  destruct (pop (Z.to_nat n) (p_stk p) (p_above p)) as [[s1 a1]|], (pop (Z.to_nat n) (p_stk q) (p_above q)) as [[s2 a2]|]; try contradiction; [|reflexivity].
  destruct X as [X1 X2]. destruct s1 as [|b1 s1], s2 as [|b2 s2]; try discriminate X1; [reflexivity|].
  assert (Y : yys b1 = yys b2) by (apply cons_er in X1 as [X1 _]; exact (f_equal yys X1)).
  eapply SR_bind; [apply RR_refl|]. intros r1 r1' <-. rewrite <- Y. eapply SR_bind; [apply RR_refl|]. intros st st' <-.
  cbv zeta. replace (hd zero_slot a1) with (nth (1 - 1) a1 zero_slot) by (destruct a1; reflexivity). replace (hd zero_slot a2) with (nth (1 - 1) a2 zero_slot) by (destruct a2; reflexivity).
  eapply SR_bind; [apply (act_dr r (fun i => nth (i - 1) a1 zero_slot) (fun i => nth (i - 1) a2 zero_slot)); [exact P|intros i; apply nth_er, X2|exact (pr_ast _ _ H)]|].
  intros [v a] [w b] [V1 V2]. cbn [fst snd] in *. cbn [SR]. apply push_pr; [|exact V1]. destruct H. constructor; cbn [p_stk p_above p_state p_lval p_char p_tok p_ast]; auto.
Qed.
Lemma find_error_er s1 : forall s2, map er s1 = map er s2 -> find_error s1 = find_error s2.
Proof.
  induction s1 as [|x s1 IH]; intros [|y s2] H; try discriminate H; [reflexivity|]. apply cons_er in H as [E H]. cbn [find_error].
  assert (Y : yys x = yys y) by (exact (f_equal yys E)). rewrite Y, (IH _ H). reflexivity.
Qed.
Lemma yydefault_pr p q : PR p q -> SR (yydefault p) (yydefault q).
Proof.
  intros H. unfold yydefault. rewrite <- (pr_state _ _ H). eapply SR_bind; [apply RR_refl|]. intros d d' <-.
  eapply SR_bind with (Q := PR); [destruct (d =? -2); [apply ensure_pr, H|exact H]|]. intros p1 q1 H1.
  rewrite <- (pr_state _ _ H1), <- (pr_tok _ _ H1). eapply SR_bind; [apply RR_refl|]. intros d1 d1' <-.
  destruct (_ && _); [split; [reflexivity|exact (pr_ast _ _ H1)]|]. destruct (d1 =? 0) eqn:E.
  - eapply SR_bind; [apply Error_dr, (pr_ast _ _ H1)|]. intros a b HB. rewrite (find_error_er _ _ (pr_stk _ _ H1)).
    eapply SR_bind; [apply RR_refl|]. intros e e' <-. destruct e; [reflexivity|]. split; [reflexivity|exact HB].
  - apply reduce_pr; [apply Z.eqb_neq, E|exact H1].
Qed.
Lemma step_pr p q : PR p q -> SR (step p) (step q).
Proof.
  intros H. unfold step. rewrite <- (pr_state _ _ H). eapply SR_bind; [apply RR_refl|]. intros n n' <-.
  destruct (n <=? yyFlag); [apply yydefault_pr, H|]. eapply SR_bind; [apply ensure_pr, H|]. intros p1 q1 H1. cbv zeta. rewrite <- (pr_tok _ _ H1).
  destruct (_ || _); [apply yydefault_pr, H1|]. eapply SR_bind; [apply RR_refl|]. intros s s' <-. eapply SR_bind; [apply RR_refl|]. intros c c' <-.
  destruct (c =? _); [|apply yydefault_pr, H1]. cbn [SR]. apply push_pr; [|exact (pr_lval _ _ H1)].
  destruct H1. constructor; cbn [p_stk p_above p_state p_lval p_char p_tok p_ast]; auto.
Qed.
Lemma run_pr f : forall p q, PR p q ->
  match run f p, run f q with
  | None, None => True
  | Some x, Some y => RR (fun u v => fst u = fst v /\ DR (snd u) (snd v)) x y
  | _, _ => False
  end.
Proof.
  induction f as [|f IH]; intros p q H; cbn [run]; [exact I|]. pose proof (step_pr _ _ H) as X.
  destruct (step p), (step q); cbn [SR] in X; try contradiction; [apply IH, X|exact X|exact X].
Qed.
Lemma DR_start a1 a2 : DR a1 a2 -> PR (init_pst a1) (init_pst a2).
Proof. intros H. constructor; try reflexivity; [|exact H]. exists c1, c2. cbn. split; [apply steps_start|]. lia. Qed.
Theorem Parse_dr a1 a2 : DR a1 a2 ->
  match Parse a1, Parse a2 with
  | Some (Ok (b1, e1)), Some (Ok (b2, e2)) => DR b1 b2 /\ e1 = e2
  | Some (Panic p), Some (Panic q) => p = q
  | _, _ => False
  end.
Proof.
  intros H. unfold Parse, blank. rewrite (dr_code1 _ _ H), (dr_code2 _ _ H), <- HC. destruct (forallb _ _); [auto|].
  set (f := Nat.max (parse_fuel c1) (parse_fuel c2)).
  pose proof (run_enough a1 f) as R1. pose proof (run_enough a2 f) as R2. rewrite (dr_code1 _ _ H) in R1. rewrite (dr_code2 _ _ H) in R2.
  assert (P : exists x, run (parse_fuel c1) (init_pst a1) = Some x).
  { destruct (run_result _ (init_inv a1)) as (n & p' & _ & _ & _ & R4 & R). rewrite R by (rewrite init_potential; unfold parse_fuel; rewrite (dr_code1 _ _ H); lia).
    destruct (step p'); [contradiction| |]; cbn [outcome]; eauto. }
  pose proof (run_pr f _ _ (DR_start _ _ H)) as X. rewrite R1 in P |- * by (subst f; lia). rewrite R2 by (subst f; lia). destruct P as (x & P). rewrite P in *.
  destruct (run f (init_pst a2)) as [y|]; [|contradiction]. destruct x as [[n1 u1]|], y as [[n2 u2]|]; cbn [RR] in X; try contradiction; [|exact X].
  destruct X as [_ X]. cbn [fst snd] in X. split; [exact X|exact (dr_err _ _ X)].
Qed.
Lemma DR_new : DR (NewAST c1) (NewAST c2).
Proof. constructor; try reflexivity. exists c1, c2. cbn. split; [apply steps_start|]. lia. Qed.
End Codes.
