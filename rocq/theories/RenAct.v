(** The actions of the grammar on cells with exchanged names and literals (C69). *)
From Verif Require Import Bytes Utf8 Float64 GoTime Ast Lexer LexFacts LexSpec LexProofs Tables Parser Grammar Tok CertData Cert Driver DriverInv Trees Machine
  CstEval Levels Bind Items Complete TightOk ViableData Viable Blame Told Alike Rename RenPieces.
Open Scope Z_scope.

Section Ren.
Context (rr : ren) (g : lexerr -> lexerr) (S : bytes -> Prop).
Context (R1 : r_name rr [] = []) (R2 : r_dir rr [] = []) (R3 : forall n n', S n -> S n' -> r_name rr n = r_name rr n' -> n = n').
Context (R4 : forall f, r_num rr (f64_opp f) = f64_opp (r_num rr f)).
Let rs := ren_stmt rr.
Definition rslice : slice -> slice := option_map (map (ren_stmt rr)).
Definition rbare (t : token) : token := Token false SNil (r_name rr (tk_lit t)) 0 false.
Definition dbare (t : token) : token := Token false SNil (r_dir rr (tk_lit t)) 0 false.
Definition rparam (p : param) : param := (ren_stmt rr (fst (fst p)), r_name rr (snd (fst p)), snd p).
Definition rstrip (c : slot) : slot :=
  Slot (yys c) zero_token (rs (v_stmt_if c)) (rslice (v_opt_elseif_list c)) (rslice (v_opt_else c)) (rs (v_stmt c)) (rs (v_stmt_loop c)) (rs (v_funcProc c)) (rslice (v_body c))
    (rslice (v_opt_body c)) (map rparam (v_params c)) (rparam (v_param c)) (rslice (fst (v_exprs c)), snd (v_exprs c))
    (option_map (fun _ => zero_token) (v_opt_export c)) (option_map dbare (v_opt_directive c)) (option_map (map (r_name rr)) (v_explicit_variables c)) (map (ren_gvar rr) (v_global_variables c))
    (option_map (map (r_name rr)) (v_opt_explicit_variables c)) (map rbare (v_identifiers c)) (option_map (r_label rr) (v_goToLabel c)).
Definition known (c : slot) : Prop :=
  Forall (fun t => S (tk_lit t)) (v_identifiers c) /\ Forall S (elems (v_explicit_variables c)) /\ Forall (fun v => S (gv_name v)) (v_global_variables c).

Lemma rslice_app s l : rslice (gappend s l) = gappend (rslice s) (map rs l).
Proof. unfold gappend. destruct l as [|x l]; [reflexivity|]. destruct s as [k|]; cbn [rslice option_map elems map]; [rewrite map_app|]; reflexivity. Qed.
Lemma ren_nil s : is_nil (rs s) = is_nil s. Proof. destruct s; reflexivity. Qed.
Lemma ren_not s : rs (not_ s) = not_ (rs s). Proof. destruct s; reflexivity. Qed.
Lemma ren_minus s : rs (unaryMinus s) = unaryMinus (rs s).
Proof. destruct s; try reflexivity. cbn [unaryMinus ren_stmt rs]. unfold rs. cbn [ren_stmt]. rewrite R4. reflexivity. Qed.
Lemma ren_label l : rs (label_stmt l) = label_stmt (option_map (r_label rr) l). Proof. destruct l; reflexivity. Qed.
Lemma elems_rslice s : elems (rslice s) = map rs (elems s). Proof. destruct s; reflexivity. Qed.
Lemma last_ren l : last (map rs l) SNil = rs (last l SNil).
Proof. induction l as [|x [|y l] IH]; [reflexivity|reflexivity|]. exact IH. Qed.
Lemma label_ren s : is_label (rs s) = is_label s. Proof. destruct s; reflexivity. Qed.
Lemma func_ren s : is_func (rs s) = is_func s. Proof. destruct s; reflexivity. Qed.

Lemma mem_ren n l : S n -> Forall S l -> Parser.mem (r_name rr n) (map (r_name rr) l) = Parser.mem n l.
Proof.
  intros Hn Hl. apply Bool.eq_iff_eq_true. unfold Parser.mem. rewrite !existsb_exists. rewrite Forall_forall in Hl. split.
  - intros (x & H & E). apply in_map_iff in H as (y & <- & Hy). apply beqb_eq in E. exists y. split; [exact Hy|]. apply beqb_eq, R3; auto.
  - intros (x & H & E). apply beqb_eq in E. subst x. exists (r_name rr n). split; [apply in_map, H|]. apply beqb_eq. reflexivity.
Qed.
Lemma vars_ren ids : forall m, Forall S ids -> Forall S (elems m) ->
  match appendVars m ids, appendVars (option_map (map (r_name rr)) m) (map (r_name rr) ids) with
  | Ok (x, n), Ok (y, k) => y = option_map (map (r_name rr)) x /\ k = option_map (r_name rr) n /\ Forall S (elems x)
  | Panic p, Panic q => p = q
  | _, _ => False
  end.
Proof.
  induction ids as [|v ids IH]; intros m Hi Hm; cbn [appendVars map]; [auto|]. inversion Hi as [|? ? Hv Hi2]; subst.
  assert (E : elems (option_map (map (r_name rr)) m) = map (r_name rr) (elems m)) by (destruct m; reflexivity). rewrite E, mem_ren by assumption.
  destruct (Parser.mem v (elems m)); [auto|]. destruct m as [l|]; [|reflexivity]. cbn [option_map]. specialize (IH (Some (l ++ [v])) Hi2). cbn [option_map elems] in IH. rewrite map_app in IH. apply IH.
  cbn [elems] in Hm. apply Forall_app. auto.
Qed.

(** * Nodes *)
Definition err_ren (P : token -> token -> Prop) (c1 c2 : bytes) (e1 e2 : option perr) : Prop :=
  (e1 = None /\ e2 = None) \/ (exists x, e1 = Some (ELex x) /\ e2 = Some (ELex (g x))) \/
  exists m1 m2 t1 t2, msg_rel (ren_message rr m1) m2 /\ P t1 t2 /\ e1 = Some (loc c1 t1 m1) /\ e2 = Some (loc c2 t2 m2).
Record AN (P : token -> token -> Prop) (c1 c2 : bytes) (a1 a2 : astnode) : Prop := {
  an_code1 : a_code a1 = c1;
  an_code2 : a_code a2 = c2;
  an_module : a_module a2 = ren_module rr (a_module a1);
  an_known : Forall (fun v => S (gv_name v)) (elems (m_gvars (a_module a1)));
  an_loop : a_isLoop a1 = a_isLoop a2;
  an_try : a_isTry a1 = a_isTry a2;
  an_function : a_isFunction a1 = a_isFunction a2;
  an_ast : tk_ast (a_cur a1) = tk_ast (a_cur a2);
  an_cur : tk_ast (a_cur a1) = true -> P (a_cur a1) (a_cur a2);
  an_err : err_ren P c1 c2 (a_err a1) (a_err a2) }.
Context (P : token -> token -> Prop) (c1 c2 : bytes).
Let A := AN P c1 c2.

Lemma Error_ren a1 a2 m1 m2 : A a1 a2 -> msg_rel (ren_message rr m1) m2 -> RR A (Error a1 m1) (Error a2 m2).
Proof.
  intros [] Hm. unfold Error. rewrite <- an_ast0. destruct (tk_ast (a_cur a1)) eqn:E; cbn [RR]; [|reflexivity].
  constructor; cbn [set_err a_code a_module a_isLoop a_isTry a_isFunction a_cur a_err]; auto; try congruence.
  right. right. exists m1, m2, (a_cur a1), (a_cur a2). rewrite <- an_code3, <- an_code4. unfold loc. auto.
Qed.
Lemma AN_module a1 a2 m1 m2 : A a1 a2 -> m2 = ren_module rr m1 -> Forall (fun v => S (gv_name v)) (elems (m_gvars m1)) -> A (set_module a1 m1) (set_module a2 m2).
Proof. intros [] H1 H2. constructor; auto. Qed.
Lemma AN_function a1 a2 b : A a1 a2 -> A (set_function a1 b) (set_function a2 b).
Proof. intros []. constructor; auto. Qed.
Lemma AN_loop a1 a2 n : A a1 a2 -> A (add_loop a1 n) (add_loop a2 n).
Proof. intros []. constructor; cbn [add_loop a_code a_module a_isLoop a_isTry a_isFunction a_cur a_err]; auto; congruence. Qed.
Lemma AN_try a1 a2 n : A a1 a2 -> A (add_try a1 n) (add_try a2 n).
Proof. intros []. constructor; cbn [add_try a_code a_module a_isLoop a_isTry a_isFunction a_cur a_err]; auto; congruence. Qed.

Lemma body_ren a1 a2 : A a1 a2 -> elems (m_body (a_module a2)) = map rs (elems (m_body (a_module a1))).
Proof. intros H. rewrite (an_module _ _ _ _ _ H). cbn [ren_module m_body]. apply elems_rslice. Qed.
Lemma gvar_ren v a1 a2 : S (gv_name v) -> A a1 a2 -> RR A (append_gvar v a1) (append_gvar (ren_gvar rr v) a2).
Proof.
  intros Hv H. unfold append_gvar. rewrite (body_ren _ _ H), map_length. destruct (negb _); [apply Error_ren; [exact H|reflexivity]|].
  assert (E : elems (m_gvars (a_module a2)) = map (ren_gvar rr) (elems (m_gvars (a_module a1)))) by (rewrite (an_module _ _ _ _ _ H); cbn [ren_module m_gvars]; destruct (m_gvars _); reflexivity).
  assert (E2 : map gv_name (elems (m_gvars (a_module a2))) = map (r_name rr) (map gv_name (elems (m_gvars (a_module a1))))) by (rewrite E, !map_map; reflexivity).
  rewrite E2. change (gv_name (ren_gvar rr v)) with (r_name rr (gv_name v)).
  pose proof (an_known _ _ _ _ _ H) as K.
  rewrite mem_ren by (try assumption; apply Forall_map, K). rewrite E, (an_module _ _ _ _ _ H).
  destruct (Parser.mem _ _); [apply Error_ren; [|reflexivity]|cbn [RR]]; (apply AN_module; [exact H| |]); cbn [ren_module m_name m_gvars m_body option_map elems]; try reflexivity; try assumption.
  - unfold ren_module. cbn [m_name m_gvars m_body option_map]. rewrite map_app. reflexivity.
  - apply Forall_app. auto.
Qed.
Lemma gvars_ren vs : forall a1 a2, Forall (fun v => S (gv_name v)) vs -> A a1 a2 -> RR A (append_gvars vs a1) (append_gvars (map (ren_gvar rr) vs) a2).
Proof.
  induction vs as [|v vs IH]; intros a1 a2 Hv H; cbn [append_gvars map]; [exact H|]. inversion Hv as [|? ? H1 H2]; subst. eapply RR_bind; [apply gvar_ren; assumption|].
  intros a b Hab. apply IH; assumption.
Qed.
Lemma stmts_ren b a1 a2 : A a1 a2 -> RR A (append_stmts b a1) (append_stmts (rslice b) a2).
Proof.
  intros H. unfold append_stmts. rewrite (an_module _ _ _ _ _ H). cbn [RR]. apply AN_module; [exact H| |exact (an_known _ _ _ _ _ H)].
  unfold ren_module. cbn [m_name m_gvars m_body]. rewrite elems_rslice. f_equal. symmetry. apply rslice_app.
Qed.
Lemma funcs_ren f a1 a2 : A a1 a2 -> RR A (append_func f a1) (append_func (rs f) a2).
Proof.
  intros H. unfold append_func. rewrite (body_ren _ _ H), map_length, last_ren, func_ren. destruct (_ && _); [apply Error_ren; [exact H|reflexivity]|].
  rewrite (an_module _ _ _ _ _ H). cbn [RR]. apply AN_module; [exact H| |exact (an_known _ _ _ _ _ H)].
  unfold ren_module. cbn [m_name m_gvars m_body]. f_equal. symmetry. apply (rslice_app _ [f]).
Qed.
Lemma loopop_ren u1 u2 a1 a2 : A a1 a2 -> RR A (checkLoopOperator u1 a1) (checkLoopOperator u2 a2).
Proof. intros H. unfold checkLoopOperator. rewrite <- (an_loop _ _ _ _ _ H). destruct (_ =? 0); [apply Error_ren; [exact H|exact I]|exact H]. Qed.
Lemma throw_ren u1 u2 s a1 a2 : A a1 a2 -> RR A (checkThrowParam u1 s a1) (checkThrowParam u2 (rs s) a2).
Proof. intros H. unfold checkThrowParam. rewrite <- (an_try _ _ _ _ _ H), ren_nil. destruct (_ && _); [apply Error_ren; [exact H|exact I]|exact H]. Qed.
Lemma return_ren s a1 a2 : A a1 a2 -> RR A (checkReturnParam s a1) (checkReturnParam (rs s) a2).
Proof. intros H. unfold checkReturnParam. rewrite <- (an_function _ _ _ _ _ H), ren_nil. destruct (_ && _); [apply Error_ren; [exact H|reflexivity]|exact H]. Qed.

(** * Actions *)
(** What becomes of the text of a token that an action reads. *)
Definition ren_lit (r : Z) : bytes -> bytes :=
  if r =? 19 then fun s => s else if r =? 9 then r_dir rr else if r =? 106 then r_label rr else r_name rr.
Definition VN (x y : slot * astnode) : Prop := rstrip (fst x) = strip (fst y) /\ A (snd x) (snd y) /\ known (fst x).

Lemma act_ren r d1 d2 a1 a2 : prodno r -> (forall i, rstrip (d1 i) = strip (d2 i)) -> (forall i, known (d1 i)) ->
  (forall i, placed lit_places r i = true -> tk_lit (v_token (d2 i)) = ren_lit r (tk_lit (v_token (d1 i)))) ->
  (forall i, placed value_places r i = true -> tk_value (v_token (d2 i)) = rs (tk_value (v_token (d1 i)))) ->
  (r = 35 -> v_stmt (d1 5%nat) <> SNil) -> (r = 107 -> S (tk_lit (v_token (d1 1%nat)))) -> (r = 108 -> S (tk_lit (v_token (d1 3%nat)))) ->
  A a1 a2 -> RR VN (act r d1 (d1 1%nat) a1) (act r d2 (d2 1%nat) a2).
Proof.
  intros Hr HS HK HL HV H35 H107 H108 HA.
  assert (F1 : forall i, v_stmt_if (d2 i) = rs (v_stmt_if (d1 i))) by (intros i; symmetry; exact (f_equal v_stmt_if (HS i))).
  assert (F2 : forall i, v_opt_elseif_list (d2 i) = rslice (v_opt_elseif_list (d1 i))) by (intros i; symmetry; exact (f_equal v_opt_elseif_list (HS i))).
  assert (F3 : forall i, v_opt_else (d2 i) = rslice (v_opt_else (d1 i))) by (intros i; symmetry; exact (f_equal v_opt_else (HS i))).
  assert (F4 : forall i, v_stmt (d2 i) = rs (v_stmt (d1 i))) by (intros i; symmetry; exact (f_equal v_stmt (HS i))).
  assert (F5 : forall i, v_stmt_loop (d2 i) = rs (v_stmt_loop (d1 i))) by (intros i; symmetry; exact (f_equal v_stmt_loop (HS i))).
  assert (F6 : forall i, v_funcProc (d2 i) = rs (v_funcProc (d1 i))) by (intros i; symmetry; exact (f_equal v_funcProc (HS i))).
  assert (F7 : forall i, v_body (d2 i) = rslice (v_body (d1 i))) by (intros i; symmetry; exact (f_equal v_body (HS i))).
  assert (F8 : forall i, v_opt_body (d2 i) = rslice (v_opt_body (d1 i))) by (intros i; symmetry; exact (f_equal v_opt_body (HS i))).
  assert (F9 : forall i, v_params (d2 i) = map rparam (v_params (d1 i))) by (intros i; symmetry; exact (f_equal v_params (HS i))).
  assert (F10 : forall i, v_param (d2 i) = rparam (v_param (d1 i))) by (intros i; symmetry; exact (f_equal v_param (HS i))).
  assert (F11 : forall i, v_exprs (d2 i) = (rslice (fst (v_exprs (d1 i))), snd (v_exprs (d1 i)))) by (intros i; symmetry; exact (f_equal v_exprs (HS i))).
  assert (F12 : forall i, option_map (fun _ => zero_token) (v_opt_export (d2 i)) = option_map (fun _ => zero_token) (v_opt_export (d1 i))) by (intros i; symmetry; exact (f_equal v_opt_export (HS i))).
  assert (F13 : forall i, option_map bare (v_opt_directive (d2 i)) = option_map dbare (v_opt_directive (d1 i))) by (intros i; symmetry; exact (f_equal v_opt_directive (HS i))).
  assert (F14 : forall i, v_explicit_variables (d2 i) = option_map (map (r_name rr)) (v_explicit_variables (d1 i))) by (intros i; symmetry; exact (f_equal v_explicit_variables (HS i))).
  assert (F15 : forall i, v_global_variables (d2 i) = map (ren_gvar rr) (v_global_variables (d1 i))) by (intros i; symmetry; exact (f_equal v_global_variables (HS i))).
  assert (F16 : forall i, v_opt_explicit_variables (d2 i) = option_map (map (r_name rr)) (v_opt_explicit_variables (d1 i))) by (intros i; symmetry; exact (f_equal v_opt_explicit_variables (HS i))).
  assert (F17 : forall i, map bare (v_identifiers (d2 i)) = map rbare (v_identifiers (d1 i))) by (intros i; symmetry; exact (f_equal v_identifiers (HS i))).
  assert (F18 : forall i, v_goToLabel (d2 i) = option_map (r_label rr) (v_goToLabel (d1 i))) by (intros i; symmetry; exact (f_equal v_goToLabel (HS i))).
  assert (F19 : forall i, yys (d2 i) = yys (d1 i)) by (intros i; symmetry; exact (f_equal yys (HS i))).
  assert (G1 : forall i, is_some (v_opt_export (d2 i)) = is_some (v_opt_export (d1 i))).
  { intros i. specialize (F12 i). destruct (v_opt_export (d1 i)), (v_opt_export (d2 i)); cbn in *; congruence. }
  assert (G2 : forall i, match v_opt_directive (d2 i) with Some t => tk_lit t | None => [] end = r_dir rr (match v_opt_directive (d1 i) with Some t => tk_lit t | None => [] end)).
  { intros i. specialize (F13 i). destruct (v_opt_directive (d1 i)), (v_opt_directive (d2 i)); cbn in *; unfold bare, dbare in *; congruence. }
  assert (G3 : forall i, map tk_lit (v_identifiers (d2 i)) = map (r_name rr) (map tk_lit (v_identifiers (d1 i)))).
  { intros i. pose proof (f_equal (map tk_lit) (F17 i)) as E. rewrite (map_map bare), (map_map rbare) in E. rewrite (map_map tk_lit). exact E. }
  Local Ltac rstripped HL F1 F2 F3 F4 F5 F6 F7 F8 F9 F10 F11 F12 F13 F14 F15 F16 F17 F18 F19 :=
  unfold strip, rstrip; cbn [yys v_token v_stmt_if v_opt_elseif_list v_opt_else v_stmt v_stmt_loop v_funcProc v_body v_opt_body v_params
  v_param v_exprs v_opt_export v_opt_directive v_explicit_variables v_global_variables v_opt_explicit_variables v_identifiers v_goToLabel
  set_yys set_token set_stmt_if set_opt_elseif_list set_opt_else set_stmt set_stmt_loop set_funcProc set_body set_opt_body set_params set_param
  set_exprs set_opt_export set_opt_directive set_explicit_variables set_global_variables set_opt_explicit_variables set_identifiers set_goToLabel option_map map fst snd];
  rewrite ?map_app; unfold bare, dbare, rbare; cbn [map]; fold bare; fold dbare; fold rbare;
  try (rewrite (HL 1%nat) by reflexivity); try (rewrite (HL 3%nat) by reflexivity);
  rewrite ?F1, ?F2, ?F3, ?F4, ?F5, ?F6, ?F7, ?F8, ?F9, ?F10, ?F11, ?F12, ?F13, ?F14, ?F15, ?F16, ?F17, ?F18, ?F19; rewrite ?rslice_app, ?ren_not, ?ren_minus, ?ren_label.
  all_prods r Hr; cbn [act]; unfold lit_of, binop, createFunctionOrProcedure;
  try (rewrite (HL 1%nat) by reflexivity); try (rewrite (HL 2%nat) by reflexivity); try (rewrite (HL 3%nat) by reflexivity); try (rewrite (HV 1%nat) by reflexivity);
  rewrite ?F1, ?F2, ?F3, ?F4, ?F5, ?F6, ?F7, ?F8, ?F9, ?F10, ?F11, ?F14, ?F15, ?F16, ?F18, ?G1, ?G2, ?G3.
  Local Ltac kn HK := first [exact (HK 1%nat)|exact (conj (proj1 (HK 1%nat)) (conj (proj1 (proj2 (HK 1%nat))) (proj2 (proj2 (HK 1%nat)))))].
  all: try (cbn [RR]; split; [|split; [exact HA|kn HK]]; cbn [fst]; rstripped HL F1 F2 F3 F4 F5 F6 F7 F8 F9 F10 F11 F12 F13 F14 F15 F16 F17 F18 F19; reflexivity).
  all: try (cbn [RR]; split; [cbn [fst]; rstripped HL F1 F2 F3 F4 F5 F6 F7 F8 F9 F10 F11 F12 F13 F14 F15 F16 F17 F18 F19; reflexivity|split; [|kn HK];
    cbn [snd]; first [apply AN_function|apply AN_loop|apply AN_try]; exact HA]).
  all: try (eapply RR_bind; [first [apply stmts_ren|apply gvars_ren; [apply (HK 1%nat)|]|apply funcs_ren|apply loopop_ren|apply throw_ren|apply return_ren]; exact HA|];
    intros b1 b2 HB; cbn [RR]; split; [cbn [fst]; rstripped HL F1 F2 F3 F4 F5 F6 F7 F8 F9 F10 F11 F12 F13 F14 F15 F16 F17 F18 F19; reflexivity|split; [exact HB|kn HK]]).
  - (* 12 *) cbn [RR]. split; [|split; [exact HA|]]; cbn [fst].
    + rstripped HL F1 F2 F3 F4 F5 F6 F7 F8 F9 F10 F11 F12 F13 F14 F15 F16 F17 F18 F19. pose proof (G3 3%nat) as E. do 17 f_equal.
      rewrite map_map. rewrite <- (map_map tk_lit (fun n => GVar _ n _) (v_identifiers (d2 3%nat))), E. rewrite !map_map. reflexivity.
    + destruct (HK 1%nat) as (K1 & K2 & _), (HK 3%nat) as (K3 & _). split; [exact K1|]. split; [exact K2|]. cbn [set_global_variables v_global_variables]. apply Forall_map. exact K3.
  - (* 19 *) unfold ren_lit. cbn [Z.eqb Pos.eqb]. rewrite elems_rslice, map_length, last_ren, label_ren, ren_nil.
    eapply RR_bind; [destruct (_ && _); [apply Error_ren; [exact HA|reflexivity]|exact HA]|].
    intros b1 b2 HB. cbn [RR]. split; [|split; [exact HB|destruct (is_nil _); kn HK]]. cbn [fst]. destruct (is_nil _); [apply HS|]. rstripped HL F1 F2 F3 F4 F5 F6 F7 F8 F9 F10 F11 F12 F13 F14 F15 F16 F17 F18 F19. reflexivity.
  - (* 26 *) pose proof (vars_ren (map tk_lit (v_identifiers (d1 2%nat))) (Some [])) as V. destruct (HK 2%nat) as (K & _).
    specialize (V ltac:(apply Forall_map; exact K) ltac:(constructor)). cbn [option_map map] in V.
    destruct (appendVars (Some []) (map tk_lit _)) as [[m n]|p], (appendVars (Some []) (map (r_name rr) _)) as [[m2 n2]|q]; cbn [bind]; try contradiction; [|exact V]. destruct V as (-> & -> & V).
    destruct n as [n|]; cbn [option_map].
    + eapply RR_bind; [apply Error_ren; [exact HA|reflexivity]|]. intros b1 b2 HB. cbn [RR]. split; [apply HS|split; [exact HB|kn HK]].
    + cbn [RR]. split; [|split; [exact HA|]]; cbn [fst]; [rstripped HL F1 F2 F3 F4 F5 F6 F7 F8 F9 F10 F11 F12 F13 F14 F15 F16 F17 F18 F19; reflexivity|]. destruct (HK 1%nat) as (K1 & K2 & K3). split; [exact K1|]. split; [exact V|exact K3].
  - (* 27 *) destruct (HK 1%nat) as (K1 & K2 & K3). pose proof (vars_ren (map tk_lit (v_identifiers (d1 3%nat))) (v_explicit_variables (d1 1%nat))) as V. destruct (HK 3%nat) as (K & _).
    specialize (V ltac:(apply Forall_map; exact K) K2).
    destruct (appendVars _ (map tk_lit _)) as [[m n]|p], (appendVars _ (map (r_name rr) _)) as [[m2 n2]|q]; cbn [bind]; try contradiction; [|exact V]. destruct V as (-> & -> & V).
    destruct n as [n|]; cbn [option_map].
    + eapply RR_bind; [apply Error_ren; [exact HA|reflexivity]|]. intros b1 b2 HB. cbn [RR]. split; [cbn [fst]; rstripped HL F1 F2 F3 F4 F5 F6 F7 F8 F9 F10 F11 F12 F13 F14 F15 F16 F17 F18 F19; reflexivity|split; [exact HB|]]. split; [exact K1|]. split; [exact V|exact K3].
    + cbn [RR]. split; [|split; [exact HA|]]; cbn [fst]; [rstripped HL F1 F2 F3 F4 F5 F6 F7 F8 F9 F10 F11 F12 F13 F14 F15 F16 F17 F18 F19; reflexivity|]. split; [exact K1|]. split; [exact V|exact K3].
  - (* 35 *) cbn [RR]. split; [|split; [apply AN_loop; exact HA|kn HK]]. cbn [fst]. specialize (H35 eq_refl). rstripped HL F1 F2 F3 F4 F5 F6 F7 F8 F9 F10 F11 F12 F13 F14 F15 F16 F17 F18 F19.
    unfold rs. cbn [ren_stmt]. destruct (v_stmt (d1 5%nat)) eqn:E5; try contradiction; reflexivity.
  - (* param *) destruct (v_param (d1 1%nat)) as [[x n] b] eqn:Ep. cbn [rparam fst snd]. cbn [RR]. split; [|split; [exact HA|kn HK]].
    cbn [fst]. rewrite ren_nil. rstripped HL F1 F2 F3 F4 F5 F6 F7 F8 F9 F10 F11 F12 F13 F14 F15 F16 F17 F18 F19. destruct (is_nil (v_stmt (d1 3%nat))); reflexivity.
  - (* 105 *) cbn [RR]. split; [|split; [exact HA|kn HK]]. cbn [fst snd]. rstripped HL F1 F2 F3 F4 F5 F6 F7 F8 F9 F10 F11 F12 F13 F14 F15 F16 F17 F18 F19. unfold rs. cbn [ren_stmt]. rewrite R1. reflexivity.
  - (* 107 *) cbn [RR]. split; [cbn [fst]; rstripped HL F1 F2 F3 F4 F5 F6 F7 F8 F9 F10 F11 F12 F13 F14 F15 F16 F17 F18 F19; reflexivity|split; [exact HA|]]. destruct (HK 1%nat) as (K1 & K2 & K3). split; [|split; [exact K2|exact K3]]. constructor; [exact (H107 eq_refl)|constructor].
  - (* 108 *) cbn [RR]. split; [cbn [fst]; rstripped HL F1 F2 F3 F4 F5 F6 F7 F8 F9 F10 F11 F12 F13 F14 F15 F16 F17 F18 F19; reflexivity|split; [exact HA|]]. destruct (HK 1%nat) as (K1 & K2 & K3). split; [|split; [exact K2|exact K3]].
    cbn [fst set_identifiers v_identifiers]. apply Forall_app. split; [exact K1|]. constructor; [exact (H108 eq_refl)|constructor].
Qed.
End Ren.
