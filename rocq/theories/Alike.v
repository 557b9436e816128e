(** Two texts with the same tokens: the driver does the same on both. *)
From Verif Require Import Bytes Utf8 Float64 GoTime Ast Lexer LexFacts LexSpec LexProofs Tables Parser Grammar Tok CertData Cert Driver DriverInv Trees Machine
  CstEval Levels Bind Items Complete TightOk ViableData Viable Blame Told.
Open Scope Z_scope.

(** * Cells up to the tokens in them *)
Definition bare (t : token) : token := Token false SNil (tk_lit t) 0 false.
Definition strip (c : slot) : slot :=
  Slot (yys c) zero_token (v_stmt_if c) (v_opt_elseif_list c) (v_opt_else c) (v_stmt c) (v_stmt_loop c) (v_funcProc c) (v_body c) (v_opt_body c) (v_params c) (v_param c)
    (v_exprs c) (option_map (fun _ => zero_token) (v_opt_export c)) (option_map bare (v_opt_directive c)) (v_explicit_variables c) (v_global_variables c)
    (v_opt_explicit_variables c) (map bare (v_identifiers c)) (v_goToLabel c).

(** * Nodes up to positions *)
Definition msg_rel (m1 m2 : emsg) : Prop :=
  match m1, m2 with
  | MLoopOp _, MLoopOp _ => True
  | MThrow _, MThrow _ => True
  | _, _ => m1 = m2
  end.
Definition err_rel (P : token -> token -> Prop) (c1 c2 : bytes) (e1 e2 : option perr) : Prop :=
  (e1 = None /\ e2 = None) \/ (exists x, e1 = Some (ELex x) /\ e2 = Some (ELex x)) \/
  exists m1 m2 t1 t2, msg_rel m1 m2 /\ P t1 t2 /\ e1 = Some (loc c1 t1 m1) /\ e2 = Some (loc c2 t2 m2).
Record AR (P : token -> token -> Prop) (c1 c2 : bytes) (a1 a2 : astnode) : Prop := {
  ar_code1 : a_code a1 = c1;
  ar_code2 : a_code a2 = c2;
  ar_module : a_module a1 = a_module a2;
  ar_loop : a_isLoop a1 = a_isLoop a2;
  ar_try : a_isTry a1 = a_isTry a2;
  ar_function : a_isFunction a1 = a_isFunction a2;
  ar_ast : tk_ast (a_cur a1) = tk_ast (a_cur a2);
  ar_cur : tk_ast (a_cur a1) = true -> P (a_cur a1) (a_cur a2);
  ar_err : err_rel P c1 c2 (a_err a1) (a_err a2) }.
Definition RR {A} (R : A -> A -> Prop) (x y : res A) : Prop :=
  match x, y with Ok a, Ok b => R a b | Panic p, Panic q => p = q | _, _ => False end.
Lemma RR_bind {A C} (R : A -> A -> Prop) (S : C -> C -> Prop) x y f g : RR R x y -> (forall a b, R a b -> RR S (f a) (g b)) -> RR S (bind x f) (bind y g).
Proof. destruct x, y; cbn; intros H G; try contradiction; auto. Qed.

Lemma Error_alike P c1 c2 a1 a2 m1 m2 : AR P c1 c2 a1 a2 -> msg_rel m1 m2 -> RR (AR P c1 c2) (Error a1 m1) (Error a2 m2).
Proof.
  intros [] Hm. unfold Error. rewrite <- ar_ast0. destruct (tk_ast (a_cur a1)) eqn:E; cbn [RR]; [|reflexivity].
  constructor; cbn [set_err a_code a_module a_isLoop a_isTry a_isFunction a_cur a_err]; auto; try congruence.
  right. right. exists m1, m2, (a_cur a1), (a_cur a2). subst c1 c2. unfold loc. auto.
Qed.
Lemma AR_module P c1 c2 a1 a2 m : AR P c1 c2 a1 a2 -> AR P c1 c2 (set_module a1 m) (set_module a2 m).
Proof. intros []. constructor; auto. Qed.
Lemma gvar_alike P c1 c2 v a1 a2 : AR P c1 c2 a1 a2 -> RR (AR P c1 c2) (append_gvar v a1) (append_gvar v a2).
Proof.
  intros H. unfold append_gvar. rewrite <- (ar_module _ _ _ _ _ H). destruct (negb _); [apply Error_alike; [exact H|reflexivity]|].
  destruct (Parser.mem _ _); [apply Error_alike; [apply AR_module, H|reflexivity]|]. cbn [RR]. apply AR_module, H.
Qed.
Lemma gvars_alike P c1 c2 vs : forall a1 a2, AR P c1 c2 a1 a2 -> RR (AR P c1 c2) (append_gvars vs a1) (append_gvars vs a2).
Proof.
  induction vs as [|v vs IH]; intros a1 a2 H; cbn [append_gvars]; [exact H|]. eapply RR_bind; [apply gvar_alike, H|exact IH].
Qed.
Lemma stmts_alike P c1 c2 b a1 a2 : AR P c1 c2 a1 a2 -> RR (AR P c1 c2) (append_stmts b a1) (append_stmts b a2).
Proof. intros H. unfold append_stmts. rewrite <- (ar_module _ _ _ _ _ H). apply AR_module, H. Qed.
Lemma func_alike P c1 c2 f a1 a2 : AR P c1 c2 a1 a2 -> RR (AR P c1 c2) (append_func f a1) (append_func f a2).
Proof.
  intros H. unfold append_func. rewrite <- (ar_module _ _ _ _ _ H). destruct (_ && _); [apply Error_alike; [exact H|reflexivity]|]. apply AR_module, H.
Qed.

Lemma AR_function P c1 c2 a1 a2 b : AR P c1 c2 a1 a2 -> AR P c1 c2 (set_function a1 b) (set_function a2 b).
Proof. intros []. constructor; auto. Qed.
Lemma AR_loop P c1 c2 a1 a2 n : AR P c1 c2 a1 a2 -> AR P c1 c2 (add_loop a1 n) (add_loop a2 n).
Proof. intros []. constructor; cbn [add_loop a_code a_module a_isLoop a_isTry a_isFunction a_cur a_err]; auto; congruence. Qed.
Lemma AR_try P c1 c2 a1 a2 n : AR P c1 c2 a1 a2 -> AR P c1 c2 (add_try a1 n) (add_try a2 n).
Proof. intros []. constructor; cbn [add_try a_code a_module a_isLoop a_isTry a_isFunction a_cur a_err]; auto; congruence. Qed.
Lemma loopop_alike P c1 c2 u1 u2 a1 a2 : AR P c1 c2 a1 a2 -> RR (AR P c1 c2) (checkLoopOperator u1 a1) (checkLoopOperator u2 a2).
Proof.
  intros H. unfold checkLoopOperator. rewrite <- (ar_loop _ _ _ _ _ H). destruct (_ =? 0); [apply Error_alike; [exact H|exact I]|exact H].
Qed.
Lemma throw_alike P c1 c2 u1 u2 s a1 a2 : AR P c1 c2 a1 a2 -> RR (AR P c1 c2) (checkThrowParam u1 s a1) (checkThrowParam u2 s a2).
Proof.
  intros H. unfold checkThrowParam. rewrite <- (ar_try _ _ _ _ _ H). destruct (_ && _); [apply Error_alike; [exact H|exact I]|exact H].
Qed.
Lemma return_alike P c1 c2 s a1 a2 : AR P c1 c2 a1 a2 -> RR (AR P c1 c2) (checkReturnParam s a1) (checkReturnParam s a2).
Proof.
  intros H. unfold checkReturnParam. rewrite <- (ar_function _ _ _ _ _ H). destruct (_ && _); [apply Error_alike; [exact H|reflexivity]|exact H].
Qed.

(** Where the actions read the text or the value of a token. *)
Definition lit_places : list (Z * nat) :=
  [(9, 1%nat); (14, 3%nat); (15, 3%nat); (19, 2%nat); (35, 3%nat); (55, 1%nat); (56, 1%nat); (58, 1%nat); (59, 1%nat); (61, 1%nat); (97, 1%nat); (98, 2%nat); (103, 2%nat); (104, 2%nat); (106, 1%nat); (107, 1%nat); (108, 3%nat)].
Definition value_places : list (Z * nat) := [(60, 1%nat); (88, 1%nat); (89, 1%nat); (92, 1%nat); (93, 1%nat); (94, 1%nat)].
Definition placed (l : list (Z * nat)) (r : Z) (i : nat) : bool := existsb (fun x => (fst x =? r) && Nat.eqb (snd x) i) l.

Definition VR P c1 c2 (x y : slot * astnode) : Prop := strip (fst x) = strip (fst y) /\ AR P c1 c2 (snd x) (snd y).

Lemma act_alike P c1 c2 r d1 d2 a1 a2 : prodno r -> (forall i, strip (d1 i) = strip (d2 i)) ->
  (forall i, placed lit_places r i = true -> tk_lit (v_token (d1 i)) = tk_lit (v_token (d2 i))) ->
  (forall i, placed value_places r i = true -> tk_value (v_token (d1 i)) = tk_value (v_token (d2 i))) ->
  AR P c1 c2 a1 a2 -> RR (VR P c1 c2) (act r d1 (d1 1%nat) a1) (act r d2 (d2 1%nat) a2).
Proof.
  intros Hr HS HL HV HA.
  assert (F1 : forall i, v_stmt_if (d1 i) = v_stmt_if (d2 i)) by (intros i; exact (f_equal v_stmt_if (HS i))).
  assert (F2 : forall i, v_opt_elseif_list (d1 i) = v_opt_elseif_list (d2 i)) by (intros i; exact (f_equal v_opt_elseif_list (HS i))).
  assert (F3 : forall i, v_opt_else (d1 i) = v_opt_else (d2 i)) by (intros i; exact (f_equal v_opt_else (HS i))).
  assert (F4 : forall i, v_stmt (d1 i) = v_stmt (d2 i)) by (intros i; exact (f_equal v_stmt (HS i))).
  assert (F5 : forall i, v_stmt_loop (d1 i) = v_stmt_loop (d2 i)) by (intros i; exact (f_equal v_stmt_loop (HS i))).
  assert (F6 : forall i, v_funcProc (d1 i) = v_funcProc (d2 i)) by (intros i; exact (f_equal v_funcProc (HS i))).
  assert (F7 : forall i, v_body (d1 i) = v_body (d2 i)) by (intros i; exact (f_equal v_body (HS i))).
  assert (F8 : forall i, v_opt_body (d1 i) = v_opt_body (d2 i)) by (intros i; exact (f_equal v_opt_body (HS i))).
  assert (F9 : forall i, v_params (d1 i) = v_params (d2 i)) by (intros i; exact (f_equal v_params (HS i))).
  assert (F10 : forall i, v_param (d1 i) = v_param (d2 i)) by (intros i; exact (f_equal v_param (HS i))).
  assert (F11 : forall i, v_exprs (d1 i) = v_exprs (d2 i)) by (intros i; exact (f_equal v_exprs (HS i))).
  assert (F12 : forall i, option_map (fun _ => zero_token) (v_opt_export (d1 i)) = option_map (fun _ => zero_token) (v_opt_export (d2 i))) by (intros i; exact (f_equal v_opt_export (HS i))).
  assert (F13 : forall i, option_map bare (v_opt_directive (d1 i)) = option_map bare (v_opt_directive (d2 i))) by (intros i; exact (f_equal v_opt_directive (HS i))).
  assert (F14 : forall i, v_explicit_variables (d1 i) = v_explicit_variables (d2 i)) by (intros i; exact (f_equal v_explicit_variables (HS i))).
  assert (F15 : forall i, v_global_variables (d1 i) = v_global_variables (d2 i)) by (intros i; exact (f_equal v_global_variables (HS i))).
  assert (F16 : forall i, v_opt_explicit_variables (d1 i) = v_opt_explicit_variables (d2 i)) by (intros i; exact (f_equal v_opt_explicit_variables (HS i))).
  assert (F17 : forall i, map bare (v_identifiers (d1 i)) = map bare (v_identifiers (d2 i))) by (intros i; exact (f_equal v_identifiers (HS i))).
  assert (F18 : forall i, v_goToLabel (d1 i) = v_goToLabel (d2 i)) by (intros i; exact (f_equal v_goToLabel (HS i))).
  assert (F19 : forall i, yys (d1 i) = yys (d2 i)) by (intros i; exact (f_equal yys (HS i))).
  assert (G1 : forall i, is_some (v_opt_export (d1 i)) = is_some (v_opt_export (d2 i))).
  { intros i. specialize (F12 i). destruct (v_opt_export (d1 i)), (v_opt_export (d2 i)); cbn in *; congruence. }
  assert (G2 : forall i, match v_opt_directive (d1 i) with Some t => tk_lit t | None => [] end = match v_opt_directive (d2 i) with Some t => tk_lit t | None => [] end).
  { intros i. specialize (F13 i). destruct (v_opt_directive (d1 i)), (v_opt_directive (d2 i)); cbn in *; unfold bare in *; congruence. }
  assert (G3 : forall i, map tk_lit (v_identifiers (d1 i)) = map tk_lit (v_identifiers (d2 i))).
  { intros i. pose proof (f_equal (map tk_lit) (F17 i)) as E. rewrite !map_map in E. exact E. }
  pose proof (ar_loop _ _ _ _ _ HA) as A1. pose proof (ar_try _ _ _ _ _ HA) as A2. pose proof (ar_function _ _ _ _ _ HA) as A3.
  Local Ltac stripped HL F1 F2 F3 F4 F5 F6 F7 F8 F9 F10 F11 F12 F13 F14 F15 F16 F17 F18 F19 :=
  unfold strip; cbn [yys v_token v_stmt_if v_opt_elseif_list v_opt_else v_stmt v_stmt_loop v_funcProc v_body v_opt_body v_params
  v_param v_exprs v_opt_export v_opt_directive v_explicit_variables v_global_variables v_opt_explicit_variables v_identifiers v_goToLabel
  set_yys set_token set_stmt_if set_opt_elseif_list set_opt_else set_stmt set_stmt_loop set_funcProc set_body set_opt_body set_params set_param
  set_exprs set_opt_export set_opt_directive set_explicit_variables set_global_variables set_opt_explicit_variables set_identifiers set_goToLabel option_map map];
  rewrite ?map_app; unfold bare; cbn [map]; fold bare;
  try (rewrite (HL 1%nat) by reflexivity); try (rewrite (HL 3%nat) by reflexivity);
  rewrite ?F1, ?F2, ?F3, ?F4, ?F5, ?F6, ?F7, ?F8, ?F9, ?F10, ?F11, ?F12, ?F13, ?F14, ?F15, ?F16, ?F17, ?F18, ?F19; reflexivity.
  all_prods r Hr; cbn [act]; unfold lit_of, binop, createFunctionOrProcedure;
  try (rewrite (HL 1%nat) by reflexivity); try (rewrite (HL 2%nat) by reflexivity); try (rewrite (HL 3%nat) by reflexivity); try (rewrite (HV 1%nat) by reflexivity);
  rewrite ?F1, ?F2, ?F3, ?F4, ?F5, ?F6, ?F7, ?F8, ?F9, ?F10, ?F11, ?F14, ?F15, ?F16, ?F18, ?G1, ?G2, ?G3.
  all: try (cbn [RR]; split; [|exact HA]; cbn [fst]; stripped HL F1 F2 F3 F4 F5 F6 F7 F8 F9 F10 F11 F12 F13 F14 F15 F16 F17 F18 F19).
  all: try (cbn [RR]; split; [cbn [fst]; stripped HL F1 F2 F3 F4 F5 F6 F7 F8 F9 F10 F11 F12 F13 F14 F15 F16 F17 F18 F19|
    cbn [snd]; first [apply AR_function|apply AR_loop|apply AR_try]; exact HA]).
  all: try (eapply RR_bind; [first [apply stmts_alike|apply gvars_alike|apply func_alike|apply loopop_alike|apply throw_alike|apply return_alike]; exact HA|];
    intros b1 b2 HB; cbn [RR]; split; [cbn [fst]; stripped HL F1 F2 F3 F4 F5 F6 F7 F8 F9 F10 F11 F12 F13 F14 F15 F16 F17 F18 F19|exact HB]).
  - (* 12 *) cbn [RR]. split; [|exact HA]. cbn [fst]. pose proof (G3 3%nat) as E.
    rewrite <- !(map_map tk_lit (fun n => GVar _ n _)). rewrite E. stripped HL F1 F2 F3 F4 F5 F6 F7 F8 F9 F10 F11 F12 F13 F14 F15 F16 F17 F18 F19.
  - (* 19 *) eapply RR_bind; [destruct (_ && _); [apply Error_alike; [exact HA|reflexivity]|exact HA]|].
    intros b1 b2 HB. cbn [RR]. split; [|exact HB]. cbn [fst]. destruct (is_nil _); [apply HS|].
    stripped HL F1 F2 F3 F4 F5 F6 F7 F8 F9 F10 F11 F12 F13 F14 F15 F16 F17 F18 F19.
  - (* 26 *) destruct (appendVars _ _) as [[m [n|]]|]; cbn [bind]; [| |reflexivity].
    + eapply RR_bind; [apply Error_alike; [exact HA|reflexivity]|]. intros b1 b2 HB. cbn [RR]. split; [apply HS|exact HB].
    + cbn [RR]. split; [|exact HA]. cbn [fst]. stripped HL F1 F2 F3 F4 F5 F6 F7 F8 F9 F10 F11 F12 F13 F14 F15 F16 F17 F18 F19.
  - (* 27 *) destruct (appendVars _ _) as [[m [n|]]|]; cbn [bind]; [| |reflexivity].
    + eapply RR_bind; [apply Error_alike; [exact HA|reflexivity]|]. intros b1 b2 HB. cbn [RR]. split; [|exact HB].
      cbn [fst]. stripped HL F1 F2 F3 F4 F5 F6 F7 F8 F9 F10 F11 F12 F13 F14 F15 F16 F17 F18 F19.
    + cbn [RR]. split; [|exact HA]. cbn [fst]. stripped HL F1 F2 F3 F4 F5 F6 F7 F8 F9 F10 F11 F12 F13 F14 F15 F16 F17 F18 F19.
  - (* param *) destruct (v_param (d2 1%nat)) as [[x n] b] eqn:Ep. cbn [RR]. split; [|exact HA].
    cbn [fst]. stripped HL F1 F2 F3 F4 F5 F6 F7 F8 F9 F10 F11 F12 F13 F14 F15 F16 F17 F18 F19.
Qed.
