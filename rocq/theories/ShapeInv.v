(** Every node holds a tree of the shape of Shapes.v. *)
From Verif Require Import Bytes Utf8 UnicodeTables Float64 GoTime Ast Lexer LexFacts Utf8Facts LexSpec LexProofs LexTrivia
  LexTokens LexStrings NumSpec NumProofs NumTokens LexReject Tok Tables Parser Grammar CertData Cert Driver DriverInv Trees CellInv StmtInd PrintInv
  Properties_Literals Writes PrintToks SpellInv.
Require Import Verif.Shapes.
Open Scope Z_scope.

Notation arg := (fun x => x = SNil \/ expr x).

Lemma wordb_name n : wordb n = true -> name n. Proof. apply wordb_spec. Qed.
Lemma chars_label n : chars_b n = true -> label_name n. Proof. apply chars_b_spec. Qed.
Lemma dirb_directive d : dirb d = true -> directive d.
Proof.
  destruct d as [|b n]; [discriminate|]. cbn [dirb]. rewrite !andb_true_iff. intros ((Hb & Hc) & Ha). right.
  apply chars_b_spec in Hc as (w & Hw & ->).
  assert (b = x26) as ->. { apply Z.eqb_eq in Hb. rewrite <- (z2b_b2z b), Hb. reflexivity. }
  change (x26 :: string_of_runes w) with (B "&" ++ string_of_runes w) in Ha.
  pose proof (proj1 (Forall_word _) Hw) as Hw2.
  destruct (directive_lookup w Hw) as [[(x & Hx & Hs) _]|[_ E]]; [exists w, x; auto|].
  exfalso. change (B "&" ++ string_of_runes w) with (string_of_runes (38 :: w)) in Ha.
  rewrite lower_runes in Ha by (cbn [forallb]; apply word_runes_valid, Hw2).
  change (string_of_runes (map lower_rune (38 :: w))) with (B "&" ++ string_of_runes (map lower_rune w)) in Ha.
  fold (directive_kind w) in Ha. rewrite E in Ha. discriminate.
Qed.

Lemma expr_part s : part s -> expr s.
Proof. inversion 1; subst; [apply (ex_var _ false false)|apply (ex_call _ _ false)|apply ex_item]; assumption. Qed.
Lemma expr_path s : path s -> expr s.
Proof. inversion 1; subst; [apply expr_part; assumption|apply (ex_chain _ _ false false); assumption]. Qed.
Lemma expr_minus s : expr s -> expr (unaryMinus s).
Proof. inversion 1; subst; cbn [unaryMinus fl_plus fl_not fl_minus]; try assumption; constructor; assumption. Qed.
Lemma expr_not s : expr s -> expr (not_ s).
Proof. inversion 1; subst; cbn [not_ fl_plus fl_not fl_minus]; try assumption; constructor; assumption. Qed.
Lemma iterable_path s : path s -> iterable s.
Proof.
  intros H. split; [apply expr_path, H|]. inversion H as [? Hp|]; subst; [|reflexivity]. inversion Hp; subst; exact I || reflexivity.
Qed.
Definition literal_value (s : stmt) : Prop := match s with SStr _ | SNum _ | SBool _ | STime _ => True | _ => False end.
Lemma value_expr s : literal_value s -> built s -> expr s.
Proof. intros H Hb. apply built_inv in Hb as [Hb _]. destruct s; try contradiction; constructor; exact Hb. Qed.
Lemma Next_value code t k t' : Next code t = (k, t', None) -> In k [tString; tNumber; tDate; tTrue; tFalse] -> literal_value (tk_value t').
Proof.
  unfold Next. destruct (next (tk_prevDot t) (skipn (tk_off t) code)) as [[r s'] pd']. intros H Hk. revert H.
  destruct (lr_tok r =? tNumber) eqn:E1. { destruct (parse_float _); [|discriminate]. intros [= <- <-]. exact I. }
  destruct (lr_tok r =? tString) eqn:E2. { intros [= <- <- _]. exact I. }
  destruct (lr_tok r =? tDate) eqn:E3. { destruct (forallb _ _); [intros [= <- <- _]; exact I|]. destruct (parse_date _); [|discriminate]. intros [= <- <-]. exact I. }
  destruct (lr_tok r =? tUndefind) eqn:E4. { apply Z.eqb_eq in E4. intros [= <- <- _]. rewrite E4 in Hk. exfalso. revert Hk. vm_compute. intuition discriminate. }
  destruct (lr_tok r =? tTrue) eqn:E5. { intros [= <- <- _]. exact I. }
  destruct (lr_tok r =? tFalse) eqn:E6. { intros [= <- <- _]. exact I. }
  intros [= <- <- _]. apply Z.eqb_neq in E1, E2, E3, E5, E6. exfalso. cbn [In] in Hk. intuition.
Qed.
Definition tok_sort (k : Z) (t : token) : Prop :=
  (In k words -> name (tk_lit t)) /\ (k = tDirective -> directive (tk_lit t)) /\ (k = tGoToLabel -> label_name (tk_lit t)) /\
  (In k [tString; tNumber; tDate; tTrue; tFalse] -> expr (tk_value t)).
Lemma Next_sort code t k t' : Next code t = (k, t', None) -> tok_sort k t'.
Proof.
  intros H. destruct (Next_ok _ _ _ _ H) as (T1 & T2 & T3 & T4). split; [auto using wordb_name|]. split; [auto using dirb_directive|].
  split; [auto using chars_label|]. intros Hk. apply value_expr; [eapply Next_value; eassumption|auto].
Qed.

(** * Cells *)
Definition blocks (b : slice) : Prop := Forall statement (elems b).
Record cell (c : slot) : Prop := {
  h_elseif : Forall branch (elems (v_opt_elseif_list c));
  h_else : blocks (v_opt_else c);
  h_body : blocks (v_body c);
  h_opt_body : blocks (v_opt_body c);
  h_params : Forall parameter (v_params c);
  h_vars : variables (elems (v_explicit_variables c));
  h_opt_vars : variables (elems (v_opt_explicit_variables c));
  h_dir : match v_opt_directive c with Some t => directive (tk_lit t) | None => True end;
  h_ids : Forall (fun t => name (tk_lit t)) (v_identifiers c);
  h_gvars : Forall (fun g => name (gv_name g) /\ directive (gv_dir g)) (v_global_variables c) }.
Definition of_sort (n : nonterm) (c : slot) : Prop :=
  match n with
  | n_stmt | n_stmt_tryCatch => statement (v_stmt c)
  | n_opt_stmt => v_stmt c = SNil \/ statement (v_stmt c)
  | n_expr | n_simple_expr | n_execute_param => expr (v_stmt c)
  | n_opt_expr => v_stmt c = SNil \/ expr (v_stmt c)
  | n_through_dot => path (v_stmt c)
  | n_identifier => part (v_stmt c)
  | n_loopExp | n_new_object | n_ternary => iterable (v_stmt c)
  | n_stmt_if => statement (v_stmt_if c)
  | n_stmt_loop => statement (v_stmt_loop c)
  | n_funcProc => procedure (v_funcProc c)
  | n_exprs => exists l, v_exprs c = (Some l, no_flags) /\ l <> [] /\ Forall arg l
  | n_goToLabel => exists n, v_goToLabel c = Some n /\ label_name n
  | n_declarations_method_param => parameter (v_param c)
  | _ => True
  end.
Definition sorted (k : Z) (c : slot) : Prop :=
  (forall ch, In ch terminals -> k = tokno_of ch -> tok_sort ch (v_token c)) /\
  (forall n, k = - nt_no n -> of_sort n c).

Lemma variables_nil : variables []. Proof. split; constructor. Qed.
Lemma cell_zero : cell zero_slot.
Proof. constructor; try constructor; try exact I; constructor. Qed.
Lemma blocks_app b l : blocks b -> Forall statement l -> blocks (gappend b l).
Proof. intros H1 H2. unfold gappend. destruct l; [exact H1|]. unfold blocks. cbn [elems]. apply Forall_app. auto. Qed.
Lemma elems_gappend {A} (b : option (list A)) l : elems (gappend b l) = elems b ++ l.
Proof. unfold gappend. destruct l; [rewrite app_nil_r|]; reflexivity. Qed.
Lemma mem_In k l : Parser.mem k l = true <-> In k l.
Proof.
  unfold Parser.mem. rewrite existsb_exists. split; [intros (x & Hx & E); apply beqb_eq in E; congruence|]. intros H. exists k. split; [exact H|apply beqb_eq; reflexivity].
Qed.
Lemma NoDup_snoc {A} (l : list A) x : NoDup l -> ~ In x l -> NoDup (l ++ [x]).
Proof. intros H1 H2. apply NoDup_rev in H1. rewrite <- (rev_involutive (l ++ [x])), rev_app_distr. apply NoDup_rev. cbn. constructor; [rewrite <- in_rev; exact H2|exact H1]. Qed.
Lemma appendVars_variables ids : forall m m' e, appendVars m ids = Ok (m', e) -> variables (elems m) -> Forall name ids -> variables (elems m').
Proof.
  induction ids as [|v ids IH]; cbn [appendVars]; intros m m' e H Hm Hi; [injection H as <- _; exact Hm|].
  apply Forall_cons_iff in Hi as [Hv Hi]. destruct (Parser.mem v (elems m)) eqn:E; [injection H as <- _; exact Hm|].
  destruct m as [l|]; [|discriminate]. apply (IH _ _ _ H); [|exact Hi]. cbn [elems] in *. destruct Hm as [H1 H2].
  split; [|apply Forall_app; auto]. apply NoDup_snoc; [exact H1|]. intros Hin. apply mem_In in Hin. congruence.
Qed.
Definition gvar_shape (m : module) : Prop :=
  NoDup (map gv_name (elems (m_gvars m))) /\ Forall (fun g => name (gv_name g) /\ directive (gv_dir g)) (elems (m_gvars m)).
Lemma gvars_shape vs : forall a a', append_gvars vs a = Ok a' -> Forall (fun g => name (gv_name g) /\ directive (gv_dir g)) vs ->
  gvar_shape (a_module a) -> gvar_shape (a_module a') /\ m_name (a_module a') = m_name (a_module a).
Proof.
  induction vs as [|v vs IH]; cbn [append_gvars]; intros a a' H Hv Ha; [injection H as <-; auto|].
  apply Forall_cons_iff in Hv as [Hv Hvs]. destruct (append_gvar v a) as [a1|] eqn:E; [|discriminate]. cbn [bind] in H.
  assert (G : gvar_shape (a_module a1) /\ m_name (a_module a1) = m_name (a_module a)).
  { clear IH H. unfold append_gvar in E. cbv zeta in E. destruct (negb _); [apply Error_inv in E as [e ->]; auto|].
    destruct (Parser.mem _ _) eqn:Em; [apply Error_inv in E as [e ->]; split; [exact Ha|reflexivity]|].
    injection E as <-. cbn [a_module set_module m_gvars m_name]. split; [|reflexivity]. destruct Ha as [H1 H2]. unfold gvar_shape. cbn [m_gvars elems].
    rewrite map_app. split; [|apply Forall_app; auto]. apply NoDup_snoc; [exact H1|]. intros Hin. apply mem_In in Hin. congruence. }
  destruct G as [G1 G2]. destruct (IH _ _ H Hvs G1) as [G3 G4]. split; [exact G3|congruence].
Qed.
Lemma procedure_func s : procedure s -> is_func s = true. Proof. inversion 1; reflexivity. Qed.
Lemma statement_func s : statement s -> is_func s = false.
Proof. inversion 1 as [e He| | | | | | | | | |]; subst; try reflexivity. inversion He; reflexivity. Qed.
Lemma append_func_shape f a a' : append_func f a = Ok a' -> procedure f -> shape (a_module a) -> shape (a_module a').
Proof.
  unfold append_func. intros H Hf (S1 & S2 & S3 & fs & ss & S4 & S5 & S6). destruct (_ && _) eqn:E.
  - apply Error_inv in H as [e ->]. repeat (split; [assumption|]). exists fs, ss. auto.
  - injection H as <-. cbn [a_module set_module]. split; [exact S1|]. split; [exact S2|]. split; [exact S3|]. cbn [m_body elems].
    exists (fs ++ [f]), []. rewrite app_nil_r. split; [|split; [apply Forall_app; auto|constructor]]. rewrite S4. f_equal.
    destruct (rev ss) as [|x ss'] eqn:Er; [apply (f_equal (@rev _)) in Er; rewrite rev_involutive in Er; cbn in Er; subst ss; apply app_nil_r|].
    exfalso. assert (Es : ss = rev ss' ++ [x]) by (rewrite <- (rev_involutive ss), Er; reflexivity). rewrite S4, Es, app_assoc, last_last in E.
    rewrite Es in S6. apply Forall_app in S6 as [_ S6]. apply Forall_cons_iff in S6 as [S6 _]. apply statement_func in S6.
    rewrite S6, app_length in E. cbn [length] in E. rewrite Nat.add_1_r in E. discriminate.
Qed.
Lemma append_stmts_shape b a a' : append_stmts b a = Ok a' -> blocks b -> shape (a_module a) -> shape (a_module a').
Proof.
  unfold append_stmts. intros [= <-] Hb (S1 & S2 & S3 & fs & ss & S4 & S5 & S6). cbn [a_module set_module].
  split; [exact S1|]. split; [exact S2|]. split; [exact S3|]. cbn [m_body]. rewrite elems_gappend, S4, <- app_assoc.
  exists fs, (ss ++ elems b). split; [reflexivity|]. split; [exact S5|]. apply Forall_app. auto.
Qed.

Lemma iterable_expr s : iterable s -> expr s. Proof. intros [H _]. exact H. Qed.
Lemma iterable_new s : expr s -> match s with SNew _ _ _ | STern _ _ _ => True | _ => False end -> iterable s.
Proof. intros H1 H2. split; [exact H1|]. destruct s; try contradiction; exact I. Qed.
Lemma opt_stmt s : v_stmt s = SNil \/ statement (v_stmt s) -> is_nil (v_stmt s) = false -> statement (v_stmt s).
Proof. intros [->|H]; [discriminate|auto]. Qed.

Ltac at_tok Ht :=
  match goal with
  | |- name (lit_of (_ ?n)) => let i := eval cbv in (Nat.pred n) in apply (proj1 (Ht i _ eq_refl)); vm_compute; tauto
  | |- name (tk_lit (v_token (_ ?n))) => let i := eval cbv in (Nat.pred n) in apply (proj1 (Ht i _ eq_refl)); vm_compute; tauto
  | |- directive (tk_lit (v_token (_ ?n))) => let i := eval cbv in (Nat.pred n) in apply (proj1 (proj2 (Ht i _ eq_refl))); reflexivity
  | |- label_name (lit_of (_ ?n)) => let i := eval cbv in (Nat.pred n) in apply (proj1 (proj2 (proj2 (Ht i _ eq_refl)))); reflexivity
  | |- expr (tk_value (v_token (_ ?n))) => let i := eval cbv in (Nat.pred n) in apply (proj2 (proj2 (proj2 (Ht i _ eq_refl)))); vm_compute; tauto
  end.
(** The sort of the [n]-th symbol. *)
Ltac at_sort Hs n := let i := eval cbv in (Nat.pred n) in exact (Hs i _ eq_refl).
Ltac sort_step Ht Hs :=
  first [ assumption | exact I | at_tok Ht
        | match goal with H : forall i : nat, _ |- _ => solve [apply H] end
        | match goal with
          | |- blocks None => apply Forall_nil
          | |- Forall statement (elems None) => apply Forall_nil
          | |- Forall branch (elems (Some [])) => apply Forall_nil
          | |- Forall statement (elems (_ (_ ?n))) => let i := eval cbv in (Nat.pred n) in solve [match goal with H : forall i : nat, blocks _ |- _ => exact (H n) end]
          | |- blocks (Some [_]) => apply Forall_cons; [|apply Forall_nil]
          | |- variables [] => exact variables_nil
          | |- variables (elems (Some [])) => exact variables_nil
          | |- statement (v_stmt (_ ?n)) => at_sort Hs n
          | |- statement (v_stmt_if (_ ?n)) => at_sort Hs n
          | |- statement (v_stmt_loop (_ ?n)) => at_sort Hs n
          | |- path (v_stmt (_ ?n)) => at_sort Hs n
          | |- part (v_stmt (_ ?n)) => at_sort Hs n
          | |- iterable (v_stmt (_ ?n)) => at_sort Hs n
          | |- iterable (v_stmt (_ ?n)) => apply iterable_path; at_sort Hs n
          | |- expr (v_stmt (_ ?n)) => at_sort Hs n
          | |- expr (v_stmt (_ ?n)) => apply expr_path; at_sort Hs n
          | |- expr (v_stmt (_ ?n)) => apply iterable_expr; at_sort Hs n
          | |- parameter (v_param (_ ?n)) => at_sort Hs n
          | |- v_stmt (_ ?n) = SNil \/ expr _ => at_sort Hs n
          | |- v_stmt (_ ?n) = SNil \/ statement _ => at_sort Hs n
          | |- v_stmt (_ ?n) = SNil \/ expr _ => right
          | |- v_stmt (_ ?n) = SNil \/ statement _ => right
          | |- SNil = SNil \/ _ => left; reflexivity
          | |- expr (SNew _ None no_flags) => apply ex_new
          | |- expr (unaryMinus _) => apply expr_minus
          | |- expr (not_ _) => apply expr_not
          | |- expr (SExp _ _ _ no_flags) => apply (ex_operation _ _ _ false false); [discriminate| |]
          | |- expr (STern _ _ _) => apply ex_ternary
          | |- expr SUndef => apply ex_undefined
          | |- part (SVar _ no_flags) => apply pt_var
          | |- expr (SVar _ no_flags) => apply (ex_var _ false false)
          | |- part (SItem _ _) => apply pt_item
          | |- part (SMethod _ (Some [_]) no_flags no_flags) => apply pt_call; [|discriminate|apply Forall_cons; [right|apply Forall_nil]]
          | |- path (SChain _ _ no_flags) => apply pa_chain
          | |- path (v_stmt _) => apply pa_part
          | |- iterable _ => apply iterable_new; [|exact I]
          | |- statement (SAssign _ _ _) => apply st_assign
          | |- statement (SIf _ _ _ _) => apply st_if
          | |- statement (SLoop (SStr _) _ _ _ _) => apply st_for_each
          | |- statement (SLoop SNil _ _ _ _) => apply st_while
          | |- statement (SLoop _ _ _ _ _) => apply st_for
          | |- statement (STry _ _) => apply st_try
          | |- statement (v_stmt _) => apply st_expr
          | |- parameter (_, _, _) => split
          end ].
Ltac at_lhs := let n := fresh in let E := fresh in intros n E; vm_compute in E; subst n; cbn [of_sort].
Lemma act_shape r d v a v' a' : prodno r -> act r d v a = Ok (v', a') ->
  (forall i, cell (d i)) -> v = d 1%nat -> shape (a_module a) ->
  (forall i y, nth_error (rhs r) i = Some y -> sorted (sym_no y) (d (S i))) ->
  cell v' /\ shape (a_module a') /\ (forall n, lhs r = n -> of_sort n v').
Proof.
  intros Hr H Hd Hv1 Ha HL. assert (Hv : cell v) by (subst v; apply Hd).
  assert (Ht : forall i ch, nth_error (rhs r) i = Some (T ch) -> tok_sort ch (v_token (d (S i)))).
  { intros i ch E. apply (proj1 (HL i _ E)); [|reflexivity]. eapply rhs_terminals; [exact Hr|eapply nth_error_In, E]. }
  assert (Hs : forall i n, nth_error (rhs r) i = Some (N n) -> of_sort n (d (S i))) by (intros i n E; apply (HL i _ E); reflexivity).
  clear HL. revert H. pose proof Hv as [V1 V2 V3 V4 V5 V6 V7 V8 V9 V10].
  pose proof (fun i => h_elseif _ (Hd i)) as D1. pose proof (fun i => h_else _ (Hd i)) as D2.
  pose proof (fun i => h_body _ (Hd i)) as D3. pose proof (fun i => h_opt_body _ (Hd i)) as D4.
  pose proof (fun i => h_params _ (Hd i)) as D5. pose proof (fun i => h_vars _ (Hd i)) as D6.
  pose proof (fun i => h_opt_vars _ (Hd i)) as D7. pose proof (fun i => h_dir _ (Hd i)) as D8.
  pose proof (fun i => h_ids _ (Hd i)) as D9. pose proof (fun i => h_gvars _ (Hd i)) as D10.
  all_prods r Hr; cbn [act]; intros H;
  try (injection H as <- <-; split; [constructor; cbn [set_yys set_token set_stmt_if set_opt_elseif_list set_opt_else set_stmt set_stmt_loop set_funcProc set_body set_opt_body set_params set_param set_exprs set_opt_export set_opt_directive set_explicit_variables set_global_variables set_opt_explicit_variables set_identifiers set_goToLabel binop
     v_token v_stmt_if v_opt_elseif_list v_opt_else v_stmt v_stmt_loop v_funcProc v_body v_opt_body v_params v_param v_exprs v_opt_directive v_identifiers v_global_variables v_explicit_variables v_opt_explicit_variables v_goToLabel fst snd map];
     solve [repeat sort_step Ht Hs]
    | split; [exact Ha|]; solve [at_lhs; cbn [of_sort v_stmt set_stmt v_param set_param v_stmt_if set_stmt_if v_stmt_loop set_stmt_loop binop fst snd]; repeat sort_step Ht Hs] ]).
  (* 2, 3 *)
  1: destruct (append_stmts _ a) as [a1|] eqn:E; [|discriminate]; injection H as <- <-; split; [exact Hv|]; split; [exact (append_stmts_shape _ _ _ E (D3 1%nat) Ha)|at_lhs; exact I].
  1: destruct (append_stmts _ a) as [a1|] eqn:E; [|discriminate]; injection H as <- <-; split; [exact Hv|]; split; [exact (append_stmts_shape _ _ _ E (D4 2%nat) Ha)|at_lhs; exact I].
  (* 6 *)
  1: destruct (append_gvars _ a) as [a1|] eqn:E; [|discriminate]; injection H as <- <-; split; [exact Hv|]; split; [|at_lhs; exact I].
  1: destruct Ha as (S1 & S2 & S3 & S4); destruct (gvars_shape _ _ _ E (D10 1%nat) (conj S2 S3)) as [[G1 G2] G3];
     unfold shape; rewrite G3, (append_gvars_body _ _ _ E); auto.
  (* 7 *)
  1: destruct (append_func _ a) as [a1|] eqn:E; [|discriminate]; injection H as <- <-; split; [exact Hv|]; split; [exact (append_func_shape _ _ _ E (Hs 0%nat _ eq_refl) Ha)|at_lhs; exact I].
  (* 12 *)
  1: { injection H as <- <-. split; [constructor; auto|split; [exact Ha|at_lhs; exact I]].
    cbn [v_global_variables set_global_variables]. apply Forall_map. eapply Forall_impl; [|apply (D9 3%nat)]. intros t Hw. split; [exact Hw|]. cbn [gv_dir].
    specialize (D8 1%nat). destruct (v_opt_directive (d 1%nat)); [exact D8|left; reflexivity]. }
  (* 14, 15 *)
  1,2: injection H as <- <-; split; [constructor; auto|split; [exact Ha|]]; at_lhs; cbn [v_funcProc set_funcProc]; unfold createFunctionOrProcedure;
       constructor; [apply D7|at_tok Ht| |apply D4|apply D5|discriminate]; specialize (D8 1%nat); destruct (v_opt_directive (d 1%nat)); [exact D8|left; reflexivity].
  (* 19 *)
  1: { cbv zeta in H. pose proof (opt_stmt _ (Hs 2%nat _ eq_refl)) as Hst.
    assert (Hx : exists e, (v', a') = (if is_nil (v_stmt (d 3%nat)) then v else set_body v (gappend (v_body v) [v_stmt (d 3%nat)]), a) \/
       (v', a') = (if is_nil (v_stmt (d 3%nat)) then v else set_body v (gappend (v_body v) [v_stmt (d 3%nat)]), set_err a e)).
    { destruct (_ && _) in H.
      - err_inv H. injection H as <- <-. eexists. right. reflexivity.
      - cbn [bind] in H. injection H as <- <-. exists (ELex (LSyntax [])). left. reflexivity. }
    assert (Hg : cell (if is_nil (v_stmt (d 3%nat)) then v else set_body v (gappend (v_body v) [v_stmt (d 3%nat)]))).
    { destruct (is_nil _); [exact Hv|]. constructor; auto. cbn [v_body set_body]. apply blocks_app; [exact V3|].
      constructor; [apply Hst; reflexivity | constructor]. }
    destruct Hx as [e [Hx|Hx]]; injection Hx as -> ->; (split; [exact Hg | split; [exact Ha|at_lhs; exact I]]). }
  (* 26, 27 *)
  1,2: match type of H with context [appendVars ?x ?y] => destruct (appendVars x y) as [[m [n|]]|] eqn:E; cbn [bind] in H; [| |discriminate] end;
       [ err_inv H |]; injection H as <- <-; (split; [constructor; auto | split; [exact Ha|at_lhs; exact I]]); cbn [v_explicit_variables set_explicit_variables];
       (eapply appendVars_variables; [exact E|first [apply D6|exact variables_nil]|apply Forall_map; apply D9]).
  (* 30 *)
  1: { injection H as <- <-. split; [|split; [exact Ha|at_lhs; exact I]]. constructor; auto. cbn [v_opt_elseif_list set_opt_elseif_list].
    cbn [elems]. apply Forall_app. split; [apply D1|]. constructor; [|constructor]. constructor; [exact (Hs 1%nat _ eq_refl)|apply D4]. }
  (* 49-52 *)
  1,2,3,4: check_inv H; injection H as <- <-; (split; [constructor; auto|split; [exact Ha|]]); at_lhs; cbn [v_stmt set_stmt];
     solve [apply st_break|apply st_continue|apply st_throw; exact (Hs 1%nat _ eq_refl)|apply st_return; exact (Hs 1%nat _ eq_refl)].
  (* 56 *)
  1: { destruct (Hs 2%nat _ eq_refl) as (l & E & Hl1 & Hl2). rewrite E in H. injection H as <- <-. split; [constructor; auto|]. split; [exact Ha|].
    at_lhs. cbn [v_stmt set_stmt]. apply pt_call; [at_tok Ht|exact Hl1|exact Hl2]. }
  (* 65 *)
  1: { destruct (Hs 1%nat _ eq_refl) as (l & E & Hl1 & Hl2). rewrite E in H. injection H as <- <-. split; [constructor; auto|]. split; [exact Ha|].
    at_lhs. cbn [v_stmt set_stmt]. apply (ex_group _ false); assumption. }
  (* 81 *)
  1: { destruct (Hs 1%nat _ eq_refl) as (l & E & Hl). rewrite E in H. injection H as <- <-. split; [constructor; auto|]. split; [exact Ha|].
    at_lhs. cbn [v_stmt set_stmt]. apply ex_goto, Hl. }
  (* 86, 87 *)
  1: { injection H as <- <-. split; [constructor; auto|]. split; [exact Ha|]. at_lhs. cbn [v_exprs set_exprs].
    eexists. split; [reflexivity|]. split; [discriminate|]. constructor; [exact (Hs 0%nat _ eq_refl)|constructor]. }
  1: { destruct (Hs 0%nat _ eq_refl) as (l & E & Hl1 & Hl2). rewrite <- Hv1 in E. rewrite E in H. injection H as <- <-. split; [constructor; auto|]. split; [exact Ha|].
    at_lhs. cbn [v_exprs set_exprs]. eexists. split; [reflexivity|]. split; [destruct l; discriminate|].
    apply Forall_app. split; [exact Hl2|]. constructor; [exact (Hs 2%nat _ eq_refl)|constructor]. }
  (* 96 *)
  1: { destruct (Hs 0%nat _ eq_refl) as (l & E & Hl). rewrite E in H. injection H as <- <-. split; [constructor; auto|]. split; [exact Ha|].
    at_lhs. cbn [v_stmt set_stmt label_stmt]. apply ex_label, Hl. }
  (* 99 *)
  1: { pose proof (Hs 0%nat _ eq_refl) as Hp. cbn [of_sort] in Hp. rewrite <- Hv1 in Hp. destruct (v_param v) as [[x n] b]. injection H as <- <-.
    split; [constructor; auto|]. split; [exact Ha|]. at_lhs. cbn [v_param set_param]. destruct Hp as [_ Hp]. split; [|exact Hp].
    right. destruct (is_nil _); [apply ex_undefined|exact (Hs 2%nat _ eq_refl)]. }
  (* 100-102 *)
  1,2,3: injection H as <- <-; (split; [constructor; auto|split; [exact Ha|at_lhs; exact I]]); cbn [v_params set_params];
     repeat first [apply Forall_nil|apply D5|apply Forall_app; split|apply Forall_cons|exact (Hs 0%nat _ eq_refl)|exact (Hs 2%nat _ eq_refl)].
  (* 104, 105 *)
  1: { destruct (Hs 3%nat _ eq_refl) as (l & E & Hl1 & Hl2). rewrite E in H. injection H as <- <-. split; [constructor; auto|]. split; [exact Ha|].
    at_lhs. cbn [v_stmt set_stmt]. apply iterable_new; [|exact I]. apply ex_new_call; [right; at_tok Ht|exact Hl1|exact Hl2]. }
  1: { destruct (Hs 2%nat _ eq_refl) as (l & E & Hl1 & Hl2). rewrite E in H. injection H as <- <-. split; [constructor; auto|]. split; [exact Ha|].
    at_lhs. cbn [v_stmt set_stmt]. apply iterable_new; [|exact I]. apply ex_new_call; [left; reflexivity|exact Hl1|exact Hl2]. }
  (* 106 *)
  1: { injection H as <- <-. split; [constructor; auto|]. split; [exact Ha|]. at_lhs. cbn [v_goToLabel set_goToLabel].
    eexists. split; [reflexivity|]. at_tok Ht. }
  (* 107, 108 *)
  1: { injection H as <- <-. split; [constructor; auto|split; [exact Ha|at_lhs; exact I]]. cbn [v_identifiers set_identifiers]. constructor; [at_tok Ht|constructor]. }
  1: { injection H as <- <-. split; [constructor; auto|split; [exact Ha|at_lhs; exact I]]. cbn [v_identifiers set_identifiers]. apply Forall_app. split; [exact V9|]. constructor; [at_tok Ht|constructor]. }
Qed.

Lemma shape_keeps : keeps cell sorted shape.
Proof.
  constructor.
  - exact cell_zero.
  - intros c q []; constructor; assumption.
  - intros c code k t' e Hc H. destruct Hc; constructor; assumption.
  - split.
    + intros ch Hch E. exfalso. pose proof (tokno_of_range ch) as [Hr _]. rewrite <- E in Hr.
      unfold tokno in Hr. vm_compute in Hr. destruct Hr as [Hr _]. apply Hr. reflexivity.
    + intros n E. exfalso. destruct n; vm_compute in E; discriminate E.
  - intros k c Hk (code & t & Hn) Hc. pose proof (tokno_of_range k) as [Hr _]. unfold tokno in Hr.
    split; [|intros n E; exfalso; pose proof (nt_no_pos n); lia].
    intros ch Hch E. apply (tokno_of_kinds _ _ Hk Hch) in E. subst ch. eapply Next_sort, Hn.
  - intros k c q [H1 H2]. split; [exact H1|]. intros n E. specialize (H2 n E). destruct n; exact H2.
  - intros r d v a v' a' Hr H Hd Hv Ha HL. destruct (act_shape _ _ _ _ _ _ Hr H Hd Hv Ha HL) as (G1 & G2 & G3).
    split; [exact G1|]. split; [exact G2|]. split.
    + intros ch _ E. exfalso. pose proof (tokno_of_range ch) as [Hc _]. pose proof (nt_no_pos (lhs r)). unfold tokno in Hc. lia.
    + intros n E. apply G3, nt_no_inj. lia.
Qed.
Theorem history_shape a : history a -> shape (a_module a).
Proof. apply (history_keeps _ _ _ _ shape_keeps). split; [reflexivity|]. split; [constructor|]. split; [constructor|]. exists [], []. repeat constructor. Qed.
