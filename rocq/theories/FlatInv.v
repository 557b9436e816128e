(** Procedures and functions occur only as elements of the module body: no statement of
    a parsed tree has one inside. *)
From Verif Require Import Bytes Utf8 Float64 GoTime Ast Lexer LexFacts LexSpec LexProofs Tables Parser Grammar CertData Cert Driver DriverInv CellInv Printer StmtInd PrintInv.

Definition is_func (s : stmt) : bool := match s with SFunc _ _ _ _ _ _ _ => true | _ => false end.
(** No function at all in [s]. *)
Inductive plain : stmt -> Prop :=
| plain_intro s : is_func s = false -> Forall plain (parts s) -> plain s.
(** No function strictly inside [s]. *)
Definition shallow (s : stmt) : Prop := Forall plain (parts s).

Lemma plain_inv s : plain s -> is_func s = false /\ Forall plain (parts s).
Proof. inversion 1; auto. Qed.
Lemma plain_shallow s : plain s -> shallow s.
Proof. inversion 1; auto. Qed.
Lemma literal_plain s : literal s = true -> plain s.
Proof. destruct s; try discriminate; intros _; constructor; constructor. Qed.
Lemma label_plain l : plain (label_stmt l).
Proof. destruct l; constructor; constructor. Qed.
Lemma minus_plain s : plain s -> plain (unaryMinus s).
Proof. intros H. pose proof (plain_inv _ H) as [H1 H2]. destruct s; cbn [unaryMinus]; try exact H; constructor; assumption || constructor. Qed.
Lemma not_plain s : plain s -> plain (not_ s).
Proof. intros H. pose proof (plain_inv _ H) as [H1 H2]. destruct s; cbn [not_]; try exact H; constructor; assumption || constructor. Qed.

Definition plains (b : slice) : Prop := Forall plain (elems b).
Lemma plains_app b l : plains b -> Forall plain l -> plains (gappend b l).
Proof. intros H1 H2. unfold gappend. destruct l; [exact H1|]. unfold plains. cbn [elems]. apply Forall_app. auto. Qed.

Record flat (c : slot) : Prop := {
  f_token : plain (tk_value (v_token c));
  f_if : plain (v_stmt_if c);
  f_elseif : plains (v_opt_elseif_list c);
  f_else : plains (v_opt_else c);
  f_stmt : plain (v_stmt c);
  f_loop : plain (v_stmt_loop c);
  f_func : shallow (v_funcProc c);
  f_body : plains (v_body c);
  f_opt_body : plains (v_opt_body c);
  f_params : Forall plain (map (fun p => fst (fst p)) (v_params c));
  f_param : plain (fst (fst (v_param c)));
  f_exprs : plains (fst (v_exprs c)) }.
Definition flat_module (m : module) : Prop := Forall shallow (elems (m_body m)).

Lemma plain_nil : plain SNil. Proof. constructor; constructor. Qed.
Lemma flat_zero : flat zero_slot.
Proof. constructor; try (apply plain_nil); try constructor; constructor. Qed.
Lemma flat_app b l : Forall shallow (elems b) -> Forall shallow l -> Forall shallow (elems (gappend b l)).
Proof. intros H1 H2. unfold gappend. destruct l; [exact H1|]. cbn [elems]. apply Forall_app. auto. Qed.
Lemma plains_shallow b : plains b -> Forall shallow (elems b).
Proof. apply Forall_impl. exact plain_shallow. Qed.

Ltac plain_step :=
  first [ apply plain_nil | assumption | apply minus_plain | apply not_plain | apply label_plain
        | apply plains_app
        | apply plain_intro; [reflexivity|]; cbn [parts]
        | apply Forall_nil | apply Forall_cons | apply Forall_app; split
        | match goal with |- plains (Some _) => unfold plains; cbn [elems] | |- plains None => apply Forall_nil end
        | match goal with H : forall i : nat, _ |- _ => solve [apply H] end ].

Lemma act_flat r d v a v' a' : prodno r -> act r d v a = Ok (v', a') ->
  (forall i, flat (d i)) -> flat v -> flat_module (a_module a) ->
  flat v' /\ flat_module (a_module a').
Proof.
  intros Hr H Hd Hv Ha. revert H. pose proof Hv as [V1 V2 V3 V4 V5 V6 V7 V8 V9 V10 V11 V12].
  pose proof (fun i => f_token _ (Hd i)) as D1. pose proof (fun i => f_if _ (Hd i)) as D2.
  pose proof (fun i => f_elseif _ (Hd i)) as D3. pose proof (fun i => f_else _ (Hd i)) as D4.
  pose proof (fun i => f_stmt _ (Hd i)) as D5. pose proof (fun i => f_loop _ (Hd i)) as D6.
  pose proof (fun i => f_func _ (Hd i)) as D7. pose proof (fun i => f_body _ (Hd i)) as D8.
  pose proof (fun i => f_opt_body _ (Hd i)) as D9. pose proof (fun i => f_params _ (Hd i)) as D10.
  pose proof (fun i => f_param _ (Hd i)) as D11. pose proof (fun i => f_exprs _ (Hd i)) as D12.
  all_prods r Hr; cbn [act]; intros H;
  try (injection H as <- <-; split; [constructor; cbn [set_yys set_token set_stmt_if set_opt_elseif_list set_opt_else set_stmt set_stmt_loop set_funcProc set_body set_opt_body set_params set_param set_exprs set_opt_export set_opt_directive set_explicit_variables set_global_variables set_opt_explicit_variables set_identifiers set_goToLabel binop
     v_token v_stmt_if v_opt_elseif_list v_opt_else v_stmt v_stmt_loop v_funcProc v_body v_opt_body v_params v_param v_exprs fst snd map];
     solve [repeat plain_step | rewrite map_app; repeat plain_step]
    | exact Ha]).

  (* 2, 3 *)
  1,2: injection H as <- <-; split; [exact Hv|]; unfold flat_module; cbn [a_module set_module m_body];
       apply flat_app; [exact Ha | apply plains_shallow; solve [apply D8 | apply D9]].
  (* 6 *)
  1: destruct (append_gvars _ a) as [a1|] eqn:E; [|discriminate]; injection H as <- <-; split; [exact Hv|];
     unfold flat_module; rewrite (append_gvars_body _ _ _ E); exact Ha.
  (* 7 *)
  1: { unfold append_func in H. destruct (_ && _).
    - err_inv H. injection H as <- <-. split; [exact Hv | exact Ha].
    - injection H as <- <-. split; [exact Hv|].
      apply (flat_app (m_body (a_module a)) [v_funcProc (d 1%nat)]); [exact Ha|]. constructor; [apply D7 | constructor]. }
  (* 19 *)
  1: { cbv zeta in H.
    assert (Hx : exists e, (v', a') = (if is_nil (v_stmt (d 3%nat)) then v else set_body v (gappend (v_body v) [v_stmt (d 3%nat)]), a) \/
       (v', a') = (if is_nil (v_stmt (d 3%nat)) then v else set_body v (gappend (v_body v) [v_stmt (d 3%nat)]), set_err a e)).
    { destruct (_ && _) in H.
      - err_inv H. injection H as <- <-. eexists. right. reflexivity.
      - cbn [bind] in H. injection H as <- <-. exists (ELex (LSyntax [])). left. reflexivity. }
    assert (Hg : flat (if is_nil (v_stmt (d 3%nat)) then v else set_body v (gappend (v_body v) [v_stmt (d 3%nat)]))).
    { destruct (is_nil _); [exact Hv|]. constructor; auto. cbn [v_body set_body]. apply plains_app; [exact V8|].
      constructor; [apply D5 | constructor]. }
    destruct Hx as [e [Hx|Hx]]; injection Hx as -> ->; (split; [exact Hg | exact Ha]). }
  (* 26, 27 *)
  1,2: match type of H with context [appendVars ?x ?y] => destruct (appendVars x y) as [[m [n|]]|]; cbn [bind] in H; [| |discriminate] end;
       [ err_inv H |]; injection H as <- <-; (split; [constructor; auto | exact Ha]).
  (* 73-77 *)
  1,2,3,4: check_inv H; injection H as <- <-; (split; [constructor; auto; repeat plain_step | exact Ha]).
  1: destruct (v_param v) as [[x n] b]; injection H as <- <-; split; [constructor; auto | exact Ha].
     cbn. destruct (is_nil _); [constructor; constructor | apply D5].
Qed.

Lemma flat_keeps : keeps flat (fun _ _ => True) flat_module.
Proof.
  constructor; auto.
  - exact flat_zero.
  - intros c q []; constructor; assumption.
  - intros c code k t' e Hc H.
    assert (Hl : plain (tk_value t')).
    { revert H. unfold Next. destruct (next (tk_prevDot (v_token c)) (skipn (tk_off (v_token c)) code)) as [[r s'] pd].
      pose proof (f_token _ Hc) as Ht. 
      repeat match goal with |- context [if ?c then _ else _] => destruct c
                       | |- context [match ?c with Some _ => _ | None => _ end] => destruct c end;
      intros [= <- <- <-]; try exact Ht; constructor; constructor. }
    destruct Hc. constructor; assumption.
  - intros r d v a v' a' Hr H Hd Hv Ha _. assert (Hg : flat v) by (subst v; apply Hd).
    destruct (act_flat _ _ _ _ _ _ Hr H Hd Hg Ha) as (G1 & G2). auto.
Qed.
Theorem history_flat a : history a -> flat_module (a_module a).
Proof. apply (history_keeps _ _ _ _ flat_keeps). constructor. Qed.
