(** Which rule a message of the semantic checks is about, for every program, errors
    or not: the actions report a rule only if the program breaks it. *)
From Verif Require Import Bytes Utf8 Float64 GoTime Ast Lexer LexFacts LexSpec LexProofs Tables Parser Grammar Tok CertData Cert Driver DriverInv Trees Syntax Rules RulesFacts CstTrees CstEval CstModule Broken.
Open Scope Z_scope.

(** A colon only after a label. *)
Definition labelled (s : stmt) : bool := match s with SLabel _ => true | _ => false end.
Definition strict_sep (x : sep) (before : list stmt) : bool :=
  match x with Semi => true | Colon => negb (Nat.eqb (length before) 0) && labelled (last before SNil) end.
Fixpoint strict_stmt (s : cstmt) : bool :=
  match s with
  | CIf _ b e c => strict_block b && strict_elseifs e && strict_else c
  | CForEach _ _ b | CFor _ _ b | CWhile _ b => strict_block b
  | CTry b c => strict_block b && strict_block c
  | _ => true
  end
with strict_block (b : block) : bool :=
  match b with
  | BNil => true
  | BOne s => strict_stmt s
  | BSkip b x => strict_block b && strict_sep x (mean_block b)
  | BSnoc b x s => strict_block b && strict_sep x (mean_block b) && strict_stmt s
  end
with strict_elseifs (e : elseifs) : bool :=
  match e with EINil => true | EICons _ b e => strict_block b && strict_elseifs e end
with strict_else (c : celse) : bool :=
  match c with NoElse => true | Else b => strict_block b end.

(** The error grows only by messages that satisfy [P]. *)
Definition adds (P : emsg -> Prop) (a a' : astnode) : Prop :=
  a_err a' = a_err a \/ exists m l c x, a_err a' = Some (EParse m l c x) /\ P m.
Lemma adds_refl P a : adds P a a. Proof. left. reflexivity. Qed.
Lemma adds_same P a b c : same_ctx b c -> adds P a b -> adds P a c.
Proof. intros H. unfold adds. rewrite (same_ctx_err _ _ H). auto. Qed.
Lemma adds_seq (P Q : emsg -> Prop) a b c : adds Q b c -> (forall m, Q m -> P m) -> adds P a b -> adds P a c.
Proof. intros [H|(m & l & r & x & H & Hm)] HQ H1; [|right; eauto 8]. destruct H1 as [H1|H1]; [left|right; rewrite H; exact H1]. congruence. Qed.
Definition wrong (lo th re co : bool) (m : emsg) : Prop :=
  match m with MLoopOp _ => lo = false | MThrow _ => th = false | MReturn => re = false | MSemicolon => co = false | _ => False end.

Definition WS s := forall v a a', ev (t_stmt s) v a a' -> ready a ->
  gets (while_stmt s) a a' /\ is_nil (v_stmt v) = false /\ labelled (v_stmt v) = labelled (mean_stmt s) /\
  adds (wrong (loose_stmt (inl a) s) (throws_stmt (inh a) s) (returns_stmt (a_isFunction a) s) (strict_stmt s)) a a'.
Definition ends_as (o : slice) (l : list stmt) : Prop :=
  l <> [] -> elems o <> [] /\ labelled (last (elems o) SNil) = labelled (last l SNil).
Definition WB b := b <> BNil -> forall v a a', ev (child (t_block b)) v a a' -> ready a ->
  gets (while_block b) a a' /\ ends_as (v_body v) (mean_block b) /\
  adds (wrong (loose_block (inl a) b) (throws_block (inh a) b) (returns_block (a_isFunction a) b) (strict_block b)) a a'.
Definition WL l := forall v a a', ev (t_elseifs l) v a a' -> ready a ->
  gets (while_elseifs l) a a' /\ 
  adds (wrong (loose_elseifs (inl a) l) (throws_elseifs (inh a) l) (returns_elseifs (a_isFunction a) l) (strict_elseifs l)) a a'.
Definition WC c := forall v a a', ev (t_else c) v a a' -> ready a ->
  gets (while_else c) a a' /\
  adds (wrong (loose_else (inl a) c) (throws_else (inh a) c) (returns_else (a_isFunction a) c) (strict_else c)) a a'.
Definition WOB b := forall v a a', ev (t_block b) v a a' -> ready a ->
  gets (while_block b) a a' /\ ends_as (v_opt_body v) (mean_block b) /\ ends_as (v_body v) (mean_block b) /\
  adds (wrong (loose_block (inl a) b) (throws_block (inh a) b) (returns_block (a_isFunction a) b) (strict_block b)) a a'.

Lemma opt_wrong b : WB b -> WOB b.
Proof.
  intros IH v a a' H Hr. destruct (block_nil_or b) as [-> | E].
  - cbn [t_block] in H. repeat ev1. acts. slots. match goal with H : same_ctx _ _ |- _ => rename H into Hs end.
    split; [exact (gets_same _ _ Hs)|]. split; [intros X; contradiction|]. split; [intros X; contradiction|]. exact (adds_same _ _ _ _ Hs (adds_refl _ _)).
  - assert (Hb : b <> BNil) by (intros ->; discriminate E).
    rewrite E in H. apply ev_17 in H as (v1 & b1 & q & H & Hs & ->). destruct (IH Hb _ _ _ H Hr) as (G & A1 & A2). slots.
    split; [|split; [exact A1|split; [exact A1|exact (adds_same _ _ _ _ Hs A2)]]].
    eapply gets_eq; [eapply gets_trans; [exact G|apply gets_same; exact Hs]|]. rewrite orb_false_r. reflexivity.
Qed.

Ltac wfwd :=
  repeat (fwd; match goal with
  | IH : WB ?b, H : ev (t_block ?b) ?v ?a ?c, R : ready ?a |- _ => destruct (opt_wrong _ IH _ _ _ H R) as (? & ? & ? & ?); clear H
  | IH : WS ?b, H : ev (t_stmt ?b) ?v ?a ?c, R : ready ?a |- _ => destruct (IH _ _ _ H R) as (? & ? & ? & ?); clear H
  | IH : WL ?b, H : ev (t_elseifs ?b) ?v ?a ?c, R : ready ?a |- _ => destruct (IH _ _ _ H R) as (? & ?); clear H
  | IH : WC ?b, H : ev (t_else ?b) ?v ?a ?c, R : ready ?a |- _ => destruct (IH _ _ _ H R) as (? & ?); clear H
  end); fwd.
Ltac wstart :=
  intros; lazymatch goal with |- WS _ => unfold WS | |- WL _ => unfold WL | |- WC _ => unfold WC | |- WB _ => unfold WB end; intros;
  match goal with H : ev (_ ?x) _ _ _ |- _ => cbn [t_stmt t_block t_elseifs t_else child] in H end;
  unf; repeat ev1; evals; acts; slots; comp; wfwd; rw; eqs.
Ltac wmono := let m := fresh "m" in intros m; destruct m; cbn [wrong strict_stmt strict_block strict_elseifs strict_else loose_stmt loose_block loose_elseifs loose_else throws_stmt throws_block throws_elseifs throws_else
   returns_stmt returns_block returns_elseifs returns_else]; auto; let E := fresh in intros E; try discriminate E; rewrite ?orb_assoc in *; rewrite E, ?andb_false_r; reflexivity.
Ltac achain :=
  match goal with
  | |- adds _ ?a ?a => apply adds_refl
  | |- adds ?P ?a (add_loop ?b _) => change (adds P a b); achain
  | |- adds ?P ?a (add_try ?b _) => change (adds P a b); achain
  | |- adds ?P ?a (set_function ?b _) => change (adds P a b); achain
  | H : same_ctx ?b ?c |- adds _ _ ?c => apply (adds_same _ _ _ _ H); clear H; achain
  | H : adds _ ?b ?c |- adds _ _ ?c => eapply adds_seq; [exact H|clear H; try wmono|clear H; achain]
  end.
Lemma Error_adds a m a' : Error a m = Ok a' -> (exists l c x, a_err a' = Some (EParse m l c x)) /\ gets false a a'.
Proof.
  unfold Error. destruct (tk_ast _); [|discriminate]. intros [= <-]. split; [cbn; eauto|]. repeat split; try reflexivity. exists 0. cbn. repeat split; lia.
Qed.
Lemma loop_adds t a a' : checkLoopOperator t a = Ok a' -> ready a -> gets false a a' /\ adds (wrong (inl a) true true true) a a'.
Proof.
  unfold checkLoopOperator, inl. destruct (a_isLoop a =? 0) eqn:E; intros H R.
  - apply Error_adds in H as [(l & c & x & H) G]. split; [exact G|]. right. exists (MLoopOp (tk_lit t)), l, c, x. split; [exact H|]. cbn. lia.
  - injection H as <-. split; [apply gets_same, same_ctx_refl|apply adds_refl].
Qed.
Lemma throw_adds t p a a' : checkThrowParam t p a = Ok a' -> ready a -> gets false a a' /\ adds (wrong true (negb (is_nil p) || inh a) true true) a a'.
Proof.
  unfold checkThrowParam, inh. destruct (_ && _) eqn:E; intros H [_ R].
  - apply Error_adds in H as [(l & c & x & H) G]. split; [exact G|]. right. exists (MThrow (tk_lit t)), l, c, x. split; [exact H|]. cbn.
    apply andb_true_iff in E as [E ->]. cbn. lia.
  - injection H as <-. split; [apply gets_same, same_ctx_refl|apply adds_refl].
Qed.
Lemma return_adds p a a' : checkReturnParam p a = Ok a' -> gets false a a' /\ adds (wrong true true (is_nil p || a_isFunction a) true) a a'.
Proof.
  unfold checkReturnParam. destruct (_ && _) eqn:E; intros H.
  - apply Error_adds in H as [(l & c & x & H) G]. split; [exact G|]. right. exists MReturn, l, c, x. split; [exact H|]. cbn.
    apply andb_true_iff in E as [E1 E2]. rewrite negb_true_iff in *. rewrite E1, E2. reflexivity.
  - injection H as <-. split; [apply gets_same, same_ctx_refl|apply adds_refl].
Qed.
Ltac bound_act' HA := match goal with H : bind _ _ = Ok _ |- _ => let y := fresh "y" in let E := fresh "E" in apply bind_ok in H as (y & HA & E); injection E as <- <- end.
Lemma sep_adds x b t v a a' : WB b -> ev (Node 19 [t_block b; t_sep x; t]) v a a' -> ready a ->
  exists v1 v3 b1 b2 b3 b4 q, ev t v3 b2 b3 /\ same_ctx b4 a' /\ same_ctx b1 b2 /\
  v = set_yys (if is_nil (v_stmt v3) then v1 else set_body v1 (gappend (v_body v1) [v_stmt v3])) q /\
  gets (while_block b) a b1 /\ ends_as (v_body v1) (mean_block b) /\
  adds (wrong (loose_block (inl a) b) (throws_block (inh a) b) (returns_block (a_isFunction a) b) (strict_block b)) a b1 /\
  gets false b3 b4 /\ adds (wrong true true true (strict_sep x (mean_block b))) b3 b4.
Proof.
  intros IH H Hr. apply ev_node_inv in H as (ds & v0 & v1 & q & a1 & a2 & _ & H & Hv & Ha & Hs & ->).
  apply evs_cons_inv in H as (w1 & ws & c1 & -> & E1 & H). apply evs_cons_inv in H as (w2 & ws2 & c2 & -> & E2 & H).
  apply evs_cons_inv in H as (w3 & ws3 & c3 & -> & E3 & H). apply evs_nil_inv in H as [-> ->].
  destruct (opt_wrong _ IH _ _ _ E1 Hr) as (G & A1 & A2 & A3). destruct (sep_lit _ _ _ _ E2) as [S2 L].
  cbn [hd] in Hv. subst v0.
  cbn [act nth Nat.sub] in Ha. apply bind_ok in Ha as (a3 & Ha & E). injection E as <- <-. unfold lit_of in Ha. rewrite L in Ha.
  exists w1, w3, c1, c2, a1, a3, q. split; [exact E3|]. split; [exact Hs|]. split; [exact S2|]. split; [reflexivity|]. split; [exact G|]. split; [exact A2|]. split; [exact A3|].
  match type of Ha with (if ?c then _ else _) = _ => destruct c eqn:Ec end.
  - apply Error_adds in Ha as [(l & c & z & Ha) G']. split; [exact G'|]. right. exists MSemicolon, l, c, z. split; [exact Ha|]. cbn [wrong].
    destruct x; [discriminate Ec|]. cbn [strict_sep]. destruct (mean_block b) as [|s m] eqn:Em; [reflexivity|]. cbn [length Nat.eqb negb andb].
    destruct A1 as [A4 A5]; [discriminate|]. rewrite <- A5. apply andb_true_iff in Ec as [_ Ec]. apply negb_true_iff in Ec.
    destruct (last (elems (v_opt_body w1)) SNil); try reflexivity. discriminate Ec.
  - injection Ha as <-. split; [apply gets_same, same_ctx_refl|apply adds_refl].
Qed.
Lemma ends_snoc o x s l : labelled x = labelled s -> ends_as (gappend o [x]) (l ++ [s]).
Proof.
  intros H _. assert (E : elems (gappend o [x]) = elems o ++ [x]) by (destruct o as [[|]|]; reflexivity). rewrite E, !last_last.
  split; [destruct (elems o); discriminate|exact H].
Qed.
Ltac wcase := match goal with |- context [adds ?P ?x ?y] => assert (adds P x y) by achain end.
Lemma wrong_stmts : (forall s, WS s) /\ (forall b, WB b) /\ (forall l, WL l) /\ (forall c, WC c).
Proof.
  apply stmt_all.
  - wstart. split; [ctx|]. split; [reflexivity|]. split; [reflexivity|]. achain.
  - wstart. split; [ctx|]. split; [apply mean_expr_nn|]. split; [reflexivity|]. achain.
  - wstart. split; [ctx|]. split; [reflexivity|]. split; [reflexivity|]. achain.
  - wstart. wcase. split; [ctx_loop|]. auto.
  - wstart. wcase. split; [ctx_loop|]. auto.
  - wstart. wcase. split; [ctx_loop|]. auto.
  - wstart. wcase. split; [ctx_loop|]. auto.
  - wstart. bound_act' HA. slots. apply loop_adds in HA as [G A]; [|assumption]. comp. fwd. eqs. wcase. split; [ctx|]. auto.
  - wstart. bound_act' HA. slots. apply loop_adds in HA as [G A]; [|assumption]. comp. fwd. eqs. wcase. split; [ctx|]. auto.
  - wstart. bound_act' HA. slots. rw. apply throw_adds in HA as [G A]; [|assumption]. rewrite mean_oexpr_nil in A. comp. fwd. eqs.
    destruct o; cbn [negb orb] in A; wcase; (split; [ctx|]); auto.
  - wstart. bound_act' HA. slots. rw. apply return_adds in HA as [G A]. rewrite mean_oexpr_nil in A. comp. fwd. eqs.
    destruct o; cbn [negb orb] in A; wcase; (split; [ctx|]); auto.
  - intros H. contradiction.
  - wstart. wcase. split; [ctx|]. split; [|assumption]. intros _. cbn. split; [discriminate|assumption].
  - intros b IH x _ v a a' H Hr. cbn [t_block child] in H.
    apply (sep_adds _ _ _ _ _ _ IH) in H as (v1 & v3 & b1 & b2 & b3 & b4 & q & H & S1 & S2 & -> & G & A1 & A2 & G' & A3); [|assumption].
    repeat ev1. acts. slots. cbn [is_nil]. comp. fwd. eqs. wcase. split; [ctx|]. auto.
  - intros b IH x s IHs _ v a a' H Hr. cbn [t_block child] in H.
    apply (sep_adds _ _ _ _ _ _ IH) in H as (v1 & v3 & b1 & b2 & b3 & b4 & q & H & S1 & S2 & -> & G & A1 & A2 & G' & A3); [|assumption].
    repeat ev1. acts. slots. comp. wfwd. eqs.
    match goal with E : is_nil _ = false |- _ => rewrite E; clear E end. wcase. split; [ctx|]. split; [|assumption]. slots. apply ends_snoc. assumption.
  - wstart. split; [ctx|]. achain.
  - wstart. split; [ctx|]. achain.
  - wstart. split; [ctx|]. achain.
  - wstart. split; [ctx|]. achain.
Qed.
Lemma wrong_block b : WOB b. Proof. apply opt_wrong, wrong_stmts. Qed.
Lemma wrong_body b : WB b. Proof. apply wrong_stmts. Qed.

(** * Declarations *)
Lemma twice_app {A} (n : A) l r : In n l -> In n r -> twice n (l ++ r).
Proof.
  intros H1 H2. apply in_split in H1 as (l1 & l2 & ->). apply in_split in H2 as (r1 & r2 & ->). exists l1, (l2 ++ r1), r2.
  rewrite <- !app_assoc. reflexivity.
Qed.
Lemma twice_more {A} (n : A) l r : twice n l -> twice n (l ++ r).
Proof. intros (l1 & l2 & l3 & ->). exists l1, l2, (l3 ++ r). rewrite <- !app_assoc. cbn. rewrite <- app_assoc. reflexivity. Qed.
Lemma appendVars_dup ids : forall m m' o done, incl (elems m) done -> appendVars m ids = Ok (m', o) ->
  incl (elems m') (done ++ ids) /\ match o with Some n => twice n (done ++ ids) | None => True end.
Proof.
  induction ids as [|x ids IH]; intros m m' o done Hi H; cbn [appendVars] in H.
  - injection H as <- <-. rewrite app_nil_r. auto.
  - destruct (mem x (elems m)) eqn:E.
    + injection H as <- <-. split; [apply incl_appl, Hi|]. apply mem_In, Hi in E. apply twice_app; [exact E|left; reflexivity].
    + destruct m as [l|]; [|discriminate]. apply IH with (done := done ++ [x]) in H; [rewrite <- app_assoc in H; exact H|].
      cbn [elems] in *. intros y Hy. apply in_app_or in Hy as [Hy|[<-|[]]]; apply in_or_app; cbn; auto.
Qed.
Definition dup_of (l : list bytes) (m : emsg) : Prop := match m with MVarDup n => twice n l | _ => False end.
Lemma gets_false_trans w a b c : gets w a b -> gets false b c -> gets w a c.
Proof. intros H G. eapply gets_eq; [eapply gets_trans; eassumption|apply orb_false_r]. Qed.
Lemma adds_of a b m (P : emsg -> Prop) : Error a m = Ok b -> P m -> adds P a b.
Proof. intros H Hm. apply Error_adds in H as [(l & c & x & H) _]. right. eauto 8. Qed.
Lemma semi_same v a a' : ev semi v a a' -> same_ctx a a'.
Proof. intros H. unf. repeat ev1. acts. slots. fin_ctx. Qed.
Lemma wrong_evars x : x <> VNil -> forall v a a', ev (child (t_vars x)) v a a' ->
  gets false a a' /\ incl (elems (v_explicit_variables v)) (mean_vars x) /\ adds (dup_of (mean_vars x)) a a'.
Proof.
  induction x as [|x IH l]; intros Hx v a a' H; [contradiction|].
  destruct x as [|x0 l0].
  - cbn [t_vars child] in H.
    apply ev_node_inv in H as (ds & v0 & v1 & q & a1 & a2 & _ & H & Hv & Ha & Hs & ->).
    apply evs_cons_inv in H as (w1 & ws & c1 & -> & E1 & H). apply evs_cons_inv in H as (w2 & ws2 & c2 & -> & E2 & H).
    apply evs_cons_inv in H as (w3 & ws3 & c3 & -> & E3 & H). apply evs_nil_inv in H as [-> ->]. cbn [hd] in Hv. subst v0.
    unfold lf in E1. apply ev_leaf_inv in E1 as (t1 & q1 & _ & S1 & ->). apply eval_names in E2 as [S2 En]. apply semi_same in E3 as S3. comp.
    cbn [act nth Nat.sub] in Ha. apply bind_ok in Ha as ([m o] & H1 & H2). rewrite En in H1.
    destruct (appendVars_dup _ (Some []) _ _ [] (incl_refl _) H1) as [D1 D2]. cbn [app mean_vars] in *. destruct o as [n|].
    + apply bind_ok in H2 as (a3 & H2 & E). injection E as <- <-. destruct (Error_adds _ _ _ H2) as [_ G].
      split; [eapply gets_false_trans; [eapply gets_false_trans; [apply gets_same; eassumption|exact G]|apply gets_same, Hs]|]. split; [intros y []|].
      apply (adds_same _ _ _ _ Hs). eapply adds_seq; [eapply (adds_of _ _ _ (dup_of (name_list l)) H2); exact D2|auto|].
      eapply adds_same; [eassumption|apply adds_refl].
    + injection H2 as <- <-. split; [apply gets_same; fin_ctx|]. split; [exact D1|]. eapply adds_same; [exact Hs|]. eapply adds_same; [eassumption|apply adds_refl].
  - assert (Hn : VSnoc x0 l0 <> VNil) by discriminate. specialize (IH Hn).
    assert (E0 : child (t_vars (VSnoc (VSnoc x0 l0) l)) = Node 27 [child (t_vars (VSnoc x0 l0)); lf tVar; t_names l; semi]) by reflexivity.
    rewrite E0 in H. clear E0. change (mean_vars (VSnoc (VSnoc x0 l0) l)) with (mean_vars (VSnoc x0 l0) ++ name_list l).
    set (mv := mean_vars (VSnoc x0 l0)) in *. clearbody mv. set (u := child (t_vars (VSnoc x0 l0))) in *. clearbody u.
    apply ev_node_inv in H as (ds & v0 & v1 & q & a1 & a2 & _ & H & Hv & Ha & Hs & ->).
    apply evs_cons_inv in H as (w1 & ws & c1 & -> & E1 & H). apply evs_cons_inv in H as (w2 & ws2 & c2 & -> & E2 & H).
    apply evs_cons_inv in H as (w3 & ws3 & c3 & -> & E3 & H). apply evs_cons_inv in H as (w4 & ws4 & c4 & -> & E4 & H). apply evs_nil_inv in H as [-> ->]. cbn [hd] in Hv. subst v0.
    apply IH in E1 as (G1 & I1 & A1). unfold lf in E2. apply ev_leaf_inv in E2 as (t2 & q2 & _ & S2 & ->). apply eval_names in E3 as [S3 En]. apply semi_same in E4 as S4. comp.
    cbn [act nth Nat.sub] in Ha. apply bind_ok in Ha as ([m o] & H1 & H2). rewrite En in H1.
    destruct (appendVars_dup _ _ _ _ _ I1 H1) as [D1 D2]. 
    assert (M : forall m0, dup_of mv m0 -> dup_of (mv ++ name_list l) m0) by (intros []; cbn; auto; apply twice_more).
    assert (A2 : adds (dup_of (mv ++ name_list l)) a a1) by (eapply adds_same; [eassumption|eapply adds_seq; [exact A1|exact M|apply adds_refl]]).
    destruct o as [n|].
    + apply bind_ok in H2 as (a3 & H2 & E). injection E as <- <-. destruct (Error_adds _ _ _ H2) as [_ G].
      split; [eapply gets_false_trans; [eapply gets_false_trans; [eapply gets_false_trans; [exact G1|apply gets_same; eassumption]|exact G]|apply gets_same, Hs]|]. split; [exact D1|].
      apply (adds_same _ _ _ _ Hs). eapply adds_seq; [eapply (adds_of _ _ _ (dup_of (mv ++ name_list l)) H2); exact D2|auto|exact A2].
    + injection H2 as <- <-. split; [eapply gets_false_trans; [exact G1|apply gets_same; fin_ctx]|]. split; [exact D1|]. eapply adds_same; [exact Hs|exact A2].
Qed.
Lemma wrong_vars x v a a' : ev (t_vars x) v a a' -> gets false a a' /\ adds (dup_of (mean_vars x)) a a'.
Proof.
  intros H. assert (D : x = VNil \/ x <> VNil) by (destruct x; [auto|right; discriminate]). destruct D as [-> | D].
  - cbn [t_vars] in H. repeat ev1. acts. slots. match goal with H : same_ctx _ _ |- _ => rename H into Hs end.
    split; [exact (gets_same _ _ Hs)|exact (adds_same _ _ _ _ Hs (adds_refl _ _))].
  - rewrite (t_vars_25' _ D) in H. repeat ev1. acts. slots. 
    match goal with H : ev (child _) _ _ _ |- _ => apply (wrong_evars x D) in H as (G & _ & A) end.
    match goal with H : same_ctx _ _ |- _ => rename H into Hs end.
    split; [eapply gets_false_trans; [exact G|apply gets_same, Hs]|exact (adds_same _ _ _ _ Hs A)].
Qed.
Definition func_wrong (l : bool) (f : cfunc) (m : emsg) : Prop :=
  wrong (loose_block l (cf_body f)) (throws_block false (cf_body f)) (returns_block (cf_function f) (cf_body f)) (strict_block (cf_body f)) m \/ dup_of (mean_vars (cf_vars f)) m.
Lemma wrong_func f v a a' : simple_params (cf_params f) = true -> ev (t_func f) v a a' -> ready a -> a_isFunction a = false -> inh a = false ->
  gets (while_block (cf_body f)) a a' /\ is_func (v_funcProc v) = true /\ adds (func_wrong (inl a) f) a a'.
Proof.
  intros Hp H Hr Hf Hh. destruct f as [d fn n ps ex vs bd]. cbn [cf_params cf_body cf_function cf_vars] in *. unfold t_func in H.
  cbn [cf_dir cf_function cf_name cf_params cf_export cf_vars cf_body] in H. destruct fn.
  - unf. repeat ev1. acts. slots.
    match goal with H : ev (t_dir _) _ _ _ |- _ => apply eval_dir in H as [H Ed] end.
    match goal with H : ev (t_params _) _ _ _ |- _ => apply eval_params in H as [H Ep]; [|assumption] end.
    match goal with H : ev (t_export _) _ _ _ |- _ => apply eval_export in H as [H Ex] end. comp. fwd.
    match goal with R : ready ?x, H : same_ctx (set_function ?x true) ?y |- _ => destruct (fun_in _ _ R H) as (R' & I1 & I2 & I3) end.
    match goal with H : ev (t_vars _) _ _ ?y |- _ => apply wrong_vars in H as (Gv & Av) end. fwd.
    match goal with H : ev (t_block bd) _ ?x ?y |- _ => destruct (wrong_block _ _ _ _ H ltac:(assumption)) as (G & A1 & A2 & A3) end.
    match goal with H : same_ctx (set_function ?x true) _, K : same_ctx ?y ?z, L : same_ctx (set_function ?z false) _ |- _ =>
      assert (G' : gets (while_block bd) x a') end.
    { eapply fun_out; [|congruence|eassumption..]. eapply gets_eq; [eapply gets_trans; [exact Gv|eapply gets_trans; [exact G|apply gets_same; eassumption]]|]. cbn. apply orb_false_r. }
    eqs. split; [|split; [reflexivity|]].
    + eapply gets_eq; [eapply gets_trans; [apply gets_same; eassumption|exact G']|reflexivity].
    + achain; unfold func_wrong; cbn [cf_body cf_function cf_vars]; auto.
  - unf. repeat ev1. acts. slots.
    match goal with H : ev (t_dir _) _ _ _ |- _ => apply eval_dir in H as [H Ed] end.
    match goal with H : ev (t_params _) _ _ _ |- _ => apply eval_params in H as [H Ep]; [|assumption] end.
    match goal with H : ev (t_export _) _ _ _ |- _ => apply eval_export in H as [H Ex] end. comp. fwd.
    match goal with H : ev (t_vars _) _ _ ?y |- _ => apply wrong_vars in H as (Gv & Av) end. fwd.
    match goal with H : ev (t_block bd) _ ?x ?y |- _ => destruct (wrong_block _ _ _ _ H ltac:(assumption)) as (G & A1 & A2 & A3) end.
    eqs. split; [|split; [reflexivity|]].
    + eapply gets_eq; [chain|]. cbn [cf_body]. rewrite ?orb_false_r. reflexivity.
    + achain; unfold func_wrong; cbn [cf_body cf_function cf_vars]; auto.
Qed.

(** * Items *)
Definition items_wrong (l : items) (m : emsg) : Prop :=
  match m with
  | MLoopOp _ => loose_funcs false (item_funcs l) = false
  | MThrow _ => forallb (fun f => throws_block false (cf_body f)) (item_funcs l) = false
  | MReturn => forallb (fun f => returns_block (cf_function f) (cf_body f)) (item_funcs l) = false
  | MSemicolon => forallb (fun f => strict_block (cf_body f)) (item_funcs l) = false
  | MVarDup n => exists f, In f (item_funcs l) /\ twice n (mean_vars (cf_vars f))
  | MGlobalDup n => twice n (map gv_name (item_gvars l))
  | MGlobalPlace => layout_ok l = false
  | _ => False
  end.
Lemma items_wrong_snoc l i m : items_wrong l m -> items_wrong (ISnoc l i) m.
Proof.
  destruct i as [d n x|f]; destruct m; cbn [items_wrong item_funcs item_gvars layout_ok]; auto.
  - rewrite map_app. apply twice_more.
  - intros ->. reflexivity.
  - rewrite forallb_app. intros ->. reflexivity.
  - rewrite loose_funcs_snoc. intros ->. reflexivity.
  - rewrite forallb_app. intros ->. reflexivity.
  - rewrite forallb_app. intros ->. reflexivity.
  - intros (g & Hg & H). exists g. split; [apply in_or_app; auto|exact H].
Qed.
Definition follows_items (l : items) (a a' : astnode) : Prop :=
  ready a' /\ inl a' = while_funcs (item_funcs l) /\ inh a' = false /\ a_isFunction a' = false /\
  forallb is_func (elems (m_body (a_module a'))) = true /\ (elems (m_body (a_module a')) <> [] -> item_funcs l <> []) /\
  incl (map gv_name (elems (m_gvars (a_module a')))) (map gv_name (item_gvars l)) /\
  adds (items_wrong l) a a'.
Lemma follows_same l a b c : same_ctx b c -> follows_items l a b -> follows_items l a c.
Proof.
  intros S (H1 & H2 & H3 & H4 & H5 & H6 & H7 & H8). unfold follows_items. 
  rewrite (same_inl _ _ S), (same_inh _ _ S), (same_fun _ _ S). pose proof S as (_ & _ & M & _). rewrite M.
  repeat (split; [eauto using same_ready|]). eapply adds_same; eassumption.
Qed.
Lemma gvars_adds vs done : forall a a', append_gvars vs a = Ok a' -> incl (map gv_name (elems (m_gvars (a_module a)))) done ->
  a_isLoop a' = a_isLoop a /\ a_isTry a' = a_isTry a /\ a_isFunction a' = a_isFunction a /\ m_body (a_module a') = m_body (a_module a) /\
  incl (map gv_name (elems (m_gvars (a_module a')))) (done ++ map gv_name vs) /\
  adds (fun m => match m with MGlobalDup n => twice n (done ++ map gv_name vs) | MGlobalPlace => elems (m_body (a_module a)) <> [] | _ => False end) a a'.
Proof.
  revert done. induction vs as [|x vs IH]; intros done a a' H Hi; cbn [append_gvars] in H.
  - injection H as <-. rewrite app_nil_r. repeat (split; [auto|]). apply adds_refl.
  - apply bind_ok in H as (a1 & H1 & H2).
    assert (X : a_isLoop a1 = a_isLoop a /\ a_isTry a1 = a_isTry a /\ a_isFunction a1 = a_isFunction a /\ m_body (a_module a1) = m_body (a_module a) /\
      incl (map gv_name (elems (m_gvars (a_module a1)))) (done ++ [gv_name x]) /\
      adds (fun m => match m with MGlobalDup n => twice n (done ++ [gv_name x]) | MGlobalPlace => elems (m_body (a_module a)) <> [] | _ => False end) a a1).
    { unfold append_gvar in H1. destruct (negb _) eqn:En.
      - pose proof (adds_of a a1 MGlobalPlace (fun m => match m with MGlobalDup n => twice n (done ++ [gv_name x]) | MGlobalPlace => elems (m_body (a_module a)) <> [] | _ => False end) H1) as Ha.
        unfold Error in H1. destruct (tk_ast _); [|discriminate]. injection H1 as <-. cbn [set_err a_isLoop a_isTry a_isFunction a_module] in *.
        repeat (split; [reflexivity|]). split; [apply incl_appl, Hi|]. apply Ha. destruct (elems (m_body (a_module a))); [discriminate En|discriminate].
      - destruct (mem _ _) eqn:Em.
        + unfold Error in H1. cbn [set_module a_cur] in H1. destruct (tk_ast _); [|discriminate]. injection H1 as <-. cbn [set_err set_module a_isLoop a_isTry a_isFunction a_module m_body m_gvars elems].
          repeat (split; [reflexivity|]). split; [apply incl_appl, Hi|]. right. cbn [set_err a_err]. do 4 eexists. split; [reflexivity|]. cbn.
          apply twice_app; [apply mem_In, Hi in Em; exact Em|left; reflexivity].
        + injection H1 as <-. cbn [set_module a_isLoop a_isTry a_isFunction a_module m_body m_gvars elems].
          repeat (split; [reflexivity|]). split; [|left; reflexivity]. rewrite map_app. apply incl_app; [apply incl_appl, Hi|apply incl_appr, incl_refl]. }
    destruct X as (X1 & X2 & X3 & X4 & X5 & X6). destruct (IH _ _ _ H2 X5) as (Y1 & Y2 & Y3 & Y4 & Y5 & Y6).
    rewrite <- app_assoc in Y5, Y6. cbn [app map] in *. repeat (split; [congruence|]). split; [exact Y5|]. 
    eapply adds_seq; [exact Y6| |eapply adds_seq; [exact X6| |apply adds_refl]].
    + intros []; auto. rewrite X4. auto.
    + intros []; auto. intros T. change (gv_name x :: map gv_name vs) with ([gv_name x] ++ map gv_name vs). rewrite app_assoc. apply twice_more, T.
Qed.
Lemma follows_item l i a b v a' : match i with IFunc f => simple_params (cf_params f) = true | _ => True end ->
  follows_items l a b -> ev (t_item i) v b a' -> follows_items (ISnoc l i) a a'.
Proof.
  intros Hi (R & L & T & F & B1 & B2 & B3 & A) H.
  assert (A' : adds (items_wrong (ISnoc l i)) a b) by (eapply adds_seq; [exact A|intros m; apply items_wrong_snoc|apply adds_refl]).
  destruct i as [d n x|f]; cbn [t_item] in *.
  - assert (Eg : map gv_name (item_gvars (ISnoc l (IVars d n x))) = map gv_name (item_gvars l) ++ name_list n).
    { cbn [item_gvars]. rewrite map_app. unfold mean_gvars. rewrite map_map. cbn [gv_name]. rewrite map_id. reflexivity. }
    unf. repeat ev1.
    match goal with H : ev (t_dir _) _ _ _ |- _ => apply eval_dir in H as [H Ed] end.
    match goal with H : ev (t_names _) _ _ _ |- _ => apply eval_names in H as [H En] end.
    match goal with H : ev (t_export _) _ _ _ |- _ => apply eval_export in H as [H Ex0] end. acts. slots. comp.
    bound_act' HA.
    match type of HA with append_gvars ?vs ?c = Ok ?y => assert (S : same_ctx b c) by assumption; assert (S' : same_ctx y a') by assumption; set (vars := vs) in * end.
    pose proof S as (_ & S2 & S3 & S4 & S5 & S6). rewrite <- S3 in B1, B2, B3.
    destruct (gvars_adds _ _ _ _ HA B3) as (Y1 & Y2 & Y3 & Y4 & Y5 & Y6).
    assert (Ev : map gv_name vars = name_list n) by (unfold vars; rewrite map_map; cbn [gv_name]; exact En).
    rewrite Ev in Y5, Y6. apply (follows_same _ _ _ _ S'). unfold follows_items. rewrite Eg.
    unfold ready, inl, inh in *. rewrite Y1, Y2, Y3, Y4, S4, S5, S6. cbn [item_funcs]. repeat (split; [assumption|]).
    eapply adds_seq; [exact Y6| |eapply adds_same; eassumption].
    intros m. destruct m; try contradiction; intros X; cbn [items_wrong]; [rewrite Eg; exact X|].
    cbn [layout_ok]. specialize (B2 X). destruct (item_funcs l); [contradiction|]. apply andb_false_r.
  - apply ev_node_inv in H as (ds & v0 & v1 & q & a1 & a2 & _ & H & _ & Ha & Hs & ->).
    apply evs_cons_inv in H as (w & ws & c & -> & E1 & H). apply evs_nil_inv in H as [-> ->].
    cbn [act nth Nat.sub] in Ha. apply bind_ok in Ha as (a3 & Ha & E). injection E as <- <-.
    destruct (wrong_func _ _ _ _ Hi E1 R F T) as (G & Fn & Fa). apply (follows_same _ _ _ _ Hs).
    pose proof (gets_ready _ _ _ G R) as R'. pose proof (gets_inl _ _ _ G R) as L'. pose proof (gets_inh _ _ _ G) as T'. pose proof (gets_fun _ _ _ G) as F'. destruct G as (_ & G2 & _).
    unfold append_func in Ha. rewrite G2 in Ha.
    match type of Ha with (if ?c then _ else _) = _ => replace c with false in Ha end.
    2: { symmetry. destruct (elems (m_body (a_module b))) as [|s0 ss] eqn:Eb using rev_ind; [reflexivity|]. apply andb_false_iff. right. rewrite last_last.
         rewrite forallb_app in B1. apply andb_true_iff in B1 as [_ B1]. cbn in B1. rewrite andb_true_r in B1. rewrite B1. reflexivity. }
    injection Ha as <-. unfold follows_items, ready, inl, inh in *. cbn [set_module a_isLoop a_isTry a_isFunction a_module m_body m_gvars]. cbn [item_funcs item_gvars].
    rewrite while_funcs_snoc.
    cbn [elems]. rewrite forallb_app, B1. cbn [forallb]. rewrite Fn. split; [exact R'|]. split; [rewrite L', L; reflexivity|]. split; [congruence|]. split; [congruence|]. split; [reflexivity|].
    split; [intros _; destruct (item_funcs l); discriminate|]. split; [exact B3|].
    change (adds (items_wrong (ISnoc l (IFunc f))) a a1). eapply adds_seq; [exact Fa| |exact A'].
    intros m [Hm|Hm]; destruct m; cbn [wrong dup_of items_wrong item_funcs] in *; try contradiction.
    + rewrite forallb_app. cbn [forallb]. rewrite Hm, andb_false_r. reflexivity.
    + rewrite loose_funcs_snoc. cbn [orb]. rewrite <- L. rewrite Hm. apply andb_false_r.
    + rewrite forallb_app. cbn [forallb]. rewrite Hm, andb_false_r. reflexivity.
    + rewrite forallb_app. cbn [forallb]. rewrite Hm, andb_false_r. reflexivity.
    + exists f. split; [apply in_or_app; right; left; reflexivity|exact Hm].
Qed.
Lemma follows_all l : forall a v a', l <> INil -> forallb (fun f => simple_params (cf_params f)) (item_funcs l) = true ->
  fresh a -> ev (t_items l) v a a' -> follows_items l a a'.
Proof.
  induction l as [|l IH i]; intros a v a' Hn Hp Hf H; [contradiction|].
  assert (Hi : match i with IFunc f => simple_params (cf_params f) = true | _ => True end /\
               forallb (fun f => simple_params (cf_params f)) (item_funcs l) = true).
  { destruct i; cbn [item_funcs] in Hp; [auto|]. rewrite forallb_app in Hp. apply andb_true_iff in Hp as [H1 H2]. cbn in H2.
    rewrite andb_true_r in H2. auto. }
  destruct Hi as [Hi Hp'].
  assert (D : exists b w c, follows_items l a b /\ ev (t_item i) w b c /\ same_ctx c a').
  { destruct l as [|l0 i0].
    - cbn [t_items] in H. apply ev_node_inv in H as (ds & v0 & v1 & q & a1 & a2 & _ & H & _ & Ha & Hs & ->).
      apply evs_cons_inv in H as (w & ws & c & -> & H1 & H). apply evs_nil_inv in H as [-> ->]. cbn [act] in Ha. injection Ha as <- <-.
      exists a, w, a1. split; [|auto]. destruct Hf as (F1 & F2 & F3 & F4). unfold follows_items, ready, inl, inh. rewrite F1, F2, F3, F4. cbn.
      repeat (split; [try reflexivity; try lia; auto|]). { apply incl_refl. } apply adds_refl.
    - change (t_items (ISnoc (ISnoc l0 i0) i)) with (Node 5 [t_items (ISnoc l0 i0); t_item i]) in H.
      apply ev_node_inv in H as (ds & v0 & v1 & q & a1 & a2 & _ & H & _ & Ha & Hs & ->).
      apply evs_cons_inv in H as (w & ws & c & -> & H1 & H). apply evs_cons_inv in H as (w2 & ws2 & c2 & -> & H2 & H). apply evs_nil_inv in H as [-> ->].
      cbn [act] in Ha. injection Ha as <- <-.
      exists c, w2, a1. split; [|auto]. eapply IH; try eassumption. discriminate. }
  destruct D as (b0 & w & c & D1 & D2 & D3). apply (follows_same _ _ _ _ D3). eapply follows_item; eassumption.
Qed.

(** * Whole modules *)
Definition strict_ok : program -> bool := each_body (fun f => strict_block (cf_body f)) strict_block.
Definition program_wrong (p : program) (m : emsg) : Prop :=
  match m with
  | MLoopOp _ => loose_ok p = false
  | MThrow _ => throws_ok p = false
  | MReturn => returns_ok p = false
  | MSemicolon => strict_ok p = false
  | MVarDup n => exists f, In f (item_funcs (pr_items p)) /\ twice n (mean_vars (cf_vars f))
  | MGlobalDup n => twice n (map gv_name (item_gvars (pr_items p)))
  | MGlobalPlace => layout_ok (pr_items p) = false
  | _ => False
  end.
Theorem wrong_program p v a a' : defaults_ok p = true -> fresh a -> ev (t_program p) v a a' -> adds (program_wrong p) a a'.
Proof.
  destruct p as [l b]. unfold defaults_ok. cbn [pr_items]. intros Hp Hf H.
  assert (Dl : l = INil \/ l <> INil) by (destruct l; [auto|right; discriminate]). destruct Dl as [-> | Dl].
  - assert (Db : b = BNil \/ b <> BNil) by (destruct b; auto; right; discriminate). destruct Db as [-> | Db].
    + cbn in H. apply ev_node_inv in H as (ds & v0 & v1 & q & a1 & a2 & _ & H & _ & Ha & Hs & ->).
      apply evs_nil_inv in H as [-> <-]. cbn [act] in Ha. injection Ha as <- <-. eapply adds_same; [exact Hs|apply adds_refl].
    + assert (Et : t_program (Program INil b) = Node 2 [child (t_block b)]) by (destruct b; [contradiction|reflexivity..]).
      rewrite Et in H. apply ev_node_inv in H as (ds & v0 & v1 & q & a1 & a2 & _ & H & _ & Ha & Hs & ->).
      apply evs_cons_inv in H as (w & ws & c & -> & E1 & H). apply evs_nil_inv in H as [-> ->]. cbn [act nth Nat.sub] in Ha.
      unfold append_stmts in Ha. cbn [bind] in Ha. injection Ha as <- <-. apply (adds_same _ _ _ _ Hs).
      destruct Hf as (F1 & F2 & F3 & F4). assert (R : ready a) by (unfold ready; rewrite F2, F3; lia).
      destruct (wrong_body b Db _ _ _ E1 R) as (_ & _ & A). match goal with |- adds ?P a (set_module a1 _) => change (adds P a a1) end.
      eapply adds_seq; [exact A| |apply adds_refl]. unfold inl, inh. rewrite F2, F3, F4.
      intros m. destruct m; cbn [wrong program_wrong]; try contradiction; intros E; unfold strict_ok, loose_ok, throws_ok, returns_ok, each_body; cbn; exact E.
  - assert (Et : t_program (Program l b) = Node 3 [t_items l; t_block b]) by (destruct l; [contradiction|reflexivity]).
    rewrite Et in H. apply ev_node_inv in H as (ds & v0 & v1 & q & a1 & a2 & _ & H & _ & Ha & Hs & ->).
    apply evs_cons_inv in H as (w & ws & c & -> & E1 & H). apply evs_cons_inv in H as (w2 & ws2 & c2 & -> & E2 & H). apply evs_nil_inv in H as [-> ->].
    cbn [act nth Nat.sub] in Ha. unfold append_stmts in Ha. cbn [bind] in Ha. injection Ha as <- <-. apply (adds_same _ _ _ _ Hs).
    destruct (follows_all l _ _ _ Dl Hp Hf E1) as (R & L & T & F & _ & _ & _ & A). destruct (wrong_block b _ _ _ E2 R) as (_ & _ & _ & A2).
    match goal with |- adds ?P a (set_module a1 _) => change (adds P a a1) end.
    rewrite L, T, F in A2. eapply adds_seq; [exact A2| |eapply adds_seq; [exact A| |apply adds_refl]];
    intros m; destruct m; cbn [wrong items_wrong program_wrong pr_items]; try contradiction; intros E; unfold strict_ok, loose_ok, throws_ok, returns_ok, each_body; cbn [pr_items pr_body];
    rewrite ?E, ?andb_false_r; try reflexivity; auto.
Qed.
