(** Programs that obey the rules are evaluated without an error. *)
From Verif Require Import Bytes Utf8 Float64 GoTime Ast Lexer LexFacts LexSpec LexProofs Tables Parser Grammar Tok CertData Cert Driver DriverInv Trees Syntax Rules RulesFacts CstTrees CstEval CstModule.

(** Every colon is at the beginning of a block without statements or after a label, in a
    block that does not start with a separator. *)
Definition sure_sep (x : sep) (b : block) : bool := match x with Semi => true | Colon => clean_block b && colon_ok x (mean_block b) end.
Fixpoint sure_stmt (s : cstmt) : bool :=
  match s with
  | CIf _ b e c => sure_block b && sure_elseifs e && sure_else c
  | CForEach _ _ b | CFor _ _ b | CWhile _ b => sure_block b
  | CTry b c => sure_block b && sure_block c
  | _ => true
  end
with sure_block (b : block) : bool :=
  match b with
  | BNil => true
  | BOne s => sure_stmt s
  | BSkip b x => sure_block b && sure_sep x b
  | BSnoc b x s => sure_block b && sure_sep x b && sure_stmt s
  end
with sure_elseifs (e : elseifs) : bool :=
  match e with EINil => true | EICons _ b e => sure_block b && sure_elseifs e end
with sure_else (c : celse) : bool :=
  match c with NoElse => true | Else b => sure_block b end.

Definition LS s := forall v a a', ev (t_stmt s) v a a' -> a_err a = None -> ready a ->
  loose_stmt (inl a) s = true -> throws_stmt (inh a) s = true -> returns_stmt (a_isFunction a) s = true -> sure_stmt s = true -> a_err a' = None.
Definition LB b := b <> BNil -> forall v a a', ev (child (t_block b)) v a a' -> a_err a = None -> ready a ->
  loose_block (inl a) b = true -> throws_block (inh a) b = true -> returns_block (a_isFunction a) b = true -> sure_block b = true -> a_err a' = None.
Definition LL l := forall v a a', ev (t_elseifs l) v a a' -> a_err a = None -> ready a ->
  loose_elseifs (inl a) l = true -> throws_elseifs (inh a) l = true -> returns_elseifs (a_isFunction a) l = true -> sure_elseifs l = true -> a_err a' = None.
Definition LC c := forall v a a', ev (t_else c) v a a' -> a_err a = None -> ready a ->
  loose_else (inl a) c = true -> throws_else (inh a) c = true -> returns_else (a_isFunction a) c = true -> sure_else c = true -> a_err a' = None.
Definition LOB b := forall v a a', ev (t_block b) v a a' -> a_err a = None -> ready a ->
  loose_block (inl a) b = true -> throws_block (inh a) b = true -> returns_block (a_isFunction a) b = true -> sure_block b = true -> a_err a' = None.

Lemma err_same a b : same_ctx a b -> a_err a = None -> a_err b = None.
Proof. intros (_ & H & _) <-. exact H. Qed.
Lemma opt_legal b : LB b -> LOB b.
Proof.
  intros IH v a a' H He Hr H1 H2 H3 H4. destruct (block_nil_or b) as [-> | E].
  - cbn [t_block] in H. repeat ev1. acts. slots. eapply err_same; eassumption.
  - assert (Hb : b <> BNil) by (intros ->; discriminate E).
    rewrite E in H. apply ev_17 in H as (v1 & b1 & q & H & Hs & ->). apply (err_same _ _ Hs), (IH Hb _ _ _ H); assumption.
Qed.
Lemma no_check_loop t a a' : checkLoopOperator t a = Ok a' -> ready a -> inl a = true -> a' = a.
Proof. unfold checkLoopOperator, inl. destruct (a_isLoop a =? 0) eqn:E; [intros; lia|]. intros [= <-]. reflexivity. Qed.
Lemma no_check_throw t p a a' : checkThrowParam t p a = Ok a' -> (is_nil p = true -> inh a = true) -> a' = a.
Proof.
  unfold checkThrowParam, inh. destruct (a_isTry a =? 0) eqn:E; destruct (is_nil p); cbn [andb]; try (intros [= <-]; reflexivity).
  intros _ H. specialize (H eq_refl). lia.
Qed.
Lemma no_check_return p a a' : checkReturnParam p a = Ok a' -> (is_nil p = false -> a_isFunction a = true) -> a' = a.
Proof.
  unfold checkReturnParam. destruct (a_isFunction a) eqn:E; destruct (is_nil p); cbn [andb negb]; try (intros [= <-]; reflexivity).
  intros _ H. specialize (H eq_refl). discriminate.
Qed.

Ltac ferr :=
  repeat match goal with
  | E : a_err ?a = None, S : same_ctx ?x ?b |- _ =>
      lazymatch x with
      | a => nohyp (a_err b = None); assert (a_err b = None) by exact (err_same _ _ S E)
      | add_loop a _ => nohyp (a_err b = None); assert (a_err b = None) by exact (err_same _ _ S E)
      | add_try a _ => nohyp (a_err b = None); assert (a_err b = None) by exact (err_same _ _ S E)
      end
  end.
Ltac eqg :=
  repeat match goal with
  | E : inl ?x = _ |- context [inl ?x] => rewrite E
  | E : inh ?x = _ |- context [inh ?x] => rewrite E
  | E : a_isFunction ?x = _ |- context [a_isFunction ?x] => rewrite E
  end; rewrite ?orb_false_r; cbn [orb]; try assumption.
Ltac lfwd :=
  repeat (ferr; fwd; match goal with
  | IH : LB ?b, H : ev (t_block ?b) ?v ?a ?c, E : a_err ?a = None, R : ready ?a |- _ =>
      let X := fresh in assert (X : a_err c = None) by (apply (opt_legal _ IH _ _ _ H E R); eqg);
      destruct (eval_block b _ _ _ H X R) as (? & _); clear H
  | IH : LS ?b, H : ev (t_stmt ?b) ?v ?a ?c, E : a_err ?a = None, R : ready ?a |- _ =>
      let X := fresh in assert (X : a_err c = None) by (apply (IH _ _ _ H E R); eqg);
      destruct (proj1 eval_stmts b _ _ _ H X R) as (? & _); clear H
  | IH : LL ?b, H : ev (t_elseifs ?b) ?v ?a ?c, E : a_err ?a = None, R : ready ?a |- _ =>
      let X := fresh in assert (X : a_err c = None) by (apply (IH _ _ _ H E R); eqg);
      destruct (proj1 (proj2 (proj2 eval_stmts)) b _ _ _ H X R) as (? & _); clear H
  | IH : LC ?b, H : ev (t_else ?b) ?v ?a ?c, E : a_err ?a = None, R : ready ?a |- _ =>
      let X := fresh in assert (X : a_err c = None) by (apply (IH _ _ _ H E R); eqg);
      destruct (proj2 (proj2 (proj2 eval_stmts)) b _ _ _ H X R) as (? & _); clear H
  end); ferr; fwd; ferr.
Ltac bound_act HA := match goal with H : bind _ _ = Ok _ |- _ => let y := fresh "y" in let E := fresh "E" in apply bind_ok in H as (y & HA & E); injection E as <- <- end.
Ltac lands := repeat match goal with H : _ && _ = true |- _ => apply andb_true_iff in H; destruct H end.
Ltac legal_start :=
  intros; lazymatch goal with |- LS _ => unfold LS | |- LL _ => unfold LL | |- LC _ => unfold LC | |- LB _ => unfold LB end; intros;
  cbn [loose_stmt loose_block loose_elseifs loose_else throws_stmt throws_block throws_elseifs throws_else
   returns_stmt returns_block returns_elseifs returns_else sure_stmt sure_block sure_elseifs sure_else] in *; lands;
  match goal with H : ev (_ ?x) _ _ _ |- _ => cbn [t_stmt t_block t_elseifs t_else child] in H end.
Ltac legal := legal_start; unf; repeat ev1; evals; acts; slots; comp; lfwd; try assumption.

Lemma legal_sep x b t v a a' : LB b -> ev (Node 19 [t_block b; t_sep x; t]) v a a' -> a_err a = None -> ready a ->
  loose_block (inl a) b = true -> throws_block (inh a) b = true -> returns_block (a_isFunction a) b = true -> sure_block b = true ->
  sure_sep x b = true ->
  exists v3 b1 b2 b3, ev t v3 b2 b3 /\ same_ctx b3 a' /\ same_ctx b1 b2 /\ a_err b1 = None /\ gets (while_block b) a b1.
Proof.
  intros IH H He Hr H1 H2 H3 H4 H5. apply ev_node_inv in H as (ds & v0 & v1 & q & a1 & a2 & _ & H & Hv & Ha & Hs & ->).
  apply evs_cons_inv in H as (w1 & ws & c1 & -> & E1 & H). apply evs_cons_inv in H as (w2 & ws2 & c2 & -> & E2 & H).
  apply evs_cons_inv in H as (w3 & ws3 & c3 & -> & E3 & H). apply evs_nil_inv in H as [-> ->].
  assert (X : a_err c1 = None) by (apply (opt_legal _ IH _ _ _ E1 He Hr); assumption).
  destruct (eval_block b _ _ _ E1 X Hr) as (G & _ & _ & _ & A). destruct (sep_lit _ _ _ _ E2) as [S2 L].
  cbn [act nth Nat.sub] in Ha. apply bind_ok in Ha as (a3 & Ha & E). injection E as <- <-. unfold lit_of in Ha. rewrite L in Ha.
  match type of Ha with (if ?c then _ else _) = _ => replace c with false in Ha end.
  2: { destruct x; [reflexivity|]. cbn [sure_sep] in H5. apply andb_true_iff in H5 as [C1 C2]. destruct (A C1) as (-> & _).
       replace (elems (slice_of (mean_block b))) with (mean_block b) by (destruct (mean_block b); reflexivity).
       rewrite colon_spec in C2. symmetry. apply negb_true_iff. exact C2. }
  injection Ha as <-. exists w3, c1, c2, a1. auto.
Qed.

Lemma legal_stmts : (forall s, LS s) /\ (forall b, LB b) /\ (forall l, LL l) /\ (forall c, LC c).
Proof.
  apply stmt_all.
  1-7: legal.
  - legal. bound_act HA. apply no_check_loop in HA as ->; [|assumption|eqg]. ferr. assumption.
  - legal. bound_act HA. apply no_check_loop in HA as ->; [|assumption|eqg]. ferr. assumption.
  - legal. bound_act HA. slots. rw. apply no_check_throw in HA as ->; [ferr; assumption|].
    rewrite mean_oexpr_nil. destruct o; [intros _|discriminate]. eqg.
  - legal. bound_act HA. slots. rw. apply no_check_return in HA as ->; [ferr; assumption|].
    rewrite mean_oexpr_nil. destruct o; [discriminate|intros _]. eqg.
  - intros H. contradiction.
  - legal.
  - legal_start. match goal with H : ev _ _ _ _ |- _ => rename H into HH end. eapply legal_sep in HH as (v3 & b1 & b2 & b3 & G1 & G2 & G3 & G4 & G5); try eassumption. repeat ev1. acts. slots. comp. ferr. assumption.
  - legal_start. match goal with H : ev _ _ _ _ |- _ => rename H into HH end. eapply legal_sep in HH as (v3 & b1 & b2 & b3 & G1 & G2 & G3 & G4 & G5); try eassumption. repeat ev1. acts. slots. comp. lfwd. assumption.
  - legal.
  - legal.
  - legal.
  - legal.
Qed.
Lemma legal_block b : LOB b. Proof. apply opt_legal, legal_stmts. Qed.
Lemma legal_body b : LB b. Proof. apply legal_stmts. Qed.

(** * Declarations *)
Lemma NoDup_prefix {A} (l l' : list A) : NoDup (l ++ l') -> NoDup l.
Proof. induction l as [|x l IH]; intros H; [constructor|]. cbn in H. inversion H; subst. constructor; [|auto]. intros K. apply H2, in_or_app. auto. Qed.
Lemma mem_app_new x l l' : NoDup (l ++ x :: l') -> mem x l = false.
Proof.
  intros H. destruct (mem x l) eqn:E; [|reflexivity]. apply mem_In in E. apply NoDup_remove_2 in H. destruct H. apply in_or_app. auto.
Qed.
Lemma appendVars_legal ids : forall l, NoDup (l ++ ids) -> appendVars (Some l) ids = Ok (Some (l ++ ids), None).
Proof.
  induction ids as [|x ids IH]; intros l H; cbn [appendVars elems]; [rewrite app_nil_r; reflexivity|].
  rewrite (mem_app_new _ _ _ H), IH; rewrite <- app_assoc; [reflexivity|exact H].
Qed.
Lemma legal_evars x : x <> VNil -> forall v a a', ev (child (t_vars x)) v a a' -> a_err a = None -> NoDup (mean_vars x) -> a_err a' = None.
Proof.
  induction x as [|x IH l]; intros Hx v a a' H He Hn; [contradiction|].
  destruct x as [|x0 l0].
  - cbn [t_vars child mean_vars app] in *. unf. repeat ev1.
    match goal with H : ev (t_names l) _ _ _ |- _ => apply eval_names in H as [H E] end.
    match goal with H : act 26 _ _ _ = _ |- _ => cbn [act nth Nat.sub] in H; rename H into HA end. acts. slots. rewrite E, appendVars_legal in HA by exact Hn.
    cbn [bind] in HA. injection HA as <- <-. comp. ferr. assumption.
  - assert (Hn0 : VSnoc x0 l0 <> VNil) by discriminate. specialize (IH Hn0).
    assert (E0 : child (t_vars (VSnoc (VSnoc x0 l0) l)) = Node 27 [child (t_vars (VSnoc x0 l0)); lf tVar; t_names l; semi]) by reflexivity.
    rewrite E0 in H. clear E0. pose proof (eval_evars (VSnoc x0 l0) Hn0) as EV.
    change (mean_vars (VSnoc (VSnoc x0 l0) l)) with (mean_vars (VSnoc x0 l0) ++ name_list l) in Hn.
    set (m := mean_vars (VSnoc x0 l0)) in *. clearbody m. pose proof (NoDup_prefix _ _ Hn) as Hm.
    set (u := child (t_vars (VSnoc x0 l0))) in *. clearbody u. unf. repeat ev1.
    match goal with H : ev (t_names l) _ _ _ |- _ => apply eval_names in H as [H E] end.
    match goal with H : ev u _ _ ?b |- _ => assert (X : a_err b = None) by (eapply IH; eassumption); apply EV in H as (H & E1 & _); [|exact X] end.
    match goal with H : act 27 _ _ _ = _ |- _ => cbn [act nth Nat.sub] in H; rename H into HA end. acts. slots. rewrite E, E1, appendVars_legal in HA by exact Hn.
    cbn [bind] in HA. injection HA as <- <-. comp. ferr. assumption.
Qed.
Lemma legal_vars x v a a' : ev (t_vars x) v a a' -> a_err a = None -> NoDup (mean_vars x) -> a_err a' = None.
Proof.
  intros H He Hn. assert (D : x = VNil \/ x <> VNil) by (destruct x; [auto|right; discriminate]). destruct D as [-> | D].
  - cbn [t_vars] in H. repeat ev1. acts. slots. ferr. assumption.
  - rewrite (t_vars_25' _ D) in H. repeat ev1. acts. slots.
    match goal with H : ev (child _) _ _ ?b |- _ => assert (a_err b = None) by (eapply legal_evars; eassumption) end. ferr. assumption.
Qed.
Lemma legal_func f v a a' : simple_params (cf_params f) = true -> ev (t_func f) v a a' -> a_err a = None -> ready a -> a_isFunction a = false ->
  loose_block (inl a) (cf_body f) = true -> throws_block (inh a) (cf_body f) = true -> returns_block (cf_function f) (cf_body f) = true ->
  sure_block (cf_body f) = true -> NoDup (mean_vars (cf_vars f)) -> a_err a' = None.
Proof.
  intros Hp H He Hr Hf H1 H2 H3 H4 H5. destruct f as [d fn n ps ex vs bd]. cbn [cf_params cf_body cf_function cf_vars] in *. unfold t_func in H.
  cbn [cf_dir cf_function cf_name cf_params cf_export cf_vars cf_body] in H. destruct fn.
  - unf. repeat ev1. acts. slots.
    match goal with H : ev (t_dir _) _ _ _ |- _ => apply eval_dir in H as [H Ed] end.
    match goal with H : ev (t_params _) _ _ _ |- _ => apply eval_params in H as [H Ep]; [|assumption] end.
    match goal with H : ev (t_export _) _ _ _ |- _ => apply eval_export in H as [H Ex] end. comp. fwd.
    match goal with R : ready ?x, H : same_ctx (set_function ?x true) ?y |- _ => destruct (fun_in _ _ R H) as (R' & I1 & I2 & I3) end. ferr.
    match goal with E : a_err ?x = None, H : same_ctx (set_function ?x true) ?y |- _ => assert (a_err y = None) by exact (err_same _ _ H E) end.
    match goal with H : ev (t_vars _) _ _ ?y |- _ => assert (X : a_err y = None) by (eapply legal_vars; eassumption); apply eval_vars in H as (H & _ & _); [|exact X] end. fwd.
    match goal with H : ev (t_block _) _ _ ?y |- _ => assert (Y : a_err y = None) by (apply (legal_block _ _ _ _ H); eqg) end. ferr.
    match goal with E : a_err ?x = None, H : same_ctx (set_function ?x false) ?y |- _ => exact (err_same _ _ H E) end.
  - unf. repeat ev1. acts. slots.
    match goal with H : ev (t_dir _) _ _ _ |- _ => apply eval_dir in H as [H Ed] end.
    match goal with H : ev (t_params _) _ _ _ |- _ => apply eval_params in H as [H Ep]; [|assumption] end.
    match goal with H : ev (t_export _) _ _ _ |- _ => apply eval_export in H as [H Ex] end. comp. fwd. ferr.
    match goal with H : ev (t_vars _) _ _ ?y |- _ => assert (X : a_err y = None) by (eapply legal_vars; eassumption); apply eval_vars in H as (H & _ & _); [|exact X] end. fwd.
    match goal with H : ev (t_block _) _ _ ?y |- _ => assert (Y : a_err y = None) by (apply (legal_block _ _ _ _ H); eqg) end. ferr. assumption.
Qed.

(** * Items *)
Lemma gvars_legal vs : forall a a', append_gvars vs a = Ok a' -> a_err a = None -> elems (m_body (a_module a)) = [] ->
  NoDup (map gv_name (elems (m_gvars (a_module a)) ++ vs)) -> a_err a' = None.
Proof.
  induction vs as [|x vs IH]; intros a a' H He Hb Hn; cbn [append_gvars] in H; [congruence|].
  apply bind_ok in H as (a1 & H1 & H2). unfold append_gvar in H1. rewrite Hb in H1. cbn [length Nat.eqb negb] in H1.
  rewrite map_app in Hn. cbn [map] in Hn. rewrite (mem_app_new _ _ _ Hn) in H1. injection H1 as <-.
  apply (IH _ _ H2); cbn [a_err set_module a_module m_body m_gvars elems]; [assumption..|].
  rewrite !map_app, <- app_assoc. exact Hn.
Qed.
Definition legal_items (l : items) : Prop :=
  loose_funcs false (item_funcs l) = true /\
  forallb (fun f => throws_block false (cf_body f)) (item_funcs l) = true /\
  forallb (fun f => returns_block (cf_function f) (cf_body f)) (item_funcs l) = true /\
  forallb (fun f => sure_block (cf_body f)) (item_funcs l) = true /\
  vars_ok l /\ layout_ok l = true.
Lemma legal_snoc l i : legal_items (ISnoc l i) -> legal_items l.
Proof.
  intros (A1 & A2 & A3 & A4 & (V1 & V2) & Ly). destruct i as [d n x|f]; cbn [item_funcs item_gvars layout_ok] in *.
  - repeat split; try assumption.
    + rewrite map_app in V2. exact (NoDup_prefix _ _ V2).
    + apply andb_true_iff in Ly. apply Ly.
  - rewrite loose_funcs_snoc in A1. rewrite !forallb_app in *. lands. apply Forall_app in V1. repeat split; tauto.
Qed.
Lemma legal_item l i a b v a' : match i with IFunc f => simple_params (cf_params f) = true | _ => True end ->
  after l a b -> ev (t_item i) v b a' -> a_err b = None -> legal_items (ISnoc l i) -> a_err a' = None.
Proof.
  intros Hi (R & C & L & T & F & (fs & M & Mf & Mc) & _) H He (A1 & A2 & A3 & A4 & (V1 & V2) & Ly).
  destruct i as [d n x|f]; cbn [t_item item_funcs item_gvars layout_ok] in *.
  - unf. repeat ev1.
    match goal with H : ev (t_dir _) _ _ _ |- _ => apply eval_dir in H as [H Ed] end.
    match goal with H : ev (t_names _) _ _ _ |- _ => apply eval_names in H as [H En] end.
    match goal with H : ev (t_export _) _ _ _ |- _ => apply eval_export in H as [H Ex0] end. acts. slots. comp.
    bound_act HA. ferr.
    match type of HA with append_gvars ?l' ?c = Ok ?y => assert (a_err y = None) end; [|ferr; assumption].
    apply (gvars_legal _ _ _ HA); [assumption|..].
    all: match goal with M : a_module ?b0 = _, H : same_ctx ?b0 ?c |- context [a_module ?c] => destruct H as (_ & _ & -> & _) end.
    + rewrite M. cbn [m_body]. apply andb_true_iff in Ly as [_ Ly]. destruct (item_funcs l); [|discriminate]. inversion Mf. reflexivity.
    + rewrite M. cbn [m_gvars]. replace (elems (gv_slice (item_gvars l))) with (item_gvars l) by (destruct (item_gvars l); reflexivity).
      rewrite map_app in *. rewrite map_map. unfold mean_gvars in V2. rewrite map_map in V2. cbn [gv_name] in *. rewrite map_id in V2. rewrite <- En in V2. exact V2.
  - rewrite loose_funcs_snoc in A1. rewrite !forallb_app in *. cbn [forallb] in *. lands. apply Forall_app in V1 as [V1 V3]. inversion V3; subst.
    apply ev_node_inv in H as (ds & v0 & v1 & q & a1 & a2 & _ & H & _ & Ha & Hs & ->).
    apply evs_cons_inv in H as (w & ws & c & -> & E1 & H). apply evs_nil_inv in H as [-> ->].
    cbn [act nth Nat.sub] in Ha. apply bind_ok in Ha as (a3 & Ha & E). injection E as <- <-.
    assert (X : a_err a1 = None) by (apply (legal_func _ _ _ _ Hi E1 He R F); try assumption; rewrite ?L, ?T; assumption).
    destruct (eval_func _ _ _ _ Hi E1 X R F) as ((_ & G2 & _) & _).
    apply (err_same _ _ Hs). unfold append_func in Ha. rewrite G2, M in Ha. cbn [m_body m_name m_gvars] in Ha.
    match type of Ha with (if ?c then _ else _) = _ => replace c with false in Ha end; [injection Ha as <-; exact X|].
    clear - Mf. symmetry. destruct fs as [|x fs _] using rev_ind; [reflexivity|]. apply andb_false_iff. right.
    replace (elems (slice_of (fs ++ [x]))) with (fs ++ [x]) by (destruct (fs ++ [x]); reflexivity). rewrite last_last.
    apply Forall2_app_inv_r in Mf as (l1 & l2 & _ & Mf & _). inversion Mf as [|? ? ? ? (bd & ->)]; subst. reflexivity.
Qed.
Lemma legal_items_ok l : forall a v a', l <> INil -> forallb (fun f => simple_params (cf_params f)) (item_funcs l) = true ->
  fresh a -> ev (t_items l) v a a' -> a_err a = None -> legal_items l -> a_err a' = None.
Proof.
  induction l as [|l IH i]; intros a v a' Hn Hp Hf H He Hl; [contradiction|].
  assert (Hi : match i with IFunc f => simple_params (cf_params f) = true | _ => True end /\
               forallb (fun f => simple_params (cf_params f)) (item_funcs l) = true).
  { destruct i; cbn [item_funcs] in Hp; [auto|]. rewrite forallb_app in Hp. apply andb_true_iff in Hp as [H1 H2]. cbn in H2.
    rewrite andb_true_r in H2. auto. }
  destruct Hi as [Hi Hp'].
  assert (D : exists b w c, after l a b /\ a_err b = None /\ ev (t_item i) w b c /\ same_ctx c a').
  { destruct l as [|l0 i0].
    - cbn [t_items] in H. apply ev_node_inv in H as (ds & v0 & v1 & q & a1 & a2 & _ & H & _ & Ha & Hs & ->).
      apply evs_cons_inv in H as (w & ws & c & -> & H1 & H). apply evs_nil_inv in H as [-> ->]. cbn [act] in Ha. injection Ha as <- <-.
      exists a, w, a1. split; [apply after_nil, Hf|]. auto.
    - change (t_items (ISnoc (ISnoc l0 i0) i)) with (Node 5 [t_items (ISnoc l0 i0); t_item i]) in H.
      apply ev_node_inv in H as (ds & v0 & v1 & q & a1 & a2 & _ & H & _ & Ha & Hs & ->).
      apply evs_cons_inv in H as (w & ws & c & -> & H1 & H). apply evs_cons_inv in H as (w2 & ws2 & c2 & -> & H2 & H). apply evs_nil_inv in H as [-> ->].
      cbn [act] in Ha. injection Ha as <- <-.
      assert (X : a_err c = None) by (eapply IH; try eassumption; [discriminate|apply (legal_snoc _ _ Hl)]).
      exists c, w2, a1. split; [|auto]. eapply after_items; try eassumption. discriminate. }
  destruct D as (b0 & w & c & D1 & D2 & D3 & D4). apply (err_same _ _ D4). eapply legal_item; eassumption.
Qed.

(** * Whole modules *)
Definition sure_ok : program -> bool := each_body (fun f => sure_block (cf_body f)) sure_block.
Definition legal (p : program) : Prop :=
  loose_ok p = true /\ throws_ok p = true /\ returns_ok p = true /\ vars_once p /\ layout_ok (pr_items p) = true /\ sure_ok p = true.
Theorem legal_program p v a a' : defaults_ok p = true -> fresh a -> a_err a = None -> ev (t_program p) v a a' -> legal p -> a_err a' = None.
Proof.
  destruct p as [l b]. unfold defaults_ok, legal, loose_ok, throws_ok, returns_ok, sure_ok, each_body, vars_once. cbn [pr_items pr_body].
  intros Hp Hf He H (B1 & B2 & B3 & B4 & B5 & B6). lands.
  assert (Li : legal_items l) by (repeat split; try assumption; apply B4).
  assert (Dl : l = INil \/ l <> INil) by (destruct l; [auto|right; discriminate]). destruct Dl as [-> | Dl].
  - assert (Db : b = BNil \/ b <> BNil) by (destruct b; auto; right; discriminate). destruct Db as [-> | Db].
    + cbn in H. apply ev_node_inv in H as (ds & v0 & v1 & q & a1 & a2 & _ & H & _ & Ha & Hs & ->).
      apply evs_nil_inv in H as [-> <-]. cbn [act] in Ha. injection Ha as <- <-. exact (err_same _ _ Hs He).
    + assert (Et : t_program (Program INil b) = Node 2 [child (t_block b)]) by (destruct b; [contradiction|reflexivity..]).
      rewrite Et in H. apply ev_node_inv in H as (ds & v0 & v1 & q & a1 & a2 & _ & H & _ & Ha & Hs & ->).
      apply evs_cons_inv in H as (w & ws & c & -> & E1 & H). apply evs_nil_inv in H as [-> ->]. cbn [act nth Nat.sub] in Ha.
      unfold append_stmts in Ha. cbn [bind] in Ha. injection Ha as <- <-. apply (err_same _ _ Hs).
      pose proof (after_nil _ Hf) as (R & _ & L & T & F & _).
      apply (legal_body b Db _ _ _ E1 He R); rewrite ?L, ?T, ?F; assumption.
  - assert (Et : t_program (Program l b) = Node 3 [t_items l; t_block b]) by (destruct l; [contradiction|reflexivity]).
    rewrite Et in H. apply ev_node_inv in H as (ds & v0 & v1 & q & a1 & a2 & _ & H & _ & Ha & Hs & ->).
    apply evs_cons_inv in H as (w & ws & c & -> & E1 & H). apply evs_cons_inv in H as (w2 & ws2 & c2 & -> & E2 & H). apply evs_nil_inv in H as [-> ->].
    cbn [act nth Nat.sub] in Ha. unfold append_stmts in Ha. cbn [bind] in Ha. injection Ha as <- <-. apply (err_same _ _ Hs).
    assert (X : a_err c = None) by (eapply legal_items_ok; eassumption).
    assert (Af : after l a c) by (eapply after_items; eassumption). destruct Af as (R & _ & L & T & F & _).
    apply (legal_block b _ _ _ E2 X R); rewrite ?L, ?T, ?F; assumption.
Qed.
