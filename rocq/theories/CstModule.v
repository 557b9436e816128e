(** The semantic actions on declarations and on whole modules. *)
From Verif Require Import Bytes Utf8 Float64 GoTime Ast Lexer LexFacts LexSpec LexProofs Tables Parser Grammar Tok CertData Cert Driver DriverInv Trees Syntax Rules RulesFacts CstTrees CstEval.

Lemma eval_names l v a a' : ev (t_names l) v a a' -> same_ctx a a' /\ map tk_lit (v_identifiers v) = name_list l.
Proof.
  revert v a a'. induction l; intros v a a' H; cbn [t_names] in H; unf; repeat ev1; acts; slots; toks.
  - split; [fin_ctx|]. cbn. congruence.
  - match goal with H : ev (t_names l) _ _ _ |- _ => apply IHl in H as [H E] end.
    split; [fin_ctx|]. rewrite map_app, E. cbn. congruence.
Qed.
Lemma eval_simple e v a a' : simple e = true -> ev (t_simple e) v a a' -> same_ctx a a' /\ v_stmt v = mean_expr e.
Proof.
  intros Hs. unfold t_simple. destruct e; try discriminate Hs; cbn [t_expr child]; intros H; unf; repeat ev1; evals; toks; acts; slots;
  (split; [fin_ctx|]); rw; cbn [mean_expr]; rewrite <- ?minus_mark; reflexivity.
Qed.
Lemma eval_param p v a a' : simple_param p = true -> ev (t_param p) v a a' -> same_ctx a a' /\ v_param v = mean_param p.
Proof.
  revert v a a'. induction p; intros v a a' Hp H; cbn [t_param] in H; unf; repeat ev1.
  - acts; slots; toks. split; [fin_ctx|]. cbn. congruence.
  - acts; slots; toks. split; [fin_ctx|]. cbn. congruence.
  - cbn [simple_param] in Hp. apply andb_true_iff in Hp as [Hp1 Hp2].
    match goal with H : ev (t_param p) _ _ _ |- _ => apply IHp in H as [H E]; [|assumption] end.
    match goal with H : ev (t_simple e) _ _ _ |- _ => apply eval_simple in H as [H E']; [|assumption] end.
    match goal with H : act _ _ _ _ = _ |- _ => cbn [act nth Nat.sub] in H; revert H end. subst.
    rewrite E, E', mean_expr_nn. cbn [mean_param]. destruct (mean_param p) as [[? ?] ?]. intros [= <- <-]. slots. split; [fin_ctx|reflexivity].
Qed.
Lemma eval_params l v a a' : simple_params l = true -> ev (t_params l) v a a' -> same_ctx a a' /\ v_params v = mean_params l.
Proof.
  revert v a a'. induction l; intros v a a' Hp H; cbn [t_params] in H; cbn [simple_params] in Hp; unf; repeat ev1; acts; slots.
  - split; [fin_ctx|reflexivity].
  - match goal with H : ev (t_param p) _ _ _ |- _ => apply eval_param in H as [H E]; [|assumption] end.
    split; [fin_ctx|]. rewrite E. reflexivity.
  - apply andb_true_iff in Hp as [Hp1 Hp2].
    match goal with H : ev (t_params l) _ _ _ |- _ => apply IHl in H as [H E1]; [|assumption] end.
    match goal with H : ev (t_param p) _ _ _ |- _ => apply eval_param in H as [H E2]; [|assumption] end.
    split; [fin_ctx|]. rewrite E1, E2. reflexivity.
Qed.

Lemma mem_In k l : mem k l = true <-> In k l.
Proof.
  unfold mem. rewrite existsb_exists. split.
  - intros (x & Hx & E). apply beqb_eq in E. subst. exact Hx.
  - intros H. exists k. split; [exact H|]. apply beqb_eq. reflexivity.
Qed.
Lemma NoDup_snoc {A} (l : list A) x : NoDup l -> ~ In x l -> NoDup (l ++ [x]).
Proof.
  intros H Hx. apply NoDup_Add with (a := x) (l := l); [|auto]. rewrite <- (app_nil_r l) at 1. apply Add_app.
Qed.
Lemma appendVars_once ids : forall l m, NoDup l -> appendVars (Some l) ids = Ok (m, None) -> m = Some (l ++ ids) /\ NoDup (l ++ ids).
Proof.
  induction ids as [|x ids IH]; intros l m Hl H; cbn [appendVars elems] in H.
  - injection H as <-. rewrite app_nil_r. auto.
  - destruct (mem x l) eqn:E; [discriminate|].
    assert (Hx : ~ In x l) by (rewrite <- mem_In, E; discriminate).
    destruct (IH _ _ (NoDup_snoc _ _ Hl Hx) H) as [H1 H2]. rewrite <- app_assoc in H1, H2. auto.
Qed.

Definition QV x := x <> VNil -> forall v a a', ev (child (t_vars x)) v a a' -> a_err a' = None ->
  same_ctx a a' /\ v_explicit_variables v = Some (mean_vars x) /\ NoDup (mean_vars x).
Lemma t_vars_25' x : x <> VNil -> t_vars x = Node 25 [child (t_vars x)].
Proof. destruct x as [|[|] l]; intros H; [contradiction|reflexivity|reflexivity]. Qed.
Lemma eval_evars x : QV x.
Proof.
  induction x as [|x IH l]; intros Hx v a a' H He; [contradiction|].
  destruct x as [|x0 l0].
  - cbn [t_vars child] in H. unf. repeat ev1.
    match goal with H : ev (t_names l) _ _ _ |- _ => apply eval_names in H as [H E] end.
    match goal with H : act _ _ _ _ = Ok (_, ?c) |- _ => cbn [act nth Nat.sub] in H; apply bind_ok in H as (y & H & H');
      assert (a_err c = None) by (rewrite <- He; symmetry; apply same_ctx_err; assumption) end. acts. slots. comp.
    match goal with H : appendVars _ _ = _ |- _ => rewrite E in H end.
    destruct y as [m [n|]].
    { apply bind_ok in H' as (z & H' & E'). apply Error_err in H'. injection E' as <- <-. contradiction. }
    injection H' as <- <-. slots.
    match goal with H : appendVars _ _ = _ |- _ => apply appendVars_once in H as [-> N]; [|constructor] end.
    cbn [mean_vars app] in *. split; [fin_ctx|]. auto.
  - assert (Hn : VSnoc x0 l0 <> VNil) by discriminate. specialize (IH Hn).
    assert (E0 : child (t_vars (VSnoc (VSnoc x0 l0) l)) = Node 27 [child (t_vars (VSnoc x0 l0)); lf tVar; t_names l; semi]) by reflexivity.
    rewrite E0 in H. clear E0. set (u := child (t_vars (VSnoc x0 l0))) in *. clearbody u. unf. repeat ev1.
    match goal with H : ev (t_names l) _ _ _ |- _ => apply eval_names in H as [H E] end.
    match goal with H : act _ _ _ _ = Ok (_, ?c) |- _ => cbn [act nth Nat.sub] in H; apply bind_ok in H as (y & H & H');
      assert (a_err c = None) by (rewrite <- He; symmetry; apply same_ctx_err; assumption) end. acts. slots. comp.
    match goal with H : appendVars _ _ = _ |- _ => rewrite E in H end.
    destruct y as [m [n|]].
    { apply bind_ok in H' as (z & H' & E'). apply Error_err in H'. injection E' as <- <-. contradiction. }
    injection H' as <- <-. slots. backerr.
    match goal with H : ev u _ _ _ |- _ => apply IH in H as (H & E1 & N); [|assumption] end.
    match goal with H : appendVars _ _ = _ |- _ => rewrite E1 in H; apply appendVars_once in H as [-> N']; [|assumption] end.
    split; [fin_ctx|]. auto.
Qed.
Lemma eval_vars x v a a' : ev (t_vars x) v a a' -> a_err a' = None ->
  same_ctx a a' /\ v_opt_explicit_variables v = Some (mean_vars x) /\ NoDup (mean_vars x).
Proof.
  intros H He. assert (D : x = VNil \/ x <> VNil) by (destruct x; [auto|right; discriminate]). destruct D as [-> | D].
  - cbn [t_vars] in H. repeat ev1. acts. slots. split; [fin_ctx|]. split; [reflexivity|constructor].
  - rewrite (t_vars_25' _ D) in H. repeat ev1. acts. slots. backerr.
    match goal with H : ev (child _) _ _ _ |- _ => apply (eval_evars x D) in H as (H & E & N); [|assumption] end.
    split; [fin_ctx|]. auto.
Qed.
Lemma eval_dir d v a a' : ev (t_dir d) v a a' ->
  same_ctx a a' /\ (match v_opt_directive v with Some t => tk_lit t | None => [] end) = (match d with Some n => n | None => [] end).
Proof. destruct d; cbn [t_dir]; intros H; repeat ev1; acts; slots; toks; (split; [fin_ctx|auto]). Qed.
Lemma eval_export b v a a' : ev (t_export b) v a a' -> same_ctx a a' /\ is_some (v_opt_export v) = b.
Proof. destruct b; cbn [t_export]; intros H; unf; repeat ev1; acts; slots; (split; [fin_ctx|auto]). Qed.

Lemma fun_in a b : ready a -> same_ctx (set_function a true) b -> ready b /\ inl b = inl a /\ inh b = inh a /\ a_isFunction b = true.
Proof. intros [R1 R2] (_ & _ & _ & H1 & H2 & H3). cbn in *. unfold ready, inl, inh. rewrite H1, H2. repeat split; auto; lia. Qed.
Lemma fun_out w a b c d : gets w b c -> a_isFunction a = false -> same_ctx (set_function a true) b -> same_ctx (set_function c false) d -> gets w a d.
Proof.
  intros (H1 & H2 & H3 & H4 & n & H5 & H6 & <-) Hf (G1 & _ & G3 & G4 & G5 & G6) (F1 & _ & F3 & F4 & F5 & F6). cbn in *.
  repeat split; try congruence. exists n. repeat split; lia.
Qed.
Lemma eval_func f v a a' : simple_params (cf_params f) = true -> ev (t_func f) v a a' -> a_err a' = None -> ready a -> a_isFunction a = false ->
  gets (while_block (cf_body f)) a a' /\ loose_block (inl a) (cf_body f) = true /\ throws_block (inh a) (cf_body f) = true /\
  returns_block (cf_function f) (cf_body f) = true /\ NoDup (mean_vars (cf_vars f)) /\ (exists body, v_funcProc v = mean_func_with body f) /\
  (clean_block (cf_body f) = true -> v_funcProc v = mean_func f /\ colons_block (cf_body f) = true).
Proof.
  intros Hp H He Hr Hf. destruct f as [d fn n ps ex vs bd]. cbn [cf_params cf_body cf_function cf_vars] in *. unfold t_func in H.
  cbn [cf_dir cf_function cf_name cf_params cf_export cf_vars cf_body] in H. destruct fn.
  - unf. repeat ev1. acts. slots. toks.
    match goal with H : ev (t_dir _) _ _ _ |- _ => apply eval_dir in H as [H Ed] end.
    match goal with H : ev (t_params _) _ _ _ |- _ => apply eval_params in H as [H Ep]; [|assumption] end.
    match goal with H : ev (t_export _) _ _ _ |- _ => apply eval_export in H as [H Ex] end. comp.
    match goal with H : same_ctx (set_function ?c false) a' |- _ =>
      assert (E1 : a_err c = None) by (rewrite <- He; symmetry; apply (same_ctx_err _ _ H)) end.
    backerr.
    match goal with H : ev (t_vars _) _ _ _ |- _ => apply eval_vars in H as (H & Ev & N); [|assumption] end. comp.
    fwd.
    match goal with R : ready ?x, H : same_ctx (set_function ?x true) ?y |- _ => destruct (fun_in _ _ R H) as (R' & I1 & I2 & I3) end.
    match goal with H : ev (t_block bd) _ ?x ?y |- _ => destruct (eval_block _ _ _ _ H ltac:(assumption) ltac:(assumption)) as (G & A1 & A2 & A3 & A4) end.
    match goal with H : same_ctx (set_function ?x true) _, K : same_ctx ?y ?z, L : same_ctx (set_function ?z false) _ |- _ =>
      assert (G' : gets (while_block bd) x a') end.
    { eapply fun_out; [|congruence|eassumption..]. eapply gets_eq; [eapply gets_trans; [exact G|apply gets_same; eassumption]|apply orb_false_r]. }
    eqs. cbn [cf_body cf_vars].
    refine (conj _ (conj A1 (conj A2 (conj A3 (conj N (conj _ _)))))).
    + eapply gets_eq; [eapply gets_trans; [apply gets_same; eassumption|exact G']|reflexivity].
    + eexists. unfold createFunctionOrProcedure, mean_func_with.
      cbn [cf_dir cf_function cf_name cf_params cf_export cf_vars cf_body]. rewrite Ed, Ep, Ex, Ev. rw. reflexivity.
    + intros Hc. destruct (A4 Hc) as (B1 & B2 & _). split; [|exact B2]. unfold createFunctionOrProcedure, mean_func, mean_func_with.
      cbn [cf_dir cf_function cf_name cf_params cf_export cf_vars cf_body]. rewrite Ed, Ep, Ex, Ev, B1. congruence.
  - unf. repeat ev1. acts. slots. toks.
    match goal with H : ev (t_dir _) _ _ _ |- _ => apply eval_dir in H as [H Ed] end.
    match goal with H : ev (t_params _) _ _ _ |- _ => apply eval_params in H as [H Ep]; [|assumption] end.
    match goal with H : ev (t_export _) _ _ _ |- _ => apply eval_export in H as [H Ex] end. comp. backerr.
    match goal with H : ev (t_vars _) _ _ _ |- _ => apply eval_vars in H as (H & Ev & N); [|assumption] end. comp. fwd.
    match goal with H : ev (t_block bd) _ ?x ?y |- _ => destruct (eval_block _ _ _ _ H ltac:(assumption) ltac:(assumption)) as (G & A1 & A2 & A3 & A4) end.
    eqs.
    refine (conj _ (conj A1 (conj A2 (conj A3 (conj N (conj _ _)))))).
    + eapply gets_eq; [chain|]. cbn [cf_body]. rewrite ?orb_false_r. reflexivity.
    + eexists. unfold createFunctionOrProcedure, mean_func_with.
      cbn [cf_dir cf_function cf_name cf_params cf_export cf_vars cf_body]. rewrite Ed, Ep, Ex, Ev. rw. reflexivity.
    + intros Hc. destruct (A4 Hc) as (B1 & B2 & _). split; [|exact B2]. unfold createFunctionOrProcedure, mean_func, mean_func_with.
      cbn [cf_dir cf_function cf_name cf_params cf_export cf_vars cf_body]. rewrite Ed, Ep, Ex, Ev, B1. congruence.
Qed.

(** * Items *)
Definition gv_slice (l : list gvar) : option (list gvar) := match l with [] => None | _ => Some l end.
(** The module after the items [l]. *)
Definition module_of (l : items) (m : module) : Prop :=
  exists fs, m = Module [] (gv_slice (item_gvars l)) (slice_of fs) /\ Forall2 (fun f s => exists body, s = mean_func_with body f) (item_funcs l) fs /\
    (forallb (fun f => clean_block (cf_body f)) (item_funcs l) = true ->
       fs = map mean_func (item_funcs l) /\ forallb (fun f => colons_block (cf_body f)) (item_funcs l) = true).
Definition vars_ok (l : items) : Prop :=
  Forall (fun f => NoDup (mean_vars (cf_vars f))) (item_funcs l) /\ NoDup (map gv_name (item_gvars l)).
(** Context and rules after the items [l], starting from a fresh context. *)
Definition after (l : items) (a a' : astnode) : Prop :=
  ready a' /\ a_code a' = a_code a /\ inl a' = while_funcs (item_funcs l) /\ inh a' = false /\ a_isFunction a' = false /\
  module_of l (a_module a') /\
  loose_funcs false (item_funcs l) = true /\
  forallb (fun f => throws_block false (cf_body f)) (item_funcs l) = true /\
  forallb (fun f => returns_block (cf_function f) (cf_body f)) (item_funcs l) = true /\
  vars_ok l /\ layout_ok l = true.
Definition fresh (a : astnode) : Prop :=
  a_module a = zero_module /\ a_isLoop a = 0 /\ a_isTry a = 0 /\ a_isFunction a = false.

Lemma names_nonempty l : name_list l <> []. Proof. destruct l; cbn; [discriminate|]. destruct (name_list l); discriminate. Qed.

Lemma append_gvars_ok vs : forall a a', append_gvars vs a = Ok a' -> a_err a' = None -> vs <> [] ->
  NoDup (map gv_name (elems (m_gvars (a_module a)))) ->
  elems (m_body (a_module a)) = [] /\
  NoDup (map gv_name (elems (m_gvars (a_module a)) ++ vs)) /\
  a' = set_module a (Module (m_name (a_module a)) (Some (elems (m_gvars (a_module a)) ++ vs)) (m_body (a_module a))).
Proof.
  induction vs as [|x vs IH]; intros a a' H He Hn Hd; [contradiction|]. cbn [append_gvars] in H. apply bind_ok in H as (a1 & H1 & H2).
  assert (He1 : a_err a1 = None).
  { destruct (a_err a1) eqn:E; [|reflexivity]. exfalso. apply append_gvars_input in H2. destruct H2 as (_ & _ & K). rewrite E in K.
    apply K; [discriminate|exact He]. }
  unfold append_gvar in H1. destruct (m_body (a_module a)) as [[|y l]|] eqn:Eb; cbn [elems length Nat.eqb negb] in H1.
  2: { apply Error_err in H1. contradiction. }
  all: destruct (mem (gv_name x) _) eqn:Em; [apply Error_err in H1; contradiction|]; injection H1 as <-;
    (assert (Hx : ~ In (gv_name x) (map gv_name (elems (m_gvars (a_module a))))) by (rewrite <- mem_In, Em; discriminate));
    (assert (Hd' : NoDup (map gv_name (elems (m_gvars (a_module a)) ++ [x]))) by (rewrite map_app; apply NoDup_snoc; assumption));
    (destruct vs as [|z vs]; [cbn in H2; injection H2 as <-; auto|]);
    (destruct (IH _ _ H2 He ltac:(discriminate) Hd') as (A1 & A2 & A3));
    cbn [elems set_module a_module m_gvars m_body m_name] in *; rewrite <- app_assoc in A2, A3; cbn [app] in A2, A3; auto.
Qed.

Lemma after_vars l d n x a b v a' : after l a b -> ev (t_item (IVars d n x)) v b a' -> a_err a' = None -> after (ISnoc l (IVars d n x)) a a'.
Proof.
  intros (R & C & L & T & F & (fs & M & Mf & Mc) & A1 & A2 & A3 & (V1 & V2) & Ly) H He.
  cbn [t_item] in H. unf. repeat ev1.
  match goal with H : ev (t_dir _) _ _ _ |- _ => apply eval_dir in H as [H Ed] end.
  match goal with H : ev (t_names _) _ _ _ |- _ => apply eval_names in H as [H En] end.
  match goal with H : ev (t_export _) _ _ _ |- _ => apply eval_export in H as [H Ex0] end. acts. slots. comp.
  match goal with H : bind _ _ = Ok _ |- _ => apply bind_ok in H as (c & H & E) end.
  injection E as <- <-. comp.
  match goal with |- after (ISnoc _ (IVars _ _ ?y)) _ _ => remember y as x eqn:Ex end.
  match goal with H : append_gvars ?l' _ = _ |- _ => replace l' with (mean_gvars d n x) in H end.
  2: { unfold mean_gvars. rewrite <- En, map_map, <- Ed. reflexivity. }
  match goal with H : append_gvars _ ?b1 = Ok ?b2, K : same_ctx b ?b1, J : same_ctx ?b2 a' |- _ =>
    rename H into HA; rename K into HK; rename J into HJ end.
  destruct HK as (K1 & K2 & K3 & K4 & K5 & K6). destruct HJ as (J1 & J2 & J3 & J4 & J5 & J6).
  assert (Eg : elems (gv_slice (item_gvars l)) = item_gvars l) by (destruct (item_gvars l); reflexivity).
  apply append_gvars_ok in HA as (B1 & B2 & B3); [|congruence| |].
  2: { unfold mean_gvars. intros E. apply map_eq_nil in E. apply (names_nonempty _ E). }
  2: { rewrite K3, M. cbn [m_gvars]. rewrite Eg. exact V2. }
  rewrite K3, M in *. cbn [m_gvars m_body m_name] in *. rewrite Eg in *.
  assert (Efs : fs = []) by (destruct fs; [reflexivity|discriminate B1]). subst fs. 
  assert (Ef : item_funcs l = []) by (inversion Mf; reflexivity).
  rewrite B3 in J1, J2, J3, J4, J5, J6. cbn in J1, J2, J3, J4, J5, J6. cbn [item_funcs item_gvars layout_ok]. 
  unfold after, ready, inl, inh in *. rewrite Ef in *. cbn [item_funcs layout_ok]. rewrite Ef.
  rewrite J1, J3, J4, J5, J6, K1, K4, K5, K6.
  refine (conj R (conj C (conj L (conj T (conj F (conj _ (conj A1 (conj A2 (conj A3 (conj _ _)))))))))).
  - exists []. cbn [item_gvars item_funcs]. rewrite Ef. cbn.
    refine (conj _ (conj (Forall2_nil _) (fun _ => conj eq_refl eq_refl))).
    destruct (item_gvars l ++ mean_gvars d n x) eqn:E; [|reflexivity].
    apply app_eq_nil in E as [_ E]. unfold mean_gvars in E. apply map_eq_nil in E. destruct (names_nonempty _ E).
  - split; cbn [item_funcs item_gvars]; [rewrite Ef; constructor|exact B2].
  - rewrite Ly. reflexivity.
Qed.

Lemma append_func_ok f a a' : append_func f a = Ok a' -> a_err a' = None ->
  a' = set_module a (Module (m_name (a_module a)) (m_gvars (a_module a)) (gappend (m_body (a_module a)) [f])).
Proof.
  unfold append_func. match goal with |- (if ?c then _ else _) = _ -> _ => destruct c end; [|intros [= <-]; reflexivity].
  intros H He. apply Error_err in H. contradiction.
Qed.
Lemma after_func l f a b v a' : simple_params (cf_params f) = true -> after l a b -> ev (t_item (IFunc f)) v b a' -> a_err a' = None -> after (ISnoc l (IFunc f)) a a'.
Proof.
  intros Hp (R & C & L & T & F & (fs & M & Mf & Mc) & A1 & A2 & A3 & (V1 & V2) & Ly) H He.
  cbn [t_item] in H. apply ev_node_inv in H as (ds & v0 & v1 & q & a1 & a2 & _ & H & _ & Ha & Hs & ->).
  apply evs_cons_inv in H as (w & ws & c & -> & H1 & H). apply evs_nil_inv in H as [-> ->].
  cbn [act nth Nat.sub] in Ha. apply bind_ok in Ha as (a3 & Ha & E). injection E as <- <-.
  assert (He3 : a_err a3 = None) by (rewrite <- He; symmetry; apply (same_ctx_err _ _ Hs)).
  apply append_func_ok in Ha; [|exact He3].
  assert (He1 : a_err a1 = None) by (rewrite Ha in He3; exact He3).
  destruct (eval_func _ _ _ _ Hp H1 He1 R F) as (G & B1 & B2 & B3 & B4 & B5 & B6).
  pose proof (gets_inl _ _ _ G R) as Gl. pose proof (gets_inh _ _ _ G) as Gh. pose proof (gets_fun _ _ _ G) as Gf. pose proof (gets_ready _ _ _ G R) as Gr.
  destruct G as (G1 & G2 & _). rewrite G2, M in Ha. cbn [m_name m_gvars m_body] in Ha. rewrite gappend_slice in Ha. subst a3.
  destruct Hs as (S1 & S2 & S3 & S4 & S5 & S6). cbn [set_module a_code a_err a_module a_isLoop a_isTry a_isFunction] in *.
  unfold after. cbn [item_funcs]. unfold ready, inl, inh in *. rewrite S1, S3, S4, S5, S6, while_funcs_snoc, loose_funcs_snoc, !forallb_app. cbn [forallb orb].
  refine (conj Gr (conj _ (conj _ (conj _ (conj _ (conj _ (conj _ (conj _ (conj _ (conj _ _)))))))))).
  - congruence.
  - rewrite Gl, L. reflexivity.
  - congruence.
  - congruence.
  - exists (fs ++ [v_funcProc w]). cbn [item_funcs item_gvars]. 
    refine (conj eq_refl (conj (Forall2_app Mf (Forall2_cons _ _ B5 (Forall2_nil _))) _)). rewrite !forallb_app. cbn [forallb]. intros Hc. apply andb_true_iff in Hc as [Hc1 Hc2]. rewrite andb_true_r in Hc2.
    destruct (Mc Hc1) as [-> ->]. destruct (B6 Hc2) as [-> ->]. rewrite map_app. auto.
  - rewrite A1, <- L. cbn [orb]. rewrite B1. reflexivity.
  - rewrite A2. rewrite T in B2. rewrite B2. reflexivity.
  - rewrite A3, B3. reflexivity.
  - split; cbn [item_funcs item_gvars]; [|exact V2]. apply Forall_app. split; [exact V1|]. constructor; [exact B4|constructor].
  - exact Ly.
Qed.
Lemma after_nil a : fresh a -> after INil a a.
Proof.
  intros (F1 & F2 & F3 & F4). unfold after, ready, inl, inh. rewrite F1, F2, F3, F4.
  repeat apply conj; try reflexivity; try lia; try constructor.
  exists []. repeat apply conj; try reflexivity. constructor.
Qed.
Lemma after_same l a b b' : after l a b -> same_ctx b b' -> after l a b'.
Proof.
  intros (R & C & L & T & F & M & A) (S1 & S2 & S3 & S4 & S5 & S6). unfold after, ready, inl, inh in *. rewrite S1, S3, S4, S5, S6. auto 10.
Qed.
Lemma after_items l : forall a v a', l <> INil -> forallb (fun f => simple_params (cf_params f)) (item_funcs l) = true ->
  fresh a -> ev (t_items l) v a a' -> a_err a' = None -> after l a a'.
Proof.
  induction l as [|l IH i]; intros a v a' Hn Hp Hf H He; [contradiction|].
  assert (Hi : match i with IFunc f => simple_params (cf_params f) = true | _ => True end /\
               forallb (fun f => simple_params (cf_params f)) (item_funcs l) = true).
  { destruct i; cbn [item_funcs] in Hp; [auto|]. rewrite forallb_app in Hp. apply andb_true_iff in Hp as [H1 H2]. cbn in H2.
    rewrite andb_true_r in H2. auto. }
  destruct Hi as [Hi Hp'].
  assert (D : exists b w c, after l a b /\ ev (t_item i) w b c /\ same_ctx c a').
  { destruct l as [|l0 i0].
    - cbn [t_items] in H. apply ev_node_inv in H as (ds & v0 & v1 & q & a1 & a2 & _ & H & _ & Ha & Hs & ->).
      apply evs_cons_inv in H as (w & ws & c & -> & H1 & H). apply evs_nil_inv in H as [-> ->]. cbn [act] in Ha. injection Ha as <- <-.
      exists a, w, a1. split; [apply after_nil, Hf|]. split; assumption.
    - change (t_items (ISnoc (ISnoc l0 i0) i)) with (Node 5 [t_items (ISnoc l0 i0); t_item i]) in H.
      apply ev_node_inv in H as (ds & v0 & v1 & q & a1 & a2 & _ & H & _ & Ha & Hs & ->).
      apply evs_cons_inv in H as (w & ws & c & -> & H1 & H). apply evs_cons_inv in H as (w2 & ws2 & c2 & -> & H2 & H). apply evs_nil_inv in H as [-> ->].
      cbn [act] in Ha. injection Ha as <- <-.
      assert (E1 : a_err a1 = None) by (rewrite <- He; symmetry; apply (same_ctx_err _ _ Hs)).
      exists c, w2, a1. split; [|split; assumption]. eapply IH; try eassumption; [discriminate|exact (ev_err_back _ _ _ _ H2 E1)]. }
  destruct D as (b0 & w & c & D1 & D2 & D3).
  assert (E1 : a_err c = None) by (rewrite <- He; symmetry; apply (same_ctx_err _ _ D3)).
  apply after_same with (2 := D3). destruct i; [eapply after_vars; eassumption|eapply after_func; eassumption].
Qed.

(** * Whole modules *)
Theorem eval_program p v a a' : defaults_ok p = true -> fresh a -> ev (t_program p) v a a' -> a_err a' = None ->
  loose_ok p = true /\ throws_ok p = true /\ returns_ok p = true /\ vars_once p /\ layout_ok (pr_items p) = true /\
  (exists fs rest, a_module a' = Module [] (gv_slice (item_gvars (pr_items p))) (slice_of (fs ++ rest)) /\
     Forall2 (fun f s => exists body, s = mean_func_with body f) (item_funcs (pr_items p)) fs) /\
  (clean p = true -> colons_ok p = true /\ a_module a' = mean_program p).
Proof.
  destruct p as [l b]. unfold defaults_ok. cbn [pr_items pr_body]. intros Hp Hf H He.
  (* evaluate the items, then the body *)
  assert (D : exists c d sl, after l a c /\ gets (while_block b) c d /\ loose_block (inl c) b = true /\ throws_block (inh c) b = true /\
     returns_block (a_isFunction c) b = true /\ (clean_block b = true -> elems sl = mean_block b /\ colons_block b = true) /\
     (a_module a' = Module [] (m_gvars (a_module d)) (gappend (m_body (a_module d)) (elems sl)))).
  { assert (Dl : l = INil \/ l <> INil) by (destruct l; [auto|right; discriminate]). destruct Dl as [-> | Dl].
    - assert (Db : b = BNil \/ b <> BNil) by (destruct b; auto; right; discriminate). destruct Db as [-> | Db].
      + cbn in H. apply ev_node_inv in H as (ds & v0 & v1 & q & a1 & a2 & _ & H & _ & Ha & Hs & ->).
        apply evs_nil_inv in H as [-> <-]. cbn [act] in Ha. injection Ha as <- <-. exists a, a, None.
        destruct Hs as (_ & _ & H2 & _). rewrite H2. destruct Hf as (F1 & F2 & F3 & F4).
        refine (conj (after_nil _ (conj F1 (conj F2 (conj F3 F4)))) (conj (gets_same _ _ (same_ctx_refl _)) (conj eq_refl (conj eq_refl (conj eq_refl (conj (fun _ => conj eq_refl eq_refl) _)))))).
        rewrite F1. reflexivity.
      + assert (Et : t_program (Program INil b) = Node 2 [child (t_block b)]) by (destruct b; [contradiction|reflexivity..]).
        rewrite Et in H. apply ev_node_inv in H as (ds & v0 & v1 & q & a1 & a2 & _ & H & _ & Ha & Hs & ->).
        apply evs_cons_inv in H as (w & ws & c & -> & H1 & H). apply evs_nil_inv in H as [-> ->]. cbn [act nth Nat.sub] in Ha.
        unfold append_stmts in Ha. cbn [bind] in Ha. injection Ha as <- <-.
        assert (E1 : a_err a1 = None) by (rewrite <- He; symmetry; apply (same_ctx_err _ _ Hs)).
        pose proof (after_nil _ Hf) as Af. destruct (eval_body b Db _ _ _ H1 E1 (proj1 Af)) as (G & B1 & B2 & B3 & B4).
        exists a, a1, (v_body w). refine (conj Af (conj G (conj B1 (conj B2 (conj B3 (conj _ _)))))).
        * intros Hc. destruct (B4 Hc) as [-> B5]. split; [destruct (mean_block b); reflexivity|exact B5].
        * destruct Hs as (_ & _ & Hs & _). rewrite Hs. cbn [set_module a_module]. f_equal. destruct G as (_ & G & _). rewrite G.
          destruct Hf as (F1 & _). rewrite F1. reflexivity.
    - assert (Et : t_program (Program l b) = Node 3 [t_items l; t_block b]) by (destruct l; [contradiction|reflexivity]).
      rewrite Et in H. apply ev_node_inv in H as (ds & v0 & v1 & q & a1 & a2 & _ & H & _ & Ha & Hs & ->).
      apply evs_cons_inv in H as (w & ws & c & -> & H1 & H). apply evs_cons_inv in H as (w2 & ws2 & c2 & -> & H2 & H). apply evs_nil_inv in H as [-> ->].
      cbn [act nth Nat.sub] in Ha. unfold append_stmts in Ha. cbn [bind] in Ha. injection Ha as <- <-.
      assert (E1 : a_err a1 = None) by (rewrite <- He; symmetry; apply (same_ctx_err _ _ Hs)).
      assert (Af : after l a c) by (eapply after_items; try eassumption; exact (ev_err_back _ _ _ _ H2 E1)).
      destruct (eval_block b _ _ _ H2 E1 (proj1 Af)) as (G & B1 & B2 & B3 & B4).
      exists c, a1, (v_opt_body w2). refine (conj Af (conj G (conj B1 (conj B2 (conj B3 (conj _ _)))))).
      * intros Hc. destruct (B4 Hc) as (-> & B5 & _). split; [destruct (mean_block b); reflexivity|exact B5].
      * destruct Hs as (_ & _ & Hs & _). rewrite Hs. cbn [set_module a_module]. f_equal. destruct G as (_ & G & _). rewrite G.
        destruct Af as (_ & _ & _ & _ & _ & (fs & M & _) & _). rewrite M. reflexivity. }
  destruct D as (c & d & sl & (R & C & L & T & F & (fs & M & Mf & Mc) & A1 & A2 & A3 & V & Ly) & G & B1 & B2 & B3 & B4 & B5).
  unfold loose_ok, throws_ok, returns_ok, colons_ok, clean, each_body, vars_once. cbn [pr_items pr_body].
  rewrite L in B1. rewrite T in B2. rewrite F in B3. rewrite A1, A2, A3, B1, B2, B3. refine (conj eq_refl (conj eq_refl (conj eq_refl (conj V (conj Ly (conj _ _)))))).
  { exists fs, (elems sl). split; [|exact Mf]. rewrite B5. destruct G as (_ & G & _). rewrite G, M. cbn [m_gvars m_body].
    f_equal. destruct fs, (elems sl); rewrite ?app_nil_r; reflexivity. }
  intros Hc. apply andb_true_iff in Hc as [Hc1 Hc2]. destruct (Mc Hc1) as [-> ->]. destruct (B4 Hc2) as [E ->].
  split; [reflexivity|]. rewrite B5, E. destruct G as (_ & G & _). rewrite G, M. unfold mean_program, gv_slice. cbn [pr_items pr_body m_gvars m_body].
  destruct (item_gvars l), (map mean_func (item_funcs l)), (mean_block b); rewrite ?app_nil_r; reflexivity.
Qed.
