(** When Parse panics on a text that the grammar accepts: some procedure repeats a name in
    its first Перем declaration and has a second declaration. *)
From Verif Require Import Bytes Utf8 Float64 GoTime Ast Lexer LexFacts LexSpec LexProofs Tables Parser Grammar Tok CertData Cert Driver DriverInv Trees Syntax Rules RulesFacts CstTrees CstEval CstModule
  Machine Levels Bind BindCst Items Complete TightOk CstInj CstWf Legal.

(** The names of the first declaration of a procedure; whether there is a second one. *)
Fixpoint first_list (v : cvars) : list bytes :=
  match v with VNil => [] | VSnoc VNil l => name_list l | VSnoc v _ => first_list v end.
Definition second_list (v : cvars) : bool := match v with VSnoc (VSnoc _ _) _ => true | _ => false end.
Lemma first_prefix v : exists l, mean_vars v = first_list v ++ l.
Proof.
  induction v as [|v (m & IH) l]; [exists []; reflexivity|]. destruct v as [|v l0]; [exists []; cbn; rewrite app_nil_r; reflexivity|].
  exists (m ++ name_list l). change (first_list (VSnoc (VSnoc v l0) l)) with (first_list (VSnoc v l0)). rewrite app_assoc, <- IH. reflexivity.
Qed.

(** * The trees on the stack are parts of the final tree *)
Fixpoint vars_in (t : tree) : list tree :=
  match t with
  | Leaf _ => []
  | Node r ch => (if r =? 27 then [t] else []) ++ flat_map vars_in ch
  end.
Lemma vars_step st inp st1 inp1 : mstep st inp = MNext st1 inp1 -> incl (flat_map vars_in (map snd st)) (flat_map vars_in (map snd st1)).
Proof.
  unfold mstep. destruct (action_of _ _) as [q|r| |]; [destruct inp as [|x inp]|..]; try discriminate.
  - intros [= <- <-]. cbn. apply incl_refl.
  - intros [= <- <-]. cbn [map snd flat_map vars_in]. intros X HX. apply in_or_app.
    rewrite <- (firstn_skipn (length (rhs r)) st), map_app, flat_map_app in HX. apply in_app_or in HX as [HX|HX]; [left|right; exact HX].
    apply in_or_app. right. apply in_flat_map in HX as (Y & H1 & H2). apply in_flat_map. exists Y. split; [|exact H2]. apply in_rev. rewrite rev_involutive. exact H1.
  - destruct st as [|[? ?] [|? ?]]; discriminate.
Qed.
Lemma vars_steps st inp st1 inp1 : msteps st inp st1 inp1 -> incl (flat_map vars_in (map snd st)) (flat_map vars_in (map snd st1)).
Proof. induction 1; [apply incl_refl|]. eapply incl_tran; [eapply vars_step; eassumption|exact IHmsteps]. Qed.
Lemma vars_accept st inp t : mstep st inp = MAccept t -> flat_map vars_in (map snd st) = vars_in t.
Proof.
  unfold mstep. destruct (action_of _ _) as [q|r| |]; [destruct inp|..]; try discriminate.
  destruct st as [|[s u] [|? ?]]; try discriminate. intros [= ->]. cbn. apply app_nil_r.
Qed.

(** * Where a program has them *)
Ltac vi := cbn [t_expr t_path t_ident t_new t_args t_oexpr t_stmt t_block t_elseifs t_else t_sep comma semi label pct lf vars_in flat_map app];
  repeat match goal with H : vars_in _ = [] |- _ => rewrite H; clear H end; cbn; try reflexivity.
Lemma vars_exprs :
  (forall e, vars_in (t_expr e) = []) /\ (forall e, vars_in (t_path e) = []) /\ (forall e, vars_in (t_ident e) = []) /\
  (forall e, vars_in (t_new e) = []) /\ (forall e, vars_in (t_args e) = []) /\ (forall e, vars_in (t_oexpr e) = []).
Proof. apply expr_all; intros; try solve [vi]. destruct o; vi. Qed.
Lemma vars_expr e : vars_in (t_expr e) = []. Proof. apply vars_exprs. Qed.
Lemma vars_path e : vars_in (t_path e) = []. Proof. apply vars_exprs. Qed.
Lemma vars_new e : vars_in (t_new e) = []. Proof. apply vars_exprs. Qed.
Lemma vars_oexpr e : vars_in (t_oexpr e) = []. Proof. apply vars_exprs. Qed.
Lemma vars_child t : vars_in t = [] -> vars_in (child t) = [].
Proof. destruct t as [|r [|x [|? ?]]]; cbn; auto. intros H. apply app_eq_nil in H as [_ H]. rewrite app_nil_r in H. exact H. Qed.
Lemma vars_loopexp l : vars_in (t_loopexp l) = [].
Proof.
  destruct l; cbn [t_loopexp vars_in flat_map app pct Z.eqb Pos.eqb]; rewrite ?vars_path, ?vars_new, ?app_nil_r; try reflexivity.
  apply vars_child, vars_expr.
Qed.
Lemma vars_stmts :
  (forall s, vars_in (t_stmt s) = []) /\ (forall b, vars_in (t_block b) = []) /\ (forall l, vars_in (t_elseifs l) = []) /\ (forall c, vars_in (t_else c) = []).
Proof.
  apply stmt_all; intros; cbn [t_stmt t_block t_elseifs t_else lf vars_in flat_map app Z.eqb Pos.eqb];
    rewrite ?vars_expr, ?vars_path, ?vars_new, ?vars_oexpr, ?vars_loopexp; repeat match goal with H : vars_in _ = [] |- _ => rewrite H; clear H end;
    try destruct x; reflexivity.
Qed.
Lemma vars_block b : vars_in (t_block b) = []. Proof. apply vars_stmts. Qed.
Lemma vars_names l : vars_in (t_names l) = []. Proof. induction l; cbn in *; rewrite ?IHl; reflexivity. Qed.
Lemma vars_param p : vars_in (t_param p) = [].
Proof. induction p; [reflexivity..|]. cbn [t_param vars_in flat_map lf app Z.eqb Pos.eqb]. rewrite IHp. unfold t_simple. rewrite (vars_child _ (vars_expr e)). reflexivity. Qed.
Lemma vars_params l : vars_in (t_params l) = [].
Proof. induction l; cbn [t_params vars_in flat_map app Z.eqb Pos.eqb]; rewrite ?vars_param, ?IHl; reflexivity. Qed.
Lemma vars_vars x X : In X (vars_in (t_vars x)) -> exists x', second_list x' = true /\ X = child (t_vars x') /\ first_list x' = first_list x.
Proof.
  induction x as [|x IH l]; [intros []|]. destruct x as [|x0 l0].
  - cbn [t_vars vars_in flat_map lf app Z.eqb Pos.eqb semi pct]. rewrite vars_names. intros [].
  - change (t_vars (VSnoc (VSnoc x0 l0) l)) with (Node 25 [Node 27 [child (t_vars (VSnoc x0 l0)); lf tVar; t_names l; semi]]).
    change (first_list (VSnoc (VSnoc x0 l0) l)) with (first_list (VSnoc x0 l0)).
    cbn [vars_in flat_map lf app Z.eqb Pos.eqb semi pct]. rewrite vars_names, !app_nil_r.
    intros [<-|H].
    + exists (VSnoc (VSnoc x0 l0) l). repeat split.
    + apply IH. rewrite (t_vars_25' (VSnoc x0 l0)) by discriminate. cbn [vars_in flat_map Z.eqb Pos.eqb app]. rewrite app_nil_r. exact H.
Qed.
Lemma vars_whole x : second_list x = true -> In (child (t_vars x)) (vars_in (t_vars x)).
Proof. destruct x as [|[|x l0] l]; try discriminate. intros _. cbn [t_vars vars_in flat_map Z.eqb Pos.eqb app child]. left. reflexivity. Qed.
Lemma vars_func f : vars_in (t_func f) = vars_in (t_vars (cf_vars f)).
Proof.
  unfold t_func. destruct (cf_function f), (cf_dir f), (cf_export f);
  cbn [t_dir t_export vars_in flat_map lf pct app Z.eqb Pos.eqb]; rewrite vars_params, vars_block, ?app_nil_r; reflexivity.
Qed.
Lemma vars_item i X : In X (vars_in (t_item i)) <-> exists f, i = IFunc f /\ In X (vars_in (t_vars (cf_vars f))).
Proof.
  destruct i as [d l x|f]; cbn [t_item vars_in flat_map Z.eqb Pos.eqb app].
  - destruct d, x; cbn [t_dir t_export vars_in flat_map lf semi pct app Z.eqb Pos.eqb]; rewrite vars_names; (split; [intros []|intros (? & H & _); discriminate H]).
  - rewrite app_nil_r, vars_func. split; [eauto|]. intros (? & [= ->] & H). exact H.
Qed.
Lemma vars_items l X : l <> INil -> (In X (vars_in (t_items l)) <-> exists f, In f (item_funcs l) /\ In X (vars_in (t_vars (cf_vars f)))).
Proof.
  induction l as [|l IH i]; intros Hl; [contradiction|].
  assert (E : In X (vars_in (t_items (ISnoc l i))) <-> (l <> INil /\ In X (vars_in (t_items l))) \/ In X (vars_in (t_item i))).
  { destruct l as [|l0 i0].
    - cbn [t_items vars_in flat_map Z.eqb Pos.eqb app]. rewrite app_nil_r. intuition.
    - change (t_items (ISnoc (ISnoc l0 i0) i)) with (Node 5 [t_items (ISnoc l0 i0); t_item i]). cbn [vars_in flat_map Z.eqb Pos.eqb app].
      rewrite app_nil_r, in_app_iff. assert (ISnoc l0 i0 <> INil) by discriminate. tauto. }
  assert (E2 : (exists f, In f (item_funcs (ISnoc l i)) /\ In X (vars_in (t_vars (cf_vars f)))) <->
               (exists f, In f (item_funcs l) /\ In X (vars_in (t_vars (cf_vars f)))) \/ (exists f, i = IFunc f /\ In X (vars_in (t_vars (cf_vars f))))).
  { destruct i; cbn [item_funcs].
    - split; [auto|]. intros [H|(f & H & _)]; [exact H|discriminate H].
    - split.
      + intros (g & H & K). apply in_app_or in H as [H|[<-|[]]]; eauto.
      + intros [(g & H & K)|(g & [= <-] & K)]; [exists g|exists f]; rewrite in_app_iff; cbn; auto. }
  rewrite E, E2, vars_item. destruct l as [|l0 i0].
  - split; [intros [[H _]|H]; [destruct H; reflexivity|auto]|]. intros [(f & [] & _)|H]. auto.
  - assert (Hn : ISnoc l0 i0 <> INil) by discriminate. rewrite (IH Hn). tauto.
Qed.
Lemma vars_program p X : In X (vars_in (t_program p)) <-> exists f, In f (item_funcs (pr_items p)) /\ In X (vars_in (t_vars (cf_vars f))).
Proof.
  destruct p as [l b]. cbn [pr_items]. destruct l as [|l i].
  - assert (E : vars_in (t_program (Program INil b)) = []).
    { destruct b; [reflexivity|..]; cbn [t_program pr_items pr_body vars_in flat_map Z.eqb Pos.eqb app]; rewrite vars_child by apply vars_block; reflexivity. }
    rewrite E. split; [intros []|]. intros (f & [] & _).
  - rewrite <- vars_items by discriminate. cbn [t_program pr_items pr_body vars_in flat_map Z.eqb Pos.eqb app]. rewrite vars_block, !app_nil_r. reflexivity.
Qed.

(** * The map is nil exactly after a first declaration that repeats a name *)
Lemma appendVars_map ids : forall l m n, appendVars (Some l) ids = Ok (m, n) -> m <> None.
Proof. induction ids as [|x ids IH]; intros l m n H; cbn [appendVars elems] in H; [congruence|]. destruct (Parser.mem x l); [congruence|eauto]. Qed.
Lemma appendVars_dup ids : forall l m, NoDup l -> appendVars (Some l) ids = Ok (m, None) -> NoDup (l ++ ids).
Proof. intros l m Hl H. apply (appendVars_once ids l m Hl H). Qed.
Lemma evars_map x : x <> VNil -> forall v a a', ev (child (t_vars x)) v a a' -> v_explicit_variables v = None -> second_list x = false /\ ~ NoDup (first_list x).
Proof.
  destruct x as [|x l]; intros Hx v a a' H Hv; [contradiction|]. destruct x as [|x0 l0].
  - split; [reflexivity|]. intros Hn. cbn [t_vars child first_list] in *. unf. repeat ev1.
    match goal with H : ev (t_names l) _ _ _ |- _ => apply eval_names in H as [H E] end.
    match goal with H : act 26 _ _ _ = _ |- _ => cbn [act nth Nat.sub] in H; rename H into HA end. acts. slots. rewrite E, appendVars_legal in HA by exact Hn.
    cbn [bind] in HA. injection HA as <- <-. discriminate Hv.
  - exfalso.
    assert (E0 : child (t_vars (VSnoc (VSnoc x0 l0) l)) = Node 27 [child (t_vars (VSnoc x0 l0)); lf tVar; t_names l; semi]) by reflexivity.
    rewrite E0 in H. clear E0. set (u := child (t_vars (VSnoc x0 l0))) in *. clearbody u. unf. repeat ev1.
    match goal with H : ev (t_names l) _ _ _ |- _ => apply eval_names in H as [H E] end.
    match goal with H : act 27 _ _ _ = _ |- _ => cbn [act nth Nat.sub] in H; rename H into HA end. acts. slots. rewrite E in HA.
    apply bind_ok in HA as ([m n] & HA & HB).
    match type of HA with appendVars ?z _ = _ => destruct z as [z0|] end.
    + apply appendVars_map in HA. destruct n as [n|]; [apply bind_ok in HB as (y & _ & HB)|]; injection HB as <- <-; contradiction.
    + pose proof (names_nonempty l). destruct (name_list l); [contradiction|]. discriminate HA.
Qed.
Lemma evars_nil x : second_list x = false -> x <> VNil -> forall v a a', ev (child (t_vars x)) v a a' -> ~ NoDup (first_list x) -> v_explicit_variables v = None.
Proof.
  destruct x as [|[|x0 l0] l]; intros H1 Hx v a a' H Hn; try discriminate; [contradiction|].
  cbn [t_vars child first_list] in *. unf. repeat ev1.
  match goal with H : ev (t_names l) _ _ _ |- _ => apply eval_names in H as [H E] end.
  match goal with H : act 26 _ _ _ = _ |- _ => cbn [act nth Nat.sub] in H; rename H into HA end. acts. slots. rewrite E in HA.
  apply bind_ok in HA as ([m [n|]] & HA & HB).
  - apply bind_ok in HB as (y & _ & HB). injection HB as <- <-. reflexivity.
  - apply appendVars_dup in HA; [|constructor]. contradiction.
Qed.
Lemma NoDup_bytes (l : list bytes) : NoDup l \/ ~ NoDup l.
Proof.
  induction l as [|x l [H|H]]; [left; constructor| |right; intros K; inversion K; auto].
  destruct (Parser.mem x l) eqn:E.
  - right. intros K. inversion K; subst. apply mem_In in E. contradiction.
  - left. constructor; [|exact H]. intros K. apply mem_In in K. congruence.
Qed.
Lemma second_none x v a a' : second_list x = true -> ev (child (t_vars x)) v a a' -> NoDup (first_list x).
Proof.
  induction x as [|x IH l] in v, a, a' |- *; [discriminate|]. destruct x as [|x0 l0]; [discriminate|]. intros _ H.
  assert (E0 : child (t_vars (VSnoc (VSnoc x0 l0) l)) = Node 27 [child (t_vars (VSnoc x0 l0)); lf tVar; t_names l; semi]) by reflexivity.
  rewrite E0 in H. change (first_list (VSnoc (VSnoc x0 l0) l)) with (first_list (VSnoc x0 l0)).
  apply ev_node_inv in H as (ds & v0 & v1 & q & a1 & a2 & _ & H & _ & Ha & _ & ->).
  apply evs_cons_inv in H as (w & ws & b1 & -> & H1 & H). apply evs_cons_inv in H as (w2 & ws2 & b2 & -> & _ & H).
  apply evs_cons_inv in H as (w3 & ws3 & b3 & -> & H3 & _). cbn [act nth Nat.sub] in Ha. apply bind_ok in Ha as (y & Ha & _).
  destruct (eval_names _ _ _ _ H3) as [_ E]. rewrite E in Ha.
  destruct (second_list (VSnoc x0 l0)) eqn:E2; [eapply IH; eauto|].
  destruct (NoDup_bytes (first_list (VSnoc x0 l0))) as [N|N]; [exact N|].
  rewrite (evars_nil _ E2 ltac:(discriminate) _ _ _ H1 N) in Ha. pose proof (names_nonempty l). destruct (name_list l); [contradiction|]. discriminate Ha.
Qed.

(** A repeated name in the first declaration of a procedure with a second one. *)
Definition breaks_map (p : program) : Prop := exists f, In f (item_funcs (pr_items p)) /\ second_list (cf_vars f) = true /\ ~ NoDup (first_list (cf_vars f)).
Lemma ev_part t : forall v a a' X, ev t v a a' -> In X (vars_in t) -> exists v' b b', ev X v' b b'.
Proof.
  induction t as [k|r ch IH] using tree_ind2; intros v a a' X H HX; [destruct HX|].
  cbn [vars_in] in HX. apply in_app_or in HX as [HX|HX].
  - destruct (r =? 27); [|destruct HX]. destruct HX as [<-|[]]. eauto.
  - apply ev_node_inv in H as (ds & v0 & v1 & q & a1 & a2 & _ & H & _). clear -IH H HX.
    revert ds a H. induction ch as [|t ch IHch]; intros ds a H; [destruct HX|]. inversion IH; subst.
    apply evs_cons_inv in H as (w & ws & b & -> & H1 & H). cbn [flat_map] in HX. apply in_app_or in HX as [HX|HX]; eauto.
Qed.
Lemma vars_second x X : In X (vars_in (t_vars x)) -> second_list x = true.
Proof.
  destruct x as [|[|x0 l0] l]; [intros []| |reflexivity]. cbn [t_vars vars_in flat_map lf app Z.eqb Pos.eqb semi pct]. rewrite vars_names. intros [].
Qed.
Theorem Parse_bound a p : blank (a_code a) = false -> tokens (a_code a) (toks_program p) -> defaults_ok p = true -> bound_program p = true ->
  (exists v a1 a', Parse a = Some (Ok (a', a_err a')) /\ same_ctx a a1 /\ ev (t_program p) v a1 a' /\ ~ breaks_map p) \/
  (Parse a = Some (Panic PNilMap) /\ breaks_map p).
Proof.
  intros Hb Ht Hd Hp. destruct (good_program p Hd) as [W S]. rewrite <- (tight_program p Hd) in Hp.
  pose proof (tight_accepted _ W S Hp) as A. rewrite (yield_program p Hd) in A.
  destruct (Parse_accepts a _ _ Hb Ht A) as [(v & a1 & a' & H1 & _ & _ & H2 & H3)|(s & X & ts & c & b1 & b2 & rest & inp1 & st' & inp' & H1 & H2 & H3 & H4 & H5)].
  - left. exists v, a1, a'. repeat (split; [assumption|]). intros (f & F1 & F2 & F3).
    assert (Hin : In (child (t_vars (cf_vars f))) (vars_in (t_program p))) by (apply vars_program; eauto using vars_whole).
    destruct (ev_part _ _ _ _ _ H3 Hin) as (v' & b & b' & HX). apply F3. eapply second_none; eassumption.
  - right. split; [exact H1|].
    assert (Hin : In (Node 27 (X :: ts)) (vars_in (t_program p))).
    { rewrite <- (vars_accept _ _ _ H3). apply (vars_steps _ _ _ _ H2). cbn [map snd flat_map vars_in Z.eqb Pos.eqb app]. left. reflexivity. }
    apply vars_program in Hin as (f & F1 & F2). exists f. split; [exact F1|]. split; [exact (vars_second _ _ F2)|].
    destruct (vars_vars _ _ F2) as (x' & G1 & G2 & <-). destruct x' as [|[|x0 l0] l]; try discriminate G1.
    assert (E0 : child (t_vars (VSnoc (VSnoc x0 l0) l)) = Node 27 [child (t_vars (VSnoc x0 l0)); lf tVar; t_names l; semi]) by reflexivity.
    rewrite E0 in G2. injection G2 as -> _. change (first_list (VSnoc (VSnoc x0 l0) l)) with (first_list (VSnoc x0 l0)).
    eapply evars_map; [discriminate|exact H4|exact H5].
Qed.
Lemma legal_map p : vars_once p -> ~ breaks_map p.
Proof.
  intros (H & _) (f & F1 & _ & F3). rewrite Forall_forall in H. specialize (H f F1). apply F3.
  destruct (first_prefix (cf_vars f)) as (l & E). rewrite E in H. exact (NoDup_prefix _ _ H).
Qed.

(** * Any text without lexical errors *)
Lemma run_crashes n p p' : steps n p p' -> forall a st raw vs a0 l t, sim a st raw vs a0 l t p -> forall q, step p' = Crash q ->
  exists s X ts c b1 b2 rest inp1, msteps st (tks raw) ((s, Node 27 (X :: ts)) :: rest) inp1 /\ ev X c b1 b2 /\ v_explicit_variables c = None.
Proof.
  induction 1 as [p|n p p1 p2 E H IH]; intros a st raw vs a0 l t Hs q Hq; pose proof (step_sim _ _ _ _ _ _ _ _ Hs) as Hf.
  - destruct (mstep st (tks raw)) as [st1 inp1|T|] eqn:Em; cbn [follows] in Hf; rewrite Hq in Hf.
    + destruct Hf as [(? & ? & ? & ? & ? & ? & F & _)|(F & s & X & ts & c & b1 & b2 & rest & -> & F')]; [discriminate F|].
      exists s, X, ts, c, b1, b2, rest, inp1. split; [econstructor; [eassumption|constructor]|exact F'].
    + destruct Hf as (v & a1 & a2 & F1 & F2). discriminate F1.
    + destruct Hf as (? & F); discriminate F.
  - destruct (mstep st (tks raw)) as [st1 inp1|T|] eqn:Em; cbn [follows] in Hf; rewrite E in Hf.
    + destruct Hf as [(p' & raw' & vs' & a0' & l' & t' & F1 & F2 & F3)|(F & _)]; [|discriminate F]. injection F1 as <-.
      destruct (IH _ _ _ _ _ _ _ F3 _ Hq) as (s & X & ts & c & b1 & b2 & rest & inp2 & G1 & G2). rewrite F2 in G1.
      exists s, X, ts, c, b1, b2, rest, inp2. split; [econstructor; eassumption|exact G2].
    + destruct Hf as (v & a1 & a2 & F1 & F2). discriminate F1.
    + destruct Hf as (? & F); discriminate F.
Qed.
Theorem Parse_panic a q l : tokens (a_code a) l -> Parse a = Some (Panic q) ->
  exists l1 x l2, l = l1 ++ toks_vars x ++ l2 /\ second_list x = true /\ ~ NoDup (first_list x).
Proof.
  intros (raw & Hl & ->). unfold Parse. destruct (blank (a_code a)); [discriminate|]. intros H.
  destruct (run_result _ (init_inv a)) as (n & p' & H1 & H2 & H3 & H4 & H5).
  rewrite H5 in H by (rewrite init_potential; unfold parse_fuel; lia).
  destruct (step p') as [|x a2|q'] eqn:Es; [contradiction|discriminate|].
  destruct (run_crashes _ _ _ H1 _ _ _ _ _ _ _ (init_sim a raw Hl) _ Es) as (s & X & ts & c & b1 & b2 & rest & inp1 & G1 & G2 & G3).
  assert (Hw : Forall tk_wf (tks raw)) by (apply (tokens_wf (a_code a)); exists raw; auto).
  destruct (msteps_mwf _ _ _ _ G1 Hw mwf_nil) as (W & _ & Y). destruct W as [_ W]. inversion W as [|? ? [W1 W2] W3]; subst. cbn [snd fst] in *.
  destruct (wf_repr _ W1 n_explicit_variables ltac:(reflexivity)) as (x & Hx & Ex).
  destruct x as [|[|x0 l0] l]; [contradiction|discriminate Ex|].
  assert (E0 : child (t_vars (VSnoc (VSnoc x0 l0) l)) = Node 27 [child (t_vars (VSnoc x0 l0)); lf tVar; t_names l; semi]) by reflexivity.
  rewrite E0 in Ex. injection Ex as -> Ets.
  exists (flat_map yield (map snd (rev rest))), (VSnoc (VSnoc x0 l0) l), inp1. split; [|split; [reflexivity|]].
  - cbn [rev map] in Y. rewrite map_app, flat_map_app in Y. cbn [map snd flat_map app] in Y. rewrite app_nil_r, <- app_assoc in Y.
    change (map (fun x => tk_of (fst x) (snd x)) raw) with (tks raw). rewrite <- Y. f_equal. f_equal.
    rewrite <- yield_vars, (t_vars_25' (VSnoc (VSnoc x0 l0) l)) by discriminate. rewrite E0, Ets. cbn [yield flat_map]. rewrite !app_nil_r. reflexivity.
  - change (first_list (VSnoc (VSnoc x0 l0) l)) with (first_list (VSnoc x0 l0)). eapply evars_map; [discriminate|exact G2|exact G3].
Qed.
