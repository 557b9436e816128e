(** The semantic actions on the parse tree of a program: its meaning, and the
    rules it obeys if no error is recorded. *)
From Verif Require Import Bytes Utf8 Float64 GoTime Ast Lexer LexFacts LexSpec LexProofs Tables Parser Grammar Tok CertData Cert Driver DriverInv Trees Syntax Rules RulesFacts CstTrees.

(** * The tokens of the tree are the tokens of the program *)
Ltac yl := cbn [t_expr t_path t_ident t_new t_args t_oexpr toks_expr toks_path toks_ident toks_new toks_args toks_oexpr
                yield flat_map app comma semi label pct lf];
  repeat match goal with H : _ = _ |- _ => rewrite H end; rewrite ?app_nil_r, <- ?app_assoc; cbn [app]; reflexivity.
Lemma yield_exprs :
  (forall e, yield (t_expr e) = toks_expr e) /\ (forall p, yield (t_path p) = toks_path p) /\
  (forall i, yield (t_ident i) = toks_ident i) /\ (forall c, yield (t_new c) = toks_new c) /\
  (forall l, yield (t_args l) = toks_args l) /\ (forall o, yield (t_oexpr o) = toks_oexpr o).
Proof. apply expr_all; intros; try yl. Qed.
Lemma yield_expr e : yield (t_expr e) = toks_expr e. Proof. apply yield_exprs. Qed.
Lemma yield_path e : yield (t_path e) = toks_path e. Proof. apply yield_exprs. Qed.
Lemma yield_new e : yield (t_new e) = toks_new e. Proof. apply yield_exprs. Qed.
Lemma yield_oexpr e : yield (t_oexpr e) = toks_oexpr e. Proof. apply yield_exprs. Qed.
Lemma yield_child r x : yield (child (Node r [x])) = yield (Node r [x]).
Proof. cbn [child yield flat_map]. rewrite app_nil_r. reflexivity. Qed.
Lemma yield_tern c t f : yield (t_tern c t f) = toks_expr (ETern c t f).
Proof. unfold t_tern. cbn [t_expr]. rewrite yield_child. exact (yield_expr (ETern c t f)). Qed.
Lemma yield_simple e : simple e = true -> yield (t_simple e) = toks_expr e.
Proof. intros H. rewrite <- yield_expr. unfold t_simple. destruct e; try discriminate H; cbn [t_expr]; apply yield_child. Qed.
Lemma yield_loopexp l : yield (t_loopexp l) = toks_loopexp l.
Proof.
  destruct l; cbn [t_loopexp toks_loopexp yield flat_map app pct]; rewrite ?yield_path, ?yield_new, ?yield_tern, ?app_nil_r; reflexivity.
Qed.
Lemma yield_sep x : yield (t_sep x) = [toks_sep x]. Proof. destruct x; reflexivity. Qed.

Ltac yls := cbn [t_stmt t_block t_elseifs t_else toks_stmt toks_block toks_elseifs toks_else yield flat_map app comma semi label pct lf];
  rewrite ?yield_expr, ?yield_path, ?yield_loopexp, ?yield_oexpr, ?yield_sep;
  repeat match goal with H : _ = _ |- _ => rewrite H end; rewrite ?app_nil_r, <- ?app_assoc; cbn [app]; reflexivity.
Lemma yield_stmts :
  (forall s, yield (t_stmt s) = toks_stmt s) /\ (forall b, yield (t_block b) = toks_block b) /\
  (forall l, yield (t_elseifs l) = toks_elseifs l) /\ (forall c, yield (t_else c) = toks_else c).
Proof. apply stmt_all; intros; yls. Qed.
Lemma yield_block b : yield (t_block b) = toks_block b. Proof. apply yield_stmts. Qed.

Lemma yield_names l : yield (t_names l) = toks_names l.
Proof. induction l; [reflexivity|]. cbn [t_names yield flat_map comma pct app toks_names]. rewrite IHl. reflexivity. Qed.
Lemma yield_param p : simple_param p = true -> yield (t_param p) = toks_param p.
Proof.
  induction p; intros H; [reflexivity|reflexivity|]. cbn [simple_param] in H. apply andb_true_iff in H as [H1 H2].
  cbn [t_param yield flat_map lf app toks_param]. rewrite IHp, yield_simple, app_nil_r by assumption. reflexivity.
Qed.
Lemma yield_params l : simple_params l = true -> yield (t_params l) = toks_params l.
Proof.
  induction l; intros H; [reflexivity| |]; cbn [simple_params] in H; cbn [t_params yield flat_map comma pct app toks_params].
  - rewrite yield_param, app_nil_r by assumption. reflexivity.
  - apply andb_true_iff in H as [H1 H2]. rewrite IHl, yield_param, app_nil_r by assumption. reflexivity.
Qed.
Lemma t_vars_25 v : v <> VNil -> exists x, t_vars v = Node 25 [x].
Proof. destruct v as [|[|] l]; [contradiction| |]; intros _; eexists; reflexivity. Qed.
Lemma yield_vars v : yield (t_vars v) = toks_vars v.
Proof.
  induction v as [|v IH l]; [reflexivity|]. destruct v as [|v0 l0].
  - cbn [t_vars yield flat_map lf semi pct app toks_vars]. rewrite yield_names, app_nil_r. reflexivity.
  - cbn [toks_vars] in IH |- *. rewrite <- IH.
    destruct (t_vars_25 (VSnoc v0 l0) ltac:(discriminate)) as [x E].
    change (t_vars (VSnoc (VSnoc v0 l0) l)) with (Node 25 [Node 27 [child (t_vars (VSnoc v0 l0)); lf tVar; t_names l; semi]]).
    rewrite E. cbn [child yield flat_map lf semi pct app]. rewrite yield_names, !app_nil_r. reflexivity.
Qed.
Lemma yield_dir d : yield (t_dir d) = toks_dir d. Proof. destruct d; reflexivity. Qed.
Lemma yield_export d : yield (t_export d) = toks_export d. Proof. destruct d; reflexivity. Qed.
Lemma yield_func f : simple_params (cf_params f) = true -> yield (t_func f) = toks_func f.
Proof.
  intros H. unfold t_func, toks_func. destruct (cf_function f); cbn [yield flat_map lf pct app];
  rewrite yield_dir, yield_params, yield_export, yield_vars, yield_block by assumption; rewrite <- ?app_assoc; reflexivity.
Qed.
Lemma yield_item i : match i with IFunc f => simple_params (cf_params f) = true | _ => True end -> yield (t_item i) = toks_item i.
Proof.
  destruct i as [d l x|f]; intros H; cbn [t_item yield flat_map lf semi pct app toks_item].
  - rewrite yield_dir, yield_names, yield_export, app_nil_r. rewrite <- ?app_assoc. reflexivity.
  - rewrite yield_func, app_nil_r by assumption. reflexivity.
Qed.
Lemma yield_items l : l <> INil -> forallb (fun f => simple_params (cf_params f)) (item_funcs l) = true -> yield (t_items l) = toks_items l.
Proof.
  induction l as [|l IH i]; intros Hn H; [contradiction|].
  assert (Hi : match i with IFunc f => simple_params (cf_params f) = true | _ => True end /\
               forallb (fun f => simple_params (cf_params f)) (item_funcs l) = true).
  { destruct i; cbn [item_funcs] in H; [auto|]. rewrite forallb_app in H. apply andb_true_iff in H as [H1 H2]. cbn in H2.
    rewrite andb_true_r in H2. auto. }
  destruct Hi as [H1 H2]. destruct l as [|l0 i0].
  - cbn [t_items yield flat_map toks_items app]. rewrite yield_item, app_nil_r by assumption. reflexivity.
  - change (t_items (ISnoc (ISnoc l0 i0) i)) with (Node 5 [t_items (ISnoc l0 i0); t_item i]). cbn [yield flat_map].
    rewrite IH by (discriminate || assumption). rewrite yield_item, app_nil_r by assumption. reflexivity.
Qed.
Lemma yield_program p : defaults_ok p = true -> yield (t_program p) = toks_program p.
Proof.
  destruct p as [l b]. unfold defaults_ok, t_program, toks_program. cbn [pr_items pr_body]. intros H.
  destruct l as [|l i].
  - cbn [toks_items app]. rewrite <- yield_block. destruct b; [reflexivity| | |]; cbn [t_block]; cbn [child yield flat_map]; rewrite ?app_nil_r; reflexivity.
  - cbn [yield flat_map]. rewrite yield_items by (discriminate || assumption). rewrite yield_block, app_nil_r. reflexivity.
Qed.

(** * Inversion of evaluations *)
Lemma ev_node_inv r ch v a a' : ev (Node r ch) v a a' -> exists ds v0 v1 q a1 a2,
  prodno r /\ evs ch ds a a1 /\ match ds with d :: _ => v0 = d | [] => True end /\
  act r (fun i => nth (i - 1) ds zero_slot) v0 a1 = Ok (v1, a2) /\ same_ctx a2 a' /\ v = set_yys v1 q.
Proof. inversion 1; subst. do 6 eexists. eauto 10. Qed.
Lemma ev_leaf_inv k v a a' : ev (Leaf k) v a a' -> exists t q, tok_rel k t /\ same_ctx a a' /\ v = set_yys (set_token zero_slot t) q.
Proof. inversion 1; subst. eauto 10. Qed.
Lemma evs_cons_inv t ts ds a c : evs (t :: ts) ds a c -> exists v vs b, ds = v :: vs /\ ev t v a b /\ evs ts vs b c.
Proof. inversion 1; subst. eauto 10. Qed.
Lemma evs_nil_inv ds a c : evs [] ds a c -> ds = [] /\ a = c.
Proof. inversion 1; subst. auto. Qed.

(** Errors are never removed. *)
Lemma same_ctx_err a b : same_ctx a b -> a_err b = a_err a. Proof. intros H. apply H. Qed.
Scheme ev_mind := Induction for ev Sort Prop with evs_mind := Induction for evs Sort Prop.
Lemma ev_err t v a a' : ev t v a a' -> a_err a <> None -> a_err a' <> None.
Proof.
  intros H. apply (ev_mind (fun _ _ a a' _ => a_err a <> None -> a_err a' <> None)
                           (fun _ _ a a' _ => a_err a <> None -> a_err a' <> None)) with (t := t) (s := v); auto.
  - intros k t0 q b b' _ Hc Hb. rewrite (same_ctx_err _ _ Hc). exact Hb.
  - intros r ch ds v0 v1 q b b1 b2 b' Hr _ IH _ EA Hc Hb. rewrite (same_ctx_err _ _ Hc).
    destruct (act_input _ _ _ _ _ _ Hr EA) as (_ & _ & H3). auto.
Qed.
Lemma ev_err_back t v a a' : ev t v a a' -> a_err a' = None -> a_err a = None.
Proof. intros H. apply not_err_back. eapply ev_err, H. Qed.

(** What a token tells. *)
Lemma rel_id n t : tok_rel (KId n) t -> tk_lit t = n.
Proof. intros (_ & _ & H). cbn in H. congruence. Qed.
Lemma rel_exec n t : tok_rel (KExec n) t -> tk_lit t = n.
Proof. intros (_ & _ & H). cbn in H. congruence. Qed.
Lemma rel_dir n t : tok_rel (KDir n) t -> tk_lit t = n.
Proof. intros (_ & _ & H). cbn in H. congruence. Qed.
Lemma rel_label n t : tok_rel (KLabel n) t -> tk_lit t = n.
Proof. intros (_ & _ & H). cbn in H. congruence. Qed.
Lemma rel_str s t : tok_rel (KStr s) t -> tk_value t = SStr s.
Proof. intros (_ & _ & H). cbn in H. destruct (tk_value t); congruence. Qed.
Lemma rel_num s t : tok_rel (KNum s) t -> tk_value t = SNum s.
Proof. intros (_ & _ & H). cbn in H. destruct (tk_value t); congruence. Qed.
Lemma rel_date s t : tok_rel (KDate s) t -> tk_value t = STime s.
Proof. intros (_ & _ & H). cbn in H. destruct (tk_value t); congruence. Qed.
Lemma rel_true t : tok_rel (K tTrue) t -> tk_value t = SBool true.
Proof. intros (_ & H & _). apply H. reflexivity. Qed.
Lemma rel_false t : tok_rel (K tFalse) t -> tk_value t = SBool false.
Proof. intros (_ & H & _). apply H. reflexivity. Qed.
Lemma rel_semi t : tok_rel (K 59) t -> tk_lit t = B ";".
Proof. intros (_ & H & _). apply H. reflexivity. Qed.
Lemma rel_colon t : tok_rel (K 58) t -> tk_lit t = B ":".
Proof. intros (_ & H & _). apply H. reflexivity. Qed.
Lemma not_mark s : not_ s = mark_not s. Proof. destruct s; reflexivity. Qed.
Lemma minus_mark s : unaryMinus s = mark_minus s. Proof. destruct s; reflexivity. Qed.

(** Invert everything except the evaluations of subprograms. *)
Ltac ev1 :=
  match goal with
  | H : ev (Node _ _) _ _ _ |- _ => apply ev_node_inv in H;
      let ds := fresh "ds" in let v0 := fresh "v0" in let v1 := fresh "v1" in let q := fresh "q" in
      let a1 := fresh "a1" in let a2 := fresh "a2" in
      destruct H as (ds & v0 & v1 & q & a1 & a2 & _ & ? & ? & ? & ? & ->)
  | H : ev (Leaf _) _ _ _ |- _ => apply ev_leaf_inv in H;
      let t := fresh "t" in let q := fresh "q" in destruct H as (t & q & ? & ? & ->)
  | H : evs (_ :: _) _ _ _ |- _ => apply evs_cons_inv in H;
      let v := fresh "v" in let vs := fresh "vs" in let b := fresh "b" in destruct H as (v & vs & b & -> & ? & H)
  | H : evs [] _ _ _ |- _ => apply evs_nil_inv in H; destruct H as [-> ->]
  | H : match _ :: _ with _ => _ end |- _ => cbv iota in H; subst
  end.
Ltac unf := unfold comma, semi, label in *; unfold pct, lf in *; unfold Pct in *.
Ltac fin_ctx :=
  repeat match goal with
  | |- same_ctx ?a ?a => apply same_ctx_refl
  | H : same_ctx ?a ?b |- same_ctx ?a ?b => exact H
  | H : same_ctx ?a ?b |- same_ctx ?a _ => apply (same_ctx_trans _ _ _ H); clear H
  end.
(** Perform an action that cannot fail. *)
Ltac acts :=
  repeat match goal with
  | H : act _ _ _ _ = Ok _ |- _ => progress (cbn [act nth Nat.sub binop bop_rule] in H); unfold binop in H
  | H : Ok (_, _) = Ok (_, _) |- _ => injection H; clear H; intros; subst
  end.
Ltac slots := cbn [v_token v_stmt_if v_opt_elseif_list v_opt_else v_stmt v_stmt_loop v_funcProc v_body v_opt_body v_params
  v_param v_exprs v_opt_export v_opt_directive v_explicit_variables v_global_variables v_opt_explicit_variables v_identifiers v_goToLabel
  set_yys set_token set_stmt_if set_opt_elseif_list set_opt_else set_stmt set_stmt_loop set_funcProc set_body set_opt_body set_params set_param
  set_exprs set_opt_export set_opt_directive set_explicit_variables set_global_variables set_opt_explicit_variables set_identifiers set_goToLabel
  fst snd label_stmt] in *; unfold lit_of in *; 
  cbn [v_token set_yys set_token set_stmt] in *.

Definition PE e := forall v a a', ev (t_expr e) v a a' -> same_ctx a a' /\ v_stmt v = mean_expr e.
Definition PP p := forall v a a', ev (t_path p) v a a' -> same_ctx a a' /\ v_stmt v = mean_path p.
Definition PI i := forall v a a', ev (t_ident i) v a a' -> same_ctx a a' /\ v_stmt v = mean_ident i.
Definition PN c := forall v a a', ev (t_new c) v a a' -> same_ctx a a' /\ v_stmt v = mean_new c.
Definition PA l := forall v a a', ev (t_args l) v a a' -> same_ctx a a' /\ v_exprs v = (Some (mean_args l), no_flags).
Definition PO o := forall v a a', ev (t_oexpr o) v a a' -> same_ctx a a' /\ v_stmt v = mean_oexpr o.

Ltac ih :=
  repeat match goal with
  | IH : PE ?e, H : ev (t_expr ?e) _ _ _ |- _ => apply IH in H; destruct H
  | IH : PP ?e, H : ev (t_path ?e) _ _ _ |- _ => apply IH in H; destruct H
  | IH : PI ?e, H : ev (t_ident ?e) _ _ _ |- _ => apply IH in H; destruct H
  | IH : PN ?e, H : ev (t_new ?e) _ _ _ |- _ => apply IH in H; destruct H
  | IH : PA ?e, H : ev (t_args ?e) _ _ _ |- _ => apply IH in H; destruct H
  | IH : PO ?e, H : ev (t_oexpr ?e) _ _ _ |- _ => apply IH in H; destruct H
  end.
Ltac toks :=
  repeat match goal with
  | H : tok_rel (KId _) _ |- _ => apply rel_id in H
  | H : tok_rel (KExec _) _ |- _ => apply rel_exec in H
  | H : tok_rel (KDir _) _ |- _ => apply rel_dir in H
  | H : tok_rel (KLabel _) _ |- _ => apply rel_label in H
  | H : tok_rel (KStr _) _ |- _ => apply rel_str in H
  | H : tok_rel (KNum _) _ |- _ => apply rel_num in H
  | H : tok_rel (KDate _) _ |- _ => apply rel_date in H
  | H : tok_rel (K tTrue) _ |- _ => apply rel_true in H
  | H : tok_rel (K tFalse) _ |- _ => apply rel_false in H
  end.
Ltac rw := repeat match goal with H : v_stmt ?x = _ |- _ => rewrite H in *; clear H | H : v_exprs ?x = _ |- _ => rewrite H in *; clear H
   | H : tk_lit ?x = _ |- _ => rewrite H in *; clear H | H : tk_value ?x = _ |- _ => rewrite H in *; clear H end.
Ltac ev_expr := 
  unfold PE, PP, PI, PN, PA, PO; intros; 
  match goal with H : ev (_ ?x) _ _ _ |- _ => cbn [t_expr t_path t_ident t_new t_args t_oexpr] in H end;
  unf; repeat ev1; toks; ih; acts; slots; (split; [fin_ctx|]);
  rw; cbn [mean_expr mean_path mean_ident mean_new mean_args mean_oexpr fst snd gappend elems]; rewrite <- ?not_mark, <- ?minus_mark; try reflexivity.

Lemma eval_exprs : (forall e, PE e) /\ (forall p, PP p) /\ (forall i, PI i) /\ (forall c, PN c) /\ (forall l, PA l) /\ (forall o, PO o).
Proof.
  apply expr_all; intros.
  all: try (ev_expr; fail).
  destruct o; ev_expr.
Qed.
Lemma eval_expr e : PE e. Proof. apply eval_exprs. Qed.
Lemma eval_path e : PP e. Proof. apply eval_exprs. Qed.
Lemma eval_ident e : PI e. Proof. apply eval_exprs. Qed.
Lemma eval_new e : PN e. Proof. apply eval_exprs. Qed.
Lemma eval_oexpr e : PO e. Proof. apply eval_exprs. Qed.

Lemma eval_loopexp l v a a' : ev (t_loopexp l) v a a' -> same_ctx a a' /\ v_stmt v = mean_loopexp l.
Proof.
  destruct l; cbn [t_loopexp]; intros H; unf; repeat ev1; acts; slots.
  1-3: match goal with H : ev (_ _) _ _ _ |- _ => first [apply eval_path in H|apply eval_new in H]; destruct H as [? E] end;
    (split; [fin_ctx|exact E]).
  - unfold t_tern in *. cbn [t_expr child] in *. unf. repeat ev1.
    repeat match goal with H : ev (t_expr _) _ _ _ |- _ => apply eval_expr in H; destruct H end. acts. slots.
    split; [fin_ctx|]. cbn [mean_loopexp]. congruence.
Qed.

(** * Statements *)
(** What a statement does to the context: only the loop counter grows, if the
    statement contains a Пока loop. *)
Definition gets (w : bool) (a b : astnode) : Prop :=
  a_code b = a_code a /\ a_module b = a_module a /\ a_isTry b = a_isTry a /\ a_isFunction b = a_isFunction a /\
  exists n, 0 <= n /\ a_isLoop b = a_isLoop a + n /\ (0 <? n) = w.
Definition ready (a : astnode) : Prop := 0 <= a_isLoop a /\ 0 <= a_isTry a.
Definition inl (a : astnode) : bool := 0 <? a_isLoop a.
Definition inh (a : astnode) : bool := 0 <? a_isTry a.

Lemma gets_same a b : same_ctx a b -> gets false a b.
Proof. intros (H1 & H2 & H3 & H4 & H5 & H6). repeat split; auto. exists 0. repeat split; lia. Qed.
Lemma gets_trans x y a b c : gets x a b -> gets y b c -> gets (x || y) a c.
Proof.
  intros (H1 & H2 & H3 & H4 & n & H5 & H6 & <-) (G1 & G2 & G3 & G4 & m & G5 & G6 & <-).
  repeat split; try congruence. exists (n + m). repeat split; lia.
Qed.
Lemma gets_ready w a b : gets w a b -> ready a -> ready b.
Proof. intros (_ & _ & H & _ & n & H1 & H2 & _) [R1 R2]. unfold ready. lia. Qed.
Lemma gets_inl w a b : gets w a b -> ready a -> inl b = inl a || w.
Proof. intros (_ & _ & H & _ & n & H1 & H2 & <-) [R1 R2]. unfold inl. lia. Qed.
Lemma gets_inh w a b : gets w a b -> inh b = inh a.
Proof. intros (_ & _ & H & _). unfold inh. rewrite H. reflexivity. Qed.
Lemma gets_fun w a b : gets w a b -> a_isFunction b = a_isFunction a.
Proof. intros (_ & _ & _ & H & _). exact H. Qed.
Lemma gets_eq x y a b : gets x a b -> x = y -> gets y a b. Proof. intros H <-. exact H. Qed.

Definition PS s := forall v a a', ev (t_stmt s) v a a' -> a_err a' = None -> ready a ->
  gets (while_stmt s) a a' /\ loose_stmt (inl a) s = true /\ throws_stmt (inh a) s = true /\ returns_stmt (a_isFunction a) s = true /\
  is_nil (v_stmt v) = false /\ (clean_stmt s = true -> v_stmt v = mean_stmt s /\ colons_stmt s = true).
Definition PB b := b <> BNil -> forall v a a', ev (child (t_block b)) v a a' -> a_err a' = None -> ready a ->
  gets (while_block b) a a' /\ loose_block (inl a) b = true /\ throws_block (inh a) b = true /\ returns_block (a_isFunction a) b = true /\
  (clean_block b = true -> v_body v = slice_of (mean_block b) /\ colons_block b = true).
Definition PL l := forall v a a', ev (t_elseifs l) v a a' -> a_err a' = None -> ready a ->
  gets (while_elseifs l) a a' /\ loose_elseifs (inl a) l = true /\ throws_elseifs (inh a) l = true /\ returns_elseifs (a_isFunction a) l = true /\
  (clean_elseifs l = true -> v_opt_elseif_list v = Some (rev (mean_elseifs l)) /\ colons_elseifs l = true).
Definition PC c := forall v a a', ev (t_else c) v a a' -> a_err a' = None -> ready a ->
  gets (while_else c) a a' /\ loose_else (inl a) c = true /\ throws_else (inh a) c = true /\ returns_else (a_isFunction a) c = true /\
  (clean_else c = true -> v_opt_else v = mean_else c /\ colons_else c = true).
Definition POB b := forall v a a', ev (t_block b) v a a' -> a_err a' = None -> ready a ->
  gets (while_block b) a a' /\ loose_block (inl a) b = true /\ throws_block (inh a) b = true /\ returns_block (a_isFunction a) b = true /\
  (clean_block b = true -> v_opt_body v = slice_of (mean_block b) /\ colons_block b = true /\ (b <> BNil -> v_body v = slice_of (mean_block b))).

Lemma block_nil_or b : b = BNil \/ t_block b = Node 17 [child (t_block b)].
Proof. destruct b; auto. Qed.
Lemma ev_17 x v a a' : ev (Node 17 [x]) v a a' ->
  exists v1 b q, ev x v1 a b /\ same_ctx b a' /\ v = set_yys (set_opt_body v1 (v_body v1)) q.
Proof. intros H. repeat ev1. acts. eauto 10. Qed.
Lemma opt_block b : PB b -> POB b.
Proof.
  intros IH v a a' H He Hr. destruct (block_nil_or b) as [-> | E].
  - cbn [t_block] in H. repeat ev1. acts. slots. match goal with H : same_ctx _ _ |- _ => apply gets_same in H end.
    refine (conj _ (conj _ (conj _ (conj _ _)))); auto. intros _. repeat split; congruence.
  - assert (Hb : b <> BNil) by (intros ->; discriminate E).
    rewrite E in H. apply ev_17 in H as (v1 & b1 & q & H & Hs & ->).
    assert (He1 : a_err b1 = None) by (rewrite <- (same_ctx_err _ _ Hs); exact He).
    destruct (IH Hb _ _ _ H He1 Hr) as (G & A1 & A2 & A3 & A4). slots.
    refine (conj _ (conj A1 (conj A2 (conj A3 _)))); [|intros Hc; apply A4 in Hc; tauto].
    eapply gets_eq; [eapply gets_trans; [exact G|apply gets_same; exact Hs]|]. rewrite orb_false_r. reflexivity.
Qed.

Lemma Error_err a m a' : Error a m = Ok a' -> a_err a' <> None.
Proof. unfold Error. destruct (tk_ast _); [|discriminate]. intros [= <-]. discriminate. Qed.
Lemma same_ready a b : same_ctx a b -> ready a -> ready b.
Proof. intros H. apply gets_ready with (w := false). apply gets_same, H. Qed.
Lemma same_inl a b : same_ctx a b -> inl b = inl a. Proof. intros (_ & _ & _ & H & _). unfold inl. rewrite H. reflexivity. Qed.
Lemma same_inh a b : same_ctx a b -> inh b = inh a. Proof. intros (_ & _ & _ & _ & H & _). unfold inh. rewrite H. reflexivity. Qed.
Lemma same_fun a b : same_ctx a b -> a_isFunction b = a_isFunction a. Proof. intros (_ & _ & _ & _ & _ & H). exact H. Qed.
Lemma loop_in a b : ready a -> same_ctx (add_loop a 1) b -> ready b /\ inl b = true /\ inh b = inh a /\ a_isFunction b = a_isFunction a.
Proof. intros [R1 R2] (_ & _ & _ & H1 & H2 & H3). cbn in *. unfold ready, inl, inh. rewrite H1, H2. repeat split; auto; lia. Qed.
Lemma try_in a b : ready a -> same_ctx (add_try a 1) b -> ready b /\ inl b = inl a /\ inh b = true /\ a_isFunction b = a_isFunction a.
Proof. intros [R1 R2] (_ & _ & _ & H1 & H2 & H3). cbn in *. unfold ready, inl, inh. rewrite H1, H2. repeat split; auto; lia. Qed.
Lemma loop_out w a b c d : gets w b c -> same_ctx (add_loop a 1) b -> same_ctx (add_loop c (-1)) d -> gets w a d.
Proof.
  intros (H1 & H2 & H3 & H4 & n & H5 & H6 & <-) (G1 & _ & G3 & G4 & G5 & G6) (F1 & _ & F3 & F4 & F5 & F6). cbn in *.
  repeat split; try congruence. exists n. repeat split; lia.
Qed.
Lemma while_out w a b c : gets w b c -> same_ctx (add_loop a 1) b -> gets true a c.
Proof.
  intros (H1 & H2 & H3 & H4 & n & H5 & H6 & _) (G1 & _ & G3 & G4 & G5 & G6). cbn in *.
  repeat split; try congruence. exists (1 + n). repeat split; lia.
Qed.
Lemma try_out w a b c d : gets w b c -> same_ctx (add_try a 1) b -> same_ctx (add_try c (-1)) d -> gets w a d.
Proof.
  intros (H1 & H2 & H3 & H4 & n & H5 & H6 & <-) (G1 & _ & G3 & G4 & G5 & G6) (F1 & _ & F3 & F4 & F5 & F6). cbn in *.
  repeat split; try congruence; try lia. exists n. repeat split; lia.
Qed.

Ltac nohyp P := lazymatch goal with _ : P |- _ => fail | _ => idtac end.
Ltac evals :=
  repeat match goal with
  | H : ev (t_expr _) _ _ _ |- _ => apply eval_expr in H; destruct H
  | H : ev (t_path _) _ _ _ |- _ => apply eval_path in H; destruct H
  | H : ev (t_oexpr _) _ _ _ |- _ => apply eval_oexpr in H; destruct H
  | H : ev (t_loopexp _) _ _ _ |- _ => apply eval_loopexp in H; destruct H
  end.
Ltac comp :=
  repeat match goal with
  | H : same_ctx ?a ?b, G : same_ctx ?b ?c |- _ => apply (same_ctx_trans _ _ _ H) in G; clear H
  end.
Ltac backerr :=
  repeat match goal with
  | E : a_err (add_loop ?b _) = None |- _ => change (a_err b = None) in E
  | E : a_err (add_try ?b _) = None |- _ => change (a_err b = None) in E
  | E : a_err ?c = None, S : same_ctx ?b ?c |- _ =>
      lazymatch b with
      | add_loop ?x _ => nohyp (a_err x = None); assert (a_err x = None) by (rewrite <- E; symmetry; apply (same_ctx_err _ _ S))
      | add_try ?x _ => nohyp (a_err x = None); assert (a_err x = None) by (rewrite <- E; symmetry; apply (same_ctx_err _ _ S))
      | _ => nohyp (a_err b = None); assert (a_err b = None) by (rewrite <- E; symmetry; apply (same_ctx_err _ _ S))
      end
  | E : a_err ?c = None, S : ev _ _ ?b ?c |- _ => nohyp (a_err b = None); assert (a_err b = None) by exact (ev_err_back _ _ _ _ S E)
  end.
Ltac fwd :=
  repeat match goal with
  | R : ready ?a, S : same_ctx (add_loop ?a 1) ?b |- _ => nohyp (ready b);
      let X := fresh in pose proof (loop_in _ _ R S) as X; destruct X as (? & ? & ? & ?)
  | R : ready ?a, S : same_ctx (add_try ?a 1) ?b |- _ => nohyp (ready b);
      let X := fresh in pose proof (try_in _ _ R S) as X; destruct X as (? & ? & ? & ?)
  | R : ready ?a, S : same_ctx ?a ?b |- _ => nohyp (ready b); pose proof (same_ready _ _ S R);
      pose proof (same_inl _ _ S); pose proof (same_inh _ _ S); pose proof (same_fun _ _ S)
  | R : ready ?a, S : gets _ ?a ?b |- _ => nohyp (ready b); pose proof (gets_ready _ _ _ S R);
      pose proof (gets_inl _ _ _ S R); pose proof (gets_inh _ _ _ S); pose proof (gets_fun _ _ _ S)
  | IH : PB ?b, H : ev (t_block ?b) ?v ?a ?c, E : a_err ?c = None, R : ready ?a |- _ => apply (opt_block _ IH _ _ _ H E) in R as H'; clear H; destruct H' as (? & ? & ? & ? & ?)
  | IH : PS ?b, H : ev (t_stmt ?b) ?v ?a ?c, E : a_err ?c = None, R : ready ?a |- _ => apply (IH _ _ _ H E) in R as H'; clear H; destruct H' as (? & ? & ? & ? & ? & ?)
  | IH : PL ?b, H : ev (t_elseifs ?b) ?v ?a ?c, E : a_err ?c = None, R : ready ?a |- _ => apply (IH _ _ _ H E) in R as H'; clear H; destruct H' as (? & ? & ? & ? & ?)
  | IH : PC ?b, H : ev (t_else ?b) ?v ?a ?c, E : a_err ?c = None, R : ready ?a |- _ => apply (IH _ _ _ H E) in R as H'; clear H; destruct H' as (? & ? & ? & ? & ?)
  end.
Ltac eqs :=
  repeat match goal with
  | E : inl ?x = _ |- _ => rewrite E in *; clear E
  | E : inh ?x = _ |- _ => rewrite E in *; clear E
  | E : a_isFunction ?x = _ |- _ => rewrite E in *; clear E
  end; rewrite ?orb_false_r in *; cbn [orb] in *.
Ltac chain :=
  match goal with
  | H : same_ctx ?a ?b |- gets _ ?a ?b => apply gets_same; exact H
  | H : gets _ ?a ?b |- gets _ ?a ?b => exact H
  | H : same_ctx ?a ?b |- gets _ ?a _ => eapply gets_trans; [apply gets_same; exact H|clear H; chain]
  | H : gets _ ?a ?b |- gets _ ?a _ => eapply gets_trans; [exact H|clear H; chain]
  end.
Ltac ev_stmt :=
  intros; lazymatch goal with |- PS _ => unfold PS | |- PL _ => unfold PL | |- PC _ => unfold PC | |- PB _ => unfold PB end; intros;
  match goal with H : ev (_ ?x) _ _ _ |- _ => cbn [t_stmt t_block t_elseifs t_else] in H end;
  unf; repeat ev1; evals; acts; slots; comp; backerr; fwd.


Ltac bools := cbn [loose_stmt loose_block loose_elseifs loose_else throws_stmt throws_block throws_elseifs throws_else
   returns_stmt returns_block returns_elseifs returns_else]; repeat (apply andb_true_intro; split); rewrite <- ?orb_assoc in *; auto.
Ltac ctx := eapply gets_eq; [chain|cbn; rewrite ?orb_false_r, ?orb_assoc; reflexivity].
Ltac five := refine (conj _ (conj _ (conj _ (conj _ _)))).
Ltac six := refine (conj _ (conj _ (conj _ (conj _ (conj _ _))))).
Ltac cleans := let Hc := fresh "Hc" in intros Hc; cbn [clean_stmt clean_block clean_elseifs clean_else] in Hc; 
  repeat match goal with H : _ && _ = true |- _ => apply andb_true_iff in H; destruct H end;
  repeat match goal with H : ?P -> _ , G : ?P |- _ => specialize (H G); decompose [and] H; clear H end;
  cbn [mean_stmt mean_block mean_elseifs mean_else colons_stmt colons_block colons_elseifs colons_else rev];
  repeat match goal with H : v_opt_body _ = _ |- _ => rewrite H; clear H | H : v_opt_elseif_list _ = _ |- _ => rewrite H; clear H
   | H : v_opt_else _ = _ |- _ => rewrite H; clear H end; (split; [|repeat (apply andb_true_intro; split); auto]).
Ltac ctx_loop :=
  match goal with
  | X : same_ctx (add_loop ?x 1) ?y, Z : same_ctx (add_loop ?z (-1)) ?w, G : gets ?f ?y ?u |- _ =>
      let E := fresh in assert (E : gets f y z) by (eapply gets_eq; [chain|rewrite ?orb_false_r; reflexivity]);
      apply (loop_out _ _ _ _ _ E X) in Z; clear E X G
  | X : same_ctx (add_try ?x 1) ?y, Z : same_ctx (add_try ?z (-1)) ?w, G : gets ?f ?y ?u |- _ =>
      let E := fresh in assert (E : gets f y z) by (eapply gets_eq; [chain|rewrite ?orb_false_r; reflexivity]);
      apply (try_out _ _ _ _ _ E X) in Z; clear E X G
  | X : same_ctx (add_loop ?x 1) ?y, G : gets ?f ?y ?u |- _ => apply (while_out _ _ _ _ G) in X; clear G
  end; ctx.
Lemma gappend_slice l x : gappend (slice_of l) [x] = slice_of (l ++ [x]).
Proof. destruct l; reflexivity. Qed.
Lemma sep_lit x v a a' : ev (t_sep x) v a a' -> same_ctx a a' /\ tk_lit (v_token v) = match x with Semi => B ";" | Colon => B ":" end.
Proof.
  destruct x; cbn [t_sep]; intros H; unf; repeat ev1; acts; slots; (split; [fin_ctx|]);
  match goal with H : tok_rel _ _ |- _ => first [apply rel_semi, H|apply rel_colon, H] end.
Qed.
Lemma bind_ok {A C} (r : res A) (f : A -> res C) x : bind r f = Ok x -> exists y, r = Ok y /\ f y = Ok x.
Proof. destruct r; [eauto|discriminate]. Qed.
Lemma check_loop t a a' : checkLoopOperator t a = Ok a' -> a_err a' = None -> a' = a /\ (ready a -> inl a = true).
Proof.
  unfold checkLoopOperator. destruct (a_isLoop a =? 0) eqn:E.
  - intros H He. apply Error_err in H. contradiction.
  - intros [= <-] _. split; [reflexivity|]. intros [R _]. unfold inl. lia.
Qed.
Lemma check_throw t p a a' : checkThrowParam t p a = Ok a' -> a_err a' = None -> a' = a /\ (ready a -> is_nil p = true -> inh a = true).
Proof.
  unfold checkThrowParam. destruct (a_isTry a =? 0) eqn:E; destruct (is_nil p) eqn:En; cbn [andb].
  - intros H He. apply Error_err in H. contradiction.
  - intros [= <-] _. split; [reflexivity|]. discriminate.
  - intros [= <-] _. split; [reflexivity|]. intros [_ R] _. unfold inh. lia.
  - intros [= <-] _. split; [reflexivity|]. discriminate.
Qed.
Lemma check_return p a a' : checkReturnParam p a = Ok a' -> a_err a' = None -> a' = a /\ (is_nil p = false -> a_isFunction a = true).
Proof.
  unfold checkReturnParam. destruct (a_isFunction a) eqn:E; destruct (is_nil p) eqn:En; cbn [andb negb];
  try (intros [= <-] _; split; [reflexivity|]; auto; discriminate).
  intros H He. apply Error_err in H. contradiction.
Qed.
Lemma colon_spec x l : colon_ok x l = negb (beqb (match x with Semi => B ";" | Colon => B ":" end) (B ":")
   && negb (Nat.eqb (length l) 0) && negb (is_label (last l SNil))).
Proof. destruct x; [reflexivity|]. destruct l as [|y l]; [reflexivity|]. unfold colon_ok. cbn [length Nat.eqb negb andb].
  change (beqb (B ":") (B ":")) with true. cbn [andb]. rewrite negb_involutive. destruct (last (y :: l) SNil); reflexivity. Qed.
(** The separator production. *)
Lemma sep_rule x b t v1 v2 v3 v0 v a a' d b1 b2 b3 : POB b -> 
  ev (t_block b) v1 a b1 -> ev (t_sep x) v2 b1 b2 -> ev t v3 b2 b3 ->
  d = (fun i => nth (i - 1) [v1; v2; v3] zero_slot) -> v0 = v1 ->
  act 19 d v0 b3 = Ok (v, a') -> a_err a' = None -> ready a ->
  a' = b3 /\ v = (if is_nil (v_stmt v3) then v1 else set_body v1 (gappend (v_body v1) [v_stmt v3])) /\ same_ctx b1 b2 /\
  gets (while_block b) a b1 /\ loose_block (inl a) b = true /\ throws_block (inh a) b = true /\ returns_block (a_isFunction a) b = true /\
  (clean_block b = true -> colons_block b = true /\ (b <> BNil -> v_body v1 = slice_of (mean_block b)) /\ colon_ok x (mean_block b) = true).
Proof.
  intros IH H1 H2 H3 -> -> H He Hr. cbn [act nth Nat.sub] in H.
  apply bind_ok in H as (a2 & H & E). injection E as <- <-. unfold lit_of in H.
  destruct (sep_lit _ _ _ _ H2) as [Hs El]. rewrite El in H.
  match type of H with (if ?c then _ else _) = _ => destruct c eqn:Ec end; [apply Error_err in H; contradiction|]. injection H as <-.
  assert (E2 : a_err b2 = None) by exact (ev_err_back _ _ _ _ H3 He).
  assert (E1 : a_err b1 = None) by (rewrite <- E2; symmetry; apply (same_ctx_err _ _ Hs)).
  destruct (IH _ _ _ H1 E1 Hr) as (G & A1 & A2 & A3 & A4). refine (conj eq_refl (conj eq_refl (conj Hs (conj G (conj A1 (conj A2 (conj A3 _))))))).
  intros Hc. destruct (A4 Hc) as (B1 & B2 & B3). refine (conj B2 (conj B3 _)). rewrite colon_spec. rewrite B1 in Ec.
  replace (elems (slice_of (mean_block b))) with (mean_block b) in Ec by (destruct (mean_block b); reflexivity). rewrite Ec. reflexivity.
Qed.
Lemma ev_19 x b t v a a' : POB b -> ev (Node 19 [t_block b; t_sep x; t]) v a a' -> a_err a' = None -> ready a ->
  exists v1 v3 b1 b2 b3 q, ev t v3 b2 b3 /\ same_ctx b3 a' /\
  v = set_yys (if is_nil (v_stmt v3) then v1 else set_body v1 (gappend (v_body v1) [v_stmt v3])) q /\ same_ctx b1 b2 /\
  gets (while_block b) a b1 /\ loose_block (inl a) b = true /\ throws_block (inh a) b = true /\ returns_block (a_isFunction a) b = true /\
  (clean_block b = true -> colons_block b = true /\ (b <> BNil -> v_body v1 = slice_of (mean_block b)) /\ colon_ok x (mean_block b) = true).
Proof.
  intros IH H He Hr. apply ev_node_inv in H as (ds & v0 & v1 & q & a1 & a2 & _ & H & Hv & Ha & Hs & ->).
  assert (E2 : a_err a2 = None) by (rewrite <- He; symmetry; apply (same_ctx_err _ _ Hs)).
  apply evs_cons_inv in H as (w1 & ws & c1 & -> & H1 & H). apply evs_cons_inv in H as (w2 & ws2 & c2 & -> & H2 & H).
  apply evs_cons_inv in H as (w3 & ws3 & c3 & -> & H3 & H). apply evs_nil_inv in H as [-> ->].
  destruct (sep_rule _ _ _ _ _ _ _ _ _ _ _ _ _ _ IH H1 H2 H3 eq_refl Hv Ha E2 Hr) as (-> & -> & Hc & R).
  exists w1, w3, c1, c2, a1, q. auto.
Qed.
Lemma eval_stmts : (forall s, PS s) /\ (forall b, PB b) /\ (forall l, PL l) /\ (forall c, PC c).
Proof.
  apply stmt_all.
  - ev_stmt; rw; eqs. six; try bools. ctx.
  - ev_stmt; rw; eqs. six; try bools; [ctx|apply mean_expr_nn].
  - ev_stmt; rw; eqs. six; try bools; [ctx|]. cleans. reflexivity.
  - ev_stmt; rw; eqs. toks; rw. six; try bools; [ctx_loop|]. cleans. reflexivity.
  - ev_stmt; rw; eqs. toks; rw. six; try bools; [ctx_loop|]. cleans. reflexivity.
  - ev_stmt; rw; eqs. toks; rw. six; try bools; [ctx_loop|]. cleans. reflexivity.
  - ev_stmt; rw; eqs. toks; rw. six; try bools; [ctx_loop|]. cleans. reflexivity.
  - ev_stmt. apply bind_ok in H3 as (y & H3 & E). injection E as <- <-. apply check_loop in H3 as [-> H3]; [|assumption]. comp. slots.
    specialize (H3 H7). eqs. six; try bools. ctx.
  - ev_stmt. apply bind_ok in H3 as (y & H3 & E). injection E as <- <-. apply check_loop in H3 as [-> H3]; [|assumption]. comp. slots.
    specialize (H3 H7). eqs. six; try bools. ctx.
  - ev_stmt. apply bind_ok in H3 as (y & H3 & E). injection E as <- <-. apply check_throw in H3 as [-> H3]; [|assumption]. comp.
    fwd. eqs. slots. rw. rewrite mean_oexpr_nil in H3. six; try bools; [ctx|]. destruct o; cbn [throws_stmt]; auto.
  - ev_stmt. apply bind_ok in H3 as (y & H3 & E). injection E as <- <-. apply check_return in H3 as [-> H3]; [|assumption]. comp.
    fwd. eqs. slots. rw. rewrite mean_oexpr_nil in H3. six; try bools; [ctx|]. destruct o; cbn [returns_stmt]; auto.
  - intros H. contradiction.
  - intros s IH _ v a a' H He Hr. cbn [t_block child] in H. repeat ev1. acts. slots. backerr. fwd. eqs.
    five; try bools; [ctx|]. cleans. rw. reflexivity.
  - intros b IH x _ v a a' H He Hr. cbn [t_block child] in H.
    apply (ev_19 _ _ _ _ _ _ (opt_block _ IH)) in H as (v1 & v3 & b1 & b2 & b3 & q & H & Hs & -> & Hb & G & A1 & A2 & A3 & A4); [|assumption..].
    repeat ev1. acts. slots. cbn [is_nil]. comp. five; try bools; [ctx|]. intros Hc. destruct b as [|s|b y|b y s]; [discriminate Hc| | |];
    cbn [clean_block] in Hc; cbn [clean_block] in A4; specialize (A4 Hc); destruct A4 as (B1 & B2 & B3);
    (split; [apply B2; discriminate|cbn [colons_block] in B1 |- *; rewrite B1, B3; reflexivity]).
  - intros b IH x s IHs _ v a a' H He Hr. cbn [t_block child] in H.
    apply (ev_19 _ _ _ _ _ _ (opt_block _ IH)) in H as (v1 & v3 & b1 & b2 & b3 & q & H & Hs & -> & Hb & G & A1 & A2 & A3 & A4); [|assumption..].
    repeat ev1. acts. slots. comp. backerr. fwd. eqs.
    match goal with E : is_nil _ = false |- _ => rewrite E; clear E end.
    five; try bools; [ctx|]. intros Hc. 
    assert (Hc' : b <> BNil /\ clean_block b = true /\ clean_stmt s = true).
    { cbn [clean_block] in Hc. destruct b; [discriminate Hc| | |]; apply andb_true_iff in Hc; (split; [discriminate|exact Hc]). }
    clear Hc. destruct Hc' as (C1 & C2 & C3). destruct (A4 C2) as (B1 & B2 & B3). cbn [mean_block colons_block].
    match goal with K : clean_stmt s = true -> _ |- _ => destruct (K C3) as [K1 K2] end. rewrite K1, K2, B1, B3, (B2 C1), gappend_slice. auto.
  - ev_stmt; rw; eqs. five; try bools; ctx.
  - ev_stmt; rw; eqs. five; try bools; [ctx|]. cleans. reflexivity.
  - ev_stmt; rw; eqs. five; try bools; ctx.
  - ev_stmt; rw; eqs. five; try bools; [ctx|]. cleans. reflexivity.
Qed.
Lemma eval_block b : POB b. Proof. apply opt_block, eval_stmts. Qed.
Lemma eval_body b : PB b. Proof. apply eval_stmts. Qed.
