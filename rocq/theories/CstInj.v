(** A program is determined by its tree. *)
From Verif Require Import Bytes Utf8 Float64 GoTime Ast Lexer LexFacts LexSpec LexProofs Tables Parser Grammar Tok CertData Cert Driver DriverInv Trees Syntax CstTrees RulesFacts.

Lemma bop_rule_inj o o' : bop_rule o = bop_rule o' -> o = o'. Proof. destruct o, o'; intros H; solve [reflexivity | discriminate H]. Qed.
Ltac bop_no := match goal with H : Node (bop_rule ?o) _ = Node _ _ |- _ => destruct o; discriminate H | H : Node _ _ = Node (bop_rule ?o) _ |- _ => destruct o; discriminate H end.
Lemma inj_exprs :
  (forall e e', t_expr e = t_expr e' -> e = e') /\ (forall e e', t_path e = t_path e' -> e = e') /\ (forall e e', t_ident e = t_ident e' -> e = e') /\
  (forall e e', t_new e = t_new e' -> e = e') /\ (forall e e', t_args e = t_args e' -> e = e') /\ (forall e e', t_oexpr e = t_oexpr e' -> e = e').
Proof.
  apply expr_all; intros; match goal with H : _ _ = _ ?x |- _ = ?x => destruct x; cbn [t_expr t_path t_ident t_new t_args t_oexpr] in H; try discriminate H; try bop_no; try (injection H; intros); f_equal; auto using bop_rule_inj end.
Qed.
Lemma expr_inj e e' : t_expr e = t_expr e' -> e = e'. Proof. apply inj_exprs. Qed.
Lemma path_inj e e' : t_path e = t_path e' -> e = e'. Proof. apply inj_exprs. Qed.
Lemma new_inj e e' : t_new e = t_new e' -> e = e'. Proof. apply inj_exprs. Qed.
Lemma oexpr_inj e e' : t_oexpr e = t_oexpr e' -> e = e'. Proof. apply inj_exprs. Qed.
Lemma sep_inj x x' : t_sep x = t_sep x' -> x = x'. Proof. destruct x, x'; intros H; solve [reflexivity | discriminate H]. Qed.
Lemma loopexp_inj l l' : t_loopexp l = t_loopexp l' -> l = l'.
Proof. destruct l, l'; cbn; intros H; try discriminate H; injection H; intros; f_equal; auto using path_inj, new_inj, expr_inj. Qed.
Lemma inj_stmts :
  (forall e e', t_stmt e = t_stmt e' -> e = e') /\ (forall e e', t_block e = t_block e' -> e = e') /\
  (forall e e', t_elseifs e = t_elseifs e' -> e = e') /\ (forall e e', t_else e = t_else e' -> e = e').
Proof.
  apply stmt_all; intros; match goal with H : _ _ = _ ?x |- _ = ?x => destruct x; cbn [t_stmt t_block t_elseifs t_else] in H; try discriminate H; try (injection H; intros); f_equal; auto using path_inj, new_inj, expr_inj, oexpr_inj, sep_inj, loopexp_inj end.
Qed.
Lemma block_inj e e' : t_block e = t_block e' -> e = e'. Proof. apply inj_stmts. Qed.
Lemma names_inj l : forall l', t_names l = t_names l' -> l = l'.
Proof. induction l; intros [n'|l' n'] H; cbn [t_names] in H; try discriminate H; injection H; intros; f_equal; auto. Qed.
Lemma simple_inj e e' : simple e = true -> simple e' = true -> t_simple e = t_simple e' -> e = e'.
Proof.
  intros H1 H2 H. apply expr_inj. destruct e; try discriminate H1; destruct e'; try discriminate H2; cbn in H; cbn [t_expr]; congruence.
Qed.
Lemma param_inj p : forall p', simple_param p = true -> simple_param p' = true -> t_param p = t_param p' -> p = p'.
Proof.
  induction p as [n|n|p IH e]; intros [n'|n'|p' e'] H1 H2 H; cbn [t_param] in H; try discriminate H; injection H; intros; try congruence.
  cbn [simple_param] in *. apply andb_true_iff in H1 as [? ?], H2 as [? ?]. f_equal; auto using simple_inj.
Qed.
Lemma params_inj l : forall l', simple_params l = true -> simple_params l' = true -> t_params l = t_params l' -> l = l'.
Proof.
  induction l as [|p|l IH p]; intros [|p'|l' p'] H1 H2 H; cbn [t_params] in H; try discriminate H; try injection H; intros; try congruence; cbn [simple_params] in *.
  - f_equal. apply param_inj; auto.
  - apply andb_true_iff in H1 as [? ?], H2 as [? ?]. f_equal; auto using param_inj.
Qed.
Lemma child_vars v v' : v <> VNil -> v' <> VNil -> child (t_vars v) = child (t_vars v') -> t_vars v = t_vars v'.
Proof. destruct v as [|[|v l0] l]; [congruence| |]; destruct v' as [|[|v' l0'] l']; try congruence; cbn; congruence. Qed.
Lemma vars_inj v : forall v', t_vars v = t_vars v' -> v = v'.
Proof.
  induction v as [|v IH l]; intros [|v' l'] H; [reflexivity| | |].
  1,2: exfalso; cbn [t_vars] in H; match goal with _ : context [match ?x with _ => _ end] |- _ => destruct x end; discriminate H.
  destruct v as [|v0 l0], v' as [|v0' l0']; cbn [t_vars] in H; try discriminate H.
  - injection H as H. f_equal. apply names_inj, H.
  - injection H as H Hl. f_equal; [|apply names_inj, Hl]. apply IH. apply child_vars; [discriminate|discriminate|exact H].
Qed.
Lemma dir_inj d d' : t_dir d = t_dir d' -> d = d'. Proof. destruct d, d'; cbn; congruence. Qed.
Lemma export_inj d d' : t_export d = t_export d' -> d = d'. Proof. destruct d, d'; cbn; congruence. Qed.
Lemma func_inj f f' : simple_params (cf_params f) = true -> simple_params (cf_params f') = true -> t_func f = t_func f' -> f = f'.
Proof.
  destruct f, f'. unfold t_func. cbn. intros H1 H2 H. destruct cf_function, cf_function0; try discriminate H; injection H; intros; f_equal;
    auto using dir_inj, export_inj, params_inj, vars_inj, block_inj.
Qed.
Definition simple_item (i : item) : bool := match i with IFunc f => simple_params (cf_params f) | _ => true end.
Lemma item_inj i i' : simple_item i = true -> simple_item i' = true -> t_item i = t_item i' -> i = i'.
Proof. destruct i, i'; cbn; intros H1 H2 H; try discriminate H; injection H; intros; f_equal; auto using dir_inj, names_inj, export_inj, func_inj. Qed.
Fixpoint simple_items (l : items) : bool := match l with INil => true | ISnoc l i => simple_items l && simple_item i end.
Lemma simple_items_ok l : forallb (fun f => simple_params (cf_params f)) (item_funcs l) = simple_items l.
Proof.
  induction l as [|l IH i]; [reflexivity|]. cbn [item_funcs simple_items]. destruct i; cbn [simple_item]; rewrite <- IH, ?andb_true_r; [reflexivity|].
  rewrite forallb_app. cbn [forallb]. rewrite andb_true_r. reflexivity.
Qed.
Lemma items_inj l : forall l', simple_items l = true -> simple_items l' = true -> l <> INil -> l' <> INil -> t_items l = t_items l' -> l = l'.
Proof.
  induction l as [|l IH i]; intros [|l' i'] H1 H2 H3 H4 H; try congruence. cbn [simple_items] in *. apply andb_true_iff in H1 as [? ?], H2 as [? ?].
  destruct l as [|l0 i0], l' as [|l0' i0']; cbn [t_items] in H; try discriminate H; injection H; intros; f_equal; auto using item_inj.
  apply IH; auto; discriminate.
Qed.
Theorem program_inj p p' : defaults_ok p = true -> defaults_ok p' = true -> t_program p = t_program p' -> p = p'.
Proof.
  destruct p as [l b], p' as [l' b']. unfold defaults_ok, t_program. cbn [pr_items pr_body]. rewrite !simple_items_ok. intros H1 H2 H.
  destruct l as [|l i], l' as [|l' i'].
  - f_equal. apply block_inj. destruct b, b'; cbn in H |- *; congruence.
  - destruct b; discriminate H.
  - destruct b'; discriminate H.
  - injection H as HA HB. apply block_inj in HB. apply (items_inj (ISnoc l i) (ISnoc l' i')) in HA; auto; congruence.
Qed.
