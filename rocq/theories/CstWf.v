(** The tree of a program is a tree of the grammar. *)
From Verif Require Import Bytes Utf8 Float64 GoTime Ast Lexer LexFacts LexSpec LexProofs Tables Parser Grammar Tok CertData Cert Driver DriverInv Trees Syntax CstTrees RulesFacts CstInj.

Definition good_tree (n : nonterm) (t : tree) : Prop := wf t /\ sym_of t = - nt_no n.
Definition leaf_ok (k : tk) : bool :=
  existsb (Z.eqb (kind_of k)) kinds && match k with K c => negb (existsb (Z.eqb c) payload) | _ => true end.
Lemma leaf_wf k : leaf_ok k = true -> wf (Leaf k).
Proof.
  unfold leaf_ok. rewrite andb_true_iff. intros [H1 H2]. constructor. split.
  - apply existsb_exists in H1 as (x & Hx & E). apply Z.eqb_eq in E. congruence.
  - destruct k; try exact I. intros Hi. rewrite negb_true_iff in H2. rewrite <- not_true_iff_false in H2. apply H2.
    apply existsb_exists. exists c. split; [exact Hi|apply Z.eqb_refl].
Qed.
(** A node whose children are leaves or known to be good. *)
Definition fits (s : sym) (t : tree) : Prop :=
  match s with
  | T c => exists k, t = Leaf k /\ leaf_ok k = true /\ tokno_of (kind_of k) = tokno_of c
  | N n => good_tree n t
  end.
Lemma good_node r ch : prodno r -> Forall2 fits (rhs r) ch -> good_tree (lhs r) (Node r ch).
Proof.
  intros Hr H. split; [|reflexivity]. constructor; [exact Hr| |].
  - induction H as [|s t ss ts H1 H2 IH]; [reflexivity|]. cbn [map]. f_equal; [|exact IH].
    destruct s as [c|n]; cbn [fits sym_no] in *; [destruct H1 as (k & -> & _ & E); exact E|apply H1].
  - induction H as [|s t ss ts H1 H2 IH]; constructor; [|exact IH].
    destruct s as [c|n]; cbn [fits] in H1; [destruct H1 as (k & -> & E & _); apply leaf_wf, E|apply H1].
Qed.
Ltac good_leaf := eexists; split; [reflexivity|]; split; vm_compute; reflexivity.
Ltac good_rec n t := lazymatch t with
  | Node ?r ?ch => change (good_tree (lhs r) (Node r ch)); apply good_node; [unfold prodno, n_prods; lia | good_list]
  | _ => try assumption; try solve [auto]
  end
with good_list := match goal with
  | |- Forall2 fits ?l _ => let l' := eval vm_compute in l in change l with l'
  end; repeat (apply Forall2_cons || apply Forall2_nil); cbn [fits];
  match goal with
  | |- ex _ => good_leaf
  | |- good_tree ?n ?t => good_rec n t
  end.
Ltac good := match goal with |- good_tree ?n ?t => let t' := eval hnf in t in change t with t'; good_rec n t' end.

Lemma good_exprs :
  (forall e, good_tree n_expr (t_expr e)) /\ (forall e, good_tree n_through_dot (t_path e)) /\ (forall e, good_tree n_identifier (t_ident e)) /\
  (forall e, good_tree n_new_object (t_new e)) /\ (forall e, good_tree n_exprs (t_args e)) /\ (forall e, good_tree n_opt_expr (t_oexpr e)).
Proof.
  apply expr_all; intros; try solve [good].
  all: unfold label, comma; cbn [t_expr t_args]; unfold label, comma.
  2: destruct o; cbn [bop_rule bop_tok].
  all: good.
Qed.
Lemma good_expr e : good_tree n_expr (t_expr e). Proof. apply good_exprs. Qed.
Lemma good_path e : good_tree n_through_dot (t_path e). Proof. apply good_exprs. Qed.
Lemma good_new e : good_tree n_new_object (t_new e). Proof. apply good_exprs. Qed.
Lemma good_oexpr e : good_tree n_opt_expr (t_oexpr e). Proof. apply good_exprs. Qed.
Lemma good_child r t n : (forall x, t = Node r [x] -> rhs r = [N n]) -> wf t -> forall x, t = Node r [x] -> good_tree n (child t).
Proof.
  intros H Hw x ->. inversion Hw as [|? ? Hr Hs Hf]; subst. rewrite (H x eq_refl) in Hs. cbn [map sym_no] in Hs. injection Hs as Hs.
  cbn [child]. split; [exact (Forall_inv Hf)|exact Hs].
Qed.
Lemma good_tern c t f : good_tree n_ternary (t_tern c t f).
Proof. apply (good_child 82) with (x := t_tern c t f); [reflexivity|apply (good_expr (ETern c t f))|reflexivity]. Qed.
Lemma good_sep x : good_tree n_separator (t_sep x).
Proof. destruct x; unfold t_sep, semi; good. Qed.
Lemma good_loopexp l : good_tree n_loopExp (t_loopexp l).
Proof. pose proof good_path. pose proof good_new. pose proof good_tern. destruct l; good. Qed.
Lemma good_stmts :
  (forall e, good_tree n_stmt (t_stmt e)) /\ (forall e, good_tree n_opt_body (t_block e)) /\
  (forall e, good_tree n_opt_elseif_list (t_elseifs e)) /\ (forall e, good_tree n_opt_else (t_else e)).
Proof.
  pose proof good_path. pose proof good_new. pose proof good_tern. pose proof good_expr. pose proof good_oexpr. pose proof good_sep. pose proof good_loopexp.
  apply stmt_all; intros; good.
Qed.
Lemma good_block b : good_tree n_opt_body (t_block b). Proof. apply good_stmts. Qed.
Lemma good_names l : good_tree n_identifiers (t_names l).
Proof. induction l; cbn [t_names]; unfold comma; good. Qed.
Lemma good_simple e : simple e = true -> good_tree n_simple_expr (t_simple e).
Proof.
  intros H. destruct (good_expr e) as [Hw _]. apply (good_child 64) with (x := t_simple e); [reflexivity|exact Hw|]. destruct e; try discriminate H; reflexivity.
Qed.
Lemma good_param p : simple_param p = true -> good_tree n_declarations_method_param (t_param p).
Proof.
  induction p; intros H; cbn [t_param]; [good|good|]. cbn [simple_param] in H. apply andb_true_iff in H as [H1 H2]. pose proof (good_simple _ H2). specialize (IHp H1). good.
Qed.
Lemma good_params l : simple_params l = true -> good_tree n_declarations_method_params (t_params l).
Proof.
  induction l; intros H; cbn [t_params simple_params] in *; unfold comma; [good|pose proof (good_param _ H); good|].
  apply andb_true_iff in H as [H1 H2]. pose proof (good_param _ H2). specialize (IHl H1). good.
Qed.
Lemma good_vars v : good_tree n_opt_explicit_variables (t_vars v).
Proof.
  induction v as [|v IH l]; [good|]. pose proof (good_names l). cbn [t_vars]. destruct v as [|v l0]; unfold semi; [good|].
  assert (good_tree n_explicit_variables (child (t_vars (VSnoc v l0)))).
  { destruct IH as [Hw _]. apply (good_child 25) with (x := child (t_vars (VSnoc v l0))); [reflexivity|exact Hw|]. cbn [t_vars]. destruct v; reflexivity. }
  good.
Qed.
Lemma good_dir d : good_tree n_opt_directive (t_dir d). Proof. destruct d; good. Qed.
Lemma good_export b : good_tree n_opt_export (t_export b). Proof. destruct b; good. Qed.
Lemma good_func f : simple_params (cf_params f) = true -> good_tree n_funcProc (t_func f).
Proof.
  intros H. pose proof (good_params _ H). pose proof good_block. pose proof good_vars. pose proof good_dir. pose proof good_export.
  unfold t_func. destruct (cf_function f); good.
Qed.
Lemma good_item i : simple_item i = true -> good_tree n_main (t_item i).
Proof. pose proof good_dir. pose proof good_export. pose proof good_names. destruct i; intros Hi; unfold t_item, semi; [good|pose proof (good_func _ Hi); good]. Qed.
Lemma good_items l : simple_items l = true -> l <> INil -> good_tree n_main_items (t_items l).
Proof.
  induction l as [|l IH i]; intros H Hn; [congruence|]. cbn [simple_items] in H. apply andb_true_iff in H as [H1 H2]. pose proof (good_item _ H2).
  cbn [t_items]. destruct l as [|l0 i0]; [good|]. assert (good_tree n_main_items (t_items (ISnoc l0 i0))) by (apply IH; [exact H1|discriminate]). good.
Qed.
Theorem good_program p : defaults_ok p = true -> good_tree n_module (t_program p).
Proof.
  destruct p as [l b]. unfold defaults_ok, t_program. cbn [pr_items pr_body]. rewrite simple_items_ok. intros H. pose proof good_block.
  destruct l as [|l i].
  - destruct b as [|s|b x|b x s]; [good|..].
    all: match goal with |- good_tree _ (Node 2 [child (t_block ?b)]) => 
      assert (good_tree n_body (child (t_block b))) by (apply (good_child 17) with (x := child (t_block b)); [reflexivity|apply good_block|reflexivity]) end; good.
  - assert (good_tree n_main_items (t_items (ISnoc l i))) by (apply good_items; [exact H|discriminate]). good.
Qed.
