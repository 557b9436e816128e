(** The levels of Levels.v, read off the tree of a program. *)
From Verif Require Import Bytes Utf8 Float64 GoTime Ast Lexer Tables Parser Grammar Tok CertData Cert Driver DriverInv Trees Machine Bind Syntax Levels RulesFacts CstTrees.

Lemma bop_bin o : is_bin (bop_rule o) = true /\ lev (bop_rule o) = level o /\ (bop_rule o =? 73) = match o with BEq => true | _ => false end.
Proof. destruct o; repeat split. Qed.
Lemma bop_is_bin o : is_bin (bop_rule o) = true. Proof. destruct o; reflexivity. Qed.
Lemma bop_lev o : lev (bop_rule o) = level o. Proof. destruct o; reflexivity. Qed.

Lemma left_expr n e : t_left n (t_expr e) = left_above n e.
Proof.
  induction e; cbn [t_expr]; try reflexivity.
  cbn [t_left left_above]. rewrite bop_is_bin, bop_lev, IHe1. reflexivity.
Qed.
Lemma right_expr n e : t_right n (t_expr e) = right_above n e.
Proof.
  induction e; cbn [t_expr]; try reflexivity.
  - change (t_right n (Node 64 [Node 90 [pct "-"; t_expr e]])) with ((n <=? 11) && t_right n (t_expr e)). rewrite IHe. reflexivity.
  - change (t_right n (Node 64 [Node 91 [pct "+"; t_expr e]])) with ((n <=? 11) && t_right n (t_expr e)). rewrite IHe. reflexivity.
  - change (t_right n (Node 79 [lf tNot; t_expr e])) with ((n <=? 6) && t_right n (t_expr e)). rewrite IHe. reflexivity.
  - cbn [t_right right_above]. rewrite bop_is_bin, bop_lev, IHe2. reflexivity.
Qed.
Lemma noassign_expr e : t_noassign (t_expr e) = no_assign e.
Proof.
  induction e as [| | | | | | | | | |o l IHl r IHr| | | | |]; try reflexivity.
  cbn [t_expr t_noassign]. rewrite bop_is_bin, IHl. destruct (bop_bin o) as (_ & _ & ->).
  destruct o; cbn [no_assign andb negb]; try reflexivity.
  destruct l; try reflexivity. cbn [t_expr is_path]. destruct o; reflexivity.
Qed.

Ltac boolr := rewrite ?andb_true_r, ?andb_assoc; try reflexivity.
Lemma tight_exprs :
  (forall e, tight (t_expr e) = bound e) /\ (forall p, tight (t_path p) = bound_path p) /\
  (forall i, tight (t_ident i) = bound_ident i) /\ (forall c, tight (t_new c) = bound_new c) /\
  (forall l, tight (t_args l) = bound_args l) /\ (forall o, tight (t_oexpr o) = bound_oexpr o).
Proof.
  apply expr_all; intros; try reflexivity.
  - change (tight (t_expr (ENeg e))) with (t_left 11 (t_expr e) && (true && (tight (t_expr e) && true)) && true).
    rewrite left_expr, H. cbn [bound andb]. boolr.
  - change (tight (t_expr (EPos e))) with (t_left 11 (t_expr e) && (true && (tight (t_expr e) && true)) && true).
    rewrite left_expr, H. cbn [bound andb]. boolr.
  - change (tight (t_expr (ENot e))) with (t_left 6 (t_expr e) && (true && (tight (t_expr e) && true))).
    rewrite left_expr, H. cbn [bound andb]. boolr.
  - cbn [t_expr tight t_local forallb bound]. rewrite bop_is_bin, bop_lev, left_expr, right_expr, H, H0. cbn [lf tight andb]. boolr.
  - change (tight (t_expr (EParen l))) with (tight (t_args l) && true). rewrite H. cbn [bound]. boolr.
  - change (tight (t_expr (ENew c))) with (tight (t_new c) && true). rewrite H. cbn [bound]. boolr.
  - change (tight (t_expr (ETern c t f))) with ((tight (t_expr c) && (tight (t_expr t) && (tight (t_expr f) && true))) && true).
    rewrite H, H0, H1. cbn [bound]. boolr.
  - change (tight (t_expr (EPath p))) with (tight (t_path p) && true). rewrite H. cbn [bound]. boolr.
  - change (tight (t_path (PId i))) with (tight (t_ident i) && true). rewrite H. cbn [bound_path]. boolr.
  - change (tight (t_path (PDot p i))) with (tight (t_path p) && (tight (t_ident i) && true)). rewrite H, H0. cbn [bound_path]. boolr.
  - change (tight (t_ident (ICall n l))) with (tight (t_args l) && true). rewrite H. cbn [bound_ident]. boolr.
  - change (tight (t_ident (IIndex i e))) with (tight (t_ident i) && (tight (t_expr e) && true)). rewrite H, H0. cbn [bound_ident]. boolr.
  - change (tight (t_ident (IExec w e))) with (tight (t_expr e) && true). rewrite H. cbn [bound_ident]. boolr.
  - change (tight (t_new (NewCall n l))) with (tight (t_args l) && true). rewrite H. cbn [bound_new]. boolr.
  - change (tight (t_new (NewArgs l))) with (tight (t_args l) && true). rewrite H. cbn [bound_new]. boolr.
  - change (tight (t_args (AOne o))) with (tight (t_oexpr o) && true). rewrite H. cbn [bound_args]. boolr.
  - change (tight (t_args (AMore l o))) with (tight (t_args l) && (tight (t_oexpr o) && true)). rewrite H, H0. cbn [bound_args]. boolr.
  - change (tight (t_oexpr (OSome e))) with (tight (t_expr e) && true). rewrite H. cbn [bound_oexpr]. boolr.
Qed.
Definition tight_expr := proj1 tight_exprs.
Definition tight_path := proj1 (proj2 tight_exprs).
Definition tight_new := proj1 (proj2 (proj2 (proj2 tight_exprs))).
Definition tight_oexpr := proj2 (proj2 (proj2 (proj2 (proj2 tight_exprs)))).

Lemma tight_loopexp l : tight (t_loopexp l) = bound_loopexp l.
Proof.
  destruct l.
  - change (tight (t_loopexp (LPath p))) with (tight (t_path p) && true). rewrite tight_path. boolr.
  - change (tight (t_loopexp (LNew c))) with (tight (t_new c) && true). rewrite tight_new. boolr.
  - change (tight (t_loopexp (LParNew c))) with (tight (t_new c) && true). rewrite tight_new. boolr.
  - change (tight (t_loopexp (LTern c t f))) with ((tight (t_expr c) && (tight (t_expr t) && (tight (t_expr f) && true))) && true).
    rewrite !tight_expr. cbn [bound_loopexp]. boolr.
Qed.
Lemma tight_sep x : tight (t_sep x) = true.
Proof. destruct x; reflexivity. Qed.
Lemma tight_stmts :
  (forall s, tight (t_stmt s) = bound_stmt s) /\ (forall b, tight (t_block b) = bound_block b) /\
  (forall l, tight (t_elseifs l) = bound_elseifs l) /\ (forall c, tight (t_else c) = bound_else c).
Proof.
  apply stmt_all; intros; try reflexivity.
  - change (tight (t_stmt (CAssign p e))) with (tight (t_path p) && (tight (t_expr e) && true)). rewrite tight_path, tight_expr. cbn [bound_stmt]. boolr.
  - change (tight (t_stmt (CExpr e))) with (t_noassign (t_expr e) && (tight (t_expr e) && true)). rewrite noassign_expr, tight_expr. cbn [bound_stmt]. boolr.
  - change (tight (t_stmt (CIf e b l c))) with ((tight (t_expr e) && (tight (t_block b) && (tight (t_elseifs l) && (tight (t_else c) && true)))) && true).
    rewrite tight_expr, H, H0, H1. cbn [bound_stmt]. boolr.
  - change (tight (t_stmt (CForEach v l b))) with ((tight (t_loopexp l) && (tight (t_block b) && true)) && true).
    rewrite tight_loopexp, H. cbn [bound_stmt]. boolr.
  - change (tight (t_stmt (CFor e1 e2 b))) with ((tight (t_expr e1) && (tight (t_expr e2) && (tight (t_block b) && true))) && true).
    rewrite !tight_expr, H. cbn [bound_stmt]. boolr.
  - change (tight (t_stmt (CWhile e b))) with ((tight (t_expr e) && (tight (t_block b) && true)) && true).
    rewrite !tight_expr, H. cbn [bound_stmt]. boolr.
  - change (tight (t_stmt (CTry b c))) with ((tight (t_block b) && (tight (t_block c) && true)) && true).
    rewrite H, H0. cbn [bound_stmt]. boolr.
  - change (tight (t_stmt (CThrow o))) with (tight (t_oexpr o) && true). rewrite tight_oexpr. cbn [bound_stmt]. boolr.
  - change (tight (t_stmt (CReturn o))) with (tight (t_oexpr o) && true). rewrite tight_oexpr. cbn [bound_stmt]. boolr.
  - change (tight (t_block (BOne s))) with ((tight (t_stmt s) && true) && true). rewrite H. cbn [bound_block]. boolr.
  - change (tight (t_block (BSkip b x))) with ((tight (t_block b) && (tight (t_sep x) && true)) && true). rewrite H, tight_sep. cbn [bound_block]. boolr.
  - change (tight (t_block (BSnoc b x s))) with ((tight (t_block b) && (tight (t_sep x) && ((tight (t_stmt s) && true) && true))) && true).
    rewrite H, tight_sep, H0. cbn [bound_block andb]. boolr.
  - change (tight (t_elseifs (EICons e b l))) with (tight (t_expr e) && (tight (t_block b) && (tight (t_elseifs l) && true))).
    rewrite tight_expr, H, H0. cbn [bound_elseifs]. boolr.
  - change (tight (t_else (Else b))) with (tight (t_block b) && true). rewrite H. cbn [bound_else]. boolr.
Qed.
Definition tight_block := proj1 (proj2 tight_stmts).

Lemma tight_names l : tight (t_names l) = true.
Proof. induction l; [reflexivity|]. change (tight (t_names (Names l n))) with (tight (t_names l) && true). rewrite IHl. reflexivity. Qed.
Lemma tight_vars v : tight (t_vars v) = true /\ tight (child (t_vars v)) = true.
Proof.
  induction v as [|v [_ IH] l]; [auto|]. destruct v as [|v l0].
  - change (tight (t_vars (VSnoc VNil l))) with ((tight (t_names l) && true) && true).
    change (tight (child (t_vars (VSnoc VNil l)))) with (tight (t_names l) && true). rewrite tight_names. auto.
  - change (tight (t_vars (VSnoc (VSnoc v l0) l))) with ((tight (child (t_vars (VSnoc v l0))) && (tight (t_names l) && true)) && true).
    change (tight (child (t_vars (VSnoc (VSnoc v l0) l)))) with (tight (child (t_vars (VSnoc v l0))) && (tight (t_names l) && true)).
    rewrite tight_names, IH. auto.
Qed.
Lemma simple_expr_node e : simple e = true -> t_expr e = Node 64 [t_simple e].
Proof. destruct e; intros H; try discriminate H; reflexivity. Qed.
Lemma tight_simple e : simple e = true -> tight (t_simple e) = bound e.
Proof.
  intros H. rewrite <- tight_expr, (simple_expr_node e H). change (tight (Node 64 [t_simple e])) with (tight (t_simple e) && true). boolr.
Qed.
Lemma right_simple n e : simple e = true -> t_right n (t_simple e) = right_above n e.
Proof. intros H. rewrite <- right_expr, (simple_expr_node e H). reflexivity. Qed.
Lemma right_param n p : simple_param p = true -> t_right n (t_param p) = param_right n p.
Proof.
  destruct p as [m|m|p e]; intros H; try reflexivity. cbn in H. apply andb_true_iff in H as [_ H].
  change (t_right n (t_param (ParDef p e))) with (t_right n (t_simple e)). rewrite right_simple by exact H. reflexivity.
Qed.
Lemma tight_param p : simple_param p = true -> tight (t_param p) = bound_param p.
Proof.
  induction p as [m|m|p IH e]; intros H; try reflexivity. cbn in H. apply andb_true_iff in H as [H1 H2].
  change (tight (t_param (ParDef p e))) with (t_right 7 (t_param p) && (tight (t_param p) && (tight (t_simple e) && true))).
  rewrite right_param, IH, tight_simple by assumption. cbn [bound_param]. boolr.
Qed.
Lemma tight_params l : simple_params l = true -> tight (t_params l) = bound_params l.
Proof.
  induction l as [|p|l IH p]; intros H; try reflexivity.
  - change (tight (t_params (POne p))) with (tight (t_param p) && true). rewrite tight_param by exact H. cbn [bound_params]. boolr.
  - cbn in H. apply andb_true_iff in H as [H1 H2].
    change (tight (t_params (PSnoc l p))) with (tight (t_params l) && (tight (t_param p) && true)). rewrite IH, tight_param by assumption. cbn [bound_params]. boolr.
Qed.
Lemma tight_dir d : tight (t_dir d) = true. Proof. destruct d; reflexivity. Qed.
Lemma tight_export b : tight (t_export b) = true. Proof. destruct b; reflexivity. Qed.
Lemma tight_func f : simple_params (cf_params f) = true -> tight (t_func f) = bound_params (cf_params f) && bound_block (cf_body f).
Proof.
  intros H. rewrite <- (tight_params _ H), <- tight_block. unfold t_func. destruct (cf_function f).
  - change (tight (Node 14 [t_dir (cf_dir f); lf tFunction; Leaf (KId (cf_name f)); pct "("; t_params (cf_params f); pct ")";
             t_export (cf_export f); Node 13 []; t_vars (cf_vars f); t_block (cf_body f); lf tEndFunction]))
    with (tight (t_dir (cf_dir f)) && (tight (t_params (cf_params f)) && (tight (t_export (cf_export f)) && (tight (t_vars (cf_vars f)) && (tight (t_block (cf_body f)) && true))))).
    rewrite tight_dir, tight_export, (proj1 (tight_vars _)). cbn [andb]. boolr.
  - change (tight (Node 15 [t_dir (cf_dir f); lf tProcedure; Leaf (KId (cf_name f)); pct "("; t_params (cf_params f); pct ")";
             t_export (cf_export f); t_vars (cf_vars f); t_block (cf_body f); lf tEndProcedure]))
    with (tight (t_dir (cf_dir f)) && (tight (t_params (cf_params f)) && (tight (t_export (cf_export f)) && (tight (t_vars (cf_vars f)) && (tight (t_block (cf_body f)) && true))))).
    rewrite tight_dir, tight_export, (proj1 (tight_vars _)). cbn [andb]. boolr.
Qed.
Definition bound_func (f : cfunc) : bool := bound_params (cf_params f) && bound_block (cf_body f).
Lemma tight_items l : forallb (fun f => simple_params (cf_params f)) (item_funcs l) = true -> l <> INil ->
  tight (t_items l) = forallb bound_func (item_funcs l).
Proof.
  assert (Hi : forall i, match i with IFunc f => simple_params (cf_params f) = true | _ => True end ->
    tight (t_item i) = match i with IFunc f => bound_func f | _ => true end).
  { intros [d l0 x|f] H.
    - change (tight (t_item (IVars d l0 x))) with ((tight (t_dir d) && (tight (t_names l0) && (tight (t_export x) && true))) && true).
      rewrite tight_dir, tight_names, tight_export. reflexivity.
    - change (tight (t_item (IFunc f))) with (tight (t_func f) && true). rewrite tight_func by exact H. unfold bound_func. boolr. }
  induction l as [|l IH i]; intros H Hn; [contradiction|].
  assert (H2 : forallb (fun f => simple_params (cf_params f)) (item_funcs l) = true /\
               match i with IFunc f => simple_params (cf_params f) = true | _ => True end).
  { destruct i; cbn [item_funcs] in H; [auto|]. rewrite forallb_app in H. apply andb_true_iff in H as [A B]. cbn in B. rewrite andb_true_r in B. auto. }
  destruct H2 as [H2 H3].
  assert (Hf : forallb bound_func (item_funcs (ISnoc l i)) = forallb bound_func (item_funcs l) && match i with IFunc f => bound_func f | _ => true end).
  { destruct i; cbn [item_funcs]; [boolr|]. rewrite forallb_app. cbn [forallb]. boolr. }
  rewrite Hf, <- (Hi i H3). destruct l as [|l0 i0].
  - change (tight (t_items (ISnoc INil i))) with (tight (t_item i) && true). cbn [item_funcs forallb andb]. boolr.
  - change (tight (t_items (ISnoc (ISnoc l0 i0) i))) with (tight (t_items (ISnoc l0 i0)) && (tight (t_item i) && true)).
    rewrite IH by (auto; discriminate). boolr.
Qed.
Lemma tight_program p : defaults_ok p = true -> tight (t_program p) = bound_program p.
Proof.
  destruct p as [l b]. unfold defaults_ok, bound_program. cbn [pr_items pr_body]. intros H. rewrite <- tight_block.
  change (fun f : cfunc => bound_params (cf_params f) && bound_block (cf_body f)) with bound_func.
  destruct l as [|l i].
  - destruct b; [reflexivity|..]; unfold t_program; cbn [pr_items pr_body item_funcs forallb t_block child andb];
    match goal with |- tight (Node 2 [?x]) = tight (Node 17 [?x]) => change (tight x && true = tight x && true) end; reflexivity.
  - change (tight (t_program (Program (ISnoc l i) b))) with (tight (t_items (ISnoc l i)) && (tight (t_block b) && true)).
    rewrite tight_items by (auto; discriminate). boolr.
Qed.
