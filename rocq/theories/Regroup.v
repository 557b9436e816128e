(** Every way of writing an expression groups by the levels of Levels.v in some way. *)
From Verif Require Import Bytes Float64 GoTime Ast Lexer Tok Syntax RulesFacts Levels.

Definition is_bin_expr (e : expr) : bool := match e with EBin _ _ _ => true | _ => false end.
(** [l o x], where [x] is not a binary expression itself. *)
Fixpoint attach (l : expr) (o : bop) (x : expr) : expr :=
  if right_above (level o) l then EBin o l x
  else match l with
       | EBin o1 a b => EBin o1 a (attach b o x)
       | ENot e => ENot (attach e o x)
       | ENeg e => ENeg (attach e o x)
       | EPos e => EPos (attach e o x)
       | _ => EBin o l x
       end.
(** [l o r] *)
Fixpoint join (l : expr) (o : bop) (r : expr) : expr :=
  match r with
  | EBin o2 r1 r2 => join (join l o r1) o2 r2
  | _ => attach l o r
  end.
(** A prefix before [e]. *)
Fixpoint prefix (f : expr -> expr) (e : expr) : expr :=
  match e with
  | EBin o l r => join (prefix f l) o r
  | _ => f e
  end.
Fixpoint regroup (e : expr) : expr :=
  match e with
  | EBin o l r => join (regroup l) o (regroup r)
  | ENot e => prefix ENot (regroup e)
  | ENeg e => prefix ENeg (regroup e)
  | EPos e => prefix EPos (regroup e)
  | EParen l => EParen (regroup_args l)
  | ENew c => ENew (regroup_new c)
  | ETern c t f => ETern (regroup c) (regroup t) (regroup f)
  | EPath p => EPath (regroup_path p)
  | _ => e
  end
with regroup_path (p : path) : path :=
  match p with PId i => PId (regroup_ident i) | PDot p i => PDot (regroup_path p) (regroup_ident i) end
with regroup_ident (i : ident) : ident :=
  match i with
  | ICall n l => ICall n (regroup_args l)
  | IIndex i e => IIndex (regroup_ident i) (regroup e)
  | IExec w e => IExec w (regroup e)
  | IVar _ | IExecStr _ _ | IExecVar _ _ => i
  end
with regroup_new (c : newexp) : newexp :=
  match c with NewName _ => c | NewCall n l => NewCall n (regroup_args l) | NewArgs l => NewArgs (regroup_args l) end
with regroup_args (l : args) : args :=
  match l with AOne o => AOne (regroup_oexpr o) | AMore l o => AMore (regroup_args l) (regroup_oexpr o) end
with regroup_oexpr (o : oexpr) : oexpr :=
  match o with ONone => ONone | OSome e => OSome (regroup e) end.

(** * The tokens stay *)
Lemma attach_toks l o x : toks_expr (attach l o x) = toks_expr l ++ K (bop_tok o) :: toks_expr x.
Proof.
  induction l; cbn [attach]; try (destruct (right_above _ _); [reflexivity|]); try reflexivity; cbn [toks_expr]; try (rewrite IHl; reflexivity).
  rewrite IHl2, <- app_assoc. reflexivity.
Qed.
Lemma join_toks r : forall l o, toks_expr (join l o r) = toks_expr l ++ K (bop_tok o) :: toks_expr r.
Proof.
  induction r; intros l0 o0; cbn [join]; try apply attach_toks. rewrite IHr2, IHr1. cbn [toks_expr]. rewrite <- app_assoc. reflexivity.
Qed.
Lemma prefix_toks f h e : (forall e, toks_expr (f e) = h :: toks_expr e) -> toks_expr (prefix f e) = h :: toks_expr e.
Proof. intros Hf. induction e; cbn [prefix]; try apply Hf. rewrite join_toks, IHe1. reflexivity. Qed.
Lemma regroup_toks :
  (forall e, toks_expr (regroup e) = toks_expr e) /\ (forall e, toks_path (regroup_path e) = toks_path e) /\ (forall e, toks_ident (regroup_ident e) = toks_ident e) /\
  (forall e, toks_new (regroup_new e) = toks_new e) /\ (forall e, toks_args (regroup_args e) = toks_args e) /\ (forall e, toks_oexpr (regroup_oexpr e) = toks_oexpr e).
Proof.
  apply expr_all; intros; cbn [regroup regroup_path regroup_ident regroup_new regroup_args regroup_oexpr]; try reflexivity; rewrite ?join_toks;
    cbn [toks_expr toks_path toks_ident toks_new toks_args toks_oexpr]; try congruence.
  - rewrite (prefix_toks ENeg (Pct "-")) by reflexivity. congruence.
  - rewrite (prefix_toks EPos (Pct "+")) by reflexivity. congruence.
  - rewrite (prefix_toks ENot (K tNot)) by reflexivity. congruence.
Qed.

(** * The result is grouped *)
Lemma left_atom n x : is_bin_expr x = false -> left_above n x = true. Proof. destruct x; try reflexivity. discriminate. Qed.
Lemma attach_left n o x l : left_above n l = true -> (right_above (level o) l = true -> n < level o) -> left_above n (attach l o x) = true.
Proof.
  intros H1 H2. assert (HF : right_above (level o) l = true -> left_above n (EBin o l x) = true).
  { intros H. cbn [left_above]. rewrite H1, andb_true_r. apply Z.ltb_lt, H2, H. }
  destruct l; cbn [attach]; try (apply HF; reflexivity); destruct (right_above (level o) _); [apply HF; reflexivity|..]; auto.
Qed.
Lemma attach_bound o x l : bound l = true -> bound x = true -> is_bin_expr x = false -> bound (attach l o x) = true.
Proof.
  intros Hl Hx Hb. assert (HF : forall l, bound l = true -> right_above (level o) l = true -> bound (EBin o l x) = true).
  { intros l0 H1 H2. cbn [bound]. rewrite H1, H2, Hx, (left_atom _ _ Hb). reflexivity. }
  induction l; try (apply HF; [exact Hl|reflexivity]); cbn [attach]; destruct (right_above (level o) _) eqn:E; try (apply HF; assumption);
    cbn [bound] in Hl; rewrite !andb_true_iff in Hl.
  - destruct Hl as [H1 H2]. cbn [bound]. rewrite IHl by exact H2. rewrite andb_true_r. apply attach_left; [exact H1|]. intros H.
    cbn [right_above] in E. rewrite H, andb_true_r in E. destruct o; discriminate E.
  - destruct Hl as [H1 H2]. cbn [bound]. rewrite IHl by exact H2. rewrite andb_true_r. apply attach_left; [exact H1|]. intros H.
    cbn [right_above] in E. rewrite H, andb_true_r in E. destruct o; discriminate E.
  - destruct Hl as [H1 H2]. cbn [bound]. rewrite IHl by exact H2. rewrite andb_true_r. apply attach_left; [exact H1|]. intros H.
    cbn [right_above] in E. rewrite H, andb_true_r in E. unfold level_not in *. lia.
  - destruct Hl as (((H1 & H2) & H3) & H4). cbn [bound]. rewrite IHl2 by exact H4. rewrite H1, H3, !andb_true_r. cbn [andb].
    apply attach_left; [exact H2|]. intros H. cbn [right_above] in E. rewrite H, andb_true_r in E. lia.
Qed.
Lemma join_bound r : forall l o, bound l = true -> bound r = true -> bound (join l o r) = true.
Proof.
  induction r; intros l0 o0 Hl Hr; cbn [join]; try (apply attach_bound; [exact Hl|exact Hr|reflexivity]).
  cbn [bound] in Hr. rewrite !andb_true_iff in Hr. destruct Hr as (((_ & _) & H3) & H4). auto.
Qed.
Lemma prefix_bound f e : (forall e, is_bin_expr e = false -> bound e = true -> bound (f e) = true) -> bound e = true -> bound (prefix f e) = true.
Proof.
  intros Hf. induction e; intros H; cbn [prefix]; try (apply Hf; [reflexivity|exact H]).
  cbn [bound] in H. rewrite !andb_true_iff in H. destruct H as (((_ & _) & H3) & H4). apply join_bound; auto.
Qed.
Lemma regroup_bound :
  (forall e, bound (regroup e) = true) /\ (forall e, bound_path (regroup_path e) = true) /\ (forall e, bound_ident (regroup_ident e) = true) /\
  (forall e, bound_new (regroup_new e) = true) /\ (forall e, bound_args (regroup_args e) = true) /\ (forall e, bound_oexpr (regroup_oexpr e) = true).
Proof.
  apply expr_all; intros; cbn [regroup regroup_path regroup_ident regroup_new regroup_args regroup_oexpr]; try reflexivity; try (apply join_bound; assumption);
    try (apply prefix_bound; [|assumption]; intros x Hx Hb; cbn [bound]; rewrite Hb, (left_atom _ _ Hx); reflexivity);
    cbn [bound bound_path bound_ident bound_new bound_args bound_oexpr]; rewrite ?andb_true_iff; auto.
Qed.
(** What is grouped already stays as it is: see [bound_unique] in Properties_Bind.v. *)

(** * Statements *)
(** A statement [p = e], if the tokens of an expression are those of one. *)
Fixpoint split_assign (e : expr) : option (path * expr) :=
  match e with
  | EBin BEq (EPath p) r => Some (p, r)
  | EBin o l r => option_map (fun x => (fst x, EBin o (snd x) r)) (split_assign l)
  | _ => None
  end.
Lemma split_assign_spec e : match split_assign e with
  | Some (p, r) => toks_expr e = toks_path p ++ K tEQUAL :: toks_expr r /\ (bound e = true -> bound_path p = true)
  | None => no_assign e = true
  end.
Proof.
  induction e; try reflexivity. cbn [split_assign no_assign].
  assert (HG : match option_map (fun x => (fst x, EBin o (snd x) e2)) (split_assign e1) with
    | Some (p, r) => toks_expr (EBin o e1 e2) = toks_path p ++ K tEQUAL :: toks_expr r /\ (bound (EBin o e1 e2) = true -> bound_path p = true)
    | None => no_assign e1 = true end).
  { destruct (split_assign e1) as [[p r]|]; [|exact IHe1]. destruct IHe1 as [H1 H2]. cbn [option_map fst snd toks_expr]. rewrite H1, <- app_assoc.
    split; [reflexivity|]. cbn [bound]. rewrite !andb_true_iff. tauto. }
  destruct o; try exact HG. destruct e1; try exact HG. split; [reflexivity|]. cbn [bound]. rewrite !andb_true_iff. tauto.
Qed.
Definition regroup_loopexp (l : loopexp) : loopexp :=
  match l with
  | LPath p => LPath (regroup_path p)
  | LNew c => LNew (regroup_new c)
  | LParNew c => LParNew (regroup_new c)
  | LTern c t f => LTern (regroup c) (regroup t) (regroup f)
  end.
Fixpoint regroup_stmt (s : cstmt) : cstmt :=
  match s with
  | CAssign p e => CAssign (regroup_path p) (regroup e)
  | CExpr e => match split_assign (regroup e) with Some (p, r) => CAssign p (regroup r) | None => CExpr (regroup e) end
  | CIf e b l c => CIf (regroup e) (regroup_block b) (regroup_elseifs l) (regroup_else c)
  | CForEach v l b => CForEach v (regroup_loopexp l) (regroup_block b)
  | CFor e1 e2 b => CFor (regroup e1) (regroup e2) (regroup_block b)
  | CWhile e b => CWhile (regroup e) (regroup_block b)
  | CTry b c => CTry (regroup_block b) (regroup_block c)
  | CContinue => CContinue
  | CBreak => CBreak
  | CThrow o => CThrow (regroup_oexpr o)
  | CReturn o => CReturn (regroup_oexpr o)
  end
with regroup_block (b : block) : block :=
  match b with
  | BNil => BNil
  | BOne s => BOne (regroup_stmt s)
  | BSkip b x => BSkip (regroup_block b) x
  | BSnoc b x s => BSnoc (regroup_block b) x (regroup_stmt s)
  end
with regroup_elseifs (l : elseifs) : elseifs :=
  match l with EINil => EINil | EICons e b l => EICons (regroup e) (regroup_block b) (regroup_elseifs l) end
with regroup_else (c : celse) : celse :=
  match c with NoElse => NoElse | Else b => Else (regroup_block b) end.
Lemma regroup_stmts_toks :
  (forall e, toks_stmt (regroup_stmt e) = toks_stmt e) /\ (forall e, toks_block (regroup_block e) = toks_block e) /\
  (forall e, toks_elseifs (regroup_elseifs e) = toks_elseifs e) /\ (forall e, toks_else (regroup_else e) = toks_else e).
Proof.
  destruct regroup_toks as (R1 & R2 & _ & R4 & _ & R6).
  assert (R7 : forall l, toks_loopexp (regroup_loopexp l) = toks_loopexp l)
    by (intros []; cbn [regroup_loopexp toks_loopexp toks_expr]; rewrite ?R1, ?R2, ?R4; reflexivity).
  apply stmt_all; intros; cbn [regroup_stmt regroup_block regroup_elseifs regroup_else toks_stmt toks_block toks_elseifs toks_else]; rewrite ?R1, ?R2, ?R4, ?R6, ?R7;
    repeat match goal with H : _ = _ |- _ => rewrite H; clear H end; try reflexivity.
  - pose proof (split_assign_spec (regroup e)) as H. destruct (split_assign (regroup e)) as [[p r]|]; cbn [toks_stmt]; rewrite R1; [|reflexivity].
    rewrite R1 in H. symmetry. apply H.
Qed.
Lemma regroup_stmts_bound :
  (forall e, bound_stmt (regroup_stmt e) = true) /\ (forall e, bound_block (regroup_block e) = true) /\
  (forall e, bound_elseifs (regroup_elseifs e) = true) /\ (forall e, bound_else (regroup_else e) = true).
Proof.
  destruct regroup_bound as (R1 & R2 & _ & R4 & _ & R6).
  apply stmt_all; intros; cbn [regroup_stmt regroup_block regroup_elseifs regroup_else bound_stmt bound_block bound_elseifs bound_else]; rewrite ?andb_true_iff; auto.
  - pose proof (split_assign_spec (regroup e)) as H. destruct (split_assign (regroup e)) as [[p r]|]; cbn [bound_stmt]; rewrite R1; [|rewrite H; reflexivity].
    rewrite (proj2 H (R1 e)). reflexivity.
  - split; [|assumption]. destruct l; cbn [regroup_loopexp bound_loopexp]; rewrite ?R1, ?R2, ?R4; reflexivity.
Qed.

Definition regroup_func (f : cfunc) : cfunc :=
  CFunc (cf_dir f) (cf_function f) (cf_name f) (cf_params f) (cf_export f) (cf_vars f) (regroup_block (cf_body f)).
Fixpoint regroup_items (l : items) : items :=
  match l with
  | INil => INil
  | ISnoc l i => ISnoc (regroup_items l) (match i with IFunc f => IFunc (regroup_func f) | IVars _ _ _ => i end)
  end.
Definition regroup_program (p : program) : program := Program (regroup_items (pr_items p)) (regroup_block (pr_body p)).
Lemma regroup_funcs l : item_funcs (regroup_items l) = map regroup_func (item_funcs l).
Proof. induction l as [|l IH i]; [reflexivity|]. cbn [regroup_items item_funcs]. destruct i; rewrite IH, ?map_app; reflexivity. Qed.
Theorem regroup_program_toks p : toks_program (regroup_program p) = toks_program p.
Proof.
  destruct regroup_stmts_toks as (_ & R & _). unfold toks_program, regroup_program. cbn [pr_items pr_body]. rewrite R. f_equal.
  induction (pr_items p) as [|l IH i]; [reflexivity|]. cbn [regroup_items toks_items]. rewrite IH. f_equal. destruct i; [reflexivity|].
  cbn [toks_item]. unfold toks_func, regroup_func. cbn [cf_dir cf_function cf_name cf_params cf_export cf_vars cf_body]. rewrite R. reflexivity.
Qed.
(** Grouping needs the default values of parameters to be grouped already: an operator
    after a signed default value has no place to go. *)
Definition defaults_bound (p : program) : bool := forallb (fun f => bound_params (cf_params f)) (item_funcs (pr_items p)).
Theorem regroup_program_bound p : defaults_bound p = true -> bound_program (regroup_program p) = true.
Proof.
  destruct regroup_stmts_bound as (_ & R & _). unfold defaults_bound, bound_program, regroup_program. cbn [pr_items pr_body]. rewrite R, regroup_funcs, andb_true_r.
  induction (item_funcs (pr_items p)) as [|f l IH]; [reflexivity|]. cbn [map forallb]. rewrite !andb_true_iff. intros [H1 H2].
  unfold regroup_func at 1 2. cbn [cf_params cf_body]. rewrite R. auto.
Qed.
Theorem regroup_program_defaults p : defaults_ok (regroup_program p) = defaults_ok p.
Proof.
  unfold defaults_ok, regroup_program. cbn [pr_items]. rewrite regroup_funcs.
  induction (item_funcs (pr_items p)) as [|f l IH]; [reflexivity|]. cbn [map forallb]. rewrite IH. reflexivity.
Qed.
