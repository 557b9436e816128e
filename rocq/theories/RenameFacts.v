(** Renaming programs: tokens, trees and rules. *)
From Verif Require Import Bytes Utf8 Float64 GoTime Ast Lexer Tok Syntax Levels Rules RulesFacts Legal Rename.
From Verif Require Import Syntax Tok.

Section R.
Context (r : ren).
Fixpoint rn_expr (e : expr) : expr :=
  match e with
  | EStr s => EStr (r_str r s) | ENum f => ENum (r_num r f) | EDate d => EDate (r_date r d)
  | ETrue => ETrue | EFalse => EFalse | EUndef => EUndef
  | ELabel n => ELabel (r_label r n)
  | ENeg e => ENeg (rn_expr e) | EPos e => EPos (rn_expr e) | ENot e => ENot (rn_expr e)
  | EBin o x y => EBin o (rn_expr x) (rn_expr y)
  | EParen l => EParen (rn_args l)
  | ENew c => ENew (rn_new c)
  | EGoto n => EGoto (r_label r n)
  | ETern c t f => ETern (rn_expr c) (rn_expr t) (rn_expr f)
  | EPath p => EPath (rn_path p)
  end
with rn_path (p : path) : path :=
  match p with PId i => PId (rn_ident i) | PDot p i => PDot (rn_path p) (rn_ident i) end
with rn_ident (i : ident) : ident :=
  match i with
  | IVar n => IVar (r_name r n)
  | ICall n l => ICall (r_name r n) (rn_args l)
  | IIndex i e => IIndex (rn_ident i) (rn_expr e)
  | IExecStr w s => IExecStr (r_name r w) (r_str r s)
  | IExecVar w n => IExecVar (r_name r w) (r_name r n)
  | IExec w e => IExec (r_name r w) (rn_expr e)
  end
with rn_new (c : newexp) : newexp :=
  match c with
  | NewName n => NewName (r_name r n)
  | NewCall n l => NewCall (r_name r n) (rn_args l)
  | NewArgs l => NewArgs (rn_args l)
  end
with rn_args (l : args) : args :=
  match l with AOne o => AOne (rn_oexpr o) | AMore l o => AMore (rn_args l) (rn_oexpr o) end
with rn_oexpr (o : oexpr) : oexpr :=
  match o with ONone => ONone | OSome e => OSome (rn_expr e) end.
Definition rn_loopexp (l : loopexp) : loopexp :=
  match l with
  | LPath p => LPath (rn_path p) | LNew c => LNew (rn_new c) | LParNew c => LParNew (rn_new c)
  | LTern c t f => LTern (rn_expr c) (rn_expr t) (rn_expr f)
  end.
Fixpoint rn_stmt (s : cstmt) : cstmt :=
  match s with
  | CAssign p e => CAssign (rn_path p) (rn_expr e)
  | CExpr e => CExpr (rn_expr e)
  | CIf e b l c => CIf (rn_expr e) (rn_block b) (rn_elseifs l) (rn_else c)
  | CForEach v l b => CForEach (r_name r v) (rn_loopexp l) (rn_block b)
  | CFor e1 e2 b => CFor (rn_expr e1) (rn_expr e2) (rn_block b)
  | CWhile e b => CWhile (rn_expr e) (rn_block b)
  | CTry b c => CTry (rn_block b) (rn_block c)
  | CContinue => CContinue | CBreak => CBreak
  | CThrow o => CThrow (rn_oexpr o)
  | CReturn o => CReturn (rn_oexpr o)
  end
with rn_block (b : block) : block :=
  match b with
  | BNil => BNil
  | BOne s => BOne (rn_stmt s)
  | BSkip b x => BSkip (rn_block b) x
  | BSnoc b x s => BSnoc (rn_block b) x (rn_stmt s)
  end
with rn_elseifs (l : elseifs) : elseifs :=
  match l with EINil => EINil | EICons e b l => EICons (rn_expr e) (rn_block b) (rn_elseifs l) end
with rn_else (c : celse) : celse :=
  match c with NoElse => NoElse | Else b => Else (rn_block b) end.
Fixpoint rn_names (l : names) : names :=
  match l with Name n => Name (r_name r n) | Names l n => Names (rn_names l) (r_name r n) end.
Fixpoint rn_param (p : cparam) : cparam :=
  match p with Par n => Par (r_name r n) | ParVal n => ParVal (r_name r n) | ParDef p e => ParDef (rn_param p) (rn_expr e) end.
Fixpoint rn_params (l : cparams) : cparams :=
  match l with PNil => PNil | POne p => POne (rn_param p) | PSnoc l p => PSnoc (rn_params l) (rn_param p) end.
Fixpoint rn_vars (v : cvars) : cvars :=
  match v with VNil => VNil | VSnoc v l => VSnoc (rn_vars v) (rn_names l) end.
Definition rn_func (f : cfunc) : cfunc :=
  CFunc (option_map (r_dir r) (cf_dir f)) (cf_function f) (r_name r (cf_name f)) (rn_params (cf_params f)) (cf_export f)
        (rn_vars (cf_vars f)) (rn_block (cf_body f)).
Definition rn_item (i : item) : item :=
  match i with
  | IVars d l x => IVars (option_map (r_dir r) d) (rn_names l) x
  | IFunc f => IFunc (rn_func f)
  end.
Fixpoint rn_items (l : items) : items :=
  match l with INil => INil | ISnoc l i => ISnoc (rn_items l) (rn_item i) end.
Definition rn_program (p : program) : program := Program (rn_items (pr_items p)) (rn_block (pr_body p)).

(** * Tokens *)
Notation rt := (map (ren_tk r)).
Ltac unf := cbn [rn_expr rn_path rn_ident rn_new rn_args rn_oexpr rn_stmt rn_block rn_elseifs rn_else
  toks_expr toks_path toks_ident toks_new toks_args toks_oexpr toks_stmt toks_block toks_elseifs toks_else].
Ltac tk := repeat (progress (rewrite ?map_app; cbn [map ren_tk Pct])); repeat match goal with H : _ = _ |- _ => rewrite H; clear H end; reflexivity.
Lemma rn_toks_exprs :
  (forall e, toks_expr (rn_expr e) = rt (toks_expr e)) /\ (forall e, toks_path (rn_path e) = rt (toks_path e)) /\
  (forall e, toks_ident (rn_ident e) = rt (toks_ident e)) /\ (forall e, toks_new (rn_new e) = rt (toks_new e)) /\
  (forall e, toks_args (rn_args e) = rt (toks_args e)) /\ (forall e, toks_oexpr (rn_oexpr e) = rt (toks_oexpr e)).
Proof. apply expr_all; intros; unf; tk. Qed.
Lemma rn_toks_loopexp l : toks_loopexp (rn_loopexp l) = rt (toks_loopexp l).
Proof.
  destruct rn_toks_exprs as (A & B & C & D & E & F). destruct l; cbn [rn_loopexp toks_loopexp toks_expr];
  repeat (progress (rewrite ?map_app; cbn [map ren_tk Pct])); rewrite ?A, ?B, ?D; reflexivity.
Qed.
Lemma rn_toks_stmts :
  (forall s, toks_stmt (rn_stmt s) = rt (toks_stmt s)) /\ (forall b, toks_block (rn_block b) = rt (toks_block b)) /\
  (forall l, toks_elseifs (rn_elseifs l) = rt (toks_elseifs l)) /\ (forall c, toks_else (rn_else c) = rt (toks_else c)).
Proof.
  destruct rn_toks_exprs as (A & B & C & D & E & F).
  apply stmt_all; intros; unf; rewrite ?rn_toks_loopexp, ?A, ?B, ?F; repeat (progress (rewrite ?map_app; cbn [map ren_tk Pct]));
  repeat match goal with H : toks_block _ = _ |- _ => rewrite H; clear H | H : toks_stmt _ = _ |- _ => rewrite H; clear H | H : toks_elseifs _ = _ |- _ => rewrite H; clear H | H : toks_else _ = _ |- _ => rewrite H; clear H end;
  try match goal with x : sep |- _ => destruct x end; reflexivity.
Qed.
Lemma rn_toks_names l : toks_names (rn_names l) = rt (toks_names l).
Proof. induction l; cbn [rn_names toks_names]; rewrite ?map_app, ?IHl; reflexivity. Qed.
Lemma rn_toks_param p : toks_param (rn_param p) = rt (toks_param p).
Proof. destruct rn_toks_exprs as (A & _). induction p; cbn [rn_param toks_param]; rewrite ?map_app, ?IHp; cbn [map ren_tk]; rewrite ?A; reflexivity. Qed.
Lemma rn_toks_params p : toks_params (rn_params p) = rt (toks_params p).
Proof. induction p; cbn [rn_params toks_params]; rewrite ?map_app, ?IHp; cbn [map ren_tk Pct]; rewrite ?rn_toks_param; reflexivity. Qed.
Lemma rn_toks_vars v : toks_vars (rn_vars v) = rt (toks_vars v).
Proof. induction v; cbn [rn_vars toks_vars]; rewrite ?map_app, ?IHv; cbn [map ren_tk Pct]; rewrite ?map_app, ?rn_toks_names; reflexivity. Qed.
Lemma rn_toks_dir d : toks_dir (option_map (r_dir r) d) = rt (toks_dir d).
Proof. destruct d; reflexivity. Qed.
Lemma rn_toks_export b : toks_export b = rt (toks_export b).
Proof. destruct b; reflexivity. Qed.
Lemma rn_toks_item i : toks_item (rn_item i) = rt (toks_item i).
Proof.
  destruct i as [d l x|f]; cbn [rn_item toks_item].
  - repeat (progress (rewrite ?map_app; cbn [map ren_tk Pct])). rewrite rn_toks_dir, rn_toks_names, <- rn_toks_export. reflexivity.
  - unfold toks_func, rn_func. cbn [cf_dir cf_function cf_name cf_params cf_export cf_vars cf_body].
    repeat (progress (rewrite ?map_app; cbn [map ren_tk Pct])). rewrite rn_toks_dir, rn_toks_params, <- rn_toks_export, rn_toks_vars.
    destruct rn_toks_stmts as (_ & R & _). rewrite R. destruct (cf_function f); reflexivity.
Qed.
Lemma rn_toks_items l : toks_items (rn_items l) = rt (toks_items l).
Proof. induction l; cbn [rn_items toks_items]; rewrite ?map_app, ?IHl, ?rn_toks_item; reflexivity. Qed.
Lemma rn_toks_program p : toks_program (rn_program p) = rt (toks_program p).
Proof. unfold toks_program. cbn [rn_program pr_items pr_body]. rewrite map_app, rn_toks_items. destruct rn_toks_stmts as (_ & R & _). rewrite R. reflexivity. Qed.

(** * Back from the renamed tokens *)
Lemma map_cons_inv l t l' : rt l = t :: l' -> exists t0 l0, l = t0 :: l0 /\ ren_tk r t0 = t /\ rt l0 = l'.
Proof. destruct l as [|t0 l0]; cbn [map]; intros H; [discriminate H|]. injection H as <- <-. eauto. Qed.
Lemma ren_K t c : ren_tk r t = K c -> t = K c. Proof. destruct t; cbn; congruence. Qed.
Lemma ren_Id t n : ren_tk r t = KId n -> exists m, t = KId m /\ r_name r m = n. Proof. destruct t; cbn; try congruence. intros [= <-]. eauto. Qed.
Lemma ren_Exec t n : ren_tk r t = KExec n -> exists m, t = KExec m /\ r_name r m = n. Proof. destruct t; cbn; try congruence. intros [= <-]. eauto. Qed.
Lemma ren_Dir t n : ren_tk r t = KDir n -> exists m, t = KDir m /\ r_dir r m = n. Proof. destruct t; cbn; try congruence. intros [= <-]. eauto. Qed.
Lemma ren_Label t n : ren_tk r t = KLabel n -> exists m, t = KLabel m /\ r_label r m = n. Proof. destruct t; cbn; try congruence. intros [= <-]. eauto. Qed.
Lemma ren_Str t n : ren_tk r t = KStr n -> exists m, t = KStr m /\ r_str r m = n. Proof. destruct t; cbn; try congruence. intros [= <-]. eauto. Qed.
Lemma ren_Num t n : ren_tk r t = KNum n -> exists m, t = KNum m /\ r_num r m = n. Proof. destruct t; cbn; try congruence. intros [= <-]. eauto. Qed.
Lemma ren_Date t n : ren_tk r t = KDate n -> exists m, t = KDate m /\ r_date r m = n. Proof. destruct t; cbn; try congruence. intros [= <-]. eauto. Qed.
Ltac back1 := match goal with
  | H : rt _ = _ ++ _ |- _ => apply map_eq_app in H as (? & ? & -> & ? & ?)
  | H : rt _ = _ :: _ |- _ => apply map_cons_inv in H as (? & ? & -> & ? & ?)
  | H : rt _ = [] |- _ => apply map_eq_nil in H as ->
  | H : ren_tk r _ = K _ |- _ => apply ren_K in H as ->
  | H : ren_tk r _ = KId _ |- _ => apply ren_Id in H as (? & -> & <-)
  | H : ren_tk r _ = KExec _ |- _ => apply ren_Exec in H as (? & -> & <-)
  | H : ren_tk r _ = KDir _ |- _ => apply ren_Dir in H as (? & -> & <-)
  | H : ren_tk r _ = KLabel _ |- _ => apply ren_Label in H as (? & -> & <-)
  | H : ren_tk r _ = KStr _ |- _ => apply ren_Str in H as (? & -> & <-)
  | H : ren_tk r _ = KNum _ |- _ => apply ren_Num in H as (? & -> & <-)
  | H : ren_tk r _ = KDate _ |- _ => apply ren_Date in H as (? & -> & <-)
  end.
Ltac back := unfold Pct in *; cbn [unlit] in *; repeat back1.
Definition un {A} (toks : A -> list tk) (rn : A -> A) (x : A) : Prop := forall l, rt l = toks x -> exists y, toks y = l /\ rn y = x.
Ltac use := repeat match goal with
  | U : un ?t ?f ?x, H : rt _ = ?t ?x |- _ => apply U in H as (? & <- & <-)
  end.
Ltac go := intros; match goal with |- un _ _ _ => idtac end; intros ? ?; cbn [toks_expr toks_path toks_ident toks_new toks_args toks_oexpr toks_stmt toks_block toks_elseifs toks_else toks_loopexp] in *; back; use.
Lemma un_exprs :
  (forall e, un toks_expr rn_expr e) /\ (forall e, un toks_path rn_path e) /\ (forall e, un toks_ident rn_ident e) /\
  (forall e, un toks_new rn_new e) /\ (forall e, un toks_args rn_args e) /\ (forall e, un toks_oexpr rn_oexpr e).
Proof.
  apply expr_all; go.
  - eexists (EStr _); split; reflexivity.
  - eexists (ENum _); split; reflexivity.
  - eexists (EDate _); split; reflexivity.
  - exists ETrue; split; reflexivity.
  - exists EFalse; split; reflexivity.
  - exists EUndef; split; reflexivity.
  - eexists (ELabel _); split; reflexivity.
  - eexists (ENeg _); split; reflexivity.
  - eexists (EPos _); split; reflexivity.
  - eexists (ENot _); split; reflexivity.
  - eexists (EBin _ _ _); split; reflexivity.
  - eexists (EParen _); split; reflexivity.
  - eexists (ENew _); split; reflexivity.
  - eexists (EGoto _); split; reflexivity.
  - eexists (ETern _ _ _); split; reflexivity.
  - eexists (EPath _); split; reflexivity.
  - eexists (PId _); split; reflexivity.
  - eexists (PDot _ _); split; reflexivity.
  - eexists (IVar _); split; reflexivity.
  - eexists (ICall _ _); split; reflexivity.
  - eexists (IIndex _ _); split; reflexivity.
  - eexists (IExecStr _ _); split; reflexivity.
  - eexists (IExecVar _ _); split; reflexivity.
  - eexists (IExec _ _); split; reflexivity.
  - eexists (NewName _); split; reflexivity.
  - eexists (NewCall _ _); split; reflexivity.
  - eexists (NewArgs _); split; reflexivity.
  - eexists (AOne _); split; reflexivity.
  - eexists (AMore _ _); split; reflexivity.
  - exists ONone; split; reflexivity.
  - eexists (OSome _); split; reflexivity.
Qed.
Ltac known := pose proof (proj1 un_exprs) as UE; pose proof (proj1 (proj2 un_exprs)) as UP; pose proof (proj1 (proj2 (proj2 (proj2 un_exprs)))) as UN;
  pose proof (proj2 (proj2 (proj2 (proj2 (proj2 un_exprs))))) as UO.
Ltac usek := repeat match goal with
  | U : forall _, un ?t ?f _, H : rt _ = ?t ?x |- _ => apply (U x) in H as (? & <- & <-)
  end.
Lemma un_loopexp l : un toks_loopexp rn_loopexp l.
Proof.
  known. destruct l; go; usek.
  - eexists (LPath _); split; reflexivity.
  - eexists (LNew _); split; reflexivity.
  - eexists (LParNew _); split; reflexivity.
  - eexists (LTern _ _ _); split; reflexivity.
Qed.
Lemma un_sep x t : ren_tk r t = toks_sep x -> t = toks_sep x.
Proof. destruct x; apply ren_K. Qed.
Lemma un_stmts :
  (forall e, un toks_stmt rn_stmt e) /\ (forall e, un toks_block rn_block e) /\ (forall e, un toks_elseifs rn_elseifs e) /\ (forall e, un toks_else rn_else e).
Proof.
  known. pose proof un_loopexp as UL. apply stmt_all; go; usek; try match goal with H : ren_tk r _ = toks_sep _ |- _ => apply un_sep in H as -> end.
  - eexists (CAssign _ _); split; reflexivity.
  - eexists (CExpr _); split; reflexivity.
  - eexists (CIf _ _ _ _); split; reflexivity.
  - eexists (CForEach _ _ _); split; reflexivity.
  - eexists (CFor _ _ _); split; reflexivity.
  - eexists (CWhile _ _); split; reflexivity.
  - eexists (CTry _ _); split; reflexivity.
  - exists CContinue; split; reflexivity.
  - exists CBreak; split; reflexivity.
  - eexists (CThrow _); split; reflexivity.
  - eexists (CReturn _); split; reflexivity.
  - exists BNil; split; reflexivity.
  - eexists (BOne _); split; reflexivity.
  - eexists (BSkip _ _); split; reflexivity.
  - eexists (BSnoc _ _ _); split; reflexivity.
  - exists EINil; split; reflexivity.
  - eexists (EICons _ _ _); split; reflexivity.
  - exists NoElse; split; reflexivity.
  - eexists (Else _); split; reflexivity.
Qed.
Lemma un_names x : un toks_names rn_names x.
Proof. induction x; intros lt Hl; cbn [toks_names] in Hl; back; use; [eexists (Name _)|eexists (Names _ _)]; split; reflexivity. Qed.
Lemma un_param x : un toks_param rn_param x.
Proof. known. induction x; intros lt Hl; cbn [toks_param] in Hl; back; use; usek; [eexists (Par _)|eexists (ParVal _)|eexists (ParDef _ _)]; split; reflexivity. Qed.
Lemma un_params x : un toks_params rn_params x.
Proof. pose proof un_param as U. induction x; intros lt Hl; cbn [toks_params] in Hl; back; use; usek; [exists PNil|eexists (POne _)|eexists (PSnoc _ _)]; split; reflexivity. Qed.
Lemma un_vars x : un toks_vars rn_vars x.
Proof. pose proof un_names as U. induction x; intros lt Hl; cbn [toks_vars] in Hl; back; use; usek; [exists VNil|eexists (VSnoc _ _)]; split; reflexivity. Qed.
Lemma un_dir x : un toks_dir (option_map (r_dir r)) x.
Proof. destruct x; intros lt Hl; cbn [toks_dir] in Hl; back; [eexists (Some _)|exists None]; split; reflexivity. Qed.
Lemma un_export x : un toks_export (fun b => b) x.
Proof. destruct x; intros lt Hl; cbn [toks_export] in Hl; back; [exists true|exists false]; split; reflexivity. Qed.
Lemma un_item x : un toks_item rn_item x.
Proof.
  pose proof un_names as U1. pose proof un_params as U2. pose proof un_vars as U3. pose proof un_dir as U4. pose proof un_export as U5.
  pose proof (proj1 (proj2 un_stmts)) as U6. destruct x as [d n ex|[d fn n ps ex vs b]]; intros lt Hl; cbn [toks_item] in Hl; unfold toks_func in Hl;
  cbn [cf_dir cf_function cf_name cf_params cf_export cf_vars cf_body] in Hl; back; usek.
  - eexists (IVars _ _ _). cbn [toks_item rn_item]. split; reflexivity.
  - eexists (IFunc (CFunc _ fn _ _ _ _ _)). unfold toks_item, rn_item, toks_func, rn_func. cbn [cf_dir cf_function cf_name cf_params cf_export cf_vars cf_body]. split; reflexivity.
Qed.
Lemma un_items x : un toks_items rn_items x.
Proof. pose proof un_item as U. induction x; intros lt Hl; cbn [toks_items] in Hl; back; use; usek; [exists INil|eexists (ISnoc _ _)]; split; reflexivity. Qed.
Lemma un_program x : un toks_program rn_program x.
Proof.
  pose proof un_items as U. pose proof (proj1 (proj2 un_stmts)) as U6. destruct x as [i b]. intros lt Hl. unfold toks_program in Hl. cbn [pr_items pr_body] in Hl. back. usek.
  eexists (Program _ _); split; reflexivity.
Qed.

(** * Trees *)
Notation rs := (ren_stmt r).
Notation rss := (option_map (map rs)).
Lemma rn_mark_not s : rs (mark_not s) = mark_not (rs s).
Proof. destruct s; reflexivity. Qed.
Lemma rn_mark_minus s : (forall f, r_num r (f64_opp f) = f64_opp (r_num r f)) -> rs (mark_minus s) = mark_minus (rs s).
Proof. intros H. destruct s; try reflexivity. cbn. rewrite H. reflexivity. Qed.
Lemma mean_paths : (forall e : expr, True) /\ (forall p, mean_path p <> SNil) /\ (forall i, mean_ident i <> SNil) /\ (forall c, mean_new c <> SNil) /\ (forall l : args, True) /\ (forall o : oexpr, True).
Proof. apply expr_all; intros; try exact I; cbn; try discriminate; assumption. Qed.
Lemma mean_loopexp_some l : mean_loopexp l <> SNil.
Proof. destruct mean_paths as (_ & A & _ & B & _). destruct l; cbn; auto. discriminate. Qed.
Lemma rn_slice l : slice_of (map rs l) = rss (slice_of l).
Proof. destruct l; reflexivity. Qed.
Section T.
Context (H0 : r_name r [] = []) (H1 : r_dir r [] = []) (H2 : forall f, r_num r (f64_opp f) = f64_opp (r_num r f)).
Lemma rn_mean_exprs :
  (forall e, mean_expr (rn_expr e) = rs (mean_expr e)) /\ (forall e, mean_path (rn_path e) = rs (mean_path e)) /\
  (forall e, mean_ident (rn_ident e) = rs (mean_ident e)) /\ (forall e, mean_new (rn_new e) = rs (mean_new e)) /\
  (forall e, mean_args (rn_args e) = map rs (mean_args e)) /\ (forall e, mean_oexpr (rn_oexpr e) = rs (mean_oexpr e)).
Proof.
  apply expr_all; intros; cbn [rn_expr rn_path rn_ident rn_new rn_args rn_oexpr mean_expr mean_path mean_ident mean_new mean_args mean_oexpr];
  rewrite ?rn_mark_not, ?rn_mark_minus by exact H2; rewrite ?map_app; cbn [ren_stmt option_map map]; rewrite ?H0;
  repeat match goal with H : _ = rs _ |- _ => rewrite H; clear H | H : _ = map rs _ |- _ => rewrite H; clear H end; reflexivity.
Qed.
Lemma rn_mean_loopexp l : mean_loopexp (rn_loopexp l) = rs (mean_loopexp l).
Proof. destruct rn_mean_exprs as (A & B & _ & C & _). destruct l; cbn [rn_loopexp mean_loopexp ren_stmt]; rewrite ?A, ?B, ?C; reflexivity. Qed.
Lemma rn_mean_stmts :
  (forall e, mean_stmt (rn_stmt e) = rs (mean_stmt e)) /\ (forall e, mean_block (rn_block e) = map rs (mean_block e)) /\
  (forall e, mean_elseifs (rn_elseifs e) = map rs (mean_elseifs e)) /\ (forall e, mean_else (rn_else e) = rss (mean_else e)).
Proof.
  destruct rn_mean_exprs as (A & B & _ & _ & _ & F).
  apply stmt_all; intros; cbn [rn_stmt rn_block rn_elseifs rn_else mean_stmt mean_block mean_elseifs mean_else];
  rewrite ?rn_mean_loopexp, ?A, ?B, ?F;
  repeat match goal with H : mean_stmt (rn_stmt _) = _ |- _ => rewrite H; clear H | H : mean_block _ = _ |- _ => rewrite H; clear H
    | H : mean_elseifs _ = _ |- _ => rewrite H; clear H | H : mean_else _ = _ |- _ => rewrite H; clear H end;
  rewrite ?rn_slice, <- ?map_rev; cbn [ren_stmt option_map map]; rewrite ?map_app, ?map_rev; try reflexivity.
  pose proof (mean_loopexp_some l) as X. destruct (mean_loopexp l); try reflexivity. congruence.
Qed.
Lemma rn_name_list l : name_list (rn_names l) = map (r_name r) (name_list l).
Proof. induction l; cbn [rn_names name_list]; rewrite ?map_app, ?IHl; reflexivity. Qed.
Definition ren_param (p : param) : param := (rs (fst (fst p)), r_name r (snd (fst p)), snd p).
Lemma rn_mean_param p : mean_param (rn_param p) = ren_param (mean_param p).
Proof.
  destruct rn_mean_exprs as (A & _). induction p; cbn [rn_param mean_param]; try reflexivity.
  rewrite IHp. destruct (mean_param p) as [[x n] b]. unfold ren_param. cbn [fst snd]. rewrite A. reflexivity.
Qed.
Lemma rn_mean_params p : mean_params (rn_params p) = map ren_param (mean_params p).
Proof. induction p; cbn [rn_params mean_params]; rewrite ?map_app, ?IHp, ?rn_mean_param; reflexivity. Qed.
Lemma rn_mean_vars v : mean_vars (rn_vars v) = map (r_name r) (mean_vars v).
Proof. induction v; cbn [rn_vars mean_vars]; rewrite ?map_app, ?IHv, ?rn_name_list; reflexivity. Qed.
Lemma rn_mean_func f : mean_func (rn_func f) = rs (mean_func f).
Proof.
  destruct rn_mean_stmts as (_ & B & _). unfold mean_func, mean_func_with, rn_func. cbn [cf_dir cf_function cf_name cf_params cf_export cf_vars cf_body].
  cbn [ren_stmt option_map]. rewrite rn_mean_vars, rn_mean_params, B, rn_slice. f_equal. destruct (cf_dir f); cbn [option_map]; congruence.
Qed.
Lemma rn_gvars l : item_gvars (rn_items l) = map (ren_gvar r) (item_gvars l).
Proof.
  induction l as [|l IH [d n x|f]]; cbn [rn_items rn_item item_gvars]; [reflexivity| |exact IH]. rewrite map_app, IH. f_equal.
  unfold mean_gvars. rewrite rn_name_list, !map_map. apply map_ext. intros m. unfold ren_gvar. cbn [gv_dir gv_name gv_export]. f_equal.
  destruct d; cbn [option_map]; congruence.
Qed.
Lemma rn_funcs l : item_funcs (rn_items l) = map rn_func (item_funcs l).
Proof. induction l as [|l IH [d n x|f]]; cbn [rn_items rn_item item_funcs]; [reflexivity|exact IH|]. rewrite map_app, IH. reflexivity. Qed.
Lemma rn_mean_program p : mean_program (rn_program p) = ren_module r (mean_program p).
Proof.
  destruct rn_mean_stmts as (_ & B & _). unfold mean_program, ren_module, rn_program. cbn [pr_items pr_body m_name m_gvars m_body].
  rewrite rn_gvars, rn_funcs, B, <- rn_slice, map_app, !map_map. f_equal.
  - destruct (item_gvars (pr_items p)); reflexivity.
  - do 2 f_equal. apply map_ext. intros f. apply rn_mean_func.
Qed.
End T.

(** * Rules *)
Lemma rn_simple e : simple (rn_expr e) = simple e. Proof. destruct e; reflexivity. Qed.
Lemma rn_left_above n e : left_above n (rn_expr e) = left_above n e.
Proof. induction e; cbn [rn_expr left_above]; try reflexivity. rewrite IHe1. reflexivity. Qed.
Lemma rn_right_above n e : right_above n (rn_expr e) = right_above n e.
Proof. induction e; cbn [rn_expr right_above]; try reflexivity; congruence. Qed.
Lemma rn_bounds :
  (forall e, bound (rn_expr e) = bound e) /\ (forall e, bound_path (rn_path e) = bound_path e) /\
  (forall e, bound_ident (rn_ident e) = bound_ident e) /\ (forall e, bound_new (rn_new e) = bound_new e) /\
  (forall e, bound_args (rn_args e) = bound_args e) /\ (forall e, bound_oexpr (rn_oexpr e) = bound_oexpr e).
Proof.
  apply expr_all; intros; cbn [rn_expr rn_path rn_ident rn_new rn_args rn_oexpr bound bound_path bound_ident bound_new bound_args bound_oexpr];
  rewrite ?rn_left_above, ?rn_right_above; congruence.
Qed.
Lemma rn_no_assign e : no_assign (rn_expr e) = no_assign e.
Proof. induction e; cbn [rn_expr no_assign]; try reflexivity. destruct o; try exact IHe1. destruct e1; cbn [rn_expr]; try reflexivity; exact IHe1. Qed.
Lemma rn_bound_loopexp l : bound_loopexp (rn_loopexp l) = bound_loopexp l.
Proof. destruct rn_bounds as (A & B & _ & C & _). destruct l; cbn [rn_loopexp bound_loopexp]; rewrite ?A, ?B, ?C; reflexivity. Qed.
Lemma rn_bound_stmts :
  (forall e, bound_stmt (rn_stmt e) = bound_stmt e) /\ (forall e, bound_block (rn_block e) = bound_block e) /\
  (forall e, bound_elseifs (rn_elseifs e) = bound_elseifs e) /\ (forall e, bound_else (rn_else e) = bound_else e).
Proof.
  destruct rn_bounds as (A & B & _ & _ & _ & F).
  apply stmt_all; intros; cbn [rn_stmt rn_block rn_elseifs rn_else bound_stmt bound_block bound_elseifs bound_else];
  rewrite ?rn_bound_loopexp, ?A, ?B, ?F, ?rn_no_assign; congruence.
Qed.
Lemma rn_bound_params l : bound_params (rn_params l) = bound_params l.
Proof.
  assert (P : forall p, bound_param (rn_param p) = bound_param p).
  { destruct rn_bounds as (A & _). induction p as [| |p IH e]; cbn [rn_param bound_param]; try reflexivity. rewrite IH, A. f_equal. f_equal.
    destruct p; cbn [rn_param param_right]; rewrite ?rn_right_above; reflexivity. }
  induction l; cbn [rn_params bound_params]; rewrite ?IHl, ?P; reflexivity.
Qed.
Lemma rn_simple_params l : simple_params (rn_params l) = simple_params l.
Proof.
  assert (P : forall p, simple_param (rn_param p) = simple_param p) by (induction p; cbn [rn_param simple_param]; rewrite ?IHp, ?rn_simple; reflexivity).
  induction l; cbn [rn_params simple_params]; rewrite ?IHl, ?P; reflexivity.
Qed.
Lemma forallb_fun {A B} (f : A -> B) (P : B -> bool) (Q : A -> bool) l : (forall x, P (f x) = Q x) -> forallb P (map f l) = forallb Q l.
Proof. intros H. induction l; cbn [map forallb]; rewrite ?IHl, ?H; reflexivity. Qed.
Lemma rn_defaults p : defaults_ok (rn_program p) = defaults_ok p.
Proof. unfold defaults_ok. cbn [rn_program pr_items]. rewrite rn_funcs. apply forallb_fun. intros f. apply rn_simple_params. Qed.
Lemma rn_bound p : bound_program (rn_program p) = bound_program p.
Proof.
  destruct rn_bound_stmts as (_ & B & _). unfold bound_program. cbn [rn_program pr_items pr_body]. rewrite rn_funcs, B. f_equal. apply forallb_fun.
  intros f. cbn [rn_func cf_params cf_body]. rewrite rn_bound_params, B. reflexivity.
Qed.
Ltac stmts := apply stmt_all; intros; cbn [rn_stmt rn_block rn_elseifs rn_else
    clean_stmt clean_block clean_elseifs clean_else while_stmt while_block while_elseifs while_else]; try congruence.
Lemma rn_cleans :
  (forall e, clean_stmt (rn_stmt e) = clean_stmt e) /\ (forall e, clean_block (rn_block e) = clean_block e) /\
  (forall e, clean_elseifs (rn_elseifs e) = clean_elseifs e) /\ (forall e, clean_else (rn_else e) = clean_else e).
Proof. stmts; destruct b; cbn [rn_block] in *; congruence. Qed.
Lemma rn_whiles :
  (forall e, while_stmt (rn_stmt e) = while_stmt e) /\ (forall e, while_block (rn_block e) = while_block e) /\
  (forall e, while_elseifs (rn_elseifs e) = while_elseifs e) /\ (forall e, while_else (rn_else e) = while_else e).
Proof. stmts. Qed.
Lemma rn_looses :
  (forall e l, loose_stmt l (rn_stmt e) = loose_stmt l e) /\ (forall e l, loose_block l (rn_block e) = loose_block l e) /\
  (forall e l, loose_elseifs l (rn_elseifs e) = loose_elseifs l e) /\ (forall e l, loose_else l (rn_else e) = loose_else l e).
Proof.
  destruct rn_whiles as (A & B & C & D). apply stmt_all; intros; cbn [rn_stmt rn_block rn_elseifs rn_else loose_stmt loose_block loose_elseifs loose_else];
  rewrite ?A, ?B, ?C, ?D; congruence.
Qed.
Lemma rn_throws :
  (forall e l, throws_stmt l (rn_stmt e) = throws_stmt l e) /\ (forall e l, throws_block l (rn_block e) = throws_block l e) /\
  (forall e l, throws_elseifs l (rn_elseifs e) = throws_elseifs l e) /\ (forall e l, throws_else l (rn_else e) = throws_else l e).
Proof.
  apply stmt_all; intros; cbn [rn_stmt rn_block rn_elseifs rn_else throws_stmt throws_block throws_elseifs throws_else]; try congruence.
  destruct o; reflexivity.
Qed.
Lemma rn_returns :
  (forall e l, returns_stmt l (rn_stmt e) = returns_stmt l e) /\ (forall e l, returns_block l (rn_block e) = returns_block l e) /\
  (forall e l, returns_elseifs l (rn_elseifs e) = returns_elseifs l e) /\ (forall e l, returns_else l (rn_else e) = returns_else l e).
Proof.
  apply stmt_all; intros; cbn [rn_stmt rn_block rn_elseifs rn_else returns_stmt returns_block returns_elseifs returns_else]; try congruence.
  destruct o; reflexivity.
Qed.
Lemma rn_layout l : layout_ok (rn_items l) = layout_ok l.
Proof.
  induction l as [|l IH [d n x|f]]; cbn [rn_items rn_item layout_ok]; [reflexivity| |exact IH].
  rewrite IH, rn_funcs. destruct (item_funcs l); reflexivity.
Qed.
Lemma rn_each P Q p : (forall f, P (rn_func f) = P f) -> (forall b, Q (rn_block b) = Q b) -> each_body P Q (rn_program p) = each_body P Q p.
Proof.
  intros HP HQ. unfold each_body. cbn [rn_program pr_items pr_body]. rewrite rn_funcs, HQ. f_equal. apply forallb_fun, HP.
Qed.
Lemma rn_clean p : clean (rn_program p) = clean p.
Proof. destruct rn_cleans as (_ & B & _). apply rn_each; intros; apply B. Qed.
Lemma rn_loose_ok p : loose_ok (rn_program p) = loose_ok p.
Proof.
  destruct rn_looses as (_ & B & _). destruct rn_whiles as (_ & W & _). unfold loose_ok. cbn [rn_program pr_items pr_body]. rewrite rn_funcs, B.
  assert (X : forall l, while_funcs (map rn_func l) = while_funcs l) by (induction l; cbn [map while_funcs rn_func cf_body]; rewrite ?IHl, ?W; reflexivity).
  assert (Y : forall l w, loose_funcs w (map rn_func l) = loose_funcs w l) by (induction l; intros; cbn [map loose_funcs rn_func cf_body]; rewrite ?IHl, ?W, ?B; reflexivity).
  rewrite X, Y. reflexivity.
Qed.
Lemma rn_throws_ok p : throws_ok (rn_program p) = throws_ok p.
Proof. destruct rn_throws as (_ & B & _). apply rn_each; intros; apply B. Qed.
Lemma rn_returns_ok p : returns_ok (rn_program p) = returns_ok p.
Proof. destruct rn_returns as (_ & B & _). apply rn_each; intros; apply B. Qed.

Section U.
Context (H0 : r_name r [] = []) (H1 : r_dir r [] = []) (H2 : forall f, r_num r (f64_opp f) = f64_opp (r_num r f)).
Lemma last_map l : last (map rs l) SNil = rs (last l SNil).
Proof. induction l as [|x [|y l] IH]; [reflexivity|reflexivity|]. exact IH. Qed.
Lemma rn_colon x b : colon_ok x (mean_block (rn_block b)) = colon_ok x (mean_block b).
Proof.
  destruct (rn_mean_stmts H0 H2) as (_ & B & _). rewrite B. destruct x; [reflexivity|]. unfold colon_ok. rewrite last_map.
  destruct (mean_block b) as [|s l]; [reflexivity|]. cbn [map]. destruct (last (s :: l) SNil); reflexivity.
Qed.
Lemma rn_sures :
  (forall e, sure_stmt (rn_stmt e) = sure_stmt e) /\ (forall e, sure_block (rn_block e) = sure_block e) /\
  (forall e, sure_elseifs (rn_elseifs e) = sure_elseifs e) /\ (forall e, sure_else (rn_else e) = sure_else e).
Proof.
  destruct rn_cleans as (_ & C & _).
  apply stmt_all; intros; cbn [rn_stmt rn_block rn_elseifs rn_else sure_stmt sure_block sure_elseifs sure_else]; unfold sure_sep; rewrite ?rn_colon, ?C; congruence.
Qed.
Lemma rn_sure_ok p : sure_ok (rn_program p) = sure_ok p.
Proof. destruct rn_sures as (_ & B & _). apply rn_each; intros; apply B. Qed.
Lemma NoDup_back {A B} (f : A -> B) l : NoDup (map f l) -> NoDup l.
Proof. induction l; cbn [map]; intros H; [constructor|]. inversion H; subst. constructor; [|auto]. intros X. apply H5, in_map, X. Qed.
Lemma NoDup_inj {A B} (f : A -> B) l : (forall x y, In x l -> In y l -> f x = f y -> x = y) -> NoDup l -> NoDup (map f l).
Proof.
  intros Hf H. induction H as [|x l Hx H IH]; [constructor|]. cbn [map]. constructor.
  - intros X. apply in_map_iff in X as (y & E & Hy). apply Hx. rewrite (Hf x y); [exact Hy|left; reflexivity|right; exact Hy|symmetry; exact E].
  - apply IH. intros; apply Hf; [right; assumption|right; assumption|assumption].
Qed.
Lemma rn_gnames l : map gv_name (item_gvars (rn_items l)) = map (r_name r) (map gv_name (item_gvars l)).
Proof. rewrite rn_gvars by assumption. rewrite !map_map. reflexivity. Qed.
(** Declared names are names of the text. *)
Lemma in_names n l : In n (name_list l) -> In (KId n) (toks_names l).
Proof. induction l; cbn [name_list toks_names]; rewrite ?in_app_iff; cbn [In]; intuition (subst; auto). Qed.
Lemma in_vars n v : In n (mean_vars v) -> In (KId n) (toks_vars v).
Proof. induction v; cbn [mean_vars toks_vars]; [tauto|]. rewrite !in_app_iff. cbn [In]. rewrite in_app_iff. intuition auto using in_names. Qed.
Lemma in_gvars n l : In n (map gv_name (item_gvars l)) -> In (KId n) (toks_items l).
Proof.
  induction l as [|l IH [d m x|f]]; cbn [item_gvars toks_items]; [tauto| |rewrite in_app_iff; auto].
  rewrite map_app, !in_app_iff. intros [H|H]; [auto|]. right. unfold mean_gvars in H. rewrite map_map in H. cbn [gv_name] in H. rewrite map_id in H.
  cbn [toks_item]. rewrite in_app_iff. right. right. rewrite in_app_iff. left. apply in_names, H.
Qed.
Lemma in_funcs n f l : In f (item_funcs l) -> In n (mean_vars (cf_vars f)) -> In (KId n) (toks_items l).
Proof.
  induction l as [|l IH [d m x|g]]; cbn [item_funcs toks_items]; [tauto| |].
  - rewrite in_app_iff. auto.
  - rewrite !in_app_iff. cbn [In]. intros [H|[-> |[]]] Hn; [auto|]. right. cbn [toks_item]. unfold toks_func.
    rewrite in_app_iff. right. right. right. right. rewrite in_app_iff. right. right. rewrite in_app_iff. right. rewrite in_app_iff. left. apply in_vars, Hn.
Qed.
Lemma rn_once p : (forall n n', In (KId n) (toks_program p) -> In (KId n') (toks_program p) -> r_name r n = r_name r n' -> n = n') ->
  (vars_once (rn_program p) <-> vars_once p).
Proof.
  intros Ha. unfold vars_once. cbn [rn_program pr_items]. rewrite rn_funcs, rn_gnames, Forall_map. rewrite !Forall_forall. split; intros [A B]; split.
  - intros f Hf. specialize (A f Hf). cbn [rn_func cf_vars] in A. rewrite rn_mean_vars in A. apply NoDup_back in A. exact A.
  - apply NoDup_back in B. exact B.
  - intros f Hf. specialize (A f Hf). cbn [rn_func cf_vars]. rewrite rn_mean_vars. apply NoDup_inj; [|exact A].
    intros x y Hx Hy. apply Ha; unfold toks_program; apply in_app_iff; left; eapply in_funcs; eassumption.
  - apply NoDup_inj; [|exact B]. intros x y Hx Hy. apply Ha; unfold toks_program; apply in_app_iff; left; apply in_gvars; assumption.
Qed.
Lemma rn_legal p : (forall n n', In (KId n) (toks_program p) -> In (KId n') (toks_program p) -> r_name r n = r_name r n' -> n = n') ->
  (legal (rn_program p) <-> legal p).
Proof.
  intros Ha. unfold legal. rewrite rn_loose_ok, rn_throws_ok, rn_returns_ok, rn_sure_ok, (rn_once p Ha). cbn [rn_program pr_items]. rewrite rn_layout. reflexivity.
Qed.
End U.
End R.
