(** How tightly operators bind (C24). Specification: the table of ast/grammar.y:70-80,
    from the loosest to the tightest, all binary operators grouping to the left; and
    when a program of Syntax.v groups its operands that way. *)
From Verif Require Import Bytes Float64 GoTime Ast Lexer Tok Syntax.

Definition level (o : bop) : Z :=
  match o with
  | BOr => 1 | BAnd => 2 | BNe => 3 | BLe => 4 | BGe => 5
  | BEq => 7 | BGt | BLt => 8 | BPlus | BMinus => 9 | BMul | BDiv | BMod => 10
  end.
Definition level_not : Z := 6.
Definition level_sign : Z := 11.

(** The operators along the left edge of [e] (no parentheses crossed) bind tighter than [n]. *)
Fixpoint left_above (n : Z) (e : expr) : bool :=
  match e with
  | EBin o l _ => (n <? level o) && left_above n l
  | _ => true
  end.
(** The operators along the right edge of [e] bind at least as tightly as [n]. *)
Fixpoint right_above (n : Z) (e : expr) : bool :=
  match e with
  | EBin o _ r => (n <=? level o) && right_above n r
  | ENot e => (n <=? level_not) && right_above n e
  | ENeg e | EPos e => (n <=? level_sign) && right_above n e
  | _ => true
  end.

(** An operand contains no operator that should have taken it apart: in [l o r] no
    operator at the right edge of [l] is looser than [o], none at the left edge of [r]
    is looser than [o] or on its level; in [НЕ e], [-e], [+e] none at the left edge of
    [e] is looser than the prefix. *)
Fixpoint bound (e : expr) : bool :=
  match e with
  | EBin o l r => right_above (level o) l && left_above (level o) r && bound l && bound r
  | ENot e => left_above level_not e && bound e
  | ENeg e | EPos e => left_above level_sign e && bound e
  | EParen l => bound_args l
  | ENew c => bound_new c
  | ETern c t f => bound c && bound t && bound f
  | EPath p => bound_path p
  | _ => true
  end
with bound_path (p : path) : bool :=
  match p with PId i => bound_ident i | PDot p i => bound_path p && bound_ident i end
with bound_ident (i : ident) : bool :=
  match i with
  | ICall _ l => bound_args l
  | IIndex i e => bound_ident i && bound e
  | IExec _ e => bound e
  | IVar _ | IExecStr _ _ | IExecVar _ _ => true
  end
with bound_new (c : newexp) : bool :=
  match c with NewName _ => true | NewCall _ l | NewArgs l => bound_args l end
with bound_args (l : args) : bool :=
  match l with AOne o => bound_oexpr o | AMore l o => bound_args l && bound_oexpr o end
with bound_oexpr (o : oexpr) : bool :=
  match o with ONone => true | OSome e => bound e end.

(** A statement that begins with a path and an equality sign is an assignment. *)
Fixpoint no_assign (e : expr) : bool :=
  match e with
  | EBin BEq (EPath _) _ => false
  | EBin _ l _ => no_assign l
  | _ => true
  end.
Definition bound_loopexp (l : loopexp) : bool :=
  match l with
  | LPath p => bound_path p
  | LNew c | LParNew c => bound_new c
  | LTern c t f => bound c && bound t && bound f
  end.
Fixpoint bound_stmt (s : cstmt) : bool :=
  match s with
  | CAssign p e => bound_path p && bound e
  | CExpr e => no_assign e && bound e
  | CIf e b l c => bound e && bound_block b && bound_elseifs l && bound_else c
  | CForEach _ l b => bound_loopexp l && bound_block b
  | CFor e1 e2 b => bound e1 && bound e2 && bound_block b
  | CWhile e b => bound e && bound_block b
  | CTry b c => bound_block b && bound_block c
  | CContinue | CBreak => true
  | CThrow o | CReturn o => bound_oexpr o
  end
with bound_block (b : block) : bool :=
  match b with
  | BNil => true
  | BOne s => bound_stmt s
  | BSkip b _ => bound_block b
  | BSnoc b _ s => bound_block b && bound_stmt s
  end
with bound_elseifs (l : elseifs) : bool :=
  match l with EINil => true | EICons e b l => bound e && bound_block b && bound_elseifs l end
with bound_else (c : celse) : bool :=
  match c with NoElse => true | Else b => bound_block b end.

(** A default value followed by another one: the equality sign between them does not
    belong to the first. *)
Definition param_right (n : Z) (p : cparam) : bool := match p with ParDef _ e => right_above n e | _ => true end.
Fixpoint bound_param (p : cparam) : bool :=
  match p with
  | Par _ | ParVal _ => true
  | ParDef p e => param_right (level BEq) p && bound_param p && bound e
  end.
Fixpoint bound_params (l : cparams) : bool :=
  match l with PNil => true | POne p => bound_param p | PSnoc l p => bound_params l && bound_param p end.
Definition bound_program (p : program) : bool :=
  forallb (fun f => bound_params (cf_params f) && bound_block (cf_body f)) (item_funcs (pr_items p)) &&
  bound_block (pr_body p).
