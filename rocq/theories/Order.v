(** Source order: the tree of a program with the ElseIf branches in the order of the
    text, and the names of a tree in the order of the text.  Specification (C23, C41);
    nothing here refers to the parser. *)
From Verif Require Import Bytes Float64 GoTime Ast Lexer Tok Syntax.

(** As [mean_stmt], branches in source order. *)
Fixpoint src_stmt (s : cstmt) : stmt :=
  match s with
  | CIf e b l c => SIf (mean_expr e) (slice_of (src_block b)) (Some (src_elseifs l)) (src_else c)
  | CForEach v l b => SLoop (SStr v) SNil (mean_loopexp l) SNil (slice_of (src_block b))
  | CFor e1 e2 b => SLoop (mean_expr e1) (mean_expr e2) SNil SNil (slice_of (src_block b))
  | CWhile e b => SLoop SNil SNil SNil (mean_expr e) (slice_of (src_block b))
  | CTry b c => STry (slice_of (src_block b)) (slice_of (src_block c))
  | CAssign _ _ | CExpr _ | CContinue | CBreak | CThrow _ | CReturn _ => mean_stmt s
  end
with src_block (b : block) : list stmt :=
  match b with
  | BNil => []
  | BOne s => [src_stmt s]
  | BSkip b _ => src_block b
  | BSnoc b _ s => src_block b ++ [src_stmt s]
  end
with src_elseifs (l : elseifs) : list stmt :=
  match l with
  | EINil => []
  | EICons e b l => SIf (mean_expr e) (slice_of (src_block b)) None None :: src_elseifs l
  end
with src_else (c : celse) : slice :=
  match c with NoElse => None | Else b => slice_of (src_block b) end.
Definition src_func (f : cfunc) : stmt := mean_func_with (slice_of (src_block (cf_body f))) f.
Definition src_program (p : program) : module :=
  Module [] (match item_gvars (pr_items p) with [] => None | l => Some l end)
         (slice_of (map src_func (item_funcs (pr_items p)) ++ src_block (pr_body p))).

(** A tree with the ElseIf branches of every If statement turned round. *)
Fixpoint turn (s : stmt) : stmt :=
  let all := option_map (map turn) in
  match s with
  | SIf e b l c => SIf e (all b) (option_map (fun l => rev (map turn l)) l) (all c)
  | SLoop f t i w b => SLoop f t i w (all b)
  | STry b c => STry (all b) (all c)
  | SFunc v n d b ps ty x => SFunc v n d (all b) ps ty x
  | _ => s
  end.
Definition turn_module (m : module) : module := Module (m_name m) (m_gvars m) (option_map (map turn) (m_body m)).
(** No If statement of the tree has two ElseIf branches. *)
Definition each_in (P : stmt -> bool) (s : slice) : bool := match s with None => true | Some l => forallb P l end.
Fixpoint one_elseif (s : stmt) : bool :=
  let all := each_in one_elseif in
  match s with
  | SIf e b l c => all b && all l && all c && match l with Some (_ :: _ :: _) => false | _ => true end
  | SLoop _ _ _ _ b => all b
  | STry b c => all b && all c
  | SFunc _ _ _ b _ _ _ => all b
  | _ => true
  end.

(** The names in a tree, in the order of the text. *)
Definition nm (n : bytes) : list bytes := match n with [] => [] | _ => [n] end.
Fixpoint names_in (s : stmt) : list bytes :=
  let all := fun o : slice => match o with None => [] | Some l => flat_map names_in l end in
  match s with
  | SVar n _ => nm n
  | SMethod n ps _ _ => nm n ++ all ps
  | SNew n ps _ => nm n ++ all ps
  | SItem x o => names_in o ++ names_in x
  | SChain u c _ => names_in c ++ names_in u
  | STern x y z => names_in x ++ names_in y ++ names_in z
  | SExp _ x y _ => names_in x ++ names_in y
  | SExprs ps _ => all ps
  | SAssign x ps _ => names_in x ++ all ps
  | SIf x b e c => names_in x ++ all b ++ all e ++ all c
  | STry b c => all b ++ all c
  | SThrow x | SReturn x => names_in x
  | SLoop f t i w b =>
    (match i with SNil => names_in f ++ names_in t | _ => (match f with SStr v => nm v | _ => [] end) ++ names_in i end) ++
    names_in w ++ all b
  | SFunc vs n _ b ps _ _ =>
    nm n ++ flat_map (fun p => nm (snd (fst p)) ++ names_in (fst (fst p))) ps ++
    flat_map nm (match vs with Some l => l | None => [] end) ++ all b
  | _ => []
  end.
Definition names_module (m : module) : list bytes :=
  flat_map (fun g => nm (gv_name g)) (match m_gvars m with Some l => l | None => [] end) ++ flat_map names_in (elems (m_body m)).
(** The names in a token sequence. *)
Definition name_of (t : tk) : list bytes := match t with KId n | KExec n => nm n | _ => [] end.
Definition names_toks (l : list tk) : list bytes := flat_map name_of l.
(** No parameter has two default values ([а = 1 = 2] is accepted, the last one counts). *)
Definition one_default (p : cparam) : bool := match p with ParDef (ParDef _ _) _ => false | _ => true end.
Fixpoint one_defaults (l : cparams) : bool :=
  match l with PNil => true | POne p => one_default p | PSnoc l p => one_defaults l && one_default p end.
Definition single_defaults (p : program) : bool :=
  forallb (fun f => one_defaults (cf_params f)) (item_funcs (pr_items p)).
