(** What formatting does to a tree (C62).  Specification: the tree after it, and the trees it is
    stated for.  Nothing here refers to the printer or the parser. *)
From Verif Require Import Bytes Float64 GoTime Ast Survive.
Open Scope Z_scope.

(** * Expressions *)
(** The nearest whole number, halves to the even one. *)
Definition nearest_int (f : f64) : Z :=
  if 0 <=? f_exp f then f_man f * 2 ^ f_exp f else round_ne (f_man f) (2 ^ (- f_exp f)).
Definition integer (f : f64) : f64 :=
  match to_f64 (nearest_int f) 1 with Some g => F64 (f_neg f) (f_man g) (f_exp g) | None => f end.
(** Only НЕ is kept of the marks. *)
Definition only_not (fl : flags) : flags := Flags false false (fl_not fl).
(** Without the НЕ at its beginning. *)
Fixpoint unnot (s : stmt) : stmt :=
  match s with
  | SVar n fl => SVar n (Flags (fl_minus fl) (fl_plus fl) false)
  | SChain u c _ => SChain u c no_flags
  | SMethod n ps g _ => SMethod n ps g no_flags
  | SExprs (Some [x]) fl => if fl_not fl then SExprs (Some [x]) no_flags else SExprs (Some [unnot x]) fl
  | _ => s
  end.
(** [v]: in a place where the marks of variables are not written (arguments, parts of names
    with dots and brackets, statements).  Numbers become whole; the minus of a name with dots
    and of an operation is dropped; НЕ at the beginning of a left operand is extended over the
    operation unless the operator binds looser. *)
Fixpoint tidy (v : bool) (s : stmt) : stmt :=
  let args (l : slice) : slice := match l with Some l => Some (map (tidy true) l) | None => None end in
  match s with
  | SNum f => SNum (integer f)
  | SVar n fl => SVar n (if v then no_flags else fl)
  | SChain u c fl => SChain (tidy true u) (tidy true c) (only_not fl)
  | SMethod n ps g fl => SMethod n (args ps) g fl
  | SNew c ps g => SNew c (args ps) g
  | SItem i o => SItem (tidy false i) (tidy true o)
  | STern e t f => STern (tidy false e) (tidy false t) (tidy false f)
  | SExprs (Some l) fl => SExprs (Some (map (tidy false) l)) fl
  | SExp o l r fl =>
    let e := if begins_not l && negb (looser o)
             then SExp o (unnot (tidy false l)) (tidy false r) not_mark
             else SExp o (tidy false l) (tidy false r) no_flags in
    if fl_not fl then SExprs (Some [e]) not_mark else e
  | _ => s
  end.

(** * Statements and modules *)
(** Read as an assignment. *)
Fixpoint equation (s : stmt) : bool :=
  match s with
  | SExp OpEq l _ fl => negb (fl_not fl) && negb (fl_minus fl) && plain l
  | SExprs (Some [x]) fl => negb (fl_not fl) && equation x
  | _ => false
  end.
Fixpoint assigned (s : stmt) : stmt :=
  match s with
  | SExp _ l r _ => SAssign l (Some [r]) no_flags
  | SExprs (Some [x]) _ => assigned x
  | _ => s
  end.
(** The branches of ИначеЕсли turn around; НЕ before a name with dots that is a statement and
    before parentheses that are thrown is dropped. *)
Fixpoint tidy_stmt (s : stmt) : stmt :=
  let block (l : slice) : slice := match l with Some l => Some (map tidy_stmt l) | None => None end in
  match s with
  | SAssign v (Some l) g => SAssign (tidy true v) (Some (map (tidy false) l)) g
  | SIf e tb eib eb =>
    SIf (tidy false e) (block tb) (match eib with Some l => Some (rev (map tidy_stmt l)) | None => None end) (block eb)
  | STry b c => STry (block b) (block c)
  | SThrow (SExprs (Some l) _) => SThrow (SExprs (Some (map (tidy true) l)) no_flags)
  | SThrow p => SThrow (tidy true p)
  | SReturn p => SReturn (tidy false p)
  | SLoop a b c d e => SLoop (tidy false a) (tidy false b) (tidy false c) (tidy false d) (block e)
  | SChain u c _ => SChain (tidy true u) (tidy true c) no_flags
  | SExp _ _ _ _ | SExprs _ _ => if equation s then assigned (tidy false s) else tidy false s
  | _ => tidy true s
  end.
Definition tidy_block (l : slice) : slice := match l with Some l => Some (map tidy_stmt l) | None => None end.
(** Local variables are dropped. *)
Definition tidy_item (s : stmt) : stmt :=
  match s with
  | SFunc _ n d b ps ty x => SFunc (Some []) n d (tidy_block b) (map (fun p => (tidy true (fst (fst p)), snd (fst p), snd p)) ps) ty x
  | _ => tidy_stmt s
  end.
Definition formatted (m : module) : module :=
  Module (m_name m) (m_gvars m) (match m_body m with Some l => Some (map tidy_item l) | None => None end).

(** * For which trees *)
(** No labels in expressions, exactly one expression in parentheses. *)
Fixpoint written (s : stmt) : bool :=
  let args (l : slice) : bool := match l with Some l => forallb (fun x => is_nil x || written x) l | None => true end in
  match s with
  | SStr _ | SBool _ | STime _ | SUndef | SNum _ | SVar _ _ => true
  | SChain u c _ => written u && written c
  | SMethod _ ps _ _ | SNew _ ps _ => args ps
  | SItem i o => written i && written o
  | STern e t f => written e && written t && written f
  | SExprs (Some [x]) _ => written x
  | SExp _ l r _ => written l && written r
  | _ => false
  end.
Definition may_written (s : stmt) : bool := is_nil s || written s.
Fixpoint written_stmt (s : stmt) : bool :=
  let block (l : slice) : bool := match l with Some l => forallb written_stmt l | None => true end in
  match s with
  | SAssign v (Some [e]) _ => written v && written e
  | SIf e tb eib eb => written e && block tb && block eib && block eb
  | STry b c => block b && block c
  | SThrow (SExprs (Some [x]) _) => may_written x
  | SThrow p => may_written p
  | SReturn p => may_written p
  | SLoop a b c d e => may_written a && may_written b && may_written c && may_written d && block e
  | SBreak | SContinue | SGoTo _ | SLabel _ => true
  | _ => written s
  end.
Definition literal (s : stmt) : bool :=
  match s with SNil | SStr _ | SBool _ | STime _ | SUndef | SNum _ => true | _ => false end.
Definition written_item (s : stmt) : bool :=
  match s with
  | SFunc _ _ _ b ps _ _ => forallb written_stmt (elems b) && forallb (fun p => literal (fst (fst p))) ps
  | _ => written_stmt s
  end.
Definition written_module (m : module) : bool := forallb written_item (elems (m_body m)).
