(** Trees that survive printing (C31, C43).  Specification: trees without redundant
    parentheses, and which trees are written in full by the printer.  Nothing here refers
    to the printer or the parser. *)
From Coq Require Import Permutation.
From Verif Require Import Bytes Float64 GoTime Ast.
Open Scope Z_scope.

(** * Redundant parentheses *)
(** Only parentheses with НЕ in front of them count; НЕ in front of an operation stands in
    front of parentheses around it; missing arguments of Новый are empty ones. *)
Definition not_mark : flags := Flags false false true.
Fixpoint strip (s : stmt) : stmt :=
  let all (l : slice) : slice := match l with Some l => Some (map strip l) | None => None end in
  match s with
  | SMethod n ps g fl => SMethod n (all ps) g fl
  | SItem i o => SItem (strip i) (strip o)
  | SChain u c fl => SChain (strip u) (strip c) fl
  | SNew c None g => SNew c (Some [SNil]) g
  | SNew c ps g => SNew c (all ps) g
  | STern e t f => STern (strip e) (strip t) (strip f)
  | SExp o l r fl =>
    let e := SExp o (strip l) (strip r) (Flags (fl_minus fl) (fl_plus fl) false) in
    if fl_not fl then SExprs (Some [e]) not_mark else e
  | SExprs (Some [x]) fl => if fl_not fl then SExprs (Some [strip x]) not_mark else if is_nil x then s else strip x
  | SExprs ps fl => SExprs (all ps) fl
  | SAssign v ps g => SAssign (strip v) (all ps) g
  | SIf e tb eib eb => SIf (strip e) (all tb) (all eib) (all eb)
  | STry b c => STry (all b) (all c)
  | SThrow p => SThrow (strip p)
  | SReturn p => SReturn (strip p)
  | SLoop a b c d e => SLoop (strip a) (strip b) (strip c) (strip d) (all e)
  | SFunc v n d b ps ty x => SFunc v n d (all b) (map (fun p => (strip (fst (fst p)), snd (fst p), snd p)) ps) ty x
  | _ => s
  end.
Definition strips (l : slice) : slice := match l with Some l => Some (map strip l) | None => None end.
(** Equal up to redundant parentheses. *)
Definition same_tree (s t : stmt) : Prop := strip s = strip t.
(** Modules; the global variables are a map. *)
Definition same_module (m m' : module) : Prop :=
  m_name m = m_name m' /\ Permutation (elems (m_gvars m)) (elems (m_gvars m')) /\ strips (m_body m) = strips (m_body m').

(** * Expressions written in full *)
Definition whole_b (f : f64) : bool := (0 <=? f_exp f) || (f_man f mod 2 ^ (- f_exp f) =? 0).
(** Operators that bind looser than НЕ (ast/grammar.y:70-80). *)
Definition looser (o : op) : bool := match o with OpOr | OpAnd | OpNe | OpLe | OpGe => true | _ => false end.
(** The text begins with НЕ, not in parentheses. *)
Fixpoint begins_not (s : stmt) : bool :=
  match s with
  | SVar _ fl | SChain _ _ fl | SMethod _ _ _ fl => fl_not fl
  | SExprs (Some [x]) fl => fl_not fl || begins_not x
  | _ => false
  end.
(** [v]: in a place where the marks of variables are not written (arguments, parts of
    names with dots and brackets, statements).  Numbers must be whole; no minus before
    names with dots and operations; no labels; no empty or longer lists in parentheses; and НЕ at the
    beginning of a left operand needs an operator that binds looser. *)
Fixpoint lasts (v : bool) (s : stmt) : bool :=
  let args (l : slice) : bool := match l with Some l => forallb (fun x => is_nil x || lasts true x) l | None => true end in
  match s with
  | SStr _ | SBool _ | STime _ | SUndef => true
  | SNum f => whole_b f
  | SVar _ fl => negb (v && (fl_not fl || fl_minus fl))
  | SChain u c fl => negb (fl_minus fl) && lasts true u && lasts true c
  | SMethod _ ps _ _ | SNew _ ps _ => args ps
  | SItem i o => lasts false i && lasts true o
  | STern e t f => lasts false e && lasts false t && lasts false f
  | SExprs (Some [x]) _ => lasts false x
  | SExp o l r fl => negb (fl_minus fl) && lasts false l && lasts false r && (looser o || negb (begins_not l))
  | _ => false
  end.

(** * Statements and modules written in full *)
(** Written as a name with dots, brackets and calls, followed by an equality sign. *)
Fixpoint plain (s : stmt) : bool :=
  match s with
  | SVar _ fl => negb (fl_not fl || fl_minus fl)
  | SChain _ _ fl | SMethod _ _ _ fl => negb (fl_not fl)
  | SItem _ _ => true
  | SExprs (Some [x]) fl => negb (fl_not fl) && plain x
  | _ => false
  end.
Fixpoint assignment (s : stmt) : bool :=
  match s with
  | SExp OpEq l _ fl => negb (fl_not fl) && plain l
  | SExprs (Some [x]) fl => negb (fl_not fl) && assignment x
  | _ => false
  end.
Definition maybe (s : stmt) : bool := is_nil s || lasts false s.
(** No operation that would be read as an assignment, at most one ИначеЕсли, no НЕ before
    a value thrown in parentheses. *)
Fixpoint lasts_stmt (s : stmt) : bool :=
  let block (l : slice) : bool := match l with Some l => forallb lasts_stmt l | None => true end in
  match s with
  | SAssign v (Some [e]) _ => lasts true v && lasts false e
  | SIf e tb eib eb =>
    lasts false e && block tb && block eb &&
    match eib with
    | Some [] => true
    | Some [SIf e' tb' None None] => lasts false e' && block tb'
    | _ => false
    end
  | STry b c => block b && block c
  | SThrow SNil => true
  | SThrow (SExprs (Some [x]) fl) => negb (fl_not fl) && (is_nil x || lasts true x)
  | SThrow p => lasts true p
  | SReturn p => maybe p
  | SLoop a b c d e => maybe a && maybe b && maybe c && maybe d && block e
  | SBreak | SContinue | SGoTo _ | SLabel _ => true
  | SChain _ _ fl => lasts true s && negb (fl_not fl)
  | SExp _ _ _ _ | SExprs _ _ => lasts false s && negb (assignment s)
  | _ => lasts true s
  end.
Definition lasts_block (b : slice) : bool := forallb lasts_stmt (elems b).
(** Default values: literals. *)
Definition lasts_default (s : stmt) : bool :=
  match s with
  | SNil | SStr _ | SBool _ | STime _ | SUndef => true
  | SNum f => whole_b f
  | _ => false
  end.
(** No local variables. *)
Definition lasts_item (s : stmt) : bool :=
  match s with
  | SFunc v _ _ b ps _ _ => (match elems v with [] => true | _ => false end) && lasts_block b && forallb (fun p => lasts_default (fst (fst p))) ps
  | _ => lasts_stmt s
  end.
(** Not only declarations of variables. *)
Definition lasts_module (m : module) : bool :=
  match elems (m_body m) with [] => false | l => forallb lasts_item l end.

(** * Trees that are printed as their text was (C44) *)
(** [n]: operand of an operation, [v] as in [lasts], but here parentheses without НЕ do not
    change the place: they are not printed.  НЕ before an operation that is an operand is
    printed inside parentheses first, before them later. *)
Fixpoint settled (n v : bool) (s : stmt) : bool :=
  let args (l : slice) : bool := match l with Some l => forallb (fun x => is_nil x || settled false true x) l | None => true end in
  match s with
  | SStr _ | SBool _ | STime _ | SUndef | SNum _ => true
  | SVar _ fl => negb (v && (fl_not fl || fl_minus fl))
  | SChain u c _ => settled false true u && settled false true c
  | SMethod _ ps _ _ | SNew _ ps _ => args ps
  | SItem i o => settled false false i && settled false true o
  | STern e t f => settled false false e && settled false false t && settled false false f
  | SExprs (Some [x]) fl => settled n (v && negb (fl_not fl)) x
  | SExp _ l r fl => negb ((n || fl_minus fl) && fl_not fl) && settled true false l && settled true false r
  | _ => false
  end.
(** НЕ before a name with dots, possibly in parentheses. *)
Fixpoint chain_not (s : stmt) : bool :=
  match s with
  | SChain _ _ fl => fl_not fl
  | SExprs (Some [x]) fl => negb (fl_not fl) && chain_not x
  | _ => false
  end.
(** НЕ before parentheses, possibly in parentheses. *)
Fixpoint list_not (s : stmt) : bool :=
  match s with
  | SExprs (Some [x]) fl => fl_not fl || list_not x
  | _ => false
  end.
Definition may_settled (s : stmt) : bool := is_nil s || settled false false s.
Fixpoint settled_stmt (s : stmt) : bool :=
  let block (l : slice) : bool := match l with Some l => forallb settled_stmt l | None => true end in
  match s with
  | SAssign v (Some [e]) _ => settled false true v && settled false false e
  | SIf e tb eib eb => settled false false e && block tb && block eib && block eb
  | STry b c => block b && block c
  | SThrow p => is_nil p || settled true true p && negb (list_not p)
  | SReturn p => may_settled p
  | SLoop a b c d e => may_settled a && may_settled b && may_settled c && may_settled d && block e
  | SBreak | SContinue | SGoTo _ | SLabel _ => true
  | _ => settled false true s && negb (chain_not s)
  end.
Definition settled_item (s : stmt) : bool :=
  match s with
  | SFunc _ _ _ b _ _ _ => forallb settled_stmt (elems b)
  | _ => settled_stmt s
  end.
Definition settled_module (m : module) : bool := forallb settled_item (elems (m_body m)).
