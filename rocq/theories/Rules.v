(** The placement rules of the language, stated on the token sequence of a text
    and on module trees. Specification (C16, C18-C20, C22); nothing here refers to
    the parser or to the syntax of Syntax.v. *)
From Verif Require Import Bytes Float64 GoTime Ast Lexer Tok.

(** * On token sequences *)
(** Прервать and Продолжить between a Цикл and its КонецЦикла ([d]: open loops). *)
Fixpoint breaks_toks (d : Z) (l : list tk) : bool :=
  match l with
  | [] => true
  | t :: l =>
    if kind_of t =? tLoop then breaks_toks (d + 1) l
    else if kind_of t =? tEndLoop then breaks_toks (d - 1) l
    else if (kind_of t =? tBreak) || (kind_of t =? tContinue) then (0 <? d) && breaks_toks d l
    else breaks_toks d l
  end.
(** The part of a text before its first Пока. *)
Fixpoint before_while (l : list tk) : list tk :=
  match l with
  | [] => []
  | t :: l => if kind_of t =? tWhile then [] else t :: before_while l
  end.

(** Tokens an expression can begin with. *)
Definition begins_expr (l : list tk) : bool :=
  match l with
  | [] => false
  | t :: _ => existsb (Z.eqb (kind_of t))
      [tString; tNumber; tDate; tTrue; tFalse; tUndefind; tGoToLabel; tNot; tNew; tGoTo; tIdent; tExecute;
       40 (* ( *); 43 (* + *); 45 (* - *); 63 (* ? *)]
  end.
(** ВызватьИсключение without a value between an Исключение and its КонецПопытки ([h]: open handlers). *)
Fixpoint throws_toks (h : Z) (l : list tk) : bool :=
  match l with
  | [] => true
  | t :: l =>
    if kind_of t =? tCatch then throws_toks (h + 1) l
    else if kind_of t =? tEndTry then throws_toks (h - 1) l
    else if kind_of t =? tThrow then (begins_expr l || (0 <? h)) && throws_toks h l
    else throws_toks h l
  end.
(** Возврат with a value between a Функция and its КонецФункции. *)
Fixpoint returns_toks (f : bool) (l : list tk) : bool :=
  match l with
  | [] => true
  | t :: l =>
    if kind_of t =? tFunction then returns_toks true l
    else if kind_of t =? tEndFunction then returns_toks false l
    else if kind_of t =? tReturn then (negb (begins_expr l) || f) && returns_toks f l
    else returns_toks f l
  end.
(** No Перем of a module outside procedures and functions after the first of them;
    [p]: inside a procedure or function, [s]: after the beginning of the first. *)
Fixpoint layout_toks (p s : bool) (l : list tk) : bool :=
  match l with
  | [] => true
  | t :: l =>
    if (kind_of t =? tFunction) || (kind_of t =? tProcedure) then layout_toks true true l
    else if (kind_of t =? tEndFunction) || (kind_of t =? tEndProcedure) then layout_toks false s l
    else if kind_of t =? tVar then (p || negb s) && layout_toks p s l
    else layout_toks p s l
  end.

(** No block of statements starts with a separator ([;] or [:]).  Walking over the
    text: at the beginning of a block, elsewhere, in the head of a procedure or
    function inside [d] parentheses, in a declaration of variables. *)
Inductive place := Begin | Middle | Head (d : Z) | Decl.
Definition opens_block (k : Z) : bool :=
  existsb (Z.eqb k) [tThen; tElse; tLoop; tTry; tCatch; tEndFunction; tEndProcedure; tDirective; tExport].
Definition is_sep (k : Z) : bool := (k =? 59) || (k =? 58).
Definition move (p : place) (k : Z) : option place :=
  match p with
  | Decl => Some (if k =? 59 then Begin else Decl)
  | Head d => Some (if k =? 40 then Head (d + 1) else if k =? 41 then (if d =? 1 then Begin else Head (d - 1)) else Head d)
  | Begin | Middle =>
    if is_sep k then match p with Begin => None | _ => Some Middle end
    else Some (if opens_block k then Begin
               else if (k =? tFunction) || (k =? tProcedure) then Head 0
               else if k =? tVar then Decl
               else Middle)
  end.
Fixpoint clean_toks (p : place) (l : list tk) : bool :=
  match l with
  | [] => true
  | t :: l => match move p (kind_of t) with None => false | Some p' => clean_toks p' l end
  end.

(** * On trees *)
Definition all_in (P : stmt -> bool) (s : slice) : bool := match s with None => true | Some l => forallb P l end.
Fixpoint breaks_tree (loop : bool) (s : stmt) : bool :=
  match s with
  | SBreak | SContinue => loop
  | SIf _ b e c => all_in (breaks_tree loop) b && all_in (breaks_tree loop) e && all_in (breaks_tree loop) c
  | SLoop _ _ _ _ b => all_in (breaks_tree true) b
  | STry b c => all_in (breaks_tree loop) b && all_in (breaks_tree loop) c
  | SFunc _ _ _ b _ _ _ => all_in (breaks_tree false) b
  | _ => true
  end.
Fixpoint throws_tree (handler : bool) (s : stmt) : bool :=
  match s with
  | SThrow SNil => handler
  | SIf _ b e c => all_in (throws_tree handler) b && all_in (throws_tree handler) e && all_in (throws_tree handler) c
  | SLoop _ _ _ _ b => all_in (throws_tree handler) b
  | STry b c => all_in (throws_tree handler) b && all_in (throws_tree true) c
  | SFunc _ _ _ b _ _ _ => all_in (throws_tree false) b
  | _ => true
  end.
Fixpoint returns_tree (function : bool) (s : stmt) : bool :=
  match s with
  | SReturn SNil => true
  | SReturn _ => function
  | SIf _ b e c => all_in (returns_tree function) b && all_in (returns_tree function) e && all_in (returns_tree function) c
  | SLoop _ _ _ _ b => all_in (returns_tree function) b
  | STry b c => all_in (returns_tree function) b && all_in (returns_tree function) c
  | SFunc _ _ _ b _ ty _ => all_in (returns_tree (match ty with PFFunction => true | _ => false end)) b
  | _ => true
  end.
(** Number of calls [name(...)] in a tree. *)
Fixpoint calls (s : stmt) : nat :=
  let all := fun o : slice => match o with None => O | Some l => list_sum (map calls l) end in
  match s with
  | SMethod _ ps _ _ => S (all ps)
  | SItem x y => calls x + calls y
  | SChain x y _ => calls x + calls y
  | SNew _ ps _ => all ps
  | STern x y z => calls x + calls y + calls z
  | SExp _ x y _ => calls x + calls y
  | SExprs ps _ => all ps
  | SAssign x ps _ => calls x + all ps
  | SIf x b e c => calls x + all b + all e + all c
  | STry b c => all b + all c
  | SThrow x | SReturn x => calls x
  | SLoop x y z w b => calls x + calls y + calls z + calls w + all b
  | SFunc _ _ _ b ps _ _ => all b + list_sum (map (fun p => calls (fst (fst p))) ps)
  | _ => O
  end.
Definition calls_module (m : module) : nat := list_sum (map calls (elems (m_body m))).
(** Names in a token sequence. *)
Definition is_name (t : tk) : bool := match t with KId _ | KExec _ => true | _ => false end.
Definition name_count (l : list tk) : nat := length (filter is_name l).
