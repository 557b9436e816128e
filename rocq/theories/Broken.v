(** The rules error messages name, on token sequences. Specification (C48); nothing here
    refers to the parser's code or to the syntax of Syntax.v: [emsg] is only the list of
    messages a caller can see. *)
From Verif Require Import Bytes Float64 GoTime Ast Lexer Parser Tok Rules.
Open Scope Z_scope.

Definition twice {A} (n : A) (l : list A) : Prop := exists l1 l2 l3, l = l1 ++ n :: l2 ++ n :: l3.

(** The names declared by Перем inside each procedure or function, one list for each of
    them. [p]: inside a procedure or function, [d]: between a Перем and its semicolon,
    [ls]: the names declared in the current one so far. *)
Fixpoint locals (p d : bool) (ls : list bytes) (l : list tk) : list (list bytes) :=
  match l with
  | [] => []
  | KId n :: l => locals p d (if p && d then ls ++ [n] else ls) l
  | t :: l =>
    if (kind_of t =? tFunction) || (kind_of t =? tProcedure) then locals true false [] l
    else if (kind_of t =? tEndFunction) || (kind_of t =? tEndProcedure) then ls :: locals false false [] l
    else if kind_of t =? tVar then locals p true ls l
    else if kind_of t =? 59 (* ; *) then locals p false ls l
    else locals p d ls l
  end.
(** The names declared outside procedures and functions. *)
Fixpoint globals (p d : bool) (l : list tk) : list bytes :=
  match l with
  | [] => []
  | KId n :: l => (if negb p && d then [n] else []) ++ globals p d l
  | t :: l =>
    if (kind_of t =? tFunction) || (kind_of t =? tProcedure) then globals true false l
    else if (kind_of t =? tEndFunction) || (kind_of t =? tEndProcedure) then globals false false l
    else if kind_of t =? tVar then globals p true l
    else if kind_of t =? 59 (* ; *) then globals p false l
    else globals p d l
  end.

(** A colon stands only after a label that begins a statement, that is one without an
    operator, Перейти, Возврат or ВызватьИсключение before it.  [lab]: the token before is
    such a label, [val]: the token before is one of those. *)
Definition before_value (k : Z) : bool :=
  existsb (Z.eqb k) [43; 45; 42; 47; 37; 62; 60; tEQUAL; tOR; tAnd; tNeEQ; tLE; tGE; tNot; tGoTo; tReturn; tThrow].
Fixpoint colons_toks (lab val : bool) (l : list tk) : bool :=
  match l with
  | [] => true
  | t :: l =>
    if kind_of t =? 58 (* : *) then lab && colons_toks false false l
    else colons_toks ((kind_of t =? tGoToLabel) && negb val) (before_value (kind_of t)) l
  end.

(** What each message says of the text. *)
Definition breaks_rule (m : emsg) (l : list tk) : Prop :=
  match m with
  | MLoopOp _ => breaks_toks 0 l = false           (* Прервать or Продолжить outside loops *)
  | MThrow _ => throws_toks 0 l = false            (* ВызватьИсключение without a value outside handlers *)
  | MReturn => returns_toks false l = false        (* Возврат with a value outside functions *)
  | MVarDup n => exists ls, In ls (locals false false [] l) /\ twice n ls
  | MGlobalDup n => twice n (globals false false l)
  | MGlobalPlace => layout_toks false false l = false
  | MSemicolon => colons_toks false false l = false
  | MSyntax | MFuncPlace => False
  end.
