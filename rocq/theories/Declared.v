(** Variables are declared once, on token sequences. Specification (C21, C42); nothing
    here refers to the parser or to the syntax of Syntax.v. *)
From Verif Require Import Bytes Float64 GoTime Ast Lexer Tok.

Definition seen (n : bytes) (l : list bytes) : bool := existsb (beqb n) l.
(** [p]: inside a procedure or function, [d]: between a Перем and its semicolon,
    [gs], [ls]: the names declared outside procedures and inside the current one. *)
Fixpoint vars_toks (p d : bool) (gs ls : list bytes) (l : list tk) : bool :=
  match l with
  | [] => true
  | KId n :: l =>
    if d then if p then negb (seen n ls) && vars_toks p d gs (n :: ls) l else negb (seen n gs) && vars_toks p d (n :: gs) ls l
    else vars_toks p d gs ls l
  | t :: l =>
    if (kind_of t =? tFunction) || (kind_of t =? tProcedure) then vars_toks true false gs [] l
    else if (kind_of t =? tEndFunction) || (kind_of t =? tEndProcedure) then vars_toks false false gs [] l
    else if kind_of t =? tVar then vars_toks p true gs ls l
    else if kind_of t =? 59 (* ; *) then vars_toks p false gs ls l
    else vars_toks p d gs ls l
  end.

(** No signed default value: no + or - between the beginning of a procedure or function
    and the first closing parenthesis ([h]: there). *)
Fixpoint unsigned_toks (h : bool) (l : list tk) : bool :=
  match l with
  | [] => true
  | t :: l =>
    if (kind_of t =? tFunction) || (kind_of t =? tProcedure) then unsigned_toks true l
    else if h && ((kind_of t =? 43 (* + *)) || (kind_of t =? 45 (* - *))) then false
    else if kind_of t =? 41 (* close *) then unsigned_toks false l
    else unsigned_toks h l
  end.
