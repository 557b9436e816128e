(** Putting statements into a text and into a tree.  Specification (C64): where a block of
    statements can be put into a program written down as in Syntax.v, and what the same
    place means in a module tree.  Nothing here refers to the parser. *)
From Verif Require Import Bytes Float64 GoTime Ast Lexer Tok Syntax.
From Coq Require Import List. Import ListNotations.

(** A place for statements: before the [n]-th statement of a block, or inside the [n]-th
    one, behind one of its doors. *)
Inductive door := DThen | DElseIf (k : nat) | DElse | DBody | DCatch.
Inductive spot := Here (n : nat) | Inside (n : nat) (d : door) (p : spot).
Definition shift (k : nat) (p : spot) : spot :=
  match p with Here n => Here (k + n) | Inside n d p => Inside (k + n) d p end.

(** * In a text *)
(** The number of statements of a block. *)
Fixpoint count (b : block) : nat :=
  match b with BNil => 0 | BOne _ => 1 | BSkip b _ => count b | BSnoc b _ _ => S (count b) end.
(** [b], a semicolon, [c]. *)
Fixpoint seq (b c : block) : block :=
  match c with
  | BNil => BSkip b Semi
  | BOne s => BSnoc b Semi s
  | BSkip c x => BSkip (seq b c) x
  | BSnoc c x s => BSnoc (seq b c) x s
  end.
Section Text.
Context (B : block).
(** [B] put into a block: as the whole of an empty one, behind its statements, behind its
    last semicolon, before its first statement, or somewhere inside a statement.  A colon
    must keep the label before it. *)
Inductive in_block : spot -> block -> block -> Prop :=
| in_empty : in_block (Here 0) BNil B
| in_behind b : b <> BNil -> in_block (Here (count b)) b (seq b B)
| in_last b : b <> BNil -> in_block (Here (count b)) (BSkip b Semi) (seq b B)
| in_front s : in_block (Here 0) (BOne s) (BSnoc B Semi s)
| in_one d p s s' : in_stmt d p s s' -> in_block (Inside 0 d p) (BOne s) (BOne s')
| in_skip p b b' x : b <> BNil -> in_block p b b' -> colon_ok x (mean_block b') = true -> in_block p (BSkip b x) (BSkip b' x)
| in_left p b b' x s : b <> BNil -> in_block p b b' -> colon_ok x (mean_block b') = true -> in_block p (BSnoc b x s) (BSnoc b' x s)
| in_right d p b x s s' : in_stmt d p s s' -> in_block (Inside (count b) d p) (BSnoc b x s) (BSnoc b x s')
with in_stmt : door -> spot -> cstmt -> cstmt -> Prop :=
| in_then p e b b' l c : in_block p b b' -> in_stmt DThen p (CIf e b l c) (CIf e b' l c)
| in_elseif k p e b l l' c : in_elseifs k p l l' -> in_stmt (DElseIf k) p (CIf e b l c) (CIf e b l' c)
| in_else p e b l c c' : in_block p c c' -> in_stmt DElse p (CIf e b l (Else c)) (CIf e b l (Else c'))
| in_each p v l b b' : in_block p b b' -> in_stmt DBody p (CForEach v l b) (CForEach v l b')
| in_for p e1 e2 b b' : in_block p b b' -> in_stmt DBody p (CFor e1 e2 b) (CFor e1 e2 b')
| in_while p e b b' : in_block p b b' -> in_stmt DBody p (CWhile e b) (CWhile e b')
| in_try p b b' c : in_block p b b' -> in_stmt DBody p (CTry b c) (CTry b' c)
| in_catch p b c c' : in_block p c c' -> in_stmt DCatch p (CTry b c) (CTry b c')
with in_elseifs : nat -> spot -> elseifs -> elseifs -> Prop :=
| in_first p e b b' l : in_block p b b' -> in_elseifs 0 p (EICons e b l) (EICons e b' l)
| in_next k p e b l l' : in_elseifs k p l l' -> in_elseifs (S k) p (EICons e b l) (EICons e b l').
(** ... into the body of a procedure or function, into the statements of a module. *)
Inductive in_items : spot -> items -> items -> Prop :=
| in_func p l d g n ps x v b b' : in_block p b b' ->
    in_items (Inside (length (item_funcs l)) DBody p) (ISnoc l (IFunc (CFunc d g n ps x v b))) (ISnoc l (IFunc (CFunc d g n ps x v b')))
| in_before p l l' i : in_items p l l' -> in_items p (ISnoc l i) (ISnoc l' i).
Inductive in_program : spot -> program -> program -> Prop :=
| in_procs p l l' b : in_items p l l' -> in_program p (Program l b) (Program l' b)
| in_main p l b b' : in_block p b b' -> in_program (shift (length (item_funcs l)) p) (Program l b) (Program l b').
End Text.

(** * In a tree *)
(** [f] applied to the [n]-th of a list. *)
Definition at_nth {A} (n : nat) (f : A -> A) (l : list A) : list A :=
  firstn n l ++ match skipn n l with [] => [] | x :: r => f x :: r end.
(** The branches of ИначеЕсли are kept last first (C23). *)
Definition through (d : door) (f : slice -> slice) (s : stmt) : stmt :=
  match d, s with
  | DThen, SIf c b e l => SIf c (f b) e l
  | DElseIf k, SIf c b (Some e) l =>
    SIf c b (Some (at_nth (length e - 1 - k) (fun s => match s with SIf c b e l => SIf c (f b) e l | _ => s end) e)) l
  | DElse, SIf c b e l => SIf c b e (f l)
  | DBody, SLoop x y z w b => SLoop x y z w (f b)
  | DBody, STry b c => STry (f b) c
  | DCatch, STry b c => STry b (f c)
  | DBody, SFunc v n g b ps k x => SFunc v n g (f b) ps k x
  | _, _ => s
  end.
Fixpoint put (ss : list stmt) (p : spot) (o : slice) : slice :=
  match p with
  | Here n => Some (firstn n (elems o) ++ ss ++ skipn n (elems o))
  | Inside n d p => Some (at_nth n (through d (put ss p)) (elems o))
  end.
Definition put_module (ss : list stmt) (p : spot) (m : module) : module :=
  Module (m_name m) (m_gvars m) (put ss p (m_body m)).
