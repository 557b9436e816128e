(** Go strings as byte lists.

    A Go [string] is an arbitrary sequence of bytes; so is [bytes] here.  Every
    theorem that quantifies over [code : bytes] therefore ranges over exactly
    the values [NewAST(code string)] (ast/ast.go:31) accepts, including text
    that is not valid UTF-8. *)
From Coq Require Export List ZArith Bool Lia.
From Coq Require Export Strings.Byte.
Export ListNotations.
Open Scope Z_scope.

Definition bytes := list byte.

(** String literals of the Go source; Coq source files are UTF-8, so
    [B "Если"] denotes the same bytes as the Go literal ["Если"]. *)
Inductive lit := Lit (l : list byte).
Definition unlit (x : lit) : bytes := match x with Lit l => l end.
Declare Scope lit_scope.
Delimit Scope lit_scope with lit.
String Notation lit Lit unlit : lit_scope.
Definition B (s : lit) : bytes := unlit s.
Arguments B s%lit_scope.

(** Byte values as integers. *)
Definition b2z (b : byte) : Z := Z.of_N (Byte.to_N b).
(** Conversion [byte(z)]; Go's conversion truncates modulo 256. *)
Definition z2b (z : Z) : byte :=
  match Byte.of_N (Z.to_N (z mod 256)) with Some b => b | None => x00 end.

(** [==] on Go strings. *)
Fixpoint beqb (a b : bytes) : bool :=
  match a, b with
  | [], [] => true
  | x :: a', y :: b' => Byte.eqb x y && beqb a' b'
  | _, _ => false
  end.

(** Lookup in a Go [map[string]V] given by its (duplicate free) entries. *)
Fixpoint assoc {V} (k : bytes) (l : list (bytes * V)) : option V :=
  match l with
  | [] => None
  | (k', v) :: l' => if beqb k k' then Some v else assoc k l'
  end.
