(** Specification for C72: trees that differ only in the order in which a map is gone through.  The maps of a tree are
    the module variables and the variables of each procedure or function (ast_struct.go:33-60). *)
From Coq Require Import Permutation.
From Verif Require Import Bytes Ast.

Inductive reordered_stmt : stmt -> stmt -> Prop :=
| ro_same s : reordered_stmt s s
| ro_vars vs vs' n d b ps ty x : Permutation vs vs' -> reordered_stmt (SFunc (Some vs) n d b ps ty x) (SFunc (Some vs') n d b ps ty x).
Inductive reordered_body : option (list stmt) -> option (list stmt) -> Prop :=
| rb_none : reordered_body None None
| rb_some l l' : Forall2 reordered_stmt l l' -> reordered_body (Some l) (Some l').
Inductive reordered_map {A} : option (list A) -> option (list A) -> Prop :=
| rm_none : reordered_map None None
| rm_some l l' : Permutation l l' -> reordered_map (Some l) (Some l').
Definition reordered (m m' : module) : Prop :=
  m_name m = m_name m' /\ reordered_map (m_gvars m) (m_gvars m') /\ reordered_body (m_body m) (m_body m').
