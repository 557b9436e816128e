(** The error result of AstNode.JSON (ast.go:49-51).  encoding/json fails only for
    values it has no text for.  Of the types of ast_struct.go these are numbers that are
    not finite (encoding/json floatEncoder) and dates outside of the years 0 to 9999
    (Time.MarshalJSON).  Every statement of the tree is written, so one such value
    anywhere is enough. *)
From Verif Require Import Bytes Float64 GoTime Ast Json.

Fixpoint unwritable (s : stmt) : bool :=
  let any (b : option (list stmt)) := match b with None => false | Some l => existsb unwritable l end in
  match s with
  | SNum f => negb (canonical f)
  | STime t => (t_year t <? 0) || (9999 <? t_year t)
  | SMethod _ ps _ _ | SNew _ ps _ | SExprs ps _ => any ps
  | SItem x y | SChain x y _ | SExp _ x y _ => unwritable x || unwritable y
  | STern x y z => unwritable x || unwritable y || unwritable z
  | SAssign x ps _ => unwritable x || any ps
  | SIf x b e c => unwritable x || any b || any e || any c
  | STry b c => any b || any c
  | SThrow x | SReturn x => unwritable x
  | SLoop x y z w b => unwritable x || unwritable y || unwritable z || unwritable w || any b
  | SFunc _ _ _ b ps _ _ => any b || existsb (fun p => match p with (d, _, _) => unwritable d end) ps
  | _ => false
  end.

(** json.Marshal(&ast.ModuleStatement); [None] is the error. *)
Definition Marshal (m : module) : option json :=
  if match m_body m with None => false | Some l => existsb unwritable l end then None else Some (JSON m).
