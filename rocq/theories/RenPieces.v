(** Changing names, literals and faults in any text, also in one with errors.
    Specification (C69). *)
From Verif Require Import Bytes Utf8 Float64 GoTime Ast Lexer LexSpec Tok Lexical Where Faults Parser Same Pieces Rename.
Open Scope Z_scope.

(** A piece with its name or literal exchanged; [g] says which fault stands in for a fault. *)
Definition ren_piece (r : ren) (g : lexerr -> lexerr) (p : piece) : piece :=
  match p with inl k => inl (ren_tk r k) | inr e => inr (g e) end.
(** The tokens among the pieces. *)
Definition toks_in (l : list piece) : list tk := flat_map (fun p => match p with inl k => [k] | inr _ => [] end) l.
(** Two messages quote a name. *)
Definition ren_message (r : ren) (m : emsg) : emsg :=
  match m with
  | MVarDup n => MVarDup (r_name r n)
  | MGlobalDup n => MGlobalDup (r_name r n)
  | m => m
  end.
(** No error in both; the error of the scanner and the one that stands in for it; or the
    message with its name exchanged, for the same token. *)
Definition ren_told (r : ren) (g : lexerr -> lexerr) (l : list piece) (code1 code2 : bytes) (e1 e2 : option perr) : Prop :=
  match e1, e2 with
  | None, None => True
  | Some (ELex x), Some (ELex y) => y = g x
  | Some e1, Some e2 => exists m1 m2 pre k post, l = pre ++ inl k :: post /\ same_message (ren_message r m1) m2 /\
      about_piece code1 pre k m1 e1 /\ about_piece code2 (map (ren_piece r g) pre) (ren_tk r k) m2 e2
  | _, _ => False
  end.
(** Both calls panic in the same way, or both return: the module with the names and
    literals exchanged, and no error or the corresponding one. *)
Definition ren_end (r : ren) (g : lexerr -> lexerr) (l : list piece) (code1 code2 : bytes) (r1 r2 : option (res (astnode * option perr))) : Prop :=
  match r1, r2 with
  | Some (Ok (a1, e1)), Some (Ok (a2, e2)) => a_module a2 = ren_module r (a_module a1) /\ ren_told r g l code1 code2 e1 e2
  | Some (Panic p), Some (Panic q) => p = q
  | _, _ => False
  end.
