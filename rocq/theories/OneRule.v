(** Specification for C73: messages about the same rule, and violations that cannot stay unnoticed. *)
From Verif Require Import Bytes Float64 GoTime Ast Lexer Parser Tok Rules Broken.
Open Scope Z_scope.

(** The same rule, for variables of the same name. *)
Definition same_rule (m m' : emsg) : Prop :=
  match m, m' with
  | MLoopOp _, MLoopOp _ | MThrow _, MThrow _ | MReturn, MReturn | MGlobalPlace, MGlobalPlace | MSemicolon, MSemicolon => True
  | MVarDup n, MVarDup n' | MGlobalDup n, MGlobalDup n' => n = n'
  | _, _ => False
  end.
(** A broken rule; Прервать and Продолжить count only before the first Пока (C18), colons do not count (they are only
    looked at between statements that Parse keeps). *)
Definition sure (m : emsg) (l : list tk) : Prop :=
  match m with
  | MLoopOp _ => breaks_toks 0 (before_while l) = false
  | MSemicolon => False
  | _ => breaks_rule m l
  end.
