(** Outcomes that say the same about two texts.  Specification (C50). *)
From Verif Require Import Bytes Utf8 Float64 GoTime Ast Lexer Tok Lexical Where Parser.
Open Scope Z_scope.

(** The same message; the word a message quotes is as the text spells it. *)
Definition same_message (m1 m2 : emsg) : Prop :=
  match m1, m2 with
  | MLoopOp _, MLoopOp _ => True
  | MThrow _, MThrow _ => True
  | _, _ => m1 = m2
  end.
(** [about code pre k m e]: the error [e] gives the message [m] for the token [k] behind
    the tokens [pre] of the text [code], with its spelling and place. *)
Definition about (code : bytes) (pre : list tk) (k : tk) (m : emsg) (e : perr) : Prop :=
  exists line col lit before y rest, e = EParse m line col lit /\ written code pre k before y rest /\ shown k y lit /\
    (exists c, place (before ++ y) line c /\ col = c - Z.of_nat (length (runes lit))) /\ (plain k = true -> place before line col).
Definition same_error (l : list tk) (code1 code2 : bytes) (e1 e2 : option perr) : Prop :=
  match e1, e2 with
  | None, None => True
  | Some e1, Some e2 => exists m1 m2 pre k post, l = pre ++ k :: post /\ same_message m1 m2 /\ about code1 pre k m1 e1 /\ about code2 pre k m2 e2
  | _, _ => False
  end.
(** Both calls panic in the same way, or both return: the same module, and no error or
    the same error for the same token. *)
Definition same_outcome (l : list tk) (code1 code2 : bytes) (r1 r2 : option (res (astnode * option perr))) : Prop :=
  match r1, r2 with
  | Some (Ok (a1, e1)), Some (Ok (a2, e2)) => a_module a1 = a_module a2 /\ same_error l code1 code2 e1 e2
  | Some (Panic p), Some (Panic q) => p = q
  | _, _ => False
  end.
