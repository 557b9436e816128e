(** Functions of package ast that Parse, Print and Walk do not use. *)
From Verif Require Import Bytes Utf8 Ast Lexer.

(** fastToLower_old, tokens.go:442-455: writes the lower case of each rune of the string. *)
Definition fastToLower_old (s : bytes) : bytes :=
  string_of_runes (map (fun rn => if ((1040 <=? rn) && (rn <=? 1071)) || ((65 <=? rn) && (rn <=? 90)) then rn + 32  (* :446 *)
                                  else if rn =? 1025 then 1105                                                  (* :448 *)
                                  else rn) (runes s)).

(** IsDigit, tokens.go:423-430. *)
Definition IsDigit (s : bytes) : bool := forallb (fun c => negb ((c <? 48) || (57 <? c))) (runes s).

(** CallChainStatement.IsMethod, ast_struct.go:232-235; [None] for other types, which do
    not have the method. *)
Definition IsMethod (s : stmt) : option bool :=
  match s with
  | SChain (SMethod _ _ _ _) _ _ => Some true
  | SChain _ _ _ => Some false
  | _ => None
  end.
