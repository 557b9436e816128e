(** The tokens of a text that has lexical errors: its faults are left out.  Specification
    (C14, C48, C49, C52). *)
From Verif Require Import Bytes Utf8 Float64 GoTime Ast Lexer LexSpec NumSpec Tok Lexical Where Faults.
Open Scope Z_scope.

(** [left_out code l dot s]: reading the text [code] from its start, past its faults, gives the
    tokens [l] and leaves the end part [s] ([dot]: as in [text_of]). *)
Inductive left_out (code : bytes) : list tk -> bool -> bytes -> Prop :=
| lo_start : left_out code [] false code
| lo_token l dot w x k rest : left_out code l dot (w ++ x) -> trivia w -> one_token dot x k rest -> left_out code (l ++ [k]) (behind dot k) rest
| lo_fault l dot w x e rest : left_out code l dot (w ++ x) -> trivia w -> fault x e rest -> left_out code l false rest
| lo_end l dot w : left_out code l dot w -> last_trivia w -> left_out code l false [].
(** [reads_off code l]: the tokens of [code], without its faults, begin with [l]. *)
Definition reads_off (code : bytes) (l : list tk) : Prop := exists dot s, left_out code l dot s.
(** [written_off code pre k before y rest]: in the text [code] the token [k], behind the tokens
    [pre] and any faults, is the part [y] between [before] and [rest]. *)
Definition written_off (code : bytes) (pre : list tk) (k : tk) (before y rest : bytes) : Prop :=
  exists dot w, left_out code pre dot (w ++ y ++ rest) /\ trivia w /\ one_token dot (y ++ rest) k rest /\ code = before ++ y ++ rest.
