(** Texts as sequences of tokens and faults.  Specification (C67). *)
From Verif Require Import Bytes Utf8 Float64 GoTime Ast Lexer LexSpec Tok Lexical Where Faults Parser Same.
Open Scope Z_scope.

(** A piece of a text: a token, or a fault with the error that names it. *)
Definition piece : Type := (tk + lexerr)%type.
(** [pieces_of dot s l]: the text [s] is the sequence [l] of tokens and faults, with trivia
    between them ([dot]: as in [text_of]; behind a fault reading goes on as [fault] says). *)
Inductive pieces_of : bool -> bytes -> list piece -> Prop :=
| po_end dot w : last_trivia w -> pieces_of dot w []
| po_token dot w x k rest l : trivia w -> one_token dot x k rest -> pieces_of (behind dot k) rest l -> pieces_of dot (w ++ x) (inl k :: l)
| po_fault dot w x e rest l : trivia w -> fault x e rest -> pieces_of false rest l -> pieces_of dot (w ++ x) (inr e :: l).
(** [reading_to code l dot s]: reading the text [code] from its start through the pieces
    [l] gets to its end part [s]. *)
Inductive reading_to (code : bytes) : list piece -> bool -> bytes -> Prop :=
| rt_start : reading_to code [] false code
| rt_token l dot w x k rest : reading_to code l dot (w ++ x) -> trivia w -> one_token dot x k rest -> reading_to code (l ++ [inl k]) (behind dot k) rest
| rt_fault l dot w x e rest : reading_to code l dot (w ++ x) -> trivia w -> fault x e rest -> reading_to code (l ++ [inr e]) false rest
| rt_end l dot w : reading_to code l dot w -> last_trivia w -> reading_to code l false [].
(** [token_behind code pre k before y rest]: in the text [code] the token [k], behind the
    pieces [pre], is the part [y] between [before] and [rest]. *)
Definition token_behind (code : bytes) (pre : list piece) (k : tk) (before y rest : bytes) : Prop :=
  exists dot w, reading_to code pre dot (w ++ y ++ rest) /\ trivia w /\ one_token dot (y ++ rest) k rest /\ code = before ++ y ++ rest.
(** [about_piece code pre k m e]: the error [e] gives the message [m] for the token [k]
    behind the pieces [pre] of the text [code], with its spelling and place. *)
Definition about_piece (code : bytes) (pre : list piece) (k : tk) (m : emsg) (e : perr) : Prop :=
  exists line col lit before y rest, e = EParse m line col lit /\ token_behind code pre k before y rest /\ shown k y lit /\
    (exists c, place (before ++ y) line c /\ col = c - Z.of_nat (length (runes lit))) /\ (plain k = true -> place before line col).
(** No error in both; the same error of the scanner; or the same message for the same token. *)
Definition same_told (l : list piece) (code1 code2 : bytes) (e1 e2 : option perr) : Prop :=
  match e1, e2 with
  | None, None => True
  | Some (ELex x), Some (ELex y) => x = y
  | Some e1, Some e2 => exists m1 m2 pre k post, l = pre ++ inl k :: post /\ same_message m1 m2 /\ about_piece code1 pre k m1 e1 /\ about_piece code2 pre k m2 e2
  | _, _ => False
  end.
(** Both calls panic in the same way, or both return: the same module, and no error or the
    same error. *)
Definition same_end (l : list piece) (code1 code2 : bytes) (r1 r2 : option (res (astnode * option perr))) : Prop :=
  match r1, r2 with
  | Some (Ok (a1, e1)), Some (Ok (a2, e2)) => a_module a1 = a_module a2 /\ same_told l code1 code2 e1 e2
  | Some (Panic p), Some (Panic q) => p = q
  | _, _ => False
  end.
