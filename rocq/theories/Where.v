(** Places in a text, and the token at which a sequence of tokens stops making sense.
    Specification (C46, C47). *)
From Verif Require Import Bytes Utf8 Float64 GoTime Ast Lexer LexSpec NumSpec Grammar Tok Declared Lexical.
Open Scope Z_scope.

(** * Places *)
Definition LF : byte := z2b 10.
(** [place before line col]: what follows [before] is on line [line] (counted from 1),
    with [col] characters before it on that line. *)
Definition place (before : bytes) (line col : Z) : Prop :=
  exists (ls : list bytes) (v : bytes), before = concat (map (fun l => l ++ [LF]) ls) ++ v /\ Forall (fun l => ~ In LF l) ls /\ ~ In LF v /\
    line = 1 + Z.of_nat (length ls) /\ col = Z.of_nat (length (runes v)).
(** [starts dot s l dot' rest]: the text [s] starts with the tokens [l], and [rest] is
    the text behind them ([dot], [dot']: as in [text_of]). *)
Inductive starts : bool -> bytes -> list tk -> bool -> bytes -> Prop :=
| st_nil dot s : starts dot s [] dot s
| st_token dot w x k rest l dot' s' : trivia w -> one_token dot x k rest -> starts (behind dot k) rest l dot' s' ->
    starts dot (w ++ x) (k :: l) dot' s'.
(** [written code pre k before y rest]: in the text [code] the token [k], behind the
    tokens [pre], is the part [y] between [before] and [rest]. *)
Definition written (code : bytes) (pre : list tk) (k : tk) (before y rest : bytes) : Prop :=
  exists dot w, starts false code pre dot (w ++ y ++ rest) /\ trivia w /\ one_token dot (y ++ rest) k rest /\ code = before ++ y ++ rest.
(** Tokens that are shown the way they are written: all but strings, dates and labels. *)
Definition plain (k : tk) : bool := match k with KStr _ | KDate _ | KLabel _ => false | _ => true end.

(** * The first wrong token *)
Definition sentence (l : list tk) : Prop := derives n_module (map kind_of l).
Definition unsigned (l : list tk) : Prop := unsigned_toks false l = true.
(** [u] is the beginning of a sentence (of one without signed default values, if [u]
    has none). *)
Definition can_begin (u : list tk) : Prop := exists r, sentence (u ++ r) /\ (unsigned u -> unsigned (u ++ r)).
(** No sentence without signed default values begins with [u]. *)
Definition cannot_begin (u : list tk) : Prop := forall r, sentence (u ++ r) -> ~ unsigned (u ++ r).
(** [blamed l pre k]: the token [k] behind [pre] is the first wrong one of [l]; or [l]
    ends too early, and [k] is its last token. *)
Definition blamed (l pre : list tk) (k : tk) : Prop :=
  (exists post, l = pre ++ k :: post /\ can_begin pre /\ cannot_begin (pre ++ [k])) \/
  (l = pre ++ [k] /\ can_begin l /\ ~ (sentence l /\ unsigned l)).
(** What the message shows of the token [k] written [y]. *)
Definition shown (k : tk) (y lit : bytes) : Prop :=
  match k with
  | KStr s => lit = s
  | KLabel n => lit = n
  | KDate d => exists ds, date_digits ds d /\ lit = digit_text ds
  | _ => lit = y
  end.
