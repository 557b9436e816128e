(** What can be wrong with a text before it is a sequence of tokens, and where reading
    goes on behind a fault.  Specification (C51). *)
From Verif Require Import Bytes Utf8 Float64 GoTime Ast Lexer LexSpec NumSpec Tok Lexical Where.
Open Scope Z_scope.

(** [str_opens en s x]: the text [s] after an opening quote [en] starts with a part of a
    quoted literal that is not yet closed, and [x] is the text behind that part. *)
Inductive str_opens (en : Z) : bytes -> bytes -> Prop :=
| so_here s : str_opens en s s
| so_char s x r k : s <> [] -> decode s = (r, k) -> r <> 10 -> r <> en -> str_opens en (skipn k s) x -> str_opens en s x
| so_quote s x : str_opens en s x -> str_opens en (z2b en :: z2b 34 :: s) x
| so_break t s x : line_gap t -> str_opens en s x -> str_opens en (z2b 10 :: t ++ z2b 124 :: s) x
| so_join b s x : blanks b -> b <> [] -> str_opens en s x -> str_opens en (z2b en :: b ++ z2b 34 :: s) x.

(** Digits and dots that are not a number: two dots, or too large for a float64. *)
Definition no_number (n : bytes) : Prop :=
  (exists a b c, n = a ++ B "." ++ b ++ B "." ++ c) \/
  (exists ip fr, digits ip /\ ip <> [] /\ (forall d, fr = Some d -> digits d) /\ n = num_text ip fr /\ (inject_Z overflow_bound <= num_Q ip fr)%Q).
Definition digit_or_dot (b : byte) : Prop := digit_char (b2z b) \/ b2z b = 46.

(** [fault x e rest]: the text [x] starts with the fault that the error [e] names, and
    reading goes on with [rest]. *)
Inductive fault : bytes -> lexerr -> bytes -> Prop :=
(* a quoted literal that is not closed at the end of the text *)
| fa_eof en s : en = 34 \/ en = 39 -> str_opens en s [] -> fault (z2b en :: s) LEof []
(* a line break inside a quoted literal, without a bar on the next line *)
| fa_eol en s u t rest : en = 34 \/ en = 39 -> str_opens en s (LF :: u) -> (forall g s', line_gap g -> u <> g ++ B "|" ++ s') ->
    u = t ++ rest -> line_gap t \/ (rest = [] /\ last_trivia u) -> fault (z2b en :: s) LEol rest
(* a date literal without a digit; with digits that are not a date *)
| fa_no_digit s v rest : str_text 39 s v rest -> digits_of v = [] -> fault (z2b 39 :: s) LDateConst rest
| fa_no_date s v rest : str_text 39 s v rest -> digits_of v <> [] -> (forall d, ~ date_digits (digits_of v) d) ->
    fault (z2b 39 :: s) (LDate_ (digit_text (digits_of v))) rest
(* a number directly followed by a letter; digits and dots that are not a number *)
| fa_letter n rest c : Forall digit_or_dot n -> (exists d, first_char n d /\ digit_char d) -> first_char rest c -> letter_char c ->
    fault (n ++ rest) LIdentAfterNumber rest
| fa_number n rest : Forall digit_or_dot n -> (exists d, first_char n d /\ digit_char d) -> no_number n ->
    (forall c, first_char rest c -> ~ digit_char c /\ c <> 46 /\ ~ letter_char c) -> fault (n ++ rest) (LNumber n) rest
(* an ampersand that no directive follows *)
| fa_directive w rest : Forall word_char w -> word_ends rest -> (forall d, In d directive_words -> ~ same_word w (runes d)) ->
    fault (B "&" ++ string_of_runes w ++ rest) (LSyntax (B "&")) (string_of_runes w ++ rest)
(* a character that starts no token.  Two private-use characters have the codes of the
   scanner's kinds of numbers and dates, and are reported as a bad number or date. *)
| fa_char x c k : x <> [] -> decode x = (c, k) -> ~ token_start c ->
    fault x (if c =? tNumber then LNumber (encode c) else if c =? tDate then LDate_ (encode c) else LSyntax (encode c)) (skipn k x).

(** [reading code dot s]: reading the text [code] from its start, token by token and past
    its faults, gets to its end part [s] ([dot]: as in [text_of]). *)
Inductive reading (code : bytes) : bool -> bytes -> Prop :=
| rg_start : reading code false code
| rg_token dot w x k rest : reading code dot (w ++ x) -> trivia w -> one_token dot x k rest -> reading code (behind dot k) rest
| rg_fault dot w x e rest : reading code dot (w ++ x) -> trivia w -> fault x e rest -> reading code false rest
| rg_end dot w : reading code dot w -> last_trivia w -> reading code false [].
(** [read_token code k before y rest]: reading the text [code] gets to the token [k], written [y]
    between [before] and [rest]. *)
Definition read_token (code : bytes) (k : tk) (before y rest : bytes) : Prop :=
  exists dot w, reading code dot (w ++ y ++ rest) /\ trivia w /\ one_token dot (y ++ rest) k rest /\ code = before ++ y ++ rest.
(** [read_fault code e before x]: reading the text [code] gets to the fault [e] behind [before]. *)
Definition read_fault (code : bytes) (e : lexerr) (before x : bytes) : Prop :=
  exists dot w rest, reading code dot (w ++ x) /\ trivia w /\ fault x e rest /\ code = before ++ x.
(** [first_fault code e before x]: the text [code] starts with tokens and trivia [before], and
    then has the fault [e]. *)
Definition first_fault (code : bytes) (e : lexerr) (before x : bytes) : Prop :=
  exists l dot w rest, starts false code l dot (w ++ x) /\ trivia w /\ fault x e rest /\ code = before ++ x.
