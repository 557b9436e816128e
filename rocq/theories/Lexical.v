(** The lexical grammar of the language: which sequence of tokens a text is, as a
    relation on texts that does not mention the scanner.  Specification. *)
From Verif Require Import Bytes Utf8 Float64 GoTime Ast Lexer LexSpec NumSpec Tok.
Open Scope Z_scope.

(** [word_token dot w k]: the word [w] is the token [k].  Behind a dot ([dot])
    every word is a name. *)
Inductive word_token : bool -> list Z -> tk -> Prop :=
| wt_dot w : word_token true w (KId (string_of_runes w))
| wt_name w : (forall r c, In (r, c) reserved -> ~ same_word w (runes r)) ->
    word_token false w (KId (string_of_runes w))
| wt_execute w r : In (r, tExecute) reserved -> same_word w (runes r) ->
    word_token false w (KExec (string_of_runes w))
| wt_reserved w r c : In (r, c) reserved -> c <> tExecute -> same_word w (runes r) ->
    word_token false w (K c).

(** [one_token dot x k rest]: the text [x] starts with the token [k], and [rest] is
    the text behind it.  Words, numbers and labels are as long as possible; white
    space behind a quoted literal belongs to it. *)
Inductive one_token (dot : bool) : bytes -> tk -> bytes -> Prop :=
| ot_word w k rest : is_word w -> word_ends rest -> word_token dot w k ->
    one_token dot (string_of_runes w ++ rest) k rest
| ot_number ip fr f rest : digits ip -> ip <> [] -> (forall d, fr = Some d -> digits d) ->
    (forall c, first_char rest c -> ~ digit_char c /\ c <> 46 /\ ~ letter_char c) ->
    (num_Q ip fr < inject_Z overflow_bound)%Q -> nearest (num_Q ip fr) f ->
    one_token dot (num_text ip fr ++ rest) (KNum f) rest
| ot_string s v rest : str_text 34 s v rest -> one_token dot (z2b 34 :: s) (KStr (string_of_runes v)) rest
| ot_date s v d rest : str_text 39 s v rest -> date_digits (digits_of v) d ->
    one_token dot (z2b 39 :: s) (KDate d) rest
| ot_directive w d rest : Forall word_char w -> word_ends rest -> In d directive_words -> same_word w (runes d) ->
    one_token dot (B "&" ++ string_of_runes w ++ rest) (KDir (B "&" ++ string_of_runes w)) rest
| ot_label w rest : Forall word_char w -> word_ends rest ->
    one_token dot (B "~" ++ string_of_runes w ++ rest) (KLabel (string_of_runes w)) rest
| ot_mark b rest : In b (B ".;(),-+*?[]:%") -> one_token dot (b :: rest) (K (b2z b)) rest
| ot_slash rest : ~ first_char rest 47 -> one_token dot (B "/" ++ rest) (K 47) rest
| ot_equal rest : one_token dot (B "=" ++ rest) (K tEQUAL) rest
| ot_unequal rest : one_token dot (B "<>" ++ rest) (K tNeEQ) rest
| ot_less_equal rest : one_token dot (B "<=" ++ rest) (K tLE) rest
| ot_greater_equal rest : one_token dot (B ">=" ++ rest) (K tGE) rest
| ot_less rest : (forall c, first_char rest c -> c <> 61 /\ c <> 62) -> one_token dot (B "<" ++ rest) (K 60) rest
| ot_greater rest : (forall c, first_char rest c -> c <> 61) -> one_token dot (B ">" ++ rest) (K 62) rest.

(** Whether what follows the token [k] stands behind a dot.  A dot directly behind a
    dot cancels it. *)
Definition behind (dot : bool) (k : tk) : bool :=
  match k with K 46 => negb dot | _ => false end.

(** [text_of dot s l]: the text [s] consists of the tokens [l] with white space,
    comment lines and # lines between them. *)
Inductive text_of : bool -> bytes -> list tk -> Prop :=
| to_end dot w : last_trivia w -> text_of dot w []
| to_token dot w x k rest l : trivia w -> one_token dot x k rest -> text_of (behind dot k) rest l ->
    text_of dot (w ++ x) (k :: l).
