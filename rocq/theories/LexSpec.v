(** Specifications used by the theorems about the scanner.  They refer to the
    language (characters, words, comments, literals), not to the scanner's
    helper functions; only the UTF-8 coding and the token codes are shared. *)
From Verif Require Import Bytes Utf8 UnicodeTables Float64 GoTime Ast Lexer.

(** ** Characters *)
Definition space_char (c : Z) : Prop := c = 32 \/ c = 9 \/ c = 13 \/ c = 10.
Definition digit_char (c : Z) : Prop := 48 <= c <= 57.
(** A letter (Unicode category L) or an underscore. *)
Definition letter_char (c : Z) : Prop :=
  c = 95 \/ exists lo hi, In (lo, hi) letter_ranges /\ lo <= c <= hi.
Definition word_char (c : Z) : Prop := letter_char c \/ digit_char c.

(** [first_char s c]: the text [s] starts with the character [c] (U+FFFD for a
    byte that starts no character). *)
Definition first_char (s : bytes) (c : Z) : Prop := s <> [] /\ fst (decode s) = c.

(** The bytes of a text grouped into characters; a byte that does not start a
    valid sequence is a group of its own. *)
Inductive chars : bytes -> list bytes -> Prop :=
| chars_nil : chars [] []
| chars_cons c s r cs : c <> [] -> decode (c ++ s) = (r, length c) -> chars s cs ->
    chars (c ++ s) (c :: cs).

(** Lower case of one character: A-Z, А-Я and Ё. *)
Definition lower_rune (c : Z) : Z :=
  if (65 <=? c) && (c <=? 90) then c + 32
  else if (1040 <=? c) && (c <=? 1071) then c + 32
  else if c =? 1025 then 1105
  else c.
Definition upper_letter (c : Z) : Prop := 65 <= c <= 90 \/ 1040 <= c <= 1071 \/ c = 1025.
Definition lower_char (c : bytes) : bytes :=
  let r := fst (decode c) in if lower_rune r =? r then c else encode (lower_rune r).

(** ** Words *)
(** A word: a letter followed by letters and digits. *)
Definition is_word (w : list Z) : Prop :=
  exists c w', w = c :: w' /\ letter_char c /\ Forall word_char w'.
(** [w] and [w'] are the same word up to letter case. *)
Definition same_word (w w' : list Z) : Prop := Forall2 (fun a b => lower_rune a = lower_rune b) w w'.

(** The reserved words of the language, in their usual spelling. *)
Definition reserved : list (bytes * Z) :=
  [ (B "Процедура", tProcedure); (B "КонецПроцедуры", tEndProcedure);
    (B "Функция", tFunction); (B "КонецФункции", tEndFunction);
    (B "Перем", tVar); (B "Экспорт", tExport); (B "Знач", tValueParam);
    (B "Если", tIf); (B "Тогда", tThen); (B "ИначеЕсли", tElseIf); (B "Иначе", tElse);
    (B "КонецЕсли", tEndIf);
    (B "Для", tFor); (B "Каждого", tEach); (B "Из", tIn); (B "По", tTo); (B "Пока", tWhile);
    (B "Цикл", tLoop); (B "КонецЦикла", tEndLoop); (B "Прервать", tBreak);
    (B "Продолжить", tContinue);
    (B "Попытка", tTry); (B "Исключение", tCatch); (B "КонецПопытки", tEndTry);
    (B "ВызватьИсключение", tThrow); (B "Возврат", tReturn); (B "Перейти", tGoTo);
    (B "Новый", tNew); (B "Выполнить", tExecute);
    (B "И", tAnd); (B "ИЛИ", tOR); (B "НЕ", tNot);
    (B "Истина", tTrue); (B "Ложь", tFalse); (B "Неопределено", tUndefind) ].

(** The compilation directives, without the ampersand. *)
Definition directive_words : list bytes :=
  [ B "НаКлиенте"; B "НаСервере"; B "НаСервереБезКонтекста"; B "НаКлиентеНаСервереБезКонтекста";
    B "НаКлиентеНаСервере" ].
(** Characters that can start a token or the text between tokens (34 is the double quote). *)
Definition token_start (c : Z) : Prop :=
  letter_char c \/ digit_char c \/
  In c (map b2z (B "./;(),-+*?[]:%='<>&~#")) \/ c = 34 \/ space_char c.

(** ** Text between tokens *)
(** [line l]: [l] contains no line feed. *)
Definition line (l : bytes) : Prop := Forall (fun b => b2z b <> 10) l.
Definition nl : bytes := [z2b 10].

(** White space, comment lines and # lines. *)
Inductive trivia : bytes -> Prop :=
| tr_nil : trivia []
| tr_space b w : space_char (b2z b) -> trivia w -> trivia (b :: w)
| tr_comment l w : line l -> trivia w -> trivia (B "//" ++ l ++ nl ++ w)
| tr_hash l w : line l -> trivia w -> trivia (B "#" ++ l ++ nl ++ w).
(** The same at the very end of a text, where the last line may be unfinished. *)
Inductive last_trivia : bytes -> Prop :=
| lt_trivia w : trivia w -> last_trivia w
| lt_comment w l : trivia w -> line l -> last_trivia (w ++ B "//" ++ l)
| lt_hash w l : trivia w -> line l -> last_trivia (w ++ B "#" ++ l).
Definition blanks (w : bytes) : Prop := Forall (fun b => space_char (b2z b)) w.

(** ** String literals *)
(** Text between the quotes: quotes doubled, line breaks followed by a bar. *)
Inductive str_body : list Z -> Prop :=
| sb_nil : str_body []
| sb_char c w : valid_rune c = true -> c <> 34 -> c <> 10 -> str_body w -> str_body (c :: w)
| sb_quote w : str_body w -> str_body (34 :: 34 :: w)
| sb_break w : str_body w -> str_body (10 :: 124 :: w).

(** What may stand between a line break inside a literal and the bar that
    continues it: white space, and after a comment line any trivia. *)
Definition line_gap (t : bytes) : Prop :=
  blanks t \/ exists b l w, blanks b /\ line l /\ trivia w /\ t = b ++ B "//" ++ l ++ nl ++ w.

(** [str_text en s v rest]: the text [s] after an opening quote [en] is the rest
    of a quoted literal with content [v]; after the literal and the white space
    behind it the text [rest] remains.  [en] is the double quote for strings and
    the apostrophe for dates.  Literals separated by white space only are joined
    (the second one always opens with a double quote). *)
Inductive str_text (en : Z) : bytes -> list Z -> bytes -> Prop :=
| st_end b rest : blanks b ->
    (forall c, first_char rest c -> ~ space_char c /\ c <> 34) ->
    str_text en (z2b en :: b ++ rest) [] rest
| st_char s v rest r k : s <> [] -> decode s = (r, k) -> r <> 10 -> r <> en ->
    str_text en (skipn k s) v rest -> str_text en s (r :: v) rest
| st_quote s v rest : str_text en s v rest ->
    str_text en (z2b en :: z2b 34 :: s) (34 :: 34 :: v) rest
| st_break t s v rest : line_gap t -> str_text en s v rest ->
    str_text en (z2b 10 :: t ++ z2b 124 :: s) (10 :: 124 :: v) rest
| st_join b s v rest : blanks b -> b <> [] -> str_text en s v rest ->
    str_text en (z2b en :: b ++ z2b 34 :: s) v rest.

(** ** Reading one token *)
(** The text that a token state has still to read. *)
Definition rest_of (code : bytes) (t : token) : bytes := skipn (tk_off t) code.
(** Two tokens with the same kind, literal and value. *)
Definition same_token (a b : Z * token) : Prop :=
  fst a = fst b /\ tk_lit (snd a) = tk_lit (snd b) /\ tk_value (snd a) = tk_value (snd b).
(** Two calls of Next with the same outcome: same kind, error, literal and value,
    and the same text left to read. *)
Definition same_step (c1 : bytes) (r1 : Z * token * option lexerr)
                     (c2 : bytes) (r2 : Z * token * option lexerr) : Prop :=
  same_token (fst r1) (fst r2) /\ snd r1 = snd r2 /\
  tk_prevDot (snd (fst r1)) = tk_prevDot (snd (fst r2)) /\
  rest_of c1 (snd (fst r1)) = rest_of c2 (snd (fst r2)).
(** [yields code t k lit rest]: the call of Next at the token [t] returns kind
    [k] without error, with literal [lit], leaving the text [rest]. *)
Definition yields (code : bytes) (t : token) (k : Z) (lit rest : bytes) : Prop :=
  exists t', Next code t = (k, t', None) /\ tk_lit t' = lit /\ rest_of code t' = rest.
(** [rejects code t]: the call of Next at [t] returns an error. *)
Definition rejects (code : bytes) (t : token) : Prop :=
  exists k t' e, Next code t = (k, t', Some e).

(** The state of a fresh scanner, or after a token that is not a dot. *)
Definition not_after_dot (code : bytes) (t : token) : Prop :=
  t = zero_token \/ exists t0 k e, Next code t0 = (k, t, e) /\ k <> 46.
(** The state right after a dot that does not itself follow a dot. *)
Definition after_dot (code : bytes) (t : token) : Prop :=
  exists t0 e, not_after_dot code t0 /\ Next code t0 = (46, t, e).
(** The text [s] does not start with a letter, a digit or an underscore. *)
Definition word_ends (s : bytes) : Prop := forall c, first_char s c -> ~ word_char c.

(** All the tokens of a text from a token state on. *)
Inductive lexes (code : bytes) : token -> list (Z * token) -> Prop :=
| lx_end t t' : Next code t = (EOF, t', None) -> lexes code t []
| lx_tok t k t' l : Next code t = (k, t', None) -> k <> EOF -> lexes code t' l ->
    lexes code t ((k, t') :: l).
(** The text has a lexical error from a token state on. *)
Inductive lex_error (code : bytes) : token -> Prop :=
| le_here t : rejects code t -> lex_error code t
| le_later t k t' : Next code t = (k, t', None) -> k <> EOF -> lex_error code t' -> lex_error code t.
