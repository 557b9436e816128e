(** The text of an error, as [err.Error()] returns it (C68): the formats of ast.go:60, :79, :85, :93, :107, :152,
    ast_struct.go:295, :304, :318, grammar.y:154, tokens.go:165-277, :397, and the verb %q of package fmt, which is
    strconv.Quote.  Two parts of the standard library are parameters: [ip] is [strconv.IsPrint], a table of Unicode,
    and [why] is what [time.Parse] says behind the date it rejects. *)
From Verif Require Import Bytes Utf8 Float64 Lexer Parser.

(** The last [n] hexadecimal digits of [r]: [lowerhex[r>>s & 0xF]] for s = 4 (n - 1), ..., 0 (strconv/quote.go). *)
Definition hex_digit (d : Z) : byte := if d <? 10 then z2b (48 + d) else z2b (87 + d).
Fixpoint hex_text (n : nat) (r : Z) : bytes :=
  match n with O => [] | S n' => hex_digit ((r / 16 ^ Z.of_nat n') mod 16) :: hex_text n' r end.

(** [appendEscapedRune] (strconv/quote.go) with the quote character U+0022. *)
Definition escape (ip : Z -> bool) (r : Z) : bytes :=
  if (r =? 34) || (r =? 92) then [z2b 92; z2b r]
  else if ip r then encode r
  else if r =? 7 then B "\a" else if r =? 8 then B "\b" else if r =? 12 then B "\f" else if r =? 10 then B "\n"
  else if r =? 13 then B "\r" else if r =? 9 then B "\t" else if r =? 11 then B "\v"
  else if (r <? 32) || (r =? 127) then B "\x" ++ hex_text 2 r
  else if r <? 65536 then B "\u" ++ hex_text 4 r
  else B "\U" ++ hex_text 8 r.

(** The loop of [appendQuotedWith]: bytes that are no characters are written as [\x]. *)
Fixpoint quote_fuel (ip : Z -> bool) (n : nat) (s : bytes) : bytes :=
  match n with
  | O => []
  | S n' =>
    match s with
    | [] => []
    | b :: _ =>
      let '(r, w) := decode s in
      (if (r =? RuneError) && Nat.eqb w 1 then B "\x" ++ hex_text 2 (b2z b) else escape ip r) ++ quote_fuel ip n' (skipn w s)
    end
  end.
Definition quote (ip : Z -> bool) (s : bytes) : bytes := z2b 34 :: quote_fuel ip (length s) s ++ [z2b 34].

(** The verb %d. *)
Definition int_text (n : Z) : bytes := if n <? 0 then B "-" ++ dec_of_Z (- n) else dec_of_Z n.

(** The texts handed to [Error]. *)
Definition msg_text (ip : Z -> bool) (m : emsg) : bytes :=
  match m with
  | MSyntax => B "syntax error"                                                                             (* y.go:453 *)
  | MSemicolon => B "semicolon (;) is expected"                                                             (* grammar.y:154 *)
  | MLoopOp l => B "operator " ++ quote ip l ++ B " can only be used inside a loop"                         (* ast.go:85 *)
  | MThrow l => B "operator " ++ quote ip l ++ B " without arguments can only be used when handling an exception"   (* ast.go:93 *)
  | MReturn => B "procedure cannot return a value"                                                          (* ast.go:107 *)
  | MVarDup n => B "variable has already been defined: with the specified name " ++ quote ip n              (* ast.go:28, :152 *)
  | MGlobalDup n => B "variable has already been defined: with the specified name " ++ quote ip n           (* ast_struct.go:304 *)
  | MGlobalPlace => B "variable declarations must be placed at the beginning of the module"                 (* ast_struct.go:295 *)
  | MFuncPlace => B "procedure and function definitions should be placed before the module body statements" (* ast_struct.go:318 *)
  end.

(** [NumError.Error] (strconv/atof.go): ParseFloat rejects a literal for its form or for its size. *)
Definition number_reason (lit : bytes) : bytes :=
  let '(a, b) := split_dot lit in
  let ds := a ++ match b with Some f => f | None => [] end in
  if forallb is_digit_byte ds && negb (Nat.eqb (length ds) 0) then B "value out of range" else B "invalid syntax".
(** The function [quote] of package time (time/format.go), byte by byte: characters that are not ASCII are escaped bytewise. *)
Definition time_escape (b : byte) : bytes :=
  if (128 <=? b2z b) || (b2z b <? 32) then B "\x" ++ hex_text 2 (b2z b)
  else if (b2z b =? 34) || (b2z b =? 92) then [z2b 92; b] else [b].
Definition time_quote (s : bytes) : bytes := z2b 34 :: flat_map time_escape s ++ [z2b 34].
(** The errors of the scanner. *)
Definition lex_text (ip : Z -> bool) (why : bytes -> bytes) (e : lexerr) : bytes :=
  match e with
  | LEol => B "unexpected EOL"
  | LEof => B "unexpected EOF"
  | LDateConst => B "incorrect Date type constant"
  | LIdentAfterNumber => B "identifier immediately follow the number"
  | LSyntax l => B "syntax error " ++ quote ip l
  | LNumber l => B "strconv.ParseFloat: parsing " ++ quote ip l ++ B ": " ++ number_reason l
  | LDate_ l => B "parsing time " ++ time_quote l ++ why l
  | LFuel => []
  end.

(** [errors.Wrap] of ast.go:60 and [fmt.Errorf] of ast.go:79. *)
Definition error_text (ip : Z -> bool) (why : bytes -> bytes) (e : perr) : bytes :=
  match e with
  | ELex x => B "get token error: " ++ lex_text ip why x
  | EParse m line col lit =>
    msg_text ip m ++ B ". line: " ++ int_text line ++ B ", column: " ++ int_text col ++ B " (unexpected literal: " ++ quote ip lit ++ B ")"
  end.
