(** ast/tokens.go, at byte level.

    [t.offset] is represented inside one call of [next] by the suffix
    [srsCode[t.offset:]]: every function of tokens.go reads the text only
    through that suffix (GetPosition excepted), and [t.offset += size] drops
    [size <= len(suffix)] bytes from it (see [decode]).  Between calls the
    offset itself is kept ([tk_off]).  The [fmt.Println] of currentLet
    (tokens.go:363, a message on stdout for invalid UTF-8) is modelled in Loud.v. *)
From Verif Require Import Bytes Utf8 UnicodeTables Float64 GoTime Ast.

(** Token codes, y.go:36-80. *)
Definition tDirective := 57346.   Definition tIdent := 57347.
Definition tProcedure := 57348.   Definition tVar := 57349.
Definition tEndProcedure := 57350. Definition tIf := 57351.
Definition tThen := 57352.        Definition tElseIf := 57353.
Definition tElse := 57354.        Definition tEndIf := 57355.
Definition tFor := 57356.         Definition tEach := 57357.
Definition tIn := 57358.          Definition tTo := 57359.
Definition tLoop := 57360.        Definition tEndLoop := 57361.
Definition tBreak := 57362.       Definition tNot := 57363.
Definition tValueParam := 57364.  Definition tWhile := 57365.
Definition tGoToLabel := 57366.   Definition tContinue := 57367.
Definition tTry := 57368.         Definition tCatch := 57369.
Definition tEndTry := 57370.      Definition tNumber := 57371.
Definition tString := 57372.      Definition tNew := 57373.
Definition tFunction := 57374.    Definition tEndFunction := 57375.
Definition tReturn := 57376.      Definition tThrow := 57377.
Definition tNeEQ := 57378.        Definition tEQUAL := 57379.
Definition tLE := 57380.          Definition tGE := 57381.
Definition tOR := 57382.          Definition tAnd := 57383.
Definition tTrue := 57384.        Definition tFalse := 57385.
Definition tUndefind := 57386.    Definition tExport := 57387.
Definition tDate := 57388.        Definition tGoTo := 57389.
Definition tExecute := 57390.

(** tokens.go:39-79. *)
Definition keywords : list (bytes * Z) :=
  [ (B "процедура", tProcedure); (B "перем", tVar); (B "перейти", tGoTo);
    (B "конецпроцедуры", tEndProcedure); (B "знач", tValueParam); (B "если", tIf);
    (B "тогда", tThen); (B "иначеесли", tElseIf); (B "иначе", tElse);
    (B "конецесли", tEndIf); (B "для", tFor); (B "каждого", tEach);
    (B "из", tIn); (B "по", tTo); (B "цикл", tLoop); (B "конеццикла", tEndLoop);
    (B "прервать", tBreak); (B "продолжить", tContinue); (B "попытка", tTry);
    (B "новый", tNew); (B "исключение", tCatch); (B "пока", tWhile);
    (B "конецпопытки", tEndTry); (B "функция", tFunction);
    (B "конецфункции", tEndFunction); (B "возврат", tReturn);
    (B "вызватьисключение", tThrow); (B "и", tAnd); (B "или", tOR);
    (B "истина", tTrue); (B "ложь", tFalse); (B "неопределено", tUndefind);
    (B "не", tNot); (B "экспорт", tExport); (B "выполнить", tExecute) ].

(** tokens.go:81-87. *)
Definition directives : list (bytes * Z) :=
  [ (B "&наклиенте", tDirective); (B "&насервере", tDirective);
    (B "&насерверебезконтекста", tDirective);
    (B "&наклиентенасерверебезконтекста", tDirective);
    (B "&наклиентенасервере", tDirective) ].

Definition EOF : Z := -1.      (* ast.go:26 *)
Definition EOL : Z := 10.      (* tokens.go:34 *)
Definition cQuote : Z := 34.   (* double quote *)
Definition cApos : Z := 39.    (* 0x27 *)
Definition cSlash : Z := 47.   Definition cHash : Z := 35.
Definition cDot : Z := 46.     Definition cBar : Z := 124.

(** tokens.go:403-405. *)
Definition isLetter (c : Z) : bool := unicode_is_letter c || (c =? 95).
(** tokens.go:407-409. *)
Definition isDigit (c : Z) : bool := (48 <=? c) && (c <=? 57).
(** tokens.go:411-413. *)
Definition isSpace (c : Z) : bool := (c =? 32) || (c =? 9) || (c =? 13) || (c =? 10).

(** currentLet, tokens.go:354-368. *)
Definition cur (s : bytes) : Z := match s with [] => EOF | _ => fst (decode s) end.
(** nextPos, tokens.go:381-385. *)
Definition adv (s : bytes) : bytes := skipn (snd (decode s)) s.
(** nextLet, tokens.go:345-352. *)
Definition nextLet (s : bytes) : Z := cur (adv s).

(** skipSpace, tokens.go:304-308.  Fuel: length of the suffix. *)
Fixpoint skip_space_fuel (n : nat) (s : bytes) : bytes :=
  match n with
  | O => s
  | S n' => if isSpace (cur s) then skip_space_fuel n' (adv s) else s
  end.
Definition skipSpace (s : bytes) : bytes := skip_space_fuel (length s) s.

(** The loop of tokens.go:312-314 / 331-333: to the end of the line. *)
Fixpoint skip_line_fuel (n : nat) (s : bytes) : bytes :=
  match n with
  | O => s
  | S n' => if (cur s =? EOL) || (cur s =? EOF) then s else skip_line_fuel n' (adv s)
  end.
Definition skipLine (s : bytes) : bytes := skip_line_fuel (length s) s.

(** skipComment (tokens.go:310-326) and skipRegions (tokens.go:328-343),
    mutually recursive.  Fuel: each recursive call either follows the
    consumption of at least one byte or goes from skipRegions to skipComment
    without consuming; 2 * length + 2 suffices ([skip_fuels_enough]). *)
Fixpoint skip_comment_fuel (n : nat) (s : bytes) {struct n} : bytes :=
  match n with
  | O => s
  | S n' =>
    if (cur s =? cSlash) && (nextLet s =? cSlash) then
      let s1 := skipSpace (skipLine s) in
      if cur s1 =? cSlash then skip_comment_fuel n' s1
      else if cur s1 =? cHash then skip_regions_fuel n' s1
      else s1
    else s
  end
with skip_regions_fuel (n : nat) (s : bytes) {struct n} : bytes :=
  match n with
  | O => s
  | S n' =>
    let s1 := if cur s =? cHash then skipSpace (skipLine s) else s in
    if cur s1 =? cSlash then skip_comment_fuel n' s1
    else if cur s1 =? cHash then skip_regions_fuel n' s1
    else s1
  end.
Definition skip_fuel (s : bytes) : nat := (2 * length s + 2)%nat.
Definition skipComment (s : bytes) : bytes := skip_comment_fuel (skip_fuel s) s.
Definition skipRegions (s : bytes) : bytes := skip_regions_fuel (skip_fuel s) s.

(** scanIdentifier, tokens.go:242-256: runes collected and remaining suffix. *)
Fixpoint scan_ident_fuel (n : nat) (s : bytes) : list Z * bytes :=
  match n with
  | O => ([], s)
  | S n' => let c := cur s in
            if isLetter c || isDigit c
            then let '(r, s') := scan_ident_fuel n' (adv s) in (c :: r, s')
            else ([], s)
  end.
Definition scanIdentifier (s : bytes) : bytes * bytes :=
  let '(r, s') := scan_ident_fuel (length s) s in (string_of_runes r, s').

(** Errors of the scanner (messages of tokens.go). *)
Inductive lexerr :=
| LEol                       (* "unexpected EOL" :272 *)
| LEof                       (* "unexpected EOF" :277 *)
| LDateConst                 (* "incorrect Date type constant" :165 *)
| LIdentAfterNumber          (* "identifier immediately follow the number" :397 *)
| LSyntax (lit : bytes)      (* syntax error %q :222, :237 *)
| LNumber (lit : bytes)      (* error of strconv.ParseFloat :96 *)
| LDate_ (lit : bytes)       (* error of time.Parse :108 *)
| LFuel.                     (* model only: loop fuel exhausted, unreachable *)

(** scanString, tokens.go:258-302.  Each iteration starts with nextPos. *)
Fixpoint scan_string_fuel (n : nat) (en : Z) (acc : list Z) (s : bytes)
  : (list Z + lexerr) * bytes :=
  match n with
  | O => (inr LFuel, s)
  | S n' =>
    let s1 := adv s in                                    (* :263 *)
    let cl := cur s1 in
    if cl =? EOL then                                     (* :266 *)
      let s2 := skipComment (skipSpace (adv s1)) in       (* :267-270 *)
      let cl' := cur s2 in
      if negb (cl' =? cBar) && negb (isSpace cl') then (inr LEol, s2)   (* :271 *)
      else scan_string_fuel n' en (acc ++ [EOL; cl']) s2  (* :275 *)
    else if cl =? EOF then (inr LEof, s1)                 (* :276 *)
    else if cl =? en then                                 (* :278 *)
      if nextLet s1 =? cQuote then                        (* :280 *)
        scan_string_fuel n' en (acc ++ [cQuote; cQuote]) (adv s1)
      else
        let s2 := skipSpace (adv s1) in                   (* :285-286 *)
        if cur s2 =? cQuote then scan_string_fuel n' en acc s2   (* :291 *)
        else (inl acc, s2)                                (* :295 *)
    else scan_string_fuel n' en (acc ++ [cl]) s1          (* :297 *)
  end.
Definition scanString (en : Z) (s : bytes) : (bytes + lexerr) * bytes :=
  match scan_string_fuel (S (length s)) en [] s with
  | (inl r, s') => (inl (string_of_runes r), s')
  | (inr e, s') => (inr e, s')
  end.

(** scanNumber, tokens.go:387-401. *)
Fixpoint scan_number_fuel (n : nat) (s : bytes) : list Z * bytes :=
  match n with
  | O => ([], s)
  | S n' => let c := cur s in
            if isDigit c || (c =? cDot)
            then let '(r, s') := scan_number_fuel n' (adv s) in (c :: r, s')
            else ([], s)
  end.
Definition scanNumber (s : bytes) : (bytes + lexerr) * bytes :=
  let '(r, s') := scan_number_fuel (length s) s in
  if isLetter (cur s') then (inr LIdentAfterNumber, s')
  else (inl (string_of_runes r), s').

(** extractDigits, tokens.go:432-440. *)
Definition extractDigits (s : bytes) : bytes :=
  string_of_runes (filter isDigit (runes s)).

(** fastToLower, tokens.go:457-475: copies the bytes, then rewrites one byte for
    A-Z and two bytes for А-Я and Ё, walking the runes of the string. *)
Fixpoint lower_fuel (n : nat) (s : bytes) : bytes :=
  match n with
  | O => s
  | S n' =>
    match s with
    | [] => []
    | b0 :: _ =>
      let '(r, k) := decode s in
      let rest := lower_fuel n' (skipn k s) in
      if (65 <=? r) && (r <=? 90) then z2b (b2z b0 + 32) :: rest          (* :461 *)
      else if (1040 <=? r) && (r <=? 1071) then                            (* :463 *)
        match s with
        | c0 :: c1 :: _ =>
          if (b2z c0 =? 208) && (1055 <? r)
          then z2b (b2z c0 + 1) :: z2b (b2z c1 - 32) :: rest               (* :465 *)
          else c0 :: z2b (b2z c1 + 32) :: rest                             (* :467 *)
        | _ => s  (* not reachable: such a rune has two bytes *)
        end
      else if r =? 1025 then z2b 209 :: z2b 145 :: rest                    (* :470 *)
      else firstn k s ++ rest
    end
  end.
Definition fastToLower (s : bytes) : bytes := lower_fuel (length s) s.

(** Result of [next] (tokens.go:123): token code, literal, error. *)
Record lexres := LexRes { lr_tok : Z; lr_lit : bytes; lr_err : option lexerr }.

Definition punct (c : Z) : bool :=
  (c =? 47) || (c =? 59) || (c =? 40) || (c =? 41) || (c =? 44) || (c =? 45)
  || (c =? 43) || (c =? 42) || (c =? 63) || (c =? 91) || (c =? 93) || (c =? 58) || (c =? 37).

Definition is_some {A} (o : option A) : bool := match o with Some _ => true | None => false end.

(** next, tokens.go:123-240: result, remaining suffix, new value of prevDot. *)
Definition next (prevDot : bool) (s0 : bytes) : lexres * bytes * bool :=
  let s := skipRegions (skipComment (skipSpace s0)) in      (* :124-126 *)
  let c := cur s in
  let ok t l s' := (LexRes t l None, s', false) in
  let fail t l e s' := (LexRes t l (Some e), s', false) in
  if isLetter c then                                        (* :133 *)
    let '(lit, s') := scanIdentifier s in
    match (if prevDot then None else assoc (fastToLower lit) keywords) with
    | Some t => ok t lit s'
    | None => ok tIdent lit s'
    end
  else if c =? cDot then                                    (* :142-149; the deferred *)
    (LexRes c (encode c) None, adv s, negb prevDot)         (* reset of :128-130 wins *)
  else if isDigit c then                                    (* :150 *)
    match scanNumber s with
    | (inr e, s') => fail EOF [] e s'
    | (inl lit, s') => ok tNumber lit s'
    end
  else if c =? cApos then                                   (* :157 *)
    match scanString c s with
    | (inr e, s') => fail EOF [] e s'
    | (inl lit, s') =>
      match extractDigits lit with
      | [] => fail EOF [] LDateConst s'
      | d => ok tDate d s'
      end
    end
  else if punct c then ok c (encode c) (adv s)              (* :169 *)
  else if c =? 61 then ok tEQUAL (encode c) (adv s)         (* :172 *)
  else if c =? cQuote then                                  (* :175 *)
    match scanString c s with
    | (inr e, s') => fail EOF [] e s'
    | (inl lit, s') => ok tString lit s'
    end
  else if c =? 60 then                                      (* :182 *)
    if nextLet s =? 62 then ok tNeEQ (B "<>") (adv (adv s))
    else if nextLet s =? 61 then ok tLE (B "<=") (adv (adv s))
    else ok c (encode c) (adv s)
  else if c =? 62 then                                      (* :195 *)
    if nextLet s =? 61 then ok tGE (B ">=") (adv (adv s))
    else ok c (encode c) (adv s)
  else if c =? 38 then                                      (* :211 *)
    let s1 := adv s in
    let '(lit, s') := scanIdentifier s1 in
    match assoc (fastToLower (B "&" ++ lit)) directives with
    | Some t => ok t (B "&" ++ lit) s'
    | None => fail c (encode c) (LSyntax (encode c)) s1     (* offset restored :221 *)
    end
  else if c =? 126 then                                     (* :224 *)
    let '(lit, s') := scanIdentifier (adv s) in ok tGoToLabel lit s'
  else if c =? EOF then ok EOF [] (adv s)                   (* :229 *)
  else fail c (encode c) (LSyntax (encode c)) (adv s).      (* :237 *)

(** Token, tokens.go:24-31.  [tk_ast] tells whether the [ast] field is non-nil
    (it is set by the first call of Next); the unused [position] field is
    dropped.  [value] holds the dynamic value. *)
Record token := Token { tk_ast : bool; tk_value : stmt; tk_lit : bytes;
                        tk_off : nat; tk_prevDot : bool }.
(** [Token{}]. *)
Definition zero_token : token := Token false SNil [] 0 false.

(** Next, tokens.go:90-121.  The switch on the token code also runs when [next]
    reported an error (a private-use rune can coincide with a token code, in
    which case ParseFloat / time.Parse replace the error by their own). The
    value left behind by a failing conversion is not modelled (never read). *)
Definition Next (code : bytes) (t : token) : Z * token * option lexerr :=
  let '(r, s', pd) := next (tk_prevDot t) (skipn (tk_off t) code) in
  let tok := lr_tok r in
  let lit := lr_lit r in
  let off := (length code - length s')%nat in
  let mk v := Token true v lit off pd in
  let old := tk_value t in
  if tok =? tNumber then
    match parse_float lit with
    | Some f => (tok, mk (SNum f), None)
    | None => (tok, mk old, Some (LNumber lit))
    end
  else if tok =? tString then (tok, mk (SStr lit), lr_err r)
  else if tok =? tDate then
    if forallb (fun b => b2z b =? 48) lit then (tok, mk (STime zero_time), lr_err r)
    else match parse_date lit with
         | Some d => (tok, mk (STime d), None)
         | None => (tok, mk old, Some (LDate_ lit))
         end
  else if tok =? tUndefind then (tok, mk SNil, lr_err r)
  else if tok =? tTrue then (tok, mk (SBool true), lr_err r)
  else if tok =? tFalse then (tok, mk (SBool false), lr_err r)
  else (tok, mk old, lr_err r).

(** Position, tokens.go:19-22. *)
Record position := Position { p_line : Z; p_col : Z }.

(** Text after the last line feed of [s] ([strings.LastIndex(s, "\n")+1] on). *)
Fixpoint after_last_eol (s : bytes) (acc : bytes) : bytes :=
  match s with
  | [] => acc
  | b :: s' => if b2z b =? EOL then after_last_eol s' s' else after_last_eol s' acc
  end.
Definition count_eol (s : bytes) : Z :=
  Z.of_nat (length (filter (fun b => b2z b =? EOL) s)).

(** GetPosition, tokens.go:370-379. *)
Definition GetPosition (code : bytes) (off : nat) : position :=
  let pre := firstn off code in
  Position (count_eol pre + 1) (Z.of_nat (length (runes (after_last_eol pre pre))) + 1).
