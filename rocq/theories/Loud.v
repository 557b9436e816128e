(** What Parse writes to standard output.  The only statement of the package that writes
    there is the Println of currentLet (ast/tokens.go:363); it is executed whenever the
    letter under the cursor decodes to U+FFFD, the rune of a byte that belongs to no
    character.  The functions below follow those of Lexer.v and Parser.v and count how
    often that statement is executed. *)
From Verif Require Import Bytes Utf8 UnicodeTables Float64 GoTime Ast Lexer Tables Parser.
Open Scope nat_scope.

(** currentLet, tokens.go:354-368: one line if the letter is U+FFFD; none at the end. *)
Definition say (s : bytes) : nat := if (cur s =? 65533)%Z then 1 else 0.

(** skipSpace, tokens.go:304-308. *)
Fixpoint n_space_fuel (n : nat) (s : bytes) : nat :=
  match n with
  | O => 0
  | S n' => say s + (if isSpace (cur s) then n_space_fuel n' (adv s) else 0)
  end.
Definition n_space (s : bytes) : nat := n_space_fuel (length s) s.
(** The loop of tokens.go:312-314 / 331-333. *)
Fixpoint n_line_fuel (n : nat) (s : bytes) : nat :=
  match n with
  | O => 0
  | S n' => say s + (if (cur s =? EOL)%Z || (cur s =? EOF)%Z then 0 else n_line_fuel n' (adv s))
  end.
Definition n_line (s : bytes) : nat := n_line_fuel (length s) s.

(** skipComment, tokens.go:310-326 (nextLet at :311 looks at the letter after the cursor),
    and skipRegions, tokens.go:328-343. *)
Fixpoint n_comment_fuel (n : nat) (s : bytes) {struct n} : nat :=
  match n with
  | O => 0
  | S n' =>
    say s +                                                        (* :311 *)
    (if (cur s =? cSlash)%Z then
       say (adv s) +                                               (* :311 *)
       (if (nextLet s =? cSlash)%Z then
          let s1 := skipSpace (skipLine s) in
          n_line s + n_space (skipLine s) + say s1 +               (* :312-315, :321 *)
          (if (cur s1 =? cSlash)%Z then n_comment_fuel n' s1
           else say s1 + (if (cur s1 =? cHash)%Z then n_regions_fuel n' s1 else 0))   (* :323 *)
        else 0)
     else 0)
  end
with n_regions_fuel (n : nat) (s : bytes) {struct n} : nat :=
  match n with
  | O => 0
  | S n' =>
    let s1 := if (cur s =? cHash)%Z then skipSpace (skipLine s) else s in
    say s + (if (cur s =? cHash)%Z then n_line s + n_space (skipLine s) else 0) +     (* :330-335 *)
    say s1 +                                                       (* :338 *)
    (if (cur s1 =? cSlash)%Z then n_comment_fuel n' s1
     else say s1 + (if (cur s1 =? cHash)%Z then n_regions_fuel n' s1 else 0))         (* :340 *)
  end.
Definition n_comment (s : bytes) : nat := n_comment_fuel (skip_fuel s) s.
Definition n_regions (s : bytes) : nat := n_regions_fuel (skip_fuel s) s.

(** scanIdentifier, tokens.go:242-256. *)
Fixpoint n_ident_fuel (n : nat) (s : bytes) : nat :=
  match n with
  | O => 0
  | S n' => say s + (if isLetter (cur s) || isDigit (cur s) then n_ident_fuel n' (adv s) else 0)
  end.
Definition n_ident (s : bytes) : nat := n_ident_fuel (length s) s.

(** scanString, tokens.go:258-302. *)
Fixpoint n_string_fuel (n : nat) (en : Z) (s : bytes) : nat :=
  match n with
  | O => 0
  | S n' =>
    let s1 := adv s in
    let cl := cur s1 in
    say s1 +                                                       (* :265 *)
    (if (cl =? EOL)%Z then
       let s2 := skipSpace (adv s1) in
       let s3 := skipComment s2 in
       n_space (adv s1) + n_comment s2 + say s3 +                  (* :269-271 *)
       (if negb (cur s3 =? cBar)%Z && negb (isSpace (cur s3)) then 0 else n_string_fuel n' en s3)
     else if (cl =? EOF)%Z then 0
     else if (cl =? en)%Z then
       say (adv s1) +                                              (* :280 *)
       (if (nextLet s1 =? cQuote)%Z then n_string_fuel n' en (adv s1)
        else
          let s2 := skipSpace (adv s1) in
          n_space (adv s1) + say s2 +                              (* :286, :291 *)
          (if (cur s2 =? cQuote)%Z then n_string_fuel n' en s2 else 0))
     else n_string_fuel n' en s1)
  end.
Definition n_string (en : Z) (s : bytes) : nat := n_string_fuel (S (length s)) en s.

(** scanNumber, tokens.go:387-401. *)
Fixpoint n_number_fuel (n : nat) (s : bytes) : nat :=
  match n with
  | O => 0
  | S n' => say s + (if isDigit (cur s) || (cur s =? cDot)%Z then n_number_fuel n' (adv s) else 0)
  end.
Definition n_number (s : bytes) : nat := n_number_fuel (length s) s.

(** next, tokens.go:123-240. *)
Definition n_next (s0 : bytes) : nat :=
  let sp := skipSpace s0 in
  let sc := skipComment sp in
  let s := skipRegions sc in
  let c := cur s in
  n_space s0 + n_comment sp + n_regions sc + say s +               (* :124-132 *)
  (if isLetter c then n_ident s
   else if (c =? cDot)%Z then 0
   else if isDigit c then n_number s
   else if (c =? cApos)%Z then n_string c s
   else if punct c then 0
   else if (c =? 61)%Z then 0
   else if (c =? cQuote)%Z then n_string c s
   else if (c =? 60)%Z then                                        (* :182-194 *)
     say (adv s) + (if (nextLet s =? 62)%Z then 0 else say (adv s))
   else if (c =? 62)%Z then say (adv s)                            (* :195-203 *)
   else if (c =? 38)%Z then n_ident (adv s)
   else if (c =? 126)%Z then n_ident (adv s)
   else 0).

(** Lex, ast.go:53-69; Next (tokens.go:90-121) writes nothing itself. *)
Definition n_Lex (a : astnode) (t : token) : nat :=
  match a_code a with [] => 0 | _ => n_next (skipn (tk_off t) (a_code a)) end.

(** The driver, y.go:594-1451: it calls Lex at y.go:599-601 and 622-624 only. *)
Definition n_ensure (p : pst) : nat :=
  if (p_char p <? 0)%Z then n_Lex (p_ast p) (v_token (p_lval p)) else 0.
Definition n_default (p : pst) : nat :=
  match tab yyDef (p_state p) with
  | Ok d => if (d =? -2)%Z then n_ensure p else 0
  | Panic _ => 0
  end.
Definition n_step (p : pst) : nat :=
  match tab yyPact (p_state p) with
  | Panic _ => 0
  | Ok n =>
    if (n <=? yyFlag)%Z then n_default p
    else
      n_ensure p +
      match ensure p with
      | Panic _ => 0
      | Ok p1 =>
        let k := (n + p_tok p1)%Z in
        if (k <? 0)%Z || (yyLast <=? k)%Z then n_default p1
        else match tab yyAct k with
             | Panic _ => 0
             | Ok s => match tab yyChk s with
                       | Panic _ => 0
                       | Ok c => if (c =? p_tok p1)%Z then 0 else n_default p1
                       end
             end
      end
  end.
Fixpoint n_run (fuel : nat) (p : pst) : nat :=
  match fuel with
  | O => 0
  | S f => n_step p + match step p with Next_ p' => n_run f p' | _ => 0 end
  end.
(** Parse, ast.go:37-47: number of lines NewAST(code).Parse() writes to standard output. *)
Definition n_parse (code : bytes) : nat :=
  if blank code then 0 else n_run (parse_fuel code) (init_pst (NewAST code)).
