(** How often Parse looks at the text.  The scanner reads the text through the method
    SrsCode of the interface Iast (ast/tokens.go:15-17), and only currentLet, nextLet,
    nextPos and GetPosition call it (tokens.go:345-385): currentLet, nextPos and GetPosition
    once, nextLet twice (itself and through currentLet).  The functions below follow those
    of Lexer.v and Parser.v and count these calls.  GetPosition is called by AstNode.Error
    only (ast/ast.go:75-80); it hands everything before the current token's end to
    strings.Count (tokens.go:376), which looks at every byte of it: these bytes are counted
    apart. *)
From Verif Require Import Bytes Utf8 UnicodeTables Float64 GoTime Ast Lexer Tables Parser.
Open Scope nat_scope.

(** skipSpace, tokens.go:304-308: currentLet, and nextPos for each space.  The fuel is one
    more than the length: the loop test at the end of the text is a call too. *)
Fixpoint c_space_fuel (n : nat) (s : bytes) : nat :=
  match n with
  | O => 0
  | S n' => 1 + (if isSpace (cur s) then 1 + c_space_fuel n' (adv s) else 0)
  end.
Definition c_space (s : bytes) : nat := c_space_fuel (S (length s)) s.
(** The loops of tokens.go:312-314 and 331-333. *)
Fixpoint c_line_fuel (n : nat) (s : bytes) : nat :=
  match n with
  | O => 0
  | S n' => 1 + (if (cur s =? EOL)%Z || (cur s =? EOF)%Z then 0 else 1 + c_line_fuel n' (adv s))
  end.
Definition c_line (s : bytes) : nat := c_line_fuel (S (length s)) s.

(** skipComment, tokens.go:310-326, and skipRegions, tokens.go:328-343. *)
Fixpoint c_comment_fuel (n : nat) (s : bytes) {struct n} : nat :=
  match n with
  | O => 0
  | S n' =>
    1 +                                                            (* :311, currentLet *)
    (if (cur s =? cSlash)%Z then
       2 +                                                         (* :311, nextLet *)
       (if (nextLet s =? cSlash)%Z then
          let s1 := skipSpace (skipLine s) in
          c_line s + c_space (skipLine s) + 1 +                    (* :312-315, :321 *)
          (if (cur s1 =? cSlash)%Z then c_comment_fuel n' s1
           else 1 + (if (cur s1 =? cHash)%Z then c_regions_fuel n' s1 else 0))        (* :323 *)
        else 0)
     else 0)
  end
with c_regions_fuel (n : nat) (s : bytes) {struct n} : nat :=
  match n with
  | O => 0
  | S n' =>
    let s1 := if (cur s =? cHash)%Z then skipSpace (skipLine s) else s in
    1 + (if (cur s =? cHash)%Z then c_line s + c_space (skipLine s) else 0) +         (* :330-335 *)
    1 +                                                            (* :338 *)
    (if (cur s1 =? cSlash)%Z then c_comment_fuel n' s1
     else 1 + (if (cur s1 =? cHash)%Z then c_regions_fuel n' s1 else 0))              (* :340 *)
  end.
Definition c_comment (s : bytes) : nat := c_comment_fuel (skip_fuel s) s.
Definition c_regions (s : bytes) : nat := c_regions_fuel (skip_fuel s) s.

(** scanIdentifier, tokens.go:242-256. *)
Fixpoint c_ident_fuel (n : nat) (s : bytes) : nat :=
  match n with
  | O => 0
  | S n' => 1 + (if isLetter (cur s) || isDigit (cur s) then 1 + c_ident_fuel n' (adv s) else 0)
  end.
Definition c_ident (s : bytes) : nat := c_ident_fuel (S (length s)) s.

(** scanString, tokens.go:258-302. *)
Fixpoint c_string_fuel (n : nat) (en : Z) (s : bytes) : nat :=
  match n with
  | O => 0
  | S n' =>
    let s1 := adv s in
    let cl := cur s1 in
    2 +                                                            (* :263, :265 *)
    (if (cl =? EOL)%Z then
       let s2 := skipSpace (adv s1) in
       let s3 := skipComment s2 in
       1 + c_space (adv s1) + c_comment s2 + 1 +                   (* :267, :269-271 *)
       (if negb (cur s3 =? cBar)%Z && negb (isSpace (cur s3)) then 0 else c_string_fuel n' en s3)
     else if (cl =? EOF)%Z then 0
     else if (cl =? en)%Z then
       2 +                                                         (* :280, nextLet *)
       (if (nextLet s1 =? cQuote)%Z then 1 + c_string_fuel n' en (adv s1)             (* :281 *)
        else
          let s2 := skipSpace (adv s1) in
          1 + c_space (adv s1) + 1 +                               (* :285, :286, :291 *)
          (if (cur s2 =? cQuote)%Z then c_string_fuel n' en s2 else 0))
     else c_string_fuel n' en s1)
  end.
Definition c_string (en : Z) (s : bytes) : nat := c_string_fuel (S (length s)) en s.

(** scanNumber, tokens.go:387-401. *)
Fixpoint c_number_fuel (n : nat) (s : bytes) : nat :=
  match n with
  | O => 0
  | S n' => 1 + (if isDigit (cur s) || (cur s =? cDot)%Z then 1 + c_number_fuel n' (adv s) else 0)
  end.
Definition c_number (s : bytes) : nat := c_number_fuel (S (length s)) s.

(** next, tokens.go:123-240. *)
Definition c_next (s0 : bytes) : nat :=
  let sp := skipSpace s0 in
  let sc := skipComment sp in
  let s := skipRegions sc in
  let c := cur s in
  c_space s0 + c_comment sp + c_regions sc + 1 +                   (* :124-132 *)
  (if isLetter c then c_ident s
   else if (c =? cDot)%Z then 1                                    (* :148 *)
   else if isDigit c then c_number s
   else if (c =? cApos)%Z then c_string c s
   else if punct c then 1                                          (* :170 *)
   else if (c =? 61)%Z then 1                                      (* :173 *)
   else if (c =? cQuote)%Z then c_string c s
   else if (c =? 60)%Z then                                        (* :182-194 *)
     2 + (if (nextLet s =? 62)%Z then 2 else 2 + (if (nextLet s =? 61)%Z then 2 else 1))
   else if (c =? 62)%Z then 2 + (if (nextLet s =? 61)%Z then 2 else 1)                (* :195-203 *)
   else if (c =? 38)%Z then 1 + c_ident (adv s)                    (* :212, :215 *)
   else if (c =? 126)%Z then 1 + c_ident (adv s)                   (* :225-226 *)
   else 1).                                                        (* :230, :236 *)

(** Lex, ast.go:53-69; Next (tokens.go:90-121) looks at the text through next only. *)
Definition c_Lex (a : astnode) (t : token) : nat :=
  match a_code a with [] => 0 | _ => c_next (skipn (tk_off t) (a_code a)) end.

(** The driver, y.go:594-1451: it calls Lex at y.go:599-601 and 622-624 only. *)
Definition c_ensure (p : pst) : nat :=
  if (p_char p <? 0)%Z then c_Lex (p_ast p) (v_token (p_lval p)) else 0.
Definition c_default (p : pst) : nat :=
  match tab yyDef (p_state p) with
  | Ok d => if (d =? -2)%Z then c_ensure p else 0
  | Panic _ => 0
  end.
Definition c_step (p : pst) : nat :=
  match tab yyPact (p_state p) with
  | Panic _ => 0
  | Ok n =>
    if (n <=? yyFlag)%Z then c_default p
    else
      c_ensure p +
      match ensure p with
      | Panic _ => 0
      | Ok p1 =>
        let k := (n + p_tok p1)%Z in
        if (k <? 0)%Z || (yyLast <=? k)%Z then c_default p1
        else match tab yyAct k with
             | Panic _ => 0
             | Ok s => match tab yyChk s with
                       | Panic _ => 0
                       | Ok c => if (c =? p_tok p1)%Z then 0 else c_default p1
                       end
             end
      end
  end.
Fixpoint c_run (fuel : nat) (p : pst) : nat :=
  match fuel with
  | O => 0
  | S f => c_step p + match step p with Next_ p' => c_run f p' | _ => 0 end
  end.
(** Parse, ast.go:37-47: the calls of SrsCode made by the scanner. *)
Definition c_parse (code : bytes) : nat :=
  if blank code then 0 else c_run (parse_fuel code) (init_pst (NewAST code)).

(** * Messages *)
(** ModuleStatement.Append on global variables, ast_struct.go:293-311: one message for a
    variable after the first statement, one for a name already taken. *)
Definition m_gvar (v : gvar) (a : astnode) : nat :=
  let m := a_module a in
  if negb (Nat.eqb (length (elems (m_body m))) 0) then 1
  else if mem (gv_name v) (map gv_name (elems (m_gvars m))) then 1 else 0.
Fixpoint m_gvars (vs : list gvar) (a : astnode) : nat :=
  match vs with
  | [] => 0
  | v :: vs' => m_gvar v a + match append_gvar v a with Ok a' => m_gvars vs' a' | Panic _ => 0 end
  end.
(** The actions, y.go:726-1449: the calls of Error made by each. *)
Definition m_act (r : Z) (d : nat -> slot) (a : astnode) : nat :=
  match r with
  | 6%Z => m_gvars (v_global_variables (d 1)) a
  | 7%Z => let l := elems (m_body (a_module a)) in                 (* ast_struct.go:314-321 *)
         if negb (Nat.eqb (length l) 0) && negb (is_func (last l SNil)) then 1 else 0
  | 19%Z => let b := elems (v_opt_body (d 1)) in                   (* grammar.y:152-156 *)
          if beqb (lit_of (d 2)) (B ":") && negb (Nat.eqb (length b) 0) && negb (is_label (last b SNil)) then 1 else 0
  | 26%Z => match appendVars (Some []) (map tk_lit (v_identifiers (d 2))) with Ok (_, Some _) => 1 | _ => 0 end
  | 27%Z => match appendVars (v_explicit_variables (d 1)) (map tk_lit (v_identifiers (d 3))) with Ok (_, Some _) => 1 | _ => 0 end
  | 49%Z | 50%Z => if (a_isLoop a =? 0)%Z then 1 else 0                (* ast.go:82-88 *)
  | 51%Z => if (a_isTry a =? 0)%Z && is_nil (v_stmt (d 2)) then 1 else 0                (* ast.go:90-96 *)
  | 52%Z => if negb (a_isFunction a) && negb (is_nil (v_stmt (d 2))) then 1 else 0      (* ast.go:104-110 *)
  | _ => 0
  end.
Definition m_reduce (p : pst) (r : Z) : nat :=
  match tab yyR2 r with
  | Panic _ => 0
  | Ok n => match pop (Z.to_nat n) (p_stk p) (p_above p) with
            | None => 0
            | Some (_, above') => m_act r (fun i => nth (i - 1) above' zero_slot) (p_ast p)
            end
  end.
(** The bytes before the end of the current token, once for every message: what GetPosition
    (tokens.go:376) hands to strings.Count. *)
Definition prefixes (p : pst) (n : nat) : list nat := repeat (tk_off (a_cur (p_ast p))) n.
Definition e_default (p : pst) : list nat :=
  match tab yyDef (p_state p) with
  | Panic _ => []
  | Ok d =>
    match (if (d =? -2)%Z then ensure p else Ok p) with
    | Panic _ => []
    | Ok p1 =>
      match (if (d =? -2)%Z then
               match exca_find yyExca (p_state p1) with
               | None => None
               | Some l => exca_scan l (p_tok p1)
               end
             else Some d) with
      | None => []
      | Some d1 =>
        if (d =? -2)%Z && (d1 <? 0)%Z then []
        else if (d1 =? 0)%Z then prefixes p1 1                     (* y.go:649 *)
        else prefixes p1 (m_reduce p1 d1)
      end
    end
  end.
Definition e_step (p : pst) : list nat :=
  match tab yyPact (p_state p) with
  | Panic _ => []
  | Ok n =>
    if (n <=? yyFlag)%Z then e_default p
    else
      match ensure p with
      | Panic _ => []
      | Ok p1 =>
        let k := (n + p_tok p1)%Z in
        if (k <? 0)%Z || (yyLast <=? k)%Z then e_default p1
        else match tab yyAct k with
             | Panic _ => []
             | Ok s => match tab yyChk s with
                       | Panic _ => []
                       | Ok c => if (c =? p_tok p1)%Z then [] else e_default p1
                       end
             end
      end
  end.
Fixpoint e_run (fuel : nat) (p : pst) : list nat :=
  match fuel with
  | O => []
  | S f => e_step p ++ match step p with Next_ p' => e_run f p' | _ => [] end
  end.
(** Parse: the sizes of the texts handed to strings.Count, one for every call of Error. *)
Definition e_parse (code : bytes) : list nat :=
  if blank code then [] else e_run (parse_fuel code) (init_pst (NewAST code)).
