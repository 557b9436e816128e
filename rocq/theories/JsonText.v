(** The bytes that AstNode.JSON returns (ast.go:49-51): json.Marshal of encoding/json (Go 1.23, go.mod) applied to the
    value of Json.v.  Modelled are the escaping of strings and the marks between values; the formatting of a float64 is
    a parameter [nf] (encoding/json writes the shortest decimal number that is read back as the same float64). *)
From Verif Require Import Bytes Utf8 Float64 GoTime Ast Json ErrText.

(** [appendString] (encoding/json/encode.go) with escapeHTML, one character: the quote and the backslash, the letters
    for five control characters, the other control characters and < > & as \u00XX, U+2028 and U+2029 as \u202X. *)
Definition json_escape (r : Z) : bytes :=
  if (r =? 34) || (r =? 92) then [z2b 92; z2b r]
  else if r =? 8 then B "\b" else if r =? 12 then B "\f" else if r =? 10 then B "\n" else if r =? 13 then B "\r" else if r =? 9 then B "\t"
  else if (r <? 32) || (r =? 60) || (r =? 62) || (r =? 38) || (r =? 8232) || (r =? 8233) then B "\u" ++ hex_text 4 r
  else encode r.
(** Its loop; a byte that is no character is written as the escape of U+FFFD. *)
Fixpoint json_chars (n : nat) (s : bytes) : bytes :=
  match n with
  | O => []
  | S n' =>
    match s with
    | [] => []
    | _ =>
      let '(r, w) := decode s in
      (if (r =? RuneError) && Nat.eqb w 1 then B "\u" ++ B "fffd" else json_escape r) ++ json_chars n' (skipn w s)
    end
  end.
Definition json_string (s : bytes) : bytes := z2b 34 :: json_chars (length s) s ++ [z2b 34].

(** The text of a value.  Json.v gives strings as readers get them ([jtext]); the text is that of the Go string.  Hence
    a relation: U+FFFD is written as it is or as the escape of U+FFFD, as it stands in the Go string or stands for a wrong byte there. *)
Section Numbers.
Context (nf : f64 -> bytes).
Inductive json_text : json -> bytes -> Prop :=
| jt_null : json_text JNull (B "null")
| jt_true : json_text (JBool true) (B "true")
| jt_false : json_text (JBool false) (B "false")
| jt_num f : json_text (JNum f) (nf f)
| jt_int z : json_text (JInt z) (int_text z)
| jt_str w : json_text (JStr (jtext w)) (json_string w)
| jt_arr0 : json_text (JArr []) (B "[]")
| jt_arr l t : elements_text l t -> json_text (JArr l) (B "[" ++ t ++ B "]")
| jt_obj0 : json_text (JObj []) (B "{}")
| jt_obj l t : members_text l t -> json_text (JObj l) (B "{" ++ t ++ B "}")
with elements_text : list json -> bytes -> Prop :=
| et_one j t : json_text j t -> elements_text [j] t
| et_more j t l u : json_text j t -> elements_text l u -> elements_text (j :: l) (t ++ B "," ++ u)
with members_text : list (bytes * json) -> bytes -> Prop :=
| mt_one w j t : json_text j t -> members_text [(jtext w, j)] (json_string w ++ B ":" ++ t)
| mt_more w j t l u : json_text j t -> members_text l u -> members_text ((jtext w, j) :: l) (json_string w ++ B ":" ++ t ++ B "," ++ u).
End Numbers.
