(** How a JSON text is read (RFC 8259), without reference to how it is written (C71).  Specification. *)
From Verif Require Import Bytes Utf8 Float64 Ast Json ErrText ErrRead.

(** A value as a reader gets it: numbers by their text. *)
Inductive jval :=
| VNull
| VBool (b : bool)
| VNum (t : bytes)
| VStr (s : bytes)
| VArr (l : list jval)
| VObj (l : list (bytes * jval)).

(** White space between the parts. *)
Definition json_white (b : byte) : bool := let z := b2z b in (z =? 32) || (z =? 9) || (z =? 10) || (z =? 13).
Fixpoint unspace (s : bytes) : bytes := match s with b :: s' => if json_white b then unspace s' else s | [] => [] end.
(** The characters of numbers: digits and + - . E e; a number goes as far as they do. *)
Definition number_char (b : byte) : bool :=
  let z := b2z b in ((48 <=? z) && (z <=? 57)) || (z =? 43) || (z =? 45) || (z =? 46) || (z =? 69) || (z =? 101).
Fixpoint number_run (s : bytes) : bytes * bytes :=
  match s with
  | b :: s' => if number_char b then let '(t, r) := number_run s' in (b :: t, r) else ([], s)
  | [] => ([], [])
  end.
(** The escapes of one letter. *)
Definition json_escapes : list (bytes * Z) :=
  [([z2b 34], 34); (B "\", 92); (B "/", 47); (B "b", 8); (B "f", 12); (B "n", 10); (B "r", 13); (B "t", 9)].
(** The string up to the closing quote, and what follows the quote. *)
Fixpoint json_unquote (s : bytes) : option (bytes * bytes) :=
  match s with
  | [] => None
  | b :: s1 =>
    if b2z b =? 34 then Some ([], s1)
    else if b2z b <? 32 then None
    else if negb (b2z b =? 92) then put [b] (json_unquote s1)
    else match s1 with
         | [] => None
         | e :: s2 =>
           if b2z e =? 117 then         (* u: a character *)
             match s2 with
             | h1 :: h2 :: h3 :: h4 :: s3 => match hex_number 0 [h1; h2; h3; h4] with Some v => put (encode v) (json_unquote s3) | None => None end
             | _ => None
             end
           else match assoc [e] json_escapes with Some c => put [z2b c] (json_unquote s2) | None => None end
         end
  end.
Definition is_mark (c : Z) (b : byte) : bool := b2z b =? c.
(** A value at the start of a text, and what follows it. *)
Fixpoint value_before (n : nat) (s : bytes) : option (jval * bytes) :=
  match n with
  | O => None
  | S n' =>
    match unspace s with
    | [] => None
    | b :: s1 =>
      if is_mark 34 b then match json_unquote s1 with Some (w, r) => Some (VStr w, r) | None => None end
      else if is_mark 91 b then
        match unspace s1 with
        | c :: s2 => if is_mark 93 c then Some (VArr [], s2) else match elements_before n' s1 with Some (l, r) => Some (VArr l, r) | None => None end
        | [] => None
        end
      else if is_mark 123 b then
        match unspace s1 with
        | c :: s2 => if is_mark 125 c then Some (VObj [], s2) else match members_before n' s1 with Some (l, r) => Some (VObj l, r) | None => None end
        | [] => None
        end
      else match ErrRead.behind (B "null") (b :: s1) with Some r => Some (VNull, r) | None =>
           match ErrRead.behind (B "true") (b :: s1) with Some r => Some (VBool true, r) | None =>
           match ErrRead.behind (B "false") (b :: s1) with Some r => Some (VBool false, r) | None =>
           match number_run (b :: s1) with ([], _) => None | (t, r) => Some (VNum t, r) end end end end
    end
  end
(** The elements of an array, up to and with the closing bracket. *)
with elements_before (n : nat) (s : bytes) : option (list jval * bytes) :=
  match n with
  | O => None
  | S n' =>
    match value_before n' s with
    | Some (v, r) =>
      match unspace r with
      | c :: r' => if is_mark 93 c then Some ([v], r')
                   else if is_mark 44 c then match elements_before n' r' with Some (l, r2) => Some (v :: l, r2) | None => None end else None
      | [] => None
      end
    | None => None
    end
  end
(** The members of an object, up to and with the closing brace. *)
with members_before (n : nat) (s : bytes) : option (list (bytes * jval) * bytes) :=
  match n with
  | O => None
  | S n' =>
    match unspace s with
    | q :: s1 =>
      if negb (is_mark 34 q) then None else
      match json_unquote s1 with
      | Some (k, r0) =>
        match unspace r0 with
        | d :: r1 =>
          if negb (is_mark 58 d) then None else
          match value_before n' r1 with
          | Some (v, r) =>
            match unspace r with
            | c :: r' => if is_mark 125 c then Some ([(k, v)], r')
                         else if is_mark 44 c then match members_before n' r' with Some (l, r2) => Some ((k, v) :: l, r2) | None => None end else None
            | [] => None
            end
          | None => None
          end
        | [] => None
        end
      | None => None
      end
    | [] => None
    end
  end.
(** A whole text. *)
Definition read_json (s : bytes) : option jval :=
  match value_before (S (length s + length s)) s with Some (v, r) => match unspace r with [] => Some v | _ => None end | None => None end.

(** What a reader is to get from a value. *)
Section Numbers.
Context (nf : f64 -> bytes).
Fixpoint as_read (j : json) : jval :=
  match j with
  | JNull => VNull
  | JBool b => VBool b
  | JNum f => VNum (nf f)
  | JInt z => VNum (int_text z)
  | JStr s => VStr s
  | JArr l => VArr (map as_read l)
  | JObj l => VObj (map (fun kv => match kv with (k, v) => (k, as_read v) end) l)
  end.
(** What is asked of the formatting of numbers: the characters of numbers, at least one, and different numbers have
    different texts. *)
Definition number_format : Prop := (forall f, nf f <> [] /\ Forall (fun b => number_char b = true) (nf f)) /\ forall f g, nf f = nf g -> f = g.
End Numbers.
(** A text that can be put on a line, into HTML and into a script: valid UTF-8 without control characters, without
    < > & and without the line separators U+2028 and U+2029. *)
Definition web_char (r : Z) : Prop := 32 <= r /\ r <> 60 /\ r <> 62 /\ r <> 38 /\ r <> 8232 /\ r <> 8233.
Definition web_text (t : bytes) : Prop := exists rs, forallb valid_rune rs = true /\ Forall web_char rs /\ t = string_of_runes rs.
