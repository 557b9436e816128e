(** How the text of an error is read (C68), without reference to how it is written. *)
From Verif Require Import Bytes Utf8 Lexer Parser.

(** ** Quoted strings *)
(** Digits of base sixteen. *)
Definition hex_value (b : byte) : option Z :=
  let z := b2z b in
  if (48 <=? z) && (z <=? 57) then Some (z - 48)
  else if (97 <=? z) && (z <=? 102) then Some (z - 87) else None.
Fixpoint hex_number (acc : Z) (l : bytes) : option Z :=
  match l with
  | [] => Some acc
  | b :: l' => match hex_value b with Some d => hex_number (16 * acc + d) l' | None => None end
  end.
(** The escapes of one letter. *)
Definition short_escapes : list (bytes * Z) :=
  [(B "a", 7); (B "b", 8); (B "t", 9); (B "n", 10); (B "v", 11); (B "f", 12); (B "r", 13); (B "\", 92); ([z2b 34], 34)].
Definition put (w : bytes) (r : option (bytes * bytes)) : option (bytes * bytes) :=
  match r with Some (s, rest) => Some (w ++ s, rest) | None => None end.
(** The string up to the closing quote, and what follows the quote. *)
Fixpoint unquote (s : bytes) : option (bytes * bytes) :=
  match s with
  | [] => None
  | b :: s1 =>
    if b2z b =? 34 then Some ([], s1)
    else if negb (b2z b =? 92) then put [b] (unquote s1)
    else match s1 with
         | [] => None
         | e :: s2 =>
           if b2z e =? 120 then              (* x: a byte *)
             match s2 with
             | h1 :: h2 :: s3 => match hex_number 0 [h1; h2] with Some v => put [z2b v] (unquote s3) | None => None end
             | _ => None
             end
           else if b2z e =? 117 then         (* u: a character *)
             match s2 with
             | h1 :: h2 :: h3 :: h4 :: s3 => match hex_number 0 [h1; h2; h3; h4] with Some v => put (encode v) (unquote s3) | None => None end
             | _ => None
             end
           else if b2z e =? 85 then          (* U: a character *)
             match s2 with
             | h1 :: h2 :: h3 :: h4 :: h5 :: h6 :: h7 :: h8 :: s3 =>
               match hex_number 0 [h1; h2; h3; h4; h5; h6; h7; h8] with Some v => put (encode v) (unquote s3) | None => None end
             | _ => None
             end
           else match assoc [e] short_escapes with Some c => put [z2b c] (unquote s2) | None => None end
         end
  end.

(** ** Numbers *)
Fixpoint digits_before (s : bytes) : bytes * bytes :=
  match s with
  | b :: s' => if (48 <=? b2z b) && (b2z b <=? 57) then let '(d, r) := digits_before s' in (b :: d, r) else ([], s)
  | [] => ([], [])
  end.
Definition natural (s : bytes) : option (Z * bytes) :=
  match digits_before s with
  | ([], _) => None
  | (d, r) => Some (fold_left (fun a b => 10 * a + (b2z b - 48)) d 0, r)
  end.
Definition integer_before (s : bytes) : option (Z * bytes) :=
  match s with
  | b :: s' => if b2z b =? 45 then match natural s' with Some (n, r) => Some (- n, r) | None => None end else natural s
  | [] => None
  end.

(** ** The message *)
(** What stands before the first dot: the text with its quoted strings left out, the quoted strings, the rest from the dot. *)
Fixpoint message (n : nat) (s : bytes) : option (bytes * list bytes * bytes) :=
  match n, s with
  | S n', b :: s' =>
    if b2z b =? 46 then Some ([], [], s)
    else if b2z b =? 34 then
      match unquote s' with
      | Some (w, r) => match message n' r with Some (t, ws, rest) => Some (t, w :: ws, rest) | None => None end
      | None => None
      end
    else match message n' s' with Some (t, ws, rest) => Some (b :: t, ws, rest) | None => None end
  | _, _ => None
  end.
(** [s] without [p] in front. *)
Fixpoint behind (p s : bytes) : option bytes :=
  match p, s with
  | [], _ => Some s
  | a :: p', b :: s' => if Byte.eqb a b then behind p' s' else None
  | _ :: _, [] => None
  end.

(** Message, quoted names, line, column, token. *)
Definition read_error (s : bytes) : option (bytes * list bytes * Z * Z * bytes) :=
  match message (length s) s with
  | Some (t, ws, s1) =>
    match behind (B ". line: ") s1 with
    | Some s2 =>
      match integer_before s2 with
      | Some (line, s3) =>
        match behind (B ", column: ") s3 with
        | Some s4 =>
          match integer_before s4 with
          | Some (col, s5) =>
            match behind (B " (unexpected literal: """) s5 with
            | Some s6 =>
              match unquote s6 with
              | Some (lit, [c]) => if b2z c =? 41 then Some (t, ws, line, col, lit) else None
              | _ => None
              end
            | None => None
            end
          | None => None
          end
        | None => None
        end
      | None => None
      end
    | None => None
    end
  | None => None
  end.

(** What the messages say.  The two rules about names declared twice are told in the same words. *)
Definition said (m : emsg) : bytes * list bytes :=
  match m with
  | MSyntax => (B "syntax error", [])
  | MSemicolon => (B "semicolon (;) is expected", [])
  | MLoopOp l => (B "operator  can only be used inside a loop", [l])
  | MThrow l => (B "operator  without arguments can only be used when handling an exception", [l])
  | MReturn => (B "procedure cannot return a value", [])
  | MVarDup n | MGlobalDup n => (B "variable has already been defined: with the specified name ", [n])
  | MGlobalPlace => (B "variable declarations must be placed at the beginning of the module", [])
  | MFuncPlace => (B "procedure and function definitions should be placed before the module body statements", [])
  end.

(** Two errors that tell the same. *)
Definition same_report (e1 e2 : perr) : Prop :=
  match e1, e2 with
  | ELex x, ELex y => x = y
  | EParse m1 l1 c1 t1, EParse m2 l2 c2 t2 => said m1 = said m2 /\ l1 = l2 /\ c1 = c2 /\ t1 = t2
  | _, _ => False
  end.

(** No control characters, so the text is one line. *)
Definition plain_byte (b : byte) : Prop := 32 <= b2z b.
(** What is asked of [strconv.IsPrint]: no control character is printable. *)
Definition printable (ip : Z -> bool) : Prop := forall c, c < 32 -> ip c = false.
