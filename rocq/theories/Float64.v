(** float64 values as far as ast/ uses them: [strconv.ParseFloat(lit, 64)] on
    literals made of digits and dots (tokens.go:96), negation (ast.go:170-171)
    and [fmt.Sprintf("%.0f", v)] (ast_print.go:154). *)
From Verif Require Import Bytes.

(** A finite float64: (-1)^[f_neg] * [f_man] * 2^[f_exp].  Values built by
    [to_f64] are in canonical form (see [canonical]).  Infinities and NaN do
    not occur: ParseFloat reports an error for them and the token is dropped. *)
Record f64 := F64 { f_neg : bool; f_man : Z; f_exp : Z }.

(** Go's unary minus on float64 (ast.go:170-171). *)
Definition f64_opp (f : f64) : f64 := F64 (negb (f_neg f)) (f_man f) (f_exp f).

(** Canonical representation of IEEE binary64 magnitudes. *)
Definition canonical (f : f64) : bool :=
  ((f_man f =? 0) && (f_exp f =? 0))
  || ((2^52 <=? f_man f) && (f_man f <? 2^53) && (-1074 <=? f_exp f) && (f_exp f <=? 971))
  || ((1 <=? f_man f) && (f_man f <? 2^52) && (f_exp f =? -1074)).

(** Rounding of the rational n/d (d > 0) to an integer, ties to even. *)
Definition round_ne (n d : Z) : Z :=
  let q := n / d in
  let r := n mod d in
  if 2 * r <? d then q
  else if d <? 2 * r then q + 1
  else if Z.even q then q else q + 1.

(** n/d / 2^e as a fraction. *)
Definition scale_num (n e : Z) : Z := if 0 <=? e then n else n * 2 ^ (- e).
Definition scale_den (d e : Z) : Z := if 0 <=? e then d * 2 ^ e else d.

(** Correct rounding of n/d >= 0 to binary64; [None] = overflow
    (strconv.ErrRange). *)
Definition to_f64 (n d : Z) : option f64 :=
  if n =? 0 then Some (F64 false 0 0)
  else
    let e0 := Z.log2 n - Z.log2 d - 53 in
    let e1 := if 2^53 * scale_den d e0 <=? scale_num n e0 then e0 + 1 else e0 in
    let e := Z.max e1 (-1074) in
    let m := round_ne (scale_num n e) (scale_den d e) in
    let '(m, e) := if m =? 2^53 then (2^52, e + 1) else (m, e) in
    if m =? 0 then Some (F64 false 0 0)
    else if 971 <? e then None
    else Some (F64 false m e).

Definition digit_val (b : byte) : Z := b2z b - 48.
Definition is_digit_byte (b : byte) : bool := (48 <=? b2z b) && (b2z b <=? 57).

(** Decimal value of a digit string. *)
Definition dec_val (s : bytes) : Z := fold_left (fun a b => 10 * a + digit_val b) s 0.

(** Splits at the first dot. *)
Fixpoint split_dot (s : bytes) : bytes * option bytes :=
  match s with
  | [] => ([], None)
  | b :: s' => if b2z b =? 46 then ([], Some s')
               else let '(a, r) := split_dot s' in (b :: a, r)
  end.

(** [strconv.ParseFloat(s, 64)] restricted to strings of digits and dots that
    contain a digit (the only ones scanNumber produces, tokens.go:387-401):
    two dots are a syntax error, overflow is a range error.  The Go function is
    specified to return the nearest float64, ties to even; that is [to_f64].
    The value accompanying an error is never used and not modelled. *)
Definition parse_float (s : bytes) : option f64 :=
  let '(ip, fp) := split_dot s in
  match fp with
  | None => if forallb is_digit_byte ip && negb (Nat.eqb (length ip) 0)
            then to_f64 (dec_val ip) 1 else None
  | Some fr =>
    if forallb is_digit_byte ip && forallb is_digit_byte fr
       && negb (Nat.eqb (length ip + length fr) 0)
    then to_f64 (dec_val (ip ++ fr)) (10 ^ Z.of_nat (length fr)) else None
  end.

(** Decimal digits of a non-negative integer, most significant first. *)
Fixpoint dec_fuel (fuel : nat) (n : Z) (acc : bytes) : bytes :=
  match fuel with
  | O => acc
  | S f => let acc' := z2b (48 + n mod 10) :: acc in
           if n / 10 =? 0 then acc' else dec_fuel f (n / 10) acc'
  end.
Definition dec_of_Z (n : Z) : bytes := dec_fuel (S (Z.to_nat (Z.log2 n))) n [].

(** [fmt.Sprintf("%.0f", v)]: exact value rounded to an integer, ties to even;
    the sign of a negative zero is kept ("-0"). *)
Definition format_0f (f : f64) : bytes :=
  let n := if 0 <=? f_exp f then f_man f * 2 ^ f_exp f
           else round_ne (f_man f) (2 ^ (- f_exp f)) in
  (if f_neg f then B "-" else []) ++ dec_of_Z n.
