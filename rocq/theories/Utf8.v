(** The parts of Go's [unicode/utf8] package and of the string/rune
    conversions that ast/tokens.go uses. *)
From Verif Require Import Bytes.

(** [utf8.RuneError] (U+FFFD). *)
Definition RuneError : Z := 65533.

Definition cont (z : Z) : bool := (128 <=? z) && (z <=? 191).

(** [utf8.DecodeRuneInString]: rune and number of bytes consumed.  Used by
    tokens.go:345-352 (nextLet), 354-368 (currentLet), 381-385 (nextPos).
    Follows the published table of accepted second-byte ranges of the Go
    standard library (C2-DF, E0, E1-EC, ED, EE-EF, F0, F1-F3, F4). Anything
    else is (RuneError, 1); the empty string is (RuneError, 0). *)
Definition decode (s : bytes) : Z * nat :=
  match s with
  | [] => (RuneError, 0%nat)
  | b0 :: s1 =>
    let z0 := b2z b0 in
    let bad := (RuneError, 1%nat) in
    if z0 <? 128 then (z0, 1%nat)
    else if (194 <=? z0) && (z0 <=? 223) then
      match s1 with
      | b1 :: _ => let z1 := b2z b1 in
        if cont z1 then ((z0 - 192) * 64 + (z1 - 128), 2%nat) else bad
      | _ => bad end
    else if (224 <=? z0) && (z0 <=? 239) then
      match s1 with
      | b1 :: b2 :: _ => let z1 := b2z b1 in let z2 := b2z b2 in
        let lo := if z0 =? 224 then 160 else 128 in
        let hi := if z0 =? 237 then 159 else 191 in
        if (lo <=? z1) && (z1 <=? hi) && cont z2
        then ((z0 - 224) * 4096 + (z1 - 128) * 64 + (z2 - 128), 3%nat) else bad
      | _ => bad end
    else if (240 <=? z0) && (z0 <=? 244) then
      match s1 with
      | b1 :: b2 :: b3 :: _ =>
        let z1 := b2z b1 in let z2 := b2z b2 in let z3 := b2z b3 in
        let lo := if z0 =? 240 then 144 else 128 in
        let hi := if z0 =? 244 then 143 else 191 in
        if (lo <=? z1) && (z1 <=? hi) && cont z2 && cont z3
        then ((z0 - 240) * 262144 + (z1 - 128) * 4096 + (z2 - 128) * 64 + (z3 - 128), 4%nat)
        else bad
      | _ => bad end
    else bad
  end.

(** Runes that have a UTF-8 encoding: [0, 0x10FFFF] minus the surrogates. *)
Definition valid_rune (r : Z) : bool :=
  (0 <=? r) && (r <=? 1114111) && negb ((55296 <=? r) && (r <=? 57343)).

(** [string(r)] for a rune r / [utf8.AppendRune]: runes without an encoding
    become U+FFFD.  Used through [string(ret)] (tokens.go:255, 301, 400, 439)
    and [string(let)] (tokens.go:149 and others). *)
Definition encode (r0 : Z) : bytes :=
  let r := if valid_rune r0 then r0 else RuneError in
  if r <? 128 then [z2b r]
  else if r <? 2048 then [z2b (192 + r / 64); z2b (128 + r mod 64)]
  else if r <? 65536 then
    [z2b (224 + r / 4096); z2b (128 + (r / 64) mod 64); z2b (128 + r mod 64)]
  else [z2b (240 + r / 262144); z2b (128 + (r / 4096) mod 64);
        z2b (128 + (r / 64) mod 64); z2b (128 + r mod 64)].

(** [string(rs)] for [rs []rune]. *)
Definition string_of_runes (rs : list Z) : bytes := flat_map encode rs.

(** [range s] / [[]rune(s)]: the runes of a string, invalid bytes giving
    RuneError one byte at a time.  The fuel is the length of the string; each
    step consumes at least one byte. *)
Fixpoint runes_fuel (fuel : nat) (s : bytes) : list Z :=
  match fuel with
  | O => []
  | S f => match s with
           | [] => []
           | _ => let '(r, n) := decode s in r :: runes_fuel f (skipn n s)
           end
  end.
Definition runes (s : bytes) : list Z := runes_fuel (length s) s.
