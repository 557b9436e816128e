(** The C version of the lower-casing, ast/fast_tolower/gowrap.go. *)
From Verif Require Import Bytes.

(** Outcome of the C function on a buffer. *)
Inductive cres :=
| CDone (m : bytes)      (* the loop met the terminating NUL *)
| COutside               (* a read beyond the buffer: undefined behaviour *)
| CFuel.                 (* still running after the given number of iterations *)

(** Reading / writing a cell of the buffer (the string and its NUL). *)
Definition rd (m : bytes) (i : nat) : option Z := option_map b2z (nth_error m i).
Fixpoint wr (m : bytes) (i : nat) (v : Z) : bytes :=
  match m, i with
  | [], _ => []
  | _ :: m', O => z2b v :: m'
  | b :: m', S i' => b :: wr m' i' v
  end.

(** tolower of the C locale. *)
Definition c_tolower (b : Z) : Z := if (65 <=? b) && (b <=? 90) then b + 32 else b.

(** One iteration of the loop, gowrap.go:11-40: [None] = read outside the
    buffer.  [str[i]] is a [char]; all uses mask it, so its sign plays no role. *)
Definition c_body (m : bytes) (i : nat) : option (bytes * nat) :=
  match rd m i with
  | None => None
  | Some byte =>
    let dec : option (Z * nat) :=
      if byte <=? 127 then Some (byte, 1%nat)
      else if (192 <=? byte) && (byte <=? 223) then
        match rd m (i + 1) with
        | Some b1 => Some (Z.lor (Z.shiftl (Z.land byte 31) 6) (Z.land b1 63), 2%nat)
        | None => None
        end
      else if (224 <=? byte) && (byte <=? 239) then
        match rd m (i + 1), rd m (i + 2) with
        | Some b1, Some b2 =>
          Some (Z.lor (Z.lor (Z.shiftl (Z.land byte 15) 12) (Z.shiftl (Z.land b1 63) 6))
                      (Z.land b2 63), 3%nat)
        | _, _ => None
        end
      else if (240 <=? byte) && (byte <=? 247) then
        match rd m (i + 1), rd m (i + 2), rd m (i + 3) with
        | Some b1, Some b2, Some b3 =>
          Some (Z.lor (Z.lor (Z.lor (Z.shiftl (Z.land byte 7) 18) (Z.shiftl (Z.land b1 63) 12))
                             (Z.shiftl (Z.land b2 63) 6)) (Z.land b3 63), 4%nat)
        | _, _, _ => None
        end
      else Some (0, 0%nat) (* no branch taken: currentChar = 0, i unchanged *) in
    match dec with
    | None => None
    | Some (c, k) =>
      let i' := (i + k)%nat in
      if (65 <=? c) && (c <=? 90) then
        (* str[i-1] = tolower(str[i]), after i was advanced *)
        match rd m i' with
        | Some b => Some (wr m (i' - 1) (c_tolower b), i')
        | None => None
        end
      else if (1040 <=? c) && (c <=? 1071) then
        Some (wr (wr m (i' - 2) (Z.lor 192 (Z.shiftr (c + 32) 6))) (i' - 1)
                 (Z.lor 128 (Z.land (c + 32) 63)), i')
      else if c =? 1025 then Some (wr (wr m (i' - 2) 209) (i' - 1) 145, i')
      else Some (m, i')
    end
  end.

Fixpoint c_loop (fuel : nat) (m : bytes) (i : nat) : cres :=
  match fuel with
  | O => CFuel
  | S f =>
    match rd m i with
    | None => COutside
    | Some 0 => CDone m
    | Some _ => match c_body m i with
                | None => COutside
                | Some (m', i') => c_loop f m' i'
                end
    end
  end.

(** C.GoString: the bytes before the first NUL. *)
Fixpoint go_string (m : bytes) : bytes :=
  match m with
  | [] => []
  | b :: m' => if b2z b =? 0 then [] else b :: go_string m'
  end.

(** FastToLower, gowrap.go:49-57, run for [fuel] iterations. *)
Definition c_FastToLower (fuel : nat) (s : bytes) : cres :=
  match c_loop fuel (s ++ [x00]) 0 with
  | CDone m => CDone (go_string m)
  | r => r
  end.
