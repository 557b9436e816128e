(** Specification of number and date literals: the float64 nearest to a decimal
    fraction, and the calendar. *)
From Coq Require Export QArith Qabs Qpower.
From Verif Require Import Bytes Float64 GoTime.
Open Scope Z_scope.

(** The rational number a float64 stands for. *)
Definition f64_Q (f : f64) : Q :=
  ((if f_neg f then -1 else 1) * f_man f # 1) * Qpower 2 (f_exp f).

(** The finite non-negative float64 values in canonical form: zero, the normal
    numbers 2^52..2^53-1 times 2^-1074..2^971, the subnormal numbers. *)
Definition is_f64 (f : f64) : Prop :=
  f_neg f = false /\
  ((f_man f = 0 /\ f_exp f = 0) \/
   (2^52 <= f_man f < 2^53 /\ -1074 <= f_exp f <= 971) \/
   (1 <= f_man f < 2^52 /\ f_exp f = -1074)).

(** [f] is the float64 nearest to [q]; of two equally near ones, the even one. *)
Definition nearest (q : Q) (f : f64) : Prop :=
  is_f64 f /\
  forall g, is_f64 g ->
    Qle (Qabs (f64_Q f - q)) (Qabs (f64_Q g - q)) /\
    (Qeq (Qabs (f64_Q f - q)) (Qabs (f64_Q g - q)) -> g <> f -> Z.even (f_man f) = true).

(** Half way between the largest float64 and 2^1024; from here on a number is
    out of range. *)
Definition overflow_bound : Z := (2^54 - 1) * 2^970.

(** Decimal digits and their value. *)
Definition digits (ds : list Z) : Prop := Forall (fun d => 0 <= d <= 9) ds.
Fixpoint dec_value (ds : list Z) : Z :=
  match ds with [] => 0 | d :: ds' => d * 10 ^ Z.of_nat (length ds') + dec_value ds' end.
Definition digit_text (ds : list Z) : bytes := map (fun d => z2b (48 + d)) ds.
(** The rational number written ip.fr. *)
Definition dec_Q (ip fr : list Z) : Q :=
  dec_value (ip ++ fr) # Z.to_pos (10 ^ Z.of_nat (length fr)).

(** The text of a number literal: digits, possibly a dot and more digits. *)
Definition num_text (ip : list Z) (fr : option (list Z)) : bytes :=
  digit_text ip ++ match fr with None => [] | Some f => z2b 46 :: digit_text f end.
Definition num_Q (ip : list Z) (fr : option (list Z)) : Q :=
  dec_Q ip (match fr with None => [] | Some f => f end).

(** The Gregorian calendar. *)
Definition is_leap (y : Z) : Prop := (4 | y) /\ (~ (100 | y) \/ (400 | y)).
Definition month_days (y m n : Z) : Prop :=
  (In m [1; 3; 5; 7; 8; 10; 12] /\ n = 31) \/ (In m [4; 6; 9; 11] /\ n = 30) \/
  (m = 2 /\ ((is_leap y /\ n = 29) \/ (~ is_leap y /\ n = 28))).
Definition calendar_date (t : gotime) : Prop :=
  0 <= t_year t <= 9999 /\ (exists n, month_days (t_year t) (t_month t) n /\ 1 <= t_day t <= n) /\
  0 <= t_hour t <= 23 /\ 0 <= t_min t <= 59 /\ 0 <= t_sec t <= 59.
(** [w] digits with value [n]. *)
Definition field (w : nat) (n : Z) (ds : list Z) : Prop :=
  length ds = w /\ digits ds /\ dec_value ds = n.
(** The digits of a date literal that denotes [t]. *)
Inductive date_digits : list Z -> gotime -> Prop :=
| dd_zero ds : ds <> [] -> Forall (fun d => d = 0) ds -> date_digits ds (GoTime 1 1 1 0 0 0)
| dd_day y m d t : calendar_date t -> field 4 (t_year t) y -> field 2 (t_month t) m -> field 2 (t_day t) d ->
    t_hour t = 0 -> t_min t = 0 -> t_sec t = 0 -> date_digits (y ++ m ++ d) t
| dd_minute y m d h mi t : calendar_date t -> field 4 (t_year t) y -> field 2 (t_month t) m -> field 2 (t_day t) d ->
    field 2 (t_hour t) h -> field 2 (t_min t) mi -> t_sec t = 0 -> date_digits (y ++ m ++ d ++ h ++ mi) t
| dd_second y m d h mi s t : calendar_date t -> field 4 (t_year t) y -> field 2 (t_month t) m -> field 2 (t_day t) d ->
    field 2 (t_hour t) h -> field 2 (t_min t) mi -> field 2 (t_sec t) s ->
    date_digits (y ++ m ++ d ++ h ++ mi ++ s) t.
(** The digits among the characters of a date literal; everything else is ignored. *)
Definition digits_of (v : list Z) : list Z :=
  map (fun c => c - 48) (filter (fun c => (48 <=? c) && (c <=? 57)) v).
