(** time.Time values as far as ast/ uses them: [time.Parse] with the three
    layouts of tokens.go:100 on digit strings, and [Format("20060102150405")]
    (ast_print.go:162). All times are UTC with whole seconds. *)
From Verif Require Import Bytes Float64.

Record gotime := GoTime { t_year : Z; t_month : Z; t_day : Z;
                          t_hour : Z; t_min : Z; t_sec : Z }.

(** [time.Time{}]: January 1, year 1, 00:00:00 UTC. *)
Definition zero_time : gotime := GoTime 1 1 1 0 0 0.

Definition leap (y : Z) : bool :=
  (y mod 4 =? 0) && (negb (y mod 100 =? 0) || (y mod 400 =? 0)).

(** [daysIn] of package time. *)
Definition days_in (m y : Z) : Z :=
  if m =? 2 then (if leap y then 29 else 28)
  else if (m =? 4) || (m =? 6) || (m =? 9) || (m =? 11) then 30 else 31.

(** [getnum(value, fixed)] of package time, on digit strings: two digits if
    there are two, one digit if there is only one and [fixed] is false. *)
Definition getnum (fixed : bool) (s : bytes) : option (Z * bytes) :=
  match s with
  | a :: b :: s' => Some (10 * digit_val a + digit_val b, s')
  | [a] => if fixed then None else Some (digit_val a, [])
  | [] => None
  end.

(** Which elements follow the date in the layout: "20060102" none,
    "200601021504" hour and minute, "20060102150405" also the second. *)
Inductive layout := LDate | LMinute | LSecond.

(** [time.Parse(layout, s)] for a digit string s; [None] = error.
    "2006" takes four digits, "01","02","04","05" take exactly two, "15" one or
    two; leftover text is an error; month, hour, minute, second are range
    checked as they are read and the day against the month at the end. *)
Definition time_parse (l : layout) (s : bytes) : option gotime :=
  match s with
  | y1 :: y2 :: y3 :: y4 :: s1 =>
    let year := dec_val [y1; y2; y3; y4] in
    match getnum true s1 with
    | None => None
    | Some (month, s2) =>
      if (month <=? 0) || (12 <? month) then None else
      match getnum true s2 with
      | None => None
      | Some (day, s3) =>
        let finish h mi se rest :=
          match rest with
          | _ :: _ => None
          | [] => if (day <? 1) || (days_in month year <? day) then None
                  else Some (GoTime year month day h mi se)
          end in
        match l with
        | LDate => finish 0 0 0 s3
        | _ =>
          match getnum false s3 with
          | None => None
          | Some (h, s4) =>
            if (h <? 0) || (24 <=? h) then None else
            match getnum true s4 with
            | None => None
            | Some (mi, s5) =>
              if (mi <? 0) || (60 <=? mi) then None else
              match l with
              | LSecond =>
                match getnum true s5 with
                | None => None
                | Some (se, s6) =>
                  if (se <? 0) || (60 <=? se) then None else finish h mi se s6
                end
              | _ => finish h mi 0 s5
              end
            end
          end
        end
      end
    end
  | _ => None
  end.

(** tokens.go:99-111: all zeros is the zero time, otherwise the three layouts
    are tried in order. *)
Definition parse_date (s : bytes) : option gotime :=
  if forallb (fun b => b2z b =? 48) s then Some zero_time
  else match time_parse LDate s with
       | Some t => Some t
       | None => match time_parse LMinute s with
                 | Some t => Some t
                 | None => time_parse LSecond s
                 end
       end.

(** Zero padded decimal of at least [w] digits ([appendInt] of package time). *)
Definition pad (w : nat) (n : Z) : bytes :=
  let d := dec_of_Z n in repeat (z2b 48) (w - length d) ++ d.

(** [t.Format("20060102150405")] (ast_print.go:162). *)
Definition format_time (t : gotime) : bytes :=
  pad 4 (t_year t) ++ pad 2 (t_month t) ++ pad 2 (t_day t)
  ++ pad 2 (t_hour t) ++ pad 2 (t_min t) ++ pad 2 (t_sec t).
