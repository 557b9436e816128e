(** Proofs: number and date tokens (C07, C08) and rejected characters (C06). *)
From Coq Require Import Lqa.
From Verif Require Import Bytes Utf8 UnicodeTables Float64 GoTime Ast Lexer LexFacts Utf8Facts LexSpec LexProofs LexTrivia
  LexTokens LexStrings NumSpec NumProofs.
Open Scope Z_scope.

(** ** Digit strings *)
Lemma digit_text_app a b : digit_text (a ++ b) = digit_text a ++ digit_text b.
Proof. apply map_app. Qed.
Lemma digit_text_length a : length (digit_text a) = length a.
Proof. apply map_length. Qed.
Lemma digit_byte d : 0 <= d <= 9 -> b2z (z2b (48 + d)) = 48 + d.
Proof. intros. apply b2z_z2b. lia. Qed.
Lemma digit_val_text d : 0 <= d <= 9 -> digit_val (z2b (48 + d)) = d.
Proof. intros. unfold digit_val. rewrite digit_byte by assumption. lia. Qed.
Lemma digit_text_digits ds : digits ds -> forallb is_digit_byte (digit_text ds) = true.
Proof.
  induction 1 as [|d ds Hd Hds IH]; [reflexivity|]. cbn [digit_text map forallb].
  unfold digit_text in IH. rewrite IH, andb_true_r. unfold is_digit_byte. rewrite digit_byte by exact Hd. lia.
Qed.

Lemma dec_val_acc ds : digits ds -> forall a,
  fold_left (fun a b => 10 * a + digit_val b) (digit_text ds) a = a * 10 ^ Z.of_nat (length ds) + dec_value ds.
Proof.
  induction 1 as [|d ds Hd Hds IH]; intros a.
  - cbn. ring.
  - cbn [digit_text map fold_left]. unfold digit_text in IH. rewrite IH. rewrite digit_val_text by exact Hd.
    cbn [dec_value length]. rewrite Nat2Z.inj_succ, Z.pow_succ_r by lia. ring.
Qed.
Lemma dec_val_text ds : digits ds -> dec_val (digit_text ds) = dec_value ds.
Proof. intros H. unfold dec_val. rewrite dec_val_acc by exact H. ring. Qed.
Lemma dec_value_nonneg ds : digits ds -> 0 <= dec_value ds.
Proof.
  induction 1 as [|d ds Hd Hds IH]; cbn [dec_value]; [lia|].
  assert (0 < 10 ^ Z.of_nat (length ds)) by (apply Z.pow_pos_nonneg; lia). nia.
Qed.

Lemma split_dot_digits ds : digits ds -> split_dot (digit_text ds) = (digit_text ds, None).
Proof.
  induction 1 as [|d ds Hd Hds IH]; [reflexivity|]. cbn [digit_text map split_dot]. unfold digit_text in IH.
  rewrite digit_byte by exact Hd. replace (48 + d =? 46) with false by lia. rewrite IH. reflexivity.
Qed.
Lemma split_dot_point ds s : digits ds -> split_dot (digit_text ds ++ z2b 46 :: s) = (digit_text ds, Some s).
Proof.
  induction 1 as [|d ds Hd Hds IH]; [reflexivity|]. cbn [digit_text map split_dot app]. unfold digit_text in IH.
  rewrite digit_byte by exact Hd. replace (48 + d =? 46) with false by lia. rewrite IH. reflexivity.
Qed.

(** The text of a number: digits, or digits, a dot and digits. *)
Lemma parse_float_int ip : digits ip -> ip <> [] -> parse_float (digit_text ip) = to_f64 (dec_value ip) 1.
Proof.
  intros H Hn. unfold parse_float. rewrite split_dot_digits, digit_text_digits, dec_val_text by exact H.
  destruct ip; [congruence|]. reflexivity.
Qed.
Lemma parse_float_frac ip fr : digits ip -> digits fr -> ip <> [] ->
  parse_float (digit_text ip ++ z2b 46 :: digit_text fr) =
  to_f64 (dec_value (ip ++ fr)) (10 ^ Z.of_nat (length fr)).
Proof.
  intros Hi Hf Hn. unfold parse_float. rewrite split_dot_point, !digit_text_digits by assumption.
  rewrite <- digit_text_app, dec_val_text by (apply Forall_app; split; assumption).
  rewrite !digit_text_length. destruct ip; [congruence|]. reflexivity.
Qed.
Lemma parse_float_dots ip s1 s2 : digits ip -> parse_float (digit_text ip ++ z2b 46 :: s1 ++ z2b 46 :: s2) = None.
Proof.
  intros Hi. unfold parse_float. rewrite split_dot_point by assumption.
  assert (E : forallb is_digit_byte (s1 ++ z2b 46 :: s2) = false).
  { apply not_true_is_false. intros H. rewrite forallb_forall in H.
    specialize (H (z2b 46) ltac:(apply in_or_app; right; left; reflexivity)). discriminate. }
  rewrite E, andb_false_r. reflexivity.
Qed.

Lemma dec_Q_frac ip fr : (dec_Q ip fr == frac (dec_value (ip ++ fr)) (10 ^ Z.of_nat (length fr)))%Q.
Proof.
  unfold dec_Q. rewrite frac_Qmake; [reflexivity|]. apply Z.pow_pos_nonneg; lia.
Qed.

Lemma nearest_eq p q f : (p == q)%Q -> nearest p f -> nearest q f.
Proof.
  intros E [H1 H2]. split; [exact H1|]. intros g Hg. destruct (H2 g Hg) as [A B].
  rewrite <- !E. split; assumption.
Qed.

Lemma overflow_Q n d : 0 < d -> (inject_Z overflow_bound <= frac n d)%Q <-> overflow_bound * d <= n.
Proof.
  intros Hd. unfold frac. split.
  - intros H. rewrite Zle_Qle, inject_Z_mult.
    assert (Hp : (0 < inject_Z d)%Q) by (rewrite <- (Zlt_Qlt 0); exact Hd).
    apply (Qmult_le_r _ _ (inject_Z d) Hp) in H.
    eapply Qle_trans; [exact H|]. unfold Qdiv. rewrite <- Qmult_assoc, (Qmult_comm (/ _)), Qmult_inv_r, Qmult_1_r;
      [apply Qle_refl | apply inject_neq; lia].
  - intros H. apply Qle_shift_div_l; [rewrite <- (Zlt_Qlt 0); exact Hd|].
    rewrite <- inject_Z_mult, <- Zle_Qle. exact H.
Qed.

(** ** Scanning a number *)
Definition number_chars (s : bytes) : Prop := Forall (fun b => 48 <= b2z b <= 57 \/ b2z b = 46) s.

Lemma number_runes_text s rest : number_chars s -> isDigit (cur rest) || (cur rest =? cDot) = false ->
  number_runes (s ++ rest) = (map b2z s, rest).
Proof.
  intros Hs Hr. induction Hs as [|b s Hb Hs IH].
  - cbn [app map]. rewrite number_runes_eq, Hr. reflexivity.
  - cbn [app map]. rewrite number_runes_eq. rewrite cur_ascii by lia.
    replace (isDigit (b2z b) || (b2z b =? cDot)) with true by (unfold isDigit, cDot; lia).
    rewrite adv_ascii by lia. rewrite IH. reflexivity.
Qed.
Lemma string_ascii s : Forall (fun b => b2z b < 128) s -> string_of_runes (map b2z s) = s.
Proof.
  induction 1 as [|b s Hb Hs IH]; [reflexivity|]. cbn [map string_of_runes flat_map].
  unfold string_of_runes in IH. rewrite IH. unfold encode.
  pose proof (b2z_range b). replace (valid_rune (b2z b)) with true by (unfold valid_rune; lia).
  replace (b2z b <? 128) with true by lia. rewrite z2b_b2z. reflexivity.
Qed.
Lemma digit_text_number ds : digits ds -> number_chars (digit_text ds).
Proof.
  induction 1 as [|d ds Hd Hds IH]; [constructor|]. constructor; [|exact IH]. rewrite digit_byte by exact Hd. lia.
Qed.

Lemma isLetter_digit c : 48 <= c <= 57 -> isLetter c = false.
Proof.
  intros H. assert (Hin : In c (map Z.of_nat (seq 48 10))).
  { apply in_map_iff. exists (Z.to_nat c). split; [lia|]. apply in_seq. lia. }
  assert (Hall : forallb (fun c => negb (isLetter c)) (map Z.of_nat (seq 48 10)) = true) by (vm_compute; reflexivity).
  rewrite forallb_forall in Hall. specialize (Hall c Hin). destruct (isLetter c); [discriminate|reflexivity].
Qed.

Lemma number_ascii s : number_chars s -> Forall (fun b => b2z b < 128) s.
Proof. apply Forall_impl. intros b H. lia. Qed.

Lemma next_number pd w0 b s rest : trivia w0 -> 48 <= b2z b <= 57 -> number_chars s ->
  isDigit (cur rest) || (cur rest =? cDot) = false ->
  next pd (w0 ++ b :: s ++ rest) =
  if isLetter (cur rest) then (LexRes EOF [] (Some LIdentAfterNumber), rest, false)
  else (LexRes tNumber (b :: s) None, rest, false).
Proof.
  intros H0 Hb Hs Hr. unfold next. fold (trivia_end (w0 ++ b :: s ++ rest)).
  assert (Hcur : cur (b :: s ++ rest) = b2z b) by (apply cur_ascii; lia).
  rewrite trivia_end_start; [|exact H0| | |]; rewrite ?Hcur; try lia;
    [|unfold isSpace; lia].
  cbv zeta. rewrite ?Hcur. rewrite isLetter_digit by exact Hb.
  replace (b2z b =? cDot) with false by (unfold cDot; lia).
  replace (isDigit (b2z b)) with true by (unfold isDigit; lia).
  unfold scanNumber. fold (number_runes (b :: s ++ rest)).
  change (b :: s ++ rest) with ((b :: s) ++ rest).
  assert (Hbs : number_chars (b :: s)) by (constructor; [lia | exact Hs]).
  rewrite number_runes_text, string_ascii by (try apply number_ascii; assumption).
  destruct (isLetter (cur rest)); reflexivity.
Qed.

(** From [next] to Next for numbers. *)
Lemma Next_number code t lit s' pd' : next (tk_prevDot t) (rest_of code t) = (LexRes tNumber lit None, s', pd') ->
  match parse_float lit with
  | Some f => exists t', Next code t = (tNumber, t', None) /\ tk_lit t' = lit /\ rest_of code t' = s' /\
                         tk_value t' = SNum f
  | None => rejects code t
  end.
Proof.
  intros H. unfold Next. fold (rest_of code t). rewrite H. cbv zeta. cbn [lr_tok lr_lit lr_err].
  rewrite Z.eqb_refl. destruct (parse_float lit) as [f|] eqn:E.
  - eexists. split; [reflexivity|]. cbn [tk_lit tk_value]. repeat split.
    unfold rest_of. cbn [tk_off]. eapply skipn_off; [|apply rest_of_suffix]. eapply next_progress. exact H.
  - unfold rejects, Next. fold (rest_of code t). rewrite H. cbv zeta. cbn [lr_tok lr_lit lr_err].
    rewrite Z.eqb_refl, E. eauto.
Qed.

(** What may follow a number. *)
Lemma num_end_cur s : (forall c, first_char s c -> ~ digit_char c /\ c <> 46 /\ ~ letter_char c) <->
  isDigit (cur s) || (cur s =? cDot) = false /\ isLetter (cur s) = false.
Proof.
  split.
  - intros H. destruct s as [|b s]; [rewrite cur_nil; split; [reflexivity | apply isLetter_EOF]|].
    destruct (H (cur (b :: s))) as (H1 & H2 & H3); [split; [discriminate|reflexivity]|].
    split.
    + unfold isDigit, cDot. unfold digit_char in H1. lia.
    + apply not_true_is_false. intros E. apply H3, isLetter_spec, E.
  - intros [H1 H2] c [Hs Hc]. destruct s; [congruence|]. unfold cur in H1, H2. rewrite Hc in H1, H2.
    unfold isDigit, cDot in H1. unfold digit_char. repeat split; [lia|lia|].
    intros E. apply isLetter_spec in E. congruence.
Qed.

(** * Dates *)
Lemma leap_spec y : leap y = true <-> is_leap y.
Proof.
  unfold leap, is_leap. rewrite andb_true_iff, orb_true_iff, negb_true_iff.
  rewrite !Z.eqb_eq, Z.eqb_neq.
  rewrite <- !(Z.mod_divide y) by lia. reflexivity.
Qed.
Lemma month_days_spec y m : 1 <= m <= 12 -> forall n, month_days y m n <-> n = days_in m y.
Proof.
  intros Hm n. unfold month_days, days_in.
  assert (H : m = 1 \/ m = 2 \/ m = 3 \/ m = 4 \/ m = 5 \/ m = 6 \/ m = 7 \/ m = 8 \/ m = 9 \/ m = 10 \/ m = 11 \/ m = 12) by lia.
  pose proof (leap_spec y) as L.
  repeat (destruct H as [->|H]); try subst m; cbn;
  try (split; [intros [[A B]|[[A B]|[A B]]]; try lia; try (destruct A as [A|A]; lia) | intros ->; tauto]).
  destruct (leap y).
  - split; [|intros ->; right; right; split; [reflexivity | left; tauto]].
    intros [[A _]|[[A _]|[_ [[_ A]|[A _]]]]]; try lia; tauto.
  - split; [|intros ->; right; right; split; [reflexivity | right; split; [|reflexivity]; intros X; apply L in X; discriminate]].
    intros [[A _]|[[A _]|[_ [[A _]|[_ A]]]]]; try lia. apply L in A. discriminate.
Qed.
Lemma month_days_month y m n : month_days y m n -> 1 <= m <= 12.
Proof. unfold month_days. cbn [In]. lia. Qed.

Lemma calendar_spec y m d h mi s : calendar_date (GoTime y m d h mi s) <->
  0 <= y <= 9999 /\ 1 <= m <= 12 /\ 1 <= d <= days_in m y /\ 0 <= h <= 23 /\ 0 <= mi <= 59 /\ 0 <= s <= 59.
Proof.
  unfold calendar_date. cbn [t_year t_month t_day t_hour t_min t_sec]. split.
  - intros (Hy & (n & Hn & Hd) & Ht). pose proof (month_days_month _ _ _ Hn) as Hm.
    apply (month_days_spec y m Hm) in Hn. subst n. tauto.
  - intros (Hy & Hm & Hd & Ht). split; [exact Hy|]. split; [|exact Ht].
    exists (days_in m y). split; [apply month_days_spec; [exact Hm | reflexivity] | exact Hd].
Qed.

(** Fields of fixed width. *)
Lemma field2 n a b : field 2 n [a; b] <-> 0 <= a <= 9 /\ 0 <= b <= 9 /\ n = 10 * a + b.
Proof.
  unfold field, digits. cbn [length dec_value]. rewrite !Forall_cons_iff.
  change (10 ^ Z.of_nat 1) with 10. change (10 ^ Z.of_nat 0) with 1. split; [|repeat split]; lia || constructor.
Qed.
Lemma field4 n a b c d : field 4 n [a; b; c; d] <->
  0 <= a <= 9 /\ 0 <= b <= 9 /\ 0 <= c <= 9 /\ 0 <= d <= 9 /\ n = 1000 * a + 100 * b + 10 * c + d.
Proof.
  unfold field, digits. cbn [length dec_value]. rewrite !Forall_cons_iff.
  change (10 ^ Z.of_nat 3) with 1000. change (10 ^ Z.of_nat 2) with 100.
  change (10 ^ Z.of_nat 1) with 10. change (10 ^ Z.of_nat 0) with 1. split; [|repeat split]; lia || constructor.
Qed.
Lemma list2 {A} (l : list A) : length l = 2%nat -> exists a b, l = [a; b].
Proof. destruct l as [|a [|b [|? ?]]]; try discriminate. eauto. Qed.
Lemma list4 {A} (l : list A) : length l = 4%nat -> exists a b c d, l = [a; b; c; d].
Proof. destruct l as [|a [|b [|c [|d [|? ?]]]]]; try discriminate. intros _. exists a, b, c, d. reflexivity. Qed.

Definition layout_len (l : layout) : nat := match l with LDate => 8 | LMinute => 12 | LSecond => 14 end.

Lemma time_parse_length l s t : time_parse l s = Some t -> length s = layout_len l.
Proof.
  unfold time_parse. destruct s as [|y1 [|y2 [|y3 [|y4 s1]]]]; try discriminate. cbv zeta.
  destruct s1 as [|m1 [|m2 s2]]; cbn [getnum]; try discriminate. destruct (_ || _); [discriminate|].
  destruct s2 as [|d1 [|d2 s3]]; cbn [getnum]; try discriminate.
  destruct l; cbn [layout_len].
  - destruct s3; [|discriminate]. reflexivity.
  - destruct s3 as [|h1 [|h2 s4]]; cbn [getnum]; try discriminate.
    + destruct (_ || _); discriminate.
    + destruct (_ || _); [discriminate|]. destruct s4 as [|i1 [|i2 s5]]; cbn [getnum]; try discriminate.
      destruct (_ || _); [discriminate|]. destruct s5; [reflexivity | discriminate].
  - destruct s3 as [|h1 [|h2 s4]]; cbn [getnum]; try discriminate.
    + destruct (_ || _); discriminate.
    + destruct (_ || _); [discriminate|]. destruct s4 as [|i1 [|i2 s5]]; cbn [getnum]; try discriminate.
      destruct (_ || _); [discriminate|]. destruct s5 as [|e1 [|e2 s6]]; cbn [getnum]; try discriminate.
      destruct (_ || _); [discriminate|]. destruct s6; [reflexivity | discriminate].
Qed.

Lemma split_n {A} n m (l : list A) : length l = (n + m)%nat -> exists a b, l = a ++ b /\ length a = n /\ length b = m.
Proof.
  intros H. exists (firstn n l), (skipn n l). rewrite firstn_skipn, firstn_length, skipn_length. repeat split; lia.
Qed.

Lemma dec_val4 a b c d : 0 <= a <= 9 -> 0 <= b <= 9 -> 0 <= c <= 9 -> 0 <= d <= 9 ->
  dec_val [z2b (48 + a); z2b (48 + b); z2b (48 + c); z2b (48 + d)] = 1000 * a + 100 * b + 10 * c + d.
Proof. intros. unfold dec_val. cbn [fold_left]. rewrite !digit_val_text by assumption. ring. Qed.

Ltac range_tests := repeat match goal with
  | |- context [if ?c then _ else _] => let E := fresh "E" in destruct c eqn:E
  end.

Lemma tp_day y m d t : field 4 (t_year t) y -> field 2 (t_month t) m -> field 2 (t_day t) d ->
  t_hour t = 0 -> t_min t = 0 -> t_sec t = 0 ->
  (time_parse LDate (digit_text (y ++ m ++ d)) = Some t <-> calendar_date t) /\
  forall t', time_parse LDate (digit_text (y ++ m ++ d)) = Some t' -> t' = t.
Proof.
  intros Hy Hm Hd. destruct t as [ty tm td th ti ts]. cbn [t_year t_month t_day t_hour t_min t_sec] in *.
  intros -> -> ->.
  destruct (list4 y (proj1 Hy)) as (y1 & y2 & y3 & y4 & ->). destruct (list2 m (proj1 Hm)) as (m1 & m2 & ->).
  destruct (list2 d (proj1 Hd)) as (d1 & d2 & ->).
  apply field4 in Hy as (Y1 & Y2 & Y3 & Y4 & Ey). apply field2 in Hm as (M1 & M2 & Em). apply field2 in Hd as (D1 & D2 & Ed).
  rewrite calendar_spec. cbn [digit_text map app]. unfold time_parse. cbn [getnum]. cbv zeta.
  rewrite dec_val4 by assumption. rewrite !digit_val_text by assumption.
  rewrite <- Ey, <- Em, <- Ed. 
  destruct ((tm <=? 0) || (12 <? tm)) eqn:E1.
  { split; [split; [discriminate | lia] | discriminate]. }
  destruct ((td <? 1) || (days_in tm ty <? td)) eqn:E2; (split; [split|]); try discriminate.
  - intros; exfalso; lia.
  - intros _. repeat split; lia.
  - intros _. reflexivity.
  - intros t' [= <-]. reflexivity.
Qed.

Lemma tp_minute y m d h mi t : field 4 (t_year t) y -> field 2 (t_month t) m -> field 2 (t_day t) d ->
  field 2 (t_hour t) h -> field 2 (t_min t) mi -> t_sec t = 0 ->
  (time_parse LMinute (digit_text (y ++ m ++ d ++ h ++ mi)) = Some t <-> calendar_date t) /\
  forall t', time_parse LMinute (digit_text (y ++ m ++ d ++ h ++ mi)) = Some t' -> t' = t.
Proof.
  intros Hy Hm Hd Hh Hi. destruct t as [ty tm td th ti ts]. cbn [t_year t_month t_day t_hour t_min t_sec] in *.
  intros ->.
  destruct (list4 y (proj1 Hy)) as (y1 & y2 & y3 & y4 & ->). destruct (list2 m (proj1 Hm)) as (m1 & m2 & ->).
  destruct (list2 d (proj1 Hd)) as (d1 & d2 & ->). destruct (list2 h (proj1 Hh)) as (h1 & h2 & ->).
  destruct (list2 mi (proj1 Hi)) as (i1 & i2 & ->).
  apply field4 in Hy as (Y1 & Y2 & Y3 & Y4 & Ey). apply field2 in Hm as (M1 & M2 & Em). apply field2 in Hd as (D1 & D2 & Ed).
  apply field2 in Hh as (H1 & H2 & Eh). apply field2 in Hi as (I1 & I2 & Ei).
  rewrite calendar_spec. cbn [digit_text map app]. unfold time_parse. cbn [getnum]. cbv zeta.
  rewrite dec_val4 by assumption. rewrite !digit_val_text by assumption.
  rewrite <- Ey, <- Em, <- Ed, <- Eh, <- Ei.
  destruct ((tm <=? 0) || (12 <? tm)) eqn:E1.
  { split; [split; [discriminate | lia] | discriminate]. }
  destruct ((th <? 0) || (24 <=? th)) eqn:E3.
  { split; [split; [discriminate | lia] | discriminate]. }
  destruct ((ti <? 0) || (60 <=? ti)) eqn:E4.
  { split; [split; [discriminate | lia] | discriminate]. }
  destruct ((td <? 1) || (days_in tm ty <? td)) eqn:E2; (split; [split|]); try discriminate.
  - intros; exfalso; lia.
  - intros _. repeat split; lia.
  - intros _. reflexivity.
  - intros t' [= <-]. reflexivity.
Qed.

Lemma tp_second y m d h mi s t : field 4 (t_year t) y -> field 2 (t_month t) m -> field 2 (t_day t) d ->
  field 2 (t_hour t) h -> field 2 (t_min t) mi -> field 2 (t_sec t) s ->
  (time_parse LSecond (digit_text (y ++ m ++ d ++ h ++ mi ++ s)) = Some t <-> calendar_date t) /\
  forall t', time_parse LSecond (digit_text (y ++ m ++ d ++ h ++ mi ++ s)) = Some t' -> t' = t.
Proof.
  intros Hy Hm Hd Hh Hi Hs. destruct t as [ty tm td th ti ts]. cbn [t_year t_month t_day t_hour t_min t_sec] in *.
  destruct (list4 y (proj1 Hy)) as (y1 & y2 & y3 & y4 & ->). destruct (list2 m (proj1 Hm)) as (m1 & m2 & ->).
  destruct (list2 d (proj1 Hd)) as (d1 & d2 & ->). destruct (list2 h (proj1 Hh)) as (h1 & h2 & ->).
  destruct (list2 mi (proj1 Hi)) as (i1 & i2 & ->). destruct (list2 s (proj1 Hs)) as (s1 & s2 & ->).
  apply field4 in Hy as (Y1 & Y2 & Y3 & Y4 & Ey). apply field2 in Hm as (M1 & M2 & Em). apply field2 in Hd as (D1 & D2 & Ed).
  apply field2 in Hh as (H1 & H2 & Eh). apply field2 in Hi as (I1 & I2 & Ei). apply field2 in Hs as (S1 & S2 & Es).
  rewrite calendar_spec. cbn [digit_text map app]. unfold time_parse. cbn [getnum]. cbv zeta.
  rewrite dec_val4 by assumption. rewrite !digit_val_text by assumption.
  rewrite <- Ey, <- Em, <- Ed, <- Eh, <- Ei, <- Es.
  destruct ((tm <=? 0) || (12 <? tm)) eqn:E1.
  { split; [split; [discriminate | lia] | discriminate]. }
  destruct ((th <? 0) || (24 <=? th)) eqn:E3.
  { split; [split; [discriminate | lia] | discriminate]. }
  destruct ((ti <? 0) || (60 <=? ti)) eqn:E4.
  { split; [split; [discriminate | lia] | discriminate]. }
  destruct ((ts <? 0) || (60 <=? ts)) eqn:E5.
  { split; [split; [discriminate | lia] | discriminate]. }
  destruct ((td <? 1) || (days_in tm ty <? td)) eqn:E2; (split; [split|]); try discriminate.
  - intros; exfalso; lia.
  - intros _. repeat split; lia.
  - intros _. reflexivity.
  - intros t' [= <-]. reflexivity.
Qed.

Lemma zeros_text ds : digits ds -> (forallb (fun b => b2z b =? 48) (digit_text ds) = true <-> Forall (fun d => d = 0) ds).
Proof.
  induction 1 as [|d ds Hd Hds IH]; [split; [constructor | reflexivity]|].
  cbn [digit_text map forallb]. unfold digit_text in IH. rewrite digit_byte by exact Hd.
  rewrite andb_true_iff, IH, Forall_cons_iff. split; intros [A C]; (split; [lia | exact C]).
Qed.
Lemma zeros_value ds : Forall (fun d => d = 0) ds -> dec_value ds = 0.
Proof. induction 1 as [|d ds -> H IH]; [reflexivity|]. cbn [dec_value]. rewrite IH. ring. Qed.

Lemma field_self w ds : digits ds -> length ds = w -> field w (dec_value ds) ds.
Proof. intros. repeat split; assumption. Qed.

Lemma date_digits_digits ds t : date_digits ds t -> digits ds.
Proof.
  unfold digits. intros [zs H1 H2| | |].
  - eapply Forall_impl; [|exact H2]. cbv beta. lia.
  - intros. rewrite !Forall_app. unfold field, digits in *. tauto.
  - intros. rewrite !Forall_app. unfold field, digits in *. tauto.
  - intros. rewrite !Forall_app. unfold field, digits in *. tauto.
Qed.

Lemma month_nonzero y m s t : calendar_date t -> field 2 (t_month t) m -> ~ Forall (fun d => d = 0) (y ++ m ++ s).
Proof.
  intros Hc (_ & _ & Hv) Hz. rewrite !Forall_app in Hz. destruct Hz as (_ & Hz & _).
  apply zeros_value in Hz. destruct t as [ty tm td th ti ts]. apply calendar_spec in Hc. cbn [t_month] in *. lia.
Qed.

Lemma parse_date_complete ds t : date_digits ds t -> parse_date (digit_text ds) = Some t.
Proof.
  intros H. pose proof (date_digits_digits ds t H) as Hd. unfold parse_date.
  destruct (forallb (fun b => b2z b =? 48) (digit_text ds)) eqn:Ez.
  { apply zeros_text in Ez; [|exact Hd].
    inversion H; subst; [reflexivity| | |]; exfalso; eapply month_nonzero; eassumption. }
  assert (Hlen : forall l, length ds <> layout_len l -> time_parse l (digit_text ds) = None).
  { intros l Hl. destruct (time_parse l (digit_text ds)) eqn:E; [|reflexivity].
    apply time_parse_length in E. rewrite digit_text_length in E. congruence. }
  inversion H; subst.
  - apply zeros_text in H1; [congruence | exact Hd].
  - rewrite (proj2 (proj1 (tp_day y m d t H1 H2 H3 H4 H5 H6)) H0). reflexivity.
  - unfold field in H1, H2, H3, H4, H5.
    rewrite (Hlen LDate) by (rewrite !app_length; cbn [layout_len]; lia).
    rewrite (proj2 (proj1 (tp_minute y m d h mi t H1 H2 H3 H4 H5 H6)) H0). reflexivity.
  - unfold field in H1, H2, H3, H4, H5, H6.
    rewrite (Hlen LDate) by (rewrite !app_length; cbn [layout_len]; lia).
    rewrite (Hlen LMinute) by (rewrite !app_length; cbn [layout_len]; lia).
    rewrite (proj2 (proj1 (tp_second y m d h mi s t H1 H2 H3 H4 H5 H6)) H0). reflexivity.
Qed.

Lemma parse_date_sound ds t : digits ds -> ds <> [] -> parse_date (digit_text ds) = Some t -> date_digits ds t.
Proof.
  intros Hd Hn. unfold parse_date.
  destruct (forallb (fun b => b2z b =? 48) (digit_text ds)) eqn:Ez.
  { intros [= <-]. apply dd_zero; [exact Hn | apply zeros_text; assumption]. }
  assert (Hlen : forall l t, time_parse l (digit_text ds) = Some t -> length ds = layout_len l).
  { intros l t' E. apply time_parse_length in E. rewrite digit_text_length in E. exact E. }
  assert (Hcut : forall l n m, length l = (n + m)%nat -> digits l -> exists a b, l = a ++ b /\ digits b /\ length b = m /\ field n (dec_value a) a).
  { intros l n m E Hl. destruct (split_n n m l E) as (a & b & -> & E1 & E2).
    unfold digits in Hl. rewrite Forall_app in Hl. destruct Hl. exists a, b. repeat split; assumption. }
  assert (Hhead : (8 <= length ds)%nat -> exists y m d r, ds = y ++ m ++ d ++ r /\ digits r /\ length r = (length ds - 8)%nat /\
     field 4 (dec_value y) y /\ field 2 (dec_value m) m /\ field 2 (dec_value d) d).
  { intros E. destruct (Hcut ds 4%nat (length ds - 4)%nat ltac:(lia) Hd) as (y & r1 & E1 & D1 & L1 & F1).
    destruct (Hcut r1 2%nat (length ds - 6)%nat ltac:(lia) D1) as (m & r2 & -> & D2 & L2 & F2).
    destruct (Hcut r2 2%nat (length ds - 8)%nat ltac:(lia) D2) as (d & r3 & -> & D3 & L3 & F3).
    exists y, m, d, r3. repeat (split; [assumption|]). assumption. }
  destruct (time_parse LDate (digit_text ds)) as [t1|] eqn:E1.
  { intros [= <-]. pose proof (Hlen _ _ E1) as L. cbn [layout_len] in L.
    destruct (Hhead ltac:(lia)) as (y & m & d & r & -> & Dr & Lr & F1 & F2 & F3).
    rewrite L in Lr. destruct r; [|discriminate]. rewrite app_nil_r in *.
    destruct (tp_day y m d (GoTime (dec_value y) (dec_value m) (dec_value d) 0 0 0) F1 F2 F3 eq_refl eq_refl eq_refl) as [T1 T2].
    pose proof (T2 _ E1) as ->. apply T1 in E1. apply dd_day; (assumption || reflexivity). }
  destruct (time_parse LMinute (digit_text ds)) as [t1|] eqn:E2.
  { intros [= <-]. pose proof (Hlen _ _ E2) as L. cbn [layout_len] in L.
    destruct (Hhead ltac:(lia)) as (y & m & d & r & -> & Dr & Lr & F1 & F2 & F3).
    rewrite L in Lr. destruct (Hcut r 2%nat 2%nat Lr Dr) as (h & mi & -> & D2 & L2 & F4).
    pose proof (field_self 2 mi D2 L2) as F5.
    destruct (tp_minute y m d h mi (GoTime (dec_value y) (dec_value m) (dec_value d) (dec_value h) (dec_value mi) 0)
       F1 F2 F3 F4 F5 eq_refl) as [T1 T2].
    pose proof (T2 _ E2) as ->. apply T1 in E2. apply dd_minute; (assumption || reflexivity). }
  intros E3. pose proof (Hlen _ _ E3) as L. cbn [layout_len] in L.
  destruct (Hhead ltac:(lia)) as (y & m & d & r & -> & Dr & Lr & F1 & F2 & F3).
  rewrite L in Lr. destruct (Hcut r 2%nat 4%nat Lr Dr) as (h & r2 & -> & D2 & L2 & F4).
  destruct (Hcut r2 2%nat 2%nat L2 D2) as (mi & s & -> & D4 & L4 & F5).
  pose proof (field_self 2 s D4 L4) as F6.
  destruct (tp_second y m d h mi s (GoTime (dec_value y) (dec_value m) (dec_value d) (dec_value h) (dec_value mi) (dec_value s))
     F1 F2 F3 F4 F5 F6) as [T1 T2].
  pose proof (T2 _ E3) as ->. apply T1 in E3. apply dd_second; assumption.
Qed.

Lemma digits_of_digits v : digits (digits_of v).
Proof.
  unfold digits, digits_of. apply Forall_map, Forall_forall. intros c H. apply filter_In in H as [_ H]. lia.
Qed.

Lemma extractDigits_runes v : forallb valid_rune v = true ->
  extractDigits (string_of_runes v) = digit_text (digits_of v).
Proof.
  intros Hv. unfold extractDigits. rewrite runes_string by exact Hv. clear Hv.
  unfold digits_of, digit_text. change (fun c => (48 <=? c) && (c <=? 57)) with isDigit.
  induction v as [|c v IH]; [reflexivity|]. cbn [filter]. destruct (isDigit c) eqn:E; [|exact IH].
  cbn [string_of_runes flat_map map]. unfold string_of_runes in IH. rewrite IH.
  replace (48 + (c - 48)) with c by lia. unfold encode.
  replace (valid_rune c) with true by (unfold isDigit in E; unfold valid_rune; lia).
  replace (c <? 128) with true by (unfold isDigit in E; lia). reflexivity.
Qed.

Lemma decode_valid s : s <> [] -> valid_rune (fst (decode s)) = true.
Proof.
  intros H. destruct s as [|b s]; [congruence|].
  destruct (decode_shape (b :: s) H) as [E|[E _]]; [rewrite E; reflexivity | exact E].
Qed.
Lemma str_text_valid en s v rest : str_text en s v rest -> forallb valid_rune v = true.
Proof.
  induction 1 as [| s v rest r k Hs Hd H1 H2 H IH | | |]; cbn [forallb]; try (rewrite ?IHstr_text; reflexivity).
  rewrite IH, andb_true_r. pose proof (decode_valid s Hs) as E. rewrite Hd in E. exact E.
Qed.

Lemma next_date pd w0 s v rest : trivia w0 -> str_text 39 s v rest ->
  next pd (w0 ++ z2b 39 :: s) =
  match digits_of v with
  | [] => (LexRes EOF [] (Some LDateConst), rest, false)
  | _ => (LexRes tDate (digit_text (digits_of v)) None, rest, false)
  end.
Proof.
  intros H0 Hs. unfold next. fold (trivia_end (w0 ++ z2b 39 :: s)).
  rewrite (next_at w0 39 s) by (try assumption; try lia; reflexivity). cbv zeta.
  rewrite cur_ascii by reflexivity. change (b2z (z2b 39)) with 39.
  assert (E : scanString 39 (z2b 39 :: s) = (inl (string_of_runes v), rest)).
  { apply scanString_iff; [right; reflexivity|]. exists v. split; [|reflexivity]. rewrite adv_ascii by reflexivity. exact Hs. }
  change (isLetter 39) with false. change (39 =? cDot) with false. change (isDigit 39) with false.
  change (39 =? cApos) with true. cbv iota. rewrite E.
  rewrite extractDigits_runes by (eapply str_text_valid; exact Hs).
  destruct (digits_of v); reflexivity.
Qed.

Lemma Next_date code t lit s' pd' : next (tk_prevDot t) (rest_of code t) = (LexRes tDate lit None, s', pd') ->
  match parse_date lit with
  | Some d => exists t', Next code t = (tDate, t', None) /\ tk_lit t' = lit /\ rest_of code t' = s' /\
                         tk_value t' = STime d
  | None => rejects code t
  end.
Proof.
  intros H. unfold rejects, Next. fold (rest_of code t). rewrite H. cbv zeta. cbn [lr_tok lr_lit lr_err].
  change (tDate =? tNumber) with false. change (tDate =? tString) with false. rewrite Z.eqb_refl. cbv iota.
  assert (Hr : forall v, rest_of code (Token true v lit (length code - length s') pd') = s').
  { intros v. unfold rest_of. cbn [tk_off]. eapply skipn_off; [|apply rest_of_suffix]. eapply next_progress. exact H. }
  destruct (forallb (fun b => b2z b =? 48) lit) eqn:Ez.
  - unfold parse_date at 1. rewrite Ez. eexists. split; [reflexivity|]. repeat split. apply Hr.
  - destruct (parse_date lit) as [d|].
    + eexists. split; [reflexivity|]. repeat split. apply Hr.
    + eauto.
Qed.
