(** C32, C33, C34: a literal printed by the printer and read again by the scanner. *)
From Coq Require Import Lqa.
From Verif Require Import Bytes Utf8 UnicodeTables Float64 GoTime Ast Lexer LexFacts Utf8Facts LexSpec LexProofs LexTrivia
  LexTokens LexStrings NumSpec NumProofs NumTokens Printer Parser Driver Properties_Lexer.

(** The printed text of a literal: what [PrintStatement] shows before the semicolon.
    (ast_print.go:33-48 and 152-188.) *)
Definition printed (s : stmt) (text : bytes) : Prop :=
  PrintStatement s = Some (text ++ B ";").

(** [reads_back text s]: wherever the text stands in a program, preceded by white space
    or comments and followed by white space and something that cannot continue a literal,
    the scanner reads it as the value [s] and goes on behind it. *)
Definition stops (rest : bytes) : Prop :=
  forall c, first_char rest c -> ~ word_char c /\ ~ space_char c /\ c <> 46 /\ c <> 34.
Definition reads_back (text : bytes) (s : stmt) : Prop :=
  forall code t w0 b rest, trivia w0 -> blanks b -> stops rest -> rest_of code t = w0 ++ text ++ b ++ rest ->
  exists k t' b', Next code t = (k, t', None) /\ tk_value t' = s /\ blanks b' /\ rest_of code t' = b' ++ rest.

Lemma stops_semicolon : stops (B ";").
Proof.
  intros c [_ H]. vm_compute in H. subst c. repeat split; try discriminate.
  - intros H. apply word_spec in H. vm_compute in H. discriminate.
  - intros [H|[H|[H|H]]]; discriminate.
Qed.
Lemma printed_eq s text text' : printed s text -> PrintStatement s = Some (text' ++ B ";") -> text = text'.
Proof. unfold printed. intros -> [= H]. exact (app_inv_tail _ _ _ H). Qed.

(** * Decimal digits *)
Lemma dec_fuel_text f : forall n acc, 0 <= n < 2 ^ Z.of_nat f -> (0 < f)%nat -> exists ds,
  digits ds /\ ds <> [] /\ dec_value ds = n /\ dec_fuel f n acc = digit_text ds ++ acc /\
  (length ds = 1%nat \/ 10 ^ (Z.of_nat (length ds) - 1) <= n).
Proof.
  induction f as [|f IH]; intros n acc Hn Hf; [lia|]. cbn [dec_fuel].
  assert (Hm : 0 <= n mod 10 < 10) by (apply Z.mod_pos_bound; lia).
  pose proof (Z.div_mod n 10 ltac:(lia)) as Hdm.
  destruct (n / 10 =? 0) eqn:E.
  - exists [n mod 10]. split; [constructor; [lia|constructor]|]. split; [discriminate|]. split; [|split; [reflexivity|left; reflexivity]].
    cbn [dec_value length]. change (10 ^ Z.of_nat 0) with 1. lia.
  - assert (Hq : 0 <= n / 10) by (apply Z.div_pos; lia).
    assert (Hp : 2 ^ Z.of_nat (S f) = 2 * 2 ^ Z.of_nat f).
    { replace (Z.of_nat (S f)) with (Z.succ (Z.of_nat f)) by lia. apply Z.pow_succ_r. lia. }
    assert (Hf0 : (0 < f)%nat). { destruct f; [|lia]. change (2 ^ Z.of_nat 0) with 1 in Hp. lia. }
    destruct (IH (n / 10) (z2b (48 + n mod 10) :: acc)) as (ds & D1 & D2 & D3 & D4 & D5); [|exact Hf0|]; [lia|].
    exists (ds ++ [n mod 10]). split; [apply Forall_app; split; [exact D1|]; constructor; [lia|constructor]|].
    split; [destruct ds; discriminate|]. split.
    + assert (Hv : forall a b, dec_value (a ++ b) = dec_value a * 10 ^ Z.of_nat (length b) + dec_value b).
      { clear. induction a as [|x a IHa]; intros b; [cbn; lia|]. cbn [app dec_value]. rewrite IHa, app_length.
        rewrite Nat2Z.inj_add, Z.pow_add_r by lia. ring. }
      rewrite Hv, D3. cbn [length dec_value]. change (10 ^ Z.of_nat 1) with 10. change (10 ^ Z.of_nat 0) with 1. lia.
    + split; [rewrite D4, digit_text_app, <- app_assoc; reflexivity|]. right. rewrite app_length. cbn [length].
      destruct D5 as [->|D5]; [change (10 ^ (Z.of_nat (1 + 1) - 1)) with 10; lia|].
      destruct ds as [|d0 ds]; [congruence|]. cbn [length] in *.
      replace (Z.of_nat (S (length ds) + 1) - 1) with (Z.succ (Z.of_nat (S (length ds)) - 1)) by lia.
      rewrite Z.pow_succ_r by lia. lia.
Qed.
Lemma dec_of_Z_text n : 0 <= n -> exists ds, digits ds /\ ds <> [] /\ dec_value ds = n /\ dec_of_Z n = digit_text ds /\
  (length ds = 1%nat \/ 10 ^ (Z.of_nat (length ds) - 1) <= n).
Proof.
  intros Hn. unfold dec_of_Z.
  destruct (dec_fuel_text (S (Z.to_nat (Z.log2 n))) n []) as (ds & D1 & D2 & D3 & D4 & D5).
  - split; [exact Hn|]. rewrite Nat2Z.inj_succ, Z2Nat.id by apply Z.log2_nonneg.
    destruct (Z.eq_dec n 0) as [->|]; [reflexivity|]. apply Z.log2_spec. lia.
  - lia.
  - exists ds. rewrite app_nil_r in D4. auto.
Qed.

(** * C32 Numeric literals survive printing *)
(** The number is a whole number. *)
Definition whole (f : f64) : Prop := exists n, (f64_Q f == inject_Z n)%Q.
Definition number_0 : f64 := F64 false 0 0.

Lemma nearest_self q f : is_f64 f -> (f64_Q f == q)%Q -> nearest q f.
Proof.
  intros Hf Hq. split; [exact Hf|]. intros g Hg.
  assert (E0 : (Qabs (f64_Q f - q) == 0)%Q).
  { assert (E1 : (f64_Q f - q == 0)%Q) by (rewrite Hq; ring). rewrite E1. reflexivity. }
  split.
  - rewrite E0. apply Qabs_nonneg.
  - intros E Hne. exfalso. apply Hne. rewrite E0 in E. symmetry in E. apply f64_canonical; [exact Hg|exact Hf|].
    rewrite Hq. revert E. apply Qabs_case; intros _ E; lra.
Qed.

(** Small whole numbers are float64 values. *)
Lemma small_whole n : 0 <= n <= 2 ^ 53 -> exists g, is_f64 g /\ (f64_Q g == inject_Z n)%Q.
Proof.
  intros Hn. destruct (Z.eq_dec n 0) as [->|Hn0].
  { exists (F64 false 0 0). split; [apply is_f64_zero | reflexivity]. }
  destruct (Z.eq_dec n (2 ^ 53)) as [->|Hn1].
  { exists (F64 false (2 ^ 52) 1). split; [split; [reflexivity|]; right; left; cbn [f_man f_exp]; lia | reflexivity]. }
  pose proof (Z.log2_spec n ltac:(lia)) as [L1 L2].
  assert (L3 : Z.log2 n < 53).
  { apply Z.log2_lt_pow2; lia. }
  pose proof (Z.log2_nonneg n) as L0.
  set (k := 52 - Z.log2 n). exists (F64 false (n * 2 ^ k) (- k)).
  assert (P1 : 2 ^ Z.log2 n * 2 ^ k = 2 ^ 52) by (rewrite <- Z.pow_add_r by lia; f_equal; lia).
  assert (P2 : 2 ^ Z.succ (Z.log2 n) * 2 ^ k = 2 ^ 53) by (rewrite <- Z.pow_add_r by lia; f_equal; lia).
  assert (P3 : 0 < 2 ^ k) by (apply Z.pow_pos_nonneg; lia).
  split.
  - split; [reflexivity|]. right. left. cbn [f_man f_exp]. split; [nia | lia].
  - rewrite f64_Q_pos by reflexivity. cbn [f_man f_exp]. rewrite inject_Z_mult, <- Qpower2_Z by lia.
    rewrite <- Qmult_assoc, <- Qpower2_plus. rewrite Z.add_opp_diag_r. cbn [Qpower]. ring.
Qed.

Lemma format_value f : is_f64 f -> exists n ds, 0 <= n /\ format_0f f = digit_text ds /\ digits ds /\ ds <> [] /\ dec_value ds = n /\
  (whole f -> (f64_Q f == inject_Z n)%Q) /\ (~ whole f -> n <= 2 ^ 53).
Proof.
  intros [Hneg Hf]. unfold format_0f. rewrite Hneg. cbv zeta.
  set (n := if 0 <=? f_exp f then _ else _).
  assert (Hm : 0 <= f_man f < 2 ^ 53) by (destruct pow52; lia).
  assert (Hn : 0 <= n).
  { subst n. destruct (0 <=? f_exp f) eqn:E; [pose proof (pow2_pos (f_exp f)); nia|].
    apply round_ne_nonneg; [apply pow2_pos; lia | lia]. }
  destruct (dec_of_Z_text n Hn) as (ds & D1 & D2 & D3 & D4 & _). exists n, ds.
  repeat (split; [assumption|]). split.
  - intros [m Hw]. rewrite f64_Q_pos in * by exact Hneg. subst n. destruct (0 <=? f_exp f) eqn:E.
    + rewrite inject_Z_mult, <- Qpower2_Z by lia. reflexivity.
    + assert (Em : f_man f = m * 2 ^ (- f_exp f)).
      { assert (Q : (inject_Z (f_man f) == inject_Z (m * 2 ^ (- f_exp f)))%Q).
        { rewrite inject_Z_mult, <- Qpower2_Z, <- Hw by lia. rewrite <- Qmult_assoc, <- Qpower2_plus.
          rewrite Z.add_opp_diag_r. cbn [Qpower]. ring. }
        unfold Qeq in Q. cbn in Q. lia. }
      rewrite Hw. assert (round_ne (f_man f) (2 ^ (- f_exp f)) = m) as ->; [|reflexivity].
      pose proof (pow2_pos (- f_exp f) ltac:(lia)) as P. apply Z.le_antisymm.
      * apply round_ne_le; lia.
      * apply round_ne_ge; lia.
  - intros Hw. subst n. destruct (0 <=? f_exp f) eqn:E.
    + exfalso. apply Hw. exists (f_man f * 2 ^ f_exp f). rewrite f64_Q_pos, inject_Z_mult, <- Qpower2_Z by (assumption || lia). reflexivity.
    + pose proof (pow2_pos (- f_exp f) ltac:(lia)) as P. apply round_ne_le; [exact P|]. nia.
Qed.
Lemma num_Q_int ds : (num_Q ds None == inject_Z (dec_value ds))%Q.
Proof. unfold num_Q, dec_Q. rewrite app_nil_r. reflexivity. Qed.
Lemma f64_bound f : is_f64 f -> (f64_Q f < inject_Z overflow_bound)%Q.
Proof.
  intros [Hneg Hf]. rewrite f64_Q_pos by exact Hneg.
  assert (Hm : 0 <= f_man f <= 2 ^ 53 - 1 /\ f_exp f <= 971) by (destruct pow52; lia).
  apply Qle_lt_trans with (inject_Z (2 ^ 53 - 1) * Qpower 2 971)%Q.
  - apply Qle_trans with (inject_Z (f_man f) * Qpower 2 971)%Q.
    + assert (E : (Qpower 2 971 == Qpower 2 (f_exp f) * inject_Z (2 ^ (971 - f_exp f)))%Q).
      { rewrite <- Qpower2_Z by lia. rewrite <- Qpower2_plus. f_equiv. lia. }
      rewrite E. rewrite (Qmult_comm (Qpower 2 (f_exp f))), Qmult_assoc. apply Qmult_le_compat_r; [|apply Qlt_le_weak, Qpower2_pos].
      rewrite <- inject_Z_mult, <- Zle_Qle. pose proof (pow2_pos (971 - f_exp f) ltac:(lia)). nia.
    + apply Qmult_le_compat_r; [|apply Qlt_le_weak, Qpower2_pos]. rewrite <- Zle_Qle. lia.
  - rewrite Qpower2_Z by lia. rewrite <- inject_Z_mult, <- Zlt_Qlt. unfold overflow_bound. reflexivity.
Qed.
Lemma stops_num b rest : blanks b -> stops rest ->
  forall c, first_char (b ++ rest) c -> ~ digit_char c /\ c <> 46 /\ ~ letter_char c.
Proof.
  intros [|x b' Hx Hb] H c Hc.
  - destruct (H c Hc) as (H1 & H2 & H3 & H4). unfold word_char in H1. tauto.
  - destruct Hc as [_ Hc]. cbn [app] in Hc. assert (Hx2 : b2z x < 128) by (unfold space_char in Hx; lia).
    unfold decode in Hc. replace (b2z x <? 128) with true in Hc by lia. cbn [fst] in Hc. subst c.
    split; [unfold digit_char, space_char in *; lia|]. split; [unfold space_char in *; lia|].
    intros Hl. apply isLetter_spec in Hl. apply letter_class in Hl as (_ & _ & Hl).
    unfold isSpace in Hl. unfold space_char in Hx. destruct Hx as [E|[E|[E|E]]]; rewrite E in Hl; discriminate.
Qed.

Theorem C32_exact : forall f text, is_f64 f -> printed (SNum f) text ->
  (reads_back text (SNum f) <-> whole f).
Proof.
  intros f text Hf Hp. assert (text = format_0f f) as -> by (eapply printed_eq; [exact Hp | reflexivity]). clear Hp.
  destruct (format_value f Hf) as (n & ds & N0 & -> & D1 & D2 & D3 & W1 & W2). split.
  - intros H. destruct (H (digit_text ds ++ B ";") zero_token [] [] (B ";")) as (k & t' & b' & R1 & R2 & _ & R3);
      [constructor | constructor | apply stops_semicolon | reflexivity|].
    assert (Hr : rest_of (digit_text ds ++ B ";") zero_token = [] ++ num_text ds None ++ B ";").
    { unfold num_text. rewrite app_nil_r. reflexivity. }
    destruct (C07_number _ _ [] ds None (B ";") tr_nil D1 D2 ltac:(discriminate)
      (stops_num [] _ (Forall_nil _) stops_semicolon) Hr) as [HA HB].
    destruct (Qlt_le_dec (num_Q ds None) (inject_Z overflow_bound)) as [Hlt|Hle].
    + destruct (HA Hlt) as (t2 & g & N1 & N2 & N3 & _). rewrite N1 in R1. injection R1 as <- <-.
      rewrite N2 in R2. injection R2 as ->. 
      destruct (Z.le_gt_cases n (2 ^ 53)) as [Hs|Hs].
      * destruct (small_whole n (conj N0 Hs)) as (g & G1 & G2).
        assert (f = g) as ->; [|exists n; exact G2]. eapply nearest_unique; [exact N3|].
        apply nearest_self; [exact G1|]. rewrite num_Q_int, D3. exact G2.
      * destruct (Z.le_gt_cases 0 (f_exp f)) as [He|He].
        -- exists (f_man f * 2 ^ f_exp f). rewrite f64_Q_pos, inject_Z_mult, <- Qpower2_Z by (apply Hf || lia). reflexivity.
        -- assert (Hd : whole f \/ ~ whole f).
           { destruct (Z.eq_dec (f_man f mod 2 ^ (- f_exp f)) 0) as [E|E].
             - left. exists (f_man f / 2 ^ (- f_exp f)). rewrite f64_Q_pos by apply Hf.
               pose proof (pow2_pos (- f_exp f) ltac:(lia)) as P.
               pose proof (Z.div_mod (f_man f) (2 ^ (- f_exp f)) ltac:(lia)) as Q. rewrite E, Z.add_0_r in Q.
               rewrite Q at 1. rewrite inject_Z_mult, <- Qpower2_Z by lia.
               rewrite (Qmult_comm (Qpower 2 (- f_exp f))), <- Qmult_assoc, <- Qpower2_plus.
               rewrite Z.add_opp_diag_l. cbn [Qpower]. ring.
             - right. intros [m Hw]. apply E. rewrite f64_Q_pos in Hw by apply Hf.
               pose proof (pow2_pos (- f_exp f) ltac:(lia)) as P.
               assert (Q : (inject_Z (f_man f) == inject_Z (m * 2 ^ (- f_exp f)))%Q).
               { rewrite inject_Z_mult, <- Qpower2_Z, <- Hw by lia. rewrite <- Qmult_assoc, <- Qpower2_plus.
                 rewrite Z.add_opp_diag_r. cbn [Qpower]. ring. }
               unfold Qeq in Q. cbn in Q. rewrite !Z.mul_1_r in Q. rewrite Q. apply Z.mod_mul. lia. }
           destruct Hd as [Hd|Hd]; [exact Hd|]. apply W2 in Hd. lia.
    + destruct (HB Hle) as (k2 & t2 & e & N1). rewrite N1 in R1. discriminate.
  - intros Hw. specialize (W1 Hw). intros code t w0 b rest H0 Hb Hs Hr.
    destruct (C07_number code t w0 ds None (b ++ rest) H0 D1 D2 ltac:(discriminate) (stops_num _ _ Hb Hs)) as [HA _].
    { unfold num_text. rewrite app_nil_r. exact Hr. }
    destruct HA as (t' & g & N1 & N2 & N3 & N4).
    { rewrite num_Q_int, D3, <- W1. apply f64_bound, Hf. }
    exists tNumber, t', b. split; [exact N1|]. split; [|split; [exact Hb|exact N4]]. rewrite N2. f_equal.
    eapply nearest_unique; [exact N3|]. apply nearest_self; [exact Hf|]. rewrite num_Q_int, D3. exact W1.
Qed.
(** A negative number is printed as a minus and the number of opposite sign. *)
Theorem C32_negative : forall f text, is_f64 f -> printed (SNum f) text -> printed (SNum (f64_opp f)) (B "-" ++ text).
Proof.
  intros f text Hf Hp. assert (text = format_0f f) as -> by (eapply printed_eq; [exact Hp | reflexivity]).
  unfold printed, PrintStatement, PrintStatementWithConf, printBodyItem. cbn [is_nil spaces margin obind].
  change (4 * Z.of_nat 0) with 0. cbn [Z.ltb Z.to_nat repeat obind printVarStatement pr].
  change (0 <? 0) with false. cbv iota. cbn [obind]. change (Z.to_nat 0) with 0%nat. cbn [repeat app]. do 2 f_equal.
  unfold format_0f, f64_opp. cbn [f_neg f_man f_exp]. destruct Hf as [-> _]. reflexivity.
Qed.
Theorem C32_whole_partial : forall f, is_f64 f -> whole f ->
  exists text, printed (SNum f) text /\ reads_back text (SNum f).
Proof. intros f Hf Hw. exists (format_0f f). split; [reflexivity|]. apply (C32_exact f); [exact Hf | reflexivity | exact Hw]. Qed.
(** The full claim fails: a number with a fraction is printed as a whole number. *)
Theorem C32_refuted : exists f text, is_f64 f /\ printed (SNum f) text /\ ~ reads_back text (SNum f).
Proof.
  exists (F64 false (3 * 2 ^ 51) (-52)), (B "2"). split; [|split; [reflexivity|]].
  - split; [reflexivity|]. right. left. cbn [f_man f_exp]. lia.
  - intros H. destruct (H (B "2;") zero_token [] [] (B ";")) as (k & t' & b' & R1 & R2 & _);
      [constructor | constructor | apply stops_semicolon | reflexivity|]. vm_compute in R1. injection R1 as <- <-. discriminate R2.
Qed.
Example C32_example : exists f text, is_f64 f /\ whole f /\ printed (SNum f) text /\ text = B "1048577".
Proof.
  exists (F64 false (1048577 * 2 ^ 32) (-32)), (B "1048577"). split; [split; [reflexivity|]; right; left; cbn; lia|].
  split; [exists 1048577; reflexivity|]. split; reflexivity.
Qed.

(** * C33 Date literals survive printing *)
Lemma pad_field w n : (0 < w)%nat -> 0 <= n < 10 ^ Z.of_nat w -> exists ds, field w n ds /\ pad w n = digit_text ds.
Proof.
  intros Hw Hn. unfold pad. destruct (dec_of_Z_text n ltac:(lia)) as (ds & D1 & D2 & D3 & -> & D5). cbv zeta.
  assert (Hl : (length ds <= w)%nat).
  { destruct D5 as [->|D5]; [lia|]. destruct (Nat.le_gt_cases (length ds) w) as [|H]; [assumption|exfalso].
    assert (10 ^ Z.of_nat w <= 10 ^ (Z.of_nat (length ds) - 1)) by (apply Z.pow_le_mono_r; lia). lia. }
  rewrite digit_text_length. exists (repeat 0 (w - length ds) ++ ds). split; [split; [|split]|].
  - rewrite app_length, repeat_length. lia.
  - apply Forall_app. split; [|exact D1]. apply Forall_forall. intros x Hx. apply repeat_spec in Hx. lia.
  - rewrite <- D3. generalize (w - length ds)%nat. induction n0 as [|k IH]; [reflexivity|]. cbn [repeat app dec_value]. lia.
  - rewrite digit_text_app. f_equal. generalize (w - length ds)%nat. induction n0 as [|k IH]; [reflexivity|].
    cbn [repeat digit_text map]. rewrite IH. reflexivity.
Qed.
Lemma calendar_bounds t : calendar_date t -> 0 <= t_year t < 10 ^ Z.of_nat 4 /\ 0 <= t_month t < 10 ^ Z.of_nat 2 /\
  0 <= t_day t < 10 ^ Z.of_nat 2 /\ 0 <= t_hour t < 10 ^ Z.of_nat 2 /\ 0 <= t_min t < 10 ^ Z.of_nat 2 /\ 0 <= t_sec t < 10 ^ Z.of_nat 2.
Proof.
  destruct t as [y m d h mi s]. rewrite calendar_spec. cbn [t_year t_month t_day t_hour t_min t_sec].
  change (10 ^ Z.of_nat 4) with 10000. change (10 ^ Z.of_nat 2) with 100.
  assert (days_in m y <= 31) by (unfold days_in; destruct (m =? 2), (leap y), ((m =? 4) || (m =? 6) || (m =? 9) || (m =? 11)); lia). lia.
Qed.
Lemma date_digits_calendar ds t : date_digits ds t -> calendar_date t.
Proof. intros []; try assumption. apply calendar_spec. vm_compute. intuition discriminate. Qed.
Lemma digits_of_text ds : digits ds -> digits_of (map b2z (digit_text ds)) = ds.
Proof.
  induction 1 as [|d ds Hd Hds IH]; [reflexivity|]. cbn [digit_text map digits_of filter]. rewrite digit_byte by exact Hd.
  replace ((48 <=? 48 + d) && (48 + d <=? 57)) with true by lia. cbn [map].
  unfold digits_of, digit_text in IH. rewrite IH. f_equal. lia.
Qed.
Lemma date_text ds b rest : digits ds -> blanks b -> stops rest -> str_text 39 (digit_text ds ++ z2b 39 :: b ++ rest) (map b2z (digit_text ds)) rest.
Proof.
  intros Hd Hb Hr. induction Hd as [|d ds Hd Hds IH].
  - apply (st_end 39 b rest); [exact Hb|]. intros c Hc. destruct (Hr c Hc) as (_ & H1 & _ & H2). auto.
  - cbn [digit_text map app]. rewrite digit_byte by exact Hd. apply st_char with (k := 1%nat); [discriminate| |lia|lia|exact IH].
    cbn [decode]. rewrite digit_byte by exact Hd. replace (48 + d <? 128) with true by lia. reflexivity.
Qed.
(** Every date literal the scanner accepts denotes such a date (C08). *)
Theorem C33_date : forall ds d text, date_digits ds d -> printed (STime d) text -> reads_back text (STime d).
Proof.
  intros ds d text Hd Hp. apply date_digits_calendar in Hd.
  assert (text = B "'" ++ format_time d ++ B "'") as -> by (eapply printed_eq; [exact Hp | reflexivity]).
  destruct (calendar_bounds d Hd) as (B1 & B2 & B3 & B4 & B5 & B6).
  destruct (pad_field 4 _ ltac:(lia) B1) as (y & F1 & E1). destruct (pad_field 2 _ ltac:(lia) B2) as (m & F2 & E2).
  destruct (pad_field 2 _ ltac:(lia) B3) as (dd & F3 & E3). destruct (pad_field 2 _ ltac:(lia) B4) as (h & F4 & E4).
  destruct (pad_field 2 _ ltac:(lia) B5) as (mi & F5 & E5). destruct (pad_field 2 _ ltac:(lia) B6) as (s & F6 & E6).
  unfold format_time. rewrite E1, E2, E3, E4, E5, E6, <- !digit_text_app.
  set (all := y ++ m ++ dd ++ h ++ mi ++ s). assert (Hdd : date_digits all d) by (apply dd_second; assumption).
  pose proof (date_digits_digits _ _ Hdd) as Hall.
  intros code t w0 b rest H0 Hb Hs Hr.
  destruct (C08_date code t w0 (digit_text all ++ z2b 39 :: b ++ rest) (map b2z (digit_text all)) rest H0 (date_text all b rest Hall Hb Hs)) as [HA _].
  { rewrite Hr, <- !app_assoc. reflexivity. }
  destruct (HA d) as (t' & N1 & N2 & N3); [rewrite digits_of_text by exact Hall; exact Hdd|]. exists tDate, t', []. repeat split; auto. constructor.
Qed.
Example C33_example : date_digits [2;0;2;4;0;2;2;9] (GoTime 2024 2 29 0 0 0) /\
  printed (STime (GoTime 2024 2 29 0 0 0)) (B "'20240229000000'").
Proof.
  split; [|reflexivity]. apply parse_date_sound; [repeat constructor; lia | discriminate | vm_compute; reflexivity].
Qed.
(** The zero date as well. *)
Example C33_zero : date_digits [0;0;0;0;0;0;0;0] (GoTime 1 1 1 0 0 0) /\
  printed (STime (GoTime 1 1 1 0 0 0)) (B "'00010101000000'").
Proof. split; [|reflexivity]. apply dd_zero; [discriminate|]. repeat constructor. Qed.

(** * C34 String literals survive printing *)
Lemma str_text_body s v rest : str_text 34 s v rest -> str_body v.
Proof.
  induction 1 as [b rest Hb Hr|s v rest r k Hs Hd H1 H2 H IH|s v rest H IH|t s v rest Ht H IH|b s v rest Hb Hn H IH];
  try (constructor; assumption); [|exact IH].
  apply sb_char; auto. pose proof (decode_valid s Hs) as E. rewrite Hd in E. exact E.
Qed.
(** [v] is the value of some string literal in some text. *)
Definition string_value (v : bytes) : Prop :=
  exists code t t', Next code t = (tString, t', None) /\ tk_value t' = SStr v.

Lemma next_tString pd s r s' pd' : next pd s = (r, s', pd') -> lr_tok r = tString -> lr_err r = None ->
  exists w, str_body w /\ lr_lit r = string_of_runes w.
Proof.
  unfold next. set (x := skipRegions _). clearbody x. intros H Ht He.
  destruct (isLetter (cur x)).
  { exfalso. destruct (scanIdentifier x) as [lit s1].
    destruct (if pd then None else assoc (fastToLower lit) keywords) as [t|] eqn:E; injection H as <- <- <-; [|discriminate Ht].
    destruct pd; [discriminate|]. cbn in Ht. subst t. apply assoc_kinds in E. vm_compute in E. intuition discriminate. }
  destruct (cur x =? cDot) eqn:Ed.
  { exfalso. injection H as <- <- <-. cbn in Ht. apply Z.eqb_eq in Ed. rewrite Ed in Ht. discriminate. }
  destruct (isDigit (cur x)).
  { exfalso. destruct (scanNumber x) as [[l|e] s1]; injection H as <- <- <-; discriminate. }
  destruct (cur x =? cApos).
  { exfalso. destruct (scanString (cur x) x) as [[l|e] s1]; [destruct (extractDigits l)|]; injection H as <- <- <-; discriminate. }
  destruct (punct (cur x)) eqn:Ep.
  { exfalso. injection H as <- <- <-. cbn in Ht. rewrite Ht in Ep. vm_compute in Ep. discriminate. }
  destruct (cur x =? 61); [injection H as <- <- <-; discriminate|].
  destruct (cur x =? cQuote) eqn:Eq.
  { apply Z.eqb_eq in Eq. rewrite Eq in H. destruct (scanString cQuote x) as [[l|e] s1] eqn:Es; injection H as <- <- <-; [|discriminate].
    apply scanString_iff in Es as (v & Hs & ->); [|left; reflexivity]. exists v. split; [eapply str_text_body; exact Hs | reflexivity]. }
  exfalso.
  repeat match type of H with
  | (if ?b then _ else _) = _ => destruct b eqn:?
  | (match assoc ?b ?c with _ => _ end) = _ => destruct (assoc b c) as [k|] eqn:Ek
  | match ?b with _ => _ end = _ => destruct b
  end; injection H as <- <- <-; cbn [lr_tok lr_lit lr_err] in *; try discriminate;
  try (match goal with H : (cur x =? _) = true |- _ => apply Z.eqb_eq in H; rewrite H in Ht; discriminate end).
  subst k. apply assoc_kinds in Ek. vm_compute in Ek. intuition discriminate.
Qed.
Lemma string_value_body v : string_value v -> exists w, str_body w /\ v = string_of_runes w.
Proof.
  intros (code & t & t' & H & Hv). unfold Next in H.
  destruct (next (tk_prevDot t) (skipn (tk_off t) code)) as [[r s'] pd'] eqn:En.
  assert (lr_tok r = tString /\ lr_err r = None /\ v = lr_lit r) as (K1 & K2 & K3).
  { revert H. repeat match goal with
    | |- context [if ?b then _ else _] => destruct b eqn:?
    | |- context [match parse_float ?b with _ => _ end] => destruct (parse_float b) eqn:?
    | |- context [match parse_date ?b with _ => _ end] => destruct (parse_date b) eqn:?
    end; intros H; try discriminate H; injection H; intros; subst t'; cbn [tk_value] in Hv; try discriminate Hv;
    repeat match goal with H : (_ =? _) = true |- _ => apply Z.eqb_eq in H end; try congruence.
    - split; [assumption|]. split; [assumption|]. congruence.
    - exfalso. match goal with H : (lr_tok r =? tString) = false |- _ => apply Z.eqb_neq in H; contradiction end. }
  subst v. eapply next_tString; eassumption.
Qed.
Theorem C34_string : forall v text, string_value v -> printed (SStr v) text -> reads_back text (SStr v).
Proof.
  intros v text Hv Hp. apply string_value_body in Hv as (w & Hw & ->).
  assert (text = dquote ++ string_of_runes w ++ dquote) as -> by (eapply printed_eq; [exact Hp | reflexivity]).
  intros code t w0 b rest H0 Hb Hs Hr.
  destruct (C05_string code t w0 w b rest H0 Hw) as (t' & N1 & N2 & N3).
  - exact Hb.
  - intros c Hc. destruct (Hs c Hc) as (_ & H1 & _ & H2). auto.
  - rewrite Hr, <- !app_assoc. reflexivity.
  - exists tString, t', []. repeat split; auto. constructor.
Qed.
(** The value may contain doubled quotes, line breaks, any characters. *)
Example C34_example : string_value (B "a""""b
|c") /\ printed (SStr (B "a""""b
|c")) (B """a""""b
|c""").
Proof.
  split; [|reflexivity]. exists (B """a""""b
   // комментарий
   |c"";"), zero_token. eexists. split; vm_compute; reflexivity.
Qed.

Print Assumptions C32_exact.
Print Assumptions C32_negative.
Print Assumptions C32_whole_partial.
Print Assumptions C32_refuted.
Print Assumptions C33_date.
Print Assumptions C34_string.
