(** The C lower-casing (C11). *)
From Verif Require Import Bytes Utf8 UnicodeTables Float64 GoTime Ast Lexer LexFacts Utf8Facts LexSpec LexProofs LexTrivia ToLowerC.
Open Scope Z_scope.

(** * The buffer *)
Lemma rd_app a b k : rd (a ++ b) (length a + k) = rd b k.
Proof. unfold rd. rewrite nth_error_app2 by lia. f_equal. f_equal. lia. Qed.
Lemma wr_app a b k v : wr (a ++ b) (length a + k) v = a ++ wr b k v.
Proof. induction a as [|x a IH]; [reflexivity|]. cbn. rewrite IH. reflexivity. Qed.
Lemma rd_app0 a b : rd (a ++ b) (length a) = rd b 0.
Proof. rewrite <- (rd_app a b 0). f_equal. lia. Qed.

(** * Bits *)
Lemma land_mod a n k : 0 <= n -> k = 2 ^ n - 1 -> Z.land a k = a mod 2 ^ n.
Proof. intros Hn ->. rewrite <- Z.land_ones by exact Hn. rewrite Z.ones_equiv. reflexivity. Qed.
Lemma lor_add a b n : 0 <= n -> 0 <= b < 2 ^ n -> Z.lor (Z.shiftl a n) b = a * 2 ^ n + b.
Proof.
  intros Hn Hb. rewrite <- Z.shiftl_mul_pow2 by exact Hn.
  rewrite <- Z.lxor_lor.
  - rewrite Z.add_nocarry_lxor; [reflexivity|]. apply Z.bits_inj'. intros i Hi. rewrite Z.land_spec, Z.bits_0.
    destruct (Z.lt_ge_cases i n) as [Hl|Hl].
    + rewrite Z.shiftl_spec_low by exact Hl. reflexivity.
    + assert (Eb : Z.testbit b i = false).
      { destruct (Z.eq_dec b 0) as [->|Hb0]; [apply Z.bits_0|]. apply Z.bits_above_log2; [lia|]. apply Z.log2_lt_pow2; [lia|].
        apply Z.lt_le_trans with (2 ^ n); [lia|]. apply Z.pow_le_mono_r; lia. }
      rewrite Eb, andb_false_r. reflexivity.
  - apply Z.bits_inj'. intros i Hi. rewrite Z.land_spec, Z.bits_0.
    destruct (Z.lt_ge_cases i n) as [Hl|Hl].
    + rewrite Z.shiftl_spec_low by exact Hl. reflexivity.
    + assert (Eb : Z.testbit b i = false).
      { destruct (Z.eq_dec b 0) as [->|Hb0]; [apply Z.bits_0|]. apply Z.bits_above_log2; [lia|]. apply Z.log2_lt_pow2; [lia|].
        apply Z.lt_le_trans with (2 ^ n); [lia|]. apply Z.pow_le_mono_r; lia. }
      rewrite Eb, andb_false_r. reflexivity.
Qed.
Lemma lor_shift2 a b n m : 0 <= m <= n -> 0 <= b < 2 ^ (n - m) -> Z.lor (Z.shiftl a n) (Z.shiftl b m) = Z.shiftl (a * 2 ^ (n - m) + b) m.
Proof.
  intros Hm Hb. rewrite <- lor_add by lia. rewrite Z.shiftl_lor, Z.shiftl_shiftl by lia. f_equal. f_equal. lia.
Qed.

Definition latin_upper (r : Z) : bool := (65 <=? r) && (r <=? 90).

Lemma c_body_char pre r rest : valid_rune r = true ->
  c_body (pre ++ encode r ++ rest) (length pre) =
  if latin_upper r then match rest with [] => None | b :: _ => Some (pre ++ z2b (c_tolower (b2z b)) :: rest, (length pre + 1)%nat) end
  else Some (pre ++ encode (lower_rune r) ++ rest, (length pre + length (encode r))%nat).
Proof.
  intros Hv. pose proof (valid_rune_range r Hv) as [H1 H2]. unfold c_body. rewrite rd_app0, !rd_app.
  unfold encode at 1 2 3 4 5 6 7 8. rewrite Hv.
  destruct (r <? 128) eqn:E1.
  { cbn [app]. unfold rd at 1. cbn [nth_error option_map]. bz. replace (r <=? 127) with true by lia. cbv zeta.
    fold (latin_upper r). destruct (latin_upper r) eqn:EL.
    - rewrite rd_app. unfold encode. rewrite Hv, E1. cbn [app]. unfold rd. cbn [nth_error].
      destruct rest as [|b rest]; [reflexivity|]. cbn [option_map]. replace (length pre + 1 - 1)%nat with (length pre + 0)%nat by lia.
      rewrite wr_app. reflexivity.
    - unfold latin_upper in EL. replace ((1040 <=? r) && (r <=? 1071)) with false by lia. replace (r =? 1025) with false by lia.
      unfold lower_rune. rewrite EL. replace ((1040 <=? r) && (r <=? 1071)) with false by lia. replace (r =? 1025) with false by lia.
      unfold encode. rewrite Hv, E1. reflexivity. }
  destruct (r <? 2048) eqn:E2.
  { assert (2 <= r / 64 < 32) by (split; [apply Z.div_le_lower_bound | apply Z.div_lt_upper_bound]; lia).
    pose proof (Z.mod_pos_bound r 64 ltac:(lia)). pose proof (Z.div_mod r 64 ltac:(lia)).
    cbn [app]. unfold rd at 1 2. cbn [nth_error option_map]. bz. replace (192 + r / 64 <=? 127) with false by lia.
    replace ((192 <=? 192 + r / 64) && (192 + r / 64 <=? 223)) with true by lia.
    rewrite (land_mod _ 5 31), (land_mod _ 6 63) by (reflexivity || lia). change (2 ^ 5) with 32. change (2 ^ 6) with 64.
    replace ((192 + r / 64) mod 32) with (r / 64).
    2: { replace (192 + r / 64) with (r / 64 + 6 * 32) by lia. rewrite Z.mod_add by lia. symmetry. apply Z.mod_small. lia. }
    replace ((128 + r mod 64) mod 64) with (r mod 64).
    2: { replace (128 + r mod 64) with (r mod 64 + 2 * 64) by lia. rewrite Z.mod_add by lia. symmetry. apply Z.mod_small. lia. }
    rewrite lor_add by lia. change (2 ^ 6) with 64. replace (r / 64 * 64 + r mod 64) with r by lia. cbv zeta.
    replace ((65 <=? r) && (r <=? 90)) with false by lia. unfold latin_upper. replace ((65 <=? r) && (r <=? 90)) with false by lia.
    replace (length pre + 2 - 2)%nat with (length pre + 0)%nat by lia. replace (length pre + 2 - 1)%nat with (length pre + 1)%nat by lia.
    unfold lower_rune. replace ((65 <=? r) && (r <=? 90)) with false by lia.
    assert (EE : encode r = [z2b (192 + r / 64); z2b (128 + r mod 64)]) by (unfold encode; rewrite Hv, E1, E2; reflexivity).
    destruct ((1040 <=? r) && (r <=? 1071)) eqn:E3.
    - rewrite !wr_app. rewrite EE. cbn [app wr length]. unfold encode.
      replace (valid_rune (r + 32)) with true by (unfold valid_rune; lia).
      replace (r + 32 <? 128) with false by lia. replace (r + 32 <? 2048) with true by lia. cbn [app].
      assert (E4 : Z.lor 192 (Z.shiftr (r + 32) 6) = 192 + (r + 32) / 64).
      { rewrite Z.shiftr_div_pow2 by lia. change (2 ^ 6) with 64. change 192 with (Z.shiftl 6 5).
        rewrite lor_add; [reflexivity | lia|]. change (2 ^ 5) with 32. split; [apply Z.div_le_lower_bound | apply Z.div_lt_upper_bound]; lia. }
      assert (E5 : Z.lor 128 (Z.land (r + 32) 63) = 128 + (r + 32) mod 64).
      { rewrite (land_mod _ 6 63) by (reflexivity || lia). change (2 ^ 6) with 64. change 128 with (Z.shiftl 2 6).
        rewrite lor_add; [reflexivity | lia|]. apply Z.mod_pos_bound. reflexivity. }
      rewrite E4, E5. reflexivity.
    - destruct (r =? 1025) eqn:E4.
      + rewrite !wr_app. rewrite EE. cbn [app wr length]. unfold encode. cbn. reflexivity.
      + rewrite EE. reflexivity. }
  assert (EL : latin_upper r = false) by (unfold latin_upper; lia). rewrite EL. unfold latin_upper in EL.
  assert (ER : lower_rune r = r).
  { unfold lower_rune. rewrite EL. replace ((1040 <=? r) && (r <=? 1071)) with false by lia. replace (r =? 1025) with false by lia. reflexivity. }
  rewrite ER.
  destruct (r <? 65536) eqn:E3.
  { assert (0 <= r / 4096 < 16) by (split; [apply Z.div_le_lower_bound | apply Z.div_lt_upper_bound]; lia).
    assert (H64 : r / 64 / 64 = r / 4096) by (rewrite Z.div_div by lia; reflexivity).
    pose proof (Z.mod_pos_bound r 64 ltac:(lia)). pose proof (Z.div_mod r 64 ltac:(lia)).
    pose proof (Z.mod_pos_bound (r / 64) 64 ltac:(lia)). pose proof (Z.div_mod (r / 64) 64 ltac:(lia)).
    assert (EE : encode r = [z2b (224 + r / 4096); z2b (128 + (r / 64) mod 64); z2b (128 + r mod 64)]) by (unfold encode; rewrite Hv, E1, E2, E3; reflexivity).
    cbn [app]. unfold rd at 1 2 3 4. cbn [nth_error option_map]. bz. replace (224 + r / 4096 <=? 127) with false by lia.
    replace ((192 <=? 224 + r / 4096) && (224 + r / 4096 <=? 223)) with false by lia.
    replace ((224 <=? 224 + r / 4096) && (224 + r / 4096 <=? 239)) with true by lia.
    rewrite (land_mod _ 4 15), !(land_mod _ 6 63) by (reflexivity || lia). change (2 ^ 4) with 16. change (2 ^ 6) with 64.
    replace ((224 + r / 4096) mod 16) with (r / 4096).
    2: { replace (224 + r / 4096) with (r / 4096 + 14 * 16) by lia. rewrite Z.mod_add by lia. symmetry. apply Z.mod_small. lia. }
    assert (HM : forall x, 0 <= x < 64 -> (128 + x) mod 64 = x).
    { intros x Hx. replace (128 + x) with (x + 2 * 64) by lia. rewrite Z.mod_add by lia. apply Z.mod_small. lia. }
    rewrite !HM by assumption.
    rewrite lor_shift2 by (change (2 ^ (12 - 6)) with 64; lia). change (2 ^ (12 - 6)) with 64.
    rewrite lor_add by lia. change (2 ^ 6) with 64. replace ((r / 4096 * 64 + (r / 64) mod 64) * 64 + r mod 64) with r by lia. cbv zeta.
    rewrite EL. replace ((1040 <=? r) && (r <=? 1071)) with false by lia. replace (r =? 1025) with false by lia. rewrite EE. reflexivity. }
  { assert (0 <= r / 262144 < 5) by (split; [apply Z.div_le_lower_bound | apply Z.div_lt_upper_bound]; lia).
    assert (H64 : r / 64 / 64 = r / 4096) by (rewrite Z.div_div by lia; reflexivity).
    assert (H65 : r / 4096 / 64 = r / 262144) by (rewrite Z.div_div by lia; reflexivity).
    pose proof (Z.mod_pos_bound r 64 ltac:(lia)). pose proof (Z.div_mod r 64 ltac:(lia)).
    pose proof (Z.mod_pos_bound (r / 64) 64 ltac:(lia)). pose proof (Z.div_mod (r / 64) 64 ltac:(lia)).
    pose proof (Z.mod_pos_bound (r / 4096) 64 ltac:(lia)). pose proof (Z.div_mod (r / 4096) 64 ltac:(lia)).
    assert (EE : encode r = [z2b (240 + r / 262144); z2b (128 + (r / 4096) mod 64); z2b (128 + (r / 64) mod 64); z2b (128 + r mod 64)]) by (unfold encode; rewrite Hv, E1, E2, E3; reflexivity).
    cbn [app]. unfold rd at 1 2 3 4 5 6 7. cbn [nth_error option_map]. bz. replace (240 + r / 262144 <=? 127) with false by lia.
    replace ((192 <=? 240 + r / 262144) && (240 + r / 262144 <=? 223)) with false by lia.
    replace ((224 <=? 240 + r / 262144) && (240 + r / 262144 <=? 239)) with false by lia.
    replace ((240 <=? 240 + r / 262144) && (240 + r / 262144 <=? 247)) with true by lia.
    rewrite (land_mod _ 3 7), !(land_mod _ 6 63) by (reflexivity || lia). change (2 ^ 3) with 8. change (2 ^ 6) with 64.
    replace ((240 + r / 262144) mod 8) with (r / 262144).
    2: { replace (240 + r / 262144) with (r / 262144 + 30 * 8) by lia. rewrite Z.mod_add by lia. symmetry. apply Z.mod_small. lia. }
    assert (HM : forall x, 0 <= x < 64 -> (128 + x) mod 64 = x).
    { intros x Hx. replace (128 + x) with (x + 2 * 64) by lia. rewrite Z.mod_add by lia. apply Z.mod_small. lia. }
    rewrite !HM by assumption.
    rewrite lor_shift2 by (change (2 ^ (18 - 12)) with 64; lia). change (2 ^ (18 - 12)) with 64.
    rewrite lor_shift2 by (change (2 ^ (12 - 6)) with 64; lia). change (2 ^ (12 - 6)) with 64.
    rewrite lor_add by lia. change (2 ^ 6) with 64.
    replace (((r / 262144 * 64 + (r / 4096) mod 64) * 64 + (r / 64) mod 64) * 64 + r mod 64) with r by lia. cbv zeta.
    rewrite EL. replace ((1040 <=? r) && (r <=? 1071)) with false by lia. replace (r =? 1025) with false by lia. rewrite EE. reflexivity. }
Qed.

(** * The whole loop *)
(** What the loop leaves of the runes [rs] when [t] follows: А-Я and Ё in lower case,
    but a letter A-Z replaced by the lower case of the byte after it. *)
Fixpoint c_result (rs : list Z) (t : bytes) : bytes :=
  match rs with
  | [] => []
  | r :: rs' => (if latin_upper r then [z2b (c_tolower (b2z (hd x00 (string_of_runes rs' ++ t))))] else encode (lower_rune r)) ++ c_result rs' t
  end.
Definition texts (rs : list Z) : Prop := Forall (fun r => valid_rune r = true /\ 0 < r) rs.

Lemma first_nonzero r rest : valid_rune r = true -> 0 < r -> exists z, rd (encode r ++ rest) 0 = Some z /\ z <> 0.
Proof.
  intros Hv Hr. pose proof (valid_rune_range r Hv) as [H1 H2]. unfold encode. rewrite Hv. destruct (r <? 128) eqn:E1.
  { unfold rd. cbn. bz. eexists; split; [reflexivity|lia]. }
  destruct (r <? 2048) eqn:E2.
  { assert (2 <= r / 64 < 32) by (split; [apply Z.div_le_lower_bound | apply Z.div_lt_upper_bound]; lia). unfold rd. cbn [app nth_error option_map].
    bz. eexists; split; [reflexivity|lia]. }
  destruct (r <? 65536) eqn:E3.
  { assert (0 <= r / 4096 < 16) by (split; [apply Z.div_le_lower_bound | apply Z.div_lt_upper_bound]; lia). unfold rd. cbn [app nth_error option_map].
    bz. eexists; split; [reflexivity|lia]. }
  assert (0 <= r / 262144 < 5) by (split; [apply Z.div_le_lower_bound | apply Z.div_lt_upper_bound]; lia). unfold rd. cbn [app nth_error option_map].
  bz. eexists; split; [reflexivity|lia].
Qed.
Lemma lower_encode_length r : valid_rune r = true -> length (encode (lower_rune r)) = length (encode r).
Proof.
  intros Hv. unfold lower_rune. destruct ((65 <=? r) && (r <=? 90)) eqn:E1.
  { unfold encode. rewrite Hv. replace (valid_rune (r + 32)) with true by (unfold valid_rune; lia).
    replace (r <? 128) with true by lia. replace (r + 32 <? 128) with true by lia. reflexivity. }
  destruct ((1040 <=? r) && (r <=? 1071)) eqn:E2.
  { unfold encode. rewrite Hv. replace (valid_rune (r + 32)) with true by (unfold valid_rune; lia).
    replace (r <? 128) with false by lia. replace (r + 32 <? 128) with false by lia.
    replace (r <? 2048) with true by lia. replace (r + 32 <? 2048) with true by lia. reflexivity. }
  destruct (r =? 1025) eqn:E3; [|reflexivity]. apply Z.eqb_eq in E3. subst. reflexivity.
Qed.

Lemma c_loop_runes rs t : texts rs -> t <> [] -> forall fuel pre,
  c_loop (length rs + fuel) (pre ++ string_of_runes rs ++ t) (length pre) =
  c_loop fuel (pre ++ c_result rs t ++ t) (length pre + length (c_result rs t)).
Proof.
  intros H Ht. induction H as [|r rs [Hv Hr] _ IH]; intros fuel pre.
  - cbn. f_equal. lia.
  - change (string_of_runes (r :: rs)) with (encode r ++ string_of_runes rs). rewrite <- app_assoc. cbn [length Nat.add].
    change (c_loop (S ?n) ?m ?i) with (match rd m i with None => COutside | Some 0 => CDone m | Some _ => match c_body m i with None => COutside | Some (m', i') => c_loop n m' i' end end).
    cbn [c_loop]. rewrite rd_app0. destruct (first_nonzero r (string_of_runes rs ++ t) Hv Hr) as (z & Ez & Hz). rewrite Ez.
    rewrite c_body_char by exact Hv. cbn [c_result]. destruct (latin_upper r) eqn:EL.
    + destruct (string_of_runes rs ++ t) as [|b rest] eqn:Er; [destruct (string_of_runes rs); [contradiction|discriminate]|].
      rewrite <- Er. cbn [hd].
      assert (E : match z with 0 => CDone (pre ++ encode r ++ b :: rest) | _ => c_loop (length rs + fuel) (pre ++ z2b (c_tolower (b2z b)) :: string_of_runes rs ++ t) (length pre + 1) end
        = c_loop (length rs + fuel) ((pre ++ [z2b (c_tolower (b2z b))]) ++ string_of_runes rs ++ t) (length (pre ++ [z2b (c_tolower (b2z b))]))).
      { rewrite app_length. cbn [length]. rewrite <- app_assoc. cbn [app]. destruct z; [contradiction | reflexivity | reflexivity]. }
      rewrite Er in *. rewrite E, IH. rewrite app_length. cbn [length app]. rewrite <- app_assoc. cbn [app]. f_equal. lia.
    + assert (E : match z with 0 => CDone (pre ++ encode r ++ string_of_runes rs ++ t) | _ => c_loop (length rs + fuel) (pre ++ encode (lower_rune r) ++ string_of_runes rs ++ t) (length pre + length (encode r)) end
        = c_loop (length rs + fuel) ((pre ++ encode (lower_rune r)) ++ string_of_runes rs ++ t) (length (pre ++ encode (lower_rune r)))).
      { rewrite app_length, lower_encode_length, <- app_assoc by exact Hv. destruct z; [contradiction | reflexivity | reflexivity]. }
      rewrite E, IH, !app_length, <- !app_assoc. f_equal. lia.
Qed.
Lemma c_loop_done fuel m i : rd m i = Some 0 -> c_loop (S fuel) m i = CDone m.
Proof. intros H. cbn [c_loop]. rewrite H. reflexivity. Qed.
Lemma run_runes rs fuel : texts rs -> (length rs < fuel)%nat ->
  c_FastToLower fuel (string_of_runes rs) = CDone (go_string (c_result rs [x00] ++ [x00])).
Proof.
  intros H Hf. unfold c_FastToLower. replace fuel with (length rs + S (fuel - length rs - 1))%nat by lia.
  pose proof (c_loop_runes rs [x00] H ltac:(discriminate) (S (fuel - length rs - 1)) []) as E. cbn [app length Nat.add] in E. rewrite E.
  rewrite c_loop_done by (rewrite rd_app0; reflexivity). reflexivity.
Qed.
Lemma go_string_app a b : Forall (fun x => b2z x <> 0) a -> go_string (a ++ b) = a ++ go_string b.
Proof.
  induction 1 as [|x a Hx _ IH]; [reflexivity|]. cbn [app go_string]. destruct (b2z x =? 0) eqn:E; [lia|]. rewrite IH. reflexivity.
Qed.
Lemma encode_nonzero r : valid_rune r = true -> 0 < r -> Forall (fun x => b2z x <> 0) (encode r).
Proof.
  intros Hv Hr. pose proof (valid_rune_range r Hv) as [H1 H2]. unfold encode. rewrite Hv.
  pose proof (Z.mod_pos_bound r 64 ltac:(lia)). pose proof (Z.mod_pos_bound (r / 64) 64 ltac:(lia)). pose proof (Z.mod_pos_bound (r / 4096) 64 ltac:(lia)).
  destruct (r <? 128) eqn:E1; [repeat constructor; bz; lia|].
  destruct (r <? 2048) eqn:E2.
  { assert (2 <= r / 64 < 32) by (split; [apply Z.div_le_lower_bound | apply Z.div_lt_upper_bound]; lia). repeat constructor; bz; lia. }
  destruct (r <? 65536) eqn:E3.
  { assert (0 <= r / 4096 < 16) by (split; [apply Z.div_le_lower_bound | apply Z.div_lt_upper_bound]; lia). repeat constructor; bz; lia. }
  assert (0 <= r / 262144 < 5) by (split; [apply Z.div_le_lower_bound | apply Z.div_lt_upper_bound]; lia). repeat constructor; bz; lia.
Qed.
Lemma lower_valid r : valid_rune r = true -> 0 < r -> valid_rune (lower_rune r) = true /\ 0 < lower_rune r.
Proof.
  intros Hv Hr. unfold lower_rune. destruct ((65 <=? r) && (r <=? 90)) eqn:E1; [unfold valid_rune; lia|].
  destruct ((1040 <=? r) && (r <=? 1071)) eqn:E2; [unfold valid_rune; lia|]. destruct (r =? 1025) eqn:E3; [unfold valid_rune; lia|auto].
Qed.
Lemma c_tolower_nonzero b : b2z b <> 0 -> b2z (z2b (c_tolower (b2z b))) <> 0.
Proof. intros H. pose proof (b2z_range b). unfold c_tolower. destruct (_ && _) eqn:E; bz; lia. Qed.

(** The result: nothing left of a last letter A-Z. *)
Fixpoint c_spec (rs : list Z) : bytes :=
  match rs with
  | [] => []
  | r :: rs' =>
    if latin_upper r then match rs' with [] => [] | r' :: _ => z2b (c_tolower (b2z (hd x00 (encode r')))) :: c_spec rs' end
    else encode (lower_rune r) ++ c_spec rs'
  end.
Lemma hd_app (a b : bytes) : a <> [] -> hd x00 (a ++ b) = hd x00 a.
Proof. destruct a; [contradiction | reflexivity]. Qed.
Lemma hd_nonzero r : valid_rune r = true -> 0 < r -> b2z (hd x00 (encode r)) <> 0.
Proof. intros Hv Hr. pose proof (encode_nonzero r Hv Hr) as H. pose proof (encode_nonnil r). destruct (encode r); [contradiction|]. inversion H; subst. assumption. Qed.
Lemma c_result_spec rs : texts rs -> go_string (c_result rs [x00] ++ [x00]) = c_spec rs.
Proof.
  induction 1 as [|r rs [Hv Hr] H IH]; [reflexivity|]. cbn [c_result c_spec]. rewrite <- app_assoc. destruct (latin_upper r) eqn:EL.
  - destruct rs as [|r' rs']; [reflexivity|]. change (string_of_runes (r' :: rs')) with (encode r' ++ string_of_runes rs').
    rewrite <- app_assoc, hd_app by apply encode_nonnil. inversion H as [|? ? [Hv' Hr'] _]; subst.
    rewrite go_string_app by (constructor; [apply c_tolower_nonzero, hd_nonzero; assumption | constructor]). rewrite IH. reflexivity.
  - destruct (lower_valid r Hv Hr) as [L1 L2]. rewrite go_string_app by (apply encode_nonzero; assumption). rewrite IH. reflexivity.
Qed.

(** * C11 *)
(** The C function on a valid UTF-8 text without NUL: it terminates without leaving
    the buffer, with this result. *)
Theorem C11_result : forall rs fuel, texts rs -> (length rs < fuel)%nat ->
  c_FastToLower fuel (string_of_runes rs) = CDone (c_spec rs).
Proof. intros rs fuel H Hf. rewrite run_runes, c_result_spec by assumption. reflexivity. Qed.

Definition C11_statement : Prop := forall s, ~ In x00 s -> exists fuel, c_FastToLower fuel s = CDone (fastToLower s).
Theorem C11_agrees_partial : forall rs fuel, texts rs -> Forall (fun r => latin_upper r = false) rs -> (length rs < fuel)%nat ->
  c_FastToLower fuel (string_of_runes rs) = CDone (fastToLower (string_of_runes rs)).
Proof.
  intros rs fuel H Hl Hf. rewrite C11_result by assumption. f_equal.
  rewrite lower_runes. 2: { apply forallb_forall. intros r Hr. unfold texts in H. rewrite Forall_forall in H. apply H, Hr. }
  clear H Hf. induction Hl as [|r rs Hr _ IH]; [reflexivity|]. cbn [c_spec]. rewrite Hr, IH. reflexivity.
Qed.

(** Exactly when it agrees: every letter A-Z has the same letter, in either case, next
    to it on the right. *)
Fixpoint doubled (rs : list Z) : Prop :=
  match rs with
  | [] => True
  | r :: rs' => (latin_upper r = true -> match rs' with [] => False | r' :: _ => lower_rune r' = lower_rune r end) /\ doubled rs'
  end.
Lemma first_byte r : valid_rune r = true -> (r < 128 /\ encode r = [z2b r]) \/ (128 <= r /\ 128 <= b2z (hd x00 (encode r))).
Proof.
  intros Hv. pose proof (valid_rune_range r Hv) as [H1 H2]. unfold encode. rewrite Hv. destruct (r <? 128) eqn:E1; [left; split; [lia|reflexivity]|right].
  split; [lia|]. destruct (r <? 2048) eqn:E2.
  { assert (2 <= r / 64 < 32) by (split; [apply Z.div_le_lower_bound | apply Z.div_lt_upper_bound]; lia). cbn [hd]. bz. lia. }
  destruct (r <? 65536) eqn:E3.
  { assert (0 <= r / 4096 < 16) by (split; [apply Z.div_le_lower_bound | apply Z.div_lt_upper_bound]; lia). cbn [hd]. bz. lia. }
  assert (0 <= r / 262144 < 5) by (split; [apply Z.div_le_lower_bound | apply Z.div_lt_upper_bound]; lia). cbn [hd]. bz. lia.
Qed.
Lemma first_lower r r' : valid_rune r' = true -> latin_upper r = true ->
  z2b (c_tolower (b2z (hd x00 (encode r')))) = z2b (r + 32) <-> lower_rune r' = lower_rune r.
Proof.
  intros Hv HL. unfold latin_upper in HL. assert (El : lower_rune r = r + 32) by (unfold lower_rune; rewrite HL; reflexivity). rewrite El.
  assert (E0 : forall x y, 0 <= x < 256 -> 0 <= y < 256 -> z2b x = z2b y -> x = y).
  { intros x y Hx Hy E. rewrite <- (b2z_z2b x), <- (b2z_z2b y), E by lia. reflexivity. }
  pose proof (valid_rune_range r' Hv) as [R1 R2]. destruct (first_byte r' Hv) as [[H1 ->]|[H1 H2]].
  - cbn [hd]. bz. unfold c_tolower, lower_rune. replace ((1040 <=? r') && (r' <=? 1071)) with false by lia. replace (r' =? 1025) with false by lia.
    destruct ((65 <=? r') && (r' <=? 90)) eqn:E; split; intros HH; try (apply E0 in HH; lia); f_equal; lia.
  - pose proof (b2z_range (hd x00 (encode r'))). unfold c_tolower. replace ((65 <=? b2z (hd x00 (encode r'))) && (b2z (hd x00 (encode r')) <=? 90)) with false by lia.
    split; intros HH.
    + apply E0 in HH; lia.
    + exfalso. revert HH. unfold lower_rune. replace ((65 <=? r') && (r' <=? 90)) with false by lia.
      destruct ((1040 <=? r') && (r' <=? 1071)); [lia|]. destruct (r' =? 1025); lia.
Qed.
Lemma c_loop_more n k : forall m i m', c_loop n m i = CDone m' -> c_loop (n + k) m i = CDone m'.
Proof.
  induction n as [|n IH]; intros m i m'; cbn [c_loop Nat.add]; [discriminate|].
  destruct (rd m i) as [[|z|z]|]; auto; (destruct (c_body m i) as [[m1 i1]|]; [apply IH | auto]).
Qed.
Lemma c_loop_more_outside n k : forall m i, c_loop n m i = COutside -> c_loop (n + k) m i = COutside.
Proof.
  induction n as [|n IH]; intros m i; cbn [c_loop Nat.add]; [discriminate|].
  destruct (rd m i) as [[|z|z]|]; auto; (destruct (c_body m i) as [[m1 i1]|]; [apply IH | auto]).
Qed.
Lemma run_more n k s r : c_FastToLower n s = CDone r -> c_FastToLower (n + k) s = CDone r.
Proof.
  unfold c_FastToLower. destruct (c_loop n (s ++ [x00]) 0) as [m| |] eqn:E; try discriminate. rewrite (c_loop_more _ _ _ _ _ E). auto.
Qed.
Theorem C11_exactly : forall rs, texts rs ->
  ((exists fuel, c_FastToLower fuel (string_of_runes rs) = CDone (fastToLower (string_of_runes rs))) <-> doubled rs).
Proof.
  intros rs H.
  assert (E : (exists fuel, c_FastToLower fuel (string_of_runes rs) = CDone (fastToLower (string_of_runes rs))) <-> c_spec rs = fastToLower (string_of_runes rs)).
  { split.
    - intros [fuel Hf]. assert (Hm := run_more fuel (S (length rs)) _ _ Hf). rewrite C11_result in Hm by (auto || lia). congruence.
    - intros Hs. exists (S (length rs)). rewrite C11_result by (auto || lia). congruence. }
  rewrite E. clear E. rewrite lower_runes by (apply forallb_forall; intros r Hr; unfold texts in H; rewrite Forall_forall in H; apply H, Hr).
  induction H as [|r rs [Hv Hr] H IH]; [split; [constructor | reflexivity]|]. cbn [c_spec doubled map].
  change (string_of_runes (lower_rune r :: map lower_rune rs)) with (encode (lower_rune r) ++ string_of_runes (map lower_rune rs)).
  destruct (latin_upper r) eqn:EL.
  - assert (Ee : encode (lower_rune r) = [z2b (r + 32)]).
    { unfold latin_upper in EL. unfold lower_rune. rewrite EL. unfold encode. replace (valid_rune (r + 32)) with true by (unfold valid_rune; lia).
      replace (r + 32 <? 128) with true by lia. reflexivity. }
    rewrite Ee. destruct rs as [|r' rs']; [cbn; split; [discriminate | intros [[]]; reflexivity]|]. inversion H as [|? ? [Hv' Hr'] _]; subst.
    rewrite <- IH, <- (first_lower r r' Hv' EL). cbn [app]. split.
    + intros HH. injection HH as H1 H2. split; [intros _; congruence | exact H2].
    + intros [H1 H2]. rewrite H1, H2 by reflexivity. reflexivity.
  - rewrite <- IH. split.
    + intros HH. apply app_inv_head in HH. split; [discriminate | exact HH].
    + intros [_ ->]. reflexivity.
Qed.

(** Not UTF-8: it never terminates if a byte 80-BF or F8-FF follows a valid text. *)
Theorem C11_hangs : forall rs b t fuel, texts rs -> (128 <= b2z b < 192 \/ 248 <= b2z b) ->
  c_FastToLower fuel (string_of_runes rs ++ b :: t) = CFuel.
Proof.
  intros rs b t fuel H Hb.
  assert (HS : forall n pre t', c_loop n (pre ++ b :: t') (length pre) = CFuel).
  { induction n as [|n IH]; intros pre t'; [reflexivity|]. cbn [c_loop]. pose proof (b2z_range b).
    assert (E : c_body (pre ++ b :: t') (length pre) = Some (pre ++ b :: t', (length pre + 0)%nat)).
    { unfold c_body. rewrite rd_app0. unfold rd at 1. cbn [nth_error option_map].
      replace (b2z b <=? 127) with false by lia. replace ((192 <=? b2z b) && (b2z b <=? 223)) with false by lia.
      replace ((224 <=? b2z b) && (b2z b <=? 239)) with false by lia. replace ((240 <=? b2z b) && (b2z b <=? 247)) with false by lia. reflexivity. }
    rewrite E, Nat.add_0_r, rd_app0. unfold rd. cbn [nth_error option_map]. destruct (b2z b) eqn:Eb; [lia | apply IH | lia]. }
  assert (HF : c_loop fuel ((string_of_runes rs ++ b :: t) ++ [x00]) 0 = CFuel).
  { destruct (c_loop fuel ((string_of_runes rs ++ b :: t) ++ [x00]) 0) as [m| |] eqn:E; [| |reflexivity]; exfalso.
    - apply (c_loop_more _ (length rs)) in E. rewrite Nat.add_comm, <- app_assoc in E. cbn [app] in E.
      pose proof (c_loop_runes rs (b :: t ++ [x00]) H ltac:(discriminate) fuel []) as E2. cbn [app length Nat.add] in E2.
      rewrite E2, HS in E. discriminate E.
    - apply (c_loop_more_outside _ (length rs)) in E. rewrite Nat.add_comm, <- app_assoc in E. cbn [app] in E.
      pose proof (c_loop_runes rs (b :: t ++ [x00]) H ltac:(discriminate) fuel []) as E2. cbn [app length Nat.add] in E2.
      rewrite E2, HS in E. discriminate E. }
  unfold c_FastToLower. rewrite HF. reflexivity.
Qed.
(** A character cut off at the end makes it read beyond the string, whatever comes before. *)
Definition cut_off (b : byte) (t : bytes) : Prop :=
  (192 <= b2z b < 224 /\ t = []) \/ (224 <= b2z b < 240 /\ (length t <= 1)%nat) \/ (240 <= b2z b < 248 /\ (length t <= 2)%nat).
Lemma wr_length v : forall m i, length (wr m i v) = length m.
Proof. induction m as [|b m IH]; intros [|i]; cbn; auto. Qed.
Lemma rd_over m i : (length m <= i)%nat -> rd m i = None.
Proof. intros H. unfold rd. rewrite (proj2 (nth_error_None m i) H). reflexivity. Qed.
Lemma c_body_cut pre b t : cut_off b t ->
  c_body (pre ++ b :: t ++ [x00]) (length pre) = None \/
  exists m i, c_body (pre ++ b :: t ++ [x00]) (length pre) = Some (m, i) /\ (length m <= i)%nat.
Proof.
  intros H. set (M := pre ++ b :: t ++ [x00]). assert (L : length M = (length pre + length t + 2)%nat) by (unfold M; rewrite app_length; cbn [length]; rewrite app_length; cbn [length]; lia).
  assert (HT : forall (c : Z) k, (length M <= length pre + k)%nat ->
    let i' := (length pre + k)%nat in
    let r := (if (65 <=? c) && (c <=? 90) then match rd M i' with Some b => Some (wr M (i' - 1) (c_tolower b), i') | None => None end
      else if (1040 <=? c) && (c <=? 1071) then Some (wr (wr M (i' - 2) (Z.lor 192 (Z.shiftr (c + 32) 6))) (i' - 1) (Z.lor 128 (Z.land (c + 32) 63)), i')
      else if c =? 1025 then Some (wr (wr M (i' - 2) 209) (i' - 1) 145, i') else Some (M, i')) in
    r = None \/ exists m i, r = Some (m, i) /\ (length m <= i)%nat).
  { intros c k Hk. cbv zeta. rewrite (rd_over M (length pre + k)) by exact Hk.
    destruct ((65 <=? c) && (c <=? 90)); [left; reflexivity|]. destruct ((1040 <=? c) && (c <=? 1071)); [|destruct (c =? 1025)]; right; do 2 eexists; (split; [reflexivity|]); rewrite ?wr_length; exact Hk. }
  assert (E0 : rd M (length pre) = Some (b2z b)) by (unfold M; rewrite rd_app0; reflexivity).
  unfold c_body. rewrite E0. destruct H as [[H ->]|[[H Ht]|[H Ht]]].
  - replace (b2z b <=? 127) with false by lia. replace ((192 <=? b2z b) && (b2z b <=? 223)) with true by lia.
    destruct (rd M (length pre + 1)); [|left; reflexivity]. apply HT. cbn [length] in L. lia.
  - replace (b2z b <=? 127) with false by lia. replace ((192 <=? b2z b) && (b2z b <=? 223)) with false by lia. replace ((224 <=? b2z b) && (b2z b <=? 239)) with true by lia.
    destruct (rd M (length pre + 1)); [|left; reflexivity]. destruct (rd M (length pre + 2)); [|left; reflexivity]. apply HT. lia.
  - replace (b2z b <=? 127) with false by lia. replace ((192 <=? b2z b) && (b2z b <=? 223)) with false by lia. replace ((224 <=? b2z b) && (b2z b <=? 239)) with false by lia.
    replace ((240 <=? b2z b) && (b2z b <=? 247)) with true by lia.
    destruct (rd M (length pre + 1)); [|left; reflexivity]. destruct (rd M (length pre + 2)); [|left; reflexivity]. destruct (rd M (length pre + 3)); [|left; reflexivity]. apply HT. lia.
Qed.
Theorem C11_outside : forall rs b t fuel, texts rs -> cut_off b t -> (length rs + 2 <= fuel)%nat ->
  c_FastToLower fuel (string_of_runes rs ++ b :: t) = COutside.
Proof.
  intros rs b t fuel H Hc Hf. assert (Hb : b2z b <> 0) by (unfold cut_off in Hc; lia).
  assert (HS : forall n pre, c_loop (S (S n)) (pre ++ b :: t ++ [x00]) (length pre) = COutside).
  { intros n pre. cbn [c_loop]. assert (E0 : rd (pre ++ b :: t ++ [x00]) (length pre) = Some (b2z b)) by (rewrite rd_app0; reflexivity). rewrite E0.
    destruct (c_body_cut pre b t Hc) as [->|(m & i & -> & L)]; [destruct (b2z b); congruence|]. rewrite (rd_over m i L). destruct (b2z b); congruence. }
  unfold c_FastToLower. rewrite <- app_assoc. cbn [app]. replace fuel with (length rs + S (S (fuel - length rs - 2)))%nat by lia.
  pose proof (c_loop_runes rs (b :: t ++ [x00]) H ltac:(discriminate) (S (S (fuel - length rs - 2))) []) as E2. cbn [app length Nat.add] in E2.
  rewrite E2, HS. reflexivity.
Qed.
Example C11_outside_example : texts (runes (B "Ёж")) /\ cut_off xe2 [x82] /\ c_FastToLower 9 (B "Ёж" ++ [xe2; x82]) = COutside.
Proof. split; [repeat constructor|]. split; [right; left; split; [vm_compute; intuition discriminate|cbn; lia]|vm_compute; reflexivity]. Qed.
Theorem C11_outside_refuted : exists s, ~ In x00 s /\ forall fuel, (2 <= fuel)%nat -> c_FastToLower fuel s = COutside.
Proof.
  exists [xd0]. split; [cbn; intuition discriminate|]. intros [|[|fuel]] H; try lia. reflexivity.
Qed.
Theorem C11_refuted : ~ C11_statement.
Proof.
  intros H. destruct (H (B "Ab")) as [fuel Hf]; [vm_compute; intuition discriminate|].
  change (B "Ab") with (string_of_runes [65; 98]) in Hf.
  assert (HT : texts [65; 98]) by (repeat constructor).
  apply (ex_intro (fun fuel => c_FastToLower fuel (string_of_runes [65; 98]) = _)) in Hf. apply C11_exactly in Hf; [|exact HT].
  destruct Hf as [Hf _]. specialize (Hf eq_refl). discriminate Hf.
Qed.
Example C11_example : texts (runes (B "ПроцедураЁж aab 1")) /\ Forall (fun r => latin_upper r = false) (runes (B "ПроцедураЁж aab 1")) /\
  c_FastToLower 100 (B "ПроцедураЁж aab 1") = CDone (B "процедураёж aab 1") /\ doubled (runes (B "AaFf")) /\
  c_FastToLower 100 (B "NewФ") = CDone [x65; x65; x77; xd1; x84].
Proof. split; [repeat constructor|]. split; [repeat constructor|]. split; [vm_compute; reflexivity|]. split; [vm_compute; intuition discriminate | vm_compute; reflexivity]. Qed.

Print Assumptions C11_result. Print Assumptions C11_agrees_partial. Print Assumptions C11_exactly. Print Assumptions C11_hangs.
Print Assumptions C11_outside. Print Assumptions C11_outside_refuted. Print Assumptions C11_refuted.
