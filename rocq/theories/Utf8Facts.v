(** Facts about the UTF-8 coding used by the scanner. *)
From Verif Require Import Bytes Utf8 UnicodeTables Float64 GoTime Ast Lexer LexFacts.

Lemma valid_rune_range r : valid_rune r = true ->
  0 <= r <= 1114111 /\ ~ (55296 <= r <= 57343).
Proof. unfold valid_rune. lia. Qed.

Ltac bz :=
  repeat match goal with
  | |- context [b2z (z2b ?z)] => rewrite (b2z_z2b z) by lia
  | H : context [b2z (z2b ?z)] |- _ => rewrite (b2z_z2b z) in H by lia
  end.

(** Decoding an encoded rune gives the rune back, whatever follows. *)
Lemma decode_encode r rest : valid_rune r = true ->
  decode (encode r ++ rest) = (r, length (encode r)).
Proof.
  intros Hv. pose proof (valid_rune_range r Hv) as [H1 H2].
  unfold encode. rewrite Hv.
  destruct (r <? 128) eqn:E1.
  { cbn [app length decode]. bz. rewrite E1. reflexivity. }
  destruct (r <? 2048) eqn:E2.
  { assert (2 <= r / 64 < 32) by (split; [apply Z.div_le_lower_bound | apply Z.div_lt_upper_bound]; lia).
    pose proof (Z.mod_pos_bound r 64 ltac:(lia)). pose proof (Z.div_mod r 64 ltac:(lia)).
    cbn [app length decode]. bz.
    replace (192 + r / 64 <? 128) with false by lia.
    replace ((194 <=? 192 + r / 64) && (192 + r / 64 <=? 223)) with true by lia.
    unfold cont. replace ((128 <=? 128 + r mod 64) && (128 + r mod 64 <=? 191)) with true by lia.
    f_equal. lia. }
  destruct (r <? 65536) eqn:E3.
  { assert (0 <= r / 4096 < 16) by (split; [apply Z.div_le_lower_bound | apply Z.div_lt_upper_bound]; lia).
    assert (H64 : r / 64 / 64 = r / 4096) by (rewrite Z.div_div by lia; reflexivity).
    pose proof (Z.mod_pos_bound r 64 ltac:(lia)). pose proof (Z.div_mod r 64 ltac:(lia)).
    pose proof (Z.mod_pos_bound (r / 64) 64 ltac:(lia)). pose proof (Z.div_mod (r / 64) 64 ltac:(lia)).
    rewrite H64 in *.
    set (a := r / 4096) in *. set (b := (r / 64) mod 64) in *. set (c := r mod 64) in *.
    cbn [app length decode]. bz.
    replace (224 + a <? 128) with false by lia.
    replace ((194 <=? 224 + a) && (224 + a <=? 223)) with false by lia.
    replace ((224 <=? 224 + a) && (224 + a <=? 239)) with true by lia.
    unfold cont. cbv zeta.
    match goal with |- (if ?c then _ else _) = _ => replace c with true end.
    - f_equal. lia.
    - symmetry. rewrite !andb_true_iff, !Z.leb_le.
      destruct (224 + a =? 224) eqn:Ea; destruct (224 + a =? 237) eqn:Eb; lia. }
  { assert (0 <= r / 262144 < 5) by (split; [apply Z.div_le_lower_bound | apply Z.div_lt_upper_bound]; lia).
    assert (H64 : r / 64 / 64 = r / 4096) by (rewrite Z.div_div by lia; reflexivity).
    assert (H65 : r / 4096 / 64 = r / 262144) by (rewrite Z.div_div by lia; reflexivity).
    pose proof (Z.mod_pos_bound r 64 ltac:(lia)). pose proof (Z.div_mod r 64 ltac:(lia)).
    pose proof (Z.mod_pos_bound (r / 64) 64 ltac:(lia)). pose proof (Z.div_mod (r / 64) 64 ltac:(lia)).
    pose proof (Z.mod_pos_bound (r / 4096) 64 ltac:(lia)). pose proof (Z.div_mod (r / 4096) 64 ltac:(lia)).
    rewrite H64, H65 in *.
    set (a := r / 262144) in *. set (b := (r / 4096) mod 64) in *.
    set (c := (r / 64) mod 64) in *. set (d := r mod 64) in *.
    cbn [app length decode]. bz.
    replace (240 + a <? 128) with false by lia.
    replace ((194 <=? 240 + a) && (240 + a <=? 223)) with false by lia.
    replace ((224 <=? 240 + a) && (240 + a <=? 239)) with false by lia.
    replace ((240 <=? 240 + a) && (240 + a <=? 244)) with true by lia.
    unfold cont. cbv zeta.
    match goal with |- (if ?c then _ else _) = _ => replace c with true end.
    - f_equal. lia.
    - symmetry. rewrite !andb_true_iff, !Z.leb_le.
      destruct (240 + a =? 240) eqn:Ea; destruct (240 + a =? 244) eqn:Eb; lia. }
Qed.

Lemma encode_length r : (1 <= length (encode r) <= 4)%nat.
Proof.
  unfold encode. destruct (valid_rune r); cbv zeta; repeat dstep; simpl; lia.
Qed.

Lemma z2b_eq b z : b2z b = z -> z2b z = b.
Proof. intros <-. apply z2b_b2z. Qed.

(** Decoding never yields a surrogate or a rune above the Unicode range, and a
    rune that was really decoded is encoded by the very bytes that were read. *)
Lemma decode_shape s : s <> [] ->
  decode s = (RuneError, 1%nat) \/
  (valid_rune (fst (decode s)) = true /\
   encode (fst (decode s)) = firstn (snd (decode s)) s).
Proof.
  intros Hs. destruct s as [|b0 s1]; [congruence|]. clear Hs. unfold decode, cont.
  pose proof (b2z_range b0).
  destruct (b2z b0 <? 128) eqn:E1.
  { right. cbn [fst snd firstn].
    assert (Hv : valid_rune (b2z b0) = true) by (unfold valid_rune; lia).
    split; [exact Hv|]. unfold encode. rewrite Hv, E1, z2b_b2z. reflexivity. }
  destruct ((194 <=? b2z b0) && (b2z b0 <=? 223)) eqn:E2.
  { destruct s1 as [|b1 s1]; [left; reflexivity|]. cbv zeta. pose proof (b2z_range b1).
    match goal with |- context [if ?c then _ else _] => destruct c eqn:E4 end; [right|left; reflexivity].
    cbn [fst snd firstn]. set (r := (b2z b0 - 192) * 64 + (b2z b1 - 128)).
    assert (Hv : valid_rune r = true) by (unfold valid_rune, r; lia).
    split; [exact Hv|]. unfold encode. rewrite Hv.
    replace (r <? 128) with false by (unfold r; lia). replace (r <? 2048) with true by (unfold r; lia).
    assert (D : r / 64 = b2z b0 - 192) by (unfold r; rewrite Z.div_add_l by lia; rewrite Z.div_small by lia; lia).
    assert (M : r mod 64 = b2z b1 - 128) by (rewrite Z.mod_eq, D by lia; unfold r; lia).
    f_equal; [apply z2b_eq; lia|]. f_equal. apply z2b_eq; lia. }
  destruct ((224 <=? b2z b0) && (b2z b0 <=? 239)) eqn:E3.
  { destruct s1 as [|b1 [|b2 s1]]; try (left; reflexivity). cbv zeta.
    pose proof (b2z_range b1). pose proof (b2z_range b2).
    match goal with |- context [if ?c then (_, 3%nat) else _] => destruct c eqn:E4 end; [right|left; reflexivity].
    cbn [fst snd firstn].
    set (r := (b2z b0 - 224) * 4096 + (b2z b1 - 128) * 64 + (b2z b2 - 128)).
    rewrite !andb_true_iff, !Z.leb_le in E4.
    assert (R : 128 <= b2z b1 <= 191 /\ (b2z b0 = 224 -> 160 <= b2z b1) /\ (b2z b0 = 237 -> b2z b1 <= 159)).
    { destruct (b2z b0 =? 224) eqn:Ea; destruct (b2z b0 =? 237) eqn:Eb; lia. }
    assert (Hv : valid_rune r = true) by (unfold valid_rune, r; lia).
    split; [exact Hv|]. unfold encode. rewrite Hv.
    replace (r <? 128) with false by (unfold r; lia). replace (r <? 2048) with false by (unfold r; lia).
    replace (r <? 65536) with true by (unfold r; lia).
    assert (D : r / 64 = (b2z b0 - 224) * 64 + (b2z b1 - 128)).
    { unfold r. replace ((b2z b0 - 224) * 4096 + (b2z b1 - 128) * 64 + (b2z b2 - 128))
        with (((b2z b0 - 224) * 64 + (b2z b1 - 128)) * 64 + (b2z b2 - 128)) by lia.
      rewrite Z.div_add_l by lia. rewrite Z.div_small by lia. lia. }
    assert (M : r mod 64 = b2z b2 - 128) by (rewrite Z.mod_eq, D by lia; unfold r; lia).
    assert (D2 : r / 4096 = b2z b0 - 224).
    { replace 4096 with (64 * 64) by lia. rewrite <- Z.div_div by lia. rewrite D.
      rewrite Z.div_add_l by lia. rewrite Z.div_small by lia. lia. }
    assert (M2 : (r / 64) mod 64 = b2z b1 - 128).
    { rewrite D. rewrite Z.add_comm, Z.mod_add by lia. apply Z.mod_small; lia. }
    rewrite M, D2, M2.
    f_equal; [apply z2b_eq; lia|]. f_equal; [apply z2b_eq; lia|]. f_equal. apply z2b_eq; lia. }
  destruct ((240 <=? b2z b0) && (b2z b0 <=? 244)) eqn:E4; [|left; reflexivity].
  destruct s1 as [|b1 [|b2 [|b3 s1]]]; try (left; reflexivity). cbv zeta.
  pose proof (b2z_range b1). pose proof (b2z_range b2). pose proof (b2z_range b3).
  match goal with |- context [if ?c then (_, 4%nat) else _] => destruct c eqn:E5 end; [right|left; reflexivity].
  cbn [fst snd firstn].
  set (r := (b2z b0 - 240) * 262144 + (b2z b1 - 128) * 4096 + (b2z b2 - 128) * 64 + (b2z b3 - 128)).
  rewrite !andb_true_iff, !Z.leb_le in E5.
  assert (R : 128 <= b2z b1 <= 191 /\ (b2z b0 = 240 -> 144 <= b2z b1) /\ (b2z b0 = 244 -> b2z b1 <= 143)).
  { destruct (b2z b0 =? 240) eqn:Ea; destruct (b2z b0 =? 244) eqn:Eb; lia. }
  assert (Hv : valid_rune r = true) by (unfold valid_rune, r; lia).
  split; [exact Hv|]. unfold encode. rewrite Hv.
  replace (r <? 128) with false by (unfold r; lia). replace (r <? 2048) with false by (unfold r; lia).
  replace (r <? 65536) with false by (unfold r; lia).
  assert (D : r / 64 = ((b2z b0 - 240) * 64 + (b2z b1 - 128)) * 64 + (b2z b2 - 128)).
  { unfold r. replace ((b2z b0 - 240) * 262144 + (b2z b1 - 128) * 4096 + (b2z b2 - 128) * 64 + (b2z b3 - 128))
      with ((((b2z b0 - 240) * 64 + (b2z b1 - 128)) * 64 + (b2z b2 - 128)) * 64 + (b2z b3 - 128)) by lia.
    rewrite Z.div_add_l by lia. rewrite Z.div_small by lia. lia. }
  assert (M : r mod 64 = b2z b3 - 128) by (rewrite Z.mod_eq, D by lia; unfold r; lia).
  assert (D2 : r / 4096 = (b2z b0 - 240) * 64 + (b2z b1 - 128)).
  { replace 4096 with (64 * 64) by lia. rewrite <- Z.div_div by lia. rewrite D.
    rewrite Z.div_add_l by lia. rewrite Z.div_small by lia. lia. }
  assert (M2 : (r / 64) mod 64 = b2z b2 - 128).
  { rewrite D. rewrite Z.add_comm, Z.mod_add by lia. apply Z.mod_small; lia. }
  assert (D3 : r / 262144 = b2z b0 - 240).
  { replace 262144 with (4096 * 64) by lia. rewrite <- Z.div_div by lia. rewrite D2.
    rewrite Z.div_add_l by lia. rewrite Z.div_small by lia. lia. }
  assert (M3 : (r / 4096) mod 64 = b2z b1 - 128).
  { rewrite D2. rewrite Z.add_comm, Z.mod_add by lia. apply Z.mod_small; lia. }
  rewrite M, M2, D3, M3.
  f_equal; [apply z2b_eq; lia|]. f_equal; [apply z2b_eq; lia|].
  f_equal; [apply z2b_eq; lia|]. f_equal. apply z2b_eq; lia.
Qed.

Lemma encode_nonnil r : encode r <> [].
Proof. pose proof (encode_length r). intros E; rewrite E in *; simpl in *; lia. Qed.

Lemma cur_encode r rest : valid_rune r = true -> cur (encode r ++ rest) = r.
Proof.
  intros H. unfold cur. pose proof (encode_nonnil r) as N.
  destruct (encode r ++ rest) eqn:E; [destruct (encode r); [congruence|discriminate]|].
  rewrite <- E, decode_encode by exact H. reflexivity.
Qed.
Lemma adv_encode r rest : valid_rune r = true -> adv (encode r ++ rest) = rest.
Proof.
  intros H. unfold adv. rewrite decode_encode by exact H. cbn [snd].
  rewrite skipn_app, skipn_all, Nat.sub_diag. reflexivity.
Qed.

Lemma string_of_runes_app a b : string_of_runes (a ++ b) = string_of_runes a ++ string_of_runes b.
Proof. apply flat_map_app. Qed.

(** [runes]: recursion equation and round trip. *)
Lemma runes_fuel_enough n s : (length s <= n)%nat -> runes_fuel n s = runes s.
Proof.
  unfold runes. remember (length s) as m. revert s n Heqm.
  induction m as [m IH] using lt_wf_ind. intros s n -> Hn.
  destruct s as [|b s]; [destruct n; reflexivity|].
  destruct n as [|n]; [simpl in Hn; lia|]. cbn [length runes_fuel].
  assert (Hl : (length (adv (b :: s)) < length (b :: s))%nat) by (apply adv_length; congruence).
  unfold adv in Hl. destruct (decode (b :: s)) as [r k]. cbn [snd] in Hl. cbn [length] in *. f_equal.
  rewrite (IH _ Hl _ n eq_refl) by lia.
  rewrite (IH _ Hl _ (length s) eq_refl) by lia. reflexivity.
Qed.
Lemma runes_eq s : runes s = match s with [] => [] | _ => cur s :: runes (adv s) end.
Proof.
  destruct s as [|b s]; [reflexivity|]. unfold runes at 1. cbn [length runes_fuel].
  assert (Hl : (length (adv (b :: s)) < length (b :: s))%nat) by (apply adv_length; congruence).
  unfold cur, adv in *. destruct (decode (b :: s)) as [r k]. cbn [fst snd] in *. f_equal.
  apply runes_fuel_enough. simpl in Hl. lia.
Qed.
Lemma runes_string rs : forallb valid_rune rs = true -> runes (string_of_runes rs) = rs.
Proof.
  induction rs as [|r rs IH]; [reflexivity|]. cbn [forallb]. rewrite andb_true_iff. intros [Hr Hrs].
  rewrite runes_eq. cbn [string_of_runes flat_map]. fold (string_of_runes rs).
  destruct (encode r ++ string_of_runes rs) eqn:E.
  { pose proof (encode_nonnil r). destruct (encode r); [congruence|discriminate]. }
  rewrite <- E, cur_encode, adv_encode, IH by assumption. reflexivity.
Qed.
Lemma runes_app_encode r rest : valid_rune r = true -> runes (encode r ++ rest) = r :: runes rest.
Proof.
  intros H. rewrite runes_eq. destruct (encode r ++ rest) eqn:E.
  { pose proof (encode_nonnil r). destruct (encode r); [congruence|discriminate]. }
  rewrite <- E, cur_encode, adv_encode by assumption. reflexivity.
Qed.

(** The bytes of one character: those the decoder reads. *)
Lemma decode_firstn s : s <> [] -> decode (firstn (snd (decode s)) s) = decode s.
Proof.
  intros Hs. destruct (decode_shape s Hs) as [E|[Hv E]].
  - rewrite E. cbn [snd]. destruct s as [|b s]; [congruence|]. cbn [firstn].
    revert E. unfold decode, RuneError. destruct (b2z b <? 128); [intros [= ->]; reflexivity|].
    intros _. repeat match goal with |- (if ?c then _ else _) = _ => destruct c end; reflexivity.
  - rewrite <- E. pose proof (decode_encode _ [] Hv) as D. rewrite app_nil_r in D.
    rewrite D, E, firstn_length_le by (apply decode_size, Hs).
    symmetry; apply surjective_pairing.
Qed.
