(** Quoted strings and numbers are read back as they were (C68). *)
From Verif Require Import Bytes Utf8 UnicodeTables Float64 GoTime Ast Lexer LexFacts Utf8Facts LexSpec NumSpec NumProofs NumTokens Parser Properties_Literals ErrText ErrRead.
Open Scope Z_scope.

(** ** Hexadecimal digits *)
Lemma hex_digit_value d : 0 <= d < 16 -> hex_value (hex_digit d) = Some d.
Proof.
  intros H. unfold hex_value, hex_digit. destruct (d <? 10) eqn:E; rewrite b2z_z2b by lia.
  - replace ((48 <=? 48 + d) && (48 + d <=? 57)) with true by lia. f_equal. lia.
  - replace ((48 <=? 87 + d) && (87 + d <=? 57)) with false by lia. replace ((97 <=? 87 + d) && (87 + d <=? 102)) with true by lia. f_equal. lia.
Qed.
Lemma hex_digit_plain d : 0 <= d < 16 -> 48 <= b2z (hex_digit d) < 103.
Proof. intros H. unfold hex_digit. destruct (d <? 10) eqn:E; rewrite b2z_z2b by lia; lia. Qed.
Lemma hex_text_length n r : length (hex_text n r) = n.
Proof. induction n; cbn; congruence. Qed.
Lemma hex_text_number n r : 0 <= r -> forall acc, hex_number acc (hex_text n r) = Some (acc * 16 ^ Z.of_nat n + r mod 16 ^ Z.of_nat n).
Proof.
  intros Hr. induction n as [|n IH]; intros acc.
  - cbn. f_equal. rewrite Z.mod_1_r. lia.
  - cbn [hex_text hex_number]. assert (P : 0 < 16 ^ Z.of_nat n) by (apply Z.pow_pos_nonneg; lia).
    pose proof (Z.mod_pos_bound (r / 16 ^ Z.of_nat n) 16 ltac:(lia)). rewrite hex_digit_value by lia. rewrite IH. f_equal.
    rewrite Nat2Z.inj_succ, Z.pow_succ_r by lia. rewrite (Z.mul_comm 16 (16 ^ Z.of_nat n)), (Z.rem_mul_r r) by lia. ring.
Qed.
Lemma hex_text_value n r : 0 <= r < 16 ^ Z.of_nat n -> hex_number 0 (hex_text n r) = Some r.
Proof. intros H. rewrite hex_text_number by lia. rewrite Z.mod_small by lia. reflexivity. Qed.

(** ** Quoted strings *)
Lemma put_app a b r : put a (put b r) = put (a ++ b) r.
Proof. destruct r as [[s t]|]; cbn; [rewrite app_assoc|]; reflexivity. Qed.
Lemma unquote_raw l t : Forall (fun b => b2z b <> 34 /\ b2z b <> 92) l -> unquote (l ++ t) = put l (unquote t).
Proof.
  intros H. induction H as [|b l [H1 H2] H IH]; [cbn; destruct (unquote t) as [[]|]; reflexivity|].
  cbn [app unquote]. replace (b2z b =? 34) with false by lia. replace (b2z b =? 92) with false by lia. cbn [negb]. rewrite IH, put_app. reflexivity.
Qed.
Lemma unquote_byte n t : 0 <= n < 256 -> unquote (B "\x" ++ hex_text 2 n ++ t) = put [z2b n] (unquote t).
Proof.
  intros H. pose proof (hex_text_value 2 n ltac:(change (16 ^ Z.of_nat 2) with 256; lia)) as E. pose proof (hex_text_length 2 n) as L.
  destruct (hex_text 2 n) as [|h1 [|h2 [|]]]; try discriminate L. cbn [app B unlit].
  change (unquote ("\"%byte :: "x"%byte :: h1 :: h2 :: t)) with (match hex_number 0 [h1; h2] with Some v => put [z2b v] (unquote t) | None => None end).
  rewrite E. reflexivity.
Qed.
Lemma unquote_four n t : 0 <= n < 65536 -> unquote (B "\u" ++ hex_text 4 n ++ t) = put (encode n) (unquote t).
Proof.
  intros H. pose proof (hex_text_value 4 n ltac:(change (16 ^ Z.of_nat 4) with 65536; lia)) as E. pose proof (hex_text_length 4 n) as L.
  destruct (hex_text 4 n) as [|h1 [|h2 [|h3 [|h4 [|]]]]]; try discriminate L. cbn [app B unlit].
  change (unquote ("\"%byte :: "u"%byte :: h1 :: h2 :: h3 :: h4 :: t)) with (match hex_number 0 [h1; h2; h3; h4] with Some v => put (encode v) (unquote t) | None => None end).
  rewrite E. reflexivity.
Qed.
Lemma unquote_eight n t : 0 <= n < 1114112 -> unquote (B "\U" ++ hex_text 8 n ++ t) = put (encode n) (unquote t).
Proof.
  intros H. pose proof (hex_text_value 8 n ltac:(change (16 ^ Z.of_nat 8) with 4294967296; lia)) as E. pose proof (hex_text_length 8 n) as L.
  destruct (hex_text 8 n) as [|h1 [|h2 [|h3 [|h4 [|h5 [|h6 [|h7 [|h8 [|]]]]]]]]]; try discriminate L. cbn [app B unlit].
  change (unquote ("\"%byte :: "U"%byte :: h1 :: h2 :: h3 :: h4 :: h5 :: h6 :: h7 :: h8 :: t)) with
    (match hex_number 0 [h1; h2; h3; h4; h5; h6; h7; h8] with Some v => put (encode v) (unquote t) | None => None end).
  rewrite E. reflexivity.
Qed.
Lemma encode_small r : 0 <= r < 128 -> encode r = [z2b r].
Proof. intros H. unfold encode. replace (valid_rune r) with true by (unfold valid_rune; lia). replace (r <? 128) with true by lia. reflexivity. Qed.
Lemma encode_bytes r b : valid_rune r = true -> In b (encode r) -> b2z b = r \/ 128 <= b2z b.
Proof.
  intros V. pose proof (valid_rune_range r V) as [R _]. unfold encode. rewrite V. cbv zeta.
  destruct (r <? 128) eqn:E1; [intros [<-|[]]; left; apply b2z_z2b; lia|]. right.
  assert (M : forall x, 0 <= x mod 64 < 64) by (intros; apply Z.mod_pos_bound; lia).
  destruct (r <? 2048) eqn:E2; [|destruct (r <? 65536) eqn:E3]; cbn [In] in H;
  repeat match goal with H : _ \/ _ |- _ => destruct H as [H|H] end; try contradiction; subst b;
  match goal with |- _ <= b2z (z2b ?z) => rewrite (b2z_z2b z); [|] end; try (pose proof (M r); pose proof (M (r / 64)); pose proof (M (r / 4096)); lia).
  all: try (assert (0 <= r / 64 < 32) by (split; [apply Z.div_pos|apply Z.div_lt_upper_bound]; lia); lia).
  all: try (assert (0 <= r / 4096 < 16) by (split; [apply Z.div_pos|apply Z.div_lt_upper_bound]; lia); lia).
  all: try (assert (0 <= r / 262144 < 5) by (split; [apply Z.div_pos|apply Z.div_lt_upper_bound]; lia); lia).
Qed.
Lemma unquote_escape ip r t : valid_rune r = true -> unquote (escape ip r ++ t) = put (encode r) (unquote t).
Proof.
  intros V. pose proof (valid_rune_range r V) as [R _]. unfold escape.
  destruct ((r =? 34) || (r =? 92)) eqn:E0.
  { apply orb_true_iff in E0 as [E|E]; apply Z.eqb_eq in E; subst r; reflexivity. }
  apply orb_false_iff in E0 as [E0 E0']. destruct (ip r).
  { apply unquote_raw. apply Forall_forall. intros b Hb. destruct (encode_bytes r b V Hb); lia. }
  repeat match goal with
  | |- context [if r =? ?k then _ else _] => let E := fresh "E" in destruct (r =? k) eqn:E; [apply Z.eqb_eq in E; subst r; reflexivity|]
  end.
  destruct ((r <? 32) || (r =? 127)) eqn:E8.
  { rewrite <- app_assoc, unquote_byte by lia. rewrite encode_small by lia. reflexivity. }
  destruct (r <? 65536) eqn:E9; rewrite <- app_assoc; [apply unquote_four|apply unquote_eight]; lia.
Qed.
Lemma unquote_fuel_ok ip n : forall s t, (length s <= n)%nat -> unquote (quote_fuel ip n s ++ t) = put s (unquote t).
Proof.
  induction n as [|n IH]; intros s t H.
  - destruct s; [|cbn in H; lia]. cbn. destruct (unquote t) as [[]|]; reflexivity.
  - destruct s as [|b s]; [cbn; destruct (unquote t) as [[]|]; reflexivity|]. cbn [quote_fuel].
    pose proof (decode_size (b :: s) ltac:(discriminate)) as Hd. destruct (decode_shape (b :: s) ltac:(discriminate)) as [E|[V E]].
    + rewrite E. cbn [Nat.eqb]. replace (RuneError =? RuneError) with true by reflexivity. cbn [andb skipn]. rewrite <- !app_assoc.
      rewrite unquote_byte by apply b2z_range. rewrite IH by (cbn in H; lia). rewrite put_app, z2b_b2z. reflexivity.
    + destruct (decode (b :: s)) as [r w] eqn:Ed. cbn [fst snd] in *. rewrite <- app_assoc.
      assert (X : forall u, unquote ((if (r =? RuneError) && Nat.eqb w 1 then B "\x" ++ hex_text 2 (b2z b) else escape ip r) ++ u) = put (firstn w (b :: s)) (unquote u)).
      { intros u. destruct ((r =? RuneError) && Nat.eqb w 1) eqn:Eb; [|rewrite unquote_escape, E by exact V; reflexivity].
        apply andb_true_iff in Eb as [E1 E2]. apply Nat.eqb_eq in E2. subst w. rewrite <- app_assoc, unquote_byte by apply b2z_range.
        rewrite z2b_b2z. reflexivity. }
      rewrite X, IH by (rewrite skipn_length; lia). rewrite put_app, firstn_skipn. reflexivity.
Qed.
(** Whatever was quoted is read back, byte for byte. *)
Lemma unquote_quote ip s t : exists q, quote ip s ++ t = z2b 34 :: q /\ unquote q = Some (s, t) /\ length q = (length (quote ip s) - 1 + length t)%nat.
Proof.
  exists (quote_fuel ip (length s) s ++ z2b 34 :: t). unfold quote. split; [cbn [app]; rewrite <- app_assoc; reflexivity|]. split.
  - rewrite unquote_fuel_ok by lia. cbn. rewrite app_nil_r. reflexivity.
  - cbn [length]. rewrite !app_length. cbn [length]. lia.
Qed.

Lemma unquote_time s t : exists q, time_quote s ++ t = z2b 34 :: q /\ unquote q = Some (s, t).
Proof.
  exists (flat_map time_escape s ++ z2b 34 :: t). unfold time_quote. split; [cbn [app]; rewrite <- app_assoc; reflexivity|].
  assert (X : forall s u, unquote (flat_map time_escape s ++ u) = put s (unquote u)).
  { clear. induction s as [|b s IH]; intros u; [cbn; destruct (unquote u) as [[]|]; reflexivity|]. cbn [flat_map]. rewrite <- app_assoc.
    assert (Y : unquote (time_escape b ++ flat_map time_escape s ++ u) = put [b] (unquote (flat_map time_escape s ++ u))).
    { unfold time_escape. destruct ((128 <=? b2z b) || (b2z b <? 32)) eqn:E1; [rewrite <- app_assoc, unquote_byte by apply b2z_range; rewrite z2b_b2z; reflexivity|].
      destruct ((b2z b =? 34) || (b2z b =? 92)) eqn:E2; [|apply unquote_raw; constructor; [lia|constructor]].
      apply orb_true_iff in E2 as [E2|E2]; apply Z.eqb_eq in E2; apply z2b_eq in E2; subst b; reflexivity. }
    rewrite Y, IH, put_app. reflexivity. }
  rewrite X. cbn. rewrite app_nil_r. reflexivity.
Qed.

(** ** Numbers *)
Lemma digits_before_text ds t : digits ds -> (forall b t', t = b :: t' -> ~ 48 <= b2z b <= 57) -> digits_before (digit_text ds ++ t) = (digit_text ds, t).
Proof.
  intros H Ht. induction H as [|d ds Hd H IH]; cbn [digit_text map app].
  - destruct t as [|b t']; [reflexivity|]. specialize (Ht b t' eq_refl). cbn. replace ((48 <=? b2z b) && (b2z b <=? 57)) with false by lia. reflexivity.
  - cbn [digits_before]. rewrite b2z_z2b by lia. replace ((48 <=? 48 + d) && (48 + d <=? 57)) with true by lia.
    change (map (fun d => z2b (48 + d)) ds) with (digit_text ds) in *. rewrite IH. reflexivity.
Qed.
Lemma natural_text n t : 0 <= n -> (forall b t', t = b :: t' -> ~ 48 <= b2z b <= 57) -> natural (dec_of_Z n ++ t) = Some (n, t).
Proof.
  intros Hn Ht. destruct (dec_of_Z_text n Hn) as (ds & D1 & D2 & D3 & D4 & _). rewrite D4. unfold natural. rewrite digits_before_text by assumption.
  pose proof (dec_val_text ds D1) as X. unfold dec_val, digit_val in X. destruct (digit_text ds) as [|b l] eqn:E; [destruct ds; [congruence|discriminate]|]. rewrite X, D3. reflexivity.
Qed.
Lemma integer_text n t : (forall b t', t = b :: t' -> ~ 48 <= b2z b <= 57) -> integer_before (int_text n ++ t) = Some (n, t).
Proof.
  intros Ht. unfold int_text. destruct (n <? 0) eqn:E.
  - cbn [app B unlit integer_before]. change (b2z "-"%byte =? 45) with true. cbv iota. cbn [app]. rewrite natural_text by (try exact Ht; lia). rewrite Z.opp_involutive. reflexivity.
  - pose proof (natural_text n t ltac:(lia) Ht) as X. destruct (dec_of_Z_text n ltac:(lia)) as (ds & D1 & D2 & _ & D4 & _).
    destruct (dec_of_Z n) as [|b l] eqn:Eb; [destruct ds; [congruence|discriminate]|]. cbn [app integer_before].
    assert (Hb : b2z b <> 45). { destruct ds as [|d ds]; [congruence|]. apply (f_equal (hd x00)) in D4. change (b = z2b (48 + d)) in D4. subst b. apply Forall_inv in D1. cbv beta in D1. rewrite b2z_z2b; lia. }
    replace (b2z b =? 45) with false by lia. exact X.
Qed.
