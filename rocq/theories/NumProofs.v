(** Proofs: the float64 conversion is correctly rounded. *)
From Coq Require Import Lqa Qfield Qround.
From Verif Require Import Bytes Float64 GoTime NumSpec.
Open Scope Z_scope.

Lemma round_ne_spec n d : 0 < d -> 2 * Z.abs (round_ne n d * d - n) <= d /\
  (2 * Z.abs (round_ne n d * d - n) = d -> Z.even (round_ne n d) = true).
Proof.
  intros Hd. unfold round_ne. cbv zeta.
  pose proof (Z.div_mod n d ltac:(lia)). pose proof (Z.mod_pos_bound n d Hd).
  set (q := n / d) in *. set (r := n mod d) in *.
  destruct (2 * r <? d) eqn:E1; [split; nia|].
  destruct (d <? 2 * r) eqn:E2; [split; nia|].
  destruct (Z.even q) eqn:E3; [split; [nia|auto]|].
  split; [nia|]. intros _. rewrite Z.even_add, E3. reflexivity.
Qed.

Lemma round_ne_best n d k : 0 < d -> Z.abs (round_ne n d * d - n) <= Z.abs (k * d - n) /\
  (Z.abs (round_ne n d * d - n) = Z.abs (k * d - n) -> k <> round_ne n d -> Z.even (round_ne n d) = true).
Proof.
  intros Hd. destruct (round_ne_spec n d Hd) as [H1 H2]. set (m := round_ne n d) in *.
  destruct (Z.eq_dec k m) as [->|Hk]; [split; [lia | congruence]|].
  assert (d <= Z.abs (k * d - m * d)) by (rewrite <- Z.mul_sub_distr_r, Z.abs_mul; nia).
  split; [lia|]. intros E _. apply H2. lia.
Qed.

Lemma round_ne_nonneg n d : 0 < d -> 0 <= n -> 0 <= round_ne n d.
Proof.
  intros Hd Hn. unfold round_ne. cbv zeta. pose proof (Z.div_pos n d Hn Hd).
  destruct (_ <? _); [lia|]. destruct (_ <? _); [lia|]. destruct (Z.even _); lia.
Qed.
(** Rounding respects integer bounds. *)
Lemma round_ne_ge n d k : 0 < d -> k * d <= n -> k <= round_ne n d.
Proof.
  intros Hd H. destruct (round_ne_spec n d Hd) as [H1 _]. nia.
Qed.
Lemma round_ne_le n d k : 0 < d -> n <= k * d -> round_ne n d <= k.
Proof.
  intros Hd H. destruct (round_ne_spec n d Hd) as [H1 _]. nia.
Qed.

Lemma Qpower2_pos e : (0 < Qpower 2 e)%Q.
Proof. apply Qpower_0_lt. reflexivity. Qed.
Lemma Qpower2_Z e : 0 <= e -> Qpower 2 e == inject_Z (2 ^ e).
Proof. intros H. rewrite <- (Zpower_Qpower 2 e H). reflexivity. Qed.
Lemma Qpower2_plus a b : (Qpower 2 (a + b) == Qpower 2 a * Qpower 2 b)%Q.
Proof. apply Qpower_plus. discriminate. Qed.

Lemma pow2_pos e : 0 <= e -> 0 < 2 ^ e.
Proof. intros. apply Z.pow_pos_nonneg; lia. Qed.

(** The scaled fraction. *)
Lemma scale_den_pos d e : 0 < d -> 0 < scale_den d e.
Proof. unfold scale_den. intros. destruct (0 <=? e) eqn:E; [|lia]. pose proof (pow2_pos e). nia. Qed.
Lemma scale_num_nonneg n e : 0 <= n -> 0 <= scale_num n e.
Proof. unfold scale_num. intros. destruct (0 <=? e) eqn:E; [lia|]. pose proof (pow2_pos (- e)). nia. Qed.

Definition frac (n d : Z) : Q := inject_Z n / inject_Z d.

Lemma inject_neq d : d <> 0 -> ~ inject_Z d == 0.
Proof. intros H E. apply H. unfold Qeq in E. simpl in E. lia. Qed.

Lemma scale_frac n d e : 0 < d -> (frac n d == frac (scale_num n e) (scale_den d e) * Qpower 2 e)%Q.
Proof.
  intros Hd. unfold frac, scale_num, scale_den. destruct (0 <=? e) eqn:E.
  - rewrite Qpower2_Z by lia. pose proof (pow2_pos e ltac:(lia)).
    rewrite inject_Z_mult. field. split; apply inject_neq; lia.
  - assert (Hq : (Qpower 2 e == / inject_Z (2 ^ (- e)))%Q).
    { rewrite <- Qpower2_Z, <- Qpower_opp by lia. rewrite Z.opp_involutive. reflexivity. }
    rewrite Hq.
    pose proof (pow2_pos (- e) ltac:(lia)).
    rewrite inject_Z_mult. field. split; apply inject_neq; lia.
Qed.

(** Distance of k * 2^e from a fraction x * 2^e with x = sn/sd. *)
Lemma dist_scaled k sn sd e : 0 < sd ->
  (Qabs (inject_Z k * Qpower 2 e - frac sn sd * Qpower 2 e)
   == Qpower 2 e * (inject_Z (Z.abs (k * sd - sn)) / inject_Z sd))%Q.
Proof.
  intros Hd.
  assert (E : (inject_Z k * Qpower 2 e - frac sn sd * Qpower 2 e
     == Qpower 2 e * (inject_Z (k * sd - sn) / inject_Z sd))%Q).
  { unfold frac, Z.sub. rewrite inject_Z_plus, inject_Z_mult, inject_Z_opp. field. apply inject_neq; lia. }
  rewrite E, Qabs_Qmult, (Qabs_pos (Qpower 2 e)) by (apply Qlt_le_weak, Qpower2_pos).
  unfold Qdiv. rewrite Qabs_Qmult.
  rewrite (Qabs_pos (/ inject_Z sd)); [reflexivity|].
  apply Qinv_le_0_compat. rewrite <- (Zle_Qle 0). lia.
Qed.

Lemma dist_le k1 k2 sn sd e : 0 < sd ->
  (Qabs (inject_Z k1 * Qpower 2 e - frac sn sd * Qpower 2 e) <=
   Qabs (inject_Z k2 * Qpower 2 e - frac sn sd * Qpower 2 e))%Q <->
  Z.abs (k1 * sd - sn) <= Z.abs (k2 * sd - sn).
Proof.
  intros Hd. rewrite !dist_scaled by exact Hd.
  rewrite Qmult_le_l by apply Qpower2_pos.
  unfold Qdiv. rewrite Qmult_le_r.
  - rewrite <- Zle_Qle. reflexivity.
  - apply Qinv_lt_0_compat. rewrite <- (Zlt_Qlt 0). exact Hd.
Qed.
Lemma dist_eq k1 k2 sn sd e : 0 < sd ->
  (Qabs (inject_Z k1 * Qpower 2 e - frac sn sd * Qpower 2 e) ==
   Qabs (inject_Z k2 * Qpower 2 e - frac sn sd * Qpower 2 e))%Q <->
  Z.abs (k1 * sd - sn) = Z.abs (k2 * sd - sn).
Proof.
  intros Hd. split.
  - intros H. apply Z.le_antisymm; apply (dist_le _ _ sn sd e Hd); rewrite H; apply Qle_refl.
  - intros H. rewrite !dist_scaled, H by exact Hd. reflexivity.
Qed.

Lemma f64_Q_pos f : f_neg f = false -> (f64_Q f == inject_Z (f_man f) * Qpower 2 (f_exp f))%Q.
Proof. intros H. unfold f64_Q. rewrite H. change (1 * f_man f # 1) with (inject_Z (1 * f_man f)). rewrite Z.mul_1_l. reflexivity. Qed.

(** A float with a larger exponent on a finer grid. *)
Lemma f64_Q_grid f e : f_neg f = false -> e <= f_exp f ->
  (f64_Q f == inject_Z (f_man f * 2 ^ (f_exp f - e)) * Qpower 2 e)%Q.
Proof.
  intros H He. rewrite f64_Q_pos by exact H. rewrite inject_Z_mult, <- Qpower2_Z by lia.
  replace (f_exp f) with ((f_exp f - e) + e) at 1 by lia. rewrite Qpower2_plus. ring.
Qed.

(** What the exponent choice of [to_f64] guarantees. *)
Lemma scale_step n d e : 0 < d ->
  scale_num n (e + 1) * (2 * scale_den d e) = scale_num n e * scale_den d (e + 1).
Proof.
  intros Hd. unfold scale_num, scale_den.
  destruct (0 <=? e) eqn:E1; destruct (0 <=? e + 1) eqn:E2; try lia.
  - rewrite Z.pow_add_r by lia. ring.
  - assert (e = -1) as -> by lia. change (-1 + 1) with 0. change (2 ^ - -1) with 2. change (2 ^ 0) with 1. ring.
  - replace (- e) with (- (e + 1) + 1) by lia. rewrite Z.pow_add_r by lia. ring.
Qed.

(** [sn/sd] bounds in terms of powers: 2^(ln - ld - 1 - e) < n/d/2^e < 2^(ln - ld + 1 - e). *)
Lemma log_bounds n d : 0 < n -> 0 < d ->
  let e := Z.log2 n - Z.log2 d - 53 in
  2 ^ 52 * scale_den d e < scale_num n e /\ scale_num n e < 2 ^ 54 * scale_den d e.
Proof.
  intros Hn Hd e. pose proof (Z.log2_spec n Hn) as [N1 N2]. pose proof (Z.log2_spec d Hd) as [D1 D2].
  pose proof (Z.log2_nonneg n) as Ln. pose proof (Z.log2_nonneg d) as Ld.
  set (ln := Z.log2 n) in *. set (ld := Z.log2 d) in *.
  rewrite Z.pow_succ_r in N2, D2 by lia.
  unfold scale_num, scale_den. destruct (0 <=? e) eqn:E.
  - (* ln = e + ld + 53 *)
    assert (Hp : 2 ^ ln = 2 ^ 53 * 2 ^ e * 2 ^ ld).
    { rewrite <- !Z.pow_add_r by lia. f_equal. unfold e. lia. }
    pose proof (pow2_pos e ltac:(lia)). change (2 ^ 54) with (2 * 2 ^ 53). change (2 ^ 53) with (2 * 2 ^ 52) in *.
    set (P := 2 ^ 52) in *. assert (0 < P) by reflexivity. split; nia.
  - assert (Hp : 2 ^ ln * 2 ^ (- e) = 2 ^ 53 * 2 ^ ld).
    { rewrite <- !Z.pow_add_r by lia. f_equal. unfold e. lia. }
    pose proof (pow2_pos (- e) ltac:(lia)). change (2 ^ 54) with (2 * 2 ^ 53). change (2 ^ 53) with (2 * 2 ^ 52) in *.
    set (P := 2 ^ 52) in *. assert (0 < P) by reflexivity. split; nia.
Qed.

(** The exponent used: either the mantissa is full or the exponent is minimal. *)
Definition expo (n d : Z) : Z :=
  let e0 := Z.log2 n - Z.log2 d - 53 in
  Z.max (if 2^53 * scale_den d e0 <=? scale_num n e0 then e0 + 1 else e0) (-1074).

Lemma scale_mono n d e e' : 0 <= n -> 0 < d -> e <= e' ->
  scale_num n e' * scale_den d e <= scale_num n e * scale_den d e'.
Proof.
  intros Hn Hd He. unfold scale_num, scale_den.
  destruct (0 <=? e) eqn:E1; destruct (0 <=? e') eqn:E2; try lia.
  - pose proof (Z.pow_le_mono_r 2 e e' ltac:(lia) He). nia.
  - pose proof (pow2_pos (- e) ltac:(lia)). pose proof (pow2_pos e' ltac:(lia)). 
    assert (1 <= 2 ^ (- e) * 2 ^ e') by nia. nia.
  - pose proof (Z.pow_le_mono_r 2 (- e') (- e) ltac:(lia) ltac:(lia)). nia.
Qed.

Lemma expo_spec n d : 0 < n -> 0 < d ->
  -1074 <= expo n d /\
  scale_num n (expo n d) < 2 ^ 53 * scale_den d (expo n d) /\
  (-1074 < expo n d -> 2 ^ 52 * scale_den d (expo n d) <= scale_num n (expo n d)).
Proof.
  intros Hn Hd. unfold expo. cbv zeta. set (e0 := Z.log2 n - Z.log2 d - 53).
  destruct (log_bounds n d Hn Hd) as [B1 B2]. fold e0 in B1, B2.
  set (e1 := if 2^53 * scale_den d e0 <=? scale_num n e0 then e0 + 1 else e0).
  assert (H1 : 2 ^ 52 * scale_den d e1 <= scale_num n e1 /\ scale_num n e1 < 2 ^ 53 * scale_den d e1).
  { unfold e1. destruct (2^53 * scale_den d e0 <=? scale_num n e0) eqn:E.
    - pose proof (scale_step n d e0 Hd) as S.
      pose proof (scale_den_pos d e0 Hd). pose proof (scale_den_pos d (e0 + 1) Hd).
      change (2 ^ 54) with (2 * 2 ^ 53) in *. change (2 ^ 53) with (2 * 2 ^ 52) in *.
      set (P := 2 ^ 52) in *. assert (0 < P) by reflexivity. split; nia.
    - lia. }
  split; [lia|]. destruct H1 as [H1 H2].
  destruct (Z.max_spec e1 (-1074)) as [[Hm ->]|[Hm ->]]; [|split; [exact H2 | intros _; exact H1]].
  split; [|lia].
  pose proof (scale_mono n d e1 (-1074) ltac:(lia) Hd ltac:(lia)) as M.
  pose proof (scale_den_pos d e1 Hd). pose proof (scale_den_pos d (-1074) Hd). nia.
Qed.

Lemma frac_pos n d : 0 < n -> 0 < d -> (0 < frac n d)%Q.
Proof.
  intros. unfold frac, Qdiv. rewrite <- (Qmult_0_l (/ inject_Z d)).
  apply Qmult_lt_compat_r; [apply Qinv_lt_0_compat|]; rewrite <- (Zlt_Qlt 0); lia.
Qed.

(** [m * 2^e] with [m] the rounded mantissa is at least as near as any float. *)
Lemma best n d g : 0 < n -> 0 < d -> is_f64 g ->
  let e := expo n d in let m := round_ne (scale_num n e) (scale_den d e) in
  (Qabs (inject_Z m * Qpower 2 e - frac n d) <= Qabs (f64_Q g - frac n d))%Q /\
  (Qabs (inject_Z m * Qpower 2 e - frac n d) == Qabs (f64_Q g - frac n d) ->
   ~ f64_Q g == inject_Z m * Qpower 2 e -> Z.even m = true)%Q.
Proof.
  intros Hn Hd Hg e m. destruct (expo_spec n d Hn Hd) as (X1 & X2 & X3). fold e in X1, X2, X3.
  pose proof (scale_den_pos d e Hd) as Sd. pose proof (scale_num_nonneg n e ltac:(lia)) as Sn.
  rewrite (scale_frac n d e Hd). set (sn := scale_num n e) in *. set (sd := scale_den d e) in *.
  destruct Hg as [Gn Hg].
  assert (Hgrid : f_man g = 0 \/ e <= f_exp g -> exists k, (f64_Q g == inject_Z k * Qpower 2 e)%Q).
  { intros [E|E]; [|eexists; apply f64_Q_grid; [exact Gn | exact E]].
    exists 0. rewrite f64_Q_pos, E by exact Gn. ring. }
  assert (Hk : forall k, (f64_Q g == inject_Z k * Qpower 2 e)%Q ->
     (Qabs (inject_Z m * Qpower 2 e - frac sn sd * Qpower 2 e) <= Qabs (f64_Q g - frac sn sd * Qpower 2 e))%Q /\
     (Qabs (inject_Z m * Qpower 2 e - frac sn sd * Qpower 2 e) == Qabs (f64_Q g - frac sn sd * Qpower 2 e) ->
      ~ f64_Q g == inject_Z m * Qpower 2 e -> Z.even m = true)%Q).
  { intros k Ek. destruct (round_ne_best sn sd k Sd) as [R1 R2]. fold m in R1, R2. rewrite Ek. split.
    - apply dist_le; assumption.
    - intros E N. apply dist_eq in E; [|exact Sd]. apply R2; [exact E|].
      intros ->. apply N. reflexivity. }
  destruct (Z_le_gt_dec e (f_exp g)) as [Hle|Hgt]; [destruct (Hgrid (or_intror Hle)) as [k Ek]; eauto|].
  destruct (Z.eq_dec (f_man g) 0) as [E0|E0]; [destruct (Hgrid (or_introl E0)) as [k Ek]; eauto|].
  (* a float below the grid: smaller than 2^52 * 2^e <= n/d *)
  assert (Hgb : 1 <= f_man g < 2 ^ 53 /\ -1074 <= f_exp g).
  { assert (2 ^ 52 < 2 ^ 53 /\ 1 <= 2 ^ 52) by (split; [reflexivity | discriminate]). lia. }
  specialize (X3 ltac:(lia)).
  assert (Hlt : (f64_Q g < inject_Z (2 ^ 52) * Qpower 2 e)%Q).
  { rewrite f64_Q_pos by exact Gn.
    apply Qlt_le_trans with (inject_Z (2 ^ 53) * Qpower 2 (f_exp g))%Q.
    - apply Qmult_lt_compat_r; [apply Qpower2_pos|]. rewrite <- Zlt_Qlt. lia.
    - replace e with ((e - 1 - f_exp g) + (1 + f_exp g)) by lia.
      rewrite Qpower2_plus, (Qpower2_plus 1 (f_exp g)), (Qpower2_Z (e - 1 - f_exp g)), (Qpower2_Z 1) by lia.
      setoid_replace (inject_Z (2 ^ 52) * (inject_Z (2 ^ (e - 1 - f_exp g)) * (inject_Z (2 ^ 1) * Qpower 2 (f_exp g))))%Q
        with (inject_Z (2 ^ 52 * 2 ^ (e - 1 - f_exp g) * 2 ^ 1) * Qpower 2 (f_exp g))%Q
        by (rewrite !inject_Z_mult; ring).
      apply Qmult_le_compat_r; [|apply Qlt_le_weak, Qpower2_pos]. rewrite <- Zle_Qle.
      pose proof (pow2_pos (e - 1 - f_exp g) ltac:(lia)).
      change (2 ^ 53) with (2 ^ 52 * 1 * 2 ^ 1). change (2 ^ 1) with 2. 
      assert (0 < 2 ^ 52) by reflexivity. nia. }
  assert (Hx : (inject_Z (2 ^ 52) * Qpower 2 e <= frac sn sd * Qpower 2 e)%Q).
  { apply Qmult_le_compat_r; [|apply Qlt_le_weak, Qpower2_pos].
    unfold frac. apply Qle_shift_div_l; [rewrite <- (Zlt_Qlt 0); lia|].
    rewrite <- inject_Z_mult, <- Zle_Qle. exact X3. }
  destruct (round_ne_best sn sd (2 ^ 52) Sd) as [R1 _]. fold m in R1.
  apply (dist_le _ _ sn sd e Sd) in R1.
  assert (Hs : (Qabs (inject_Z (2 ^ 52) * Qpower 2 e - frac sn sd * Qpower 2 e) < Qabs (f64_Q g - frac sn sd * Qpower 2 e))%Q).
  { rewrite !Qabs_neg by lra. lra. }
  split; [lra|]. intros E _. lra.
Qed.

(** to_f64 with the pair of mantissa and exponent made explicit. *)
Lemma to_f64_eq n d : to_f64 n d =
  if n =? 0 then Some (F64 false 0 0)
  else let e := expo n d in
       let m := round_ne (scale_num n e) (scale_den d e) in
       let me := if m =? 2^53 then (2^52, e + 1) else (m, e) in
       if fst me =? 0 then Some (F64 false 0 0)
       else if 971 <? snd me then None else Some (F64 false (fst me) (snd me)).
Proof.
  unfold to_f64, expo. destruct (n =? 0); [reflexivity|]. cbv zeta.
  match goal with |- context [if ?c =? 2 ^ 53 then _ else _] => destruct (c =? 2 ^ 53) end; reflexivity.
Qed.

Lemma m_bounds n d : 0 < n -> 0 < d ->
  let e := expo n d in let m := round_ne (scale_num n e) (scale_den d e) in
  0 <= m <= 2 ^ 53 /\ (-1074 < e -> 2 ^ 52 <= m).
Proof.
  intros Hn Hd e m. destruct (expo_spec n d Hn Hd) as (X1 & X2 & X3). fold e in X1, X2, X3.
  pose proof (scale_den_pos d e Hd) as Sd. pose proof (scale_num_nonneg n e ltac:(lia)) as Sn.
  repeat split.
  - apply round_ne_nonneg; assumption.
  - apply round_ne_le; lia.
  - intros He. apply round_ne_ge; [exact Sd | auto].
Qed.

Lemma frac_Qmake n d : 0 < d -> (frac n d == n # Z.to_pos d)%Q.
Proof.
  intros Hd. unfold frac. rewrite Qmake_Qdiv. rewrite Z2Pos.id by exact Hd. reflexivity.
Qed.

Lemma is_f64_zero : is_f64 (F64 false 0 0).
Proof. split; [reflexivity | left; split; reflexivity]. Qed.

Lemma pow52 : 2 ^ 53 = 2 * 2 ^ 52 /\ 0 < 2 ^ 52. Proof. split; reflexivity. Qed.

Lemma f64_canonical f g : is_f64 f -> is_f64 g -> (f64_Q f == f64_Q g)%Q -> f = g.
Proof.
  intros [F1 F2] [G1 G2] E. destruct f as [fn fm fe], g as [gn gm ge]. cbn [f_neg f_man f_exp] in *. subst.
  destruct pow52 as [P1 P2].
  assert (Hc : forall m1 e1 m2 e2, e1 <= e2 -> 
     (inject_Z m1 * Qpower 2 e1 == inject_Z m2 * Qpower 2 e2)%Q -> m1 = m2 * 2 ^ (e2 - e1)).
  { intros m1 e1 m2 e2 He H. replace e2 with ((e2 - e1) + e1) in H at 1 by lia.
    rewrite Qpower2_plus, (Qpower2_Z (e2 - e1)) in H by lia.
    rewrite Qmult_assoc in H. apply Qmult_inj_r in H; [|intros Z; pose proof (Qpower2_pos e1) as Q; rewrite Z in Q; discriminate].
    rewrite <- inject_Z_mult in H. apply (proj1 (inject_Z_injective _ _)) in H. exact H. }
  rewrite !f64_Q_pos in E by reflexivity. cbn [f_man f_exp] in E.
  assert (Hs : forall m1 e1 m2 e2, e1 <= e2 -> m1 = m2 * 2 ^ (e2 - e1) ->
     ((m1 = 0 /\ e1 = 0) \/ (2^52 <= m1 < 2^53 /\ -1074 <= e1 <= 971) \/ (1 <= m1 < 2^52 /\ e1 = -1074)) ->
     ((m2 = 0 /\ e2 = 0) \/ (2^52 <= m2 < 2^53 /\ -1074 <= e2 <= 971) \/ (1 <= m2 < 2^52 /\ e2 = -1074)) ->
     m1 = m2 /\ e1 = e2).
  { intros m1 e1 m2 e2 He H A1 A2. destruct (Z.eq_dec e1 e2) as [->|Ne].
    - rewrite Z.sub_diag in H. lia.
    - assert (Hp : 2 <= 2 ^ (e2 - e1)).
      { replace (e2 - e1) with (Z.succ (e2 - e1 - 1)) by lia. rewrite Z.pow_succ_r by lia.
        pose proof (pow2_pos (e2 - e1 - 1) ltac:(lia)). lia. }
      destruct A2 as [[-> ->]|[[A2 A3]|[A2 ->]]]; [|exfalso; nia|exfalso; lia].
      rewrite Z.mul_0_l in H. subst m1. destruct A1 as [[_ ->]|[[A1 _]|[A1 _]]]; lia. }
  destruct (Z_le_gt_dec fe ge) as [Hle|Hgt].
  - destruct (Hs fm fe gm ge Hle (Hc _ _ _ _ Hle E) F2 G2) as [-> ->]. reflexivity.
  - symmetry in E. assert (Hle : ge <= fe) by lia.
    destruct (Hs gm ge fm fe Hle (Hc _ _ _ _ Hle E) G2 F2) as [-> ->]. reflexivity.
Qed.

Lemma to_f64_nearest n d f : 0 <= n -> 0 < d -> to_f64 n d = Some f -> nearest (frac n d) f.
Proof.
  intros Hn Hd. rewrite to_f64_eq. destruct (n =? 0) eqn:En.
  { apply Z.eqb_eq in En. subst n. intros [= <-]. split; [apply is_f64_zero|].
    assert (Hz : (frac 0 d == 0)%Q) by (unfold frac, Qdiv; ring).
    assert (Hz2 : (Qabs (f64_Q (F64 false 0 0) - frac 0 d) == 0)%Q).
    { rewrite Hz, f64_Q_pos by reflexivity. cbn [f_man]. 
      setoid_replace (inject_Z 0 * Qpower 2 (f_exp (F64 false 0 0)) - 0)%Q with 0%Q by ring. reflexivity. }
    intros g Hg. split; [rewrite Hz2; apply Qabs_nonneg | intros _ _; reflexivity]. }
  assert (Hn' : 0 < n) by lia. cbv zeta. 
  destruct (m_bounds n d Hn' Hd) as [[M1 M2] M3]. cbv zeta in *.
  destruct (expo_spec n d Hn' Hd) as (X1 & X2 & X3).
  pose proof (fun g Hg => best n d g Hn' Hd Hg) as Hb. cbv zeta in Hb.
  set (e := expo n d) in *. set (m := round_ne (scale_num n e) (scale_den d e)) in *.
  destruct pow52 as [P1 P2].
  assert (Hfin : forall f, is_f64 f -> (f64_Q f == inject_Z m * Qpower 2 e)%Q ->
     (Z.even m = true -> Z.even (f_man f) = true) -> nearest (frac n d) f).
  { intros f' Hf E Hev. split; [exact Hf|]. intros g Hg. destruct (Hb g Hg) as [B1 B2]. split.
    - rewrite E. exact B1.
    - rewrite E. intros Eq Ne. apply Hev, B2; [exact Eq|]. intros Eg. apply Ne.
      apply f64_canonical; [exact Hg | exact Hf | rewrite E; exact Eg]. }
  destruct (m =? 2 ^ 53) eqn:E53; cbn [fst snd].
  - apply Z.eqb_eq in E53. change (2 ^ 52 =? 0) with false. cbv iota.
    destruct (971 <? e + 1) eqn:E971; [discriminate|]. intros [= <-]. apply Hfin.
    + split; [reflexivity|]. right. left. cbn [f_man f_exp]. split; [split; [lia|reflexivity] | lia].
    + rewrite f64_Q_pos by reflexivity. cbn [f_man f_exp]. rewrite E53, P1, Qpower2_plus, (inject_Z_mult 2), (Qpower2_Z 1) by lia.
      change (2 ^ 1) with 2. change (Z.pow_pos 2 52) with (2 ^ 52). ring.
    + intros _. reflexivity.
  - apply Z.eqb_neq in E53. destruct (m =? 0) eqn:E0.
    + apply Z.eqb_eq in E0. intros [= <-]. apply Hfin; [apply is_f64_zero| |reflexivity].
      rewrite f64_Q_pos, E0 by reflexivity. cbn [f_man f_exp]. ring.
    + apply Z.eqb_neq in E0. destruct (971 <? e) eqn:E971; [discriminate|]. intros [= <-]. apply Hfin.
      * split; [reflexivity|]. right. cbn [f_man f_exp].
        destruct (Z_lt_le_dec m (2 ^ 52)) as [Hm|Hm]; [right|left].
        -- split; [lia|]. destruct (Z.eq_dec e (-1074)) as [|Hne]; [assumption|]. specialize (M3 ltac:(lia)). lia.
        -- lia.
      * rewrite f64_Q_pos by reflexivity. cbn [f_man f_exp]. reflexivity.
      * auto.
Qed.

(** Overflow exactly from the bound on. *)
Lemma to_f64_overflow n d : 0 <= n -> 0 < d ->
  (to_f64 n d = None <-> overflow_bound * d <= n).
Proof.
  intros Hn Hd. rewrite to_f64_eq. destruct (n =? 0) eqn:En.
  { split; [discriminate|]. assert (0 < overflow_bound) by reflexivity. nia. }
  assert (Hn' : 0 < n) by lia. cbv zeta. 
  destruct (m_bounds n d Hn' Hd) as [[M1 M2] M3]. cbv zeta in *.
  destruct (expo_spec n d Hn' Hd) as (X1 & X2 & X3).
  set (e := expo n d) in *.
  pose proof (scale_den_pos d e Hd) as Sd.
  destruct (round_ne_spec (scale_num n e) (scale_den d e) Sd) as [R1 R2].
  set (m := round_ne (scale_num n e) (scale_den d e)) in *.
  destruct pow52 as [P1 P2].
  assert (Hbig : 972 <= e -> overflow_bound * d <= n).
  { intros He. specialize (X3 ltac:(lia)). unfold scale_num, scale_den in X3.
    replace (0 <=? e) with true in X3 by lia.
    pose proof (Z.pow_le_mono_r 2 972 e ltac:(lia) He) as Hp.
    unfold overflow_bound. change (2 ^ 972) with (4 * 2 ^ 970) in Hp.
    change (2 ^ 54) with (4 * 2 ^ 52). set (A := 2 ^ 970) in *. assert (0 < A) by reflexivity.
    set (P := 2 ^ 52) in *. nia. }
  assert (Hsmall : e <= 970 -> n < overflow_bound * d).
  { intros He. unfold scale_num, scale_den in X2. unfold overflow_bound.
    change (2 ^ 54) with (2 * 2 ^ 53). 
    destruct (0 <=? e) eqn:E0.
    - pose proof (Z.pow_le_mono_r 2 e 970 ltac:(lia) He) as Hp.
      pose proof (pow2_pos e ltac:(lia)).
      set (A := 2 ^ 970) in *. set (Q := 2 ^ 53) in *. assert (1 < Q) by reflexivity.
      assert (n < Q * (d * A)) by nia. nia.
    - pose proof (pow2_pos (- e) ltac:(lia)). 
      assert (1 <= 2 ^ 970) by discriminate.
      set (A := 2 ^ 970) in *. set (Q := 2 ^ 53) in *. assert (1 < Q) by reflexivity.
      assert (n < Q * d) by nia. nia. }
  assert (Hedge : e = 971 -> (m = 2 ^ 53 <-> overflow_bound * d <= n)).
  { intros He. clear Hbig Hsmall. unfold scale_num, scale_den in *. rewrite He in *.
    change (0 <=? 971) with true in *. cbv iota in *.
    change (2 ^ 971) with (2 * 2 ^ 970) in *.
    unfold overflow_bound. change (2 ^ 54) with (2 * 2 ^ 53).
    assert (HA : 0 < 2 ^ 970) by reflexivity.
    set (A := 2 ^ 970) in *. set (Q := 2 ^ 53) in *.
    split.
    - intros Hm. rewrite Hm in R1. nia.
    - intros Hov. destruct (Z.eq_dec m Q) as [|Hm]; [assumption|exfalso].
      assert (Hm2 : m <= Q - 1) by lia.
      assert (Hm3 : m = Q - 1) by nia.
      assert (Hev : Z.even m = true) by (apply R2; nia).
      rewrite Hm3 in Hev. discriminate. }
  assert (Hm0 : e = 971 -> m <> 0) by (intros He; specialize (M3 ltac:(lia)); lia).
  destruct (m =? 2 ^ 53) eqn:E53; cbn [fst snd].
  - apply Z.eqb_eq in E53. change (2 ^ 52 =? 0) with false. cbv iota.
    destruct (971 <? e + 1) eqn:E971; [split; [intros _|reflexivity]|split; [discriminate|]].
    + destruct (Z_le_gt_dec 972 e); [auto|]. apply Hedge; [lia | exact E53].
    + intros H. specialize (Hsmall ltac:(lia)). lia.
  - apply Z.eqb_neq in E53. destruct (m =? 0) eqn:E0.
    + split; [discriminate|]. intros H.
      destruct (Z_le_gt_dec e 970) as [He|He]; [specialize (Hsmall He); lia|].
      specialize (M3 ltac:(lia)). lia.
    + destruct (971 <? e) eqn:E971; [split; [intros _; apply Hbig; lia | reflexivity]|split; [discriminate|]].
      intros H. destruct (Z_le_gt_dec e 970) as [He|He]; [specialize (Hsmall He); lia|].
      exfalso. apply E53. apply Hedge; [lia | exact H].
Qed.

(** ** The nearest float64 is unique *)
Lemma next_float f g : is_f64 f -> is_f64 g -> (f64_Q f < f64_Q g)%Q -> Z.even (f_man f) = true ->
  exists s, is_f64 s /\ Z.even (f_man s) = false /\ (f64_Q f < f64_Q s)%Q /\ (f64_Q s <= f64_Q g)%Q.
Proof.
  intros [Fn Ff] [Gn Fg] Hlt Hev. destruct pow52 as [P1 P2].
  rewrite !f64_Q_pos in Hlt by assumption.
  assert (Hpos : forall m e, 0 <= m -> (0 <= inject_Z m * Qpower 2 e)%Q).
  { intros m e Hm. apply Qmult_le_0_compat; [rewrite <- (Zle_Qle 0); exact Hm | apply Qlt_le_weak, Qpower2_pos]. }
  assert (Gm : 1 <= f_man g /\ -1074 <= f_exp g <= 971).
  { destruct Fg as [[E1 E2]|[Fg|[Fg Fe]]]; [|lia|lia]. exfalso. rewrite E1 in Hlt.
    pose proof (Hpos (f_man f) (f_exp f) ltac:(lia)). 
    setoid_replace (inject_Z 0 * Qpower 2 (f_exp g))%Q with 0%Q in Hlt by ring. lra. }
  set (e := if f_man f =? 0 then -1074 else f_exp f).
  assert (Ev : (inject_Z (f_man f) * Qpower 2 (f_exp f) == inject_Z (f_man f) * Qpower 2 e)%Q).
  { unfold e. destruct (f_man f =? 0) eqn:E; [|reflexivity]. apply Z.eqb_eq in E. rewrite E. ring. }
  assert (He : -1074 <= e <= 971 /\ (2 ^ 52 <= f_man f < 2 ^ 53 \/ (0 <= f_man f < 2 ^ 52 /\ e = -1074))).
  { unfold e. destruct (f_man f =? 0) eqn:E; lia. }
  rewrite Ev in Hlt. clearbody e. destruct He as [He1 He2].
  assert (Hm : f_man f + 1 < 2 ^ 53 /\ (f_man f < 2 ^ 52 -> f_man f + 1 < 2 ^ 52)).
  { assert (O1 : Z.even (2 ^ 53 - 1) = false) by reflexivity. assert (O2 : Z.even (2 ^ 52 - 1) = false) by reflexivity.
    split.
    - destruct (Z.eq_dec (f_man f) (2 ^ 53 - 1)) as [E|E]; [rewrite E in Hev; congruence | lia].
    - intros H. destruct (Z.eq_dec (f_man f) (2 ^ 52 - 1)) as [E|E]; [rewrite E in Hev; congruence | lia]. }
  exists (F64 false (f_man f + 1) e).
  split; [|split; [|split]].
  - split; [reflexivity|]. right. cbn [f_man f_exp]. destruct He2 as [He2|[He2 ->]]; [left; lia | right; lia].
  - cbn [f_man]. rewrite Z.even_add, Hev. reflexivity.
  - rewrite !f64_Q_pos by (assumption || reflexivity). cbn [f_man f_exp]. rewrite Ev.
    apply Qmult_lt_compat_r; [apply Qpower2_pos|]. rewrite <- Zlt_Qlt. lia.
  - rewrite (f64_Q_pos (F64 _ _ _)) by reflexivity. cbn [f_man f_exp].
    destruct (Z_le_gt_dec e (f_exp g)) as [Hle|Hgt].
    + rewrite (f64_Q_grid g e) by assumption.
      assert (Hk : (f64_Q g == inject_Z (f_man g * 2 ^ (f_exp g - e)) * Qpower 2 e)%Q) by (apply f64_Q_grid; assumption).
      rewrite (f64_Q_pos g Gn) in Hk. rewrite Hk in Hlt.
      apply (proj1 (Qmult_lt_r _ _ _ (Qpower2_pos e))) in Hlt. rewrite <- Zlt_Qlt in Hlt.
      apply Qmult_le_compat_r; [|apply Qlt_le_weak, Qpower2_pos]. rewrite <- Zle_Qle. lia.
    + exfalso. destruct He2 as [He2|[_ He2]]; [|lia].
      assert (Hg : (inject_Z (f_man g) * Qpower 2 (f_exp g) <= inject_Z (f_man f) * Qpower 2 e)%Q).
      { replace e with ((e - 1 - f_exp g) + (1 + f_exp g)) by lia.
        rewrite Qpower2_plus, (Qpower2_plus 1 (f_exp g)), (Qpower2_Z (e - 1 - f_exp g)), (Qpower2_Z 1) by lia.
        setoid_replace (inject_Z (f_man f) * (inject_Z (2 ^ (e - 1 - f_exp g)) * (inject_Z (2 ^ 1) * Qpower 2 (f_exp g))))%Q
          with (inject_Z (f_man f * 2 ^ (e - 1 - f_exp g) * 2 ^ 1) * Qpower 2 (f_exp g))%Q
          by (rewrite !inject_Z_mult; ring).
        apply Qmult_le_compat_r; [|apply Qlt_le_weak, Qpower2_pos]. rewrite <- Zle_Qle.
        pose proof (pow2_pos (e - 1 - f_exp g) ltac:(lia)). change (2 ^ 1) with 2.
        assert (f_man g < 2 * f_man f) by lia. nia. }
      lra.
Qed.

Lemma nearest_unique_lt q f g : nearest q f -> nearest q g -> (f64_Q f < f64_Q g)%Q -> False.
Proof.
  intros [Ff Hf] [Fg Hg] Hlt.
  destruct (Hf g Fg) as [A1 A2]. destruct (Hg f Ff) as [B1 B2].
  pose proof (Qle_antisym _ _ A1 B1) as E.
  assert (Hne : g <> f) by (intros ->; apply (Qlt_irrefl _ Hlt)).
  pose proof (A2 E Hne) as Ef. pose proof (B2 (Qeq_sym _ _ E) (fun h => Hne (eq_sym h))) as Eg.
  destruct (next_float f g Ff Fg Hlt Ef) as (s & Fs & Os & L1 & L2).
  assert (Hsg : (f64_Q s < f64_Q g)%Q).
  { apply Qle_lteq in L2 as [L2|L2]; [exact L2|]. exfalso.
    rewrite (f64_canonical s g Fs Fg L2) in Os. congruence. }
  destruct (Hf s Fs) as [S1 _].
  assert (Hq : (f64_Q f <= q <= f64_Q g)%Q).
  { revert E. apply Qabs_case; apply Qabs_case; intros; split; lra. }
  revert E S1. apply Qabs_case; apply Qabs_case; apply Qabs_case; intros; lra.
Qed.

Lemma nearest_unique q f g : nearest q f -> nearest q g -> f = g.
Proof.
  intros Hf Hg. apply f64_canonical; [apply Hf | apply Hg|].
  destruct (Q_dec (f64_Q f) (f64_Q g)) as [[H|H]|H]; [| |exact H]; exfalso.
  - exact (nearest_unique_lt q f g Hf Hg H).
  - exact (nearest_unique_lt q g f Hg Hf H).
Qed.
