(** The scanner on two texts with the same characters (C65). *)
From Verif Require Import Bytes Utf8 Float64 GoTime Ast Lexer LexFacts Utf8Facts LexSpec LexProofs Tok Writes Lexical Scanned.
Open Scope Z_scope.

Section R.
Context (R : bytes -> bytes -> Prop) (R_cur : forall s t, R s t -> cur s = cur t) (R_adv : forall s t, R s t -> R (adv s) (adv t)).
Lemma R_nextLet s t : R s t -> nextLet s = nextLet t.
Proof. intros H. apply R_cur, R_adv, H. Qed.
#[local] Hint Resolve R_adv : core.

Lemma R_skipSpace s : forall t, R s t -> R (skipSpace s) (skipSpace t).
Proof.
  induction s as [s IH] using bytes_ind. intros t H. rewrite (skipSpace_eq s), (skipSpace_eq t), <- (R_cur _ _ H).
  destruct (isSpace (cur s)) eqn:E; [|exact H]. apply IH; [apply adv_length; intros ->; discriminate E|auto].
Qed.
Lemma R_skipLine s : forall t, R s t -> R (skipLine s) (skipLine t).
Proof.
  induction s as [s IH] using bytes_ind. intros t H. rewrite (skipLine_eq s), (skipLine_eq t), <- (R_cur _ _ H).
  destruct (_ || _) eqn:E; [exact H|]. apply IH; [apply adv_length; intros ->; discriminate E|auto].
Qed.
#[local] Hint Resolve R_skipSpace R_skipLine : core.
Lemma R_skips s : (forall t, R s t -> R (skipComment s) (skipComment t)) /\ (forall t, R s t -> R (skipRegions s) (skipRegions t)).
Proof.
  induction s as [s IH] using bytes_ind.
  assert (C : forall t, R s t -> R (skipComment s) (skipComment t)).
  { intros t H. rewrite (skipComment_eq s), (skipComment_eq t), <- (R_cur _ _ H), <- (R_nextLet _ _ H). destruct (_ && _) eqn:E; [|exact H]. cbv zeta.
    apply andb_true_iff in E as [E _]. apply Z.eqb_eq in E.
    assert (L : (length (skipSpace (skipLine s)) < length s)%nat) by (apply skip_line_space_lt; [apply (cur_neq s cSlash); [unfold cSlash; lia|exact E]|rewrite E; discriminate]).
    assert (X : R (skipSpace (skipLine s)) (skipSpace (skipLine t))) by auto. rewrite <- (R_cur _ _ X).
    destruct (_ =? cSlash); [apply IH; assumption|]. destruct (_ =? cHash); [apply IH; assumption|exact X]. }
  split; [exact C|]. intros t H. rewrite (skipRegions_eq s), (skipRegions_eq t), <- (R_cur _ _ H). cbv zeta. destruct (cur s =? cHash) eqn:E.
  - apply Z.eqb_eq in E.
    assert (L : (length (skipSpace (skipLine s)) < length s)%nat) by (apply skip_line_space_lt; [apply (cur_neq s cHash); [unfold cHash; lia|exact E]|rewrite E; discriminate]).
    assert (X : R (skipSpace (skipLine s)) (skipSpace (skipLine t))) by auto. rewrite <- (R_cur _ _ X).
    destruct (_ =? cSlash); [apply IH; assumption|]. destruct (_ =? cHash); [apply IH; assumption|exact X].
  - rewrite <- (R_cur _ _ H), E. destruct (_ =? cSlash); [apply C, H|exact H].
Qed.
Lemma R_skipComment s t : R s t -> R (skipComment s) (skipComment t). Proof. apply R_skips. Qed.
Lemma R_skipRegions s t : R s t -> R (skipRegions s) (skipRegions t). Proof. apply R_skips. Qed.
#[local] Hint Resolve R_skipComment R_skipRegions : core.

Definition pair_R {A} (x y : A * bytes) : Prop := fst x = fst y /\ R (snd x) (snd y).
Lemma R_ident s : forall t, R s t -> pair_R (ident_runes s) (ident_runes t).
Proof.
  induction s as [s IH] using bytes_ind. intros t H. rewrite (ident_runes_eq s), (ident_runes_eq t), <- (R_cur _ _ H).
  destruct (_ || _) eqn:E; [|split; [reflexivity|exact H]].
  assert (L : (length (adv s) < length s)%nat) by (apply adv_length; intros ->; rewrite cur_nil, isLetter_EOF in E; discriminate E).
  destruct (IH _ L (adv t) (R_adv _ _ H)) as [X Y]. destruct (ident_runes (adv s)), (ident_runes (adv t)). cbn [fst snd] in *. subst. split; [reflexivity|exact Y].
Qed.
Lemma R_number s : forall t, R s t -> pair_R (number_runes s) (number_runes t).
Proof.
  induction s as [s IH] using bytes_ind. intros t H. rewrite (number_runes_eq s), (number_runes_eq t), <- (R_cur _ _ H).
  destruct (_ || _) eqn:E; [|split; [reflexivity|exact H]].
  assert (L : (length (adv s) < length s)%nat) by (apply adv_length; intros ->; discriminate E).
  destruct (IH _ L (adv t) (R_adv _ _ H)) as [X Y]. destruct (number_runes (adv s)), (number_runes (adv t)). cbn [fst snd] in *. subst. split; [reflexivity|exact Y].
Qed.
Lemma R_string_fuel n : forall en acc s t, R s t -> pair_R (scan_string_fuel n en acc s) (scan_string_fuel n en acc t).
Proof.
  induction n as [|n IH]; intros en acc s t H; [split; [reflexivity|exact H]|]. cbn [scan_string_fuel]. cbv zeta.
  pose proof (R_adv _ _ H) as H1. pose proof (R_adv _ _ H1) as H2.
  assert (H3 : R (skipSpace (adv (adv s))) (skipSpace (adv (adv t)))) by auto.
  assert (H4 : R (skipComment (skipSpace (adv (adv s)))) (skipComment (skipSpace (adv (adv t))))) by auto.
  rewrite <- (R_cur _ _ H1), <- (R_cur _ _ H3), <- (R_cur _ _ H4), <- (R_nextLet _ _ H1).
  repeat match goal with |- pair_R (if ?b then _ else _) _ => destruct b end; try (apply IH; assumption); (split; [reflexivity|assumption]).
Qed.
Lemma R_scanIdentifier s t : R s t -> pair_R (scanIdentifier s) (scanIdentifier t).
Proof.
  intros H. destruct (R_ident _ _ H) as [X Y]. unfold scanIdentifier. fold (ident_runes s) (ident_runes t).
  destruct (ident_runes s), (ident_runes t). cbn [fst snd] in *. subst. split; [reflexivity|exact Y].
Qed.
Lemma R_scanNumber s t : R s t -> pair_R (scanNumber s) (scanNumber t).
Proof.
  intros H. destruct (R_number _ _ H) as [X Y]. unfold scanNumber. fold (number_runes s) (number_runes t).
  destruct (number_runes s), (number_runes t). cbn [fst snd] in *. subst. rewrite <- (R_cur _ _ Y). destruct (isLetter _); split; try reflexivity; exact Y.
Qed.
Lemma R_scanString en s t : R s t -> pair_R (scanString en s) (scanString en t).
Proof.
  intros H. destruct (R_string_fuel (S (length s) + length t) en [] _ _ H) as [X Y]. unfold scanString.
  rewrite (scan_string_fuel_enough (S (length s)) en [] s (S (length s) + length t)), (scan_string_fuel_enough (S (length t)) en [] t (S (length s) + length t)) by lia.
  destruct (scan_string_fuel _ en [] s) as [u1 v1], (scan_string_fuel _ en [] t) as [u2 v2]. cbn [fst snd] in *. subst. destruct u2; split; try reflexivity; exact Y.
Qed.

(** One call. *)
Theorem R_next pd s t : R s t -> exists r s' t' pd', next pd s = (r, s', pd') /\ next pd t = (r, t', pd') /\ R s' t'.
Proof.
  intros H0. unfold next. cbv zeta. assert (H : R (skipRegions (skipComment (skipSpace s))) (skipRegions (skipComment (skipSpace t)))) by auto.
  set (x := skipRegions (skipComment (skipSpace s))) in *. set (y := skipRegions (skipComment (skipSpace t))) in *. clearbody x y. clear H0.
  pose proof (R_adv _ _ H) as H1. pose proof (R_adv _ _ H1) as H2.
  rewrite <- (R_cur _ _ H), <- (R_nextLet _ _ H).
  pose proof (R_scanIdentifier _ _ H) as [I1 I2]. pose proof (R_scanIdentifier _ _ H1) as [J1 J2].
  pose proof (R_scanNumber _ _ H) as [N1 N2]. pose proof (R_scanString (cur x) _ _ H) as [S1 S2].
  destruct (scanIdentifier x) as [i1 i2], (scanIdentifier y) as [i3 i4], (scanIdentifier (adv x)) as [j1 j2], (scanIdentifier (adv y)) as [j3 j4],
    (scanNumber x) as [n1 n2], (scanNumber y) as [n3 n4], (scanString (cur x) x) as [s1 s2], (scanString (cur x) y) as [s3 s4]. cbn [fst snd] in *. subst i3 j3 n3 s3.
  repeat match goal with
  | |- exists r s' t' pd', (if ?b then _ else _) = _ /\ _ => destruct b
  | |- exists r s' t' pd', match (if ?b then _ else _) with _ => _ end = _ /\ _ => destruct b
  | |- exists r s' t' pd', match ?b with _ => _ end = _ /\ _ => destruct b
  end; do 4 eexists; (split; [reflexivity|split; [reflexivity|assumption]]).
Qed.
End R.

(** * Texts with the same characters *)
(** [steps c1 c2 s t]: the ends of [c1] and [c2] behind the same number of characters. *)
Definition steps (c1 c2 s t : bytes) : Prop := exists k, s = Nat.iter k adv c1 /\ t = Nat.iter k adv c2.
Lemma steps_start c1 c2 : steps c1 c2 c1 c2. Proof. exists 0%nat. auto. Qed.
Lemma steps_adv c1 c2 s t : steps c1 c2 s t -> steps c1 c2 (adv s) (adv t).
Proof. intros (k & -> & ->). exists (S k). auto. Qed.
Lemma runes_adv s : runes (adv s) = tl (runes s).
Proof. destruct s as [|b s]; [reflexivity|]. rewrite (runes_eq (b :: s)). reflexivity. Qed.
Lemma runes_iter k c : runes (Nat.iter k adv c) = Nat.iter k (@tl Z) (runes c).
Proof. induction k as [|k IH]; [reflexivity|]. cbn [Nat.iter]. change (Nat.iter (S k) adv c) with (adv (Nat.iter k adv c)). rewrite runes_adv, IH. reflexivity. Qed.
Lemma cur_runes s : cur s = hd EOF (runes s).
Proof. destruct s as [|b s]; [reflexivity|]. rewrite (runes_eq (b :: s)). reflexivity. Qed.
Lemma steps_runes c1 c2 s t : runes c1 = runes c2 -> steps c1 c2 s t -> runes s = runes t.
Proof. intros H (k & -> & ->). rewrite !runes_iter, H. reflexivity. Qed.
Lemma steps_cur c1 c2 s t : runes c1 = runes c2 -> steps c1 c2 s t -> cur s = cur t.
Proof. intros H Hs. rewrite !cur_runes, (steps_runes _ _ _ _ H Hs). reflexivity. Qed.
Lemma iter_suffix k c : suffix (Nat.iter k adv c) c.
Proof. induction k as [|k IH]; [apply suffix_refl|]. cbn [Nat.iter]. eapply suffix_trans; [apply suffix_adv|exact IH]. Qed.
(** What stands before has the same characters, too. *)
Lemma decode_cut p s : p <> [] -> decode (p ++ s) = (RuneError, 1%nat) -> decode p = (RuneError, 1%nat).
Proof.
  intros Hp H. destruct (decode_shape p Hp) as [E|[E1 E2]]; [exact E|]. pose proof (decode_size p Hp) as L.
  assert (X : decode (p ++ s) = (fst (decode p), length (encode (fst (decode p))))).
  { rewrite <- (firstn_skipn (snd (decode p)) p) at 1. rewrite <- E2, <- app_assoc. apply decode_encode, E1. }
  rewrite H in X. injection X as X1 X2. rewrite <- X1 in X2. vm_compute in X2. discriminate X2.
Qed.
Lemma prefix_runes k : forall p s, s = Nat.iter k adv (p ++ s) -> (k <= length (runes (p ++ s)))%nat -> runes p = firstn k (runes (p ++ s)).
Proof.
  induction k as [|k IH]; intros p s Hs Hk.
  - change (s = p ++ s) in Hs. destruct p as [|b p]; [reflexivity|]. apply (f_equal (@length byte)) in Hs. cbn [app length] in Hs. rewrite app_length in Hs. lia.
  - replace (Nat.iter (S k) adv (p ++ s)) with (Nat.iter k adv (adv (p ++ s))) in Hs.
    2:{ clear. induction k as [|k IH]; [reflexivity|]. change (Nat.iter (S k) adv (adv (p ++ s))) with (adv (Nat.iter k adv (adv (p ++ s)))). rewrite IH. reflexivity. }
    destruct (p ++ s) as [|b x] eqn:Ex; [cbn in Hk; lia|]. assert (Hx : p ++ s <> []) by (rewrite Ex; discriminate). rewrite <- Ex in *. clear Ex b x.
    assert (L : (length s <= length (adv (p ++ s)))%nat) by (pose proof (suffix_length _ _ (iter_suffix k (adv (p ++ s)))) as Y; rewrite <- Hs in Y; exact Y).
    pose proof (decode_size _ Hx) as Sz.
    assert (Lp : (snd (decode (p ++ s)) <= length p)%nat) by (unfold adv in L; rewrite skipn_length, app_length in L; rewrite app_length in Sz; lia).
    assert (Hp : p <> []) by (intros ->; cbn [length] in Lp; lia).
    assert (A : adv (p ++ s) = skipn (snd (decode (p ++ s))) p ++ s).
    { unfold adv. rewrite skipn_app. replace (snd (decode (p ++ s)) - length p)%nat with 0%nat by lia. reflexivity. }
    assert (D : decode p = decode (p ++ s)).
    { destruct (decode_shape _ Hx) as [E|[E1 E2]]; [rewrite E; apply (decode_cut _ s Hp E)|].
      rewrite firstn_app in E2. replace (snd (decode (p ++ s)) - length p)%nat with 0%nat in E2 by lia. cbn [firstn] in E2. rewrite app_nil_r in E2.
      transitivity (fst (decode (p ++ s)), length (encode (fst (decode (p ++ s))))).
      - rewrite <- (firstn_skipn (snd (decode (p ++ s))) p) at 1. rewrite <- E2. apply decode_encode, E1.
      - rewrite E2, firstn_length, Nat.min_l by exact Lp. destruct (decode (p ++ s)); reflexivity. }
    assert (Q : adv p ++ s = adv (p ++ s)) by (rewrite A; unfold adv; rewrite D; reflexivity).
    assert (C : cur p = cur (p ++ s)) by (unfold cur; destruct p; [congruence|]; cbn [app] in *; rewrite D; reflexivity).
    rewrite (runes_eq p), (runes_eq (p ++ s)). rewrite (runes_eq (p ++ s)) in Hk. destruct p as [|b p]; [congruence|]. cbn [app] in Hk |- *. cbn [app] in *. cbn [firstn length] in *.
    rewrite C. f_equal. change (b :: p ++ s) with ((b :: p) ++ s) in *. rewrite <- Q. apply IH; rewrite Q; [exact Hs|lia].
Qed.
Lemma iter_long k : forall c, (length (runes c) <= k)%nat -> Nat.iter k adv c = [].
Proof.
  intros c H. destruct (Nat.iter k adv c) as [|b s] eqn:E; [reflexivity|]. pose proof (runes_iter k c) as X. rewrite E, (runes_eq (b :: s)) in X.
  assert (Y : forall (l : list Z) k, (length l <= k)%nat -> Nat.iter k (@tl Z) l = []).
  { clear. intros l k; revert l. induction k as [|k IH]; intros l H; [destruct l; [reflexivity|cbn in H; lia]|].
    change (Nat.iter (S k) (@tl Z) l) with (tl (Nat.iter k (@tl Z) l)). destruct (Nat.eq_dec (length l) (S k)) as [L|L].
    - assert (Z1 : Nat.iter (S k) (@tl Z) l = Nat.iter k (@tl Z) (tl l)) by (clear; induction k as [|k IH]; [reflexivity|]; change (tl (Nat.iter (S k) (@tl Z) l) = tl (Nat.iter k (@tl Z) (tl l))); f_equal; exact IH).
      change (tl (Nat.iter k (@tl Z) l)) with (Nat.iter (S k) (@tl Z) l). rewrite Z1. apply IH. destruct l; cbn [length tl] in *; lia.
    - rewrite IH by lia. reflexivity. }
  rewrite Y in X by exact H. discriminate X.
Qed.
Lemma steps_before c1 c2 p1 p2 s1 s2 : runes c1 = runes c2 -> steps c1 c2 s1 s2 -> c1 = p1 ++ s1 -> c2 = p2 ++ s2 -> runes p1 = runes p2.
Proof.
  intros H (k & E1 & E2) D1 D2. destruct (le_lt_dec (length (runes c1)) k) as [L|L].
  - rewrite iter_long in E1 by exact L. rewrite H in L. rewrite iter_long in E2 by exact L. subst s1 s2. rewrite app_nil_r in D1, D2. congruence.
  - rewrite (prefix_runes k p1 s1), (prefix_runes k p2 s2); rewrite <- ?D1, <- ?D2; auto; try congruence; try lia. rewrite <- H. lia.
Qed.
