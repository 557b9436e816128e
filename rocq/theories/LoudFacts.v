(** The lines written while scanning are the U+FFFD passed, plus some for the letter the
    scanner stopped at. *)
From Verif Require Import Bytes Utf8 UnicodeTables Float64 GoTime Ast Lexer LexFacts LexSpec LexProofs LexTrivia LexTokens LexReject Utf8Facts Tables Parser Loud.
Open Scope nat_scope.

Inductive passes : bytes -> list Z -> bytes -> Prop :=
| ps_nil s : passes s [] s
| ps_cons s l s' : s <> [] -> passes (adv s) l s' -> passes s (cur s :: l) s'.
Lemma passes_app s l s1 : passes s l s1 -> forall l' s2, passes s1 l' s2 -> passes s (l ++ l') s2.
Proof. induction 1; intros; cbn [app]; [assumption|]. constructor; auto. Qed.
Lemma runes_adv s : s <> [] -> runes s = cur s :: runes (adv s).
Proof. intros H. rewrite runes_eq. destruct s as [|b s]; [congruence|]. unfold cur, adv. destruct (decode (b :: s)). reflexivity. Qed.
Lemma passes_runes s l s' : passes s l s' -> runes s = l ++ runes s'.
Proof. induction 1 as [|s l s' H _ IH]; [reflexivity|]. rewrite runes_adv, IH by exact H. reflexivity. Qed.
Lemma passes_suffix s l s' : passes s l s' -> suffix s' s.
Proof. induction 1; [apply suffix_refl|]. eapply suffix_trans; [eassumption|apply suffix_adv]. Qed.

(** How many U+FFFD there are. *)
Definition heard (l : list Z) : nat := length (filter (fun c => Z.eqb c 65533) l).
Lemma heard_app a b : heard (a ++ b) = heard a + heard b.
Proof. unfold heard. rewrite filter_app, app_length. reflexivity. Qed.
Lemma heard_cur s l : heard (cur s :: l) = say s + heard l.
Proof. unfold heard, say. cbn [filter]. destruct (_ =? _)%Z; reflexivity. Qed.
Lemma heard_none l : ~ In 65533%Z l -> heard l = 0.
Proof.
  unfold heard. induction l as [|c l IH]; intros H; [reflexivity|]. cbn [filter]. destruct (Z.eqb_spec c 65533) as [->|]; [destruct H; left; reflexivity|].
  apply IH. intros X. apply H. right. exact X.
Qed.

Definition slash (s : bytes) : nat := if (cur s =? 47)%Z then say (adv s) else 0.
Definition tally (s s' : bytes) (n : nat) : Prop := exists l m k, passes s l s' /\ n = heard l + m * say s' + k * slash s'.
(** The same, without looking beyond the letter. *)
Definition tally0 (s s' : bytes) (n : nat) : Prop := exists l m, passes s l s' /\ n = heard l + m * say s'.
Definition stop (s : bytes) : Prop := say s = 0 /\ slash s = 0.
Definition stuck (s : bytes) : Prop := cur s = 65533%Z \/ cur s = 47%Z /\ cur (adv s) = 65533%Z.
Lemma stop_dec s : stop s \/ stuck s.
Proof.
  unfold stop, stuck, slash, say. destruct (Z.eqb_spec (cur s) 65533); [auto|]. destruct (Z.eqb_spec (cur s) 47); [|auto].
  destruct (Z.eqb_spec (cur (adv s)) 65533); auto.
Qed.
Lemma stop_cur s : cur s <> 65533%Z -> cur s <> 47%Z -> stop s.
Proof. intros H1 H2. destruct (stop_dec s) as [H|[H|[H _]]]; [exact H|contradiction|contradiction]. Qed.
Lemma say_cur s : cur s <> 65533%Z -> say s = 0.
Proof. unfold say. destruct (Z.eqb_spec (cur s) 65533); [contradiction|reflexivity]. Qed.
Lemma tally0_tally s s' n : tally0 s s' n -> tally s s' n.
Proof. intros (l & m & H1 & H2). exists l, m, 0. split; [exact H1|lia]. Qed.
Lemma tally0_refl s m : tally0 s s (m * say s).
Proof. exists [], m. split; [constructor|reflexivity]. Qed.
Lemma tally_trans s s1 s2 n1 n2 : tally s s1 n1 -> tally s1 s2 n2 -> stop s1 \/ s2 = s1 -> tally s s2 (n1 + n2).
Proof.
  intros (l1 & m1 & k1 & A1 & A2) (l2 & m2 & k2 & B1 & B2) [[H1 H2]| ->].
  - exists (l1 ++ l2), m2, k2. split; [eapply passes_app; eassumption|]. rewrite heard_app. rewrite H1, H2 in A2. lia.
  - assert (l2 = []) as -> .
    { pose proof (passes_runes _ _ _ B1) as X. apply (f_equal (@length Z)) in X. rewrite app_length in X. destruct l2; [reflexivity|cbn in X; lia]. }
    exists l1, (m1 + m2), (k1 + k2). split; [exact A1|]. cbn in B2. nia.
Qed.
Lemma tally0_trans s s1 s2 n1 n2 : tally0 s s1 n1 -> tally0 s1 s2 n2 -> say s1 = 0 \/ s2 = s1 -> tally0 s s2 (n1 + n2).
Proof.
  intros (l1 & m1 & A1 & A2) (l2 & m2 & B1 & B2) [H1| ->].
  - exists (l1 ++ l2), m2. split; [eapply passes_app; eassumption|]. rewrite heard_app. rewrite H1 in A2. lia.
  - assert (l2 = []) as -> .
    { pose proof (passes_runes _ _ _ B1) as X. apply (f_equal (@length Z)) in X. rewrite app_length in X. destruct l2; [reflexivity|cbn in X; lia]. }
    exists l1, (m1 + m2). split; [exact A1|]. cbn in B2. nia.
Qed.
(** The letter under the cursor, looked at and passed. *)
Lemma tally_step s s' n : s <> [] -> tally (adv s) s' n -> tally s s' (say s + n).
Proof. intros H (l & m & k & A & ->). exists (cur s :: l), m, k. split; [constructor; assumption|]. rewrite heard_cur. lia. Qed.
Lemma tally0_step s s' n : s <> [] -> tally0 (adv s) s' n -> tally0 s s' (say s + n).
Proof. intros H (l & m & A & ->). exists (cur s :: l), m. split; [constructor; assumption|]. rewrite heard_cur. lia. Qed.
Lemma tally_more s s' n m k : tally s s' n -> tally s s' (n + m * say s' + k * slash s').
Proof. intros (l & m' & k' & A & ->). exists l, (m' + m), (k' + k). split; [exact A|]. nia. Qed.
Lemma tally0_more s s' n m : tally0 s s' n -> tally0 s s' (n + m * say s').
Proof. intros (l & m' & A & ->). exists l, (m' + m). split; [exact A|]. nia. Qed.
(** Nothing is heard where there is nothing. *)
Lemma tally_silent s s' n : tally s s' n -> ~ In 65533%Z (runes s) -> n = 0.
Proof.
  intros (l & m & k & A & ->) H. apply passes_runes in A. rewrite A in H.
  assert (say s' = 0 /\ slash s' = 0) as [-> ->].
  { assert (X : forall x, ~ In 65533%Z (runes x) -> say x = 0 /\ ~ In 65533%Z (runes (adv x))).
    { intros x Hx. destruct x as [|b x]; [split; [reflexivity|exact Hx]|]. rewrite runes_adv in Hx by discriminate. split; [|intros Y; apply Hx; right; exact Y].
      apply say_cur. intros E. apply Hx. left. exact E. }
    assert (Hs : ~ In 65533%Z (runes s')) by (intros Y; apply H, in_app_iff; auto). destruct (X _ Hs) as [E1 E2]. split; [exact E1|].
    unfold slash. destruct (_ =? _)%Z; [apply X, E2|reflexivity]. }
  rewrite heard_none by (intros Y; apply H, in_app_iff; auto). lia.
Qed.

Lemma nonempty s c : (0 <= c)%Z -> cur s = c -> s <> []. Proof. apply cur_neq. Qed.
Lemma space_facts s : isSpace (cur s) = true -> s <> [] /\ say s = 0 /\ stop s.
Proof.
  intros H. assert (X : cur s <> 65533%Z /\ cur s <> 47%Z /\ s <> []).
  { split; [|split]; [intros E; rewrite E in H; discriminate H|intros E; rewrite E in H; discriminate H|intros ->; discriminate H]. }
  destruct X as (X1 & X2 & X3). split; [exact X3|]. split; [apply say_cur, X1|apply stop_cur; assumption].
Qed.
Lemma space_stuck s : stuck s -> skipSpace s = s.
Proof. intros H. rewrite skipSpace_eq. destruct H as [E|[E _]]; rewrite E; reflexivity. Qed.
Lemma space_tally s : tally0 s (skipSpace s) (n_space s).
Proof.
  unfold skipSpace, n_space. generalize (length s) as n. intros n. revert s. induction n as [|n IH]; intros s; [apply (tally0_refl s 0)|].
  cbn [skip_space_fuel n_space_fuel]. destruct (isSpace (cur s)) eqn:E.
  - destruct (space_facts s E) as (H1 & H2 & _). apply tally0_step; [exact H1|apply IH].
  - pose proof (tally0_refl s 1) as H. rewrite Nat.mul_1_l in H. rewrite Nat.add_0_r. exact H.
Qed.
Lemma line_tally s : tally0 s (skipLine s) (n_line s) /\ stop (skipLine s).
Proof.
  split.
  - unfold skipLine, n_line. generalize (length s) as n. intros n. revert s. induction n as [|n IH]; intros s; [apply (tally0_refl s 0)|].
    cbn [skip_line_fuel n_line_fuel]. destruct (_ || _) eqn:E.
    + pose proof (tally0_refl s 1) as H. rewrite Nat.mul_1_l in H. rewrite Nat.add_0_r. exact H.
    + apply tally0_step; [|apply IH]. intros ->. discriminate E.
  - apply stop_cur; destruct (skipLine_end s) as [H|H]; rewrite H; discriminate.
Qed.
(** To the end of the line and on. *)
Lemma rest_tally s : tally0 s (skipSpace (skipLine s)) (n_line s + n_space (skipLine s)).
Proof. destruct (line_tally s) as [A [B _]]. eapply tally0_trans; [exact A|apply space_tally|left; exact B]. Qed.

Lemma skip_stuck n : (forall s, stuck s -> skip_comment_fuel n s = s) /\ (forall s, stuck s -> skip_regions_fuel n s = s).
Proof.
  induction n as [|n [IH1 IH2]]; [split; reflexivity|]. split; intros s [E|[E1 E2]]; cbn [skip_comment_fuel skip_regions_fuel]; cbv zeta.
  - rewrite E. reflexivity.
  - unfold nextLet. rewrite E1, E2. reflexivity.
  - rewrite E. change (65533 =? cHash)%Z with false. cbv iota. rewrite E. reflexivity.
  - rewrite E1. change (47 =? cHash)%Z with false. cbv iota. rewrite E1. change (47 =? cSlash)%Z with true. cbv iota. apply IH1. right. auto.
Qed.
Lemma stop_stuck f s : (forall s, stuck s -> f s = s) -> stop s \/ f s = s.
Proof. intros H. destruct (stop_dec s); auto. Qed.
Lemma skip_tally n : (forall s, tally s (skip_comment_fuel n s) (n_comment_fuel n s)) /\ (forall s, tally s (skip_regions_fuel n s) (n_regions_fuel n s)).
Proof.
  induction n as [|n [IH1 IH2]]; [split; intros s; apply tally0_tally, (tally0_refl s 0)|].
  assert (T : forall s s1 k, tally0 s s1 k -> tally s (if (cur s1 =? cSlash)%Z then skip_comment_fuel n s1 else if (cur s1 =? cHash)%Z then skip_regions_fuel n s1 else s1)
     (k + say s1 + (if (cur s1 =? cSlash)%Z then n_comment_fuel n s1 else say s1 + (if (cur s1 =? cHash)%Z then n_regions_fuel n s1 else 0)))).
  { intros s s1 k H. destruct (cur s1 =? cSlash)%Z.
    - apply (tally_trans s s1); [rewrite <- (Nat.mul_1_l (say s1)); apply tally0_tally, tally0_more, H|apply IH1|apply stop_stuck, skip_stuck].
    - destruct (cur s1 =? cHash)%Z.
      + rewrite Nat.add_assoc. apply (tally_trans s s1); [|apply IH2|apply stop_stuck, skip_stuck].
        replace (k + say s1 + say s1) with (k + 2 * say s1) by lia. apply tally0_tally, tally0_more, H.
      + replace (k + say s1 + (say s1 + 0)) with (k + 2 * say s1) by lia. apply tally0_tally, tally0_more, H. }
  split; intros s; cbn [skip_comment_fuel skip_regions_fuel n_comment_fuel n_regions_fuel]; cbv zeta.
  - destruct (cur s =? cSlash)%Z eqn:E1; cbn [andb].
    + destruct (nextLet s =? cSlash)%Z eqn:E2.
      * assert (S1 : say s = 0) by (apply say_cur; apply Z.eqb_eq in E1; rewrite E1; discriminate).
        assert (S2 : say (adv s) = 0) by (apply say_cur; apply Z.eqb_eq in E2; unfold nextLet in E2; rewrite E2; discriminate).
        rewrite S1, S2. apply T. apply rest_tally.
      * pose proof (tally_more s s _ 1 1 (tally0_tally _ _ _ (tally0_refl s 0))) as H. unfold slash in H. change 47%Z with cSlash in H. rewrite E1 in H.
        replace (say s + (say (adv s) + 0)) with (0 * say s + 1 * say s + 1 * say (adv s)) by lia. exact H.
    + replace (say s + 0) with (1 * say s) by lia. apply tally0_tally, tally0_refl.
  - destruct (cur s =? cHash)%Z eqn:E.
    + assert (S1 : say s = 0) by (apply say_cur; apply Z.eqb_eq in E; rewrite E; discriminate). rewrite S1. apply T. apply rest_tally.
    + rewrite E. specialize (T s s (say s + 0)). rewrite E in T. apply T. replace (say s + 0) with (1 * say s) by lia. apply tally0_refl.
Qed.
Lemma comment_stuck s : stuck s -> skipComment s = s. Proof. apply skip_stuck. Qed.
Lemma regions_stuck s : stuck s -> skipRegions s = s. Proof. apply skip_stuck. Qed.
Lemma comment_tally s : tally s (skipComment s) (n_comment s). Proof. apply skip_tally. Qed.
Lemma regions_tally s : tally s (skipRegions s) (n_regions s). Proof. apply skip_tally. Qed.
(** Space, then comments. *)
Lemma gap_tally s : tally s (skipComment (skipSpace s)) (n_space s + n_comment (skipSpace s)).
Proof. eapply tally_trans; [apply tally0_tally, space_tally|apply comment_tally|apply (stop_stuck skipComment), comment_stuck]. Qed.
Lemma trivia_tally s : tally s (skipRegions (skipComment (skipSpace s))) (n_space s + n_comment (skipSpace s) + n_regions (skipComment (skipSpace s))).
Proof. eapply tally_trans; [apply gap_tally|apply regions_tally|apply (stop_stuck skipRegions), regions_stuck]. Qed.

Lemma letter_not s : isLetter (cur s) = true \/ isDigit (cur s) = true -> s <> [].
Proof. intros H ->. rewrite cur_nil in H. rewrite isLetter_EOF in H. destruct H; discriminate. Qed.
Lemma ident_tally s : tally0 s (snd (scanIdentifier s)) (n_ident s).
Proof.
  unfold scanIdentifier, n_ident. generalize (length s) as n. intros n.
  assert (X : tally0 s (snd (scan_ident_fuel n s)) (n_ident_fuel n s)).
  { revert s. induction n as [|n IH]; intros s; [apply (tally0_refl s 0)|]. cbn [scan_ident_fuel n_ident_fuel]. destruct (_ || _) eqn:E.
    - specialize (IH (adv s)). destruct (scan_ident_fuel n (adv s)) as [r s']. apply tally0_step; [|exact IH].
      apply letter_not. apply orb_true_iff, E.
    - replace (say s + 0) with (1 * say s) by lia. apply tally0_refl. }
  destruct (scan_ident_fuel n s). exact X.
Qed.
Lemma number_tally s : tally0 s (snd (scanNumber s)) (n_number s).
Proof.
  rewrite scanNumber_snd. unfold number_runes, n_number. generalize (length s) as n. intros n.
  revert s. induction n as [|n IH]; intros s; [apply (tally0_refl s 0)|]. cbn [scan_number_fuel n_number_fuel]. destruct (_ || _) eqn:E.
  - specialize (IH (adv s)). destruct (scan_number_fuel n (adv s)) as [r s']. apply tally0_step; [|exact IH]. intros ->. discriminate E.
  - replace (say s + 0) with (1 * say s) by lia. apply tally0_refl.
Qed.

(** A string: what is looked at after its opening quote. *)
Lemma string_tally n : forall en acc s, en = cApos \/ en = cQuote ->
  (forall r s', scan_string_fuel n en acc s = (inl r, s') -> tally0 (adv s) s' (n_string_fuel n en s)) /\
  exists s', tally (adv s) s' (n_string_fuel n en s).
Proof.
  assert (Y : forall s s2 k, stop s2 -> tally s s2 k -> tally0 s s2 k).
  { intros s s2 k [S1 S2] (l & m & j & A & ->). exists l, m. split; [exact A|]. rewrite S2. lia. }
  induction n as [|n IH]; intros en acc s Hen.
  { split; [discriminate|]. exists (adv s). apply tally0_tally, (tally0_refl _ 0). }
  assert (Z : forall s2 k acc', tally (adv s) s2 k -> stop s2 -> s2 <> [] ->
    (forall r s', scan_string_fuel n en acc' s2 = (inl r, s') -> tally0 (adv s) s' (k + n_string_fuel n en s2)) /\
    exists s', tally (adv s) s' (k + n_string_fuel n en s2)).
  { intros s2 k acc' T [S1 S2] H0. destruct (IH en acc' s2 Hen) as [I1 (s'' & I2)]. split.
    - intros r s' E. apply (tally0_trans (adv s) s2); [apply Y; [split; assumption|exact T]| |left; exact S1].
      apply I1 in E. pose proof (tally0_step _ _ _ H0 E) as X. rewrite S1 in X. exact X.
    - exists s''. apply (tally_trans (adv s) s2); [exact T| |left; split; assumption].
      pose proof (tally_step _ _ _ H0 I2) as X. rewrite S1 in X. exact X. }
  cbn [scan_string_fuel n_string_fuel]. cbv zeta. set (s1 := adv s) in *. destruct (cur s1 =? EOL)%Z eqn:E1.
  { apply Z.eqb_eq in E1. assert (N1 : s1 <> []) by (apply (cur_neq s1 EOL); [unfold EOL; lia|exact E1]).
    set (s3 := skipComment (skipSpace (adv s1))).
    assert (T : tally s1 s3 (say s1 + (n_space (adv s1) + n_comment (skipSpace (adv s1))))) by (apply tally_step; [exact N1|apply gap_tally]).
    set (k := n_space (adv s1) + n_comment (skipSpace (adv s1))) in *. fold s3.
    destruct (negb (cur s3 =? cBar)%Z && negb (isSpace (cur s3))) eqn:E2.
    - split; [discriminate|]. exists s3. replace (say s1 + (k + say s3 + 0)) with (say s1 + k + 1 * say s3 + 0 * slash s3) by lia. apply tally_more, T.
    - assert (C : cur s3 = cBar \/ isSpace (cur s3) = true).
      { destruct (cur s3 =? cBar)%Z eqn:E3; [left; apply Z.eqb_eq, E3|]. destruct (isSpace (cur s3)); [auto|discriminate E2]. }
      assert (P : stop s3 /\ s3 <> []).
      { destruct C as [C|C]; [split; [apply stop_cur; rewrite C; discriminate|apply (cur_neq s3 cBar); [unfold cBar; lia|exact C]]|]. destruct (space_facts _ C); tauto. }
      destruct P as [P1 P2]. assert (S3 : say s3 = 0) by apply P1. replace (say s1 + (k + say s3 + n_string_fuel n en s3)) with (say s1 + k + n_string_fuel n en s3) by lia.
      apply Z; assumption. }
  destruct (cur s1 =? EOF)%Z eqn:E2.
  { split; [discriminate|]. exists s1. replace (say s1 + 0) with (1 * say s1) by lia. apply tally0_tally, tally0_refl. }
  assert (N1 : s1 <> []) by (intros X; rewrite X in E2; discriminate E2).
  destruct (cur s1 =? en)%Z eqn:E3.
  - assert (P1 : stop s1) by (apply Z.eqb_eq in E3; apply stop_cur; rewrite E3; destruct Hen as [-> | ->]; discriminate).
    assert (S1 : say s1 = 0) by apply P1. rewrite S1.
    assert (T1 : tally s1 (adv s1) 0). { pose proof (tally_step s1 (adv s1) 0 N1 (tally0_tally _ _ _ (tally0_refl _ 0))) as X. rewrite S1 in X. exact X. }
    destruct (nextLet s1 =? cQuote)%Z eqn:E4.
    + apply Z.eqb_eq in E4. unfold nextLet in E4. assert (P : stop (adv s1)) by (apply stop_cur; rewrite E4; discriminate).
      assert (S2 : say (adv s1) = 0) by apply P. rewrite S2. apply (Z (adv s1) 0); [exact T1|exact P|]. apply (cur_neq _ cQuote); [unfold cQuote; lia|exact E4].
    + set (s2 := skipSpace (adv s1)).
      assert (T : tally0 s1 s2 (say (adv s1) + n_space (adv s1))).
      { pose proof (tally0_step s1 s2 (say (adv s1) + n_space (adv s1)) N1) as X. rewrite S1 in X. apply X.
        apply (tally0_trans (adv s1) (adv s1)); [rewrite <- (Nat.mul_1_l (say (adv s1))); apply tally0_refl|apply space_tally|].
        destruct (stop_dec (adv s1)) as [[H _]|H]; [left; exact H|right; apply space_stuck, H]. }
      destruct (cur s2 =? cQuote)%Z eqn:E5.
      * apply Z.eqb_eq in E5. assert (P : stop s2) by (apply stop_cur; rewrite E5; discriminate). assert (S2 : say s2 = 0) by apply P.
        replace (0 + (say (adv s1) + (n_space (adv s1) + say s2 + n_string_fuel n en s2))) with (say (adv s1) + n_space (adv s1) + n_string_fuel n en s2) by lia.
        apply Z; [apply tally0_tally, T|exact P|]. apply (cur_neq _ cQuote); [unfold cQuote; lia|exact E5].
      * replace (0 + (say (adv s1) + (n_space (adv s1) + say s2 + 0))) with (say (adv s1) + n_space (adv s1) + 1 * say s2) by lia.
        split; [intros r s' E; injection E as _ <-; apply tally0_more, T|]. exists s2. apply tally0_tally, tally0_more, T.
  - destruct (IH en (acc ++ [cur s1]) s1 Hen) as [I1 (s'' & I2)]. split.
    + intros r s' E. apply tally0_step; [exact N1|]. eapply I1, E.
    + exists s''. apply tally_step; assumption.
Qed.

(** * One token *)
Lemma fold_passes s0 s l : passes s0 l s -> s <> [] -> passes s0 (l ++ [cur s]) (adv s).
Proof. intros H N. eapply passes_app; [exact H|]. constructor; [exact N|constructor]. Qed.
Lemma passes_string n : forall en acc s r s', scan_string_fuel n en acc s = (r, s') -> exists l, passes s l s'.
Proof.
  assert (A : forall s, exists l, passes s l (adv s)).
  { intros [|b s]; [exists []; constructor|]. exists [cur (b :: s)]. constructor; [discriminate|constructor]. }
  assert (T : forall a b c, (exists l, passes a l b) -> (exists l, passes b l c) -> exists l, passes a l c) by (intros a b c [x X] [y Y]; eexists; eapply passes_app; eassumption).
  assert (S : forall s, exists l, passes s l (skipSpace s)) by (intros s; destruct (space_tally s) as (l & m & H & _); eauto).
  assert (G : forall s, exists l, passes s l (skipComment s)) by (intros s; destruct (comment_tally s) as (l & m & k & H & _); eauto).
  induction n as [|n IH]; intros en acc s r s' E; [injection E as _ <-; exists []; constructor|]. cbn [scan_string_fuel] in E. cbv zeta in E.
  repeat match type of E with (if ?b then _ else _) = _ => destruct b end;
  try (apply IH in E); try (injection E as _ <-); eauto 8.
Qed.
Lemma next_passes pd s0 r s' pd' : next pd s0 = (r, s', pd') -> exists l, passes s0 l s'.
Proof.
  assert (A : forall s, exists l, passes s l (adv s)).
  { intros [|b s]; [exists []; constructor|]. exists [cur (b :: s)]. constructor; [discriminate|constructor]. }
  assert (T : forall a b c, (exists l, passes a l b) -> (exists l, passes b l c) -> exists l, passes a l c) by (intros a b c [x X] [y Y]; eexists; eapply passes_app; eassumption).
  assert (I : forall s, exists l, passes s l (snd (scanIdentifier s))) by (intros s; destruct (ident_tally s) as (l & m & H & _); eauto).
  assert (N : forall s, exists l, passes s l (snd (scanNumber s))) by (intros s; destruct (number_tally s) as (l & m & H & _); eauto).
  assert (S : forall c s, exists l, passes s l (snd (scanString c s))).
  { intros c s. unfold scanString. destruct (scan_string_fuel _ c [] s) as [[x|x] y] eqn:E; apply passes_string in E; exact E. }
  unfold next. set (s := skipRegions _). assert (H0 : exists l, passes s0 l s) by (destruct (trivia_tally s0) as (l & m & k & H & _); eauto). clearbody s.
  intros E. apply (T s0 s); [exact H0|]. clear H0 s0.
  repeat match type of E with
  | (if ?b then _ else _) = _ => destruct b
  | (match (if ?b then _ else _) with _ => _ end) = _ => destruct b
  | (let '(_, _) := scanIdentifier ?x in _) = _ => pose proof (I x); destruct (scanIdentifier x); cbn [snd] in *
  | match scanNumber ?x with _ => _ end = _ => pose proof (N x); destruct (scanNumber x) as [[?|?] ?]; cbn [snd] in *
  | match scanString ?c ?x with _ => _ end = _ => pose proof (S c x); destruct (scanString c x) as [[?|?] ?]; cbn [snd] in *
  | match ?x with _ => _ end = _ => destruct x
  end; injection E as _ <- _; eauto.
Qed.
(** Error-free tokens: what is written is what was passed, and some for the letter after it. *)
Lemma next_tally pd s0 r s' pd' : next pd s0 = (r, s', pd') -> lr_err r = None -> tally0 s0 s' (n_next s0) /\ (say s0 = 0 \/ s' = s0).
Proof.
  intros E He. split.
  2: { destruct (stop_dec s0) as [[X _]|[X|[X1 _]]]; [left; exact X| |left; apply say_cur; rewrite X1; discriminate]. exfalso. revert E. unfold next.
       assert (Hs : stuck s0) by (left; exact X). assert (F : skipRegions (skipComment (skipSpace s0)) = s0).
       { rewrite (space_stuck s0 Hs). unfold skipComment. rewrite (proj1 (skip_stuck _) s0 Hs). unfold skipRegions. apply (skip_stuck _), Hs. }
       rewrite F, X. change (isLetter 65533) with (unicode_is_letter 65533 || false). vm_compute (unicode_is_letter 65533). cbv beta iota.
       intros E. injection E as <- _ _. discriminate He. }
  unfold next in E. unfold n_next. pose proof (trivia_tally s0) as T. set (s := skipRegions (skipComment (skipSpace s0))) in *.
  set (k := n_space s0 + _ + _) in *. clearbody k. clearbody s.
  assert (Z : forall n, cur s <> 65533%Z -> cur s <> 47%Z -> tally0 s s' n -> tally0 s0 s' (k + say s + n)).
  { intros n C1 C2 H. destruct (stop_cur s C1 C2) as [P1 P2]. rewrite P1, Nat.add_0_r. apply (tally0_trans s0 s); [|exact H|left; exact P1].
    destruct T as (l & m & j & B & ->). exists l, m. split; [exact B|]. rewrite P2. lia. }
  assert (A : cur s <> EOF -> s' = adv s -> cur s <> 65533%Z -> tally0 s0 s' (k + say s + 0)).
  { intros C0 -> C1. assert (N : s <> []) by (intros ->; apply C0; reflexivity). destruct T as (l & m & j & B & ->). rewrite (say_cur s C1).
    exists (l ++ [cur s]), (if (cur s =? 47)%Z then j else 0). split; [apply fold_passes; assumption|]. rewrite heard_app, heard_cur, (say_cur s C1). unfold slash.
    change (heard []) with 0. destruct (cur s =? 47)%Z; nia. }
  assert (A2 : forall n, cur s <> 65533%Z -> cur s <> 47%Z -> s <> [] -> tally0 (adv s) s' n -> tally0 s0 s' (k + say s + n)).
  { intros n C1 C2 N H. apply Z; [exact C1|exact C2|]. pose proof (tally0_step s s' n N H) as X. rewrite (say_cur s C1) in X. exact X. }
  assert (L0 : isLetter 65533 = false) by (vm_compute; reflexivity). assert (L1 : isLetter 47 = false) by (vm_compute; reflexivity).
  destruct (isLetter (cur s)) eqn:EL.
  { pose proof (ident_tally s) as X. destruct (scanIdentifier s) as [lit s2]. cbn [snd] in X.
    assert (s' = s2) as -> by (destruct (if pd then None else _) as [t|]; injection E as _ <- _; reflexivity).
    apply Z; [intros C; rewrite C, L0 in EL; discriminate EL|intros C; rewrite C, L1 in EL; discriminate EL|exact X]. }
  destruct (cur s =? cDot)%Z eqn:ED. { apply Z.eqb_eq in ED. injection E as _ <- _. apply A; [rewrite ED; discriminate|reflexivity|rewrite ED; discriminate]. }
  destruct (isDigit (cur s)) eqn:EG.
  { pose proof (number_tally s) as X. destruct (scanNumber s) as [[lit|e] s2]; injection E as <- <- _; [|discriminate He]. cbn [snd] in X.
    apply Z; [intros C; rewrite C in EG; discriminate EG|intros C; rewrite C in EG; discriminate EG|exact X]. }
  assert (STR : forall r0, cur s = cApos \/ cur s = cQuote -> scanString (cur s) s = (inl r0, s') -> tally0 s0 s' (k + say s + n_string (cur s) s)).
  { intros r0 HC H. unfold scanString in H. destruct (scan_string_fuel _ (cur s) [] s) as [[x|x] y] eqn:EF; [|discriminate H]. injection H as _ <-.
    apply (string_tally _ _ _ _ HC) in EF. apply A2; [destruct HC as [-> | ->]; discriminate|destruct HC as [-> | ->]; discriminate| |exact EF].
    intros N. rewrite N in HC. destruct HC; discriminate. }
  destruct (cur s =? cApos)%Z eqn:EA.
  { apply Z.eqb_eq in EA. destruct (scanString (cur s) s) as [[lit|e] s2] eqn:ES; [|injection E as <- _ _; discriminate He].
    assert (s2 = s') as -> by (destruct (extractDigits lit); injection E as _ <- _; reflexivity). eapply STR; [left; exact EA|reflexivity]. }
  destruct (punct (cur s)) eqn:EP.
  { injection E as _ <- _. apply A; [intros C; rewrite C in EP; discriminate EP|reflexivity|intros C; rewrite C in EP; discriminate EP]. }
  assert (E47 : cur s <> 47%Z) by (intros C; rewrite C in EP; discriminate EP).
  destruct (cur s =? 61)%Z eqn:EQ. { apply Z.eqb_eq in EQ. injection E as _ <- _. apply A; [rewrite EQ; discriminate|reflexivity|rewrite EQ; discriminate]. }
  destruct (cur s =? cQuote)%Z eqn:EU.
  { apply Z.eqb_eq in EU. destruct (scanString (cur s) s) as [[lit|e] s2] eqn:ES; [|injection E as <- _ _; discriminate He]. injection E as _ -> _. eapply STR; [right; exact EU|reflexivity]. }
  assert (NX : forall c, (0 <= c)%Z -> nextLet s = c -> c <> 65533%Z -> tally0 (adv s) (adv (adv s)) 0).
  { intros c C0 C1 C2. unfold nextLet in C1. pose proof (tally0_step (adv s) (adv (adv s)) 0 (cur_neq _ c C0 C1) (tally0_refl _ 0)) as X. rewrite (say_cur (adv s)) in X by congruence. exact X. }
  assert (S0 : forall c, nextLet s = c -> c <> 65533%Z -> say (adv s) = 0) by (intros c C1 C2; apply say_cur; unfold nextLet in C1; congruence).
  destruct (cur s =? 60)%Z eqn:EK.
  { apply Z.eqb_eq in EK. assert (N : s <> []) by (apply (cur_neq s 60); [lia|exact EK]). apply A2; [rewrite EK; discriminate|exact E47|exact N|].
    destruct (nextLet s =? 62)%Z eqn:E1; [apply Z.eqb_eq in E1; injection E as _ <- _; rewrite (S0 _ E1) by discriminate; eapply NX; [|exact E1|discriminate]; lia|].
    destruct (nextLet s =? 61)%Z eqn:E2; [apply Z.eqb_eq in E2; injection E as _ <- _; rewrite (S0 _ E2) by discriminate; eapply NX; [|exact E2|discriminate]; lia|].
    injection E as _ <- _. replace (say (adv s) + say (adv s)) with (2 * say (adv s)) by lia. apply tally0_refl. }
  destruct (cur s =? 62)%Z eqn:EK2.
  { apply Z.eqb_eq in EK2. assert (N : s <> []) by (apply (cur_neq s 62); [lia|exact EK2]). apply A2; [rewrite EK2; discriminate|exact E47|exact N|].
    destruct (nextLet s =? 61)%Z eqn:E2; [apply Z.eqb_eq in E2; injection E as _ <- _; rewrite (S0 _ E2) by discriminate; eapply NX; [|exact E2|discriminate]; lia|].
    injection E as _ <- _. rewrite <- (Nat.mul_1_l (say (adv s))). apply tally0_refl. }
  destruct (cur s =? 38)%Z eqn:EM.
  { apply Z.eqb_eq in EM. assert (N : s <> []) by (apply (cur_neq s 38); [lia|exact EM]). apply A2; [rewrite EM; discriminate|exact E47|exact N|].
    pose proof (ident_tally (adv s)) as X. destruct (scanIdentifier (adv s)) as [lit s2]. destruct (assoc _ directives); injection E as <- <- _; [exact X|discriminate He]. }
  destruct (cur s =? 126)%Z eqn:EW.
  { apply Z.eqb_eq in EW. assert (N : s <> []) by (apply (cur_neq s 126); [lia|exact EW]). apply A2; [rewrite EW; discriminate|exact E47|exact N|].
    pose proof (ident_tally (adv s)) as X. destruct (scanIdentifier (adv s)) as [lit s2]. injection E as <- <- _. exact X. }
  destruct (cur s =? EOF)%Z eqn:EE; [|injection E as <- _ _; discriminate He].
  apply Z.eqb_eq, cur_EOF in EE. injection E as _ <- _. rewrite EE. change (adv []) with (@nil byte). rewrite EE in T. change (say []) with 0.
  destruct T as (l & m & j & B & ->). exists l, m. split; [exact B|]. change (slash []) with 0. change (say []) with 0. lia.
Qed.
(** And never anything where there is nothing. *)
Lemma next_silent s0 : ~ In 65533%Z (runes s0) -> n_next s0 = 0.
Proof.
  intros H. unfold n_next. pose proof (trivia_tally s0) as T. pose proof (tally_silent _ _ _ T H) as K. destruct T as (l & _ & _ & Hl & _). apply passes_runes in Hl.
  set (s := skipRegions (skipComment (skipSpace s0))) in *. set (k := n_space s0 + _ + _) in *. clearbody k s. subst k. cbn [Nat.add].
  assert (Hs : ~ In 65533%Z (runes s)) by (intros X; apply H; rewrite Hl; apply in_app_iff; auto). clear Hl H l s0.
  assert (Ha : ~ In 65533%Z (runes (adv s))).
  { destruct s as [|b s]; [exact Hs|]. intros X. apply Hs. rewrite runes_adv by discriminate. right. exact X. }
  assert (Sy : forall x, ~ In 65533%Z (runes x) -> say x = 0).
  { intros [|b x] Hx; [reflexivity|]. apply say_cur. intros E. apply Hx. rewrite runes_adv by discriminate. left. exact E. }
  assert (I : forall x, ~ In 65533%Z (runes x) -> n_ident x = 0) by (intros x Hx; eapply tally_silent; [apply tally0_tally, ident_tally|exact Hx]).
  assert (N : forall x, ~ In 65533%Z (runes x) -> n_number x = 0) by (intros x Hx; eapply tally_silent; [apply tally0_tally, number_tally|exact Hx]).
  assert (Q : forall c, (c =? cApos)%Z = true \/ (c =? cQuote)%Z = true -> n_string c s = 0).
  { intros c Hc. unfold n_string. rewrite !Z.eqb_eq in Hc. destruct (string_tally (S (length s)) c [] s Hc) as [_ (s'' & X)]. eapply tally_silent; eassumption. }
  rewrite (Sy s Hs), (Sy (adv s) Ha), (I s Hs), (I (adv s) Ha), (N s Hs).
  repeat match goal with |- context [if ?b then _ else _] => destruct b eqn:?; cbn [Nat.add]; auto end.
Qed.
