(** Basic facts about the scanner: progress, suffixes, loop equations. *)
From Verif Require Import Bytes Utf8 UnicodeTables Float64 GoTime Ast Lexer.

(** * Bytes *)
Lemma b2z_range b : 0 <= b2z b < 256.
Proof. unfold b2z. pose proof (Byte.to_N_bounded b). lia. Qed.

Lemma b2z_z2b z : 0 <= z < 256 -> b2z (z2b z) = z.
Proof.
  intros H. unfold z2b. rewrite Z.mod_small by lia.
  destruct (Byte.of_N (Z.to_N z)) as [b|] eqn:E.
  - apply Byte.to_of_N in E. unfold b2z. rewrite E. lia.
  - apply Byte.of_N_None_iff in E. lia.
Qed.

Lemma z2b_b2z b : z2b (b2z b) = b.
Proof.
  unfold z2b, b2z. pose proof (Byte.to_N_bounded b).
  rewrite Z.mod_small by lia. rewrite N2Z.id, Byte.of_to_N. reflexivity.
Qed.

Lemma b2z_inj a b : b2z a = b2z b -> a = b.
Proof. intros H. rewrite <- (z2b_b2z a), <- (z2b_b2z b), H. reflexivity. Qed.

Lemma beqb_eq a b : beqb a b = true <-> a = b.
Proof.
  revert b; induction a as [|x a IH]; destruct b as [|y b]; simpl; split; intro H;
    try congruence; try reflexivity.
  - apply andb_true_iff in H as [H1 H2]. apply Byte.byte_dec_bl in H1. apply IH in H2. congruence.
  - injection H as -> ->. apply andb_true_iff; split; [apply Byte.byte_dec_lb; reflexivity | apply IH; reflexivity].
Qed.

Lemma beqb_refl a : beqb a a = true.
Proof. apply beqb_eq; reflexivity. Qed.

(** * Decoding *)
Ltac dstep :=
  match goal with
  | |- context [match ?x with _ => _ end] => destruct x eqn:?
  end.

Lemma decode_nil : decode [] = (RuneError, 0%nat).
Proof. reflexivity. Qed.

Lemma decode_size s : s <> [] -> (1 <= snd (decode s) <= length s)%nat.
Proof.
  intros H. destruct s as [|b0 s1]; [congruence|]. unfold decode.
  repeat (dstep; cbn [snd length]; try lia).
Qed.

Definition suffix (t s : bytes) : Prop := exists p, s = p ++ t.

Lemma suffix_refl s : suffix s s.
Proof. exists []; reflexivity. Qed.
Lemma suffix_trans a b c : suffix a b -> suffix b c -> suffix a c.
Proof. intros [p ->] [q ->]. exists (q ++ p). rewrite app_assoc. reflexivity. Qed.
Lemma suffix_length a b : suffix a b -> (length a <= length b)%nat.
Proof. intros [p ->]. rewrite app_length. lia. Qed.
Lemma suffix_skipn n s : suffix (skipn n s) s.
Proof. exists (firstn n s). symmetry; apply firstn_skipn. Qed.
Lemma suffix_adv s : suffix (adv s) s.
Proof. apply suffix_skipn. Qed.
Lemma suffix_skipn_eq t s : suffix t s -> t = skipn (length s - length t) s.
Proof.
  intros [p ->]. rewrite app_length.
  replace (length p + length t - length t)%nat with (length p) by lia.
  rewrite skipn_app, skipn_all, Nat.sub_diag. reflexivity.
Qed.

Lemma adv_length s : s <> [] -> (length (adv s) < length s)%nat.
Proof.
  intros H. unfold adv. rewrite skipn_length. pose proof (decode_size s H). lia.
Qed.
Lemma adv_nil : adv [] = [].
Proof. reflexivity. Qed.
Lemma adv_le s : (length (adv s) <= length s)%nat.
Proof. apply suffix_length, suffix_adv. Qed.

(** The decoded rune is never negative: EOF (-1) only at the end of the text. *)
Lemma decode_nonneg s : 0 <= fst (decode s).
Proof.
  destruct s as [|b0 s1]; [cbv; discriminate|]. unfold decode, RuneError, cont.
  pose proof (b2z_range b0).
  destruct (b2z b0 <? 128) eqn:E1; [cbn [fst]; lia|].
  destruct ((194 <=? b2z b0) && (b2z b0 <=? 223)) eqn:E2.
  { destruct s1 as [|b1 s1]; [cbn [fst]; lia|]. cbv zeta. pose proof (b2z_range b1).
    match goal with |- context [if ?c then _ else _] => destruct c eqn:E4 end; cbn [fst]; lia. }
  destruct ((224 <=? b2z b0) && (b2z b0 <=? 239)) eqn:E3.
  { destruct s1 as [|b1 [|b2 s1]]; try (cbn [fst]; lia). cbv zeta.
    pose proof (b2z_range b1). pose proof (b2z_range b2).
    destruct (b2z b0 =? 224), (b2z b0 =? 237);
    match goal with |- context [if ?c then _ else _] => destruct c eqn:E4 end; cbn [fst]; lia. }
  destruct ((240 <=? b2z b0) && (b2z b0 <=? 244)) eqn:E4; [|cbn [fst]; lia].
  destruct s1 as [|b1 [|b2 [|b3 s1]]]; try (cbn [fst]; lia). cbv zeta.
  pose proof (b2z_range b1). pose proof (b2z_range b2). pose proof (b2z_range b3).
  destruct (b2z b0 =? 240), (b2z b0 =? 244);
  match goal with |- context [if ?c then _ else _] => destruct c eqn:E5 end; cbn [fst]; lia.
Qed.

Lemma cur_EOF s : cur s = EOF <-> s = [].
Proof.
  split; [|intros ->; reflexivity].
  destruct s as [|b s]; [reflexivity|]. unfold cur, EOF. pose proof (decode_nonneg (b :: s)). lia.
Qed.
Lemma cur_nil : cur [] = EOF. Proof. reflexivity. Qed.

Lemma cur_neq s c : 0 <= c -> cur s = c -> s <> [].
Proof. intros H E ->. rewrite cur_nil in E. unfold EOF in E. lia. Qed.

(** * Loop equations: the fuel given is always enough, so the loops satisfy the
    recursion equations of the Go loops. *)
Lemma skip_space_fuel_enough n s : (length s <= n)%nat ->
  skip_space_fuel n s = skipSpace s.
Proof.
  unfold skipSpace. remember (length s) as m. revert s n Heqm.
  induction m as [m IH] using lt_wf_ind. intros s n -> Hn.
  destruct s as [|b s].
  - destruct n; reflexivity.
  - destruct n as [|n]; [simpl in Hn; lia|]. cbn [length skip_space_fuel].
    destruct (isSpace (cur (b :: s))); [|reflexivity].
    assert (Hl : (length (adv (b :: s)) < length (b :: s))%nat) by (apply adv_length; congruence).
    cbn [length] in *.
    rewrite (IH (length (adv (b :: s))) Hl _ _ eq_refl) by lia.
    rewrite (IH (length (adv (b :: s))) Hl _ (length s) eq_refl) by lia. reflexivity.
Qed.

Lemma skipSpace_eq s : skipSpace s = if isSpace (cur s) then skipSpace (adv s) else s.
Proof.
  destruct s as [|b s]; [reflexivity|].
  unfold skipSpace at 1. cbn [length skip_space_fuel].
  destruct (isSpace (cur (b :: s))); [|reflexivity].
  apply skip_space_fuel_enough.
  assert ((length (adv (b :: s)) < length (b :: s))%nat) by (apply adv_length; congruence).
  simpl in *. lia.
Qed.

Lemma skip_line_fuel_enough n s : (length s <= n)%nat ->
  skip_line_fuel n s = skipLine s.
Proof.
  unfold skipLine. remember (length s) as m. revert s n Heqm.
  induction m as [m IH] using lt_wf_ind. intros s n -> Hn.
  destruct s as [|b s].
  - destruct n; reflexivity.
  - destruct n as [|n]; [simpl in Hn; lia|]. cbn [length skip_line_fuel].
    destruct ((cur (b :: s) =? EOL) || (cur (b :: s) =? EOF)); [reflexivity|].
    assert (Hl : (length (adv (b :: s)) < length (b :: s))%nat) by (apply adv_length; congruence).
    cbn [length] in *.
    rewrite (IH (length (adv (b :: s))) Hl _ _ eq_refl) by lia.
    rewrite (IH (length (adv (b :: s))) Hl _ (length s) eq_refl) by lia. reflexivity.
Qed.

Lemma skipLine_eq s :
  skipLine s = if (cur s =? EOL) || (cur s =? EOF) then s else skipLine (adv s).
Proof.
  destruct s as [|b s]; [reflexivity|].
  unfold skipLine at 1. cbn [length skip_line_fuel].
  destruct ((cur (b :: s) =? EOL) || (cur (b :: s) =? EOF)); [reflexivity|].
  apply skip_line_fuel_enough.
  assert ((length (adv (b :: s)) < length (b :: s))%nat) by (apply adv_length; congruence).
  simpl in *. lia.
Qed.

(** Induction on the length of the suffix. *)
Lemma bytes_ind (P : bytes -> Prop) :
  (forall s, (forall t, (length t < length s)%nat -> P t) -> P s) -> forall s, P s.
Proof.
  intros H s. remember (length s) as n eqn:E. revert s E.
  induction n as [n IH] using lt_wf_ind. intros s ->. apply H.
  intros t Ht. apply (IH (length t)); auto.
Qed.

Lemma suffix_skipSpace s : suffix (skipSpace s) s.
Proof.
  induction s as [s IH] using bytes_ind. rewrite skipSpace_eq.
  destruct (isSpace (cur s)) eqn:E; [|apply suffix_refl].
  destruct s as [|b s]; [discriminate|].
  eapply suffix_trans; [apply IH, adv_length; congruence | apply suffix_adv].
Qed.

Lemma suffix_skipLine s : suffix (skipLine s) s.
Proof.
  induction s as [s IH] using bytes_ind. rewrite skipLine_eq.
  destruct ((cur s =? EOL) || (cur s =? EOF)) eqn:E; [apply suffix_refl|].
  destruct s as [|b s]; [discriminate|].
  eapply suffix_trans; [apply IH, adv_length; congruence | apply suffix_adv].
Qed.

Lemma skipSpace_not_space s : isSpace (cur (skipSpace s)) = false.
Proof.
  induction s as [s IH] using bytes_ind. rewrite skipSpace_eq.
  destruct (isSpace (cur s)) eqn:E; [|exact E].
  destruct s as [|b s]; [discriminate|]. apply IH, adv_length; congruence.
Qed.

Lemma skipLine_end s : cur (skipLine s) = EOL \/ skipLine s = [].
Proof.
  induction s as [s IH] using bytes_ind. rewrite skipLine_eq.
  destruct ((cur s =? EOL) || (cur s =? EOF)) eqn:E.
  - apply orb_true_iff in E as [E|E]; apply Z.eqb_eq in E; [auto|]. apply cur_EOF in E. auto.
  - destruct s as [|b s]; [discriminate|]. apply IH, adv_length; congruence.
Qed.

(** A line that does not start with a line feed is shortened. *)
Lemma skipLine_lt s : s <> [] -> cur s <> EOL -> (length (skipLine s) < length s)%nat.
Proof.
  intros H1 H2. rewrite skipLine_eq.
  destruct ((cur s =? EOL) || (cur s =? EOF)) eqn:E.
  - apply orb_true_iff in E as [E|E]; apply Z.eqb_eq in E; [congruence|].
    apply cur_EOF in E. congruence.
  - pose proof (suffix_length _ _ (suffix_skipLine (adv s))). pose proof (adv_length s H1). lia.
Qed.

Lemma skip_line_space_lt s : s <> [] -> cur s <> EOL ->
  (length (skipSpace (skipLine s)) < length s)%nat.
Proof.
  intros H1 H2. pose proof (skipLine_lt s H1 H2).
  pose proof (suffix_length _ _ (suffix_skipSpace (skipLine s))). lia.
Qed.

(** Fuel of the mutual pair. *)
Lemma skip_fuels_enough n :
  (forall s, (2 * length s + 1 <= n)%nat -> forall m, (2 * length s + 1 <= m)%nat ->
     skip_comment_fuel n s = skip_comment_fuel m s) /\
  (forall s, (2 * length s + 2 <= n)%nat -> forall m, (2 * length s + 2 <= m)%nat ->
     skip_regions_fuel n s = skip_regions_fuel m s).
Proof.
  induction n as [n IH] using lt_wf_ind. split; intros s Hn m Hm.
  - destruct n as [|n]; [lia|]. destruct m as [|m]; [lia|].
    cbn [skip_comment_fuel].
    destruct ((cur s =? cSlash) && (nextLet s =? cSlash)) eqn:E; [|reflexivity].
    apply andb_true_iff in E as [E _]. apply Z.eqb_eq in E.
    assert (Hs : s <> []) by (apply (cur_neq s cSlash); [unfold cSlash; lia | exact E]).
    assert (Hl : (length (skipSpace (skipLine s)) < length s)%nat)
      by (apply skip_line_space_lt; [exact Hs | rewrite E; discriminate]).
    cbv zeta. set (s1 := skipSpace (skipLine s)) in *.
    destruct (cur s1 =? cSlash); [apply (IH n); lia|].
    destruct (cur s1 =? cHash); [apply (IH n); lia|]. reflexivity.
  - destruct n as [|n]; [lia|]. destruct m as [|m]; [lia|].
    cbn [skip_regions_fuel].
    destruct (cur s =? cHash) eqn:E.
    + apply Z.eqb_eq in E.
      assert (Hs : s <> []) by (apply (cur_neq s cHash); [unfold cHash; lia | exact E]).
      assert (Hl : (length (skipSpace (skipLine s)) < length s)%nat)
        by (apply skip_line_space_lt; [exact Hs | rewrite E; discriminate]).
      cbv zeta. set (s1 := skipSpace (skipLine s)) in *.
      destruct (cur s1 =? cSlash); [apply (IH n); lia|].
      destruct (cur s1 =? cHash); [apply (IH n); lia|]. reflexivity.
    + cbv zeta. rewrite E. destruct (cur s =? cSlash); [apply (IH n); lia | reflexivity].
Qed.

Lemma skipComment_eq s : skipComment s =
  if (cur s =? cSlash) && (nextLet s =? cSlash) then
    let s1 := skipSpace (skipLine s) in
    if cur s1 =? cSlash then skipComment s1
    else if cur s1 =? cHash then skipRegions s1 else s1
  else s.
Proof.
  unfold skipComment at 1, skip_fuel.
  replace (2 * length s + 2)%nat with (S (2 * length s + 1)) by lia. cbn [skip_comment_fuel].
  destruct ((cur s =? cSlash) && (nextLet s =? cSlash)) eqn:E; [|reflexivity].
  apply andb_true_iff in E as [E _]. apply Z.eqb_eq in E.
  assert (Hs : s <> []) by (apply (cur_neq s cSlash); [unfold cSlash; lia | exact E]).
  assert (Hl : (length (skipSpace (skipLine s)) < length s)%nat)
    by (apply skip_line_space_lt; [exact Hs | rewrite E; discriminate]).
  cbv zeta. set (s1 := skipSpace (skipLine s)) in *.
  destruct (cur s1 =? cSlash); [apply skip_fuels_enough; unfold skip_fuel; lia|].
  destruct (cur s1 =? cHash); [apply skip_fuels_enough; unfold skip_fuel; lia|]. reflexivity.
Qed.

Lemma skipRegions_eq s : skipRegions s =
  let s1 := if cur s =? cHash then skipSpace (skipLine s) else s in
  if cur s1 =? cSlash then skipComment s1
  else if cur s1 =? cHash then skipRegions s1 else s1.
Proof.
  unfold skipRegions at 1, skip_fuel.
  replace (2 * length s + 2)%nat with (S (2 * length s + 1)) by lia. cbn [skip_regions_fuel].
  destruct (cur s =? cHash) eqn:E; cbv zeta.
  - apply Z.eqb_eq in E.
    assert (Hs : s <> []) by (apply (cur_neq s cHash); [unfold cHash; lia | exact E]).
    assert (Hl : (length (skipSpace (skipLine s)) < length s)%nat)
      by (apply skip_line_space_lt; [exact Hs | rewrite E; discriminate]).
    set (s1 := skipSpace (skipLine s)) in *.
    destruct (cur s1 =? cSlash); [apply skip_fuels_enough; unfold skip_fuel; lia|].
    destruct (cur s1 =? cHash); [apply skip_fuels_enough; unfold skip_fuel; lia|]. reflexivity.
  - destruct (cur s =? cSlash); [apply skip_fuels_enough; unfold skip_fuel; lia|].
    rewrite E. reflexivity.
Qed.

Lemma suffix_skip n :
  (forall s, suffix (skip_comment_fuel n s) s) /\ (forall s, suffix (skip_regions_fuel n s) s).
Proof.
  induction n as [|n [IH1 IH2]]; [split; intros; apply suffix_refl|].
  assert (Hs : forall s, suffix (skipSpace (skipLine s)) s)
    by (intros; eapply suffix_trans; [apply suffix_skipSpace | apply suffix_skipLine]).
  split; intros s; cbn [skip_comment_fuel skip_regions_fuel]; cbv zeta.
  - destruct (_ && _); [|apply suffix_refl].
    destruct (_ =? cSlash); [eapply suffix_trans; [apply IH1 | apply Hs]|].
    destruct (_ =? cHash); [eapply suffix_trans; [apply IH2 | apply Hs] | apply Hs].
  - set (s1 := if cur s =? cHash then skipSpace (skipLine s) else s).
    assert (H1 : suffix s1 s) by (unfold s1; destruct (_ =? _); [apply Hs | apply suffix_refl]).
    destruct (cur s1 =? cSlash); [eapply suffix_trans; [apply IH1 | exact H1]|].
    destruct (cur s1 =? cHash); [eapply suffix_trans; [apply IH2 | exact H1] | exact H1].
Qed.
Lemma suffix_skipComment s : suffix (skipComment s) s.
Proof. apply suffix_skip. Qed.
Lemma suffix_skipRegions s : suffix (skipRegions s) s.
Proof. apply suffix_skip. Qed.

(** * Identifiers and numbers *)
Lemma scan_ident_fuel_enough n s : (length s <= n)%nat ->
  scan_ident_fuel n s = scan_ident_fuel (length s) s.
Proof.
  remember (length s) as m. revert s n Heqm.
  induction m as [m IH] using lt_wf_ind. intros s n -> Hn.
  destruct s as [|b s].
  - destruct n; reflexivity.
  - destruct n as [|n]; [simpl in Hn; lia|]. cbn [length scan_ident_fuel].
    cbv zeta. destruct (isLetter (cur (b :: s)) || isDigit (cur (b :: s))); [|reflexivity].
    assert (Hl : (length (adv (b :: s)) < length (b :: s))%nat) by (apply adv_length; congruence).
    cbn [length] in *.
    rewrite (IH (length (adv (b :: s))) Hl _ n eq_refl) by lia.
    rewrite (IH (length (adv (b :: s))) Hl _ (length s) eq_refl) by lia. reflexivity.
Qed.

Lemma isLetter_EOF : isLetter EOF = false.
Proof. vm_compute. reflexivity. Qed.

Definition ident_runes (s : bytes) : list Z * bytes := scan_ident_fuel (length s) s.
Lemma ident_runes_eq s : ident_runes s =
  if isLetter (cur s) || isDigit (cur s)
  then let '(r, s') := ident_runes (adv s) in (cur s :: r, s') else ([], s).
Proof.
  unfold ident_runes. destruct s as [|b s]; [rewrite cur_nil, isLetter_EOF; reflexivity|].
  cbn [length scan_ident_fuel]. cbv zeta.
  destruct (isLetter (cur (b :: s)) || isDigit (cur (b :: s))); [|reflexivity].
  assert (Hl : (length (adv (b :: s)) < length (b :: s))%nat) by (apply adv_length; congruence).
  rewrite (scan_ident_fuel_enough (length s)) by (simpl in Hl; lia). reflexivity.
Qed.

Lemma suffix_ident s : suffix (snd (ident_runes s)) s.
Proof.
  induction s as [s IH] using bytes_ind. rewrite ident_runes_eq.
  destruct (isLetter (cur s) || isDigit (cur s)) eqn:E; [|apply suffix_refl].
  destruct s as [|b s]; [rewrite cur_nil, isLetter_EOF in E; discriminate|].
  specialize (IH (adv (b :: s)) (adv_length (b :: s) ltac:(congruence))).
  destruct (ident_runes (adv (b :: s))) as [r s'].
  eapply suffix_trans; [apply IH | apply suffix_adv].
Qed.

Lemma suffix_scanIdentifier s : suffix (snd (scanIdentifier s)) s.
Proof.
  unfold scanIdentifier. pose proof (suffix_ident s) as H. unfold ident_runes in H.
  destruct (scan_ident_fuel (length s) s). exact H.
Qed.

Lemma scanIdentifier_lt s : isLetter (cur s) = true ->
  (length (snd (scanIdentifier s)) < length s)%nat.
Proof.
  intros E. unfold scanIdentifier. fold (ident_runes s). rewrite ident_runes_eq, E. simpl.
  assert (Hs : s <> []) by (intros ->; rewrite cur_nil, isLetter_EOF in E; discriminate).
  pose proof (suffix_length _ _ (suffix_ident (adv s))). pose proof (adv_length s Hs).
  destruct (ident_runes (adv s)). simpl in *. lia.
Qed.

Lemma scan_number_fuel_enough n s : (length s <= n)%nat ->
  scan_number_fuel n s = scan_number_fuel (length s) s.
Proof.
  remember (length s) as m. revert s n Heqm.
  induction m as [m IH] using lt_wf_ind. intros s n -> Hn.
  destruct s as [|b s].
  - destruct n; reflexivity.
  - destruct n as [|n]; [simpl in Hn; lia|]. cbn [length scan_number_fuel].
    cbv zeta. destruct (isDigit (cur (b :: s)) || (cur (b :: s) =? cDot)); [|reflexivity].
    assert (Hl : (length (adv (b :: s)) < length (b :: s))%nat) by (apply adv_length; congruence).
    cbn [length] in *.
    rewrite (IH (length (adv (b :: s))) Hl _ n eq_refl) by lia.
    rewrite (IH (length (adv (b :: s))) Hl _ (length s) eq_refl) by lia. reflexivity.
Qed.

Definition number_runes (s : bytes) : list Z * bytes := scan_number_fuel (length s) s.
Lemma number_runes_eq s : number_runes s =
  if isDigit (cur s) || (cur s =? cDot)
  then let '(r, s') := number_runes (adv s) in (cur s :: r, s') else ([], s).
Proof.
  unfold number_runes. destruct s as [|b s]; [reflexivity|].
  cbn [length scan_number_fuel]. cbv zeta.
  destruct (isDigit (cur (b :: s)) || (cur (b :: s) =? cDot)); [|reflexivity].
  assert (Hl : (length (adv (b :: s)) < length (b :: s))%nat) by (apply adv_length; congruence).
  rewrite (scan_number_fuel_enough (length s)) by (simpl in Hl; lia). reflexivity.
Qed.

Lemma suffix_number s : suffix (snd (number_runes s)) s.
Proof.
  induction s as [s IH] using bytes_ind. rewrite number_runes_eq.
  destruct (isDigit (cur s) || (cur s =? cDot)) eqn:E; [|apply suffix_refl].
  destruct s as [|b s]; [discriminate|].
  specialize (IH (adv (b :: s)) (adv_length (b :: s) ltac:(congruence))).
  destruct (number_runes (adv (b :: s))) as [r s'].
  eapply suffix_trans; [apply IH | apply suffix_adv].
Qed.

Lemma scanNumber_snd s : snd (scanNumber s) = snd (number_runes s).
Proof.
  unfold scanNumber. fold (number_runes s). destruct (number_runes s) as [r s'].
  destruct (isLetter (cur s')); reflexivity.
Qed.

Lemma scanNumber_lt s : isDigit (cur s) = true ->
  (length (snd (scanNumber s)) < length s)%nat.
Proof.
  intros E. rewrite scanNumber_snd, number_runes_eq, E. cbn [orb].
  assert (Hs : s <> []) by (intros ->; discriminate).
  pose proof (suffix_length _ _ (suffix_number (adv s))). pose proof (adv_length s Hs).
  destruct (number_runes (adv s)). simpl in *. lia.
Qed.

(** * Strings *)
(** Every iteration of scanString consumes at least one byte, so the fuel
    [S (length s)] is never exhausted; more fuel gives the same result. *)
Lemma scan_string_fuel_enough n : forall en acc s m,
  (length s < n)%nat -> (length s < m)%nat ->
  scan_string_fuel n en acc s = scan_string_fuel m en acc s.
Proof.
  induction n as [n IH] using lt_wf_ind. intros en acc s m Hn Hm.
  destruct n as [|n]; [lia|]. destruct m as [|m]; [lia|].
  cbn [scan_string_fuel]. cbv zeta.
  destruct (cur (adv s) =? EOL) eqn:E1.
  - apply Z.eqb_eq in E1.
    assert (Ha : adv s <> []) by (apply (cur_neq _ EOL); [unfold EOL; lia | exact E1]).
    assert (Hs : s <> []) by (intros ->; apply Ha; reflexivity).
    pose proof (adv_length s Hs). pose proof (adv_length _ Ha).
    pose proof (suffix_length _ _ (suffix_skipSpace (adv (adv s)))).
    pose proof (suffix_length _ _ (suffix_skipComment (skipSpace (adv (adv s))))).
    set (s2 := skipComment (skipSpace (adv (adv s)))) in *.
    destruct (_ && _); [reflexivity|]. apply IH; lia.
  - destruct (cur (adv s) =? EOF) eqn:E2; [reflexivity|].
    apply Z.eqb_neq in E2.
    assert (Ha : adv s <> []) by (intros E; apply E2; rewrite E; reflexivity).
    assert (Hs : s <> []) by (intros ->; apply Ha; reflexivity).
    pose proof (adv_length s Hs). pose proof (adv_length _ Ha).
    pose proof (suffix_length _ _ (suffix_skipSpace (adv (adv s)))).
    destruct (cur (adv s) =? en).
    + destruct (nextLet (adv s) =? cQuote); [apply IH; lia|].
      destruct (cur (skipSpace (adv (adv s))) =? cQuote); [apply IH; lia | reflexivity].
    + apply IH; lia.
Qed.

Lemma scan_string_no_fuel n : forall en acc s,
  (length s < n)%nat -> fst (scan_string_fuel n en acc s) <> inr LFuel.
Proof.
  induction n as [n IH] using lt_wf_ind. intros en acc s Hn.
  destruct n as [|n]; [lia|].
  cbn [scan_string_fuel]. cbv zeta.
  destruct (cur (adv s) =? EOL) eqn:E1.
  - apply Z.eqb_eq in E1.
    assert (Ha : adv s <> []) by (apply (cur_neq _ EOL); [unfold EOL; lia | exact E1]).
    assert (Hs : s <> []) by (intros ->; apply Ha; reflexivity).
    pose proof (adv_length s Hs). pose proof (adv_length _ Ha).
    pose proof (suffix_length _ _ (suffix_skipSpace (adv (adv s)))).
    pose proof (suffix_length _ _ (suffix_skipComment (skipSpace (adv (adv s))))).
    set (s2 := skipComment (skipSpace (adv (adv s)))) in *.
    destruct (_ && _); [discriminate|]. apply IH; lia.
  - destruct (cur (adv s) =? EOF) eqn:E2; [discriminate|].
    apply Z.eqb_neq in E2.
    assert (Ha : adv s <> []) by (intros E; apply E2; rewrite E; reflexivity).
    assert (Hs : s <> []) by (intros ->; apply Ha; reflexivity).
    pose proof (adv_length s Hs). pose proof (adv_length _ Ha).
    pose proof (suffix_length _ _ (suffix_skipSpace (adv (adv s)))).
    destruct (cur (adv s) =? en).
    + destruct (nextLet (adv s) =? cQuote); [apply IH; lia|].
      destruct (cur (skipSpace (adv (adv s))) =? cQuote); [apply IH; lia | discriminate].
    + apply IH; lia.
Qed.

Lemma suffix_scan_string n : forall en acc s, suffix (snd (scan_string_fuel n en acc s)) s.
Proof.
  induction n as [|n IH]; intros en acc s; [apply suffix_refl|].
  assert (H1 : suffix (adv s) s) by apply suffix_adv.
  assert (H2 : suffix (adv (adv s)) s) by (eapply suffix_trans; [apply suffix_adv | exact H1]).
  assert (H3 : suffix (skipSpace (adv (adv s))) s)
    by (eapply suffix_trans; [apply suffix_skipSpace | exact H2]).
  assert (H4 : suffix (skipComment (skipSpace (adv (adv s)))) s)
    by (eapply suffix_trans; [apply suffix_skipComment | exact H3]).
  cbn [scan_string_fuel]. cbv zeta.
  destruct (_ =? EOL).
  - destruct (_ && _); [exact H4|]. eapply suffix_trans; [apply IH | exact H4].
  - destruct (_ =? EOF); [exact H1|].
    destruct (_ =? en).
    + destruct (nextLet (adv s) =? cQuote).
      * eapply suffix_trans; [apply IH | exact H2].
      * destruct (cur (skipSpace (adv (adv s))) =? cQuote); [eapply suffix_trans; [apply IH | exact H3] | exact H3].
    + eapply suffix_trans; [apply IH | exact H1].
Qed.

Lemma suffix_scanString en s : suffix (snd (scanString en s)) s.
Proof.
  unfold scanString. pose proof (suffix_scan_string (S (length s)) en [] s) as H.
  destruct (scan_string_fuel (S (length s)) en [] s) as [[r|e] s']; exact H.
Qed.

Lemma scanString_lt en s : s <> [] -> (length (snd (scanString en s)) < length s)%nat.
Proof.
  intros Hs. pose proof (adv_length s Hs) as Hl.
  assert (H : forall n acc, (length (snd (scan_string_fuel (S n) en acc s)) < length s)%nat).
  { intros n acc. cbn [scan_string_fuel]. cbv zeta.
    pose proof (suffix_length _ _ (suffix_adv (adv s))).
    pose proof (suffix_length _ _ (suffix_skipSpace (adv (adv s)))).
    pose proof (suffix_length _ _ (suffix_skipComment (skipSpace (adv (adv s))))).
    destruct (_ =? EOL).
    - destruct (_ && _); cbn [snd]; [lia|].
      match goal with |- context [scan_string_fuel n en ?a ?t] =>
        pose proof (suffix_length _ _ (suffix_scan_string n en a t)) end. lia.
    - destruct (_ =? EOF); cbn [snd]; [lia|].
      destruct (_ =? en).
      + destruct (nextLet (adv s) =? cQuote).
        * match goal with |- context [scan_string_fuel n en ?a ?t] =>
            pose proof (suffix_length _ _ (suffix_scan_string n en a t)) end. lia.
        * destruct (cur (skipSpace (adv (adv s))) =? cQuote); cbn [snd]; [|lia].
          match goal with |- context [scan_string_fuel n en ?a ?t] =>
            pose proof (suffix_length _ _ (suffix_scan_string n en a t)) end. lia.
      + match goal with |- context [scan_string_fuel n en ?a ?t] =>
          pose proof (suffix_length _ _ (suffix_scan_string n en a t)) end. lia. }
  specialize (H (length s) []). unfold scanString.
  destruct (scan_string_fuel (S (length s)) en [] s) as [[r|e] s']; exact H.
Qed.

Lemma scanString_no_fuel en s : fst (scanString en s) <> inr LFuel.
Proof.
  unfold scanString. pose proof (scan_string_no_fuel (S (length s)) en [] s ltac:(lia)) as H.
  destruct (scan_string_fuel (S (length s)) en [] s) as [[r|e] s']; simpl in *; congruence.
Qed.

(** * One token *)
Definition trivia_end (s : bytes) : bytes := skipRegions (skipComment (skipSpace s)).
Lemma suffix_trivia s : suffix (trivia_end s) s.
Proof.
  unfold trivia_end. eapply suffix_trans; [apply suffix_skipRegions|].
  eapply suffix_trans; [apply suffix_skipComment | apply suffix_skipSpace].
Qed.

Ltac suf :=
  first [ apply suffix_refl | apply suffix_trivia
        | eapply suffix_trans; [apply suffix_adv | suf]
        | eapply suffix_trans; [apply suffix_scanIdentifier | suf]
        | eapply suffix_trans; [apply suffix_scanString | suf] ].

(** The remaining text is a suffix, strictly shorter unless the end of the text
    was reported without an error. *)
Lemma next_progress pd s0 : forall r s' pd', next pd s0 = (r, s', pd') ->
  suffix s' s0 /\
  ((lr_tok r = EOF /\ lr_err r = None /\ s' = [] /\ trivia_end s0 = []) \/ (length s' < length s0)%nat).
Proof.
  intros r s' pd'. unfold next. fold (trivia_end s0). set (s := trivia_end s0).
  pose proof (suffix_trivia s0 : suffix s s0) as Hs.
  pose proof (suffix_length _ _ Hs) as Hle.
  assert (Hfin : forall x, suffix x s -> (length x < length s)%nat ->
     suffix x s0 /\ ((lr_tok r = EOF /\ lr_err r = None /\ x = [] /\ s = []) \/ (length x < length s0)%nat))
    by (intros x Hx Hx2; split; [eapply suffix_trans; eassumption | right; lia]).
  assert (Hadv : cur s <> EOF -> (length (adv s) < length s)%nat)
    by (intros E; apply adv_length; intros ->; apply E; reflexivity).
  cbv zeta.
  destruct (isLetter (cur s)) eqn:E1.
  { pose proof (scanIdentifier_lt s E1) as Hlt. pose proof (suffix_scanIdentifier s) as Hsf.
    destruct (scanIdentifier s) as [lit s2]. cbn [snd] in *.
    destruct (if pd then None else assoc (fastToLower lit) keywords);
      intros [= <- <- <-]; apply Hfin; assumption. }
  assert (HEOF : forall c, cur s = c -> 0 <= c -> cur s <> EOF) by (unfold EOF; intros; lia).
  destruct (cur s =? cDot) eqn:E2.
  { apply Z.eqb_eq in E2. intros [= <- <- <-]. apply Hfin; [apply suffix_adv|].
    apply Hadv, (HEOF _ E2); unfold cDot; lia. }
  destruct (isDigit (cur s)) eqn:E3.
  { pose proof (scanNumber_lt s E3) as Hlt. pose proof (suffix_number s) as Hsf.
    rewrite <- scanNumber_snd in Hsf.
    destruct (scanNumber s) as [[lit|e] s2]; intros [= <- <- <-]; apply Hfin; assumption. }
  destruct (cur s =? cApos) eqn:E4.
  { apply Z.eqb_eq in E4.
    assert (Hn : s <> []) by (apply (cur_neq s cApos); [unfold cApos; lia | exact E4]).
    pose proof (scanString_lt (cur s) s Hn) as Hlt. pose proof (suffix_scanString (cur s) s) as Hsf.
    destruct (scanString (cur s) s) as [[lit|e] s2]; cbn [snd] in *;
      [destruct (extractDigits lit)|]; intros [= <- <- <-]; apply Hfin; assumption. }
  destruct (punct (cur s)) eqn:E5.
  { intros [= <- <- <-]. apply Hfin; [apply suffix_adv|]. apply Hadv. intros E; rewrite E in E5; discriminate. }
  destruct (cur s =? 61) eqn:E6.
  { apply Z.eqb_eq in E6. intros [= <- <- <-]. apply Hfin; [apply suffix_adv|].
    apply Hadv, (HEOF _ E6); lia. }
  destruct (cur s =? cQuote) eqn:E7.
  { apply Z.eqb_eq in E7.
    assert (Hn : s <> []) by (apply (cur_neq s cQuote); [unfold cQuote; lia | exact E7]).
    pose proof (scanString_lt (cur s) s Hn) as Hlt. pose proof (suffix_scanString (cur s) s) as Hsf.
    destruct (scanString (cur s) s) as [[lit|e] s2]; cbn [snd] in *;
      intros [= <- <- <-]; apply Hfin; assumption. }
  destruct (cur s =? 60) eqn:E8.
  { apply Z.eqb_eq in E8.
    pose proof (Hadv (HEOF _ E8 ltac:(lia))) as Hl. pose proof (adv_le (adv s)).
    assert (Ha2 : suffix (adv (adv s)) s) by (eapply suffix_trans; apply suffix_adv).
    destruct (nextLet s =? 62); [intros [= <- <- <-]; apply Hfin; [exact Ha2 | lia]|].
    destruct (nextLet s =? 61); intros [= <- <- <-]; apply Hfin; try exact Ha2; try apply suffix_adv; lia. }
  destruct (cur s =? 62) eqn:E9.
  { apply Z.eqb_eq in E9.
    pose proof (Hadv (HEOF _ E9 ltac:(lia))) as Hl. pose proof (adv_le (adv s)).
    assert (Ha2 : suffix (adv (adv s)) s) by (eapply suffix_trans; apply suffix_adv).
    destruct (nextLet s =? 61); intros [= <- <- <-]; apply Hfin; try exact Ha2; try apply suffix_adv; lia. }
  destruct (cur s =? 38) eqn:E10.
  { apply Z.eqb_eq in E10.
    pose proof (Hadv (HEOF _ E10 ltac:(lia))) as Hl.
    pose proof (suffix_scanIdentifier (adv s)) as Hsf.
    pose proof (suffix_length _ _ Hsf).
    destruct (scanIdentifier (adv s)) as [lit s2]. cbn [snd] in *.
    destruct (assoc _ directives); intros [= <- <- <-]; apply Hfin; try apply suffix_adv; try lia.
    eapply suffix_trans; [exact Hsf | apply suffix_adv]. }
  destruct (cur s =? 126) eqn:E11.
  { apply Z.eqb_eq in E11.
    pose proof (Hadv (HEOF _ E11 ltac:(lia))) as Hl.
    pose proof (suffix_scanIdentifier (adv s)) as Hsf.
    pose proof (suffix_length _ _ Hsf).
    destruct (scanIdentifier (adv s)) as [lit s2]. cbn [snd] in *.
    intros [= <- <- <-]; apply Hfin; [|lia].
    eapply suffix_trans; [exact Hsf | apply suffix_adv]. }
  destruct (cur s =? EOF) eqn:E12.
  { apply Z.eqb_eq in E12. apply cur_EOF in E12. intros [= <- <- <-]. split.
    - eapply suffix_trans; [apply suffix_adv | exact Hs].
    - left. rewrite E12. repeat split; reflexivity. }
  apply Z.eqb_neq in E12. intros [= <- <- <-]. apply Hfin; [apply suffix_adv | auto].
Qed.

Lemma next_no_fuel pd s0 : forall r s' pd', next pd s0 = (r, s', pd') -> lr_err r <> Some LFuel.
Proof.
  intros r s' pd'. unfold next. set (s := skipRegions _). cbv zeta.
  repeat match goal with
  | |- context [scanString ?e ?x] => pose proof (scanString_no_fuel e x); destruct (scanString e x) as [[?|?] ?]; cbn [fst] in *
  | |- context [scanNumber ?x] => let H := fresh in
      assert (H : fst (scanNumber x) <> inr LFuel) by
        (unfold scanNumber; destruct (scan_number_fuel _ _) as [? ?]; destruct (isLetter _); discriminate);
      destruct (scanNumber x) as [[?|?] ?]; cbn [fst] in *
  | |- context [scanIdentifier ?x] => destruct (scanIdentifier x)
  | |- context [match assoc ?a ?b with _ => _ end] => destruct (assoc a b)
  | |- context [match extractDigits ?a with _ => _ end] => destruct (extractDigits a)
  | |- context [if ?b then _ else _] => destruct b
  end; intros [= <- <- <-]; cbn [lr_err]; congruence.
Qed.
