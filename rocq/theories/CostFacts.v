(** Looking at the text: what one token costs is paid by the bytes it passes. *)
From Verif Require Import Bytes Utf8 UnicodeTables Float64 GoTime Ast Lexer LexFacts Tables Parser LoudFacts Cost.
Open Scope nat_scope.

(** Letters and digits in a row, in bytes. *)
Definition wordlen (s : bytes) : nat := length s - length (snd (ident_runes s)).
Lemma wordlen_le s : wordlen s <= length s. Proof. unfold wordlen. lia. Qed.
Lemma wordlen_adv s : wordlen s <= (length s - length (adv s)) + wordlen (adv s).
Proof.
  unfold wordlen. rewrite ident_runes_eq. destruct (_ || _).
  - pose proof (suffix_length _ _ (suffix_ident (adv s))). pose proof (adv_le s). destruct (ident_runes (adv s)) as [r s']. cbn [snd] in *. lia.
  - cbn [snd]. lia.
Qed.
Lemma wordlen_passes s l s' : passes s l s' -> wordlen s + length s' <= length s + wordlen s'.
Proof.
  induction 1 as [|s l s' H H2 IH]; [lia|]. pose proof (wordlen_adv s). pose proof (adv_le s). lia.
Qed.
Lemma space_cost n s : c_space_fuel n s + 2 * length (skipSpace s) <= 2 * length s + 1.
Proof.
  revert s. induction n as [|n IH]; intros s; cbn [c_space_fuel].
  { pose proof (suffix_length _ _ (suffix_skipSpace s)). lia. }
  rewrite skipSpace_eq. destruct (isSpace (cur s)) eqn:E; [|lia]. specialize (IH (adv s)).
  assert (N0 : s <> []) by (intros ->; discriminate E). pose proof (adv_length s N0). lia.
Qed.
Lemma line_cost n s : c_line_fuel n s + 2 * length (skipLine s) <= 2 * length s + 1.
Proof.
  revert s. induction n as [|n IH]; intros s; cbn [c_line_fuel].
  { pose proof (suffix_length _ _ (suffix_skipLine s)). lia. }
  rewrite skipLine_eq. destruct (_ || _) eqn:E; [lia|]. specialize (IH (adv s)).
  assert (N0 : s <> []) by (intros ->; discriminate E). pose proof (adv_length s N0). lia.
Qed.
Lemma rest_cost s : c_line s + c_space (skipLine s) + 2 * length (skipSpace (skipLine s)) <= 2 * length s + 2.
Proof. pose proof (line_cost (S (length s)) s). pose proof (space_cost (S (length (skipLine s))) (skipLine s)). unfold c_line, c_space. lia. Qed.
Lemma ident_cost n s : c_ident_fuel n s + 2 * length (snd (ident_runes s)) <= 2 * length s + 1.
Proof.
  revert s. induction n as [|n IH]; intros s; cbn [c_ident_fuel].
  { pose proof (suffix_length _ _ (suffix_ident s)). lia. }
  rewrite ident_runes_eq. destruct (_ || _) eqn:E; [|cbn [snd]; lia]. specialize (IH (adv s)). destruct (ident_runes (adv s)) as [r s']. cbn [snd] in *.
  assert (N0 : s <> []) by (apply letter_not; apply orb_true_iff, E). pose proof (adv_length s N0). lia.
Qed.
Lemma number_cost n s : c_number_fuel n s + 2 * length (snd (number_runes s)) <= 2 * length s + 1.
Proof.
  revert s. induction n as [|n IH]; intros s; cbn [c_number_fuel].
  { pose proof (suffix_length _ _ (suffix_number s)). lia. }
  rewrite number_runes_eq. destruct (_ || _) eqn:E; [|cbn [snd]; lia]. specialize (IH (adv s)). destruct (number_runes (adv s)) as [r s']. cbn [snd] in *.
  assert (N0 : s <> []) by (intros ->; discriminate E). pose proof (adv_length s N0). lia.
Qed.
Lemma skip_line_lt s c : cur s = c -> (0 <= c)%Z -> c <> EOL -> length (skipSpace (skipLine s)) < length s.
Proof. intros E H1 H2. apply skip_line_space_lt; [apply (cur_neq s c); assumption|congruence]. Qed.
Lemma two_slashes s : cur s = cSlash -> nextLet s = cSlash -> length (skipSpace (skipLine s)) + 2 <= length s.
Proof.
  intros E1 E2. unfold nextLet in E2. rewrite skipLine_eq, E1. change ((cSlash =? EOL)%Z || (cSlash =? EOF)%Z) with false. cbv iota.
  pose proof (skip_line_lt (adv s) cSlash E2). assert (N0 : s <> []) by (apply (cur_neq s cSlash); [unfold cSlash; lia|exact E1]). pose proof (adv_length s N0).
  assert (length (skipSpace (skipLine (adv s))) < length (adv s)) by (apply H; unfold cSlash, EOL; lia). lia.
Qed.
Lemma skip_cost n : (forall s, c_comment_fuel n s + 8 * length (skip_comment_fuel n s) <= 8 * length s + 3) /\
  (forall s, c_regions_fuel n s + 8 * length (skip_regions_fuel n s) <= 8 * length s + 5).
Proof.
  induction n as [|n [IH1 IH2]]; [split; intros s; cbn; lia|].
  split; intros s; cbn [skip_comment_fuel skip_regions_fuel c_comment_fuel c_regions_fuel]; cbv zeta.
  - destruct (cur s =? cSlash)%Z eqn:E1; cbn [andb]; [|lia]. destruct (nextLet s =? cSlash)%Z eqn:E2; [|lia].
    apply Z.eqb_eq in E1, E2. pose proof (two_slashes s E1 E2). pose proof (rest_cost s). set (s1 := skipSpace (skipLine s)) in *.
    destruct (cur s1 =? cSlash)%Z; [specialize (IH1 s1); lia|]. destruct (cur s1 =? cHash)%Z; [specialize (IH2 s1); lia|lia].
  - destruct (cur s =? cHash)%Z eqn:E1.
    + apply Z.eqb_eq in E1. pose proof (skip_line_lt s cHash E1). assert (length (skipSpace (skipLine s)) < length s) by (apply H; unfold cHash, EOL; lia).
      pose proof (rest_cost s). set (s1 := skipSpace (skipLine s)) in *.
      destruct (cur s1 =? cSlash)%Z; [specialize (IH1 s1); lia|]. destruct (cur s1 =? cHash)%Z; [specialize (IH2 s1); lia|lia].
    + rewrite E1. destruct (cur s =? cSlash)%Z; [specialize (IH1 s); lia|lia].
Qed.
Lemma comment_cost s : c_comment s + 8 * length (skipComment s) <= 8 * length s + 3. Proof. apply skip_cost. Qed.
Lemma regions_cost s : c_regions s + 8 * length (skipRegions s) <= 8 * length s + 5. Proof. apply skip_cost. Qed.
Lemma string_cost n : forall en acc s, c_string_fuel n en s + 8 * length (snd (scan_string_fuel n en acc s)) <= 8 * length s + 2.
Proof.
  induction n as [|n IH]; intros en acc s; [cbn; lia|]. cbn [scan_string_fuel c_string_fuel]. cbv zeta. set (s1 := adv s).
  destruct (cur s1 =? EOL)%Z eqn:E1.
  { apply Z.eqb_eq in E1. assert (N1 : s1 <> []) by (apply (cur_neq s1 EOL); [unfold EOL; lia|exact E1]).
    assert (N0 : s <> []) by (intros X; apply N1; unfold s1; rewrite X; reflexivity). pose proof (adv_length s N0). pose proof (adv_length s1 N1). fold s1 in H.
    pose proof (space_cost (S (length (adv s1))) (adv s1)) as C1. fold (c_space (adv s1)) in C1. pose proof (comment_cost (skipSpace (adv s1))) as C2.
    pose proof (suffix_length _ _ (suffix_skipSpace (adv s1))). set (s3 := skipComment (skipSpace (adv s1))) in *.
    destruct (_ && _); cbn [snd]; [lia|]. specialize (IH en (acc ++ [EOL; cur s3]) s3). lia. }
  destruct (cur s1 =? EOF)%Z eqn:E2; [cbn [snd]; pose proof (adv_le s); fold s1 in H; lia|].
  assert (N1 : s1 <> []) by (intros X; rewrite X in E2; discriminate E2).
  assert (N0 : s <> []) by (intros X; apply N1; unfold s1; rewrite X; reflexivity). pose proof (adv_length s N0). pose proof (adv_length s1 N1). fold s1 in H.
  destruct (cur s1 =? en)%Z.
  - destruct (nextLet s1 =? cQuote)%Z; [specialize (IH en (acc ++ [cQuote; cQuote]) (adv s1)); lia|].
    pose proof (space_cost (S (length (adv s1))) (adv s1)) as C1. fold (c_space (adv s1)) in C1.
    pose proof (suffix_length _ _ (suffix_skipSpace (adv s1))). set (s2 := skipSpace (adv s1)) in *.
    destruct (cur s2 =? cQuote)%Z; cbn [snd]; [specialize (IH en acc s2); lia|lia].
  - specialize (IH en (acc ++ [cur s1]) s1). lia.
Qed.
Lemma scanString_cost en s : c_string en s + 8 * length (snd (scanString en s)) <= 8 * length s + 2.
Proof. pose proof (string_cost (S (length s)) en [] s) as H. unfold scanString, c_string. destruct (scan_string_fuel _ en [] s) as [[x|x] y]; exact H. Qed.
Lemma scanIdentifier_cost s : c_ident s + 2 * length (snd (scanIdentifier s)) <= 2 * length s + 1.
Proof. pose proof (ident_cost (S (length s)) s) as H. unfold scanIdentifier, c_ident. fold (ident_runes s). destruct (ident_runes s). exact H. Qed.
Lemma scanIdentifier_word s : length (snd (scanIdentifier s)) + wordlen s = length s.
Proof. pose proof (suffix_length _ _ (suffix_ident s)). unfold wordlen, scanIdentifier. fold (ident_runes s). destruct (ident_runes s). cbn [snd] in *. lia. Qed.
Lemma scanNumber_cost s : c_number s + 2 * length (snd (scanNumber s)) <= 2 * length s + 1.
Proof. rewrite scanNumber_snd. apply number_cost. Qed.

(** One token, with the word after it as a debt. *)
Lemma next_cost pd s0 r s' pd' : next pd s0 = (r, s', pd') ->
  c_next s0 + 10 * length s' + 2 * wordlen s0 <= 10 * length s0 + 2 * wordlen s' + 18.
Proof.
  intros E. destruct (next_passes _ _ _ _ _ E) as [l0 P0]. pose proof (wordlen_passes _ _ _ P0) as W0. clear P0 l0.
  unfold next in E. unfold c_next. destruct (trivia_tally s0) as (l & _ & _ & P & _). pose proof (wordlen_passes _ _ _ P) as W1. pose proof (suffix_length _ _ (passes_suffix _ _ _ P)) as L1. clear P l.
  pose proof (space_cost (S (length s0)) s0) as C1. fold (c_space s0) in C1. pose proof (comment_cost (skipSpace s0)) as C2. pose proof (regions_cost (skipComment (skipSpace s0))) as C3.
  set (s := skipRegions (skipComment (skipSpace s0))) in *.
  assert (K : c_space s0 + c_comment (skipSpace s0) + c_regions (skipComment (skipSpace s0)) + 8 * length s <= 8 * length s0 + 9).
  { pose proof (suffix_length _ _ (suffix_skipSpace s0)). lia. }
  set (k := c_space s0 + c_comment (skipSpace s0) + c_regions (skipComment (skipSpace s0))) in *. clearbody k. clear C1 C2 C3. clearbody s.
  assert (Z : forall n, n + 8 * length s' <= 8 * length s + 8 -> k + 1 + n + 10 * length s' + 2 * wordlen s0 <= 10 * length s0 + 2 * wordlen s' + 18).
  { intros n H. lia. }
  pose proof (adv_le s) as A. pose proof (adv_le (adv s)) as A2.
  destruct (isLetter (cur s)) eqn:EL.
  { pose proof (scanIdentifier_cost s) as X. pose proof (suffix_length _ _ (suffix_scanIdentifier s)). destruct (scanIdentifier s) as [lit s2]. cbn [snd] in *.
    assert (s' = s2) as -> by (destruct (if pd then None else _) as [t|]; injection E as _ <- _; reflexivity). apply Z. lia. }
  destruct (cur s =? cDot)%Z. { injection E as _ <- _. apply Z. lia. }
  destruct (isDigit (cur s)) eqn:EG.
  { pose proof (scanNumber_cost s) as X. rewrite scanNumber_snd in X. pose proof (suffix_length _ _ (suffix_number s)) as Y. rewrite <- scanNumber_snd in *.
    destruct (scanNumber s) as [[lit|e] s2]; injection E as _ <- _; cbn [snd] in *; apply Z; lia. }
  destruct (cur s =? cApos)%Z.
  { pose proof (scanString_cost (cur s) s) as X. destruct (scanString (cur s) s) as [[lit|e] s2]; cbn [snd] in *;
    [|injection E as _ <- _; apply Z; lia]. assert (s2 = s') as -> by (destruct (extractDigits lit); injection E as _ <- _; reflexivity). apply Z. lia. }
  destruct (punct (cur s)). { injection E as _ <- _. apply Z. lia. }
  destruct (cur s =? 61)%Z. { injection E as _ <- _. apply Z. lia. }
  destruct (cur s =? cQuote)%Z.
  { pose proof (scanString_cost (cur s) s) as X. destruct (scanString (cur s) s) as [[lit|e] s2]; cbn [snd] in *; injection E as _ <- _; apply Z; lia. }
  destruct (cur s =? 60)%Z.
  { destruct (nextLet s =? 62)%Z; [injection E as _ <- _; apply Z; lia|]. destruct (nextLet s =? 61)%Z; injection E as _ <- _; apply Z; lia. }
  destruct (cur s =? 62)%Z.
  { destruct (nextLet s =? 61)%Z; injection E as _ <- _; apply Z; lia. }
  destruct (cur s =? 38)%Z eqn:EM.
  { pose proof (scanIdentifier_cost (adv s)) as X. pose proof (suffix_length _ _ (suffix_scanIdentifier (adv s))). pose proof (scanIdentifier_word (adv s)) as W.
    destruct (scanIdentifier (adv s)) as [lit s2]. cbn [snd] in *. destruct (assoc _ directives); injection E as _ <- _; [apply Z; lia|].
    assert (wordlen s = 0). { unfold wordlen. rewrite ident_runes_eq. apply Z.eqb_eq in EM. rewrite EL, EG. cbn [orb snd]. lia. }
    lia. }
  destruct (cur s =? 126)%Z.
  { pose proof (scanIdentifier_cost (adv s)) as X. pose proof (suffix_length _ _ (suffix_scanIdentifier (adv s))).
    destruct (scanIdentifier (adv s)) as [lit s2]. cbn [snd] in *. injection E as _ <- _. apply Z. lia. }
  destruct (cur s =? EOF)%Z; injection E as _ <- _; apply Z; lia.
Qed.
Lemma next_cost_end : c_next [] = 7. Proof. reflexivity. Qed.
(** Where there is something to pass, something is passed. *)
Lemma next_paid pd s0 r s' pd' : next pd s0 = (r, s', pd') ->
  c_next s0 + 21 * length s' + 2 * wordlen s0 <= 21 * length s0 + 2 * wordlen s' + 7.
Proof.
  intros E. destruct s0 as [|b s0].
  { destruct (next_passes _ _ _ _ _ E) as [l P]. apply passes_suffix, suffix_length in P. destruct s'; [|cbn in P; lia]. rewrite next_cost_end. cbn. lia. }
  pose proof (next_cost _ _ _ _ _ E). destruct (next_progress _ _ _ _ _ E) as [_ [(_ & _ & -> & _)|Q]]; cbn [length] in *; lia.
Qed.
