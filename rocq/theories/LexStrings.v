(** Proofs: string and date literals (C05, C06). *)
From Verif Require Import Bytes Utf8 UnicodeTables Float64 GoTime Ast Lexer LexFacts Utf8Facts LexSpec LexProofs LexTrivia LexTokens.

Lemma skipComment_comment l s : line l -> skipComment (B "//" ++ l ++ nl ++ s) = trivia_end s.
Proof.
  intros Hl. pose proof (trivia_end_comment l s Hl) as H. unfold trivia_end in H at 1.
  change (B "//") with ([x2f; x2f]) in *. cbn [app] in *.
  rewrite (skipSpace_id (x2f :: x2f :: l ++ nl ++ s)) in H by (rewrite cur_ascii by reflexivity; reflexivity).
  rewrite skipRegions_settled in H; [exact H|].
  apply settles. rewrite cur_ascii by reflexivity. reflexivity.
Qed.

Lemma skipSpace_split s : exists b, blanks b /\ s = b ++ skipSpace s.
Proof.
  induction s as [s IH] using bytes_ind. rewrite skipSpace_eq.
  destruct (isSpace (cur s)) eqn:E; [|exists []; split; [constructor | reflexivity]].
  destruct s as [|c s]; [discriminate|].
  assert (Hs : c :: s <> []) by congruence.
  assert (Hc : cur (c :: s) < 128) by (unfold isSpace in E; lia).
  destruct (cur_small_byte c s Hc) as [Hb Hb2]. rewrite adv_ascii in * by exact Hb.
  destruct (IH s) as (b & H1 & H2); [simpl; lia|].
  exists (c :: b). split.
  - constructor; [|exact H1]. apply isSpace_spec. rewrite <- Hb2. exact E.
  - cbn [app]. rewrite <- H2. reflexivity.
Qed.

Lemma skipLine_split s : exists l, line l /\ s = l ++ skipLine s /\
  (skipLine s = [] \/ exists s', skipLine s = nl ++ s').
Proof.
  induction s as [s IH] using bytes_ind. rewrite skipLine_eq.
  destruct ((cur s =? EOL) || (cur s =? EOF)) eqn:E.
  - exists []. split; [constructor|]. split; [reflexivity|].
    destruct s as [|c s]; [left; reflexivity|right].
    assert (Hc : cur (c :: s) = 10).
    { apply orb_true_iff in E as [E|E]; [unfold EOL in E; lia|].
      apply Z.eqb_eq in E. apply cur_EOF in E. discriminate. }
    destruct (cur_small_byte c s ltac:(lia)) as [_ Hb]. exists s.
    unfold nl. cbn [app]. f_equal. rewrite <- (z2b_b2z c). f_equal. lia.
  - destruct s as [|c s]; [discriminate|]. assert (Hs : c :: s <> []) by congruence.
    destruct (IH _ (adv_length _ Hs)) as (l & H1 & H2 & H3).
    exists (firstn (snd (decode (c :: s))) (c :: s) ++ l). split; [|split; [|exact H3]].
    + apply Forall_app. split; [|exact H1]. apply Forall_forall. intros b Hb.
      apply In_nth_error in Hb as (i & Hi).
      assert (Hlen : (i < snd (decode (c :: s)))%nat).
      { apply Nat.lt_le_trans with (length (firstn (snd (decode (c :: s))) (c :: s))).
        - apply nth_error_Some. congruence.
        - rewrite firstn_length. lia. }
      assert (Hi2 : nth_error (c :: s) i = Some b).
      { rewrite <- Hi. rewrite <- (firstn_skipn (snd (decode (c :: s))) (c :: s)) at 1.
        apply nth_error_app1. apply nth_error_Some. congruence. }
      destruct i as [|i].
      * injection Hi2 as ->. intros Hb. apply orb_false_iff in E as [E _].
        rewrite cur_ascii in E by lia. unfold EOL in E. lia.
      * pose proof (decode_tail c s i b Hlen Hi2). lia.
    + rewrite <- app_assoc, <- H2. unfold adv. symmetry. apply firstn_skipn.
Qed.

Lemma blanks_trivia b : blanks b -> trivia b.
Proof. induction 1; constructor; assumption. Qed.
Lemma trivia_app a b : trivia a -> trivia b -> trivia (a ++ b).
Proof.
  induction 1 as [|x w Hx Hw IH|l w Hl Hw IH|l w Hl Hw IH]; intros Hb; [exact Hb| | |].
  - constructor; auto.
  - rewrite <- !app_assoc. apply tr_comment; auto.
  - rewrite <- !app_assoc. apply tr_hash; auto.
Qed.

Lemma cur_b s c : 0 <= c < 128 -> cur s = c -> exists s', s = z2b c :: s'.
Proof.
  intros Hc H. destruct s as [|b s]; [rewrite cur_nil in H; unfold EOF in H; lia|].
  destruct (cur_small_byte b s ltac:(lia)) as [_ Hb]. exists s. f_equal.
  rewrite <- (z2b_b2z b). f_equal. lia.
Qed.

(** What a comment / region skip consumed, when something is left. *)
Definition gap0 (t : bytes) : Prop := t = [] \/ exists l w, line l /\ trivia w /\ t = B "//" ++ l ++ nl ++ w.
Lemma gap0_trivia t : gap0 t -> trivia t.
Proof. intros [->|(l & w & H1 & H2 & ->)]; [constructor | apply tr_comment; assumption]. Qed.

Lemma comment_start s : cur s = cSlash -> nextLet s = cSlash -> exists s', s = B "//" ++ s'.
Proof.
  intros H1 H2. destruct (cur_b s cSlash ltac:(unfold cSlash; lia) H1) as [s' ->].
  unfold nextLet in H2. rewrite adv_ascii in H2 by reflexivity.
  destruct (cur_b s' cSlash ltac:(unfold cSlash; lia) H2) as [s2 ->]. exists s2. reflexivity.
Qed.

Lemma line_cut (p : bytes) s : line p -> forall rest, (exists s', rest = nl ++ s') -> 
  (exists l, line l /\ p ++ s = l ++ rest) -> exists l, line l /\ s = l ++ rest.
Proof.
  induction p as [|b p IH]; intros Hp rest Hr (l & Hl & E); [exists l; auto|].
  inversion Hp as [|? ? Hb Hp']; subst. destruct l as [|c l].
  - destruct Hr as (s' & ->). cbn [app] in E. injection E as -> E. exfalso. apply Hb. reflexivity.
  - cbn [app] in E. injection E as -> E. inversion Hl; subst. apply (IH Hp' rest Hr). exists l. auto.
Qed.

Lemma skip_splits s :
  (skipComment s <> [] -> exists t, gap0 t /\ s = t ++ skipComment s) /\
  (skipRegions s <> [] -> exists t, trivia t /\ s = t ++ skipRegions s).
Proof.
  induction s as [s IH] using bytes_ind.
  (* after a line and white space *)
  assert (HL : forall p s0, line p -> s = p ++ s0 -> p <> [] -> skipSpace (skipLine s) <> [] ->
     exists l b, line l /\ blanks b /\ s = p ++ l ++ nl ++ b ++ skipSpace (skipLine s)).
  { intros p s0 Hp Es Hpn Hne.
    destruct (skipLine_split s) as (l & H1 & H2 & H3).
    destruct (skipSpace_split (skipLine s)) as (b & B1 & B2).
    destruct H3 as [H3|(s' & H3)]; [rewrite H3 in Hne; exfalso; apply Hne; reflexivity|].
    destruct (line_cut p s0 Hp (skipLine s)) as (l' & L1 & L2); [eauto | exists l; split; [exact H1 | congruence]|].
    assert (Hb : exists b', b = z2b 10 :: b' /\ blanks b').
    { destruct b as [|x b'].
      - cbn [app] in B2. exfalso. pose proof (skipSpace_not_space (skipLine s)) as N.
        rewrite <- B2, H3 in N. cbn [nl app] in N. rewrite cur_ascii in N by reflexivity. discriminate.
      - rewrite H3 in B2 at 1. cbn [nl app] in B2. injection B2 as <- _.
        inversion B1; subst. exists b'. auto. }
    destruct Hb as (b' & -> & Hb'). exists l', b'. split; [exact L1|]. split; [exact Hb'|].
    rewrite Es at 1. rewrite L2. rewrite B2 at 1. reflexivity. }
  assert (HC : skipComment s <> [] -> exists t, gap0 t /\ s = t ++ skipComment s).
  { rewrite skipComment_eq. destruct ((cur s =? cSlash) && (nextLet s =? cSlash)) eqn:E.
    - apply andb_true_iff in E as [E1 E2]. apply Z.eqb_eq in E1, E2.
      destruct (comment_start s E1 E2) as (s0 & Es).
      assert (Hs : s <> []) by (rewrite Es; discriminate).
      assert (Hl : (length (skipSpace (skipLine s)) < length s)%nat)
        by (apply skip_line_space_lt; [exact Hs | rewrite E1; discriminate]).
      destruct (IH _ Hl) as [I1 I2].
      assert (Hpl : line (B "//")) by (repeat constructor; discriminate).
      specialize (HL (B "//") s0 Hpl Es ltac:(discriminate)).
      cbv zeta. set (s1 := skipSpace (skipLine s)) in *.
      destruct (cur s1 =? cSlash) eqn:E3.
      + intros Hne. destruct (I1 Hne) as (t & T1 & T2).
        destruct HL as (l & b & L1 & L2 & L3); [intros Z; rewrite Z in Hne; apply Hne; reflexivity|].
        exists (B "//" ++ l ++ nl ++ b ++ t). split.
        * right. exists l, (b ++ t). repeat split; [exact L1|].
          apply trivia_app; [apply blanks_trivia, L2 | apply gap0_trivia, T1].
        * rewrite <- !app_assoc. rewrite <- T2. exact L3.
      + destruct (cur s1 =? cHash) eqn:E4.
        * intros Hne. destruct (I2 Hne) as (t & T1 & T2).
          destruct HL as (l & b & L1 & L2 & L3); [intros Z; rewrite Z in Hne; apply Hne; reflexivity|].
          exists (B "//" ++ l ++ nl ++ b ++ t). split.
          -- right. exists l, (b ++ t). repeat split; [exact L1|].
             apply trivia_app; [apply blanks_trivia, L2 | exact T1].
          -- rewrite <- !app_assoc. rewrite <- T2. exact L3.
        * intros Hne. destruct (HL Hne) as (l & b & L1 & L2 & L3).
          exists (B "//" ++ l ++ nl ++ b). split.
          -- right. exists l, b. repeat split; [exact L1 | apply blanks_trivia, L2].
          -- rewrite <- !app_assoc. exact L3.
    - intros _. exists []. split; [left; reflexivity | reflexivity]. }
  split; [exact HC|]. rewrite skipRegions_eq. cbv zeta. destruct (cur s =? cHash) eqn:E.
  - apply Z.eqb_eq in E. destruct (cur_b s cHash ltac:(unfold cHash; lia) E) as (s0 & Es).
    assert (Hs : s <> []) by (rewrite Es; discriminate).
    assert (Hl : (length (skipSpace (skipLine s)) < length s)%nat)
      by (apply skip_line_space_lt; [exact Hs | rewrite E; discriminate]).
    destruct (IH _ Hl) as [I1 I2].
    assert (Hpl : line (B "#")) by (repeat constructor; discriminate).
    specialize (HL (B "#") s0 Hpl Es ltac:(discriminate)).
    set (s1 := skipSpace (skipLine s)) in *.
    destruct (cur s1 =? cSlash) eqn:E3.
    + intros Hne. destruct (I1 Hne) as (t & T1 & T2).
      destruct HL as (l & b & L1 & L2 & L3); [intros Z; rewrite Z in Hne; apply Hne; reflexivity|].
      exists (B "#" ++ l ++ nl ++ b ++ t). split.
      * apply tr_hash; [exact L1|]. apply trivia_app; [apply blanks_trivia, L2 | apply gap0_trivia, T1].
      * rewrite <- !app_assoc. rewrite <- T2. exact L3.
    + destruct (cur s1 =? cHash) eqn:E4.
      * intros Hne. destruct (I2 Hne) as (t & T1 & T2).
        destruct HL as (l & b & L1 & L2 & L3); [intros Z; rewrite Z in Hne; apply Hne; reflexivity|].
        exists (B "#" ++ l ++ nl ++ b ++ t). split.
        -- apply tr_hash; [exact L1|]. apply trivia_app; [apply blanks_trivia, L2 | exact T1].
        -- rewrite <- !app_assoc. rewrite <- T2. exact L3.
      * intros Hne. destruct (HL Hne) as (l & b & L1 & L2 & L3).
        exists (B "#" ++ l ++ nl ++ b). split.
        -- apply tr_hash; [exact L1 | apply blanks_trivia, L2].
        -- rewrite <- !app_assoc. exact L3.
  - destruct (cur s =? cSlash) eqn:E3.
    + intros Hne. destruct (HC Hne) as (t & T1 & T2). exists t. split; [apply gap0_trivia, T1 | exact T2].
    + rewrite E. intros _. exists []. split; [constructor | reflexivity].
Qed.

Lemma skipComment_not_space s : isSpace (cur s) = false -> isSpace (cur (skipComment s)) = false.
Proof.
  assert (H : isSpace (cur s) = false -> isSpace (cur (skipComment s)) = false /\ isSpace (cur (skipRegions s)) = false).
  { induction s as [s IH] using bytes_ind. intros Hsp.
    assert (HC : isSpace (cur (skipComment s)) = false).
    { rewrite skipComment_eq. destruct ((cur s =? cSlash) && (nextLet s =? cSlash)) eqn:E; [|exact Hsp].
      assert (Hs : s <> []) by (intros ->; discriminate).
      assert (Hl : (length (skipSpace (skipLine s)) < length s)%nat)
        by (apply skip_line_space_lt; [exact Hs | unfold EOL, cSlash in *; lia]).
      pose proof (skipSpace_not_space (skipLine s)) as N.
      cbv zeta. destruct (IH _ Hl N) as [I1 I2]. set (s1 := skipSpace (skipLine s)) in *.
      destruct (cur s1 =? cSlash); [exact I1|]. destruct (cur s1 =? cHash); [exact I2 | exact N]. }
    split; [exact HC|]. rewrite skipRegions_eq. cbv zeta. destruct (cur s =? cHash) eqn:E.
    - assert (Hs : s <> []) by (intros ->; discriminate).
      assert (Hl : (length (skipSpace (skipLine s)) < length s)%nat)
        by (apply skip_line_space_lt; [exact Hs | unfold EOL, cHash in *; lia]).
      pose proof (skipSpace_not_space (skipLine s)) as N.
      destruct (IH _ Hl N) as [I1 I2]. set (s1 := skipSpace (skipLine s)) in *.
      destruct (cur s1 =? cSlash); [exact I1|]. destruct (cur s1 =? cHash); [exact I2 | exact N].
    - destruct (cur s =? cSlash); [exact HC|]. rewrite E. exact Hsp. }
  intros Hs. apply H, Hs.
Qed.

(** The gap between a line break and the bar. *)
Lemma gap_forward t s : line_gap t -> skipComment (skipSpace (t ++ z2b 124 :: s)) = z2b 124 :: s.
Proof.
  intros [H|(b & l & w & H1 & H2 & H3 & ->)].
  - rewrite skipSpace_blanks by exact H.
    rewrite skipSpace_id by (rewrite cur_ascii by reflexivity; reflexivity).
    apply skipComment_id. rewrite cur_ascii by reflexivity. unfold cSlash. rewrite b2z_z2b; lia.
  - rewrite <- !app_assoc. rewrite skipSpace_blanks by exact H1.
    rewrite skipSpace_id by (change (B "//") with [x2f; x2f]; cbn [app]; rewrite cur_ascii by reflexivity; reflexivity).
    rewrite skipComment_comment by exact H2.
    apply trivia_end_start; [exact H3| | |]; rewrite cur_ascii by reflexivity; try discriminate. reflexivity.
Qed.
Lemma gap_backward s : cur (skipComment (skipSpace s)) = 124 ->
  exists t s', line_gap t /\ s = t ++ z2b 124 :: s' /\ skipComment (skipSpace s) = z2b 124 :: s'.
Proof.
  intros H. destruct (cur_b _ 124 ltac:(lia) H) as (s' & Es).
  destruct (skipSpace_split s) as (b & B1 & B2).
  destruct (proj1 (skip_splits (skipSpace s))) as (t & T1 & T2); [rewrite Es; discriminate|].
  exists (b ++ t), s'. split; [|split; [|exact Es]].
  - destruct T1 as [->|(l & w & L1 & L2 & ->)]; [left; rewrite app_nil_r; exact B1|].
    right. exists b, l, w. repeat split; assumption.
  - rewrite B2 at 1. rewrite T2, Es at 1. rewrite app_assoc. reflexivity.
Qed.

Definition quote_char (en : Z) : Prop := en = 34 \/ en = 39.

Lemma ends_ok rest : (forall c, first_char rest c -> ~ space_char c /\ c <> 34) <->
  (isSpace (cur rest) = false /\ cur rest <> 34).
Proof.
  split.
  - intros H. destruct rest as [|b s]; [split; [reflexivity | discriminate]|].
    destruct (H (cur (b :: s))) as [H1 H2]; [split; [discriminate | reflexivity]|].
    split; [|exact H2]. destruct (isSpace (cur (b :: s))) eqn:E; [|reflexivity].
    exfalso. apply H1, isSpace_spec, E.
  - intros [H1 H2] c [Hn Hc]. destruct rest as [|b s]; [congruence|]. unfold cur in *. rewrite Hc in *.
    split; [|exact H2]. intros Hs. apply isSpace_spec in Hs. congruence.
Qed.

(** Scanning finds every literal. *)
Lemma scan_complete en s v rest : quote_char en -> str_text en s v rest ->
  forall n acc x, adv x = s -> (length x < n)%nat -> scan_string_fuel n en acc x = (inl (acc ++ v), rest).
Proof.
  intros Hq H. assert (Hen : 0 <= en < 128) by (unfold quote_char in Hq; lia).
  assert (Hben : b2z (z2b en) = en) by (apply b2z_z2b; lia).
  induction H as [b rest Hb Hr|s v rest r k Hs Hd H10 Hre H IH|s v rest H IH|t s v rest Ht H IH|b s v rest Hb Hbn H IH];
  intros n acc x Hx Hn; (destruct n as [|n]; [lia|]); cbn [scan_string_fuel]; cbv zeta; rewrite Hx;
  assert (Hxn : x <> []) by (intros ->; rewrite adv_nil in Hx; first [discriminate | congruence]);
  pose proof (adv_length x Hxn) as Hlx; rewrite Hx in Hlx.
  - apply ends_ok in Hr as [R1 R2]. rewrite cur_ascii, Hben by lia.
    replace (en =? EOL) with false by (unfold quote_char, EOL in *; lia).
    replace (en =? EOF) with false by (unfold quote_char, EOF in *; lia). rewrite Z.eqb_refl.
    unfold nextLet. rewrite adv_ascii by lia. rewrite skipSpace_blanks, skipSpace_id by assumption.
    assert (Hc : cur (b ++ rest) <> cQuote).
    { destruct b as [|b0 b]; [exact R2|]. inversion Hb as [|? ? S1 S2]; subst. cbn [app].
      rewrite cur_ascii by (unfold space_char in S1; lia). unfold space_char, cQuote in *. lia. }
    replace (cur (b ++ rest) =? cQuote) with false by lia.
    replace (cur rest =? cQuote) with false by (unfold cQuote; lia).
    rewrite app_nil_r. reflexivity.
  - assert (Hcur : cur s = r) by (destruct s; [congruence|]; unfold cur; rewrite Hd; reflexivity).
    pose proof (decode_nonneg s) as Hnn. rewrite Hd in Hnn. cbn [fst] in Hnn. rewrite Hcur.
    replace (r =? EOL) with false by (unfold EOL; lia). replace (r =? EOF) with false by (unfold EOF; lia).
    replace (r =? en) with false by lia.
    rewrite (IH n (acc ++ [r]) s) by (first [unfold adv; rewrite Hd; reflexivity | lia]).
    rewrite <- app_assoc. reflexivity.
  - rewrite cur_ascii, Hben by lia.
    replace (en =? EOL) with false by (unfold quote_char, EOL in *; lia).
    replace (en =? EOF) with false by (unfold quote_char, EOF in *; lia). rewrite Z.eqb_refl.
    unfold nextLet. rewrite adv_ascii by lia. rewrite cur_ascii by reflexivity.
    change (b2z (z2b 34) =? cQuote) with true. cbv iota.
    rewrite (IH n (acc ++ [cQuote; cQuote]) (z2b 34 :: s)).
    + rewrite <- app_assoc. reflexivity.
    + apply adv_ascii. reflexivity.
    + simpl in *. lia.
  - rewrite cur_ascii by reflexivity. change (b2z (z2b 10) =? EOL) with true. cbv iota.
    rewrite adv_ascii by reflexivity. rewrite gap_forward by exact Ht.
    rewrite cur_ascii by reflexivity. change (b2z (z2b 124)) with 124.
    change (negb (124 =? cBar) && negb (isSpace 124)) with false. cbv iota.
    rewrite (IH n (acc ++ [EOL; 124]) (z2b 124 :: s)).
    + rewrite <- app_assoc. reflexivity.
    + apply adv_ascii. reflexivity.
    + cbn [length] in *. rewrite app_length in Hlx. simpl in *. lia.
  - rewrite cur_ascii, Hben by lia.
    replace (en =? EOL) with false by (unfold quote_char, EOL in *; lia).
    replace (en =? EOF) with false by (unfold quote_char, EOF in *; lia). rewrite Z.eqb_refl.
    unfold nextLet. rewrite adv_ascii by lia. rewrite skipSpace_blanks by assumption.
    rewrite skipSpace_id by (rewrite cur_ascii by reflexivity; reflexivity).
    assert (Hc : cur (b ++ z2b 34 :: s) <> cQuote).
    { destruct b as [|b0 b]; [congruence|]. inversion Hb as [|? ? S1 S2]; subst. cbn [app].
      rewrite cur_ascii by (unfold space_char in S1; lia). unfold space_char, cQuote in *. lia. }
    replace (cur (b ++ z2b 34 :: s) =? cQuote) with false by lia.
    rewrite cur_ascii by reflexivity. change (b2z (z2b 34) =? cQuote) with true. cbv iota.
    apply IH; [apply adv_ascii; reflexivity|].
    cbn [length] in *. rewrite app_length in Hlx. simpl in *. lia.
Qed.

(** Scanning returns only literals. *)
Lemma scan_sound en : quote_char en -> forall n acc x r rest,
  scan_string_fuel n en acc x = (inl r, rest) -> exists v, r = acc ++ v /\ str_text en (adv x) v rest.
Proof.
  intros Hq. assert (Hen : 0 <= en < 128) by (unfold quote_char in Hq; lia).
  induction n as [|n IH]; intros acc x r rest; [discriminate|].
  cbn [scan_string_fuel]. cbv zeta. set (s := adv x).
  destruct (cur s =? EOL) eqn:E1.
  - apply Z.eqb_eq in E1. destruct (cur_b s EOL ltac:(unfold EOL; lia) E1) as (s0 & Es).
    assert (Ea : adv s = s0) by (rewrite Es; apply adv_ascii; reflexivity). rewrite Ea.
    pose proof (skipComment_not_space _ (skipSpace_not_space s0)) as N. rewrite N.
    destruct (cur (skipComment (skipSpace s0)) =? cBar) eqn:E2; [|discriminate].
    apply Z.eqb_eq in E2. destruct (gap_backward s0 E2) as (t & s1 & T1 & T2 & T3).
    cbn [negb andb]. rewrite T3. intros H. apply IH in H as (v & Hv & Hs).
    exists (10 :: 124 :: v). split.
    + rewrite Hv. rewrite <- app_assoc. rewrite cur_ascii by reflexivity. reflexivity.
    + rewrite Es, T2. apply st_break; [exact T1|]. rewrite adv_ascii in Hs by reflexivity. exact Hs.
  - destruct (cur s =? EOF) eqn:E2; [discriminate|].
    assert (Hs : s <> []) by (intros E; rewrite E, cur_nil in E2; discriminate).
    destruct (cur s =? en) eqn:E3.
    + apply Z.eqb_eq in E3. destruct (cur_b s en Hen E3) as (s0 & Es).
      assert (Ea : adv s = s0) by (rewrite Es; apply adv_ascii; rewrite b2z_z2b; lia).
      unfold nextLet. rewrite Ea.
      destruct (cur s0 =? cQuote) eqn:E4.
      * apply Z.eqb_eq in E4. destruct (cur_b s0 cQuote ltac:(unfold cQuote; lia) E4) as (s1 & Es0).
        intros H. apply IH in H as (v & Hv & Hst). exists (34 :: 34 :: v). split.
        -- rewrite Hv, <- app_assoc. reflexivity.
        -- rewrite Es, Es0. apply st_quote. rewrite Es0, adv_ascii in Hst by reflexivity. exact Hst.
      * destruct (skipSpace_split s0) as (b & B1 & B2).
        destruct (cur (skipSpace s0) =? cQuote) eqn:E5.
        -- apply Z.eqb_eq in E5. destruct (cur_b _ cQuote ltac:(unfold cQuote; lia) E5) as (s1 & Es1).
           intros H. apply IH in H as (v & Hv & Hst). exists v. split; [exact Hv|].
           rewrite Es, B2, Es1. apply st_join; [exact B1| |rewrite Es1, adv_ascii in Hst by reflexivity; exact Hst].
           intros ->. cbn [app] in B2. rewrite B2, E5 in E4. discriminate.
        -- intros [= <- <-]. exists []. split; [rewrite app_nil_r; reflexivity|].
           rewrite Es, B2 at 1. apply st_end; [exact B1|]. apply ends_ok. split; [apply skipSpace_not_space|].
           unfold cQuote in E5. lia.
    + intros H. apply IH in H as (v & Hv & Hst). exists (cur s :: v). split.
      * rewrite Hv, <- app_assoc. reflexivity.
      * apply st_char with (k := snd (decode s)); [exact Hs | | unfold EOL in E1; lia | lia | exact Hst].
        rewrite (surjective_pairing (decode s)). f_equal. destruct s; [congruence|reflexivity].
Qed.

Lemma scanString_iff en x lit rest : quote_char en ->
  scanString en x = (inl lit, rest) <->
  exists v, str_text en (adv x) v rest /\ lit = string_of_runes v.
Proof.
  intros Hq. unfold scanString. split.
  - destruct (scan_string_fuel (S (length x)) en [] x) as [[r|e] s'] eqn:E; [|discriminate].
    intros [= <- <-]. destruct (scan_sound en Hq _ _ _ _ _ E) as (v & Hv & Hs).
    exists v. split; [exact Hs | rewrite Hv; reflexivity].
  - intros (v & Hs & ->).
    rewrite (scan_complete en _ _ _ Hq Hs (S (length x)) [] x eq_refl) by lia. reflexivity.
Qed.

Lemma str_text_fun en s v1 r1 v2 r2 : quote_char en ->
  str_text en s v1 r1 -> str_text en s v2 r2 -> v1 = v2 /\ r1 = r2.
Proof.
  intros Hq H1 H2. set (x := z2b en :: s).
  assert (Ha : adv x = s) by (apply adv_ascii; rewrite b2z_z2b; unfold quote_char in Hq; lia).
  pose proof (scan_complete en _ _ _ Hq H1 (S (length x)) [] x Ha ltac:(lia)) as E1.
  pose proof (scan_complete en _ _ _ Hq H2 (S (length x)) [] x Ha ltac:(lia)) as E2.
  rewrite E1 in E2. injection E2 as -> ->. auto.
Qed.

(** A content in the plain form. *)
Lemma str_body_text w b rest : str_body w -> blanks b ->
  (forall c, first_char rest c -> ~ space_char c /\ c <> 34) ->
  str_text 34 (string_of_runes w ++ z2b 34 :: b ++ rest) w rest.
Proof.
  intros Hw Hb Hr. induction Hw as [|c w Hv H1 H2 Hw IH|w Hw IH|w Hw IH].
  - apply st_end; assumption.
  - cbn [string_of_runes flat_map]. fold (string_of_runes w). rewrite <- app_assoc.
    apply st_char with (k := length (encode c)); [apply app_nonnil, encode_nonnil | | lia | lia |].
    + apply decode_encode, Hv.
    + rewrite skipn_app, skipn_all, Nat.sub_diag. exact IH.
  - apply st_quote. exact IH.
  - apply (st_break 34 []); [left; constructor | exact IH].
Qed.

(** ** Tokens *)
Lemma next_at w0 c s : trivia w0 -> 0 <= c < 128 -> c <> 47 -> c <> 35 -> isSpace c = false ->
  trivia_end (w0 ++ z2b c :: s) = z2b c :: s.
Proof.
  intros H0 Hc H1 H2 H3. apply trivia_end_start; [exact H0| | |];
  rewrite cur_ascii, b2z_z2b by (rewrite ?b2z_z2b; lia); assumption.
Qed.

Lemma next_string pd w0 s v rest : trivia w0 -> str_text 34 s v rest ->
  next pd (w0 ++ z2b 34 :: s) = (LexRes tString (string_of_runes v) None, rest, false).
Proof.
  intros H0 Hs. unfold next. fold (trivia_end (w0 ++ z2b 34 :: s)).
  rewrite (next_at w0 34 s) by (try assumption; try lia; reflexivity). cbv zeta.
  rewrite cur_ascii by reflexivity. change (b2z (z2b 34)) with 34.
  change (isLetter 34) with false. cbv iota. cbn [Z.eqb Pos.eqb]. 
  change (34 =? cDot) with false. change (isDigit 34) with false. change (34 =? cApos) with false.
  change (punct 34) with false. change (34 =? cQuote) with true. cbv iota.
  rewrite (proj2 (scanString_iff 34 (z2b 34 :: s) (string_of_runes v) rest (or_introl eq_refl))); [reflexivity|].
  exists v. rewrite adv_ascii by reflexivity. auto.
Qed.

Lemma next_no_string pd w0 s : trivia w0 -> (forall v rest, ~ str_text 34 s v rest) ->
  exists e s', next pd (w0 ++ z2b 34 :: s) = (LexRes EOF [] (Some e), s', false).
Proof.
  intros H0 Hs. unfold next. fold (trivia_end (w0 ++ z2b 34 :: s)).
  rewrite (next_at w0 34 s) by (try assumption; try lia; reflexivity). cbv zeta.
  rewrite cur_ascii by reflexivity. change (b2z (z2b 34)) with 34.
  change (isLetter 34) with false. cbv iota.
  change (34 =? cDot) with false. change (isDigit 34) with false. change (34 =? cApos) with false.
  change (punct 34) with false. change (34 =? cQuote) with true. cbv iota.
  destruct (scanString 34 (z2b 34 :: s)) as [[lit|e] s'] eqn:E; [|do 2 eexists; reflexivity].
  exfalso. apply scanString_iff in E as (v & Hv & _); [|left; reflexivity].
  rewrite adv_ascii in Hv by reflexivity. exact (Hs _ _ Hv).
Qed.
