(** Proofs: text between tokens (C04), lower-casing (C10). *)
From Verif Require Import Bytes Utf8 UnicodeTables Float64 GoTime Ast Lexer LexFacts Utf8Facts LexSpec LexProofs.

(** * ASCII bytes *)
Lemma cur_ascii b s : b2z b < 128 -> cur (b :: s) = b2z b.
Proof. intros H. unfold cur, decode. replace (b2z b <? 128) with true by lia. reflexivity. Qed.
Lemma adv_ascii b s : b2z b < 128 -> adv (b :: s) = s.
Proof. intros H. unfold adv, decode. replace (b2z b <? 128) with true by lia. reflexivity. Qed.

(** Bytes after the first one of a decoded sequence are at least 128. *)
Lemma decode_tail b s i c : (S i < snd (decode (b :: s)))%nat -> nth_error s i = Some c -> 128 <= b2z c.
Proof.
  unfold decode, cont.
  destruct (b2z b <? 128) eqn:E1; [cbn [snd]; lia|].
  destruct ((194 <=? b2z b) && (b2z b <=? 223)) eqn:E2.
  { destruct s as [|b1 s1]; [cbn [snd]; lia|]. cbv zeta.
    match goal with |- context [if ?c then _ else _] => destruct c eqn:E4 end; cbn [snd]; [|lia].
    intros Hi. assert (i = 0%nat) as -> by lia. intros [= <-]. lia. }
  destruct ((224 <=? b2z b) && (b2z b <=? 239)) eqn:E3.
  { destruct s as [|b1 [|b2 s1]]; try (cbn [snd]; lia). cbv zeta.
    match goal with |- context [if ?c then (_, 3%nat) else _] => destruct c eqn:E4 end; cbn [snd]; [|lia].
    rewrite !andb_true_iff, !Z.leb_le in E4.
    intros Hi. destruct i as [|[|i]]; [| |lia]; intros [= <-]; [|lia].
    destruct (b2z b =? 224); lia. }
  destruct ((240 <=? b2z b) && (b2z b <=? 244)) eqn:E4; [|cbn [snd]; lia].
  destruct s as [|b1 [|b2 [|b3 s1]]]; try (cbn [snd]; lia). cbv zeta.
  match goal with |- context [if ?c then (_, 4%nat) else _] => destruct c eqn:E5 end; cbn [snd]; [|lia].
  rewrite !andb_true_iff, !Z.leb_le in E5.
  intros Hi. destruct i as [|[|[|i]]]; [| | |lia]; intros [= <-]; try lia.
  destruct (b2z b =? 240); lia.
Qed.

Lemma cur_small_byte b s : cur (b :: s) < 128 -> b2z b < 128 /\ cur (b :: s) = b2z b.
Proof.
  intros H. destruct (Z_lt_dec (b2z b) 128) as [Hb|Hb].
  - split; [exact Hb | apply cur_ascii, Hb].
  - exfalso. revert H. unfold cur, decode, RuneError, cont.
    pose proof (b2z_range b).
    replace (b2z b <? 128) with false by lia.
    destruct ((194 <=? b2z b) && (b2z b <=? 223)) eqn:E2.
    { destruct s as [|b1 s1]; [cbn [fst]; lia|]. cbv zeta. pose proof (b2z_range b1).
      match goal with |- context [if ?c then _ else _] => destruct c eqn:E4 end; cbn [fst]; lia. }
    destruct ((224 <=? b2z b) && (b2z b <=? 239)) eqn:E3.
    { destruct s as [|b1 [|b2 s1]]; try (cbn [fst]; lia). cbv zeta.
      pose proof (b2z_range b1). pose proof (b2z_range b2).
      match goal with |- context [if ?c then (_, 3%nat) else _] => destruct c eqn:E4 end; cbn [fst]; [|lia].
      rewrite !andb_true_iff, !Z.leb_le in E4. destruct (b2z b =? 224) eqn:Ea; lia. }
    destruct ((240 <=? b2z b) && (b2z b <=? 244)) eqn:E4; [|cbn [fst]; lia].
    destruct s as [|b1 [|b2 [|b3 s1]]]; try (cbn [fst]; lia). cbv zeta.
    pose proof (b2z_range b1). pose proof (b2z_range b2). pose proof (b2z_range b3).
    match goal with |- context [if ?c then (_, 4%nat) else _] => destruct c eqn:E5 end; cbn [fst]; [|lia].
    rewrite !andb_true_iff, !Z.leb_le in E5. destruct (b2z b =? 240) eqn:Ea; lia.
Qed.

(** One step inside a line. *)
Lemma line_step b l s : line (b :: l) ->
  (s = [] \/ exists s', s = nl ++ s') ->
  cur ((b :: l) ++ s) <> EOL /\ exists l', line l' /\ adv ((b :: l) ++ s) = l' ++ s /\ (length l' <= length l)%nat.
Proof.
  intros Hl Hs. inversion Hl as [|? ? Hb Hl']; subst. split.
  - intros E. destruct (cur_small_byte b (l ++ s)) as [_ H]; [change ((b :: l) ++ s) with (b :: l ++ s) in E; rewrite E; unfold EOL; lia|].
    change ((b :: l) ++ s) with (b :: l ++ s) in E. rewrite E in H. unfold EOL in H. lia.
  - unfold adv. set (k := snd (decode ((b :: l) ++ s))).
    pose proof (decode_size ((b :: l) ++ s) ltac:(discriminate)) as Hk. fold k in Hk.
    assert (Hk2 : (k <= S (length l))%nat).
    { destruct Hs as [->|[s' ->]].
      - rewrite app_nil_r in Hk. simpl in Hk. lia.
      - destruct (le_lt_dec k (S (length l))) as [|Hgt]; [assumption|exfalso].
        assert (Hn : nth_error (l ++ nl ++ s') (length l) = Some (z2b 10)).
        { rewrite nth_error_app2, Nat.sub_diag by lia. reflexivity. }
        pose proof (decode_tail b (l ++ nl ++ s') (length l) _ Hgt Hn) as H.
        rewrite b2z_z2b in H by lia. lia. }
    exists (skipn (k - 1) l). repeat split.
    + unfold line in *. rewrite <- (firstn_skipn (k - 1) l) in Hl'. apply Forall_app in Hl'. tauto.
    + destruct k as [|k']; [lia|]. cbn [app skipn]. rewrite Nat.sub_succ, Nat.sub_0_r.
      rewrite skipn_app. replace (k' - length l)%nat with 0%nat by lia. reflexivity.
    + rewrite skipn_length. lia.
Qed.

Lemma skipLine_line : forall n l s, (length l <= n)%nat -> line l ->
  (s = [] \/ exists s', s = nl ++ s') -> skipLine (l ++ s) = s.
Proof.
  induction n as [|n IH]; intros l s Hn Hl Hs; (destruct l as [|b l]; [|]).
  - rewrite app_nil_l, skipLine_eq. destruct Hs as [->|[s' ->]]; reflexivity.
  - simpl in Hn. lia.
  - rewrite app_nil_l, skipLine_eq. destruct Hs as [->|[s' ->]]; reflexivity.
  - destruct (line_step b l s Hl Hs) as (H1 & l' & H2 & H3 & H4).
    rewrite skipLine_eq.
    replace ((cur ((b :: l) ++ s) =? EOL) || (cur ((b :: l) ++ s) =? EOF)) with false.
    + rewrite H3. apply IH; [simpl in Hn; lia | exact H2 | exact Hs].
    + symmetry. apply orb_false_iff. split; apply Z.eqb_neq; [exact H1|].
      intros E. apply cur_EOF in E. discriminate.
Qed.

Lemma skipSpace_space b s : space_char (b2z b) -> skipSpace (b :: s) = skipSpace s.
Proof.
  intros H. assert (b2z b < 128) by (unfold space_char in H; lia).
  rewrite skipSpace_eq, cur_ascii, adv_ascii by assumption.
  apply isSpace_spec in H. rewrite H. reflexivity.
Qed.
Lemma skipSpace_nl s : skipSpace (nl ++ s) = skipSpace s.
Proof. apply (skipSpace_space (z2b 10)). unfold space_char. rewrite b2z_z2b; lia. Qed.
Lemma skipSpace_id s : isSpace (cur s) = false -> skipSpace s = s.
Proof. intros H. rewrite skipSpace_eq, H. reflexivity. Qed.
Lemma skipSpace_blanks w s : blanks w -> skipSpace (w ++ s) = skipSpace s.
Proof. induction 1 as [|b w Hb Hw IH]; [reflexivity|]. simpl. rewrite skipSpace_space; auto. Qed.

(** A place where no comment and no # line starts. *)
Definition settled (s : bytes) : Prop :=
  cur s <> cHash /\ ~ (cur s = cSlash /\ nextLet s = cSlash).
Lemma skipComment_id s : ~ (cur s = cSlash /\ nextLet s = cSlash) -> skipComment s = s.
Proof.
  intros H. rewrite skipComment_eq.
  destruct ((cur s =? cSlash) && (nextLet s =? cSlash)) eqn:E; [|reflexivity].
  exfalso. apply H. lia.
Qed.
Lemma skipRegions_settled s : settled s -> skipRegions s = s.
Proof.
  intros [H1 H2]. rewrite skipRegions_eq. cbv zeta.
  replace (cur s =? cHash) with false by lia.
  destruct (cur s =? cSlash); [apply skipComment_id, H2|].
  replace (cur s =? cHash) with false by lia. reflexivity.
Qed.

Lemma settles s : settled (skipRegions s) /\ (cur s = cSlash -> settled (skipComment s)).
Proof.
  induction s as [s IH] using bytes_ind.
  assert (HC : cur s = cSlash -> settled (skipComment s)).
  { intros Hc. rewrite skipComment_eq.
    destruct ((cur s =? cSlash) && (nextLet s =? cSlash)) eqn:E.
    - assert (Hs : s <> []) by (apply (cur_neq s cSlash); [unfold cSlash; lia | lia]).
      assert (Hl : (length (skipSpace (skipLine s)) < length s)%nat)
        by (apply skip_line_space_lt; [exact Hs | unfold EOL, cSlash in *; lia]).
      cbv zeta. destruct (IH _ Hl) as [I1 I2]. set (s1 := skipSpace (skipLine s)) in *.
      destruct (cur s1 =? cSlash) eqn:E1; [apply I2; lia|].
      destruct (cur s1 =? cHash) eqn:E2; [exact I1|]. split; lia.
    - split; [unfold cHash, cSlash in *; lia | lia]. }
  split; [|exact HC]. rewrite skipRegions_eq. cbv zeta.
  destruct (cur s =? cHash) eqn:E.
  - assert (Hs : s <> []) by (apply (cur_neq s cHash); [unfold cHash; lia | lia]).
    assert (Hl : (length (skipSpace (skipLine s)) < length s)%nat)
      by (apply skip_line_space_lt; [exact Hs | unfold EOL, cHash in *; lia]).
    destruct (IH _ Hl) as [I1 I2]. set (s1 := skipSpace (skipLine s)) in *.
    destruct (cur s1 =? cSlash) eqn:E1; [apply I2; lia|].
    destruct (cur s1 =? cHash) eqn:E2; [exact I1|]. split; lia.
  - destruct (cur s =? cSlash) eqn:E1; [apply HC; lia|].
    rewrite E. split; lia.
Qed.

Lemma slash_b : b2z x2f = 47. Proof. reflexivity. Qed.
Lemma hash_b : b2z x23 = 35. Proof. reflexivity. Qed.

(** Trivia in front changes nothing. *)
Lemma trivia_end_comment l s : line l -> trivia_end (B "//" ++ l ++ nl ++ s) = trivia_end s.
Proof.
  intros Hl. change (B "//") with ([x2f; x2f]). cbn [app].
  unfold trivia_end at 1.
  rewrite (skipSpace_id (x2f :: x2f :: l ++ nl ++ s)) by (rewrite cur_ascii by reflexivity; reflexivity).
  rewrite skipComment_eq. unfold nextLet. rewrite adv_ascii by reflexivity.
  rewrite !cur_ascii by reflexivity. cbn [Z.eqb andb]. cbv zeta.
  change (x2f :: x2f :: l ++ nl ++ s) with ((x2f :: x2f :: l) ++ nl ++ s).
  rewrite (skipLine_line (length (x2f :: x2f :: l)));
    [ | lia | constructor; [discriminate | constructor; [discriminate | exact Hl]] | right; eauto].
  rewrite skipSpace_nl. change (b2z x2f =? cSlash) with true. cbn [andb].
  unfold trivia_end. set (s1 := skipSpace s).
  destruct (cur s1 =? cSlash) eqn:E1; [reflexivity|].
  rewrite (skipComment_id s1) by lia.
  destruct (cur s1 =? cHash) eqn:E2; [|reflexivity].
  apply skipRegions_settled. apply settles.
Qed.

Lemma trivia_end_hash l s : line l -> trivia_end (B "#" ++ l ++ nl ++ s) = trivia_end s.
Proof.
  intros Hl. change (B "#") with ([x23]). cbn [app].
  unfold trivia_end at 1.
  rewrite (skipSpace_id (x23 :: l ++ nl ++ s)) by (rewrite cur_ascii by reflexivity; reflexivity).
  rewrite skipComment_id by (rewrite cur_ascii by reflexivity; unfold cSlash; rewrite hash_b; lia).
  rewrite skipRegions_eq. rewrite cur_ascii by reflexivity.
  change (b2z x23 =? cHash) with true. cbv iota zeta.
  change (x23 :: l ++ nl ++ s) with ((x23 :: l) ++ nl ++ s).
  rewrite (skipLine_line (length (x23 :: l)));
    [ | lia | constructor; [discriminate | exact Hl] | right; eauto].
  rewrite skipSpace_nl. unfold trivia_end. set (s1 := skipSpace s).
  destruct (cur s1 =? cSlash) eqn:E1.
  - symmetry. apply skipRegions_settled. apply settles. lia.
  - rewrite (skipComment_id s1) by lia.
    destruct (cur s1 =? cHash) eqn:E2; [reflexivity|].
    symmetry. apply skipRegions_settled. split; lia.
Qed.

Lemma trivia_end_trivia w s : trivia w -> trivia_end (w ++ s) = trivia_end s.
Proof.
  induction 1 as [|b w Hb Hw IH|l w Hl Hw IH|l w Hl Hw IH]; [reflexivity| | |].
  - rewrite <- IH. cbn [app]. unfold trivia_end. rewrite skipSpace_space by exact Hb. reflexivity.
  - rewrite <- IH, <- (trivia_end_comment l (w ++ s) Hl). f_equal. rewrite <- !app_assoc. reflexivity.
  - rewrite <- IH, <- (trivia_end_hash l (w ++ s) Hl). f_equal. rewrite <- !app_assoc. reflexivity.
Qed.

Lemma trivia_end_last w : last_trivia w -> trivia_end w = [].
Proof.
  intros [w' H|w' l H Hl|w' l H Hl].
  - rewrite <- (app_nil_r w'), trivia_end_trivia by exact H. reflexivity.
  - rewrite trivia_end_trivia by exact H.
    change (B "//") with ([x2f; x2f]). cbn [app]. unfold trivia_end.
    rewrite (skipSpace_id (x2f :: x2f :: l)) by (rewrite cur_ascii by reflexivity; reflexivity).
    rewrite skipComment_eq. unfold nextLet. rewrite adv_ascii by reflexivity.
    rewrite !cur_ascii by reflexivity. change (b2z x2f =? cSlash) with true. cbn [andb]. cbv zeta.
    rewrite <- (app_nil_r (x2f :: x2f :: l)).
    rewrite (skipLine_line (length (x2f :: x2f :: l)));
      [ | lia | constructor; [discriminate | constructor; [discriminate | exact Hl]] | left; reflexivity].
    reflexivity.
  - rewrite trivia_end_trivia by exact H.
    change (B "#") with ([x23]). cbn [app]. unfold trivia_end.
    rewrite (skipSpace_id (x23 :: l)) by (rewrite cur_ascii by reflexivity; reflexivity).
    rewrite skipComment_id by (rewrite cur_ascii by reflexivity; unfold cSlash; rewrite hash_b; lia).
    rewrite skipRegions_eq. rewrite cur_ascii by reflexivity.
    change (b2z x23 =? cHash) with true. cbv iota zeta.
    rewrite <- (app_nil_r (x23 :: l)).
    rewrite (skipLine_line (length (x23 :: l)));
      [ | lia | constructor; [discriminate | exact Hl] | left; reflexivity].
    reflexivity.
Qed.

Lemma next_trivia pd w s : trivia w -> next pd (w ++ s) = next pd s.
Proof.
  intros H. unfold next. fold (trivia_end (w ++ s)). fold (trivia_end s).
  rewrite trivia_end_trivia by exact H. reflexivity.
Qed.

(** ** C04: streams *)
Lemma Next_same c1 t1 c2 t2 :
  tk_prevDot t1 = tk_prevDot t2 -> tk_value t1 = tk_value t2 ->
  next (tk_prevDot t1) (rest_of c1 t1) = next (tk_prevDot t2) (rest_of c2 t2) ->
  same_step c1 (Next c1 t1) c2 (Next c2 t2).
Proof.
  intros H1 H2 H3. unfold Next. fold (rest_of c1 t1) (rest_of c2 t2). rewrite H3, H2.
  destruct (next (tk_prevDot t2) (rest_of c2 t2)) as [[r s'] pd'] eqn:E.
  assert (S1 : suffix s' c1).
  { rewrite H1 in H3. eapply suffix_trans; [eapply next_progress; rewrite <- H1 in H3; exact H3 | apply rest_of_suffix]. }
  assert (S2 : suffix s' c2).
  { eapply suffix_trans; [eapply next_progress; exact E | apply rest_of_suffix]. }
  pose proof (suffix_skipn_eq _ _ S1). pose proof (suffix_skipn_eq _ _ S2).
  unfold same_step, same_token, rest_of.
  repeat match goal with
  | |- context [if ?b then _ else _] => destruct b eqn:?
  | |- context [match parse_float ?b with _ => _ end] => destruct (parse_float b) eqn:?
  | |- context [match parse_date ?b with _ => _ end] => destruct (parse_date b) eqn:?
  end; cbn [fst snd tk_lit tk_value tk_prevDot tk_off]; repeat split; congruence.
Qed.

Lemma rest_full code t s : rest_of code t = s -> suffix s code.
Proof. intros <-. apply rest_of_suffix. Qed.

Lemma trivia_step c1 t1 c2 t2 w :
  trivia w -> rest_of c1 t1 = w ++ rest_of c2 t2 ->
  tk_prevDot t1 = tk_prevDot t2 -> tk_value t1 = tk_value t2 ->
  same_step c1 (Next c1 t1) c2 (Next c2 t2).
Proof.
  intros Hw Hr Hp Hv. apply Next_same; [exact Hp | exact Hv|].
  rewrite Hr, Hp. apply next_trivia, Hw.
Qed.

Lemma same_stream c1 c2 l1 : forall t1, lexes c1 t1 l1 -> forall t2,
  same_step c1 (Next c1 t1) c2 (Next c2 t2) ->
  exists l2, lexes c2 t2 l2 /\ Forall2 same_token l1 l2.
Proof.
  intros t1 H. induction H as [t t' E|t k t' l E Hk Hl IH]; intros t2 (Hs & He & Hp & Hr);
  destruct (Next c2 t2) as [[k2 t2'] e2] eqn:E2; rewrite E in *; cbn [fst snd] in *;
  destruct Hs as (H1 & H2 & H3); cbn [fst snd] in *; subst.
  - exists []. split; [econstructor; eassumption | constructor].
  - destruct (IH t2') as (l2 & I1 & I2).
    { apply Next_same; [exact Hp | exact H3 | rewrite Hp, Hr; reflexivity]. }
    exists ((k2, t2') :: l2). split; [econstructor; eassumption|].
    constructor; [|exact I2]. repeat split; assumption.
Qed.

Lemma same_errors c1 c2 : forall t1, lex_error c1 t1 -> forall t2,
  same_step c1 (Next c1 t1) c2 (Next c2 t2) -> lex_error c2 t2.
Proof.
  intros t1 H. induction H as [t (k & t' & e & E)|t k t' E Hk Hl IH]; intros t2 (Hs & He & Hp & Hr);
  destruct (Next c2 t2) as [[k2 t2'] e2] eqn:E2; rewrite E in *; cbn [fst snd] in *;
  destruct Hs as (H1 & H2 & H3); cbn [fst snd] in *; subst.
  - apply le_here. do 3 eexists. exact E2.
  - eapply le_later; [exact E2 | exact Hk|]. apply IH.
    apply Next_same; [exact Hp | exact H3 | rewrite Hp, Hr; reflexivity].
Qed.

(** * Words *)
Lemma letter_valid c : isLetter c = true -> valid_rune c = true.
Proof.
  rewrite isLetter_spec. intros [->|(lo & hi & Hin & H)]; [reflexivity|].
  assert (Hall : forallb (fun p => (0 <=? fst p) && (snd p <=? 1114111) &&
            ((snd p <? 55296) || (57343 <? fst p))) letter_ranges = true) by (vm_compute; reflexivity).
  rewrite forallb_forall in Hall. specialize (Hall _ Hin). cbn [fst snd] in Hall.
  unfold valid_rune. lia.
Qed.
Lemma word_valid c : isLetter c || isDigit c = true -> valid_rune c = true.
Proof.
  rewrite orb_true_iff. intros [H|H]; [apply letter_valid, H|].
  unfold isDigit in H. unfold valid_rune. lia.
Qed.
Lemma word_not_error c : isLetter c || isDigit c = true -> c <> RuneError.
Proof. intros H ->. vm_compute in H. discriminate. Qed.

Lemma ident_runes_word w rest : Forall (fun c => isLetter c || isDigit c = true) w ->
  isLetter (cur rest) || isDigit (cur rest) = false ->
  ident_runes (string_of_runes w ++ rest) = (w, rest).
Proof.
  intros Hw Hr. induction Hw as [|c w Hc Hw IH].
  - rewrite app_nil_l, ident_runes_eq, Hr. reflexivity.
  - cbn [string_of_runes flat_map]. fold (string_of_runes w). rewrite <- app_assoc.
    pose proof (word_valid c Hc) as Hv.
    rewrite ident_runes_eq, cur_encode, adv_encode, Hc, IH by exact Hv. reflexivity.
Qed.

(** Every text is a maximal run of word characters followed by a rest. *)
Lemma ident_runes_split s : forall w rest, ident_runes s = (w, rest) ->
  s = string_of_runes w ++ rest /\ Forall (fun c => isLetter c || isDigit c = true) w /\
  isLetter (cur rest) || isDigit (cur rest) = false.
Proof.
  induction s as [s IH] using bytes_ind. intros w rest. rewrite ident_runes_eq.
  destruct (isLetter (cur s) || isDigit (cur s)) eqn:E.
  - assert (Hs : s <> []) by (intros ->; rewrite cur_nil, isLetter_EOF in E; discriminate).
    destruct (ident_runes (adv s)) as [w1 r1] eqn:E1. intros [= <- <-].
    destruct (IH _ (adv_length s Hs) _ _ E1) as (I1 & I2 & I3).
    split; [|split; [constructor; assumption | assumption]].
    cbn [string_of_runes flat_map]. fold (string_of_runes w1). rewrite <- app_assoc, <- I1.
    assert (Hc : cur s = fst (decode s)) by (destruct s; [congruence | reflexivity]).
    destruct (decode_shape s Hs) as [Ed|[Hv Ed]].
    + exfalso. apply (word_not_error _ E). rewrite Hc, Ed. reflexivity.
    + rewrite Hc, Ed. unfold adv. symmetry. apply firstn_skipn.
  - intros [= <- <-]. repeat split; [constructor | exact E].
Qed.

(** ** Lower-casing (C10) *)
Lemma lower_fuel_step n s : s <> [] ->
  lower_fuel (S n) s = lower_char (firstn (snd (decode s)) s) ++ lower_fuel n (adv s).
Proof.
  intros Hs. unfold lower_char. rewrite (decode_firstn s Hs).
  destruct s as [|b0 s1]; [congruence|]. cbn [lower_fuel]. unfold adv.
  pose proof (decode_shape (b0 :: s1) Hs) as Hd.
  destruct (decode (b0 :: s1)) as [r k]. cbn [fst snd] in *.
  unfold lower_rune.
  destruct ((65 <=? r) && (r <=? 90)) eqn:E1.
  { replace (r + 32 =? r) with false by lia.
    destruct Hd as [[= -> ->]|[Hv He]]; [discriminate|].
    unfold encode in He. rewrite Hv in He. replace (r <? 128) with true in He by lia.
    unfold encode. replace (valid_rune (r + 32)) with true by (unfold valid_rune; lia).
    replace (r + 32 <? 128) with true by lia.
    destruct k as [|k]; [discriminate|]. cbn [firstn] in He. injection He as He1 He2.
    cbn [app]. f_equal. f_equal. rewrite <- He1, b2z_z2b by lia. reflexivity. }
  destruct ((1040 <=? r) && (r <=? 1071)) eqn:E2.
  { replace (r + 32 =? r) with false by lia.
    destruct Hd as [[= -> ->]|[Hv He]]; [discriminate|].
    assert (Hin : In r (map Z.of_nat (seq 1040 32))).
    { apply in_map_iff. exists (Z.to_nat r). split; [lia|]. apply in_seq. lia. }
    assert (Hall : forallb (fun r => match encode r, encode (r + 32) with
       | [c0; c1], [d0; d1] => (if (b2z c0 =? 208) && (1055 <? r)
            then Byte.eqb d0 (z2b (b2z c0 + 1)) && Byte.eqb d1 (z2b (b2z c1 - 32))
            else Byte.eqb d0 c0 && Byte.eqb d1 (z2b (b2z c1 + 32)))
       | _, _ => false end) (map Z.of_nat (seq 1040 32)) = true) by (vm_compute; reflexivity).
    rewrite forallb_forall in Hall. specialize (Hall r Hin).
    destruct (encode r) as [|c0 [|c1 [|? ?]]]; try discriminate.
    destruct (encode (r + 32)) as [|d0 [|d1 [|? ?]]]; try discriminate.
    destruct k as [|[|k]]; try discriminate.
    destruct s1 as [|b1 s2]; [discriminate|]. cbn [firstn] in He. injection He as <- <- He.
    destruct ((b2z c0 =? 208) && (1055 <? r)); apply andb_true_iff in Hall as [A1 A2];
      apply Byte.byte_dec_bl in A1, A2; subst; reflexivity. }
  destruct (r =? 1025) eqn:E3.
  { apply Z.eqb_eq in E3. subst r. reflexivity. }
  rewrite Z.eqb_refl. reflexivity.
Qed.

Lemma lower_fuel_enough n s : (length s <= n)%nat -> lower_fuel n s = fastToLower s.
Proof.
  unfold fastToLower. remember (length s) as m. revert s n Heqm.
  induction m as [m IH] using lt_wf_ind. intros s n -> Hn.
  destruct s as [|b s]; [destruct n; reflexivity|].
  destruct n as [|n]; [simpl in Hn; lia|]. cbn [length].
  rewrite !lower_fuel_step by congruence.
  assert (Hl : (length (adv (b :: s)) < length (b :: s))%nat) by (apply adv_length; congruence).
  cbn [length] in *. f_equal.
  rewrite (IH _ Hl _ n eq_refl) by lia. rewrite (IH _ Hl _ (length s) eq_refl) by lia. reflexivity.
Qed.
Lemma fastToLower_eq s : s <> [] ->
  fastToLower s = lower_char (firstn (snd (decode s)) s) ++ fastToLower (adv s).
Proof.
  intros Hs. unfold fastToLower at 1. destruct s as [|b s]; [congruence|]. cbn [length].
  rewrite lower_fuel_step by exact Hs. f_equal. apply lower_fuel_enough.
  pose proof (adv_length _ Hs). simpl in *. lia.
Qed.

Lemma chars_firstn c s r : c <> [] -> decode (c ++ s) = (r, length c) ->
  firstn (snd (decode (c ++ s))) (c ++ s) = c /\ adv (c ++ s) = s.
Proof.
  intros Hc Hd. unfold adv. rewrite Hd. cbn [snd]. split.
  - rewrite firstn_app, Nat.sub_diag, firstn_all. simpl. apply app_nil_r.
  - rewrite skipn_app, Nat.sub_diag, skipn_all. reflexivity.
Qed.

Lemma app_nonnil {A} (c s : list A) : c <> [] -> c ++ s <> [].
Proof. destruct c; [congruence | discriminate]. Qed.

Lemma lower_chars s cs : chars s cs -> fastToLower s = concat (map lower_char cs).
Proof.
  induction 1 as [|c s r cs Hc Hd Hs IH]; [reflexivity|].
  destruct (chars_firstn c s r Hc Hd) as [F A].
  rewrite fastToLower_eq by (apply app_nonnil, Hc). rewrite F, A, IH. reflexivity.
Qed.

Lemma chars_total s : exists cs, chars s cs /\ concat cs = s.
Proof.
  induction s as [s IH] using bytes_ind.
  destruct s as [|b s]; [exists []; split; [constructor | reflexivity]|].
  assert (Hs : b :: s <> []) by congruence.
  destruct (IH _ (adv_length _ Hs)) as (cs & H1 & H2).
  pose proof (decode_size _ Hs) as Hk.
  set (k := snd (decode (b :: s))) in *.
  exists (firstn k (b :: s) :: cs). split.
  - assert (E : b :: s = firstn k (b :: s) ++ adv (b :: s)) by (symmetry; apply firstn_skipn).
    rewrite E at 1. apply chars_cons with (r := fst (decode (b :: s))).
    + destruct k as [|k']; [lia|]. discriminate.
    + rewrite <- E. rewrite firstn_length_le by lia. apply surjective_pairing.
    + exact H1.
  - cbn [concat]. rewrite H2. apply firstn_skipn.
Qed.

Lemma lower_rune_id c : ~ upper_letter c -> lower_rune c = c.
Proof. unfold upper_letter, lower_rune. intros H. repeat dstep; lia. Qed.
Lemma lower_rune_idem c : lower_rune (lower_rune c) = lower_rune c.
Proof. unfold lower_rune. repeat (dstep; try lia). Qed.
Lemma lower_rune_valid c : valid_rune c = true -> valid_rune (lower_rune c) = true.
Proof. unfold lower_rune, valid_rune. repeat dstep; lia. Qed.

Lemma lower_char_encode c : valid_rune c = true -> lower_char (encode c) = encode (lower_rune c).
Proof.
  intros H. unfold lower_char. pose proof (decode_encode c [] H) as D. rewrite app_nil_r in D.
  rewrite D. cbn [fst]. destruct (lower_rune c =? c) eqn:E; [|reflexivity].
  apply Z.eqb_eq in E. rewrite E. reflexivity.
Qed.

Lemma lower_runes w : forallb valid_rune w = true ->
  fastToLower (string_of_runes w) = string_of_runes (map lower_rune w).
Proof.
  induction w as [|c w IH]; [reflexivity|]. cbn [forallb]. rewrite andb_true_iff. intros [Hc Hw].
  cbn [string_of_runes flat_map map]. fold (string_of_runes w) (string_of_runes (map lower_rune w)).
  rewrite fastToLower_eq by (apply app_nonnil, encode_nonnil).
  destruct (chars_firstn (encode c) (string_of_runes w) c (encode_nonnil c)) as [F A].
  { apply decode_encode, Hc. }
  rewrite F, A, IH, lower_char_encode by assumption. reflexivity.
Qed.

Lemma encode_length_lower c : length (encode (lower_rune c)) = length (encode c).
Proof.
  unfold lower_rune, encode.
  destruct ((65 <=? c) && (c <=? 90)) eqn:E1.
  { replace (valid_rune c) with true by (unfold valid_rune; lia).
    replace (valid_rune (c + 32)) with true by (unfold valid_rune; lia).
    replace (c <? 128) with true by lia. replace (c + 32 <? 128) with true by lia. reflexivity. }
  destruct ((1040 <=? c) && (c <=? 1071)) eqn:E2.
  { replace (valid_rune c) with true by (unfold valid_rune; lia).
    replace (valid_rune (c + 32)) with true by (unfold valid_rune; lia).
    replace (c <? 128) with false by lia. replace (c + 32 <? 128) with false by lia.
    replace (c <? 2048) with true by lia. replace (c + 32 <? 2048) with true by lia. reflexivity. }
  destruct (c =? 1025) eqn:E3; [apply Z.eqb_eq in E3; subst c; reflexivity | reflexivity].
Qed.

Lemma lower_char_length s : s <> [] ->
  length (lower_char (firstn (snd (decode s)) s)) = snd (decode s).
Proof.
  intros Hs. unfold lower_char. rewrite (decode_firstn s Hs).
  assert (Hf : length (firstn (snd (decode s)) s) = snd (decode s))
    by (apply firstn_length_le, decode_size, Hs).
  destruct (lower_rune (fst (decode s)) =? fst (decode s)) eqn:E; [exact Hf|].
  destruct (decode_shape s Hs) as [Ed|[Hv Ed]].
  - rewrite Ed in E. discriminate.
  - rewrite encode_length_lower, Ed. exact Hf.
Qed.

Lemma lower_length s : length (fastToLower s) = length s.
Proof.
  induction s as [s IH] using bytes_ind. destruct s as [|b s]; [reflexivity|].
  assert (Hs : b :: s <> []) by congruence.
  rewrite fastToLower_eq, app_length, lower_char_length, IH by (try apply adv_length; congruence).
  unfold adv. rewrite skipn_length. pose proof (decode_size _ Hs). lia.
Qed.

(** A byte that is 128-191 cannot start a character; lower-casing keeps such
    bytes in place and never creates one at the start of a character. *)
Lemma decode_cont b s : cont (b2z b) = true -> decode (b :: s) = (RuneError, 1%nat).
Proof.
  unfold cont, decode. intros H.
  replace (b2z b <? 128) with false by lia.
  replace ((194 <=? b2z b) && (b2z b <=? 223)) with false by lia.
  replace ((224 <=? b2z b) && (b2z b <=? 239)) with false by lia.
  replace ((240 <=? b2z b) && (b2z b <=? 244)) with false by lia. reflexivity.
Qed.

Lemma lower_head s :
  match s with
  | [] => fastToLower s = []
  | b :: s' => (cont (b2z b) = true /\ fastToLower s = b :: fastToLower s') \/
               (cont (b2z b) = false /\ exists b' s2, fastToLower s = b' :: s2 /\ cont (b2z b') = false)
  end.
Proof.
  destruct s as [|b s]; [reflexivity|]. assert (Hs : b :: s <> []) by congruence.
  destruct (cont (b2z b)) eqn:Ec; [left|right]; split; try reflexivity.
  - rewrite fastToLower_eq by exact Hs. unfold adv, lower_char. rewrite (decode_cont b s Ec). cbn [snd firstn].
    rewrite (decode_cont b [] Ec). reflexivity.
  - rewrite fastToLower_eq by exact Hs. unfold lower_char. rewrite (decode_firstn _ Hs).
    destruct (decode_size _ Hs) as [Hk1 Hk2].
    destruct (lower_rune (fst (decode (b :: s))) =? fst (decode (b :: s))) eqn:E.
    + destruct (snd (decode (b :: s))) as [|k]; [lia|]. cbn [firstn app]. eauto.
    + assert (Hu : upper_letter (fst (decode (b :: s)))).
      { unfold lower_rune, upper_letter in *. revert E. repeat dstep; intros; lia. }
      set (r := fst (decode (b :: s))) in *.
      assert (Hin : In r (map Z.of_nat (seq 65 26 ++ seq 1040 32 ++ [1025%nat]))).
      { apply in_map_iff. exists (Z.to_nat r). unfold upper_letter in Hu. split; [lia|].
        rewrite !in_app_iff, !in_seq. simpl. lia. }
      assert (Hall : forallb (fun r => match encode (lower_rune r) with
          | d :: _ => negb (cont (b2z d)) | [] => false end)
          (map Z.of_nat (seq 65 26 ++ seq 1040 32 ++ [1025%nat])) = true) by (vm_compute; reflexivity).
      rewrite forallb_forall in Hall. specialize (Hall r Hin).
      destruct (encode (lower_rune r)) as [|d ds]; [discriminate|]. cbn [app].
      exists d. eexists. split; [reflexivity|]. destruct (cont (b2z d)); [discriminate|reflexivity].
Qed.

(** A byte that starts no character still starts none after lower-casing what
    follows it. *)
Lemma decode_error_lower b s : decode (b :: s) = (RuneError, 1%nat) -> b2z b >= 128 ->
  decode (b :: fastToLower s) = (RuneError, 1%nat).
Proof.
  unfold decode. intros H Hb.
  replace (b2z b <? 128) with false in * by lia.
  destruct ((194 <=? b2z b) && (b2z b <=? 223)) eqn:E2.
  { pose proof (lower_head s) as L. destruct s as [|b1 s1]; [rewrite L; reflexivity|].
    destruct L as [[L1 L2]|[L1 (b' & s2 & L2 & L3)]]; rewrite L2.
    - rewrite L1 in *. injection H as H. discriminate.
    - cbv zeta. rewrite L3. reflexivity. }
  destruct ((224 <=? b2z b) && (b2z b <=? 239)) eqn:E3.
  { pose proof (lower_head s) as L. destruct s as [|b1 s1]; [rewrite L; reflexivity|].
    destruct L as [[L1 L2]|[L1 (b' & s2 & L2 & L3)]]; rewrite L2.
    - pose proof (lower_head s1) as M. destruct s1 as [|b2 s1]; [rewrite M; reflexivity|].
      destruct M as [[M1 M2]|[M1 (b' & s2 & M2 & M3)]]; rewrite M2; cbv zeta in *.
      + rewrite M1 in *.
        match goal with |- (if ?c then _ else _) = _ => destruct c eqn:Ez end; [|reflexivity].
        injection H as H. discriminate.
      + rewrite M3, andb_false_r. reflexivity.
    - cbv zeta. destruct s2 as [|b2 s2]; [reflexivity|].
      match goal with |- (if ?c then _ else _) = _ => replace c with false end; [reflexivity|].
      symmetry. unfold cont in L3.
      destruct (b2z b =? 224); destruct (b2z b =? 237); lia. }
  destruct ((240 <=? b2z b) && (b2z b <=? 244)) eqn:E4; [|reflexivity].
  pose proof (lower_head s) as L. destruct s as [|b1 s1]; [rewrite L; reflexivity|].
  destruct L as [[L1 L2]|[L1 (b' & s2 & L2 & L3)]]; rewrite L2.
  - pose proof (lower_head s1) as M. destruct s1 as [|b2 s1]; [rewrite M; reflexivity|].
    destruct M as [[M1 M2]|[M1 (b' & s2 & M2 & M3)]]; rewrite M2; cbv zeta in *.
    + pose proof (lower_head s1) as N. destruct s1 as [|b3 s1]; [rewrite N; reflexivity|].
      destruct N as [[N1 N2]|[N1 (b' & s2 & N2 & N3)]]; rewrite N2; cbv zeta in *.
      * rewrite M1, N1 in *.
        match goal with |- (if ?c then _ else _) = _ => destruct c eqn:Ez end; [|reflexivity].
        injection H as H. discriminate.
      * rewrite N3, andb_false_r. reflexivity.
    + destruct s2 as [|b3 s2]; [reflexivity|]. rewrite M3, andb_false_r. reflexivity.
  - cbv zeta. destruct s2 as [|b2 [|b3 s2]]; try reflexivity.
    match goal with |- (if ?c then _ else _) = _ => replace c with false end; [reflexivity|].
    symmetry. unfold cont in L3 |- *.
    destruct (b2z b =? 240); destruct (b2z b =? 244); lia.
Qed.

Lemma lower_idem s : fastToLower (fastToLower s) = fastToLower s.
Proof.
  induction s as [s IH] using bytes_ind. destruct s as [|b s]; [reflexivity|].
  assert (Hs : b :: s <> []) by congruence.
  pose proof (IH _ (adv_length _ Hs)) as IHa.
  destruct (decode_shape _ Hs) as [Ed|[Hv Ed]].
  - destruct (Z_lt_dec (b2z b) 128) as [Hb|Hb].
    { unfold decode in Ed. replace (b2z b <? 128) with true in Ed by lia.
      injection Ed as Ed. unfold RuneError in Ed. lia. }
    assert (E1 : fastToLower (b :: s) = b :: fastToLower s).
    { rewrite fastToLower_eq by exact Hs. unfold lower_char. rewrite (decode_firstn _ Hs).
      unfold adv. rewrite Ed. reflexivity. }
    assert (Ea : adv (b :: s) = s) by (unfold adv; rewrite Ed; reflexivity).
    rewrite Ea in IHa.
    pose proof (decode_error_lower b s Ed ltac:(lia)) as D.
    rewrite E1. rewrite fastToLower_eq by congruence. unfold lower_char.
    rewrite decode_firstn by congruence. unfold adv. rewrite D. cbn [snd firstn skipn fst].
    rewrite IHa. reflexivity.
  - rewrite (fastToLower_eq (b :: s)) by exact Hs. rewrite <- Ed.
    rewrite lower_char_encode by exact Hv. set (r := fst (decode (b :: s))) in *.
    pose proof (lower_rune_valid _ Hv) as Hv2.
    rewrite fastToLower_eq by (apply app_nonnil, encode_nonnil).
    destruct (chars_firstn (encode (lower_rune r)) (fastToLower (adv (b :: s))) (lower_rune r) (encode_nonnil _)) as [F A].
    { apply decode_encode, Hv2. }
    rewrite F, A, IHa, lower_char_encode, lower_rune_idem by exact Hv2. reflexivity.
Qed.
