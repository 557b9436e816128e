(** Proofs of the theorems about the scanner. *)
From Verif Require Import Bytes Utf8 UnicodeTables Float64 GoTime Ast Lexer LexFacts Utf8Facts LexSpec.

(** * Next in terms of next *)
Lemma Next_split code t : exists r s' pd' v,
  next (tk_prevDot t) (rest_of code t) = (r, s', pd') /\
  snd (fst (Next code t)) = Token true v (lr_lit r) (length code - length s') pd' /\
  fst (fst (Next code t)) = lr_tok r /\
  (lr_tok r <> tNumber -> lr_tok r <> tDate -> snd (Next code t) = lr_err r).
Proof.
  unfold Next, rest_of. destruct (next (tk_prevDot t) (skipn (tk_off t) code)) as [[r s'] pd'].
  repeat match goal with
  | |- context [if ?b then _ else _] => destruct b eqn:?
  | |- context [match parse_float ?b with _ => _ end] => destruct (parse_float b) eqn:?
  | |- context [match parse_date ?b with _ => _ end] => destruct (parse_date b) eqn:?
  end; do 4 eexists; repeat split; try reflexivity;
  repeat match goal with H : (_ =? _) = true |- _ => apply Z.eqb_eq in H end; congruence.
Qed.

Lemma skipn_off code s s' : suffix s' s -> suffix s code ->
  skipn (length code - length s') code = s'.
Proof. intros H1 H2. symmetry. apply suffix_skipn_eq. eapply suffix_trans; eassumption. Qed.

Lemma rest_of_suffix code t : suffix (rest_of code t) code.
Proof. apply suffix_skipn. Qed.

(** ** C01 *)
Lemma Next_progress code t : (tk_off t <= length code)%nat ->
  forall k t' e, Next code t = (k, t', e) ->
  e <> Some LFuel /\ (tk_off t <= tk_off t' <= length code)%nat /\
  ((k = EOF /\ e = None /\ tk_off t' = length code) \/ (tk_off t < tk_off t')%nat).
Proof.
  intros Ht k t' e HN. unfold Next in HN. fold (rest_of code t) in HN.
  destruct (next (tk_prevDot t) (rest_of code t)) as [[r s'] pd'] eqn:En.
  pose proof (next_progress _ _ _ _ _ En) as [Hsuf Hlt].
  pose proof (next_no_fuel _ _ _ _ _ En) as Hnf.
  pose proof (suffix_length _ _ Hsuf) as Hle.
  assert (Hr : length (rest_of code t) = (length code - tk_off t)%nat) by apply skipn_length.
  assert (Hk : k = lr_tok r /\ tk_off t' = (length code - length s')%nat /\
     (e = lr_err r \/ e = None \/ (exists l, e = Some (LNumber l)) \/ (exists l, e = Some (LDate_ l))) /\
     (lr_tok r = EOF -> e = lr_err r)).
  { revert HN. repeat match goal with
    | |- context [if ?b then _ else _] => destruct b eqn:?
    | |- context [match parse_float ?b with _ => _ end] => destruct (parse_float b) eqn:?
    | |- context [match parse_date ?b with _ => _ end] => destruct (parse_date b) eqn:?
    end; intros [= <- <- <-]; repeat split; eauto;
    repeat match goal with H : (_ =? _) = true |- _ => apply Z.eqb_eq in H; rewrite H in * end;
    try (intros E; discriminate E); eauto 6. }
  destruct Hk as (-> & Ho & He & He2). repeat split.
  - intros E. destruct He as [->|[->|[[l ->]|[l ->]]]]; congruence.
  - lia.
  - lia.
  - destruct Hlt as [(H1 & H2 & H3 & H4)|Hlt]; [left|right; lia].
    subst s'. simpl in Ho. rewrite (He2 H1). repeat split; auto; lia.
Qed.

(** Successive calls of Next. *)
Fixpoint after (code : bytes) (n : nat) (t : token) : token :=
  match n with O => t | S n' => after code n' (snd (fst (Next code t))) end.

Lemma stream_finite code : forall n t, (tk_off t <= length code)%nat ->
  (length code - tk_off t <= n)%nat ->
  exists m t', (m <= n)%nat /\ Next code (after code m t) = (EOF, t', None) /\ tk_off t' = length code.
Proof.
  induction n as [|n IH]; intros t Ht Hn.
  - exists 0%nat. destruct (Next code t) as [[k t'] e] eqn:EN. exists t'. split; [lia|].
    cbn [after]. rewrite EN.
    destruct (Next_progress code t Ht _ _ _ EN) as (_ & H1 & [(-> & -> & H2)|H2]); [auto | lia].
  - destruct (Next code t) as [[k t'] e] eqn:EN.
    destruct (Next_progress code t Ht _ _ _ EN) as (_ & H1 & [(-> & -> & H2)|H2]).
    + exists 0%nat, t'. split; [lia|]. auto.
    + destruct (IH t') as (m & t2 & Hm & HN & Ho); [lia|lia|].
      exists (S m), t2. split; [lia|]. cbn [after]. rewrite EN. auto.
Qed.

(** Every text either is a finite token sequence or has a lexical error. *)
Lemma lexes_or_error code : forall n t, (tk_off t <= length code)%nat ->
  (length code - tk_off t <= n)%nat -> (exists l, lexes code t l /\ (length l <= n)%nat) \/ lex_error code t.
Proof.
  induction n as [|n IH]; intros t Ht Hn;
  destruct (Next code t) as [[k t'] [e|]] eqn:EN;
  try (right; apply le_here; red; solve [eauto]);
  destruct (Next_progress code t Ht _ _ _ EN) as (_ & H1 & H2).
  - destruct H2 as [(-> & _ & H2)|H2]; [|lia]. left. exists []. split; [econstructor; eauto | simpl; lia].
  - destruct H2 as [(-> & _ & H2)|H2]; [left; exists []; split; [econstructor; eauto | simpl; lia]|].
    destruct (Z.eq_dec k EOF) as [->|Hk]; [left; exists []; split; [econstructor; eauto | simpl; lia]|].
    destruct (IH t') as [(l & Hl & Hll)|He]; [lia|lia| |].
    + left. exists ((k, t') :: l). split; [econstructor; eauto | simpl; lia].
    + right. eapply le_later; eauto.
Qed.
Lemma lexes_not_error code t l : lexes code t l -> ~ lex_error code t.
Proof.
  induction 1 as [t t' E|t k t' l E Hk Hl IH]; intros He; inversion He as [? R|? ? ? E2 Hk2 H2]; subst.
  - destruct R as (? & ? & ? & R). congruence.
  - rewrite E in E2. congruence.
  - destruct R as (? & ? & ? & R). congruence.
  - rewrite E in E2. injection E2 as -> ->. auto.
Qed.
Lemma lexes_fun code t l1 l2 : lexes code t l1 -> lexes code t l2 -> l1 = l2.
Proof.
  intros H; revert l2. induction H as [t t' E|t k t' l E Hk Hl IH]; intros l2 H2;
  inversion H2 as [? ? E2|? ? ? ? E2 Hk2 H3]; subst; rewrite E in E2; try congruence.
  injection E2 as <- <-. f_equal. auto.
Qed.

(** * Characters *)
Fixpoint sorted_from (a : Z) (l : list (Z * Z)) : bool :=
  match l with [] => true | (lo, hi) :: l' => (a <=? lo) && (lo <=? hi) && sorted_from hi l' end.

Lemma sorted_ge l : forall a lo hi, sorted_from a l = true -> In (lo, hi) l -> a <= lo.
Proof.
  induction l as [|[lo hi] l IH]; simpl; [easy|]. intros a x y H H2.
  rewrite !andb_true_iff in H. destruct H as [[Ha Hb] Hc].
  destruct H2 as [[= <- <-]|H2]; [lia|].
  assert (hi <= x) by (apply (IH hi x y); assumption). lia.
Qed.

Lemma in_ranges_spec c l : forall a, sorted_from a l = true ->
  in_ranges l c = true <-> exists lo hi, In (lo, hi) l /\ lo <= c <= hi.
Proof.
  induction l as [|[lo hi] l IH]; simpl; intros a Hs.
  - split; [discriminate|]. intros (? & ? & [] & _).
  - rewrite !andb_true_iff in Hs. destruct Hs as [[Ha Hb] Hs2]. specialize (IH hi Hs2).
    destruct (c <? lo) eqn:E1.
    + split; [discriminate|]. intros (x & y & [[= <- <-]|H2] & H3); [lia|].
      pose proof (sorted_ge l hi x y Hs2 H2). lia.
    + destruct (c <=? hi) eqn:E2.
      * split; [intros _|reflexivity]. exists lo, hi. split; [auto | lia].
      * rewrite IH. split; intros (x & y & H1 & H2); exists x, y; [auto|].
        split; [|exact H2]. destruct H1 as [[= <- <-]|H1]; [lia | exact H1].
Qed.

Lemma isLetter_spec c : isLetter c = true <-> letter_char c.
Proof.
  unfold isLetter, unicode_is_letter, letter_char.
  rewrite orb_true_iff, Z.eqb_eq, (in_ranges_spec c letter_ranges 0) by (vm_compute; reflexivity).
  tauto.
Qed.
Lemma isDigit_spec c : isDigit c = true <-> digit_char c.
Proof. unfold isDigit, digit_char. lia. Qed.
Lemma isSpace_spec c : isSpace c = true <-> space_char c.
Proof. unfold isSpace, space_char. lia. Qed.
Lemma word_spec c : isLetter c || isDigit c = true <-> word_char c.
Proof. unfold word_char. rewrite orb_true_iff, isLetter_spec, isDigit_spec. tauto. Qed.
Lemma cur_first s c : 0 <= c -> cur s = c <-> first_char s c.
Proof.
  intros Hc. unfold first_char, cur. destruct s as [|b s]; [split|].
  - unfold EOF. lia.
  - intros [H _]. congruence.
  - split; [intros H; split; [congruence|exact H] | intros [_ H]; exact H].
Qed.
