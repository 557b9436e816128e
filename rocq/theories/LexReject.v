(** Proofs: rejected characters and directives (C06), columns (C12). *)
From Verif Require Import Bytes Utf8 UnicodeTables Float64 GoTime Ast Lexer LexFacts Utf8Facts LexSpec LexProofs LexTrivia
  LexTokens LexStrings NumSpec NumTokens.
Open Scope Z_scope.

(** An error of [next] is an error of Next. *)
Lemma next_error_rejects code t r s' pd' e : next (tk_prevDot t) (rest_of code t) = (r, s', pd') ->
  lr_err r = Some e -> (lr_tok r = EOF \/ lr_lit r = encode (lr_tok r)) -> rejects code t.
Proof.
  intros H He Ht. destruct Ht as [Ht|Ht].
  { apply (next_rejects _ _ _ _ _ e H He); rewrite Ht; discriminate. }
  destruct (Z.eq_dec (lr_tok r) tNumber) as [En|En].
  { unfold rejects, Next. fold (rest_of code t). rewrite H. cbv zeta. rewrite Ht, En, Z.eqb_refl.
    change (parse_float (encode tNumber)) with (@None f64). eauto. }
  destruct (Z.eq_dec (lr_tok r) tDate) as [Ed|Ed].
  { unfold rejects, Next. fold (rest_of code t). rewrite H. cbv zeta. rewrite Ht, Ed.
    change (tDate =? tNumber) with false. change (tDate =? tString) with false. rewrite Z.eqb_refl. cbv iota.
    change (forallb (fun b => b2z b =? 48) (encode tDate)) with false.
    change (parse_date (encode tDate)) with (@None gotime). eauto. }
  apply (next_rejects _ _ _ _ _ e H He); assumption.
Qed.


Lemma next_unknown pd w0 x c : trivia w0 -> first_char x c -> ~ token_start c ->
  exists s', next pd (w0 ++ x) = (LexRes c (encode c) (Some (LSyntax (encode c))), s', false).
Proof.
  intros H0 [Hx Hc] Hn.
  assert (Hcur : cur x = c) by (destruct x; [congruence | exact Hc]).
  assert (Hc0 : 0 <= c) by (rewrite <- Hc; apply decode_nonneg).
  assert (N1 : isLetter c = false).
  { apply not_true_is_false. intros E. apply Hn. left. apply isLetter_spec, E. }
  assert (N2 : isDigit c = false).
  { apply not_true_is_false. intros E. apply Hn. right. left. apply isDigit_spec, E. }
  assert (N3 : isSpace c = false).
  { apply not_true_is_false. intros E. apply Hn. do 4 right. apply isSpace_spec, E. }
  assert (N4 : ~ In c (map b2z (B "./;(),-+*?[]:%='<>&~#"))) by (intros E; apply Hn; right; right; left; exact E).
  assert (N5 : c <> 34) by (intros E; apply Hn; do 3 right; left; exact E).
  vm_compute in N4.
  assert (N6 : c <> 46 /\ c <> 47 /\ c <> 59 /\ c <> 40 /\ c <> 41 /\ c <> 44 /\ c <> 45 /\ c <> 43 /\ c <> 42 /\ c <> 63 /\
     c <> 91 /\ c <> 93 /\ c <> 58 /\ c <> 37 /\ c <> 61 /\ c <> 39 /\ c <> 60 /\ c <> 62 /\ c <> 38 /\ c <> 126 /\ c <> 35).
  { lia. }
  exists (adv x). unfold next. fold (trivia_end (w0 ++ x)).
  rewrite trivia_end_start by (rewrite ?Hcur; try exact H0; try exact N3; lia). cbv zeta. rewrite Hcur, N1, N2.
  replace (c =? cDot) with false by (unfold cDot; lia).
  replace (c =? cApos) with false by (unfold cApos; lia).
  replace (punct c) with false by (unfold punct; lia).
  replace (c =? 61) with false by lia.
  replace (c =? cQuote) with false by (unfold cQuote; lia).
  replace (c =? 60) with false by lia. replace (c =? 62) with false by lia.
  replace (c =? 38) with false by lia. replace (c =? 126) with false by lia.
  replace (c =? EOF) with false by (unfold EOF; lia). reflexivity.
Qed.

Lemma unknown_rejects code t w0 x c : trivia w0 -> first_char x c -> ~ token_start c ->
  rest_of code t = w0 ++ x -> rejects code t.
Proof.
  intros H0 Hx Hn Hr. destruct (next_unknown (tk_prevDot t) w0 x c H0 Hx Hn) as (s' & H).
  rewrite <- Hr in H. eapply next_error_rejects; [exact H | reflexivity | right; reflexivity].
Qed.

(** Literals without end. *)
Lemma next_no_date pd w0 s : trivia w0 -> (forall v rest, ~ str_text 39 s v rest) ->
  exists e s', next pd (w0 ++ z2b 39 :: s) = (LexRes EOF [] (Some e), s', false).
Proof.
  intros H0 Hs. unfold next. fold (trivia_end (w0 ++ z2b 39 :: s)).
  rewrite (next_at w0 39 s) by (try assumption; try lia; reflexivity). cbv zeta.
  rewrite cur_ascii by reflexivity. change (b2z (z2b 39)) with 39.
  change (isLetter 39) with false. change (39 =? cDot) with false. change (isDigit 39) with false.
  change (39 =? cApos) with true. cbv iota.
  destruct (scanString 39 (z2b 39 :: s)) as [[lit|e] s'] eqn:E; [|eauto].
  exfalso. apply scanString_iff in E as (v & Hv & _); [|right; reflexivity].
  rewrite adv_ascii in Hv by reflexivity. apply (Hs _ _ Hv).
Qed.

(** ** Directives *)

Definition directive_kind (w : list Z) : option Z :=
  assoc (B "&" ++ string_of_runes (map lower_rune w)) directives.

Lemma next_directive pd w0 w rest : trivia w0 -> Forall word_char w -> word_ends rest ->
  next pd (w0 ++ B "&" ++ string_of_runes w ++ rest) =
  match directive_kind w with
  | Some k => (LexRes k (B "&" ++ string_of_runes w) None, rest, false)
  | None => (LexRes 38 (encode 38) (Some (LSyntax (encode 38))), string_of_runes w ++ rest, false)
  end.
Proof.
  intros H0 Hw Hr. apply Forall_word in Hw. unfold next.
  change (w0 ++ B "&" ++ string_of_runes w ++ rest) with (w0 ++ z2b 38 :: string_of_runes w ++ rest).
  fold (trivia_end (w0 ++ z2b 38 :: string_of_runes w ++ rest)).
  rewrite next_at by (try assumption; try lia; reflexivity). cbv zeta.
  rewrite cur_ascii, adv_ascii by reflexivity. change (b2z (z2b 38)) with 38.
  change (isLetter 38) with false. change (38 =? cDot) with false. change (isDigit 38) with false.
  change (38 =? cApos) with false. change (punct 38) with false. change (38 =? 61) with false.
  change (38 =? cQuote) with false. change (38 =? 60) with false. change (38 =? 62) with false.
  change (38 =? 38) with true. cbv iota.
  unfold scanIdentifier. fold (ident_runes (string_of_runes w ++ rest)).
  rewrite ident_runes_word by (try apply word_ends_cur; assumption).
  change (B "&" ++ string_of_runes w) with (string_of_runes (38 :: w)).
  rewrite lower_runes by (cbn [forallb]; apply word_runes_valid, Hw).
  change (string_of_runes (map lower_rune (38 :: w))) with (B "&" ++ string_of_runes (map lower_rune w)).
  fold (directive_kind w). destruct (directive_kind w); reflexivity.
Qed.

Lemma directive_lookup w : Forall word_char w ->
  (exists d, In d directive_words /\ same_word w (runes d)) /\ directive_kind w = Some tDirective \/
  (forall d, In d directive_words -> ~ same_word w (runes d)) /\ directive_kind w = None.
Proof.
  intros Hw. destruct (directive_kind w) as [k|] eqn:E.
  - left. unfold directive_kind in E. apply assoc_in in E.
    assert (Hall : forallb (fun p => (snd p =? tDirective) && existsb (fun q =>
      beqb (fst p) (B "&" ++ string_of_runes (map lower_rune (runes q))) &&
      forallb valid_rune (map lower_rune (runes q))) directive_words) directives = true) by (vm_compute; reflexivity).
    rewrite forallb_forall in Hall. specialize (Hall _ E). cbn [fst snd] in Hall.
    apply andb_true_iff in Hall as [A0 Hall].
    apply existsb_exists in Hall as (d & Hd & Hall). apply andb_true_iff in Hall as [A1 A2]. apply beqb_eq in A1.
    apply app_inv_head in A1. split; [|f_equal; lia]. exists d. split; [exact Hd|].
    apply same_word_lower.
    assert (Hv : forallb valid_rune (map lower_rune w) = true).
    { apply Forall_word in Hw. pose proof (word_runes_valid _ Hw) as V. rewrite forallb_forall in *.
      intros c Hc. apply in_map_iff in Hc as (c0 & <- & Hc0). apply lower_rune_valid, V, Hc0. }
    rewrite <- (runes_string _ Hv), <- (runes_string _ A2). congruence.
  - right. split; [|reflexivity]. intros d Hd Hs. apply same_word_lower in Hs.
    unfold directive_kind in E. rewrite Hs in E.
    assert (Hall : forallb (fun q => is_some (assoc (B "&" ++ string_of_runes (map lower_rune (runes q))) directives))
      directive_words = true) by (vm_compute; reflexivity).
    rewrite forallb_forall in Hall. specialize (Hall _ Hd). rewrite E in Hall. discriminate.
Qed.

(** ** Columns *)
Lemma chars_runes s cs : chars s cs -> length (runes s) = length cs.
Proof.
  induction 1 as [|c s r cs Hc Hd Hs IH]; [reflexivity|].
  destruct (chars_firstn c s r Hc Hd) as [_ A].
  rewrite runes_eq. destruct (c ++ s) as [|b x] eqn:E; [destruct c; [congruence|discriminate]|].
  rewrite A. cbn [length]. congruence.
Qed.

(** ** Literals that cannot end *)
Lemma in_skipn {A} (x : A) n : forall l, In x (skipn n l) -> In x l.
Proof. intros l H. rewrite <- (firstn_skipn n l). apply in_or_app. right. exact H. Qed.

Lemma str_text_quote en s v rest : str_text en s v rest -> In (z2b en) s.
Proof.
  induction 1 as [b rest Hb Hr|s v rest r k Hs Hd H1 H2 H IH|s v rest H IH|t s v rest Ht H IH|b s v rest Hb Hn H IH].
  - left. reflexivity.
  - eapply in_skipn. exact IH.
  - left. reflexivity.
  - right. apply in_or_app. right. right. exact IH.
  - left. reflexivity.
Qed.

Lemma line_gap_head t s c x : line_gap t -> t ++ z2b 124 :: s = c :: x ->
  space_char (b2z c) \/ b2z c = 124 \/ b2z c = 47.
Proof.
  intros [H|(b & l & w & H1 & H2 & H3 & ->)] E.
  - destruct H as [|a t Ha Ht]; cbn in E; injection E as <- _; [right; left; reflexivity | left; exact Ha].
  - destruct H1 as [|a t Ha Ht]; cbn in E; injection E as <- _; [right; right; reflexivity | left; exact Ha].
Qed.
Lemma line_gap_blank a t s x : space_char (b2z a) -> line_gap t -> t ++ z2b 124 :: s = a :: x ->
  exists t', line_gap t' /\ t' ++ z2b 124 :: s = x.
Proof.
  intros Ha [H|(b & l & w & H1 & H2 & H3 & ->)] E.
  - destruct H as [|c t Hc Ht]; cbn in E; injection E as <- E; [exfalso; vm_compute in Ha; lia|].
    exists t. split; [left; exact Ht | exact E].
  - destruct H1 as [|c t Hc Ht]; cbn in E; injection E as <- E; [exfalso; vm_compute in Ha; lia|].
    eexists. split; [right; exists t, l, w; split; [exact Ht | split; [exact H2 | split; [exact H3 | reflexivity]]]|].
    exact E.
Qed.

Lemma no_break en : quote_char en -> forall b rest, blanks b ->
  (forall c, first_char rest c -> ~ space_char c /\ c <> 124 /\ c <> 47) ->
  forall v r, ~ str_text en (z2b 10 :: b ++ rest) v r.
Proof.
  intros Hq b rest Hb Hr v r H.
  assert (Hen : z2b en <> z2b 10) by (destruct Hq as [->| ->]; discriminate).
  assert (HG : forall t s, line_gap t -> t ++ z2b 124 :: s = b ++ rest -> False).
  { clear H. induction Hb as [|a b Ha Hb IH]; intros t s Ht E.
    - cbn [app] in E. destruct rest as [|c x]; [destruct t; discriminate|].
      destruct (line_gap_head _ _ _ _ Ht E) as [Hc|Hc].
      + assert (Hlt : b2z c < 128) by (unfold space_char in Hc; lia).
        destruct (Hr (b2z c)) as [N _]; [apply first_char_ascii; [exact Hlt | reflexivity] | exact (N Hc)].
      + assert (Hlt : b2z c < 128) by lia.
        destruct (Hr (b2z c)) as (_ & N1 & N2); [apply first_char_ascii; [exact Hlt | reflexivity] | lia].
    - cbn [app] in E. destruct (line_gap_blank _ _ _ _ Ha Ht E) as (t' & Ht' & E'). exact (IH t' s Ht' E'). }
  inversion H as [b' r' Hb' Hr' E1|s v' r' c k Hs Hd H1 H2 H3 E1|s v' r' H1 E1|t s v' r' Ht H1 E1|b' s v' r' Hb' Hn H1 E1]; subst.
  - congruence.
  - assert (E : fst (decode (z2b 10 :: b ++ rest)) = 10) by reflexivity. rewrite Hd in E. cbn in E. congruence.
  - congruence.
  - eapply HG; eassumption.
  - congruence.
Qed.

Lemma no_break_after en : quote_char en -> forall w b rest, forallb valid_rune w = true ->
  Forall (fun c => c <> en /\ c <> 10) w -> blanks b ->
  (forall c, first_char rest c -> ~ space_char c /\ c <> 124 /\ c <> 47) ->
  forall v r, ~ str_text en (string_of_runes w ++ z2b 10 :: b ++ rest) v r.
Proof.
  intros Hq w b rest Hv Hw Hb Hr. induction Hw as [|c w [Hc1 Hc2] Hw IH]; [apply no_break; assumption|].
  cbn [forallb] in Hv. apply andb_true_iff in Hv as [Hv1 Hv2]. intros v r H.
  cbn [string_of_runes flat_map] in H. fold (string_of_runes w) in H. rewrite <- app_assoc in H.
  set (x := string_of_runes w ++ z2b 10 :: b ++ rest) in *.
  pose proof (decode_encode c x Hv1) as D.
  assert (Hqr : 0 <= en < 128) by (destruct Hq as [->| ->]; lia).
  assert (Hne : forall a y, encode c ++ x = z2b a :: y -> 0 <= a < 128 -> c = a).
  { intros a y E Ha. rewrite E in D. assert (E2 : fst (decode (z2b a :: y)) = a).
    { pose proof (cur_ascii (z2b a) y) as C. rewrite b2z_z2b in C by lia. unfold cur in C. apply C. lia. }
    rewrite D in E2. exact E2. }
  assert (G : forall s0 v0 r0, str_text en s0 v0 r0 -> s0 = encode c ++ x -> exists v1, str_text en x v1 r0).
  { intros s0 v0 r0 H0. destruct H0 as [b' r' Hb' Hr'|s v' r' c' k Hs Hd H1 H2 H3|s v' r' H1|t s v' r' Ht H1|b' s v' r' Hb' Hn H1];
      intros E1.
    - exfalso. apply Hc1. eapply Hne; [symmetry; exact E1 | exact Hqr].
    - subst s. rewrite D in Hd. injection Hd as <- <-.
      rewrite skipn_app, skipn_all, Nat.sub_diag in H3. exists v'. exact H3.
    - exfalso. apply Hc1. eapply Hne; [symmetry; exact E1 | exact Hqr].
    - exfalso. apply Hc2. eapply Hne; [symmetry; exact E1 | lia].
    - exfalso. apply Hc1. eapply Hne; [symmetry; exact E1 | exact Hqr]. }
  destruct (G _ _ _ H eq_refl) as (v1 & H1). exact (IH Hv2 v1 r H1).
Qed.
