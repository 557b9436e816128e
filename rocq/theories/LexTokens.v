(** Proofs: words (C02, C03, C09), operators, positions (C12). *)
From Verif Require Import Bytes Utf8 UnicodeTables Float64 GoTime Ast Lexer LexFacts Utf8Facts LexSpec LexProofs LexTrivia.

(** * prevDot *)
Lemma next_prevDot pd s r s' pd' : next pd s = (r, s', pd') -> lr_err r <> Some LFuel ->
  (pd' = true -> lr_tok r = 46) /\ (lr_tok r = 46 -> pd' = negb pd).
Proof.
  unfold next. set (x := skipRegions _). cbv zeta. intros H _. revert H.
  destruct (isLetter (cur x)) eqn:E0.
  { destruct (scanIdentifier x) as [lit s2].
    destruct (if pd then None else assoc (fastToLower lit) keywords) as [k|] eqn:Ea;
      intros [= <- <- <-]; split; try discriminate; cbn [lr_tok]; intros E.
    exfalso. destruct pd; [discriminate|].
    assert (H : forall l, assoc l keywords = Some k -> k <> 46).
    { clear. intros l. unfold keywords. cbn [assoc].
      repeat (destruct (beqb _ _); [intros [= <-]; discriminate|]). discriminate. }
    apply (H _ Ea), E. }
  destruct (cur x =? cDot) eqn:E1.
  { intros [= <- <- <-]. cbn [lr_tok]. unfold cDot in E1. split; [lia | reflexivity]. }
  assert (Hne : cur x <> 46) by (unfold cDot in E1; lia).
  assert (Hp : forall t l er s2, (LexRes t l er, s2, false) = (r, s', pd') -> t <> 46 ->
     (pd' = true -> lr_tok r = 46) /\ (lr_tok r = 46 -> pd' = negb pd)).
  { intros t l er s2 [= <- <- <-] Ht. cbn [lr_tok]. split; [discriminate | congruence]. }
  assert (Hk : forall l k, assoc l directives = Some k -> k = tDirective).
  { clear. intros l k. unfold directives. cbn [assoc].
    repeat (destruct (beqb _ _); [intros [= <-]; reflexivity|]). discriminate. }
  repeat match goal with
  | |- context [scanString ?e ?z] => destruct (scanString e z) as [[?|?] ?]
  | |- context [scanNumber ?z] => destruct (scanNumber z) as [[?|?] ?]
  | |- context [scanIdentifier ?z] => destruct (scanIdentifier z)
  | |- context [match extractDigits ?a with _ => _ end] => destruct (extractDigits a)
  | |- context [match assoc ?a directives with _ => _ end] => destruct (assoc a directives) as [k|] eqn:Ea
  | |- context [if ?b then _ else _] => destruct b
  end; intros H; (eapply Hp; [exact H | first [exact Hne | discriminate | rewrite (Hk _ _ Ea); discriminate | idtac "?"]]).
Qed.

Lemma Next_prevDot code t k t' e : Next code t = (k, t', e) ->
  (tk_prevDot t' = true -> k = 46) /\ (k = 46 -> tk_prevDot t' = negb (tk_prevDot t)).
Proof.
  intros H. destruct (Next_split code t) as (r & s' & pd' & v & H1 & H2 & H3 & _).
  rewrite H in H2, H3. cbn [fst snd] in *. subst k t'. cbn [tk_prevDot].
  eapply next_prevDot; [exact H1|]. eapply next_no_fuel; exact H1.
Qed.

Lemma not_after_dot_pd code t : not_after_dot code t -> tk_prevDot t = false.
Proof.
  intros [->|(t0 & k & e & H & Hk)]; [reflexivity|].
  destruct (Next_prevDot _ _ _ _ _ H) as [H1 _]. destruct (tk_prevDot t); [|reflexivity].
  exfalso; auto.
Qed.
Lemma after_dot_pd code t : after_dot code t -> tk_prevDot t = true.
Proof.
  intros (t0 & e & H0 & H). destruct (Next_prevDot _ _ _ _ _ H) as [_ H2].
  rewrite H2 by reflexivity. rewrite (not_after_dot_pd _ _ H0). reflexivity.
Qed.
Lemma after_dot_one code t k t' e : after_dot code t -> Next code t = (k, t', e) -> k <> 46 ->
  not_after_dot code t'.
Proof. intros _ H Hk. right. eauto. Qed.

(** * Start of a token *)
Lemma trivia_end_start w s : trivia w -> cur s <> 47 -> cur s <> 35 -> isSpace (cur s) = false ->
  trivia_end (w ++ s) = s.
Proof.
  intros Hw H1 H2 H3. rewrite trivia_end_trivia by exact Hw. unfold trivia_end.
  rewrite skipSpace_id by exact H3. rewrite skipComment_id by (unfold cSlash; lia).
  apply skipRegions_settled. split; unfold cHash, cSlash; lia.
Qed.

Lemma word_ends_cur s : word_ends s <-> isLetter (cur s) || isDigit (cur s) = false.
Proof.
  split.
  - intros H. destruct (isLetter (cur s) || isDigit (cur s)) eqn:E; [|reflexivity].
    exfalso. assert (Hs : s <> []) by (intros ->; rewrite cur_nil, isLetter_EOF in E; discriminate).
    apply (H (cur s)); [split; [exact Hs | destruct s; [congruence|reflexivity]]|].
    apply word_spec, E.
  - intros H c [Hs Hc] Hw. apply word_spec in Hw. destruct s; [congruence|].
    unfold cur in H. rewrite Hc, Hw in H. discriminate.
Qed.

Lemma Forall_word w : Forall word_char w <-> Forall (fun c => isLetter c || isDigit c = true) w.
Proof. split; intros H; (eapply Forall_impl; [|exact H]); intros c Hc; apply word_spec, Hc. Qed.

Lemma is_word_forall w : is_word w -> Forall (fun c => isLetter c || isDigit c = true) w.
Proof.
  intros (c & w' & -> & Hc & Hw). constructor; [|apply Forall_word, Hw].
  apply isLetter_spec in Hc. rewrite Hc. reflexivity.
Qed.
Lemma word_runes_valid w : Forall (fun c => isLetter c || isDigit c = true) w -> forallb valid_rune w = true.
Proof. intros H. apply forallb_forall. rewrite Forall_forall in H. intros c Hc. apply word_valid, H, Hc. Qed.

Definition kind_of_word (pd : bool) (w : list Z) : Z :=
  match (if pd then None else assoc (string_of_runes (map lower_rune w)) keywords) with
  | Some k => k | None => tIdent end.

Lemma letter_class c : isLetter c = true -> c <> 47 /\ c <> 35 /\ isSpace c = false.
Proof.
  intros H. repeat split; try (intros ->; vm_compute in H; discriminate).
  destruct (isSpace c) eqn:E; [|reflexivity]. unfold isSpace in E.
  assert (c = 32 \/ c = 9 \/ c = 13 \/ c = 10) as [->|[->|[->| ->]]] by lia; vm_compute in H; discriminate.
Qed.

Lemma next_word pd w0 w rest : trivia w0 -> is_word w -> word_ends rest ->
  next pd (w0 ++ string_of_runes w ++ rest) =
  (LexRes (kind_of_word pd w) (string_of_runes w) None, rest, false).
Proof.
  intros H0 Hw Hr. pose proof (is_word_forall w Hw) as Hf.
  destruct Hw as (c & w' & Ew & Hc & Hw'). apply isLetter_spec in Hc.
  assert (Hv : valid_rune c = true) by (apply letter_valid, Hc).
  set (s := string_of_runes w ++ rest).
  assert (Hcur : cur s = c).
  { unfold s. rewrite Ew. cbn [string_of_runes flat_map]. rewrite <- app_assoc. apply cur_encode, Hv. }
  destruct (letter_class c Hc) as (L1 & L2 & L3).
  unfold next. fold (trivia_end (w0 ++ s)).
  rewrite trivia_end_start by (rewrite ?Hcur; assumption). cbv zeta. rewrite Hcur, Hc.
  unfold scanIdentifier. fold (ident_runes s). unfold s.
  rewrite ident_runes_word by (try apply word_ends_cur; assumption).
  unfold kind_of_word. rewrite lower_runes by (apply word_runes_valid, Hf).
  destruct (if pd then None else assoc (string_of_runes (map lower_rune w)) keywords); reflexivity.
Qed.

Lemma assoc_in {A} l (m : list (bytes * A)) k : assoc l m = Some k -> In (l, k) m.
Proof.
  induction m as [|[b x] m IH]; cbn [assoc]; [discriminate|].
  destruct (beqb _ _) eqn:E.
  - intros [= <-]. apply beqb_eq in E. left. congruence.
  - intros H. right. apply IH, H.
Qed.
Lemma keyword_kinds l k : assoc l keywords = Some k -> exists b, In (b, k) keywords /\ b = l.
Proof. intros H. exists l. split; [apply assoc_in, H | reflexivity]. Qed.

Lemma kind_of_word_not_literal pd w : kind_of_word pd w <> tNumber /\ kind_of_word pd w <> tDate.
Proof.
  unfold kind_of_word.
  destruct (if pd then None else assoc (string_of_runes (map lower_rune w)) keywords) as [k|] eqn:E;
    [|split; discriminate].
  destruct pd; [discriminate|]. apply keyword_kinds in E as (b & Hin & _).
  assert (Hall : forallb (fun p => negb (snd p =? tNumber) && negb (snd p =? tDate)) keywords = true)
    by (vm_compute; reflexivity).
  rewrite forallb_forall in Hall. specialize (Hall _ Hin). cbn [snd] in Hall.
  unfold tNumber, tDate in *. lia.
Qed.

(** From [next] to Next. *)
Lemma next_yields code t r s' pd' : next (tk_prevDot t) (rest_of code t) = (r, s', pd') ->
  lr_err r = None -> lr_tok r <> tNumber -> lr_tok r <> tDate ->
  yields code t (lr_tok r) (lr_lit r) s'.
Proof.
  intros H He Hn Hd. destruct (Next_split code t) as (r2 & s2 & pd2 & v & H1 & H2 & H3 & H4).
  rewrite H in H1. injection H1 as <- <- <-.
  exists (Token true v (lr_lit r) (length code - length s') pd'). split; [|split; [reflexivity|]].
  - destruct (Next code t) as [[k t'] e]. cbn [fst snd] in *. subst.
    rewrite H4, He by assumption. reflexivity.
  - unfold rest_of. cbn [tk_off]. eapply skipn_off; [|apply rest_of_suffix].
    eapply next_progress. exact H.
Qed.
Lemma next_rejects code t r s' pd' e : next (tk_prevDot t) (rest_of code t) = (r, s', pd') ->
  lr_err r = Some e -> lr_tok r <> tNumber -> lr_tok r <> tDate -> rejects code t.
Proof.
  intros H He Hn Hd. destruct (Next_split code t) as (r2 & s2 & pd2 & v & H1 & H2 & H3 & H4).
  rewrite H in H1. injection H1 as <- <- <-.
  destruct (Next code t) as [[k t'] e'] eqn:E. cbn [fst snd] in *. subst.
  exists (lr_tok r), (Token true v (lr_lit r) (length code - length s') pd'), e.
  rewrite E, H4, He by assumption. reflexivity.
Qed.

Lemma word_yields code t w0 w rest : trivia w0 -> is_word w -> word_ends rest ->
  rest_of code t = w0 ++ string_of_runes w ++ rest ->
  yields code t (kind_of_word (tk_prevDot t) w) (string_of_runes w) rest.
Proof.
  intros H0 Hw Hr Hc. pose proof (next_word (tk_prevDot t) w0 w rest H0 Hw Hr) as H.
  rewrite <- Hc in H. destruct (kind_of_word_not_literal (tk_prevDot t) w).
  apply (next_yields _ _ _ _ _ H); [reflexivity | assumption | assumption].
Qed.

(** ** C02 *)
Lemma same_word_lower w w' : same_word w w' <-> map lower_rune w = map lower_rune w'.
Proof.
  split.
  - induction 1 as [|a b l l' H H2 IH]; [reflexivity|]. simpl. congruence.
  - revert w'. induction w as [|a w IH]; destruct w' as [|b w']; try discriminate; [constructor|].
    intros [= H1 H2]. constructor; [exact H1 | apply IH, H2].
Qed.

Lemma upper_lower_letter a c : lower_rune a = lower_rune c -> isLetter (lower_rune c) = true -> isLetter a = true.
Proof.
  intros H Hl. assert (Hd : upper_letter a \/ ~ upper_letter a) by (unfold upper_letter; lia).
  destruct Hd as [Hu|Hu]; [|rewrite lower_rune_id in H by exact Hu; congruence].
  assert (Hin : In a (map Z.of_nat (seq 65 26 ++ seq 1040 32 ++ [1025%nat]))).
  { apply in_map_iff. exists (Z.to_nat a). unfold upper_letter in Hu. split; [lia|].
    rewrite !in_app_iff, !in_seq. simpl. lia. }
  assert (Hall : forallb isLetter (map Z.of_nat (seq 65 26 ++ seq 1040 32 ++ [1025%nat])) = true)
    by (vm_compute; reflexivity).
  rewrite forallb_forall in Hall. apply Hall, Hin.
Qed.

Lemma reserved_word rw k w : In (rw, k) reserved -> same_word w (runes rw) -> is_word w.
Proof.
  intros Hin Hs.
  assert (Hall : forallb (fun p => match runes (fst p) with [] => false | _ => true end &&
      forallb (fun c => isLetter (lower_rune c)) (runes (fst p))) reserved = true) by (vm_compute; reflexivity).
  rewrite forallb_forall in Hall. specialize (Hall _ Hin). cbn [fst] in Hall.
  apply andb_true_iff in Hall as [A1 A2]. rewrite forallb_forall in A2.
  assert (HF : Forall (fun c => isLetter c = true) w).
  { clear A1 Hin. induction Hs as [|a b l l' H H2 IH]; constructor.
    - apply (upper_lower_letter a b H). apply A2. left; reflexivity.
    - apply IH. intros c Hc. apply A2. right; exact Hc. }
  inversion Hs as [E1 E2|a b l l' H1 H2 E1 E2]; subst.
  - rewrite <- E2 in A1. discriminate.
  - inversion HF as [|? ? B1 B2]; subst. exists a, l. repeat split; [apply isLetter_spec, B1|].
    eapply Forall_impl; [|exact B2]. intros c Hc. apply word_spec. cbv beta in Hc. rewrite Hc. reflexivity.
Qed.

Lemma reserved_lookup rw k w : In (rw, k) reserved -> same_word w (runes rw) -> kind_of_word false w = k.
Proof.
  intros Hin Hs. unfold kind_of_word. apply same_word_lower in Hs. rewrite Hs.
  assert (Hall : forallb (fun p => match assoc (string_of_runes (map lower_rune (runes (fst p)))) keywords with
      Some k => k =? snd p | None => false end) reserved = true) by (vm_compute; reflexivity).
  rewrite forallb_forall in Hall. specialize (Hall _ Hin). cbn [fst snd] in Hall.
  destruct (assoc _ keywords); [lia | discriminate].
Qed.

Lemma unreserved_lookup w : is_word w ->
  (forall rw k, In (rw, k) reserved -> ~ same_word w (runes rw)) -> kind_of_word false w = tIdent.
Proof.
  intros Hw Hn. unfold kind_of_word.
  destruct (assoc (string_of_runes (map lower_rune w)) keywords) as [k|] eqn:E; [|reflexivity].
  exfalso. apply keyword_kinds in E as (b & Hin & Hb).
  assert (Hall : forallb (fun p => existsb (fun q =>
      beqb (fst p) (string_of_runes (map lower_rune (runes (fst q)))) &&
      forallb valid_rune (map lower_rune (runes (fst q)))) reserved) keywords = true) by (vm_compute; reflexivity).
  rewrite forallb_forall in Hall. specialize (Hall _ Hin). cbn [fst] in Hall.
  apply existsb_exists in Hall as ([rw k'] & Hq & Hall). cbn [fst] in Hall.
  apply andb_true_iff in Hall as [A1 A2]. apply beqb_eq in A1.
  apply (Hn rw k' Hq). apply same_word_lower.
  assert (Hv : forallb valid_rune (map lower_rune w) = true).
  { pose proof (word_runes_valid _ (is_word_forall _ Hw)) as V. rewrite forallb_forall in *.
    intros c Hc. apply in_map_iff in Hc as (c0 & <- & Hc0). apply lower_rune_valid, V, Hc0. }
  rewrite <- (runes_string _ Hv), <- (runes_string _ A2). congruence.
Qed.

(** ** C09 *)
Lemma maximal_word x c : first_char x c -> letter_char c ->
  exists w rest, x = string_of_runes w ++ rest /\ is_word w /\ word_ends rest.
Proof.
  intros [Hx Hc] Hl. destruct (ident_runes x) as [w rest] eqn:E.
  destruct (ident_runes_split x w rest E) as (H1 & H2 & H3).
  exists w, rest. split; [exact H1|]. split; [|apply word_ends_cur, H3].
  apply isLetter_spec in Hl.
  assert (Hcur : cur x = c) by (destruct x; [congruence | exact Hc]).
  rewrite ident_runes_eq, Hcur, Hl in E. cbn [orb] in E.
  destruct (ident_runes (adv x)) as [w' r']. injection E as <- <-.
  inversion H2; subst. exists (fst (decode x)), w'. repeat split; [apply isLetter_spec; assumption|].
  apply Forall_word. assumption.
Qed.

Lemma first_char_ascii b s c : b2z b < 128 -> (first_char (b :: s) c <-> c = b2z b).
Proof.
  intros H. unfold first_char. pose proof (cur_ascii b s H) as E. unfold cur in E. rewrite E.
  split; [intros [_ <-]; reflexivity | intros ->; split; [discriminate|reflexivity]].
Qed.

Lemma next_op2 pd w0 b1 b2 k rest : trivia w0 ->
  In (b1, b2, k) [(60, 62, tNeEQ); (60, 61, tLE); (62, 61, tGE)] ->
  next pd (w0 ++ z2b b1 :: z2b b2 :: rest) = (LexRes k [z2b b1; z2b b2] None, rest, false).
Proof.
  intros H0 Hin. unfold next. fold (trivia_end (w0 ++ z2b b1 :: z2b b2 :: rest)).
  assert (Hr : b1 = 60 /\ b2 = 62 /\ k = tNeEQ \/ b1 = 60 /\ b2 = 61 /\ k = tLE \/ b1 = 62 /\ b2 = 61 /\ k = tGE).
  { destruct Hin as [[= <- <- <-]|[[= <- <- <-]|[[= <- <- <-]|[]]]]; tauto. }
  destruct Hr as [(-> & -> & ->)|[(-> & -> & ->)|(-> & -> & ->)]];
  (rewrite trivia_end_start; [|exact H0|rewrite cur_ascii by reflexivity; discriminate
     |rewrite cur_ascii by reflexivity; discriminate|rewrite cur_ascii by reflexivity; reflexivity]);
  cbv zeta; unfold nextLet; rewrite !adv_ascii, !cur_ascii by reflexivity; reflexivity.
Qed.

Lemma next_op1 pd w0 b rest : trivia w0 -> b = 60 \/ b = 62 ->
  (forall c, first_char rest c -> c <> 61 /\ (b = 60 -> c <> 62)) ->
  next pd (w0 ++ z2b b :: rest) = (LexRes b [z2b b] None, rest, false).
Proof.
  intros H0 Hb Hr. unfold next. fold (trivia_end (w0 ++ z2b b :: rest)).
  assert (N1 : cur rest <> 61).
  { intros E. destruct (Hr 61) as [H _]; [apply cur_first; [lia | exact E] | congruence]. }
  assert (N2 : b = 60 -> cur rest <> 62).
  { intros Eb E. destruct (Hr 62) as [_ H]; [apply cur_first; [lia | exact E]|]. apply (H Eb). reflexivity. }
  destruct Hb as [->| ->];
  (rewrite trivia_end_start; [|exact H0|rewrite cur_ascii by reflexivity; discriminate
     |rewrite cur_ascii by reflexivity; discriminate|rewrite cur_ascii by reflexivity; reflexivity]);
  cbv zeta; unfold nextLet; rewrite !adv_ascii, !cur_ascii by reflexivity.
  - replace (cur rest =? 62) with false by lia. replace (cur rest =? 61) with false by lia. reflexivity.
  - replace (cur rest =? 61) with false by lia. reflexivity.
Qed.

(** ** C12 *)
Lemma after_last_acc s : line s -> forall acc, after_last_eol s acc = acc.
Proof.
  induction 1 as [|b s Hb Hs IH]; intros acc; [reflexivity|]. cbn [after_last_eol].
  replace (b2z b =? EOL) with false by (unfold EOL; lia). apply IH.
Qed.
Lemma after_last_split a b : line b -> forall acc, after_last_eol (a ++ nl ++ b) acc = b.
Proof.
  intros Hb. induction a as [|x a IH]; intros acc.
  - cbn [app nl after_last_eol]. rewrite b2z_z2b by lia. cbn [Z.eqb]. change (10 =? EOL) with true.
    cbv iota. apply after_last_acc, Hb.
  - cbn [app after_last_eol]. destruct (b2z x =? EOL); apply IH.
Qed.

Lemma position_line code off : p_line (GetPosition code off) =
  Z.of_nat (length (filter (fun b => b2z b =? 10) (firstn off code))) + 1.
Proof. reflexivity. Qed.
