(** The text of an error (C68).  Model: ErrText.v; how it is read: ErrRead.v; proofs: ErrFacts.v. *)
From Verif Require Import Bytes Utf8 UnicodeTables Float64 GoTime Ast Lexer LexFacts Utf8Facts LexSpec NumSpec NumProofs NumTokens Tables Parser Properties_Literals Properties_Helpers ErrText ErrRead ErrFacts.
Open Scope Z_scope.

(** ** Messages *)
Definition no_marks (l : bytes) : bool := forallb (fun b => negb (b2z b =? 46) && negb (b2z b =? 34)) l.
Lemma message_raw l : no_marks l = true -> forall n t, (length l <= n)%nat ->
  message n (l ++ t) = match message (n - length l) t with Some (x, ws, r) => Some (l ++ x, ws, r) | None => None end.
Proof.
  induction l as [|b l IH]; intros H n t Hn.
  - cbn [length app] in *. rewrite Nat.sub_0_r. destruct (message n t) as [[[]]|]; reflexivity.
  - cbn [no_marks forallb] in H. apply andb_true_iff in H as [Hb H]. apply andb_true_iff in Hb as [H1 H2]. apply negb_true_iff in H1, H2.
    destruct n as [|n]; [cbn in Hn; lia|]. cbn [app message length Nat.sub]. rewrite H1, H2, IH by (try exact H; cbn in Hn; lia).
    destruct (message (n - length l) t) as [[[]]|]; reflexivity.
Qed.
Lemma message_dot n t : (0 < n)%nat -> message n (z2b 46 :: t) = Some ([], [], z2b 46 :: t).
Proof. destruct n; [lia|reflexivity]. Qed.
Lemma message_named ip w n t : (length (quote ip w ++ t) <= n)%nat -> exists n', (length t <= n')%nat /\
  message n (quote ip w ++ t) = match message n' t with Some (x, ws, r) => Some (x, w :: ws, r) | None => None end.
Proof.
  intros H. destruct (unquote_quote ip w t) as (q & Eq & Eu & El). rewrite Eq in *. destruct n as [|n]; [cbn in H; lia|].
  exists n. split; [cbn in H; lia|]. cbn [message]. change (b2z (z2b 34) =? 46) with false. change (b2z (z2b 34) =? 34) with true. cbv iota. rewrite Eu. reflexivity.
Qed.
Lemma message_text ip m t : message (length (msg_text ip m ++ z2b 46 :: t)) (msg_text ip m ++ z2b 46 :: t) = Some (fst (said m), snd (said m), z2b 46 :: t).
Proof.
  assert (P : forall l, no_marks l = true -> message (length (l ++ z2b 46 :: t)) (l ++ z2b 46 :: t) = Some (l, [], z2b 46 :: t)).
  { intros l Hl. rewrite message_raw by (try exact Hl; rewrite app_length; lia). rewrite message_dot by (rewrite app_length; cbn; lia). rewrite app_nil_r. reflexivity. }
  assert (Q : forall a w b, no_marks a = true -> no_marks b = true ->
    message (length ((a ++ quote ip w ++ b) ++ z2b 46 :: t)) ((a ++ quote ip w ++ b) ++ z2b 46 :: t) = Some (a ++ b, [w], z2b 46 :: t)).
  { intros a w b Ha Hb. rewrite <- !app_assoc. rewrite message_raw by (try exact Ha; rewrite app_length; lia).
    set (n := (length (a ++ quote ip w ++ b ++ z2b 46%Z :: t) - length a)%nat).
    destruct (message_named ip w n (b ++ z2b 46 :: t)) as (n' & Hn & ->); [unfold n; rewrite !app_length; lia|].
    rewrite app_length in Hn. cbn [length] in Hn. rewrite message_raw by (try exact Hb; lia). rewrite message_dot by lia. rewrite app_nil_r. reflexivity. }
  destruct m; cbn [msg_text said fst snd]; try (apply P; vm_compute; reflexivity).
  - apply (Q (B "operator ") lit (B " can only be used inside a loop")); vm_compute; reflexivity.
  - apply (Q (B "operator ") lit (B " without arguments can only be used when handling an exception")); vm_compute; reflexivity.
  - pose proof (Q (B "variable has already been defined: with the specified name ") name []) as X. rewrite !app_nil_r in X. apply X; vm_compute; reflexivity.
  - pose proof (Q (B "variable has already been defined: with the specified name ") name []) as X. rewrite !app_nil_r in X. apply X; vm_compute; reflexivity.
Qed.

Lemma behind_app p t : behind p (p ++ t) = Some t.
Proof. induction p as [|b p IH]; [reflexivity|]. cbn [app behind]. replace (Byte.eqb b b) with true by (symmetry; apply Byte.byte_dec_lb; reflexivity). exact IH. Qed.

(** * C68 The text of an error tells the error *)
(** The message with the names in it, the line, the column and the token can be read back from the text of an error of the parser,
    whatever the names and the token are and whichever characters are printable. *)
Theorem C68_read : forall ip why m line col lit,
  read_error (error_text ip why (EParse m line col lit)) = Some (fst (said m), snd (said m), line, col, lit).
Proof.
  intros ip why m line col lit. unfold read_error, error_text.
  change (B ". line: ") with (z2b 46 :: B " line: ") at 1 2. rewrite <- !app_comm_cons, message_text.
  change (z2b 46 :: B " line: " ++ ?x) with (B ". line: " ++ x). rewrite behind_app.
  rewrite integer_text by (intros b t' E; injection E as <- _; vm_compute; intros []; congruence). rewrite behind_app.
  rewrite integer_text by (intros b t' E; injection E as <- _; vm_compute; intros []; congruence).
  destruct (unquote_quote ip lit (B ")")) as (q & Eq & Eu & _). rewrite Eq.
  change (B " (unexpected literal: " ++ z2b 34 :: q) with (B " (unexpected literal: """ ++ q). rewrite behind_app, Eu. reflexivity.
Qed.

(** Errors of the scanner begin with words no other error begins with. *)
Theorem C68_kind : forall ip why e, (exists t, error_text ip why e = B "get token error: " ++ t) <-> exists x, e = ELex x.
Proof.
  intros ip why e. split; [|intros (x & ->); eexists; reflexivity]. intros (t & H). destruct e as [x|m line col lit]; [eauto|].
  destruct m; discriminate H.
Qed.

Lemma quote_inj ip ip' a b t u : quote ip a ++ t = quote ip' b ++ u -> a = b /\ t = u.
Proof.
  intros H. destruct (unquote_quote ip a t) as (q & Eq & Eu & _), (unquote_quote ip' b u) as (q' & Eq' & Eu' & _). rewrite Eq, Eq' in H. injection H as <-.
  rewrite Eu in Eu'. injection Eu' as -> ->. auto.
Qed.
Lemma lex_text_inj ip why x y : lex_text ip why x = lex_text ip why y -> x = y.
Proof.
  destruct x, y; cbn [lex_text]; intros H; try reflexivity; try discriminate H; apply app_inv_head in H.
  - rewrite <- (app_nil_r (quote ip lit)), <- (app_nil_r (quote ip lit0)) in H. apply quote_inj in H as [-> _]. reflexivity.
  - apply quote_inj in H as [-> _]. reflexivity.
  - destruct (unquote_time lit (why lit)) as (q & Eq & Eu), (unquote_time lit0 (why lit0)) as (q' & Eq' & Eu'). rewrite Eq, Eq' in H. injection H as <-.
    rewrite Eu in Eu'. injection Eu' as ->. reflexivity.
Qed.
(** So errors with the same text tell the same: the same error of the scanner, or the same message about the same token at the same place. *)
Theorem C68_distinct : forall ip why e1 e2, error_text ip why e1 = error_text ip why e2 <-> same_report e1 e2.
Proof.
  intros ip why e1 e2. split.
  - intros H. destruct e1 as [x|m1 l1 c1 t1], e2 as [y|m2 l2 c2 t2]; cbn [same_report].
    + cbn [error_text] in H. apply app_inv_head in H. apply lex_text_inj in H. exact H.
    + destruct (proj1 (C68_kind ip why (EParse m2 l2 c2 t2))) as (z & Hz); [rewrite <- H; eexists; reflexivity|discriminate Hz].
    + destruct (proj1 (C68_kind ip why (EParse m1 l1 c1 t1))) as (z & Hz); [rewrite H; eexists; reflexivity|discriminate Hz].
    + pose proof (C68_read ip why m1 l1 c1 t1) as R. rewrite H, C68_read in R. injection R as R1 R2 R3 R4 R5.
      destruct (said m1), (said m2); cbn [fst snd] in *; subst; auto.
  - destruct e1 as [x|m1 l1 c1 t1], e2 as [y|m2 l2 c2 t2]; cbn [same_report]; intros H; try contradiction; [subst; reflexivity|].
    destruct H as (H & -> & -> & ->). cbn [error_text]. f_equal. destruct m1, m2; try discriminate H; try reflexivity; cbn [said] in H; injection H as H; subst; reflexivity.
Qed.

(** ** One line of valid UTF-8 *)
Lemma utf8_nil : utf8 []. Proof. exists []. split; reflexivity. Qed.
Lemma utf8_cat a b : utf8 a -> utf8 b -> utf8 (a ++ b).
Proof. intros (x & H1 & ->) (y & H2 & ->). exists (x ++ y). split; [rewrite forallb_app, H1, H2; reflexivity|]. unfold string_of_runes. rewrite flat_map_app. reflexivity. Qed.
Lemma utf8_encode r : valid_rune r = true -> utf8 (encode r).
Proof. intros H. exists [r]. cbn. rewrite H, app_nil_r. auto. Qed.
Definition good (s : bytes) : Prop := utf8 s /\ Forall plain_byte s.
Lemma good_nil : good []. Proof. split; [apply utf8_nil|constructor]. Qed.
Lemma good_cat a b : good a -> good b -> good (a ++ b).
Proof. intros [A1 A2] [B1 B2]. split; [apply utf8_cat; assumption|apply Forall_app; auto]. Qed.
Lemma good_ascii s : Forall (fun b => 32 <= b2z b < 128) s -> good s.
Proof.
  intros H. induction H as [|b s H1 H2 [I1 I2]]; [apply good_nil|]. split.
  - change (b :: s) with ([b] ++ s). apply utf8_cat; [|exact I1]. rewrite <- (z2b_b2z b), <- encode_small by lia. apply utf8_encode. unfold valid_rune; lia.
  - constructor; [unfold plain_byte; lia|exact I2].
Qed.
Lemma good_word s : forallb (fun b => (32 <=? b2z b) && (b2z b <? 128)) s = true -> good s.
Proof. intros H. apply good_ascii, Forall_forall. intros b Hb. rewrite forallb_forall in H. specialize (H b Hb). cbv beta in H. lia. Qed.
Lemma good_hex n r : good (hex_text n r).
Proof. apply good_ascii. induction n as [|n IH]; cbn; constructor; [|exact IH]. pose proof (hex_digit_plain ((r / 16 ^ Z.of_nat n) mod 16) ltac:(apply Z.mod_pos_bound; lia)). lia. Qed.
Lemma good_escape ip r : printable ip -> valid_rune r = true -> good (escape ip r).
Proof.
  intros Hi V. pose proof (valid_rune_range r V) as [R _]. unfold escape. destruct ((r =? 34) || (r =? 92)) eqn:E0.
  { apply good_ascii. constructor; [vm_compute; split; [discriminate|reflexivity]|]. constructor; [|constructor]. rewrite b2z_z2b by lia. lia. }
  destruct (ip r) eqn:Ei.
  { split; [apply utf8_encode, V|]. apply Forall_forall. intros b Hb. unfold plain_byte. destruct (encode_bytes r b V Hb) as [X|X]; [|lia].
    assert (~ r < 32) by (intros Hr; rewrite (Hi r Hr) in Ei; discriminate). lia. }
  repeat match goal with |- good (if ?b then _ else _) => destruct b end;
  repeat match goal with
  | |- good (_ ++ _) => apply good_cat
  | |- good (B _) => apply good_word; vm_compute; reflexivity
  | |- good (hex_text _ _) => apply good_hex
  end.
Qed.
Lemma good_quote ip s : printable ip -> good (quote ip s).
Proof.
  intros Hi. unfold quote. change (z2b 34 :: ?x) with ([z2b 34] ++ x). apply good_cat; [apply good_word; vm_compute; reflexivity|]. apply good_cat; [|apply good_word; vm_compute; reflexivity].
  generalize (length s) as n. intros n. revert s. induction n as [|n IH]; intros s; [apply good_nil|]. destruct s as [|b s]; [apply good_nil|]. cbn [quote_fuel].
  destruct (decode_shape (b :: s) ltac:(discriminate)) as [E|[V _]].
  - rewrite E. apply good_cat; [|apply IH]. apply good_cat; [apply good_word; vm_compute; reflexivity|apply good_hex].
  - destruct (decode (b :: s)) as [r w]. cbn [fst] in V. apply good_cat; [|apply IH]. destruct ((r =? RuneError) && Nat.eqb w 1); [|apply good_escape; assumption].
    apply good_cat; [apply good_word; vm_compute; reflexivity|apply good_hex].
Qed.
Lemma good_int n : good (int_text n).
Proof.
  assert (P : forall n, 0 <= n -> good (dec_of_Z n)).
  { intros k Hk. destruct (dec_of_Z_text k Hk) as (ds & D1 & _ & _ & -> & _). apply good_ascii. unfold digits in D1.
    unfold digit_text. induction D1 as [|d ds Hd D1 IH]; cbn [map]; constructor; [|exact IH]. rewrite b2z_z2b by lia. lia. }
  unfold int_text. destruct (n <? 0) eqn:E; [apply good_cat; [apply good_word; vm_compute; reflexivity|]|]; apply P; lia.
Qed.
Ltac goods Hi := repeat match goal with
  | |- good (_ ++ _) => apply good_cat
  | |- good (B _) => apply good_word; vm_compute; reflexivity
  | |- good (int_text _) => apply good_int
  | |- good (quote _ _) => apply good_quote, Hi
  | |- good (hex_text _ _) => apply good_hex
  end.
(** The text is one line of valid UTF-8, also for texts that are not: bytes and characters that cannot be shown are escaped.  What time.Parse says is assumed to be so. *)
Theorem C68_one_line : forall ip why e, printable ip -> (forall l, utf8 (why l) /\ Forall plain_byte (why l)) ->
  utf8 (error_text ip why e) /\ Forall plain_byte (error_text ip why e).
Proof.
  intros ip why e Hi Hw. change (good (error_text ip why e)).
  destruct e as [x|m line col lit]; cbn [error_text].
  - apply good_cat; [apply good_word; vm_compute; reflexivity|]. destruct x; cbn [lex_text]; goods Hi.
    + unfold number_reason. destruct (split_dot lit) as [a b]. match goal with |- good (if ?b then _ else _) => destruct b end; goods Hi.
    + unfold time_quote. change (z2b 34 :: ?x) with ([z2b 34] ++ x). apply good_cat; [apply good_word; vm_compute; reflexivity|]. apply good_cat; [|apply good_word; vm_compute; reflexivity].
      induction lit as [|b l IH]; [apply good_nil|]. cbn [flat_map]. apply good_cat; [|exact IH]. unfold time_escape.
      destruct ((128 <=? b2z b) || (b2z b <? 32)) eqn:E1; [goods Hi|].
      destruct ((b2z b =? 34) || (b2z b =? 92)) eqn:E2; apply good_ascii; repeat constructor; try lia; vm_compute; congruence.
    + apply Hw.
    + apply good_nil.
  - apply good_cat; [destruct m; cbn [msg_text]|]; goods Hi.
Qed.

(** Examples.  A token that looks like the end of a message, with a line end, a control character and a byte that is no
    character in it: the text is one line, and the reader is not misled. *)
Definition shown (c : Z) : bool := (32 <=? c) && negb (c =? 127) && negb (c =? 160) && (c <? 57344).
Definition code_of (p : option (res (astnode * option perr))) : option perr := match p with Some (Ok (_, e)) => e | _ => None end.
Definition trap : bytes := B "а = 1 ""\. line: 7, column: 8 (unexpected literal: '" ++ [z2b 10] ++ B "|" ++ [z2b 1; z2b 255] ++ B """;".
Example C68_example : exists lit, code_of (parse trap) = Some (EParse MSyntax 2 (-44) lit) /\
  error_text shown (fun _ => []) (EParse MSyntax 2 (-44) lit) =
  B "syntax error. line: 2, column: -44 (unexpected literal: ""\\. line: 7, column: 8 (unexpected literal: '\n|\x01\ufffd"")" /\
  read_error (error_text shown (fun _ => []) (EParse MSyntax 2 (-44) lit)) = Some (B "syntax error", [], 2, -44, lit).
Proof. eexists. split; [vm_compute; reflexivity|]. split; vm_compute; reflexivity. Qed.
Example C68_example_rule : code_of (parse (B "Процедура П() Прервать; КонецПроцедуры")) = Some (EParse (MLoopOp (B "Прервать")) 1 14 (B "Прервать")) /\
  error_text shown (fun _ => []) (EParse (MLoopOp (B "Прервать")) 1 14 (B "Прервать")) =
  B "operator ""Прервать"" can only be used inside a loop. line: 1, column: 14 (unexpected literal: ""Прервать"")".
Proof. split; vm_compute; reflexivity. Qed.
Example C68_example_scanner : code_of (parse (B "а = 1; 1.2.3;")) = Some (ELex (LNumber (B "1.2.3"))) /\
  error_text shown (fun _ => []) (ELex (LNumber (B "1.2.3"))) = B "get token error: strconv.ParseFloat: parsing ""1.2.3"": invalid syntax".
Proof. split; vm_compute; reflexivity. Qed.
Example C68_example_printable : printable shown.
Proof. intros c H. unfold shown. replace (32 <=? c) with false by lia. reflexivity. Qed.

Print Assumptions C68_read.
Print Assumptions C68_kind.
Print Assumptions C68_distinct.
Print Assumptions C68_one_line.
