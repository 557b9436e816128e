(** Reading a text piece by piece: a text written as words, literals, punctuation and
    blanks is read back as the tokens of the pieces. *)
From Verif Require Import Bytes Utf8 UnicodeTables Float64 GoTime Ast Lexer LexFacts Utf8Facts LexSpec LexProofs LexTrivia
  LexTokens LexStrings NumSpec NumProofs NumTokens Tok Printer Properties_Lexer Properties_Literals.
Open Scope Z_scope.

(** The token a scanner result stands for. *)
Definition tk_res (r : lexres) : option tk :=
  let c := lr_tok r in
  if c =? tNumber then match parse_float (lr_lit r) with Some f => Some (KNum f) | None => None end
  else if c =? tString then Some (KStr (lr_lit r))
  else if c =? tDate then match parse_date (lr_lit r) with Some d => Some (KDate d) | None => None end
  else if c =? tIdent then Some (KId (lr_lit r))
  else if c =? tExecute then Some (KExec (lr_lit r))
  else if c =? tDirective then Some (KDir (lr_lit r))
  else if c =? tGoToLabel then Some (KLabel (lr_lit r))
  else Some (K c).

(** [reads pd s l]: the rest [s] of a text is read as the tokens [l]; [pd] tells whether
    a dot stands before it. *)
Inductive reads : bool -> bytes -> list tk -> Prop :=
| rd_end pd s r s' pd' : next pd s = (r, s', pd') -> lr_tok r = EOF -> lr_err r = None -> reads pd s []
| rd_tok pd s r s' pd' k l : next pd s = (r, s', pd') -> lr_err r = None -> lr_tok r <> EOF -> tk_res r = Some k ->
    reads pd' s' l -> reads pd s (k :: l).

Lemma reads_lexes pd s l : reads pd s l -> forall code t, tk_prevDot t = pd -> rest_of code t = s ->
  exists raw, lexes code t raw /\ l = map (fun x => tk_of (fst x) (snd x)) raw.
Proof.
  induction 1 as [pd s r s' pd' H H1 H2|pd s r s' pd' k l H H1 H2 H3 H4 IH]; intros code t Hpd Hs.
  - exists []. split; [|reflexivity]. subst. destruct (next_yields code t _ _ _ H H2) as (t' & Ht & _).
    + rewrite H1. discriminate.
    + rewrite H1. discriminate.
    + rewrite H1 in Ht. econstructor. exact Ht.
  - subst. assert (Hx : exists t', Next code t = (lr_tok r, t', None) /\ tk_prevDot t' = pd' /\ rest_of code t' = s' /\ tk_of (lr_tok r) t' = k).
    { unfold Next. fold (rest_of code t). rewrite H. cbv zeta.
      assert (Hr : forall v, rest_of code (Token true v (lr_lit r) (length code - length s') pd') = s').
      { intros v. unfold rest_of. cbn [tk_off]. eapply skipn_off; [|apply rest_of_suffix]. eapply next_progress. exact H. }
      assert (HT : lr_tok r <> tNumber -> lr_tok r <> tString -> lr_tok r <> tDate -> forall v,
        tk_of (lr_tok r) (Token true v (lr_lit r) (length code - length s') pd') = k).
      { intros N1 N2 N3 v. apply Z.eqb_neq in N1, N2, N3. revert H3. unfold tk_res, tk_of. cbv zeta. rewrite N1, N2, N3. cbn [tk_lit tk_value].
        destruct (_ =? tIdent); [congruence|]. destruct (_ =? tExecute); [congruence|]. destruct (_ =? tDirective); [congruence|].
        destruct (_ =? tGoToLabel); [congruence|]. destruct v; congruence. }
      unfold tk_res in H3. cbv zeta in H3.
      destruct (lr_tok r =? tNumber) eqn:E1.
      { apply Z.eqb_eq in E1. destruct (parse_float (lr_lit r)) as [f|]; [|discriminate]. injection H3 as <-. eexists. split; [reflexivity|].
        split; [reflexivity|]. split; [apply Hr|]. rewrite E1. reflexivity. }
      destruct (lr_tok r =? tString) eqn:E2.
      { apply Z.eqb_eq in E2. injection H3 as <-. rewrite H1. eexists. split; [reflexivity|].
        split; [reflexivity|]. split; [apply Hr|]. rewrite E2. reflexivity. }
      destruct (lr_tok r =? tDate) eqn:E3.
      { apply Z.eqb_eq in E3. destruct (parse_date (lr_lit r)) as [f|] eqn:Ep; [|discriminate]. injection H3 as <-.
        destruct (forallb _ (lr_lit r)) eqn:Ez.
        - unfold parse_date in Ep. rewrite Ez in Ep. injection Ep as <-. rewrite H1. eexists. split; [reflexivity|].
          split; [reflexivity|]. split; [apply Hr|]. rewrite E3. reflexivity.
        - eexists. split; [reflexivity|]. split; [reflexivity|]. split; [apply Hr|]. rewrite E3. reflexivity. }
      apply Z.eqb_neq in E1, E2, E3. rewrite H1.
      repeat match goal with |- context [if ?b then _ else _] => destruct b end;
      (eexists; split; [reflexivity|]; split; [reflexivity|]; split; [apply Hr|]; apply HT; assumption). }
    destruct Hx as (t' & N1 & N2 & N3 & <-). destruct (IH code t' N2 N3) as (raw & L1 & ->).
    exists ((lr_tok r, t') :: raw). split; [econstructor; eassumption | reflexivity].
Qed.
Theorem reads_tokens code l : reads false code l -> tokens code l.
Proof. intros H. destruct (reads_lexes _ _ _ H code zero_token eq_refl eq_refl) as (raw & H1 & H2). exists raw. auto. Qed.

Lemma reads_next pd s s2 l : next pd s = next pd s2 -> reads pd s2 l -> reads pd s l.
Proof. intros E H. inversion H; subst; [eapply rd_end|eapply rd_tok]; rewrite ?E; eauto. Qed.
Lemma reads_blanks pd b s l : blanks b -> (reads pd (b ++ s) l <-> reads pd s l).
Proof.
  intros Hb. pose proof (next_trivia pd b s (blanks_trivia _ Hb)) as E. split; intros H; (eapply reads_next; [|exact H]); congruence.
Qed.
Lemma reads_nil pd : reads pd [] [].
Proof.
  destruct (next pd []) as [[r s'] pd'] eqn:E. assert (X : lr_tok r = EOF /\ lr_err r = None).
  { unfold next in E. change (skipRegions (skipComment (skipSpace []))) with (@nil byte) in E. cbv zeta in E.
    change (cur []) with EOF in E. rewrite isLetter_EOF in E. change (EOF =? cDot) with false in E. change (isDigit EOF) with false in E.
    change (EOF =? cApos) with false in E. change (punct EOF) with false in E. change (EOF =? 61) with false in E.
    change (EOF =? cQuote) with false in E. change (EOF =? 60) with false in E. change (EOF =? 62) with false in E.
    change (EOF =? 38) with false in E. change (EOF =? 126) with false in E. change (EOF =? EOF) with true in E. injection E as <- <- <-. auto. }
  eapply rd_end; [exact E| |]; apply X.
Qed.

(** * What may follow a piece *)
Definition wend (s : bytes) : Prop := isLetter (cur s) || isDigit (cur s) = false.
Definition ends (s : bytes) : Prop := exists b r, s = b ++ r /\ blanks b /\
  isSpace (cur r) = false /\ cur r <> 34 /\ (b = [] -> wend r /\ cur r <> 46).
Definition any (s : bytes) : Prop := True.

Lemma blank_cur b x s : blanks (x :: b) -> cur (x :: s) = b2z x /\ (b2z x = 32 \/ b2z x = 9 \/ b2z x = 13 \/ b2z x = 10).
Proof. intros H. inversion H as [|? ? Hx _]; subst. split; [apply cur_ascii; unfold space_char in Hx; lia | exact Hx]. Qed.
Lemma space_wend z : z = 32 \/ z = 9 \/ z = 13 \/ z = 10 -> isLetter z || isDigit z = false.
Proof. intros [->|[->|[->| ->]]]; vm_compute; reflexivity. Qed.
Lemma ends_wend s : ends s -> wend s.
Proof.
  intros (b & r & -> & Hb & H1 & H2 & H3). destruct b as [|x b]; [apply H3; reflexivity|]. unfold wend. cbn [app].
  destruct (blank_cur _ _ (b ++ r) Hb) as [-> Hx]. apply space_wend, Hx.
Qed.
Lemma ends_dot s : ends s -> cur s <> 46.
Proof.
  intros (b & r & -> & Hb & H1 & H2 & H3). destruct b as [|x b]; [apply H3; reflexivity|]. cbn [app].
  destruct (blank_cur _ _ (b ++ r) Hb) as [-> Hx]. lia.
Qed.
Lemma ends_here s : isSpace (cur s) = false -> cur s <> 34 -> wend s -> cur s <> 46 -> ends s.
Proof. intros H1 H2 H3 H4. exists [], s. repeat split; auto. constructor. Qed.
Lemma ends_blank x s : space_char (b2z x) -> isSpace (cur s) = false -> cur s <> 34 -> ends (x :: s).
Proof. intros Hx H1 H2. exists [x], s. repeat split; auto; try discriminate. constructor; [exact Hx|constructor]. Qed.
Lemma ends_blanks b s : blanks b -> ends s -> ends (b ++ s).
Proof.
  intros H (b2 & r & -> & Hb & H1 & H2 & H3). exists (b ++ b2), r. rewrite app_assoc. repeat split; auto.
  - apply Forall_app; auto.
  - apply H3. destruct b; [exact H0|discriminate].
  - apply H3. destruct b; [exact H0|discriminate].
Qed.
Lemma ends_nil : ends [].
Proof. apply ends_here; unfold wend; try reflexivity; try discriminate. Qed.

(** * Pieces *)
(** [writes pd E s l]: the text [s] (behind a dot if [pd]) is read as [l] if the text
    behind it satisfies [E]. *)
Definition writes (pd : bool) (E : bytes -> Prop) (s : bytes) (l : list tk) : Prop :=
  forall rest l', E rest -> reads false rest l' -> reads pd (s ++ rest) (l ++ l').

Lemma writes_nil E : writes false E [] [].
Proof. intros rest l' _ H. exact H. Qed.
Lemma writes_app pd (E1 E2 : bytes -> Prop) s1 s2 l1 l2 : writes pd E1 s1 l1 -> writes false E2 s2 l2 ->
  (forall rest, E2 rest -> E1 (s2 ++ rest)) -> writes pd E2 (s1 ++ s2) (l1 ++ l2).
Proof. intros H1 H2 H rest l' Hr Hl. rewrite <- !app_assoc. apply H1; auto. Qed.
Lemma writes_weak pd (E1 E2 : bytes -> Prop) s l : writes pd E1 s l -> (forall rest, E2 rest -> E1 rest) -> writes pd E2 s l.
Proof. intros H1 H rest l' Hr. apply H1; auto. Qed.
Lemma writes_any pd (E : bytes -> Prop) s l : writes pd any s l -> writes pd E s l.
Proof. intros H. apply (writes_weak _ _ _ _ _ H). intros; exact I. Qed.
Lemma writes_blanks b E s l : blanks b -> writes false E s l -> writes false E (b ++ s) l.
Proof. intros Hb H rest l' Hr Hl. rewrite <- app_assoc. apply reads_blanks; auto. Qed.
Lemma writes_blank b (E : bytes -> Prop) : blanks b -> writes false E b [].
Proof. intros Hb rest l' Hr Hl. apply reads_blanks; auto. Qed.
Lemma blanks_app a b : blanks a -> blanks b -> blanks (a ++ b).
Proof. intros. apply Forall_app; auto. Qed.
Lemma blanks_sp n : blanks (repeat x20 n).
Proof. apply Forall_forall. intros x H. apply repeat_spec in H. subst x. left. reflexivity. Qed.
Lemma blanks_nl n : blanks (repeat x0a n).
Proof. apply Forall_forall. intros x H. apply repeat_spec in H. subst x. right. right. right. reflexivity. Qed.

(** Words. *)
Definition word_char_b (c : Z) : bool := isLetter c || isDigit c.
Definition wordb (n : bytes) : bool :=
  match runes n with
  | c :: w => isLetter c && forallb word_char_b w && beqb (string_of_runes (c :: w)) n
  | [] => false
  end.
Definition chars_b (n : bytes) : bool := forallb word_char_b (runes n) && beqb (string_of_runes (runes n)) n.
Lemma wordb_spec n : wordb n = true -> exists w, is_word w /\ n = string_of_runes w.
Proof.
  unfold wordb. destruct (runes n) as [|c w]; [discriminate|]. rewrite !andb_true_iff. intros ((H1 & H2) & H3).
  exists (c :: w). split; [|symmetry; apply beqb_eq, H3]. exists c, w. split; [reflexivity|]. split; [apply isLetter_spec, H1|].
  apply Forall_word. rewrite forallb_forall in H2. apply Forall_forall, H2.
Qed.
Lemma chars_b_spec n : chars_b n = true -> exists w, Forall word_char w /\ n = string_of_runes w.
Proof.
  unfold chars_b. rewrite andb_true_iff. intros [H2 H3]. exists (runes n). split; [|symmetry; apply beqb_eq, H3].
  apply Forall_word. rewrite forallb_forall in H2. apply Forall_forall, H2.
Qed.
Lemma wordb_word w : is_word w -> wordb (string_of_runes w) = true.
Proof.
  intros Hw. pose proof (is_word_forall w Hw) as Hf. pose proof (word_runes_valid _ Hf) as Hv. destruct Hw as (c & w' & -> & Hc & Hw').
  unfold wordb. rewrite runes_string by exact Hv. rewrite !andb_true_iff. split; [split|].
  - apply isLetter_spec, Hc.
  - apply forallb_forall. apply Forall_word in Hw'. rewrite Forall_forall in Hw'. exact Hw'.
  - apply beqb_eq. reflexivity.
Qed.
Lemma chars_b_chars w : Forall word_char w -> chars_b (string_of_runes w) = true.
Proof.
  intros Hw. apply Forall_word in Hw. pose proof (word_runes_valid _ Hw) as Hv.
  unfold chars_b. rewrite runes_string by exact Hv. rewrite !andb_true_iff. split.
  - apply forallb_forall. rewrite Forall_forall in Hw. exact Hw.
  - apply beqb_eq. reflexivity.
Qed.

Definition word_tk (pd : bool) (n : bytes) : tk :=
  match (if pd then None else assoc (fastToLower n) keywords) with
  | Some c => if c =? tExecute then KExec n else K c
  | None => KId n
  end.
Lemma writes_word pd n : wordb n = true -> writes pd wend n [word_tk pd n].
Proof.
  intros Hn rest l' Hr Hl. apply wordb_spec in Hn as (w & Hw & ->).
  pose proof (next_word pd [] w rest tr_nil Hw (proj2 (word_ends_cur rest) Hr)) as H. cbn [app] in H.
  pose proof (word_runes_valid _ (is_word_forall w Hw)) as Hv.
  eapply rd_tok; [exact H| | | |exact Hl]; cbn [lr_tok lr_err]; try reflexivity; unfold kind_of_word.
  - destruct (if pd then None else _) as [k|] eqn:E; [|discriminate]. destruct pd; [discriminate|]. apply assoc_in in E.
    assert (A : forallb (fun p => negb (snd p =? EOF)) keywords = true) by (vm_compute; reflexivity).
    rewrite forallb_forall in A. specialize (A _ E). cbn in A. apply negb_true_iff, Z.eqb_neq in A. exact A.
  - unfold word_tk. rewrite lower_runes by exact Hv. unfold tk_res. cbn [lr_tok lr_lit].
    destruct (if pd then None else _) as [k|] eqn:E; [|reflexivity]. destruct pd; [discriminate|]. apply assoc_in in E.
    assert (A : forallb (fun p => negb (snd p =? tNumber) && negb (snd p =? tString) && negb (snd p =? tDate) && negb (snd p =? tIdent) && negb (snd p =? tDirective) && negb (snd p =? tGoToLabel)) keywords = true) by (vm_compute; reflexivity).
    rewrite forallb_forall in A. specialize (A _ E). cbn [snd] in A. rewrite !andb_true_iff, !negb_true_iff in A.
    destruct A as (((((-> & ->) & ->) & ->) & ->) & ->). destruct (k =? tExecute); reflexivity.
Qed.

(** Punctuation. *)
Definition plain_punct (c : Z) : bool := punct c && negb (c =? 47) || (c =? 61).
Definition punct_tk (c : Z) : tk := K (if c =? 61 then tEQUAL else c).
Lemma punct_end c rest : In c [59; 40; 41; 44; 45; 43; 42; 63; 91; 93; 58; 37; 61] -> trivia_end (z2b c :: rest) = z2b c :: rest.
Proof.
  intros Hin. change (z2b c :: rest) with ([] ++ z2b c :: rest) at 1. apply next_at; [constructor|..]; cbn [In] in Hin; repeat destruct Hin as [<-|Hin]; try destruct Hin; try lia; try reflexivity; discriminate.
Qed.
Lemma punct_cur c rest : In c [59; 40; 41; 44; 45; 43; 42; 63; 91; 93; 58; 37; 61] -> cur (z2b c :: rest) = c /\ adv (z2b c :: rest) = rest.
Proof.
  intros Hin. cbn [In] in Hin; repeat destruct Hin as [<-|Hin]; try destruct Hin; (split; [apply cur_ascii; reflexivity | apply adv_ascii; reflexivity]).
Qed.
Lemma punct_next pd c rest x : In c [59; 40; 41; 44; 45; 43; 42; 63; 91; 93; 58; 37; 61] -> trivia_end x = x -> cur x = c -> adv x = rest ->
  next pd x = (LexRes (if c =? 61 then tEQUAL else c) (encode c) None, rest, false).
Proof.
  intros Hin E E2 E3. unfold next. fold (trivia_end x). rewrite E. cbv zeta. rewrite E2, E3.
  cbn [In] in Hin; repeat destruct Hin as [<-|Hin]; try destruct Hin; reflexivity.
Qed.
Lemma writes_punct pd c : plain_punct c = true -> writes pd any [z2b c] [punct_tk c].
Proof.
  intros Hc rest l' _ Hl.
  assert (Hin : In c [59; 40; 41; 44; 45; 43; 42; 63; 91; 93; 58; 37; 61]).
  { unfold plain_punct, punct in Hc. cbn [In]. lia. }
  assert (H : next pd (z2b c :: rest) = (LexRes (if c =? 61 then tEQUAL else c) (encode c) None, rest, false)).
  { destruct (punct_cur c rest Hin). apply punct_next; auto using punct_end. }
  change ([z2b c] ++ rest) with (z2b c :: rest). eapply rd_tok; [exact H|reflexivity| | |exact Hl]; clear H; cbn [In] in Hin; repeat destruct Hin as [<-|Hin]; try destruct Hin; try discriminate; reflexivity.
Qed.
(** A dot. *)
Lemma reads_dot s l : reads true s l -> reads false (B "." ++ s) (K 46 :: l).
Proof.
  intros Hl. assert (H : next false ([] ++ z2b 46 :: s) = (LexRes 46 (encode 46) None, s, true)).
  { unfold next. fold (trivia_end ([] ++ z2b 46 :: s)).
    rewrite (next_at [] 46 s) by (try constructor; try lia; try reflexivity; discriminate).
    cbv zeta. rewrite cur_ascii, adv_ascii by reflexivity. change (b2z (z2b 46)) with 46. reflexivity. }
  change (B "." ++ s) with ([] ++ z2b 46 :: s). eapply rd_tok; [exact H|reflexivity|discriminate|reflexivity|exact Hl].
Qed.
Lemma writes_dot E s l : writes true E s l -> writes false E (B "." ++ s) (K 46 :: l).
Proof. intros H rest l' Hr Hl. rewrite <- app_assoc. apply reads_dot. apply H; assumption. Qed.

(** Literals. *)
Lemma ends_quote rest : ends rest -> exists b r, rest = b ++ r /\ blanks b /\ (forall c, first_char r c -> ~ space_char c /\ c <> 34).
Proof.
  intros (b & r & -> & Hb & H1 & H2 & _). exists b, r. repeat split; auto; destruct H as [Hn <-]; destruct r as [|x r]; try congruence;
  change (fst (decode (x :: r))) with (cur (x :: r)).
  - intros Hs. unfold isSpace in H1. unfold space_char in Hs. lia.
  - exact H2.
Qed.
Lemma writes_string v : str_body v -> writes false ends (dquote ++ string_of_runes v ++ dquote) [KStr (string_of_runes v)].
Proof.
  intros Hv rest l' Hr Hl. destruct (ends_quote _ Hr) as (b & r & -> & Hb & Hr2).
  rewrite <- !app_assoc. change (dquote ++ b ++ r) with (z2b 34 :: b ++ r).
  pose proof (next_string false [] _ _ _ tr_nil (str_body_text v b r Hv Hb Hr2)) as H.
  change (dquote ++ string_of_runes v ++ z2b 34 :: b ++ r) with ([] ++ z2b 34 :: string_of_runes v ++ z2b 34 :: b ++ r).
  eapply rd_tok; [exact H|reflexivity|discriminate|reflexivity|]. eapply reads_blanks; eassumption.
Qed.
Lemma writes_date t : calendar_date t -> writes false ends (B "'" ++ format_time t ++ B "'") [KDate t].
Proof.
  intros Hd rest l' Hr Hl. destruct (ends_quote _ Hr) as (b & r & -> & Hb & Hr2).
  destruct (calendar_bounds t Hd) as (B1 & B2 & B3 & B4 & B5 & B6).
  destruct (pad_field 4 _ ltac:(lia) B1) as (y & F1 & E1). destruct (pad_field 2 _ ltac:(lia) B2) as (m & F2 & E2).
  destruct (pad_field 2 _ ltac:(lia) B3) as (dd & F3 & E3). destruct (pad_field 2 _ ltac:(lia) B4) as (h & F4 & E4).
  destruct (pad_field 2 _ ltac:(lia) B5) as (mi & F5 & E5). destruct (pad_field 2 _ ltac:(lia) B6) as (s & F6 & E6).
  unfold format_time. rewrite E1, E2, E3, E4, E5, E6, <- !digit_text_app.
  set (all := y ++ m ++ dd ++ h ++ mi ++ s). assert (Hdd : date_digits all t) by (apply dd_second; assumption).
  pose proof (date_digits_digits _ _ Hdd) as Hall.
  assert (Hs : str_text 39 (digit_text all ++ z2b 39 :: b ++ r) (map b2z (digit_text all)) r).
  { clear - Hall Hb Hr2. induction Hall as [|d ds Hd Hds IH].
    - apply (st_end 39 b r); assumption.
    - cbn [digit_text map app]. rewrite digit_byte by exact Hd. apply st_char with (k := 1%nat); [discriminate| |lia|lia|exact IH].
      cbn [decode]. rewrite digit_byte by exact Hd. replace (48 + d <? 128) with true by lia. reflexivity. }
  pose proof (next_date false [] _ _ _ tr_nil Hs) as H. rewrite digits_of_text in H by exact Hall.
  assert (Hne : all <> []) by (subst all; destruct F1 as (F1 & _); clear - F1; destruct y; [discriminate F1|intros N; discriminate N]).
  destruct all as [|d0 all'] eqn:Ea; [congruence|]. rewrite <- Ea in *. rewrite <- !app_assoc. change (B "'" ++ b ++ r) with (z2b 39 :: b ++ r).
  change (B "'" ++ digit_text all ++ z2b 39 :: b ++ r) with ([] ++ z2b 39 :: digit_text all ++ z2b 39 :: b ++ r).
  eapply rd_tok; [exact H|reflexivity|discriminate| |]; [|eapply reads_blanks; eassumption].
  unfold tk_res. cbn [lr_tok lr_lit]. rewrite (parse_date_complete _ _ Hdd). reflexivity.
Qed.
Lemma whole_dec f : is_f64 f -> whole f \/ ~ whole f.
Proof.
  intros Hf. destruct (Z.le_gt_cases 0 (f_exp f)) as [He|He].
  - left. exists (f_man f * 2 ^ f_exp f). rewrite f64_Q_pos, inject_Z_mult, <- Qpower2_Z by (apply Hf || lia). reflexivity.
  - destruct (Z.eq_dec (f_man f mod 2 ^ (- f_exp f)) 0) as [E|E].
    + left. exists (f_man f / 2 ^ (- f_exp f)). rewrite f64_Q_pos by apply Hf.
      pose proof (pow2_pos (- f_exp f) ltac:(lia)) as P.
      pose proof (Z.div_mod (f_man f) (2 ^ (- f_exp f)) ltac:(lia)) as Q. rewrite E, Z.add_0_r in Q.
      rewrite Q at 1. rewrite inject_Z_mult, <- Qpower2_Z by lia.
      rewrite (Qmult_comm (Qpower 2 (- f_exp f))), <- Qmult_assoc, <- Qpower2_plus.
      rewrite Z.add_opp_diag_l. cbn [Qpower]. ring.
    + right. intros [m Hw]. apply E. rewrite f64_Q_pos in Hw by apply Hf.
      pose proof (pow2_pos (- f_exp f) ltac:(lia)) as P.
      assert (Q : (inject_Z (f_man f) == inject_Z (m * 2 ^ (- f_exp f)))%Q).
      { rewrite inject_Z_mult, <- Qpower2_Z, <- Hw by lia. rewrite <- Qmult_assoc, <- Qpower2_plus.
        rewrite Z.add_opp_diag_r. cbn [Qpower]. ring. }
      unfold Qeq in Q. cbn in Q. rewrite !Z.mul_1_r in Q. rewrite Q. apply Z.mod_mul. lia.
Qed.
(** The number that the printed form of [f] stands for. *)
Definition rounded (f : f64) : f64 := match parse_float (format_0f f) with Some g => g | None => f end.
Lemma format_float f : is_f64 f -> exists b s, format_0f f = b :: s /\ 48 <= b2z b <= 57 /\ number_chars s /\
  parse_float (format_0f f) = Some (rounded f) /\ (whole f -> rounded f = f).
Proof.
  intros Hf. destruct (format_value f Hf) as (n & ds & N0 & Ef & D1 & D2 & D3 & W1 & W2). rewrite Ef.
  destruct ds as [|d ds]; [congruence|]. cbn [digit_text map]. exists (z2b (48 + d)), (digit_text ds).
  split; [reflexivity|]. inversion D1 as [|? ? Hd Hds]; subst. rewrite digit_byte by exact Hd. split; [lia|].
  split; [apply digit_text_number, Hds|]. change (z2b (48 + d) :: map (fun d0 => z2b (48 + d0)) ds) with (digit_text (d :: ds)).
  unfold rounded. rewrite Ef, parse_float_int by (assumption || discriminate). set (n := dec_value (d :: ds)) in *.
  destruct (to_f64 n 1) as [g|] eqn:E.
  - split; [reflexivity|]. intros Hw. apply to_f64_nearest in E; [|lia|lia]. eapply nearest_unique; [exact E|].
    apply nearest_self; [exact Hf|]. rewrite (W1 Hw), frac_Qmake by lia. reflexivity.
  - exfalso. apply to_f64_overflow in E; [|lia|lia]. rewrite Z.mul_1_r in E.
    destruct (whole_dec f Hf) as [Hw|Hw].
    + specialize (W1 Hw). pose proof (f64_bound f Hf) as Hb. rewrite W1, <- Zlt_Qlt in Hb. lia.
    + specialize (W2 Hw). unfold overflow_bound in E. clear - E W2. lia.
Qed.
Lemma writes_number f : is_f64 f -> writes false ends (format_0f f) [KNum (rounded f)].
Proof.
  intros Hf rest l' Hr Hl. destruct (format_float f Hf) as (b & s & E & H1 & H2 & H3 & _).
  pose proof (ends_wend _ Hr) as Hw. pose proof (ends_dot _ Hr) as Hdot. unfold wend in Hw. apply orb_false_iff in Hw as [Hw1 Hw2].
  assert (H : next false (b :: s ++ rest) = (LexRes tNumber (b :: s) None, rest, false)).
  { pose proof (next_number false [] b s rest tr_nil H1 H2) as H. rewrite Hw1 in H. apply H. rewrite Hw2. apply Z.eqb_neq, Hdot. }
  rewrite E in *. change ((b :: s) ++ rest) with (b :: s ++ rest). eapply rd_tok; [exact H|reflexivity|discriminate| |exact Hl]. unfold tk_res. cbn [lr_tok lr_lit]. rewrite H3. reflexivity.
Qed.

(** Labels and directives. *)
Lemma writes_label n : chars_b n = true -> writes false wend (B "~" ++ n) [KLabel n].
Proof.
  intros Hn rest l' Hr Hl. apply chars_b_spec in Hn as (w & Hw & ->). apply Forall_word in Hw.
  assert (H : next false ([] ++ z2b 126 :: string_of_runes w ++ rest) = (LexRes tGoToLabel (string_of_runes w) None, rest, false)).
  { unfold next. fold (trivia_end ([] ++ z2b 126 :: string_of_runes w ++ rest)).
    rewrite (next_at [] 126 (string_of_runes w ++ rest)) by (try constructor; try lia; try reflexivity; discriminate).
    cbv zeta. rewrite cur_ascii, adv_ascii by reflexivity. change (b2z (z2b 126)) with 126.
    change (isLetter 126) with false. unfold scanIdentifier. fold (ident_runes (string_of_runes w ++ rest)).
    rewrite ident_runes_word by assumption. reflexivity. }
  change ((B "~" ++ string_of_runes w) ++ rest) with ([] ++ z2b 126 :: string_of_runes w ++ rest).
  eapply rd_tok; [exact H|reflexivity|discriminate|reflexivity|exact Hl].
Qed.
Definition dirb (n : bytes) : bool :=
  match n with b :: n' => (b2z b =? 38) && chars_b n' && is_some (assoc (fastToLower n) directives) | [] => false end.
Lemma writes_directive n : dirb n = true -> writes false wend n [KDir n].
Proof.
  intros Hn rest l' Hr Hl. destruct n as [|b n']; [discriminate|]. cbn [dirb] in Hn. rewrite !andb_true_iff in Hn.
  destruct Hn as ((Hb & Hn) & Ha). apply Z.eqb_eq in Hb. assert (b = z2b 38) as -> by (rewrite <- Hb, z2b_b2z; reflexivity). clear Hb.
  apply chars_b_spec in Hn as (w & Hw & ->). apply Forall_word in Hw.
  destruct (assoc _ directives) as [k|] eqn:E; [|discriminate].
  assert (H : next false ([] ++ z2b 38 :: string_of_runes w ++ rest) = (LexRes k (B "&" ++ string_of_runes w) None, rest, false)).
  { unfold next. fold (trivia_end ([] ++ z2b 38 :: string_of_runes w ++ rest)).
    rewrite (next_at [] 38 (string_of_runes w ++ rest)) by (try constructor; try lia; try reflexivity; discriminate).
    cbv zeta. rewrite cur_ascii, adv_ascii by reflexivity. change (b2z (z2b 38)) with 38.
    change (isLetter 38) with false. unfold scanIdentifier. fold (ident_runes (string_of_runes w ++ rest)).
    rewrite ident_runes_word by assumption. change (B "&" ++ string_of_runes w) with (z2b 38 :: string_of_runes w). cbn in E |- *. rewrite E. reflexivity. }
  assert (Hk : k = tDirective).
  { apply assoc_in in E. assert (A : forallb (fun p => snd p =? tDirective) directives = true) by (vm_compute; reflexivity).
    rewrite forallb_forall in A. specialize (A _ E). apply Z.eqb_eq, A. }
  subst k. change ((z2b 38 :: string_of_runes w) ++ rest) with ([] ++ z2b 38 :: string_of_runes w ++ rest). eapply rd_tok; [exact H|reflexivity|discriminate|reflexivity|exact Hl].
Qed.
