(** The properties of the scanner (C01-C10, C12).  Specifications: LexSpec.v and
    NumSpec.v; proofs: Lex*.v, Num*.v. *)
From Verif Require Import Bytes Utf8 UnicodeTables Float64 GoTime Ast Lexer LexFacts Utf8Facts LexSpec LexProofs LexTrivia
  LexTokens LexStrings NumSpec NumProofs NumTokens LexReject.
Open Scope Z_scope.

(** * C01 Reading a token always makes progress *)
Theorem C01_next_progress : forall code t k t' e,
  (tk_off t <= length code)%nat -> Next code t = (k, t', e) ->
  e <> Some LFuel /\ (tk_off t <= tk_off t' <= length code)%nat /\
  ((k = EOF /\ e = None /\ tk_off t' = length code) \/ (tk_off t < tk_off t')%nat).
Proof. intros code t k t' e H. exact (Next_progress code t H k t' e). Qed.

(** Within [length code] calls the end of the text is reported, from any token state. *)
Theorem C01_stream_finite : forall code t, (tk_off t <= length code)%nat ->
  exists m t', (m <= length code - tk_off t)%nat /\
    Next code (after code m t) = (EOF, t', None) /\ tk_off t' = length code.
Proof. intros code t H. exact (stream_finite code _ t H (le_n _)). Qed.

(** The loops of the scanner satisfy their recursion equations: the fuel of the model never runs out. *)
Theorem C01_loops :
  (forall s, skipSpace s = if isSpace (cur s) then skipSpace (adv s) else s) /\
  (forall s, skipLine s = if (cur s =? EOL) || (cur s =? EOF) then s else skipLine (adv s)) /\
  (forall s, skipComment s =
     if (cur s =? cSlash) && (nextLet s =? cSlash) then
       let s1 := skipSpace (skipLine s) in
       if cur s1 =? cSlash then skipComment s1
       else if cur s1 =? cHash then skipRegions s1 else s1
     else s) /\
  (forall s, skipRegions s =
     let s1 := if cur s =? cHash then skipSpace (skipLine s) else s in
     if cur s1 =? cSlash then skipComment s1
     else if cur s1 =? cHash then skipRegions s1 else s1) /\
  (forall n en acc s, (length s < n)%nat -> fst (scan_string_fuel n en acc s) <> inr LFuel /\
     forall m, (length s < m)%nat -> scan_string_fuel n en acc s = scan_string_fuel m en acc s).
Proof.
  repeat split.
  - exact skipSpace_eq.
  - exact skipLine_eq.
  - exact skipComment_eq.
  - exact skipRegions_eq.
  - apply scan_string_no_fuel; assumption.
  - intros m Hm. apply scan_string_fuel_enough; assumption.
Qed.

Example C01_example : exists t', Next (B "  // c") zero_token = (EOF, t', None) /\ tk_off t' = 6%nat.
Proof. eexists. split; vm_compute; reflexivity. Qed.
Example C01_example2 : exists k t', Next (B "a b") zero_token = (k, t', None) /\ k <> EOF /\ tk_off t' = 1%nat.
Proof. eexists. eexists. split; [vm_compute; reflexivity | split; [discriminate | reflexivity]]. Qed.

(** * C02 Keywords are recognised in every letter case *)
Theorem C02_reserved : forall code t rw k w w0 rest,
  In (rw, k) reserved -> same_word w (runes rw) ->
  trivia w0 -> word_ends rest -> not_after_dot code t ->
  rest_of code t = w0 ++ string_of_runes w ++ rest ->
  yields code t k (string_of_runes w) rest.
Proof.
  intros code t rw k w w0 rest Hin Hs H0 Hr Hd Hc.
  pose proof (word_yields code t w0 w rest H0 (reserved_word _ _ _ Hin Hs) Hr Hc) as H.
  rewrite (not_after_dot_pd _ _ Hd), (reserved_lookup _ _ _ Hin Hs) in H. exact H.
Qed.
Theorem C02_not_reserved : forall code t w w0 rest,
  is_word w -> (forall rw k, In (rw, k) reserved -> ~ same_word w (runes rw)) ->
  trivia w0 -> word_ends rest -> rest_of code t = w0 ++ string_of_runes w ++ rest ->
  yields code t tIdent (string_of_runes w) rest.
Proof.
  intros code t w w0 rest Hw Hn H0 Hr Hc.
  pose proof (word_yields code t w0 w rest H0 Hw Hr Hc) as H. destruct (tk_prevDot t).
  - exact H.
  - rewrite (unreserved_lookup w Hw Hn) in H. exact H.
Qed.

Example C02_example : exists t', Next (B "  кОнЕцЕсЛи;") zero_token = (tEndIf, t', None) /\
  same_word (runes (B "кОнЕцЕсЛи")) (runes (B "КонецЕсли")) /\ rest_of (B "  кОнЕцЕсЛи;") t' = B ";".
Proof.
  eexists. split; [vm_compute; reflexivity|]. split; [|vm_compute; reflexivity].
  apply same_word_lower. vm_compute. reflexivity.
Qed.
Example C02_example2 : exists t', Next (B "Еслиб") zero_token = (tIdent, t', None).
Proof. eexists. vm_compute. reflexivity. Qed.

(** * C03 A name after a dot is never a keyword *)
Theorem C03_after_dot : forall code t w w0 rest,
  after_dot code t -> is_word w -> trivia w0 -> word_ends rest ->
  rest_of code t = w0 ++ string_of_runes w ++ rest ->
  yields code t tIdent (string_of_runes w) rest.
Proof.
  intros code t w w0 rest Hd Hw H0 Hr Hc.
  pose proof (word_yields code t w0 w rest H0 Hw Hr Hc) as H. rewrite (after_dot_pd _ _ Hd) in H. exact H.
Qed.
(** The effect lasts for one token: after it, C02 applies again. *)
Theorem C03_one_token : forall code t k t' e,
  after_dot code t -> Next code t = (k, t', e) -> k <> 46 -> not_after_dot code t'.
Proof. exact after_dot_one. Qed.
(** Without the restriction to a single dot the claim fails: in two dots in a row the
    second one resets the mark of the first. *)
Theorem C03_double_dot_refuted : exists code t0 t,
  Next code t0 = (46, t, None) /\ rest_of code t = B "Если" /\ ~ yields code t tIdent (B "Если") [].
Proof.
  exists (B "..Если"), (snd (fst (Next (B "..Если") zero_token))). eexists.
  split; [vm_compute; reflexivity|]. split; [vm_compute; reflexivity|].
  intros (t' & H & _). vm_compute in H. discriminate.
Qed.

Example C03_example : exists t t', after_dot (B "a.Функция = 1") t /\
  Next (B "a.Функция = 1") t = (tIdent, t', None) /\ tk_lit t' = B "Функция".
Proof.
  eexists. eexists. split.
  - exists (snd (fst (Next (B "a.Функция = 1") zero_token))). eexists. split.
    + right. exists zero_token. eexists. eexists. split; [vm_compute; reflexivity | discriminate].
    + vm_compute. reflexivity.
  - split; vm_compute; reflexivity.
Qed.

(** * C04 White space, comments and # lines are transparent *)
(** Same next token, same error, same text left. *)
Theorem C04_trivia_step : forall c1 t1 c2 t2 w,
  trivia w -> rest_of c1 t1 = w ++ rest_of c2 t2 ->
  tk_prevDot t1 = tk_prevDot t2 -> tk_value t1 = tk_value t2 ->
  same_step c1 (Next c1 t1) c2 (Next c2 t2).
Proof. exact trivia_step. Qed.
(** Same stream of tokens, and the same presence of lexical errors. *)
Theorem C04_trivia_stream : forall c1 t1 c2 t2 w,
  trivia w -> rest_of c1 t1 = w ++ rest_of c2 t2 ->
  tk_prevDot t1 = tk_prevDot t2 -> tk_value t1 = tk_value t2 ->
  (forall l1, lexes c1 t1 l1 -> exists l2, lexes c2 t2 l2 /\ Forall2 same_token l1 l2) /\
  (lex_error c1 t1 -> lex_error c2 t2).
Proof.
  intros c1 t1 c2 t2 w Hw Hr Hp Hv. pose proof (trivia_step c1 t1 c2 t2 w Hw Hr Hp Hv) as Hs. split.
  - intros l1 Hl. exact (same_stream c1 c2 l1 t1 Hl t2 Hs).
  - intros He. exact (same_errors c1 c2 t1 He t2 Hs).
Qed.
(** Trivia at the end of the text, the last line possibly unfinished, yields no token. *)
Theorem C04_trailing_trivia : forall code t w, last_trivia w -> rest_of code t = w ->
  exists t', Next code t = (EOF, t', None).
Proof.
  intros code t w Hw Hr. pose proof (trivia_end_last w Hw) as H. rewrite <- Hr in H.
  unfold Next. fold (rest_of code t). unfold next. fold (trivia_end (rest_of code t)). rewrite H.
  eexists. vm_compute. reflexivity.
Qed.

Example C04_example : trivia (B "  // комментарий
  #Область А
 ") /\ (exists l, lexes (B "  // комментарий
  #Область А
 b") zero_token l /\ map fst l = [tIdent]).
Proof.
  split.
  - apply (tr_space x20); [left; reflexivity|]. apply (tr_space x20); [left; reflexivity|].
    apply (tr_comment (B " комментарий")); [repeat constructor; vm_compute; discriminate|].
    apply (tr_space x20); [left; reflexivity|]. apply (tr_space x20); [left; reflexivity|].
    apply (tr_hash (B "Область А")); [repeat constructor; vm_compute; discriminate|].
    apply (tr_space x20); [left; reflexivity|]. apply tr_nil.
  - eexists. split; [|].
    + eapply lx_tok; [vm_compute; reflexivity | discriminate |]. eapply lx_end. vm_compute. reflexivity.
    + reflexivity.
Qed.

(** * C05 String literals keep their content *)
Theorem C05_string : forall code t w0 w b rest,
  trivia w0 -> str_body w -> blanks b ->
  (forall c, first_char rest c -> ~ space_char c /\ c <> 34) ->
  rest_of code t = w0 ++ z2b 34 :: string_of_runes w ++ z2b 34 :: b ++ rest ->
  exists t', Next code t = (tString, t', None) /\ tk_value t' = SStr (string_of_runes w) /\
             rest_of code t' = rest.
Proof.
  intros code t w0 w b rest H0 Hw Hb Hr Hc.
  pose proof (next_string (tk_prevDot t) w0 _ _ _ H0 (str_body_text w b rest Hw Hb Hr)) as H.
  rewrite <- Hc in H. unfold Next. fold (rest_of code t). rewrite H. cbv zeta. cbn [lr_tok lr_lit lr_err].
  eexists. split; [reflexivity|]. split; [reflexivity|].
  unfold rest_of. cbn [tk_off]. eapply skipn_off; [|apply rest_of_suffix]. eapply next_progress. exact H.
Qed.
(** Exactly the texts described by [str_text] are string literals: with continuation
    lines, comment lines inside, and adjacent literals joined. *)
Theorem C05_string_exact : forall code t w0 s,
  trivia w0 -> rest_of code t = w0 ++ z2b 34 :: s ->
  forall lit rest,
  (exists t', Next code t = (tString, t', None) /\ tk_value t' = SStr lit /\ rest_of code t' = rest) <->
  (exists v, str_text 34 s v rest /\ lit = string_of_runes v).
Proof.
  intros code t w0 s H0 Hc lit rest.
  assert (HF : forall v r, str_text 34 s v r ->
     exists t', Next code t = (tString, t', None) /\ tk_value t' = SStr (string_of_runes v) /\ rest_of code t' = r).
  { intros v r Hs. pose proof (next_string (tk_prevDot t) w0 _ _ _ H0 Hs) as H.
    rewrite <- Hc in H. unfold Next. fold (rest_of code t). rewrite H. cbv zeta. cbn [lr_tok lr_lit lr_err].
    eexists. split; [reflexivity|]. split; [reflexivity|].
    unfold rest_of. cbn [tk_off]. eapply skipn_off; [|apply rest_of_suffix]. eapply next_progress. exact H. }
  split.
  - intros (t' & H & Hv & Hr).
    destruct (scanString 34 (z2b 34 :: s)) as [[l|e] s'] eqn:E.
    + apply scanString_iff in E as (v & Hs & El); [|left; reflexivity]. rewrite adv_ascii in Hs by reflexivity.
      destruct (HF v s' Hs) as (t2 & H2 & Hv2 & Hr2). rewrite H in H2. injection H2 as <-.
      exists v. split; [congruence|]. rewrite Hv in Hv2. injection Hv2 as ->. reflexivity.
    + exfalso. destruct (next_no_string (tk_prevDot t) w0 s H0) as (e' & s2 & H2).
      { intros v r Hs. assert (E2 : scanString 34 (z2b 34 :: s) = (inl (string_of_runes v), r)).
        { apply scanString_iff; [left; reflexivity|]. exists v.
          split; [rewrite adv_ascii by reflexivity; exact Hs | reflexivity]. }
        rewrite E in E2. discriminate. }
      rewrite <- Hc in H2. unfold Next in H. fold (rest_of code t) in H. rewrite H2 in H. cbv zeta in H.
      cbn [lr_tok lr_lit lr_err] in H. discriminate.
  - intros (v & Hs & ->). exact (HF v rest Hs).
Qed.

Example C05_example : exists t', Next (B "  ""ab""""c"" ;") zero_token = (tString, t', None) /\
  tk_value t' = SStr (B "ab""""c") /\ rest_of (B "  ""ab""""c"" ;") t' = B ";".
Proof. eexists. split; [vm_compute; reflexivity|]. split; vm_compute; reflexivity. Qed.
Example C05_example_body : str_body (runes (B "ab""""c
|d")).
Proof.
  change (str_body [97; 98; 34; 34; 99; 10; 124; 100]).
  repeat first [apply sb_quote | apply sb_break | apply sb_char; [reflexivity|lia|lia|] | apply sb_nil].
Qed.

(** * C06 Unterminated or broken literals are errors *)
Theorem C06_string : forall code t w0 s, trivia w0 -> rest_of code t = w0 ++ z2b 34 :: s ->
  (forall v rest, ~ str_text 34 s v rest) -> rejects code t.
Proof.
  intros code t w0 s H0 Hc Hs. destruct (next_no_string (tk_prevDot t) w0 s H0 Hs) as (e & s' & H).
  rewrite <- Hc in H. eapply next_error_rejects; [exact H | reflexivity | left; reflexivity].
Qed.
Theorem C06_date_unterminated : forall code t w0 s, trivia w0 -> rest_of code t = w0 ++ z2b 39 :: s ->
  (forall v rest, ~ str_text 39 s v rest) -> rejects code t.
Proof.
  intros code t w0 s H0 Hc Hs. destruct (next_no_date (tk_prevDot t) w0 s H0 Hs) as (e & s' & H).
  rewrite <- Hc in H. eapply next_error_rejects; [exact H | reflexivity | left; reflexivity].
Qed.
(** Two ways for a literal not to end: no closing quote in the rest of the text, or a line
    break followed by something other than a bar (or a comment). *)
Theorem C06_no_closing_quote : forall code t w0 en s, trivia w0 -> en = 34 \/ en = 39 ->
  rest_of code t = w0 ++ z2b en :: s -> ~ In (z2b en) s -> rejects code t.
Proof.
  intros code t w0 en s H0 [->| ->] Hc Hn.
  - apply (C06_string code t w0 s H0 Hc). intros v rest H. exact (Hn (str_text_quote _ _ _ _ H)).
  - apply (C06_date_unterminated code t w0 s H0 Hc). intros v rest H. exact (Hn (str_text_quote _ _ _ _ H)).
Qed.
Theorem C06_broken_line : forall code t w0 en w b rest, trivia w0 -> en = 34 \/ en = 39 ->
  forallb valid_rune w = true -> Forall (fun c => c <> en /\ c <> 10) w -> blanks b ->
  (forall c, first_char rest c -> ~ space_char c /\ c <> 124 /\ c <> 47) ->
  rest_of code t = w0 ++ z2b en :: string_of_runes w ++ z2b 10 :: b ++ rest -> rejects code t.
Proof.
  intros code t w0 en w b rest H0 [->| ->] Hv Hw Hb Hr Hc.
  - apply (C06_string code t w0 _ H0 Hc). apply no_break_after; try assumption. left; reflexivity.
  - apply (C06_date_unterminated code t w0 _ H0 Hc). apply no_break_after; try assumption. right; reflexivity.
Qed.
Theorem C06_date_no_digit : forall code t w0 s v rest, trivia w0 -> rest_of code t = w0 ++ z2b 39 :: s ->
  str_text 39 s v rest -> (forall c, In c v -> ~ digit_char c) -> rejects code t.
Proof.
  intros code t w0 s v rest H0 Hc Hs Hd. pose proof (next_date (tk_prevDot t) w0 s v rest H0 Hs) as H.
  assert (E : digits_of v = []).
  { unfold digits_of. assert (E : filter (fun c => (48 <=? c) && (c <=? 57)) v = []); [|rewrite E; reflexivity].
    clear - Hd. induction v as [|c v IH]; [reflexivity|]. cbn [filter].
    destruct ((48 <=? c) && (c <=? 57)) eqn:E.
    - exfalso. apply (Hd c (or_introl eq_refl)). unfold digit_char. lia.
    - apply IH. intros c' Hc'. apply Hd. right. exact Hc'. }
  rewrite E in H. rewrite <- Hc in H. eapply next_error_rejects; [exact H | reflexivity | left; reflexivity].
Qed.
(** A number (any run of digits and dots that starts with a digit) followed by a letter. *)
Theorem C06_number_letter : forall code t w0 b s rest c, trivia w0 ->
  48 <= b2z b <= 57 -> number_chars s -> first_char rest c -> letter_char c ->
  rest_of code t = w0 ++ b :: s ++ rest -> rejects code t.
Proof.
  intros code t w0 b s rest c H0 Hb Hs [Hr Hf] Hl Hc.
  assert (Hcur : cur rest = c) by (destruct rest; [congruence | exact Hf]).
  apply isLetter_spec in Hl.
  pose proof (next_number (tk_prevDot t) w0 b s rest H0 Hb Hs) as H. rewrite Hcur, Hl in H.
  rewrite <- Hc in H. eapply next_error_rejects; [apply H | reflexivity | left; reflexivity].
  destruct (isDigit c) eqn:E.
  - exfalso. rewrite isLetter_digit in Hl by (unfold isDigit in E; lia). discriminate.
  - destruct (c =? cDot) eqn:E2; [|reflexivity]. apply Z.eqb_eq in E2. subst c. rewrite E2 in Hl. discriminate.
Qed.
Theorem C06_unknown_character : forall code t w0 x c, trivia w0 -> first_char x c -> ~ token_start c ->
  rest_of code t = w0 ++ x -> rejects code t.
Proof. exact unknown_rejects. Qed.
(** An ampersand starts exactly the five directives, in any letter case. *)
Theorem C06_directive : forall code t w0 w rest, trivia w0 -> Forall word_char w -> word_ends rest ->
  rest_of code t = w0 ++ B "&" ++ string_of_runes w ++ rest ->
  ((exists d, In d directive_words /\ same_word w (runes d)) -> yields code t tDirective (B "&" ++ string_of_runes w) rest) /\
  ((forall d, In d directive_words -> ~ same_word w (runes d)) -> rejects code t).
Proof.
  intros code t w0 w rest H0 Hw Hr Hc. pose proof (next_directive (tk_prevDot t) w0 w rest H0 Hw Hr) as H.
  rewrite <- Hc in H. destruct (directive_lookup w Hw) as [[(d & Hd & Hs) E]|[Hn E]]; rewrite E in H; split.
  - intros _. apply (next_yields _ _ _ _ _ H); [reflexivity | discriminate | discriminate].
  - intros Hn. exfalso. exact (Hn d Hd Hs).
  - intros (d & Hd & Hs). exfalso. exact (Hn d Hd Hs).
  - intros _. eapply next_error_rejects; [exact H | reflexivity | right; reflexivity].
Qed.

Example C06_example : rejects (B "  ""abc") zero_token /\ rejects (B "'xyz'") zero_token /\
  rejects (B "12a") zero_token /\ rejects (B "$") zero_token /\ rejects (B "&Тут") zero_token /\
  rejects (B """a
b""") zero_token.
Proof.
  repeat apply conj; eexists; eexists; eexists; vm_compute; reflexivity.
Qed.
(** 36 is the dollar sign. *)
Example C06_example_unknown : ~ token_start 36.
Proof.
  intros [H|[H|[H|[H|H]]]].
  - apply isLetter_spec in H. vm_compute in H. discriminate.
  - unfold digit_char in H. lia.
  - vm_compute in H. lia.
  - discriminate.
  - unfold space_char in H. lia.
Qed.

(** * C07 Number literals denote the nearest float64 *)
Theorem C07_number : forall code t w0 ip fr rest,
  trivia w0 -> digits ip -> ip <> [] -> (forall f, fr = Some f -> digits f) ->
  (forall c, first_char rest c -> ~ digit_char c /\ c <> 46 /\ ~ letter_char c) ->
  rest_of code t = w0 ++ num_text ip fr ++ rest ->
  ((num_Q ip fr < inject_Z overflow_bound)%Q ->
     exists t' f, Next code t = (tNumber, t', None) /\ tk_value t' = SNum f /\
       nearest (num_Q ip fr) f /\ rest_of code t' = rest) /\
  ((inject_Z overflow_bound <= num_Q ip fr)%Q -> rejects code t).
Proof.
  intros code t w0 ip fr rest H0 Hi Hn Hf Hr Hc. apply num_end_cur in Hr as [R1 R2].
  assert (Hnum : number_chars (num_text ip fr)).
  { unfold num_text, number_chars. apply Forall_app. split; [apply digit_text_number, Hi|].
    destruct fr as [f|]; [|constructor]. constructor; [right; reflexivity | apply digit_text_number, (Hf f eq_refl)]. }
  destruct (num_text ip fr) as [|b s] eqn:Et; [destruct ip; [congruence|discriminate]|].
  assert (Hb : 48 <= b2z b <= 57).
  { destruct ip as [|d ip]; [congruence|]. try unfold num_text in Et; unfold digit_text in Et; cbn [map app] in Et. assert (Eb : b = z2b (48 + d)) by congruence.
    inversion Hi as [|? ? Hd _]; subst. rewrite digit_byte by exact Hd. lia. }
  inversion Hnum as [|? ? _ Hs]; subst.
  pose proof (next_number (tk_prevDot t) w0 b s rest H0 Hb Hs R1) as H. rewrite R2 in H.
  change (w0 ++ b :: s ++ rest) with (w0 ++ (b :: s) ++ rest) in H. rewrite <- Hc, <- Et in H.
  pose proof (Next_number _ _ _ _ _ H) as HN.
  assert (HQ : exists n d, parse_float (num_text ip fr) = to_f64 n d /\ (num_Q ip fr == frac n d)%Q /\ 0 <= n /\ 0 < d).
  { unfold num_text, num_Q. destruct fr as [f|].
    - specialize (Hf f eq_refl). rewrite parse_float_frac by assumption. eexists. eexists. split; [reflexivity|].
      split; [apply dec_Q_frac|]. split; [apply dec_value_nonneg, Forall_app; split; assumption|].
      apply Z.pow_pos_nonneg; lia.
    - rewrite app_nil_r, parse_float_int by assumption. exists (dec_value ip), 1. split; [reflexivity|].
      split; [rewrite dec_Q_frac, app_nil_r; reflexivity|]. split; [apply dec_value_nonneg, Hi | lia]. }
  destruct HQ as (n & d & HP & HQ & Hn0 & Hd0). rewrite HP in HN. split.
  - intros Hov. destruct (to_f64 n d) as [f|] eqn:Ef.
    + destruct HN as (t' & N1 & N2 & N3 & N4). exists t', f. split; [exact N1|]. split; [exact N4|]. split; [|exact N3].
      eapply nearest_eq; [apply Qeq_sym; exact HQ|]. apply to_f64_nearest; assumption.
    + exfalso. apply to_f64_overflow in Ef; [|assumption|assumption].
      apply (proj2 (overflow_Q n d Hd0)) in Ef. rewrite <- HQ in Ef. apply (Qlt_not_le _ _ Hov Ef).
  - intros Hov. rewrite HQ in Hov. apply (proj1 (overflow_Q n d Hd0)) in Hov.
    apply to_f64_overflow in Hov; [|assumption|assumption]. rewrite Hov in HN. exact HN.
Qed.
(** The nearest value is unique. *)
Theorem C07_value_unique : forall q f g, nearest q f -> nearest q g -> f = g.
Proof. exact nearest_unique. Qed.
(** A second dot is an error. *)
Theorem C07_two_dots : forall code t w0 ip s1 s2 rest,
  trivia w0 -> digits ip -> ip <> [] -> number_chars s1 -> number_chars s2 ->
  (forall c, first_char rest c -> ~ digit_char c /\ c <> 46 /\ ~ letter_char c) ->
  rest_of code t = w0 ++ (digit_text ip ++ z2b 46 :: s1 ++ z2b 46 :: s2) ++ rest -> rejects code t.
Proof.
  intros code t w0 ip s1 s2 rest H0 Hi Hn N1 N2 Hr Hc. apply num_end_cur in Hr as [R1 R2].
  assert (Hnum : number_chars (digit_text ip ++ z2b 46 :: s1 ++ z2b 46 :: s2)).
  { unfold number_chars. apply Forall_app. split; [apply digit_text_number, Hi|].
    constructor; [right; reflexivity|]. apply Forall_app. split; [exact N1|].
    constructor; [right; reflexivity | exact N2]. }
  pose proof (parse_float_dots ip s1 s2 Hi) as HP.
  destruct (digit_text ip ++ z2b 46 :: s1 ++ z2b 46 :: s2) as [|b s] eqn:Et; [destruct ip; discriminate|].
  assert (Hb : 48 <= b2z b <= 57).
  { destruct ip as [|d ip]; [congruence|]. try unfold num_text in Et; unfold digit_text in Et; cbn [map app] in Et. assert (Eb : b = z2b (48 + d)) by congruence.
    inversion Hi as [|? ? Hd _]; subst. rewrite digit_byte by exact Hd. lia. }
  inversion Hnum as [|? ? _ Hs]; subst.
  pose proof (next_number (tk_prevDot t) w0 b s rest H0 Hb Hs R1) as H. rewrite R2 in H.
  change (w0 ++ b :: s ++ rest) with (w0 ++ (b :: s) ++ rest) in H. rewrite <- Hc in H.
  pose proof (Next_number _ _ _ _ _ H) as HN. rewrite HP in HN. exact HN.
Qed.

Example C07_example : exists t', Next (B " 0.1;") zero_token = (tNumber, t', None) /\
  tk_value t' = SNum (F64 false 7205759403792794 (-56)) /\
  rest_of (B " 0.1;") zero_token = B " " ++ num_text [0] (Some [1]) ++ B ";".
Proof. eexists. split; [vm_compute; reflexivity|]. split; vm_compute; reflexivity. Qed.
Example C07_example_overflow : (inject_Z overflow_bound <= num_Q (1 :: repeat 8 308)%Z None)%Q /\
  rejects (num_text (1 :: repeat 8 308) None) zero_token.
Proof.
  split; [vm_compute; discriminate|]. eexists. eexists. eexists. vm_compute. reflexivity.
Qed.

(** * C08 Date literals: exactly the calendar dates *)
Theorem C08_date : forall code t w0 s v rest,
  trivia w0 -> str_text 39 s v rest -> rest_of code t = w0 ++ z2b 39 :: s ->
  (forall d, date_digits (digits_of v) d ->
     exists t', Next code t = (tDate, t', None) /\ tk_value t' = STime d /\ rest_of code t' = rest) /\
  ((forall d, ~ date_digits (digits_of v) d) -> rejects code t).
Proof.
  intros code t w0 s v rest H0 Hs Hc. pose proof (next_date (tk_prevDot t) w0 s v rest H0 Hs) as H.
  rewrite <- Hc in H. pose proof (digits_of_digits v) as Hd. destruct (digits_of v) as [|d0 ds] eqn:Ed.
  - split.
    + intros d Hdd. exfalso. inversion Hdd as [zs Hz _| ? ? ? ? ? Hf | ? ? ? ? ? ? ? Hf| ? ? ? ? ? ? ? ? Hf]; subst.
      * congruence.
      * destruct y; [destruct Hf; discriminate | discriminate].
      * destruct y; [destruct Hf; discriminate | discriminate].
      * destruct y; [destruct Hf; discriminate | discriminate].
    + intros _. eapply next_error_rejects; [exact H | reflexivity | left; reflexivity].
  - pose proof (Next_date _ _ _ _ _ H) as HN. split.
    + intros d Hdd. rewrite (parse_date_complete _ _ Hdd) in HN.
      destruct HN as (t' & N1 & N2 & N3 & N4). exists t'. repeat split; assumption.
    + intros Hno. destruct (parse_date (digit_text (d0 :: ds))) as [d|] eqn:E; [|exact HN].
      exfalso. apply (Hno d). apply parse_date_sound; [exact Hd | discriminate | exact E].
Qed.
(** A digit string denotes at most one date. *)
Theorem C08_date_unique : forall ds d1 d2, date_digits ds d1 -> date_digits ds d2 -> d1 = d2.
Proof.
  intros ds d1 d2 H1 H2. apply parse_date_complete in H1. apply parse_date_complete in H2. congruence.
Qed.

Example C08_example : date_digits (digits_of (runes (B "2024.02.29 23:59"))) (GoTime 2024 2 29 23 59 0) /\
  exists t', Next (B "'2024.02.29 23:59' ") zero_token = (tDate, t', None) /\ tk_value t' = STime (GoTime 2024 2 29 23 59 0).
Proof.
  split; [|eexists; split; vm_compute; reflexivity].
  apply parse_date_sound; [apply digits_of_digits | discriminate | vm_compute; reflexivity].
Qed.
Example C08_example_reject : rejects (B "'20230229'") zero_token.
Proof. eexists. eexists. eexists. vm_compute. reflexivity. Qed.

(** * C09 Longest match for names and operators *)
(** A text that starts with a letter starts with a maximal word, and that word is the token. *)
Theorem C09_word : forall code t w0 x c, trivia w0 -> first_char x c -> letter_char c ->
  rest_of code t = w0 ++ x ->
  exists w rest k, x = string_of_runes w ++ rest /\ is_word w /\ word_ends rest /\
    yields code t k (string_of_runes w) rest.
Proof.
  intros code t w0 x c H0 Hx Hl Hc. destruct (maximal_word x c Hx Hl) as (w & rest & -> & Hw & Hr).
  exists w, rest. eexists. repeat (split; [first [reflexivity | assumption]|]). eapply word_yields; eassumption.
Qed.
Theorem C09_two_char_operator : forall code t w0 b1 b2 k rest, trivia w0 ->
  In (b1, b2, k) [(60, 62, tNeEQ); (60, 61, tLE); (62, 61, tGE)] ->
  rest_of code t = w0 ++ z2b b1 :: z2b b2 :: rest ->
  yields code t k [z2b b1; z2b b2] rest.
Proof.
  intros code t w0 b1 b2 k rest H0 Hin Hc. pose proof (next_op2 (tk_prevDot t) w0 b1 b2 k rest H0 Hin) as H.
  rewrite <- Hc in H. apply (next_yields _ _ _ _ _ H); [reflexivity| |];
  destruct Hin as [[= <- <- <-]|[[= <- <- <-]|[[= <- <- <-]|[]]]]; discriminate.
Qed.
Theorem C09_one_char_operator : forall code t w0 b rest, trivia w0 -> b = 60 \/ b = 62 ->
  (forall c, first_char rest c -> c <> 61 /\ (b = 60 -> c <> 62)) ->
  rest_of code t = w0 ++ z2b b :: rest -> yields code t b [z2b b] rest.
Proof.
  intros code t w0 b rest H0 Hb Hr Hc. pose proof (next_op1 (tk_prevDot t) w0 b rest H0 Hb Hr) as H.
  rewrite <- Hc in H. apply (next_yields _ _ _ _ _ H); [reflexivity| |]; destruct Hb as [->| ->]; discriminate.
Qed.

Example C09_example : exists l, lexes (B "a_1<=b<>c>d<e>=f") zero_token l /\
  map (fun p => (fst p, tk_lit (snd p))) l =
  [(tIdent, B "a_1"); (tLE, B "<="); (tIdent, B "b"); (tNeEQ, B "<>"); (tIdent, B "c"); (62, B ">");
   (tIdent, B "d"); (60, B "<"); (tIdent, B "e"); (tGE, B ">="); (tIdent, B "f")].
Proof.
  eexists. split.
  - do 11 (eapply lx_tok; [vm_compute; reflexivity | discriminate |]). eapply lx_end. vm_compute. reflexivity.
  - reflexivity.
Qed.

(** * C10 Lower-casing is the character-wise lower case *)
Theorem C10_charwise : forall s cs, chars s cs -> fastToLower s = concat (map lower_char cs).
Proof. exact lower_chars. Qed.
(** Every byte string is a sequence of characters, so the above covers all of them. *)
Theorem C10_chars_total : forall s, exists cs, chars s cs /\ concat cs = s.
Proof. exact chars_total. Qed.
(** On characters: exactly A-Z, А-Я, Ё change; anything else, stray bytes included, is kept. *)
Theorem C10_char : forall c r, decode c = (r, length c) -> c <> [] ->
  (~ upper_letter r -> lower_char c = c) /\
  (upper_letter r -> lower_char c = encode (lower_rune r) /\ lower_rune r <> r).
Proof.
  intros c r Hd Hc. unfold lower_char. rewrite Hd. cbn [fst]. split.
  - intros Hu. rewrite lower_rune_id by exact Hu. rewrite Z.eqb_refl. reflexivity.
  - intros Hu. assert (lower_rune r <> r).
    { unfold upper_letter in Hu. unfold lower_rune.
      destruct ((65 <=? r) && (r <=? 90)) eqn:E1; [lia|]. destruct ((1040 <=? r) && (r <=? 1071)) eqn:E2; [lia|].
      destruct (r =? 1025) eqn:E3; lia. }
    split; [|assumption]. replace (lower_rune r =? r) with false by lia. reflexivity.
Qed.
Theorem C10_length : forall s, length (fastToLower s) = length s.
Proof. exact lower_length. Qed.
Theorem C10_idempotent : forall s, fastToLower (fastToLower s) = fastToLower s.
Proof. exact lower_idem. Qed.

Example C10_example : fastToLower (B "ABcАПРЯЁё") = B "abcапряёё" /\
  fastToLower [xd0; x41; xff; xd0] = [xd0; x61; xff; xd0].
Proof. split; vm_compute; reflexivity. Qed.

(** * C12 Positions *)
Theorem C12_line : forall code off,
  p_line (GetPosition code off) = 1 + Z.of_nat (length (filter (fun b => b2z b =? 10) (firstn off code))).
Proof. intros code off. rewrite position_line. lia. Qed.
(** The column counts the characters since the last line feed (or the start of the text). *)
Theorem C12_column : forall code off a b cs,
  firstn off code = a ++ b -> (a = [] \/ exists a', a = a' ++ nl) -> line b -> chars b cs ->
  p_col (GetPosition code off) = 1 + Z.of_nat (length cs).
Proof.
  intros code off a b cs Hf Ha Hb Hcs. unfold GetPosition. cbn [p_col]. rewrite Hf.
  assert (E : after_last_eol (a ++ b) (a ++ b) = b).
  { destruct Ha as [->|(a' & ->)].
    - apply after_last_acc, Hb.
    - rewrite <- app_assoc. apply after_last_split, Hb. }
  rewrite E, (chars_runes b cs Hcs). lia.
Qed.
(** Every prefix of a text splits in that way. *)
Theorem C12_split_total : forall p, exists a b cs, p = a ++ b /\ (a = [] \/ exists a', a = a' ++ nl) /\ line b /\ chars b cs.
Proof.
  assert (H : forall p, exists a b, p = a ++ b /\ (a = [] \/ exists a', a = a' ++ nl) /\ line b).
  { induction p as [|x p (a & b & E & Ha & Hb)]; [exists [], []; repeat split; [left; reflexivity | constructor]|].
    destruct Ha as [->|(a' & ->)].
    - destruct (Z.eq_dec (b2z x) 10) as [Ex|Ex].
      + exists [x], b. split; [rewrite E; reflexivity|]. split; [right; exists []; cbn; unfold nl; rewrite <- Ex, z2b_b2z; reflexivity | exact Hb].
      + exists [], (x :: b). split; [rewrite E; reflexivity|]. split; [left; reflexivity | constructor; assumption].
    - exists (x :: a' ++ nl), b. split; [rewrite E; reflexivity|]. split; [right; exists (x :: a'); reflexivity | exact Hb]. }
  intros p. destruct (H p) as (a & b & E & Ha & Hb). destruct (chars_total b) as (cs & Hc & _).
  exists a, b, cs. repeat split; assumption.
Qed.

Example C12_example : GetPosition (B "Если
 а = я") 15 = Position 2 6.
Proof. vm_compute. reflexivity. Qed.

Print Assumptions C01_next_progress. Print Assumptions C01_stream_finite. Print Assumptions C01_loops.
Print Assumptions C02_reserved. Print Assumptions C02_not_reserved.
Print Assumptions C03_after_dot. Print Assumptions C03_one_token. Print Assumptions C03_double_dot_refuted.
Print Assumptions C04_trivia_step. Print Assumptions C04_trivia_stream. Print Assumptions C04_trailing_trivia.
Print Assumptions C05_string. Print Assumptions C05_string_exact.
Print Assumptions C06_string. Print Assumptions C06_date_unterminated. Print Assumptions C06_date_no_digit. Print Assumptions C06_no_closing_quote. Print Assumptions C06_broken_line.
Print Assumptions C06_number_letter. Print Assumptions C06_unknown_character. Print Assumptions C06_directive.
Print Assumptions C07_number. Print Assumptions C07_value_unique. Print Assumptions C07_two_dots.
Print Assumptions C08_date. Print Assumptions C08_date_unique.
Print Assumptions C09_word. Print Assumptions C09_two_char_operator. Print Assumptions C09_one_char_operator.
Print Assumptions C10_charwise. Print Assumptions C10_chars_total. Print Assumptions C10_char.
Print Assumptions C10_length. Print Assumptions C10_idempotent.
Print Assumptions C12_line. Print Assumptions C12_column. Print Assumptions C12_split_total.
