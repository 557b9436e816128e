(** Places of tokens: what the scanner's offsets and literals are in the text. *)
From Verif Require Import Bytes Utf8 Float64 GoTime Ast Lexer LexFacts Utf8Facts LexSpec LexTrivia LexTokens LexStrings LexReject LexProofs NumSpec NumTokens Tables Parser Grammar Tok Trees Writes Lexical Scanned Where Blame.
Open Scope Z_scope.

(** * Decoding in pieces *)
Definition lead (s : bytes) : Prop := match s with [] => True | b :: _ => cont (b2z b) = false end.
Lemma decode_lead a s : a <> [] -> lead s -> decode (a ++ s) = decode a.
Proof.
  intros Ha Hs. assert (L : forall lo hi z, 128 <= lo -> hi <= 191 -> cont z = false -> (lo <=? z) && (z <=? hi) = false) by (unfold cont; intros; lia).
  destruct s as [|b s]; [rewrite app_nil_r; reflexivity|]. cbn [lead] in Hs.
  destruct a as [|a0 a]; [congruence|]. cbn [app decode].
  destruct (b2z a0 <? 128); [reflexivity|].
  destruct ((194 <=? b2z a0) && (b2z a0 <=? 223)).
  { destruct a as [|a1 a]; cbn [app]; [rewrite Hs; reflexivity|reflexivity]. }
  destruct ((224 <=? b2z a0) && (b2z a0 <=? 239)).
  { destruct a as [|a1 [|a2 a]]; cbn [app]; [| |reflexivity].
    - destruct s as [|s1 s]; [reflexivity|]. rewrite L; [reflexivity|destruct (_ =? 224); lia|destruct (_ =? 237); lia|exact Hs].
    - rewrite Hs, andb_false_r. reflexivity. }
  destruct ((240 <=? b2z a0) && (b2z a0 <=? 244)); [|reflexivity].
  destruct a as [|a1 [|a2 [|a3 a]]]; cbn [app]; [| | |reflexivity].
  - destruct s as [|s1 [|s2 s]]; [reflexivity|reflexivity|]. rewrite L; [reflexivity|destruct (_ =? 240); lia|destruct (_ =? 244); lia|exact Hs].
  - destruct s as [|s1 s]; [reflexivity|]. rewrite Hs, andb_false_r. reflexivity.
  - rewrite Hs, andb_false_r. reflexivity.
Qed.
Lemma runes_lead s : lead s -> forall a : bytes, runes (a ++ s) = runes a ++ runes s.
Proof.
  intros Hs a. induction a as [a IH] using LexFacts.bytes_ind. destruct a as [|b a]; [reflexivity|].
  assert (D : decode ((b :: a) ++ s) = decode (b :: a)) by (apply decode_lead; [discriminate|exact Hs]).
  assert (E1 : cur ((b :: a) ++ s) = cur (b :: a)) by (unfold cur; cbn [app] in *; rewrite D; reflexivity).
  assert (E2 : adv ((b :: a) ++ s) = adv (b :: a) ++ s).
  { unfold adv. rewrite D. pose proof (decode_size (b :: a) ltac:(discriminate)) as Sh. rewrite skipn_app.
    replace (snd (decode (b :: a)) - length (b :: a))%nat with 0%nat; [reflexivity|]. lia. }
  rewrite (runes_eq ((b :: a) ++ s)), (runes_eq (b :: a)), E1, E2, IH; [reflexivity|]. apply adv_length. discriminate.
Qed.
Lemma lead_encode r s : valid_rune r = true -> lead (encode r ++ s).
Proof.
  intros H. pose proof (valid_rune_range r H) as R. unfold encode. rewrite H.
  pose proof (Z.div_pos r 64 ltac:(lia) ltac:(lia)). pose proof (Z.div_pos r 4096 ltac:(lia) ltac:(lia)). pose proof (Z.div_pos r 262144 ltac:(lia) ltac:(lia)).
  repeat match goal with |- context [?x <? ?y] => destruct (Z.ltb_spec x y) end; cbn [app lead]; unfold cont; rewrite b2z_z2b; try lia.
  all: try (assert (r / 64 < 32) by (apply Z.div_lt_upper_bound; lia); lia).
  all: try (assert (r / 4096 < 16) by (apply Z.div_lt_upper_bound; lia); lia).
  all: assert (r / 262144 < 5) by (apply Z.div_lt_upper_bound; lia); lia.
Qed.
Lemma lead_string rs s : forallb valid_rune rs = true -> rs <> [] -> lead (string_of_runes rs ++ s).
Proof.
  destruct rs as [|r rs]; [congruence|]. intros H _. cbn [forallb] in H. apply andb_true_iff in H as [H _].
  change (string_of_runes (r :: rs)) with (encode r ++ string_of_runes rs). rewrite <- app_assoc. apply lead_encode, H.
Qed.

(** * Positions *)
Lemma lf_eqb b : (b2z b =? EOL) = true <-> b = LF.
Proof. unfold LF. rewrite Z.eqb_eq. split; [intros E; rewrite <- (z2b_b2z b), E; reflexivity|intros ->; reflexivity]. Qed.
Lemma after_none y : forall z, ~ In LF y -> after_last_eol y z = z.
Proof.
  induction y as [|d y IH]; intros z Hy; cbn [after_last_eol]; [reflexivity|]. destruct (b2z d =? EOL) eqn:E.
  - apply lf_eqb in E. destruct Hy. left. exact E.
  - apply IH. intros X. apply Hy. right. exact X.
Qed.
Lemma after_app a : forall y acc, ~ In LF y -> after_last_eol (a ++ y) (acc ++ y) = after_last_eol a acc ++ y.
Proof.
  induction a as [|b a IH]; intros y acc Hy; cbn [app after_last_eol]; [apply after_none, Hy|].
  destruct (b2z b =? EOL); apply IH, Hy.
Qed.
Lemma lines_of (s : bytes) : exists ls v, s = concat (map (fun l => l ++ [LF]) ls) ++ v /\ Forall (fun l => ~ In LF l) ls /\ ~ In LF v /\
  count_eol s = Z.of_nat (length ls) /\ after_last_eol s s = v.
Proof.
  assert (G : forall s acc, exists ls v, acc ++ s = concat (map (fun l => l ++ [LF]) ls) ++ v /\ (~ In LF acc -> Forall (fun l => ~ In LF l) ls /\ ~ In LF v /\
     count_eol s = Z.of_nat (length ls) /\ after_last_eol s (acc ++ s) = v)).
  { clear. induction s as [|b s IH]; intros acc.
    - exists [], acc. rewrite app_nil_r. repeat split; [constructor|assumption].
    - cbn [after_last_eol]. unfold count_eol. cbn [filter]. destruct (b2z b =? EOL) eqn:E.
      + apply lf_eqb in E as ->. destruct (IH []) as (ls & v & E1 & E2). cbn [app] in E1, E2. exists (acc :: ls), v. cbn [map concat].
        split; [rewrite <- app_assoc, <- app_assoc; cbn [app]; rewrite <- E1; reflexivity|]. intros Ha. destruct (E2 ltac:(intros [])) as (F1 & F2 & F3 & F4).
        repeat split; [constructor; assumption|exact F2| |exact F4]. unfold count_eol in F3. cbn [length]. lia.
      + destruct (IH (acc ++ [b])) as (ls & v & E1 & E2). rewrite <- app_assoc in E1, E2. cbn [app] in E1, E2. exists ls, v. split; [exact E1|]. intros Ha. apply E2.
        intros X. apply in_app_or in X as [X|[X|[]]]; [exact (Ha X)|]. apply lf_eqb in X. congruence. }
  destruct (G s []) as (ls & v & E1 & E2). exists ls, v. destruct (E2 ltac:(intros [])) as (F1 & F2 & F3 & F4). auto.
Qed.
Lemma place_total s : place s (count_eol s + 1) (Z.of_nat (length (runes (after_last_eol s s)))).
Proof. destruct (lines_of s) as (ls & v & E1 & E2 & E3 & E4 & E5). exists ls, v. rewrite E5. split; [exact E1|]. split; [exact E2|]. split; [exact E3|]. split; [rewrite E4; apply Z.add_comm|reflexivity]. Qed.
Lemma count_app a y : count_eol (a ++ y) = count_eol a + count_eol y.
Proof. unfold count_eol. rewrite filter_app, app_length. lia. Qed.
Lemma count_none y : ~ In LF y -> count_eol y = 0.
Proof.
  unfold count_eol. induction y as [|b y IH]; intros H; [reflexivity|]. cbn [filter]. destruct (b2z b =? EOL) eqn:E.
  - apply lf_eqb in E. subst. exfalso. apply H. left. reflexivity.
  - apply IH. intros X. apply H. right. exact X.
Qed.
(** The position of the message for a token that ends behind [before ++ y]. *)
Lemma position_place (code before y rest : bytes) : code = before ++ y ++ rest ->
  place (before ++ y) (p_line (GetPosition code (length code - length rest))) (p_col (GetPosition code (length code - length rest)) - 1).
Proof.
  intros E. unfold GetPosition. cbn [p_line p_col].
  assert (F : firstn (length code - length rest) code = before ++ y).
  { rewrite E, app_assoc. rewrite firstn_app, firstn_all2 by (rewrite !app_length; lia).
    replace (length ((before ++ y) ++ rest) - length rest - length (before ++ y))%nat with 0%nat by (rewrite !app_length; lia). cbn. apply app_nil_r. }
  rewrite F. replace (Z.of_nat (length (runes (after_last_eol (before ++ y) (before ++ y)))) + 1 - 1) with (Z.of_nat (length (runes (after_last_eol (before ++ y) (before ++ y))))) by lia.
  apply place_total.
Qed.
Lemma place_det s l c l' c' : place s l c -> place s l' c' -> l = l' /\ c = c'.
Proof.
  intros (ls & v & E & F1 & F2 & -> & ->) (ls' & v' & E' & F1' & F2' & -> & ->). rewrite E in E'. clear E.
  enough (ls = ls' /\ v = v') as [-> ->] by auto. revert ls' F1' E'.
  assert (S : forall a b x y : bytes, ~ In LF a -> ~ In LF b -> a ++ LF :: x = b ++ LF :: y -> a = b /\ x = y).
  { clear. induction a as [|c a IH]; intros [|d b] x y Ha Hb H; cbn [app] in H.
    - injection H as <-. auto.
    - injection H as <- _. exfalso. apply Hb. left. reflexivity.
    - injection H as -> _. exfalso. apply Ha. left. reflexivity.
    - injection H as <- H. destruct (IH b x y) as [-> ->]; auto; intros X; [apply Ha|apply Hb]; right; exact X. }
  induction F1 as [|l ls Hl F1 IH]; intros [|l' ls'] F1' E'; cbn [map concat app] in E'.
  - auto.
  - exfalso. apply F2. rewrite E', <- !app_assoc. apply in_or_app. right. left. reflexivity.
  - exfalso. apply F2'. rewrite <- E', <- !app_assoc. apply in_or_app. right. left. reflexivity.
  - inversion F1'; subst. rewrite <- !app_assoc in E'. cbn [app] in E'. apply S in E' as [-> E']; [|assumption|assumption].
    destruct (IH ls' ltac:(assumption) E') as [-> ->]. auto.
Qed.
(** A token without line feeds: the place of its beginning. *)
Lemma place_before before rs line col : forallb valid_rune rs = true -> rs <> [] -> ~ In LF (string_of_runes rs) -> place (before ++ string_of_runes rs) line col ->
  place before line (col - Z.of_nat (length rs)).
Proof.
  intros Hv Hn Hl Hp. destruct (place_det _ _ _ _ _ Hp (place_total _)) as [-> ->].
  rewrite count_app, (count_none _ Hl), Z.add_0_r.
  rewrite after_app by exact Hl. rewrite runes_lead by (rewrite <- (app_nil_r (string_of_runes rs)); apply lead_string; assumption). rewrite runes_string, app_length by exact Hv.
  replace (Z.of_nat (length (runes (after_last_eol before before)) + length rs) - Z.of_nat (length rs)) with (Z.of_nat (length (runes (after_last_eol before before)))) by lia.
  apply place_total.
Qed.

(** * Literals *)
Lemma lf_encode r : valid_rune r = true -> In LF (encode r) -> r = 10.
Proof.
  intros H. pose proof (valid_rune_range r H) as R. unfold encode. rewrite H.
  assert (E : forall z, 128 <= z < 256 -> z2b z = LF -> False) by (intros z Hz X; apply (f_equal b2z) in X; unfold LF in X; rewrite !b2z_z2b in X; lia).
  pose proof (Z.div_pos r 64 ltac:(lia) ltac:(lia)). pose proof (Z.div_pos r 4096 ltac:(lia) ltac:(lia)). pose proof (Z.div_pos r 262144 ltac:(lia) ltac:(lia)).
  pose proof (Z.mod_pos_bound r 64 ltac:(lia)). pose proof (Z.mod_pos_bound (r / 64) 64 ltac:(lia)). pose proof (Z.mod_pos_bound (r / 4096) 64 ltac:(lia)).
  destruct (Z.ltb_spec r 128).
  { intros [X|[]]. apply (f_equal b2z) in X. unfold LF in X. rewrite !b2z_z2b in X by lia. exact X. }
  destruct (Z.ltb_spec r 2048); [assert (r / 64 < 32) by (apply Z.div_lt_upper_bound; lia)|
    destruct (Z.ltb_spec r 65536); [assert (r / 4096 < 16) by (apply Z.div_lt_upper_bound; lia)|assert (r / 262144 < 5) by (apply Z.div_lt_upper_bound; lia)]];
  cbn [In]; intros X; exfalso; repeat destruct X as [X|X]; try exact X; (eapply E; [|exact X]); lia.
Qed.
Lemma lf_string rs : forallb valid_rune rs = true -> ~ In 10 rs -> ~ In LF (string_of_runes rs).
Proof.
  induction rs as [|r rs IH]; intros H N X; [destruct X|]. cbn [forallb] in H. apply andb_true_iff in H as [H1 H2].
  change (string_of_runes (r :: rs)) with (encode r ++ string_of_runes rs) in X. apply in_app_or in X as [X|X].
  - apply N. left. apply lf_encode; assumption.
  - apply IH; [exact H2| |exact X]. intros Y. apply N. right. exact Y.
Qed.
(** [simple y]: valid characters without line feeds, at least one. *)
Definition simple (y : bytes) : Prop := exists rs, y = string_of_runes rs /\ rs <> [] /\ forallb valid_rune rs = true /\ ~ In 10 rs.
Lemma simple_ascii y : y <> [] -> forallb (fun b => (b2z b <? 128) && negb (b2z b =? 10)) y = true -> simple y.
Proof.
  intros Hn H. exists (map b2z y). split; [|split; [destruct y; [congruence|discriminate]|]].
  - clear Hn. induction y as [|b y IH]; [reflexivity|]. cbn [forallb] in H. apply andb_true_iff in H as [H1 H2]. rewrite IH at 1 by exact H2.
    change (string_of_runes (map b2z (b :: y))) with (encode (b2z b) ++ string_of_runes (map b2z y)). pose proof (b2z_range b).
    unfold encode. replace (valid_rune (b2z b)) with true by (unfold valid_rune; lia). replace (b2z b <? 128) with true by lia. rewrite z2b_b2z. reflexivity.
  - split.
    + rewrite forallb_forall in *. intros r Hr. apply in_map_iff in Hr as (b & <- & Hb). specialize (H b Hb). pose proof (b2z_range b). unfold valid_rune. lia.
    + intros X. apply in_map_iff in X as (b & E & Hb). rewrite forallb_forall in H. specialize (H b Hb). rewrite E in H. discriminate.
Qed.
Lemma word_char_not_lf w : Forall word_char w -> ~ In 10 w.
Proof. intros H X. rewrite Forall_forall in H. apply H in X. destruct X as [X|X]; [apply isLetter_spec in X; vm_compute in X; discriminate|unfold digit_char in X; lia]. Qed.
Lemma is_word_chars w : is_word w -> Forall word_char w.
Proof. intros (c & w' & -> & H1 & H2). constructor; [left; exact H1|exact H2]. Qed.
Lemma simple_word w : Forall word_char w -> w <> [] -> simple (string_of_runes w).
Proof. intros H Hn. exists w. split; [reflexivity|]. split; [exact Hn|]. split; [apply word_runes_valid, Forall_word, H|apply word_char_not_lf, H]. Qed.

Lemma str_suffix en s v rest : str_text en s v rest -> exists y, s = y ++ rest.
Proof.
  induction 1 as [b rest|s v rest r k Hs Hd _ _ _ (y & E)|s v rest _ (y & E)|t s v rest _ _ (y & E)|b s v rest _ _ _ (y & E)].
  - exists (z2b en :: b). reflexivity.
  - exists (firstn k s ++ y). rewrite <- app_assoc, <- E, firstn_skipn. reflexivity.
  - exists (z2b en :: z2b 34 :: y). rewrite E. reflexivity.
  - exists (z2b 10 :: t ++ z2b 124 :: y). rewrite E, app_comm_cons, app_comm_cons, app_assoc. reflexivity.
  - exists (z2b en :: b ++ z2b 34 :: y). rewrite E, app_comm_cons, app_comm_cons, app_assoc. reflexivity.
Qed.
Lemma one_lit pd w x k rest r d : trivia w -> one_token pd x k rest -> next pd (w ++ x) = (r, rest, d) ->
  exists y, x = y ++ rest /\ shown k y (lr_lit r) /\ (plain k = true -> simple y).
Proof.
  intros Hw H Hn. destruct H as [v k rest Hv Hr Hk|ip fr f rest H1 H2 H3 H4 H5 H6|s v rest Hs|s v e rest Hs Hd|v e rest Hv Hr Hd Hs|v rest Hv Hr|b rest Hb
     |rest Hr|rest|rest|rest|rest|rest Hr|rest Hr].
  - exists (string_of_runes v). split; [reflexivity|]. rewrite next_word in Hn by assumption. injection Hn as <- _. cbn [lr_lit].
    split; [destruct Hk; reflexivity|]. intros _. apply simple_word; [apply is_word_chars, Hv|]. destruct Hv as (? & ? & -> & _). discriminate.
  - pose proof (num_text_chars ip fr H1 H3) as N. apply num_end_cur in H4 as [R1 R2]. exists (num_text ip fr). split; [reflexivity|].
    destruct (num_text ip fr) as [|b s] eqn:Et; [destruct ip; [congruence|discriminate]|].
    assert (Hb : 48 <= b2z b <= 57).
    { destruct ip as [|i ip]; [congruence|]. unfold num_text, digit_text in Et; cbn [map app] in Et. assert (Eb : b = z2b (48 + i)) by congruence.
      inversion H1 as [|? ? Hd _]; subst. rewrite digit_byte by exact Hd. lia. }
    pose proof N as N0. inversion N as [|? ? _ Hs]; subst. change ((b :: s) ++ rest) with (b :: s ++ rest) in Hn.
    rewrite next_number, R2 in Hn by assumption. injection Hn as <- _. split; [reflexivity|]. intros _. apply simple_ascii; [discriminate|].
    clear - N0. apply forallb_forall. intros c Hc. unfold number_chars in N0. rewrite Forall_forall in N0. specialize (N0 c Hc). lia.
  - destruct (str_suffix _ _ _ _ Hs) as (y0 & E0). assert (E : z2b 34 :: s = (z2b 34 :: y0) ++ rest) by (rewrite E0; reflexivity). revert E. generalize (z2b 34 :: y0). intros y E.
    exists y. split; [exact E|]. rewrite next_string with (v := v) (rest := rest) in Hn by assumption. injection Hn as <- _. split; [reflexivity|discriminate].
  - destruct (str_suffix _ _ _ _ Hs) as (y0 & E0). assert (E : z2b 39 :: s = (z2b 39 :: y0) ++ rest) by (rewrite E0; reflexivity). revert E. generalize (z2b 39 :: y0). intros y E.
    exists y. split; [exact E|]. rewrite next_date with (v := v) (rest := rest) in Hn by assumption. split; [|discriminate].
    exists (digits_of v). split; [exact Hd|]. destruct (digits_of v) as [|d0 ds] eqn:Ed; injection Hn as <- _; reflexivity.
  - pose proof (next_directive pd w v rest Hw Hv Hr) as H. destruct (directive_lookup v Hv) as [[_ E]|[N _]]; [|exfalso; apply (N e Hd Hs)].
    rewrite E in H. rewrite H in Hn. injection Hn as <- _. exists (B "&" ++ string_of_runes v). split; [rewrite <- app_assoc; reflexivity|]. split; [reflexivity|].
    intros _. exists (38 :: v). split; [reflexivity|]. split; [discriminate|]. split; [cbn [forallb]; rewrite (word_runes_valid v) by apply Forall_word, Hv; reflexivity|].
    intros [X|X]; [discriminate|]. exact (word_char_not_lf _ Hv X).
  - change (B "~" ++ string_of_runes v ++ rest) with (z2b 126 :: string_of_runes v ++ rest) in Hn. rewrite (next_label pd w v rest) in Hn by assumption. injection Hn as <- _. exists (B "~" ++ string_of_runes v). split; [rewrite <- app_assoc; reflexivity|].
    split; [reflexivity|discriminate].
  - exists [b]. split; [reflexivity|]. apply mark_in in Hb. pose proof (next_mark pd w (b2z b) rest Hw Hb) as H. rewrite z2b_b2z in H. rewrite H in Hn. injection Hn as <- _.
    assert (Hs : b2z b < 128 /\ b2z b <> 10) by (cbn [In] in Hb; lia). split.
    + cbn [shown lr_lit]. unfold encode. pose proof (b2z_range b). replace (valid_rune (b2z b)) with true by (unfold valid_rune; lia). replace (b2z b <? 128) with true by lia. rewrite z2b_b2z. reflexivity.
    + intros _. apply simple_ascii; [discriminate|]. cbn [forallb]. lia.
  - exists (B "/"). split; [reflexivity|]. assert (E : cur rest <> 47) by (intros E; apply Hr; apply cur_first; [lia | exact E]).
    pose proof (next_slash pd w rest Hw E) as H. change (B "/" ++ rest) with (z2b 47 :: rest) in Hn. rewrite H in Hn. injection Hn as <- _. split; [reflexivity|]. intros _. apply simple_ascii; [discriminate|reflexivity].
  - exists (B "="). split; [reflexivity|]. pose proof (next_equal pd w rest Hw) as H. change (B "=" ++ rest) with (z2b 61 :: rest) in Hn. rewrite H in Hn. injection Hn as <- _.
    split; [reflexivity|]. intros _. apply simple_ascii; [discriminate|reflexivity].
  - exists (B "<>"). split; [reflexivity|]. pose proof (next_op2 pd w 60 62 tNeEQ rest Hw ltac:(left; reflexivity)) as H. change (B "<>" ++ rest) with (z2b 60 :: z2b 62 :: rest) in Hn. rewrite H in Hn. injection Hn as <- _.
    split; [reflexivity|]. intros _. apply simple_ascii; [discriminate|reflexivity].
  - exists (B "<="). split; [reflexivity|]. pose proof (next_op2 pd w 60 61 tLE rest Hw ltac:(right; left; reflexivity)) as H. change (B "<=" ++ rest) with (z2b 60 :: z2b 61 :: rest) in Hn. rewrite H in Hn. injection Hn as <- _.
    split; [reflexivity|]. intros _. apply simple_ascii; [discriminate|reflexivity].
  - exists (B ">="). split; [reflexivity|]. pose proof (next_op2 pd w 62 61 tGE rest Hw ltac:(right; right; left; reflexivity)) as H. change (B ">=" ++ rest) with (z2b 62 :: z2b 61 :: rest) in Hn. rewrite H in Hn. injection Hn as <- _.
    split; [reflexivity|]. intros _. apply simple_ascii; [discriminate|reflexivity].
  - exists (B "<"). split; [reflexivity|]. assert (E : forall c, first_char rest c -> c <> 61 /\ (60 = 60 -> c <> 62)) by (intros c Hc; destruct (Hr c Hc); split; auto).
    pose proof (next_op1 pd w 60 rest Hw ltac:(left; reflexivity) E) as H. change (B "<" ++ rest) with (z2b 60 :: rest) in Hn. rewrite H in Hn. injection Hn as <- _.
    split; [reflexivity|]. intros _. apply simple_ascii; [discriminate|reflexivity].
  - exists (B ">"). split; [reflexivity|]. assert (E : forall c, first_char rest c -> c <> 61 /\ (62 = 60 -> c <> 62)) by (intros c Hc; split; [apply Hr, Hc|discriminate]).
    pose proof (next_op1 pd w 62 rest Hw ltac:(right; reflexivity) E) as H. change (B ">" ++ rest) with (z2b 62 :: rest) in Hn. rewrite H in Hn. injection Hn as <- _.
    split; [reflexivity|]. intros _. apply simple_ascii; [discriminate|reflexivity].
Qed.

(** * Tokens in the text *)
Lemma Next_fields code t c t' e : Next code t = (c, t', e) -> exists r s' pd', next (tk_prevDot t) (rest_of code t) = (r, s', pd') /\
  tk_lit t' = lr_lit r /\ tk_off t' = (length code - length s')%nat.
Proof.
  unfold Next. fold (rest_of code t). destruct (next _ _) as [[r s'] pd']. intros H. exists r, s', pd'. split; [reflexivity|].
  repeat match type of H with
  | context [if ?b then _ else _] => destruct b
  | context [match parse_float ?x with _ => _ end] => destruct (parse_float x)
  | context [match parse_date ?x with _ => _ end] => destruct (parse_date x)
  end; injection H as _ <- _; split; reflexivity.
Qed.
Lemma starts_suffix d s l d' s' : starts d s l d' s' -> exists u, s = u ++ s'.
Proof.
  induction 1 as [|d w x k rest l d' s' Hw Hx H (u & E)]; [exists []; reflexivity|].
  destruct (one_next d w x k rest Hw Hx) as (r & Hr & _). destruct (one_lit d w x k rest r _ Hw Hx Hr) as (y & -> & _).
  exists (w ++ y ++ u). rewrite E, <- !app_assoc. reflexivity.
Qed.
Lemma lexes_starts code pre : forall t k t' post, lexes code t (pre ++ (k, t') :: post) -> exists t1,
  starts (tk_prevDot t) (rest_of code t) (Trees.tks pre) (tk_prevDot t1) (rest_of code t1) /\ Next code t1 = (k, t', None) /\ k <> EOF.
Proof.
  induction pre as [|[c u] pre IH]; intros t k t' post H; inversion H as [|t0 k0 t1 l0 HN Hk HL]; subst.
  - exists t. split; [constructor|]. auto.
  - destruct (IH _ _ _ _ HL) as (t1 & S1 & S2). exists t1. split; [|exact S2].
    destruct (Next_res _ _ _ _ HN) as (r & s' & pd' & N1 & N2 & N3 & N4 & N5 & N6). subst c.
    destruct (next_one _ _ _ _ _ _ N1 N2 Hk N6) as (w & x & E & Hw & Hx & Hp). cbn [Trees.tks map fst snd]. rewrite E. econstructor; [exact Hw|exact Hx|].
    rewrite N5, N4, Hp in S1. exact S1.
Qed.
Theorem located code pre k t post : lexes code zero_token (pre ++ (k, t) :: post) -> exists before y rest,
  written code (Trees.tks pre) (tk_of k t) before y rest /\ shown (tk_of k t) y (tk_lit t) /\ tk_off t = (length code - length rest)%nat /\
  (plain (tk_of k t) = true -> simple y).
Proof.
  intros H. destruct (lexes_starts _ _ _ _ _ _ H) as (t1 & S1 & S2 & S3).
  destruct (Next_res _ _ _ _ S2) as (r & s' & pd' & N1 & N2 & N3 & N4 & N5 & N6). subst k.
  destruct (Next_fields _ _ _ _ _ S2) as (r2 & s2 & pd2 & F1 & F2 & F3). rewrite N1 in F1. injection F1 as <- <- <-.
  destruct (next_one _ _ _ _ _ _ N1 N2 S3 N6) as (w & x & E & Hw & Hx & Hp). rewrite E in N1. destruct (one_lit _ _ _ _ _ _ _ Hw Hx N1) as (y & -> & L1 & L2).
  rewrite E in S1. destruct (starts_suffix _ _ _ _ _ S1) as (u & Eu). change (rest_of code zero_token) with code in *.
  exists (u ++ w), y, s'. split; [|split; [rewrite F2; exact L1|split; assumption]].
  exists (tk_prevDot t1), w. split; [exact S1|]. split; [exact Hw|]. split; [exact Hx|]. rewrite <- app_assoc. exact Eu.
Qed.
(** The message for a token. *)
Theorem loc_place code pre k t post m line col lit : lexes code zero_token (pre ++ (k, t) :: post) -> loc code t m = EParse m line col lit -> exists before y rest,
  written code (Trees.tks pre) (tk_of k t) before y rest /\ shown (tk_of k t) y lit /\
  (exists c, place (before ++ y) line c /\ col = c - Z.of_nat (length (runes lit))) /\ (plain (tk_of k t) = true -> place before line col).
Proof.
  intros H E. destruct (located _ _ _ _ _ H) as (before & y & rest & W & Sh & Off & Pl). exists before, y, rest. split; [exact W|].
  unfold loc in E. injection E as <- <- <-. rewrite Off. destruct W as (dot & w & _ & _ & _ & Ec). pose proof (position_place code before y rest Ec) as P.
  cbn [GetPosition p_line p_col] in P. unfold GetPosition in P. cbn [p_line p_col] in P. split; [exact Sh|]. split; [eexists; split; [exact P|ring]|]. intros Hp. specialize (Pl Hp).
  assert (El : tk_lit t = y) by (destruct (tk_of k t); try discriminate Hp; exact Sh). rewrite El. destruct Pl as (rs & -> & R1 & R2 & R3).
  rewrite runes_string by exact R2. pose proof (place_before _ _ _ _ R2 R1 (lf_string _ R2 R3) P) as Q.
  match goal with Q : place _ _ ?a |- place _ _ ?b => replace b with a by ring end. exact Q.
Qed.

(** * A token has one place *)
Lemma trivia_end_ascii c s : 0 <= c < 128 -> c <> 47 -> c <> 35 -> isSpace c = false -> trivia_end (z2b c :: s) = z2b c :: s.
Proof.
  intros H H1 H2 H3. apply (trivia_end_start [] (z2b c :: s) tr_nil); rewrite cur_ascii, b2z_z2b by (rewrite ?b2z_z2b; lia); assumption.
Qed.
Lemma token_start dot x k rest : one_token dot x k rest -> trivia_end x = x.
Proof.
  intros H. destruct H as [v k rest Hv Hr Hk|ip fr f rest H1 H2 H3 H4 H5 H6|s v rest Hs|s v e rest Hs Hd|v e rest Hv Hr Hd Hs|v rest Hv Hr|b rest Hb
     |rest Hr|rest|rest|rest|rest|rest Hr|rest Hr].
  - destruct Hv as (c & w' & -> & Hc & _). apply isLetter_spec in Hc.
    assert (Ec : cur (string_of_runes (c :: w') ++ rest) = c).
    { change (string_of_runes (c :: w')) with (encode c ++ string_of_runes w'). rewrite <- app_assoc. apply cur_encode, letter_valid, Hc. }
    apply (trivia_end_start [] (string_of_runes (c :: w') ++ rest) tr_nil); rewrite Ec.
    + intros ->. vm_compute in Hc. discriminate.
    + intros ->. vm_compute in Hc. discriminate.
    + destruct (isSpace c) eqn:E; [|reflexivity]. unfold isSpace in E. exfalso. assert (c = 32 \/ c = 9 \/ c = 13 \/ c = 10) as [->|[->|[->| ->]]] by lia; vm_compute in Hc; discriminate.
  - destruct ip as [|i ip]; [congruence|]. inversion H1 as [|? ? Hi _]; subst. unfold num_text, digit_text. cbn [map app].
    destruct fr as [d|]; cbn [app]; apply trivia_end_ascii; unfold isSpace; lia.
  - apply trivia_end_ascii; [lia|discriminate|discriminate|reflexivity].
  - apply trivia_end_ascii; [lia|discriminate|discriminate|reflexivity].
  - apply (trivia_end_ascii 38); [lia|discriminate|discriminate|reflexivity].
  - apply (trivia_end_ascii 126); [lia|discriminate|discriminate|reflexivity].
  - apply mark_in in Hb. rewrite <- (z2b_b2z b). set (c := b2z b) in *. clearbody c. cbn [In] in Hb. apply trivia_end_ascii; unfold isSpace; lia.
  - apply (trivia_end_slash rest). intros E; apply Hr; apply cur_first; [lia | exact E].
  - apply (trivia_end_ascii 61); [lia|discriminate|discriminate|reflexivity].
  - apply (trivia_end_ascii 60); [lia|discriminate|discriminate|reflexivity].
  - apply (trivia_end_ascii 60); [lia|discriminate|discriminate|reflexivity].
  - apply (trivia_end_ascii 62); [lia|discriminate|discriminate|reflexivity].
  - apply (trivia_end_ascii 60); [lia|discriminate|discriminate|reflexivity].
  - apply (trivia_end_ascii 62); [lia|discriminate|discriminate|reflexivity].
Qed.
Lemma starts_det d s l d' s' : starts d s l d' s' -> forall d2 s2, starts d s l d2 s2 -> d' = d2 /\ s' = s2.
Proof.
  induction 1 as [|d w x k rest l d' s' Hw Hx H IH]; intros d2 s2 H2; inversion H2 as [|? w2 x2 ? rest2 ? ? ? Hw2 Hx2 H3]; subst; [auto|].
  destruct (one_next _ _ _ _ _ Hw Hx) as (r & Hr & _). destruct (one_next _ _ _ _ _ Hw2 Hx2) as (r2 & Hr2 & _).
  match goal with E : w2 ++ x2 = w ++ x |- _ => rewrite E, Hr in Hr2 end. injection Hr2 as _ <-. eauto.
Qed.
Theorem written_det code pre k before y rest : written code pre k before y rest -> forall before' y' rest', written code pre k before' y' rest' -> before = before' /\ y = y' /\ rest = rest'.
Proof.
  intros (dot & w & S1 & W & O & E) before' y' rest' (dot' & w' & S2 & W' & O' & E'). destruct (starts_det _ _ _ _ _ S1 _ _ S2) as [<- Es].
  destruct (one_next _ _ _ _ _ W O) as (r & Hr & _). destruct (one_next _ _ _ _ _ W' O') as (r2 & Hr2 & _). rewrite <- Es, Hr in Hr2. injection Hr2 as _ <-.
  assert (Ey : y ++ rest = y' ++ rest).
  { pose proof (trivia_end_trivia w (y ++ rest) W) as T1. pose proof (trivia_end_trivia w' (y' ++ rest) W') as T2.
    rewrite (token_start _ _ _ _ O) in T1. rewrite (token_start _ _ _ _ O') in T2. congruence. }
  apply app_inv_tail in Ey as <-. rewrite E in E'. apply app_inv_tail in E' as <-. auto.
Qed.
