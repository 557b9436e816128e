(** Proofs: the scanner reads a text as the lexical grammar of Lexical.v says. *)
From Verif Require Import Bytes Utf8 UnicodeTables Float64 GoTime Ast Lexer LexFacts Utf8Facts LexSpec LexProofs LexTrivia
  LexTokens LexStrings LexReject NumSpec NumProofs NumTokens Tok Driver Trees Writes Lexical.
Open Scope Z_scope.

(** * Text that ends without a further token *)
Lemma last_app w x : trivia w -> last_trivia x -> last_trivia (w ++ x).
Proof.
  intros Hw H. destruct H as [y Hy|y l Hy Hl|y l Hy Hl].
  - constructor. apply trivia_app; assumption.
  - rewrite app_assoc. apply lt_comment; [apply trivia_app; assumption | exact Hl].
  - rewrite app_assoc. apply lt_hash; [apply trivia_app; assumption | exact Hl].
Qed.
Lemma line_or p s0 s : line p -> s = p ++ s0 -> p <> [] ->
  (line s0 /\ skipLine s = []) \/
  exists l b, line l /\ blanks b /\ s = p ++ l ++ nl ++ b ++ skipSpace (skipLine s).
Proof.
  intros Hp Es Hpn. destruct (skipLine_split s) as (l & H1 & H2 & H3).
  destruct (skipSpace_split (skipLine s)) as (b & B1 & B2).
  destruct H3 as [H3|(s' & H3)].
  { left. split; [|exact H3]. rewrite H3, app_nil_r in H2. subst l. rewrite Es in H1. apply Forall_app in H1. apply H1. }
  right.
  destruct (line_cut p s0 Hp (skipLine s)) as (l' & L1 & L2); [eauto | exists l; split; [exact H1 | congruence]|].
  assert (Hb : exists b', b = z2b 10 :: b' /\ blanks b').
  { destruct b as [|x b'].
    - cbn [app] in B2. exfalso. pose proof (skipSpace_not_space (skipLine s)) as N.
      rewrite <- B2, H3 in N. cbn [nl app] in N. rewrite cur_ascii in N by reflexivity. discriminate.
    - rewrite H3 in B2 at 1. cbn [nl app] in B2. injection B2 as <- _.
      inversion B1; subst. exists b'. auto. }
  destruct Hb as (b' & -> & Hb'). exists l', b'. split; [exact L1|]. split; [exact Hb'|].
  rewrite Es at 1. rewrite L2. rewrite B2 at 1. reflexivity.
Qed.
Lemma skip_ends s : (skipComment s = [] -> last_trivia s) /\ (skipRegions s = [] -> last_trivia s).
Proof.
  induction s as [s IH] using bytes_ind.
  assert (HC : skipComment s = [] -> last_trivia s).
  { rewrite skipComment_eq. destruct ((cur s =? cSlash) && (nextLet s =? cSlash)) eqn:E.
    - apply andb_true_iff in E as [E1 E2]. apply Z.eqb_eq in E1, E2.
      destruct (comment_start s E1 E2) as (s0 & Es).
      assert (Hs : s <> []) by (rewrite Es; discriminate).
      assert (Hl : (length (skipSpace (skipLine s)) < length s)%nat)
        by (apply skip_line_space_lt; [exact Hs | rewrite E1; discriminate]).
      destruct (IH _ Hl) as [I1 I2].
      assert (Hpl : line (B "//")) by (repeat constructor; discriminate).
      destruct (line_or (B "//") s0 s Hpl Es ltac:(discriminate)) as [(L1 & L2)|(l & b & L1 & L2 & L3)].
      { intros _. rewrite Es. apply (lt_comment [] s0); [constructor | exact L1]. }
      cbv zeta. set (s1 := skipSpace (skipLine s)) in *. intros Hne.
      assert (HL : last_trivia s1).
      { destruct (cur s1 =? cSlash); [auto|]. destruct (cur s1 =? cHash); [auto|]. rewrite Hne. repeat constructor. }
      rewrite L3. replace (B "//" ++ l ++ nl ++ b ++ s1) with ((B "//" ++ l ++ nl ++ b) ++ s1) by (rewrite <- !app_assoc; reflexivity).
      apply last_app; [|exact HL]. apply tr_comment; [exact L1 | apply blanks_trivia, L2].
    - intros ->. repeat constructor. }
  split; [exact HC|]. rewrite skipRegions_eq. cbv zeta. destruct (cur s =? cHash) eqn:E.
  - apply Z.eqb_eq in E. destruct (cur_b s cHash ltac:(unfold cHash; lia) E) as (s0 & Es).
    assert (Hs : s <> []) by (rewrite Es; discriminate).
    assert (Hl : (length (skipSpace (skipLine s)) < length s)%nat)
      by (apply skip_line_space_lt; [exact Hs | rewrite E; discriminate]).
    destruct (IH _ Hl) as [I1 I2].
    assert (Hpl : line (B "#")) by (repeat constructor; discriminate).
    destruct (line_or (B "#") s0 s Hpl Es ltac:(discriminate)) as [(L1 & L2)|(l & b & L1 & L2 & L3)].
    { intros _. rewrite Es. apply (lt_hash [] s0); [constructor | exact L1]. }
    set (s1 := skipSpace (skipLine s)) in *. intros Hne.
    assert (HL : last_trivia s1).
    { destruct (cur s1 =? cSlash); [auto|]. destruct (cur s1 =? cHash); [auto|]. rewrite Hne. repeat constructor. }
    rewrite L3. replace (B "#" ++ l ++ nl ++ b ++ s1) with ((B "#" ++ l ++ nl ++ b) ++ s1) by (rewrite <- !app_assoc; reflexivity).
    apply last_app; [|exact HL]. apply tr_hash; [exact L1 | apply blanks_trivia, L2].
  - destruct (cur s =? cSlash) eqn:E3; [exact HC|]. rewrite E. intros ->. repeat constructor.
Qed.

(** Every text is trivia followed by the rest, or nothing but trivia. *)
Lemma gap0_settle s : skipComment s <> [] -> exists t, trivia t /\ s = t ++ skipComment s.
Proof. intros H. destruct (proj1 (skip_splits s) H) as (t & T1 & T2). exists t. split; [apply gap0_trivia, T1 | exact T2]. Qed.
Lemma trivia_end_split s : trivia_end s <> [] -> exists w, trivia w /\ s = w ++ trivia_end s.
Proof.
  intros H. unfold trivia_end in *. destruct (skipSpace_split s) as (b & B1 & B2).
  destruct (proj2 (skip_splits (skipComment (skipSpace s))) H) as (t2 & T1 & T2).
  assert (Hc : skipComment (skipSpace s) <> []) by (intros E; rewrite E in H; apply H; reflexivity).
  destruct (gap0_settle _ Hc) as (t1 & U1 & U2).
  exists (b ++ t1 ++ t2). split; [apply trivia_app; [apply blanks_trivia, B1 | apply trivia_app; assumption]|].
  rewrite <- !app_assoc, <- T2, <- U2. exact B2.
Qed.
Lemma trivia_end_nil s : trivia_end s = [] -> last_trivia s.
Proof.
  intros H. unfold trivia_end in H. destruct (skipSpace_split s) as (b & B1 & B2). rewrite B2. apply last_app; [apply blanks_trivia, B1|].
  destruct (skipComment (skipSpace s)) as [|x r] eqn:E; [apply (proj1 (skip_ends _) E)|].
  destruct (gap0_settle (skipSpace s) ltac:(rewrite E; discriminate)) as (t & T1 & T2). rewrite T2, E. apply last_app; [exact T1|].
  apply (proj2 (skip_ends _) H).
Qed.

(** * One token: from the grammar to the scanner *)
Lemma word_token_kind pd w k : is_word w -> word_token pd w k ->
  kind_of_word pd w <> EOF /\ tk_res (LexRes (kind_of_word pd w) (string_of_runes w) None) = Some k.
Proof.
  intros Hw H. destruct H as [w|w H|w r H H2|w r c H Hc H2].
  - split; [discriminate | reflexivity].
  - rewrite unreserved_lookup by assumption. split; [discriminate | reflexivity].
  - rewrite (reserved_lookup r tExecute) by assumption. split; [discriminate | reflexivity].
  - rewrite (reserved_lookup r c) by assumption.
    assert (A : forallb (fun p => negb (snd p =? EOF) && negb (snd p =? tNumber) && negb (snd p =? tString) && negb (snd p =? tDate) && negb (snd p =? tIdent)
      && negb (snd p =? tDirective) && negb (snd p =? tGoToLabel)) reserved = true) by (vm_compute; reflexivity).
    rewrite forallb_forall in A. specialize (A _ H). cbn [snd] in A. rewrite !andb_true_iff, !negb_true_iff in A.
    destruct A as ((((((A0 & A1) & A2) & A3) & A4) & A5) & A6). unfold tk_res. cbn [lr_tok lr_lit].
    rewrite A1, A2, A3, A4, A5, A6. apply Z.eqb_neq in A0. split; [exact A0|].
    apply Z.eqb_neq in Hc. rewrite Hc. reflexivity.
Qed.
Lemma word_token_total pd w : is_word w -> exists k, word_token pd w k.
Proof.
  intros Hw. destruct pd; [eexists; apply wt_dot|].
  destruct (existsb (fun p => if list_eq_dec Z.eq_dec (map lower_rune w) (map lower_rune (runes (fst p))) then true else false) reserved) eqn:E.
  - apply existsb_exists in E as ((r & c) & Hin & E). cbn [fst] in E. destruct (list_eq_dec _ _ _) as [El|]; [|discriminate].
    apply same_word_lower in El. destruct (Z.eq_dec c tExecute) as [->|Hc].
    + eexists. eapply wt_execute; eassumption.
    + eexists. eapply wt_reserved; eassumption.
  - eexists. apply wt_name. intros r c Hin Hs. apply same_word_lower in Hs.
    assert (existsb (fun p => if list_eq_dec Z.eq_dec (map lower_rune w) (map lower_rune (runes (fst p))) then true else false) reserved = true); [|congruence].
    apply existsb_exists. exists (r, c). split; [exact Hin|]. cbn [fst]. destruct (list_eq_dec _ _ _) as [El|El]; [reflexivity|congruence].
Qed.

Lemma parse_float_num ip fr : digits ip -> ip <> [] -> (forall d, fr = Some d -> digits d) ->
  match parse_float (num_text ip fr) with
  | Some f => (num_Q ip fr < inject_Z overflow_bound)%Q /\ nearest (num_Q ip fr) f
  | None => (inject_Z overflow_bound <= num_Q ip fr)%Q
  end.
Proof.
  intros Hi Hn Hf.
  assert (HQ : exists n d, parse_float (num_text ip fr) = to_f64 n d /\ (num_Q ip fr == frac n d)%Q /\ 0 <= n /\ 0 < d).
  { unfold num_text, num_Q. destruct fr as [f|].
    - specialize (Hf f eq_refl). rewrite parse_float_frac by assumption. eexists. eexists. split; [reflexivity|].
      split; [apply dec_Q_frac|]. split; [apply dec_value_nonneg, Forall_app; split; assumption|].
      apply Z.pow_pos_nonneg; lia.
    - rewrite app_nil_r, parse_float_int by assumption. exists (dec_value ip), 1. split; [reflexivity|].
      split; [rewrite dec_Q_frac, app_nil_r; reflexivity|]. split; [apply dec_value_nonneg, Hi | lia]. }
  destruct HQ as (n & d & HP & HQ & Hn0 & Hd0). rewrite HP. destruct (to_f64 n d) as [f|] eqn:Ef.
  - split.
    + apply Qnot_le_lt. intros Hov. rewrite HQ in Hov. apply (proj1 (overflow_Q n d Hd0)) in Hov.
      apply to_f64_overflow in Hov; [congruence|assumption|assumption].
    + eapply nearest_eq; [apply Qeq_sym; exact HQ|]. apply to_f64_nearest; assumption.
  - apply to_f64_overflow in Ef; [|assumption|assumption]. rewrite HQ. apply (proj2 (overflow_Q n d Hd0)), Ef.
Qed.
Lemma num_text_chars ip fr : digits ip -> (forall d, fr = Some d -> digits d) -> number_chars (num_text ip fr).
Proof.
  intros Hi Hf. unfold num_text, number_chars. apply Forall_app. split; [apply digit_text_number, Hi|].
  destruct fr as [f|]; [|constructor]. constructor; [right; reflexivity | apply digit_text_number, (Hf f eq_refl)].
Qed.

(** One-character tokens. *)
Lemma mark_in b : In b (B ".;(),-+*?[]:%") -> In (b2z b) [46; 59; 40; 41; 44; 45; 43; 42; 63; 91; 93; 58; 37].
Proof. intros H. apply (in_map b2z) in H. exact H. Qed.
Lemma mark_end c rest : In c [46; 59; 40; 41; 44; 45; 43; 42; 63; 91; 93; 58; 37] -> trivia_end (z2b c :: rest) = z2b c :: rest.
Proof.
  intros Hin. change (z2b c :: rest) with ([] ++ z2b c :: rest) at 1. apply next_at; [constructor|..]; cbn [In] in Hin; repeat destruct Hin as [<-|Hin]; try destruct Hin; try lia; try reflexivity; discriminate.
Qed.
Lemma mark_cur c rest : In c [46; 59; 40; 41; 44; 45; 43; 42; 63; 91; 93; 58; 37] -> cur (z2b c :: rest) = c /\ adv (z2b c :: rest) = rest.
Proof.
  intros Hin. cbn [In] in Hin; repeat destruct Hin as [<-|Hin]; try destruct Hin; (split; [apply cur_ascii; reflexivity | apply adv_ascii; reflexivity]).
Qed.
Lemma mark_next pd c rest x : In c [46; 59; 40; 41; 44; 45; 43; 42; 63; 91; 93; 58; 37] -> trivia_end x = x -> cur x = c -> adv x = rest ->
  next pd x = (LexRes c (encode c) None, rest, if c =? 46 then negb pd else false).
Proof.
  intros Hin E E2 E3. unfold next. fold (trivia_end x). rewrite E. cbv zeta. rewrite E2, E3.
  cbn [In] in Hin; repeat destruct Hin as [<-|Hin]; try destruct Hin; reflexivity.
Qed.
Lemma next_mark pd w c rest : trivia w -> In c [46; 59; 40; 41; 44; 45; 43; 42; 63; 91; 93; 58; 37] ->
  next pd (w ++ z2b c :: rest) = (LexRes c (encode c) None, rest, if c =? 46 then negb pd else false).
Proof.
  intros Hw Hin. rewrite next_trivia by exact Hw. destruct (mark_cur c rest Hin). apply mark_next; auto using mark_end.
Qed.
Lemma next_equal pd w rest : trivia w -> next pd (w ++ z2b 61 :: rest) = (LexRes tEQUAL (encode 61) None, rest, false).
Proof.
  intros Hw. unfold next. fold (trivia_end (w ++ z2b 61 :: rest)).
  rewrite next_at by (try assumption; try lia; reflexivity). cbv zeta. rewrite cur_ascii, adv_ascii by reflexivity. reflexivity.
Qed.
Lemma trivia_end_slash rest : cur rest <> 47 -> trivia_end (z2b 47 :: rest) = z2b 47 :: rest.
Proof.
  intros H. unfold trivia_end. rewrite skipSpace_id by (rewrite cur_ascii by reflexivity; reflexivity).
  assert (N : nextLet (z2b 47 :: rest) <> cSlash) by (unfold nextLet; rewrite adv_ascii by reflexivity; exact H).
  rewrite skipComment_id by tauto. apply skipRegions_settled. split; [rewrite cur_ascii by reflexivity; discriminate | tauto].
Qed.
Lemma next_slash pd w rest : trivia w -> cur rest <> 47 -> next pd (w ++ z2b 47 :: rest) = (LexRes 47 (encode 47) None, rest, false).
Proof.
  intros Hw Hr. rewrite next_trivia by exact Hw. unfold next. fold (trivia_end (z2b 47 :: rest)).
  rewrite trivia_end_slash by exact Hr. cbv zeta. rewrite cur_ascii, adv_ascii by reflexivity. reflexivity.
Qed.
Lemma next_label pd w0 w rest : trivia w0 -> Forall word_char w -> word_ends rest ->
  next pd (w0 ++ z2b 126 :: string_of_runes w ++ rest) = (LexRes tGoToLabel (string_of_runes w) None, rest, false).
Proof.
  intros H0 Hw Hr. apply Forall_word in Hw. unfold next. fold (trivia_end (w0 ++ z2b 126 :: string_of_runes w ++ rest)).
  rewrite (next_at w0 126 (string_of_runes w ++ rest)) by (try assumption; try lia; try reflexivity; discriminate).
  cbv zeta. rewrite cur_ascii, adv_ascii by reflexivity. change (b2z (z2b 126)) with 126.
  change (isLetter 126) with false. unfold scanIdentifier. fold (ident_runes (string_of_runes w ++ rest)).
  rewrite ident_runes_word by (assumption || apply word_ends_cur, Hr). reflexivity.
Qed.
Lemma behind_mark dot b : behind dot (K b) = if b =? 46 then negb dot else false.
Proof.
  unfold behind. destruct (b =? 46) eqn:E; [apply Z.eqb_eq in E; subst; reflexivity|]. apply Z.eqb_neq in E.
  repeat (match goal with |- match ?x with _ => _ end = _ => destruct x; try reflexivity end); congruence.
Qed.

Lemma one_next pd w x k rest : trivia w -> one_token pd x k rest ->
  exists r, next pd (w ++ x) = (r, rest, behind pd k) /\ lr_err r = None /\ lr_tok r <> EOF /\ tk_res r = Some k.
Proof.
  intros Hw H. destruct H as [v k rest Hv Hr Hk|ip fr f rest H1 H2 H3 H4 H5 H6|s v rest Hs|s v d rest Hs Hd|v d rest Hv Hr Hd Hs|v rest Hv Hr|b rest Hb
     |rest Hr|rest|rest|rest|rest|rest Hr|rest Hr].
  - destruct (word_token_kind _ _ _ Hv Hk) as [K1 K2]. 
    exists (LexRes (kind_of_word pd v) (string_of_runes v) None). split; [|split; [reflexivity|split; assumption]].
    rewrite next_word by assumption. f_equal. destruct Hk as [| | |v r c Hin Hc Hs]; try reflexivity. rewrite behind_mark.
    assert (A : forallb (fun p => negb (snd p =? 46)) reserved = true) by (vm_compute; reflexivity).
    rewrite forallb_forall in A. specialize (A _ Hin). cbn [snd] in A. apply negb_true_iff in A. rewrite A. reflexivity.
  - pose proof (parse_float_num ip fr H1 H2 H3) as P. pose proof (num_text_chars ip fr H1 H3) as N. apply num_end_cur in H4 as [R1 R2].
    destruct (num_text ip fr) as [|b s] eqn:Et; [destruct ip; [congruence|discriminate]|].
    assert (Hb : 48 <= b2z b <= 57).
    { destruct ip as [|d ip]; [congruence|]. unfold num_text, digit_text in Et; cbn [map app] in Et. assert (Eb : b = z2b (48 + d)) by congruence.
      inversion H1 as [|? ? Hd _]; subst. rewrite digit_byte by exact Hd. lia. }
    inversion N as [|? ? _ Hs]; subst.
    pose proof (next_number pd w b s rest Hw Hb Hs R1) as H. rewrite R2 in H. change ((b :: s) ++ rest) with (b :: s ++ rest).
    eexists. split; [exact H|]. repeat split; [discriminate|]. unfold tk_res. cbn [lr_tok lr_lit].
    change (tNumber =? tNumber) with true. cbv iota. destruct (parse_float (b :: s)) as [g|].
    + destruct P as [_ P]. do 2 f_equal. eapply nearest_unique; eassumption.
    + exfalso. apply (Qlt_not_le _ _ H5 P).
  - eexists. split; [apply next_string; eassumption|]. repeat split; discriminate.
  - pose proof (next_date pd w s v rest Hw Hs) as H. assert (Hne : digits_of v <> []).
    { intros E. rewrite E in Hd. inversion Hd as [zs Hz _| ? ? ? ? ? Hf | ? ? ? ? ? ? ? Hf| ? ? ? ? ? ? ? ? Hf]; subst; [congruence|..];
      (destruct y; [destruct Hf; discriminate | discriminate]). }
    destruct (digits_of v) as [|d0 ds] eqn:Ed; [congruence|]. eexists. split; [exact H|]. repeat split; [discriminate|].
    unfold tk_res. cbn [lr_tok lr_lit]. change (tDate =? tNumber) with false. change (tDate =? tString) with false. change (tDate =? tDate) with true. cbv iota.
    rewrite (parse_date_complete _ _ Hd). reflexivity.
  - pose proof (next_directive pd w v rest Hw Hv Hr) as H. destruct (directive_lookup v Hv) as [[_ E]|[N _]]; [|exfalso; apply (N d Hd Hs)].
    rewrite E in H. eexists. split; [exact H|]. repeat split; discriminate.
  - eexists. split; [apply (next_label pd w v rest); assumption|]. repeat split; discriminate.
  - apply mark_in in Hb. rewrite behind_mark. pose proof (next_mark pd w (b2z b) rest Hw Hb) as H. rewrite z2b_b2z in H.
    eexists. split; [exact H|]. clear H. cbn [lr_tok lr_err]. set (c := b2z b) in *. clearbody c.
    cbn [In] in Hb; repeat destruct Hb as [<-|Hb]; try destruct Hb; repeat split; discriminate.
  - eexists. split; [apply (next_slash pd w rest Hw)|repeat split; discriminate].
    intros E. apply Hr. apply cur_first; [lia | exact E].
  - eexists. split; [apply (next_equal pd w rest Hw)|repeat split; discriminate].
  - eexists. split; [apply (next_op2 pd w 60 62 tNeEQ rest Hw); left; reflexivity|repeat split; discriminate].
  - eexists. split; [apply (next_op2 pd w 60 61 tLE rest Hw); right; left; reflexivity|repeat split; discriminate].
  - eexists. split; [apply (next_op2 pd w 62 61 tGE rest Hw); right; right; left; reflexivity|repeat split; discriminate].
  - eexists. split; [apply (next_op1 pd w 60 rest Hw); [left; reflexivity|]|repeat split; discriminate].
    intros c Hc. destruct (Hr c Hc). split; auto.
  - eexists. split; [apply (next_op1 pd w 62 rest Hw); [right; reflexivity|]|repeat split; discriminate].
    intros c Hc. split; [apply Hr, Hc|discriminate].
Qed.

(** * One token: from the scanner to the grammar *)
Lemma number_runes_split s : forall w rest, number_runes s = (w, rest) ->
  exists n, s = n ++ rest /\ number_chars n /\ w = map b2z n /\ isDigit (cur rest) || (cur rest =? cDot) = false.
Proof.
  induction s as [s IH] using bytes_ind. intros w rest. rewrite number_runes_eq.
  destruct (isDigit (cur s) || (cur s =? cDot)) eqn:E.
  - destruct s as [|b s]; [discriminate|].
    assert (Hc : 48 <= cur (b :: s) <= 57 \/ cur (b :: s) = 46) by (unfold isDigit, cDot in E; lia).
    destruct (cur_small_byte b s ltac:(lia)) as [Hb Hcb]. rewrite Hcb in *. rewrite adv_ascii by exact Hb.
    destruct (number_runes s) as [w1 r1] eqn:E1. intros [= <- <-].
    destruct (IH s ltac:(simpl; lia) _ _ E1) as (n & -> & N1 & -> & N2).
    exists (b :: n). repeat split; [constructor; [lia | exact N1] | exact N2].
  - intros [= <- <-]. exists []. repeat split; [constructor | exact E].
Qed.
Lemma digit_run s : number_chars s -> exists ds, digits ds /\ (s = digit_text ds \/ exists s', s = digit_text ds ++ z2b 46 :: s' /\ number_chars s').
Proof.
  induction 1 as [|b s Hb Hs IH]; [exists []; split; [constructor | left; reflexivity]|].
  destruct (Z.eq_dec (b2z b) 46) as [E|E].
  - exists []. split; [constructor|]. right. exists s. split; [|exact Hs]. cbn [digit_text map app]. rewrite <- E, z2b_b2z. reflexivity.
  - destruct IH as (ds & D1 & D2). exists ((b2z b - 48) :: ds). split; [constructor; [lia | exact D1]|].
    assert (Eb : z2b (48 + (b2z b - 48)) = b) by (rewrite <- (z2b_b2z b) at 2; f_equal; lia).
    cbn [digit_text map]. rewrite Eb. destruct D2 as [->|(s' & -> & D3)]; [left; reflexivity | right; exists s'; auto].
Qed.
Lemma number_shape b s f : 48 <= b2z b <= 57 -> number_chars s -> parse_float (b :: s) = Some f ->
  exists ip fr, b :: s = num_text ip fr /\ digits ip /\ ip <> [] /\ (forall d, fr = Some d -> digits d).
Proof.
  intros Hb Hs Hp. destruct (digit_run (b :: s)) as (ip & D1 & D2); [constructor; [lia | exact Hs]|].
  assert (Hne : ip <> []).
  { intros ->. destruct D2 as [D2|(s' & D2 & _)]; [discriminate|]. cbn [digit_text map app] in D2. injection D2 as -> _.
    rewrite b2z_z2b in Hb by lia. lia. }
  destruct D2 as [D2|(s' & D2 & D3)].
  - exists ip, None. unfold num_text. rewrite app_nil_r. split; [exact D2|]. repeat split; [exact D1 | exact Hne | discriminate].
  - destruct (digit_run s' D3) as (fr & F1 & [F2|(s2 & F2 & F3)]).
    + exists ip, (Some fr). unfold num_text. rewrite <- F2. split; [exact D2|]. repeat split; [exact D1 | exact Hne |].
      intros d [= <-]. exact F1.
    + exfalso. rewrite D2, F2, parse_float_dots in Hp by exact D1. discriminate.
Qed.

Lemma first_char_cur x : x <> [] -> first_char x (cur x).
Proof. intros H. split; [exact H|]. destruct x; [congruence | reflexivity]. Qed.
Lemma ends_not x c : 0 <= c -> cur x <> c -> forall c', first_char x c' -> c' <> c.
Proof. intros Hc H c' Hf ->. apply H. apply cur_first; assumption. Qed.

Lemma next_one pd s r s' pd' k : next pd s = (r, s', pd') -> lr_err r = None -> lr_tok r <> EOF -> tk_res r = Some k ->
  exists w x, s = w ++ x /\ trivia w /\ one_token pd x k s' /\ pd' = behind pd k.
Proof.
  intros Hn He Ht Hk.
  assert (Hx : exists w x, s = w ++ x /\ trivia w /\ x <> [] /\ trivia_end x = x).
  { destruct (trivia_end s) as [|b y] eqn:E.
    - exfalso. unfold next in Hn. fold (trivia_end s) in Hn. rewrite E in Hn. cbv zeta in Hn.
      change (cur []) with EOF in Hn. rewrite isLetter_EOF in Hn. change (EOF =? cDot) with false in Hn. change (isDigit EOF) with false in Hn.
      change (EOF =? cApos) with false in Hn. change (punct EOF) with false in Hn. change (EOF =? 61) with false in Hn.
      change (EOF =? cQuote) with false in Hn. change (EOF =? 60) with false in Hn. change (EOF =? 62) with false in Hn.
      change (EOF =? 38) with false in Hn. change (EOF =? 126) with false in Hn. change (EOF =? EOF) with true in Hn.
      injection Hn as <- <- <-. apply Ht. reflexivity.
    - destruct (trivia_end_split s) as (w & W1 & W2); [rewrite E; discriminate|].
      exists w, (trivia_end s). rewrite E in *. repeat split; [exact W2 | exact W1 | discriminate |].
      rewrite W2 in E. rewrite trivia_end_trivia in E by exact W1. exact E. }
  destruct Hx as (w & x & -> & Hw & Hne & Hx). exists w, x. split; [reflexivity|]. split; [exact Hw|].
  rewrite next_trivia in Hn by exact Hw. clear w Hw. pose proof (first_char_cur x Hne) as Hf.
  destruct (isLetter (cur x)) eqn:EL.
  { destruct (maximal_word x _ Hf (proj1 (isLetter_spec _) EL)) as (v & rest & -> & Hv & Hr).
    pose proof (next_word pd [] v rest tr_nil Hv Hr) as H. cbn [app] in H. rewrite H in Hn. injection Hn as <- <- <-.
    destruct (word_token_total pd v Hv) as (k' & Hk'). destruct (word_token_kind _ _ _ Hv Hk') as [K1 K2].
    assert (k' = k) as -> by congruence. split; [apply ot_word; assumption|].
    destruct Hk' as [| | |v r c Hin Hc Hs]; try reflexivity. rewrite behind_mark.
    assert (A : forallb (fun p => negb (snd p =? 46)) reserved = true) by (vm_compute; reflexivity).
    rewrite forallb_forall in A. specialize (A _ Hin). cbn [snd] in A. apply negb_true_iff in A. rewrite A. reflexivity. }
  destruct (isDigit (cur x)) eqn:ED.
  { destruct (number_runes x) as [v rest] eqn:EN. destruct (number_runes_split _ _ _ EN) as (n & -> & N1 & -> & N2).
    assert (Hc : 48 <= cur (n ++ rest) <= 57) by (unfold isDigit in ED; lia).
    destruct n as [|b n]; [cbn [app] in *; unfold isDigit in *; lia|].
    inversion N1 as [|? ? Hb Hn1]; subst. cbn [app] in *. destruct (cur_small_byte b (n ++ rest) ltac:(lia)) as [Hb1 Hb2]. rewrite Hb2 in Hc.
    pose proof (next_number pd [] b n rest tr_nil Hc Hn1 N2) as H. cbn [app] in H. rewrite H in Hn.
    destruct (isLetter (cur rest)) eqn:EL2; injection Hn as <- <- <-; [discriminate He|].
    unfold tk_res in Hk. cbn [lr_tok lr_lit] in Hk. change (tNumber =? tNumber) with true in Hk. cbv iota in Hk.
    destruct (parse_float (b :: n)) as [f|] eqn:EP; [|discriminate Hk]. injection Hk as <-. split; [|reflexivity].
    destruct (number_shape b n f Hc Hn1 EP) as (ip & fr & E & D1 & D2 & D3).
    change (b :: n ++ rest) with ((b :: n) ++ rest). rewrite E in *. pose proof (parse_float_num ip fr D1 D2 D3) as P. rewrite EP in P. destruct P as [P1 P2].
    apply ot_number; try assumption. apply num_end_cur. split; assumption. }
  pose proof Hn as Hn0. unfold next in Hn. fold (trivia_end x) in Hn. rewrite Hx in Hn. cbv zeta in Hn. rewrite EL, ED in Hn.
  assert (HB : forall c, 0 <= c < 128 -> cur x = c -> exists y, x = z2b c :: y) by (intros c Hc; apply cur_b, Hc).
  destruct (cur x =? cDot) eqn:E1.
  { apply Z.eqb_eq in E1. destruct (HB 46 ltac:(lia) E1) as (y & ->). rewrite E1, adv_ascii in Hn by reflexivity. injection Hn as <- <- <-.
    injection Hk as <-. split; [|reflexivity]. apply (ot_mark pd (z2b 46)). cbn. tauto. }
  destruct (cur x =? cApos) eqn:E2.
  { apply Z.eqb_eq in E2. destruct (HB 39 ltac:(lia) E2) as (y & ->). rewrite E2 in Hn.
    destruct (scanString cApos (z2b 39 :: y)) as [[lit|e] rest] eqn:ES; [|injection Hn as <- <- <-; discriminate He].
    apply scanString_iff in ES as (v & Hv & ->); [|right; reflexivity]. rewrite adv_ascii in Hv by reflexivity.
    rewrite extractDigits_runes in Hn by (eapply str_text_valid; exact Hv).
    destruct (digit_text (digits_of v)) as [|b0 l0] eqn:EG; [injection Hn as <- <- <-; discriminate|]. rewrite <- EG in Hn. injection Hn as <- <- <-.
    unfold tk_res in Hk. cbn [lr_tok lr_lit] in Hk. change (tDate =? tNumber) with false in Hk. change (tDate =? tString) with false in Hk.
    change (tDate =? tDate) with true in Hk. cbv iota in Hk. destruct (parse_date _) as [d|] eqn:EP; [|discriminate Hk]. injection Hk as <-.
    split; [|reflexivity]. eapply ot_date; [exact Hv|]. apply parse_date_sound; [apply digits_of_digits| |exact EP].
    intros E. rewrite E in EG. discriminate EG. }
  destruct (punct (cur x)) eqn:E3.
  { assert (Hin : cur x = 47 \/ In (cur x) [59; 40; 41; 44; 45; 43; 42; 63; 91; 93; 58; 37]) by (unfold punct in E3; cbn [In]; lia).
    assert (Hr : 0 <= cur x < 128) by (cbn [In] in Hin; lia).
    destruct (HB (cur x) Hr eq_refl) as (y & Ey). set (c := cur x) in *. rewrite Ey in Hn. rewrite adv_ascii in Hn by (rewrite b2z_z2b; lia).
    injection Hn as <- <- <-. destruct Hin as [Hc|Hin].
    - clearbody c. subst c. injection Hk as <-. split; [|reflexivity]. rewrite Ey. apply (ot_slash pd y).
      intros Hy. assert (Hy2 : cur y = 47) by (apply cur_first; [lia | exact Hy]).
      destruct (settles (skipComment (skipSpace x))) as [[_ S2] _]. fold (trivia_end x) in S2. rewrite Hx, Ey in S2.
      apply S2. split; [rewrite cur_ascii by reflexivity; reflexivity|]. unfold nextLet. rewrite adv_ascii by reflexivity. exact Hy2.
    - assert (Hk2 : k = K c /\ c <> 46).
      { clear - Hk Hin. clearbody c. cbn [In] in Hin; repeat destruct Hin as [<-|Hin]; try destruct Hin; (split; [injection Hk as <-; reflexivity | discriminate]). }
      destruct Hk2 as [-> Hc]. rewrite behind_mark. replace (c =? 46) with false by lia. split; [|reflexivity].
      rewrite Ey. replace (K c) with (K (b2z (z2b c))) by (rewrite b2z_z2b by lia; reflexivity). apply ot_mark.
      clear - Hin. clearbody c. cbn [In] in Hin; repeat destruct Hin as [<-|Hin]; try destruct Hin; cbn; tauto. }
  destruct (cur x =? 61) eqn:E4.
  { apply Z.eqb_eq in E4. destruct (HB 61 ltac:(lia) E4) as (y & ->). rewrite adv_ascii in Hn by reflexivity. injection Hn as <- <- <-.
    injection Hk as <-. split; [apply ot_equal | reflexivity]. }
  destruct (cur x =? cQuote) eqn:E5.
  { apply Z.eqb_eq in E5. destruct (HB 34 ltac:(lia) E5) as (y & ->). rewrite E5 in Hn.
    destruct (scanString cQuote (z2b 34 :: y)) as [[lit|e] rest] eqn:ES; [|injection Hn as <- <- <-; discriminate He].
    apply scanString_iff in ES as (v & Hv & ->); [|left; reflexivity]. rewrite adv_ascii in Hv by reflexivity.
    injection Hn as <- <- <-. injection Hk as <-. split; [apply ot_string, Hv | reflexivity]. }
  destruct (cur x =? 60) eqn:E6.
  { apply Z.eqb_eq in E6. destruct (HB 60 ltac:(lia) E6) as (y & ->). unfold nextLet in Hn. rewrite !adv_ascii in Hn by reflexivity.
    destruct (cur y =? 62) eqn:E7; [|destruct (cur y =? 61) eqn:E8].
    - apply Z.eqb_eq in E7. destruct (cur_b y 62 ltac:(lia) E7) as (z & ->). rewrite adv_ascii in Hn by reflexivity. injection Hn as <- <- <-.
      injection Hk as <-. split; [apply ot_unequal | reflexivity].
    - apply Z.eqb_eq in E8. destruct (cur_b y 61 ltac:(lia) E8) as (z & ->). rewrite adv_ascii in Hn by reflexivity. injection Hn as <- <- <-.
      injection Hk as <-. split; [apply ot_less_equal | reflexivity].
    - apply Z.eqb_neq in E7, E8. rewrite E6 in Hn. injection Hn as <- <- <-. injection Hk as <-. split; [|reflexivity]. apply ot_less.
      intros c Hc. split; eapply ends_not; try eassumption; lia. }
  destruct (cur x =? 62) eqn:E7.
  { apply Z.eqb_eq in E7. destruct (HB 62 ltac:(lia) E7) as (y & ->). unfold nextLet in Hn. rewrite !adv_ascii in Hn by reflexivity.
    destruct (cur y =? 61) eqn:E8.
    - apply Z.eqb_eq in E8. destruct (cur_b y 61 ltac:(lia) E8) as (z & ->). rewrite adv_ascii in Hn by reflexivity. injection Hn as <- <- <-.
      injection Hk as <-. split; [apply ot_greater_equal | reflexivity].
    - apply Z.eqb_neq in E8. rewrite E7 in Hn. injection Hn as <- <- <-. injection Hk as <-. split; [|reflexivity]. apply ot_greater.
      intros c Hc. eapply ends_not; try eassumption; lia. }
  destruct (cur x =? 38) eqn:E8.
  { apply Z.eqb_eq in E8. destruct (HB 38 ltac:(lia) E8) as (y & ->). clear Hn.
    destruct (ident_runes y) as [v rest] eqn:EI. destruct (ident_runes_split _ _ _ EI) as (-> & V1 & V2).
    apply Forall_word in V1. apply word_ends_cur in V2.
    pose proof (next_directive pd [] v rest tr_nil V1 V2) as H. cbn [app] in H. change (B "&" ++ string_of_runes v ++ rest) with (z2b 38 :: string_of_runes v ++ rest) in H.
    rewrite H in Hn0. destruct (directive_lookup v V1) as [[(d & D1 & D2) E]|[_ E]]; rewrite E in Hn0; injection Hn0 as <- <- <-; [|discriminate He].
    injection Hk as <-. split; [|reflexivity]. apply (ot_directive pd v d); assumption. }
  destruct (cur x =? 126) eqn:E9.
  { apply Z.eqb_eq in E9. destruct (HB 126 ltac:(lia) E9) as (y & ->). clear Hn.
    destruct (ident_runes y) as [v rest] eqn:EI. destruct (ident_runes_split _ _ _ EI) as (-> & V1 & V2).
    apply Forall_word in V1. apply word_ends_cur in V2.
    pose proof (next_label pd [] v rest tr_nil V1 V2) as H. cbn [app] in H. rewrite H in Hn0. injection Hn0 as <- <- <-.
    injection Hk as <-. split; [|reflexivity]. apply (ot_label pd v); assumption. }
  destruct (cur x =? EOF) eqn:E10; injection Hn as <- <- <-; [exfalso; apply Ht; reflexivity | discriminate He].
Qed.

(** * Whole texts *)
Lemma next_eof pd s0 r s' pd' : next pd s0 = (r, s', pd') -> lr_tok r = EOF -> lr_err r = None -> trivia_end s0 = [].
Proof.
  unfold next. fold (trivia_end s0). set (x := trivia_end s0). clearbody x. intros H He Hn.
  destruct (isLetter (cur x)).
  { exfalso. destruct (scanIdentifier x) as [lit s1].
    destruct (if pd then None else assoc (fastToLower lit) keywords) as [t|] eqn:E; injection H as <- <- <-; [|discriminate He].
    destruct pd; [discriminate|]. apply in_keywords, kinds_pos in E. cbn in He. unfold EOF in He. lia. }
  destruct (cur x =? EOF) eqn:E.
  { apply Z.eqb_eq in E. apply cur_EOF in E. exact E. }
  exfalso. apply Z.eqb_neq in E.
  repeat match type of H with
  | (if ?b then _ else _) = _ => destruct b
  | (match assoc ?b ?c with _ => _ end) = _ => destruct (assoc b c) eqn:?
  | match ?b with _ => _ end = _ => destruct b
  end; injection H as <- <- <-; cbn [lr_tok lr_lit lr_err] in *; try solve [discriminate | contradiction].
  match goal with H : assoc _ _ = Some _ |- _ => apply in_directives, kinds_pos in H; unfold EOF in *; lia end.
Qed.
Theorem reads_text pd s l : reads pd s l <-> text_of pd s l.
Proof.
  split.
  - induction 1 as [pd s r s' pd' H H1 H2|pd s r s' pd' k l H H1 H2 H3 H4 IH].
    + apply to_end, trivia_end_nil, (next_eof _ _ _ _ _ H H1 H2).
    + destruct (next_one _ _ _ _ _ _ H H1 H2 H3) as (w & x & -> & Hw & Hx & ->). eapply to_token; eassumption.
  - induction 1 as [pd w Hw|pd w x k rest l Hw Hx Hl IH].
    + apply trivia_end_last in Hw. eapply reads_next; [|apply reads_nil]. unfold next. fold (trivia_end w) (trivia_end []). rewrite Hw. reflexivity.
    + destruct (one_next _ _ _ _ _ Hw Hx) as (r & H1 & H2 & H3 & H4). eapply rd_tok; eassumption.
Qed.

Lemma Next_res code t k t' : Next code t = (k, t', None) -> exists r s' pd', next (tk_prevDot t) (rest_of code t) = (r, s', pd') /\
  lr_err r = None /\ k = lr_tok r /\ tk_prevDot t' = pd' /\ rest_of code t' = s' /\ tk_res r = Some (tk_of k t').
Proof.
  unfold Next. fold (rest_of code t). destruct (next (tk_prevDot t) (rest_of code t)) as [[r s'] pd'] eqn:En. intros H.
  assert (Hr : forall v, rest_of code (Token true v (lr_lit r) (length code - length s') pd') = s').
  { intros v. unfold rest_of. cbn [tk_off]. eapply skipn_off; [|apply rest_of_suffix]. eapply next_progress. exact En. }
  exists r, s', pd'. split; [reflexivity|].
  assert (HF : forall e, lr_err r = Some e -> lr_tok r = EOF \/ lr_lit r = encode (lr_tok r)) by (intros e; apply (next_error_lit _ _ _ _ _ _ En)).
  assert (A : lr_err r = None).
  { destruct (lr_err r) as [e|] eqn:Ee; [|reflexivity]. exfalso. specialize (HF e eq_refl). destruct (lr_tok r =? tNumber) eqn:E1.
    { apply Z.eqb_eq in E1. destruct HF as [F|F]; [rewrite E1 in F; discriminate|]. rewrite F, E1 in H. vm_compute in H. discriminate. }
    destruct (lr_tok r =? tDate) eqn:E2.
    { apply Z.eqb_eq in E2. destruct HF as [F|F]; [rewrite E2 in F; discriminate|]. rewrite F, E2 in H. vm_compute in H. discriminate. }
    repeat match type of H with context [if ?x then _ else _] => destruct x eqn:? end; discriminate. }
  split; [exact A|]. rewrite A in H. clear HF En.
  destruct (lr_tok r =? tNumber) eqn:E1.
  { apply Z.eqb_eq in E1. destruct (parse_float (lr_lit r)) as [f|] eqn:Ef; [|discriminate]. injection H as <- <-.
    repeat split; [apply Hr|]. unfold tk_res. cbv zeta. rewrite E1, Ef. reflexivity. }
  destruct (lr_tok r =? tString) eqn:E2.
  { apply Z.eqb_eq in E2. injection H as <- <-. repeat split; [apply Hr|]. unfold tk_res. cbv zeta. rewrite E2. reflexivity. }
  destruct (lr_tok r =? tDate) eqn:E3.
  { apply Z.eqb_eq in E3. destruct (forallb _ (lr_lit r)) eqn:Ez.
    - injection H as <- <-. repeat split; [apply Hr|]. unfold tk_res. cbv zeta. rewrite E3. unfold parse_date. rewrite Ez. reflexivity.
    - destruct (parse_date (lr_lit r)) as [d|] eqn:Ed; [|discriminate]. injection H as <- <-.
      repeat split; [apply Hr|]. unfold tk_res. cbv zeta. rewrite E3, Ed. reflexivity. }
  assert (HT : forall v, tk_res r = Some (tk_of (lr_tok r) (Token true v (lr_lit r) (length code - length s') pd'))).
  { intros v. unfold tk_res, tk_of. cbv zeta. rewrite E1, E2, E3. cbn [tk_lit tk_value].
    destruct (_ =? tIdent); [reflexivity|]. destruct (_ =? tExecute); [reflexivity|]. destruct (_ =? tDirective); [reflexivity|].
    destruct (_ =? tGoToLabel); [reflexivity|]. destruct v; reflexivity. }
  repeat match type of H with context [if ?b then _ else _] => destruct b end; injection H as <- <-; repeat split; auto.
Qed.
Lemma lexes_reads code t raw : lexes code t raw -> reads (tk_prevDot t) (rest_of code t) (map (fun x => tk_of (fst x) (snd x)) raw).
Proof.
  induction 1 as [t t' H|t k t' l H Hk Hl IH]; destruct (Next_res _ _ _ _ H) as (r & s' & pd' & N1 & N2 & N3 & N4 & N5 & N6).
  - eapply rd_end; [exact N1|congruence|exact N2].
  - cbn [map fst snd]. rewrite N4, N5 in IH. eapply rd_tok; [exact N1|exact N2|congruence|exact N6|exact IH].
Qed.
Theorem tokens_text code l : tokens code l <-> text_of false code l.
Proof.
  split.
  - intros (raw & H & ->). apply reads_text. exact (lexes_reads _ _ _ H).
  - intros H. apply reads_tokens, reads_text, H.
Qed.
