(** Proofs: the scanner reports the faults of Faults.v, and nothing else. *)
From Verif Require Import Bytes Utf8 UnicodeTables Float64 GoTime Ast Lexer LexFacts Utf8Facts LexSpec LexProofs LexTrivia
  LexTokens LexStrings LexReject NumSpec NumProofs NumTokens Tok Driver Trees Writes Lexical Scanned Where Placed Faults.
Open Scope Z_scope.

(** * Literals without end *)
Lemma opens_sound en : quote_char en -> forall n acc x e s', scan_string_fuel n en acc x = (inr e, s') -> e <> LFuel ->
  (e = LEof /\ s' = [] /\ str_opens en (adv x) []) \/
  (e = LEol /\ exists u, str_opens en (adv x) (LF :: u) /\ s' = skipComment (skipSpace u) /\ cur s' <> 124).
Proof.
  intros Hq. assert (Hen : 0 <= en < 128) by (unfold quote_char in Hq; lia).
  induction n as [|n IH]; intros acc x e s0.
  { cbn [scan_string_fuel]. intros [= <- <-] H. congruence. }
  cbn [scan_string_fuel]. cbv zeta. set (s := adv x). clearbody s.
  destruct (cur s =? EOL) eqn:E1.
  - apply Z.eqb_eq in E1. destruct (cur_b s EOL ltac:(unfold EOL; lia) E1) as (s1 & Es).
    assert (Ea : adv s = s1) by (rewrite Es; apply adv_ascii; reflexivity). rewrite Ea.
    pose proof (skipComment_not_space _ (skipSpace_not_space s1)) as N. rewrite N.
    destruct (cur (skipComment (skipSpace s1)) =? cBar) eqn:E2.
    + apply Z.eqb_eq in E2. destruct (gap_backward s1 E2) as (t & s2 & T1 & T2 & T3). cbn [negb andb]. rewrite T3. intros H He.
      rewrite Es, T2. destruct (IH _ _ _ _ H He) as [(A1 & A2 & A3)|(A1 & u & A2 & A3 & A4)]; rewrite adv_ascii in * by reflexivity.
      * left. split; [exact A1|]. split; [exact A2|]. apply so_break; assumption.
      * right. split; [exact A1|]. exists u. split; [apply so_break; assumption|auto].
    + cbn [negb andb]. intros [= <- <-] _. right. split; [reflexivity|]. exists s1. split; [rewrite Es; apply so_here|].
      split; [reflexivity|]. unfold cBar in E2. lia.
  - destruct (cur s =? EOF) eqn:E2.
    { intros [= <- <-] _. apply Z.eqb_eq, cur_EOF in E2. rewrite E2. left. split; [reflexivity|]. split; [reflexivity|apply so_here]. }
    assert (Hs : s <> []) by (intros E; rewrite E, cur_nil in E2; discriminate).
    destruct (cur s =? en) eqn:E3.
    + apply Z.eqb_eq in E3. destruct (cur_b s en Hen E3) as (s1 & Es).
      assert (Ea : adv s = s1) by (rewrite Es; apply adv_ascii; rewrite b2z_z2b; lia).
      unfold nextLet. rewrite Ea.
      destruct (cur s1 =? cQuote) eqn:E4.
      * apply Z.eqb_eq in E4. destruct (cur_b s1 cQuote ltac:(unfold cQuote; lia) E4) as (s2 & Es0).
        intros H He. rewrite Es, Es0. rewrite Es0 in H. destruct (IH _ _ _ _ H He) as [(A1 & A2 & A3)|(A1 & u & A2 & A3 & A4)]; rewrite adv_ascii in * by reflexivity.
        -- left. split; [exact A1|]. split; [exact A2|]. apply so_quote; assumption.
        -- right. split; [exact A1|]. exists u. split; [apply so_quote; assumption|auto].
      * destruct (skipSpace_split s1) as (b & B1 & B2).
        destruct (cur (skipSpace s1) =? cQuote) eqn:E5; [|discriminate].
        apply Z.eqb_eq in E5. destruct (cur_b _ cQuote ltac:(unfold cQuote; lia) E5) as (s2 & Es1).
        intros H He. rewrite Es, B2, Es1. rewrite Es1 in H.
        assert (Hb : b <> []) by (intros ->; cbn [app] in B2; rewrite B2, E5 in E4; discriminate).
        destruct (IH _ _ _ _ H He) as [(A1 & A2 & A3)|(A1 & u & A2 & A3 & A4)]; rewrite adv_ascii in * by reflexivity.
        -- left. split; [exact A1|]. split; [exact A2|]. apply so_join; assumption.
        -- right. split; [exact A1|]. exists u. split; [apply so_join; assumption|auto].
    + intros H He. assert (D : decode s = (cur s, snd (decode s))) by (rewrite (surjective_pairing (decode s)) at 1; f_equal; destruct s; [congruence|reflexivity]).
      destruct (IH _ _ _ _ H He) as [(A1 & A2 & A3)|(A1 & u & A2 & A3 & A4)].
      * left. split; [exact A1|]. split; [exact A2|]. apply (so_char en s [] (cur s) (snd (decode s))); [exact Hs|exact D|unfold EOL in E1; lia|lia|exact A3].
      * right. split; [exact A1|]. exists u. split; [|auto]. apply (so_char en s (LF :: u) (cur s) (snd (decode s))); [exact Hs|exact D|unfold EOL in E1; lia|lia|exact A2].
Qed.
Lemma opens_scan en s x : quote_char en -> str_opens en s x ->
  forall n acc y, adv y = s -> y <> [] -> (length y < n)%nat ->
  exists n' acc' y', adv y' = x /\ y' <> [] /\ (length y' < n')%nat /\ scan_string_fuel n en acc y = scan_string_fuel n' en acc' y'.
Proof.
  intros Hq H. assert (Hen : 0 <= en < 128) by (unfold quote_char in Hq; lia).
  assert (Hben : b2z (z2b en) = en) by (apply b2z_z2b; lia).
  induction H as [s|s x r k Hs Hd H10 Hre H IH|s x H IH|t s x Ht H IH|b s x Hb Hbn H IH];
  intros n acc y Hy Hyn Hn; [exists n, acc, y; auto|..]; (destruct n as [|n]; [lia|]); cbn [scan_string_fuel]; cbv zeta; rewrite Hy;
  pose proof (adv_length y Hyn) as Hly; rewrite Hy in Hly.
  - assert (Hcur : cur s = r) by (destruct s; [congruence|]; unfold cur; rewrite Hd; reflexivity).
    pose proof (decode_nonneg s) as Hnn. rewrite Hd in Hnn. cbn [fst] in Hnn. rewrite Hcur.
    replace (r =? EOL) with false by (unfold EOL; lia). replace (r =? EOF) with false by (unfold EOF; lia).
    replace (r =? en) with false by lia.
    apply IH; [unfold adv; rewrite Hd; reflexivity|exact Hs|lia].
  - rewrite cur_ascii, Hben by lia.
    replace (en =? EOL) with false by (unfold quote_char, EOL in *; lia).
    replace (en =? EOF) with false by (unfold quote_char, EOF in *; lia). rewrite Z.eqb_refl.
    unfold nextLet. rewrite adv_ascii by lia. rewrite cur_ascii by reflexivity.
    change (b2z (z2b 34) =? cQuote) with true. cbv iota.
    apply IH; [apply adv_ascii; reflexivity|discriminate|simpl in *; lia].
  - rewrite cur_ascii by reflexivity. change (b2z (z2b 10) =? EOL) with true. cbv iota.
    rewrite adv_ascii by reflexivity. rewrite gap_forward by exact Ht.
    rewrite cur_ascii by reflexivity. change (b2z (z2b 124)) with 124.
    change (negb (124 =? cBar) && negb (isSpace 124)) with false. cbv iota.
    apply IH; [apply adv_ascii; reflexivity|discriminate|].
    cbn [length] in *. rewrite app_length in Hly. simpl in *. lia.
  - rewrite cur_ascii, Hben by lia.
    replace (en =? EOL) with false by (unfold quote_char, EOL in *; lia).
    replace (en =? EOF) with false by (unfold quote_char, EOF in *; lia). rewrite Z.eqb_refl.
    unfold nextLet. rewrite adv_ascii by lia. rewrite skipSpace_blanks by assumption.
    rewrite skipSpace_id by (rewrite cur_ascii by reflexivity; reflexivity).
    assert (Hc : cur (b ++ z2b 34 :: s) <> cQuote).
    { destruct b as [|b0 b]; [congruence|]. inversion Hb as [|? ? S1 S2]; subst. cbn [app].
      rewrite cur_ascii by (unfold space_char in S1; lia). unfold space_char, cQuote in *. lia. }
    replace (cur (b ++ z2b 34 :: s) =? cQuote) with false by lia.
    rewrite cur_ascii by reflexivity. change (b2z (z2b 34) =? cQuote) with true. cbv iota.
    apply IH; [apply adv_ascii; reflexivity|discriminate|].
    cbn [length] in *. rewrite app_length in Hly. simpl in *. lia.
Qed.
Lemma opens_eof en s : quote_char en -> str_opens en s [] -> scanString en (z2b en :: s) = (inr LEof, []).
Proof.
  intros Hq H. unfold scanString. assert (Hben : b2z (z2b en) < 128) by (rewrite b2z_z2b; unfold quote_char in Hq; lia).
  destruct (opens_scan en s [] Hq H (S (length (z2b en :: s))) [] (z2b en :: s)) as (n & acc & y & Y1 & Y2 & Y3 & ->); [apply adv_ascii, Hben|discriminate|lia|].
  destruct n as [|n]; [lia|]. cbn [scan_string_fuel]. cbv zeta. rewrite Y1. reflexivity.
Qed.
Lemma opens_eol en s u : quote_char en -> str_opens en s (LF :: u) -> (forall g s', line_gap g -> u <> g ++ B "|" ++ s') ->
  scanString en (z2b en :: s) = (inr LEol, skipComment (skipSpace u)).
Proof.
  intros Hq H Hu. unfold scanString. assert (Hben : b2z (z2b en) < 128) by (rewrite b2z_z2b; unfold quote_char in Hq; lia).
  destruct (opens_scan en s (LF :: u) Hq H (S (length (z2b en :: s))) [] (z2b en :: s)) as (n & acc & y & Y1 & Y2 & Y3 & ->); [apply adv_ascii, Hben|discriminate|lia|].
  destruct n as [|n]; [lia|]. cbn [scan_string_fuel]. cbv zeta. rewrite Y1. unfold LF. rewrite cur_ascii by reflexivity. change (b2z (z2b 10) =? EOL) with true. cbv iota.
  rewrite adv_ascii by reflexivity. rewrite (skipComment_not_space _ (skipSpace_not_space u)).
  destruct (cur (skipComment (skipSpace u)) =? cBar) eqn:E; [|reflexivity]. exfalso. apply Z.eqb_eq in E.
  destruct (gap_backward u E) as (t & s2 & T1 & T2 & _). exact (Hu t s2 T1 T2).
Qed.

(** * The errors of Next *)
Definition nerr (r : lexres) : option lexerr :=
  if lr_tok r =? tNumber then match parse_float (lr_lit r) with Some _ => None | None => Some (LNumber (lr_lit r)) end
  else if lr_tok r =? tDate then
    if forallb (fun b => b2z b =? 48) (lr_lit r) then lr_err r
    else match parse_date (lr_lit r) with Some _ => None | None => Some (LDate_ (lr_lit r)) end
  else lr_err r.
Lemma Next_nerr code t k t' e : Next code t = (k, t', e) -> exists r, next (tk_prevDot t) (rest_of code t) = (r, rest_of code t', tk_prevDot t') /\ e = nerr r /\ k = lr_tok r.
Proof.
  unfold Next. fold (rest_of code t). destruct (next (tk_prevDot t) (rest_of code t)) as [[r s'] pd'] eqn:En. intros H.
  assert (Hr : forall v, rest_of code (Token true v (lr_lit r) (length code - length s') pd') = s').
  { intros v. unfold rest_of. cbn [tk_off]. eapply skipn_off; [|apply rest_of_suffix]. eapply next_progress. exact En. }
  exists r. unfold nerr. cbv zeta in H. destruct (lr_tok r =? tNumber) eqn:E1.
  { destruct (parse_float (lr_lit r)); injection H as <- <- <-; rewrite Hr; auto. }
  destruct (lr_tok r =? tString) eqn:E2.
  { apply Z.eqb_eq in E2. rewrite E2 in *. injection H as <- <- <-. rewrite Hr. auto. }
  destruct (lr_tok r =? tDate) eqn:E3.
  { destruct (forallb _ _); [injection H as <- <- <-; rewrite Hr; auto|]. destruct (parse_date (lr_lit r)); injection H as <- <- <-; rewrite Hr; auto. }
  repeat match type of H with context [if ?b then _ else _] => destruct b end; injection H as <- <- <-; rewrite Hr; auto.
Qed.
Lemma nerr_none t l : t <> tNumber -> t <> tDate -> nerr (LexRes t l None) = None.
Proof. intros H1 H2. unfold nerr. cbn [lr_tok lr_err]. apply Z.eqb_neq in H1, H2. rewrite H1, H2. reflexivity. Qed.
Lemma nerr_eof l e : nerr (LexRes EOF l (Some e)) = Some e.
Proof. reflexivity. Qed.
Lemma nerr_char c : nerr (LexRes c (encode c) (Some (LSyntax (encode c)))) =
  Some (if c =? tNumber then LNumber (encode c) else if c =? tDate then LDate_ (encode c) else LSyntax (encode c)).
Proof.
  unfold nerr. cbn [lr_tok lr_err lr_lit]. destruct (c =? tNumber) eqn:E1; [apply Z.eqb_eq in E1; rewrite E1; reflexivity|].
  destruct (c =? tDate) eqn:E2; [apply Z.eqb_eq in E2; rewrite E2; reflexivity|]. reflexivity.
Qed.

(** Digits and dots. *)
Lemma no_number_spec b n : 48 <= b2z b <= 57 -> number_chars n -> (parse_float (b :: n) = None <-> no_number (b :: n)).
Proof.
  intros Hb Hn. split.
  - intros Hp. destruct (digit_run (b :: n)) as (ip & D1 & D2); [constructor; [lia | exact Hn]|].
    assert (Hne : ip <> []).
    { intros ->. destruct D2 as [D2|(s' & D2 & _)]; [discriminate|]. cbn [digit_text map app] in D2. injection D2 as -> _.
      rewrite b2z_z2b in Hb by lia. lia. }
    destruct D2 as [D2|(s' & D2 & D3)].
    + right. exists ip, None. assert (En : b :: n = num_text ip None) by (unfold num_text; rewrite app_nil_r; exact D2).
      assert (Hf : forall d, None = Some d -> digits d) by discriminate.
      repeat (split; [assumption|]). pose proof (parse_float_num ip None D1 Hne Hf) as P. rewrite <- En, Hp in P. exact P.
    + destruct (digit_run s' D3) as (fr & F1 & [F2|(s2 & F2 & F3)]).
      * right. exists ip, (Some fr). assert (En : b :: n = num_text ip (Some fr)) by (unfold num_text; rewrite <- F2; exact D2).
        assert (Hf : forall d, Some fr = Some d -> digits d) by (intros d [= <-]; exact F1).
        repeat (split; [assumption|]). pose proof (parse_float_num ip (Some fr) D1 Hne Hf) as P. rewrite <- En, Hp in P. exact P.
      * left. exists (digit_text ip), (digit_text fr), s2. rewrite D2, F2. reflexivity.
  - intros [(x & y & z & E)|(ip & fr & D1 & D2 & D3 & E & O)].
    + destruct (parse_float (b :: n)) as [f|] eqn:Ef; [|reflexivity]. exfalso.
      destruct (number_shape b n f Hb Hn Ef) as (ip & fr & E2 & D1 & D2 & D3). rewrite E in E2. clear - E2 D1 D3.
      assert (C : forall s, ~ In (z2b 46) (digit_text s) \/ ~ digits s).
      { intros s. destruct (in_dec byte_eq_dec (z2b 46) (digit_text s)) as [Hi|Hi]; [right|left; exact Hi]. intros Hd. unfold digit_text in Hi. apply in_map_iff in Hi as (d & H1 & H2).
        unfold digits in Hd. rewrite Forall_forall in Hd. specialize (Hd d H2). apply (f_equal b2z) in H1. rewrite !b2z_z2b in H1 by lia. lia. }
      assert (K : forall l : bytes, ~ In (z2b 46) l -> count_occ byte_eq_dec l (z2b 46) = 0%nat) by (intros l; apply count_occ_not_In).
      assert (C2 : (count_occ byte_eq_dec (num_text ip fr) (z2b 46) <= 1)%nat).
      { unfold num_text. rewrite count_occ_app, K by (destruct (C ip); [assumption|contradiction]). destruct fr as [d|]; [|simpl; lia].
        specialize (D3 d eq_refl). cbn [app]. rewrite count_occ_cons_eq by reflexivity. rewrite K by (destruct (C d); [assumption|contradiction]). lia. }
      rewrite <- E2, !count_occ_app in C2. change (B ".") with [z2b 46] in C2. rewrite !count_occ_cons_eq in C2 by reflexivity. lia.
    + pose proof (parse_float_num ip fr D1 D2 D3) as P. rewrite <- E in P. destruct (parse_float (b :: n)); [|reflexivity]. destruct P as [P _]. exfalso. apply (Qlt_not_le _ _ P O).
Qed.
Lemma number_or_dot n : number_chars n <-> Forall digit_or_dot n.
Proof. unfold number_chars. split; apply Forall_impl; intros b; unfold digit_or_dot, digit_char; lia. Qed.

Lemma split_text s : trivia_end s = [] \/ exists w x, s = w ++ x /\ trivia w /\ x <> [] /\ trivia_end x = x.
Proof.
  destruct (trivia_end s) as [|b y] eqn:E; [left; reflexivity|right].
  destruct (trivia_end_split s) as (w & W1 & W2); [rewrite E; discriminate|].
  exists w, (trivia_end s). rewrite E in *. repeat split; [exact W2 | exact W1 | discriminate |].
  rewrite W2 in E. rewrite trivia_end_trivia in E by exact W1. exact E.
Qed.
Lemma next_nil pd s : trivia_end s = [] -> next pd s = (LexRes EOF [] None, [], false).
Proof. intros H. unfold next. fold (trivia_end s). rewrite H. reflexivity. Qed.
Lemma kinds_plain k : In k kinds -> k <> tNumber -> k <> tDate -> forall l, nerr (LexRes k l None) = None.
Proof. intros _ H1 H2 l. apply nerr_none; assumption. Qed.
Lemma eol_rest u : exists t, u = t ++ skipComment (skipSpace u) /\ (line_gap t \/ (skipComment (skipSpace u) = [] /\ last_trivia u)).
Proof.
  destruct (skipSpace_split u) as (b & B1 & B2). destruct (skipComment (skipSpace u)) as [|x r] eqn:E.
  { exists u. rewrite app_nil_r. split; [reflexivity|]. right. split; [reflexivity|]. rewrite B2. apply last_app; [apply blanks_trivia, B1|apply (proj1 (skip_ends (skipSpace u))), E]. }
  destruct (proj1 (skip_splits (skipSpace u))) as (t & T1 & T2); [rewrite E; discriminate|]. rewrite E in T2.
  exists (b ++ t). split; [rewrite B2 at 1; rewrite T2, app_assoc; reflexivity|]. left.
  destruct T1 as [->|(l & w & L1 & L2 & ->)]; [left; rewrite app_nil_r; exact B1|]. right. exists b, l, w. repeat split; assumption.
Qed.
Lemma quoted_fault en y e s' : quote_char en -> scanString en (z2b en :: y) = (inr e, s') -> fault (z2b en :: y) e s'.
Proof.
  intros Hq H. pose proof (scanString_no_fuel en (z2b en :: y)) as F. rewrite H in F. cbn [fst] in F. unfold scanString in H.
  destruct (scan_string_fuel (S (length (z2b en :: y))) en [] (z2b en :: y)) as [[r|e'] s1] eqn:E; [discriminate|]. injection H as -> ->.
  assert (Hb : b2z (z2b en) < 128) by (rewrite b2z_z2b; unfold quote_char in Hq; lia).
  destruct (opens_sound en Hq _ _ _ _ _ E) as [(-> & -> & A)|(-> & u & A1 & A2 & A3)]; [congruence|..]; rewrite adv_ascii in * by exact Hb.
  - apply fa_eof; [exact Hq|exact A].
  - destruct (eol_rest u) as (t & T1 & T2). rewrite <- A2 in *. eapply fa_eol; [exact Hq|exact A1| |exact T1|exact T2].
    intros g z Hg Hu. apply A3. rewrite A2, Hu. change (B "|" ++ z) with (z2b 124 :: z). rewrite gap_forward by exact Hg. reflexivity.
Qed.
Lemma trivia_end_space x : x <> [] -> isSpace (cur x) = true -> trivia_end x = x -> False.
Proof.
  intros Hne Hs Hx. unfold trivia_end in Hx. rewrite skipSpace_eq, Hs in Hx.
  pose proof (suffix_length _ _ (suffix_trans _ _ _ (suffix_skipRegions (skipComment (skipSpace (adv x)))) (suffix_trans _ _ _ (suffix_skipComment (skipSpace (adv x))) (suffix_skipSpace (adv x))))) as L.
  rewrite Hx in L. pose proof (adv_length x Hne). lia.
Qed.
Lemma start_marks c : In c (map b2z (B "./;(),-+*?[]:%='<>&~#")) -> c <> 35 -> (c =? cDot) = false -> (c =? cApos) = false -> punct c = false ->
  (c =? 61) = false -> (c =? 60) = false -> (c =? 62) = false -> (c =? 38) = false -> (c =? 126) = false -> False.
Proof. intros T. vm_compute in T. unfold cDot, cApos, punct. lia. Qed.
Lemma next_fault pd s r s' pd' e : next pd s = (r, s', pd') -> nerr r = Some e ->
  exists w x, s = w ++ x /\ trivia w /\ fault x e s' /\ pd' = false.
Proof.
  intros Hn He. destruct (split_text s) as [E|(w & x & -> & Hw & Hne & Hx)].
  { rewrite next_nil in Hn by exact E. injection Hn as <- <- <-. discriminate He. }
  exists w, x. split; [reflexivity|]. split; [exact Hw|].
  rewrite next_trivia in Hn by exact Hw. clear w Hw. pose proof (first_char_cur x Hne) as Hf.
  destruct (isLetter (cur x)) eqn:EL.
  { exfalso. destruct (maximal_word x _ Hf (proj1 (isLetter_spec _) EL)) as (v & rest & -> & Hv & Hr).
    pose proof (next_word pd [] v rest tr_nil Hv Hr) as H. cbn [app] in H. rewrite H in Hn. injection Hn as <- <- <-.
    destruct (word_token_total pd v Hv) as (k' & Hk'). destruct (word_token_kind _ _ _ Hv Hk') as [K1 K2].
    assert (N : kind_of_word pd v <> tNumber /\ kind_of_word pd v <> tDate).
    { destruct Hk' as [w|w W|w u W W2|w u c W Wc W2].
      - split; discriminate.
      - rewrite unreserved_lookup by assumption. split; discriminate.
      - rewrite (reserved_lookup u tExecute) by assumption. split; discriminate.
      - rewrite (reserved_lookup u c) by assumption.
        assert (A : forallb (fun p => negb (snd p =? tNumber) && negb (snd p =? tDate)) reserved = true) by (vm_compute; reflexivity).
        rewrite forallb_forall in A. specialize (A _ W). cbn [snd] in A. rewrite andb_true_iff, !negb_true_iff in A. lia. }
    rewrite nerr_none in He by tauto. discriminate He. }
  destruct (isDigit (cur x)) eqn:ED.
  { destruct (number_runes x) as [v rest] eqn:EN. destruct (number_runes_split _ _ _ EN) as (n & -> & N1 & -> & N2).
    assert (Hc : 48 <= cur (n ++ rest) <= 57) by (unfold isDigit in ED; lia).
    destruct n as [|b n]; [cbn [app] in *; unfold isDigit in *; lia|].
    inversion N1 as [|? ? Hb Hn1]; subst. cbn [app] in *. destruct (cur_small_byte b (n ++ rest) ltac:(lia)) as [Hb1 Hb2]. rewrite Hb2 in Hc.
    pose proof (next_number pd [] b n rest tr_nil Hc Hn1 N2) as H. cbn [app] in H. rewrite H in Hn.
    assert (Hd : exists d, first_char (b :: n) d /\ digit_char d) by (exists (b2z b); split; [apply first_char_ascii; [exact Hb1|reflexivity]|exact Hc]).
    apply number_or_dot in N1. change (b :: n ++ rest) with ((b :: n) ++ rest).
    destruct (isLetter (cur rest)) eqn:EL2; injection Hn as <- <- <-.
    - rewrite nerr_eof in He. injection He as <-. split; [|reflexivity]. eapply fa_letter; [exact N1|exact Hd| |apply isLetter_spec; exact EL2].
      apply first_char_cur. intros ->. vm_compute in EL2. discriminate.
    - unfold nerr in He. cbn [lr_tok lr_lit] in He. change (tNumber =? tNumber) with true in He. cbv iota in He.
      destruct (parse_float (b :: n)) eqn:EP; [discriminate|]. injection He as <-. split; [|reflexivity]. apply fa_number; [exact N1|exact Hd| |apply num_end_cur; split; assumption].
      apply no_number_spec; assumption. }
  pose proof Hn as Hn0. unfold next in Hn. fold (trivia_end x) in Hn. rewrite Hx in Hn. cbv zeta in Hn. rewrite EL, ED in Hn.
  assert (HB : forall c, 0 <= c < 128 -> cur x = c -> exists y, x = z2b c :: y) by (intros c Hc; apply cur_b, Hc).
  destruct (cur x =? cDot) eqn:E1.
  { apply Z.eqb_eq in E1. rewrite E1 in Hn. injection Hn as <- <- <-. discriminate He. }
  destruct (cur x =? cApos) eqn:E2.
  { apply Z.eqb_eq in E2. destruct (HB 39 ltac:(lia) E2) as (y & ->). rewrite E2 in Hn.
    destruct (scanString cApos (z2b 39 :: y)) as [[lit|e'] rest] eqn:ES.
    2: { injection Hn as <- <- <-. rewrite nerr_eof in He. injection He as <-. split; [|reflexivity]. apply (quoted_fault 39); [right; reflexivity|exact ES]. }
    apply scanString_iff in ES as (v & Hv & ->); [|right; reflexivity]. rewrite adv_ascii in Hv by reflexivity.
    rewrite extractDigits_runes in Hn by (eapply str_text_valid; exact Hv).
    destruct (digit_text (digits_of v)) as [|b0 l0] eqn:EG.
    { injection Hn as <- <- <-. rewrite nerr_eof in He. injection He as <-. split; [|reflexivity]. eapply fa_no_digit; [exact Hv|].
      destruct (digits_of v); [reflexivity|discriminate EG]. }
    rewrite <- EG in Hn. injection Hn as <- <- <-.
    unfold nerr in He. cbn [lr_tok lr_lit lr_err] in He. change (tDate =? tNumber) with false in He.
    change (tDate =? tDate) with true in He. cbv iota in He. destruct (forallb _ _); [discriminate|]. destruct (parse_date _) as [d|] eqn:EP; [discriminate|]. injection He as <-.
    split; [|reflexivity]. eapply fa_no_date; [exact Hv| |].
    - intros E. rewrite E in EG. discriminate.
    - intros d Hd. rewrite (parse_date_complete _ _ Hd) in EP. discriminate. }
  destruct (punct (cur x)) eqn:E3.
  { exfalso. injection Hn as <- <- <-. rewrite nerr_none in He; [discriminate|..]; intros E; rewrite E in E3; discriminate E3. }
  destruct (cur x =? 61) eqn:E4.
  { injection Hn as <- <- <-. discriminate He. }
  destruct (cur x =? cQuote) eqn:E5.
  { apply Z.eqb_eq in E5. destruct (HB 34 ltac:(lia) E5) as (y & ->). rewrite E5 in Hn.
    destruct (scanString cQuote (z2b 34 :: y)) as [[lit|e'] rest] eqn:ES.
    - injection Hn as <- <- <-. discriminate He.
    - injection Hn as <- <- <-. rewrite nerr_eof in He. injection He as <-. split; [|reflexivity]. apply (quoted_fault 34); [left; reflexivity|exact ES]. }
  destruct (cur x =? 60) eqn:E6.
  { apply Z.eqb_eq in E6. rewrite E6 in Hn. destruct (nextLet x =? 62); [|destruct (nextLet x =? 61)]; injection Hn as <- <- <-; discriminate He. }
  destruct (cur x =? 62) eqn:E7.
  { apply Z.eqb_eq in E7. rewrite E7 in Hn. destruct (nextLet x =? 61); injection Hn as <- <- <-; discriminate He. }
  destruct (cur x =? 38) eqn:E8.
  { apply Z.eqb_eq in E8. destruct (HB 38 ltac:(lia) E8) as (y & ->). clear Hn.
    destruct (ident_runes y) as [v rest] eqn:EI. destruct (ident_runes_split _ _ _ EI) as (-> & V1 & V2).
    apply Forall_word in V1. apply word_ends_cur in V2.
    pose proof (next_directive pd [] v rest tr_nil V1 V2) as H. cbn [app] in H. change (B "&" ++ string_of_runes v ++ rest) with (z2b 38 :: string_of_runes v ++ rest) in H.
    rewrite H in Hn0. destruct (directive_lookup v V1) as [[(d & D1 & D2) E]|[ND E]]; rewrite E in Hn0; injection Hn0 as <- <- <-; [discriminate He|].
    injection He as <-. split; [|reflexivity]. apply (fa_directive v rest); assumption. }
  destruct (cur x =? 126) eqn:E9.
  { destruct (scanIdentifier (adv x)) as [lit rest]. injection Hn as <- <- <-. discriminate He. }
  destruct (cur x =? EOF) eqn:E10; [injection Hn as <- <- <-; discriminate He|]. injection Hn as <- <- <-. rewrite nerr_char in He. injection He as <-.
  split; [|reflexivity]. assert (D : decode x = (cur x, snd (decode x))) by (rewrite (surjective_pairing (decode x)) at 1; f_equal; destruct x; [congruence|reflexivity]).
  apply (fa_char x (cur x) (snd (decode x))); [exact Hne|exact D|].
  intros T. unfold LexSpec.token_start in T. destruct T as [T|[T|[T|[T|T]]]].
  - apply isLetter_spec in T. congruence.
  - apply isDigit_spec in T. congruence.
  - assert (Hset : cur x <> 35 /\ ~ (cur x = 47 /\ nextLet x = 47)).
    { destruct (settles (skipComment (skipSpace x))) as [[S1 S2] _]. fold (trivia_end x) in S1, S2. rewrite Hx in S1, S2. split; [exact S1|exact S2]. }
    destruct Hset as [S1 _]. apply (start_marks (cur x) T S1 E1 E2 E3 E4 E6 E7 E8 E9).
  - unfold cQuote in E5. lia.
  - apply isSpace_spec in T. exact (trivia_end_space x Hne T Hx).
Qed.
Lemma letter_not_digit c : isLetter c = true -> isDigit c || (c =? cDot) = false.
Proof.
  intros H. destruct (isDigit c || (c =? cDot)) eqn:E; [|reflexivity]. exfalso.
  assert (c = 46 \/ c = 48 \/ c = 49 \/ c = 50 \/ c = 51 \/ c = 52 \/ c = 53 \/ c = 54 \/ c = 55 \/ c = 56 \/ c = 57) as D by (unfold isDigit, cDot in E; lia).
  repeat (destruct D as [->|D]; [vm_compute in H; discriminate|]). subst c. vm_compute in H. discriminate.
Qed.
Lemma next_quoted pd w en s e s' : quote_char en -> trivia w -> scanString en (z2b en :: s) = (inr e, s') ->
  next pd (w ++ z2b en :: s) = (LexRes EOF [] (Some e), s', false).
Proof.
  intros Hq Hw H. unfold next. fold (trivia_end (w ++ z2b en :: s)).
  destruct Hq as [-> | ->]; rewrite next_at by (try assumption; try lia; reflexivity); cbv zeta; rewrite cur_ascii by reflexivity.
  - change (b2z (z2b 34)) with 34. change (isLetter 34) with false. change (34 =? cDot) with false. change (isDigit 34) with false. change (34 =? cApos) with false.
    change (punct 34) with false. change (34 =? 61) with false. change (34 =? cQuote) with true. cbv iota. rewrite H. reflexivity.
  - change (b2z (z2b 39)) with 39. change (isLetter 39) with false. change (39 =? cDot) with false. change (isDigit 39) with false. change (39 =? cApos) with true.
    cbv iota. rewrite H. reflexivity.
Qed.
Lemma fault_next pd w x e rest : trivia w -> fault x e rest -> exists r s', next pd (w ++ x) = (r, s', false) /\ nerr r = Some e.
Proof.
  intros Hw H. destruct H as [en s Hq H|en s u t rest Hq H Hu Et Ht|s v rest Hs Hd|s v rest Hs Hd Hn|n rest c Hn Hd Hc Hl|n rest Hn Hd Hb Hr|v rest Hv Hr Hd|x c k Hx Hc Hn].
  - eexists. eexists. split; [apply (next_quoted pd w en s LEof []); [exact Hq|exact Hw|apply opens_eof; [exact Hq|exact H]]|reflexivity].
  - eexists. eexists. split; [apply (next_quoted pd w en s LEol _ Hq Hw); apply (opens_eol en s u Hq H Hu)|reflexivity].
  - pose proof (next_date pd w s v rest Hw Hs) as E. rewrite Hd in E. eexists. eexists. split; [exact E|reflexivity].
  - pose proof (next_date pd w s v rest Hw Hs) as E. destruct (digits_of v) as [|d0 ds] eqn:Ed; [congruence|]. eexists. eexists. split; [exact E|].
    unfold nerr. cbn [lr_tok lr_lit lr_err]. change (tDate =? tNumber) with false. change (tDate =? tDate) with true. cbv iota.
    destruct (parse_date (digit_text (d0 :: ds))) as [d|] eqn:Ep.
    { exfalso. apply (Hn d). apply parse_date_sound; [rewrite <- Ed; apply digits_of_digits|discriminate|exact Ep]. }
    destruct (forallb _ _) eqn:Ez; [|reflexivity]. unfold parse_date in Ep. rewrite Ez in Ep. discriminate Ep.
  - apply number_or_dot in Hn. destruct n as [|b n]; [destruct Hd as (d & [Hd _] & _); congruence|].
    destruct Hd as (d & [_ Hd] & Hdd). inversion Hn as [|? ? Hb Hn1]; subst. unfold digit_char in Hdd.
    assert (Hb2 : b2z b < 128) by lia. assert (Hc1 : 48 <= b2z b <= 57).
    { assert (cur (b :: n) = b2z b) by (apply cur_ascii, Hb2). unfold cur in H. lia. }
    assert (Hcr : cur rest = c) by (apply cur_first; [|exact Hc]; destruct Hc as [_ Hc]; rewrite <- Hc; apply decode_nonneg).
    apply isLetter_spec in Hl. 
    assert (Hr : isDigit (cur rest) || (cur rest =? cDot) = false) by (rewrite Hcr; apply letter_not_digit, Hl).
    pose proof (next_number pd w b n rest Hw Hc1 Hn1 Hr) as E. rewrite Hcr, Hl in E. eexists. eexists. split; [exact E|reflexivity].
  - apply number_or_dot in Hn. destruct n as [|b n]; [destruct Hd as (d & [Hd _] & _); congruence|].
    destruct Hd as (d & [_ Hd] & Hdd). inversion Hn as [|? ? Hb2 Hn1]; subst. unfold digit_char in Hdd.
    assert (Hb3 : b2z b < 128) by lia. assert (Hc1 : 48 <= b2z b <= 57).
    { assert (cur (b :: n) = b2z b) by (apply cur_ascii, Hb3). unfold cur in H. lia. }
    apply num_end_cur in Hr as [R1 R2]. pose proof (next_number pd w b n rest Hw Hc1 Hn1 R1) as E. rewrite R2 in E. eexists. eexists. split; [exact E|].
    unfold nerr. cbn [lr_tok lr_lit]. change (tNumber =? tNumber) with true. cbv iota. rewrite (proj2 (no_number_spec b n Hc1 Hn1) Hb). reflexivity.
  - pose proof (next_directive pd w v rest Hw Hv Hr) as H. destruct (directive_lookup v Hv) as [[(d & D1 & D2) E]|[ND E]]; [exfalso; apply (Hd d D1 D2)|].
    rewrite E in H. eexists. eexists. split; [exact H|reflexivity].
  - destruct (next_unknown pd w x c Hw) as (s' & E); [split; [exact Hx|rewrite Hc; reflexivity]|exact Hn|]. eexists. eexists. split; [exact E|]. apply nerr_char.
Qed.

(** Texts with a fault start with no token, and have no other fault. *)
Lemma fault_no_token dot x e rest k rest' : fault x e rest -> ~ one_token dot x k rest'.
Proof.
  intros H H2. destruct (fault_next dot [] x e rest tr_nil H) as (r & s' & E & N). destruct (one_next dot [] x k rest' tr_nil H2) as (r2 & E2 & N2 & _ & N3).
  rewrite E in E2. injection E2 as <- <- _. unfold nerr in N. unfold tk_res in N3. cbv zeta in N3. rewrite N2 in N. destruct (lr_tok r =? tNumber).
  { destruct (parse_float (lr_lit r)); discriminate. }
  destruct (lr_tok r =? tString) eqn:Es.
  { apply Z.eqb_eq in Es. rewrite Es in N. discriminate N. }
  destruct (lr_tok r =? tDate); [|discriminate]. destruct (forallb _ _); [discriminate|]. destruct (parse_date (lr_lit r)); discriminate.
Qed.
Lemma fault_det x e rest e' rest' : fault x e rest -> fault x e' rest' -> e = e'.
Proof.
  intros H H2. destruct (fault_next false [] x e rest tr_nil H) as (r & s' & E & N). destruct (fault_next false [] x e' rest' tr_nil H2) as (r2 & s2 & E2 & N2). congruence.
Qed.
(** One call of Next. *)
Lemma Next_fault code t k t' e : Next code t = (k, t', Some e) ->
  exists w x, rest_of code t = w ++ x /\ trivia w /\ fault x e (rest_of code t') /\ tk_prevDot t' = false.
Proof. intros H. destruct (Next_nerr _ _ _ _ _ H) as (r & N1 & N2 & N3). eapply next_fault; [exact N1|auto]. Qed.
Lemma fault_Next code t w x e rest : rest_of code t = w ++ x -> trivia w -> fault x e rest -> exists k t', Next code t = (k, t', Some e).
Proof.
  intros Hr Hw Hf. destruct (fault_next (tk_prevDot t) w x e rest Hw Hf) as (r & s' & E & N). destruct (Next code t) as [[k t'] e'] eqn:EN.
  destruct (Next_nerr _ _ _ _ _ EN) as (r2 & N1 & N2 & _). rewrite Hr, E in N1. injection N1 as <- _ _. exists k, t'. congruence.
Qed.

(** * Whole texts *)
Lemma nerr_token r k : lr_err r = None -> tk_res r = Some k -> nerr r = None.
Proof.
  intros N2 N3. unfold nerr. unfold tk_res in N3. cbv zeta in N3. rewrite N2. destruct (lr_tok r =? tNumber).
  { destruct (parse_float (lr_lit r)); [reflexivity|discriminate]. }
  destruct (lr_tok r =? tString) eqn:Es.
  { apply Z.eqb_eq in Es. rewrite Es. reflexivity. }
  destruct (lr_tok r =? tDate); [|reflexivity]. destruct (forallb _ _); [reflexivity|]. destruct (parse_date (lr_lit r)); [reflexivity|discriminate].
Qed.
Lemma token_or_fault dot s : last_trivia s \/ exists w x, s = w ++ x /\ trivia w /\
  ((exists k rest, one_token dot x k rest /\ (length rest < length s)%nat) \/ (exists e rest, fault x e rest)).
Proof.
  destruct (next dot s) as [[r s'] pd'] eqn:E. destruct (nerr r) as [e|] eqn:N.
  { right. destruct (next_fault _ _ _ _ _ _ E N) as (w & x & H1 & H2 & H3 & _). exists w, x. eauto 8. }
  destruct (split_text s) as [T|(w & x & -> & Hw & Hne & Hx)]; [left; apply trivia_end_nil, T|]. right.
  destruct (next_progress _ _ _ _ _ E) as [_ P].
  assert (Ne : lr_err r = None).
  { destruct (lr_err r) as [e|] eqn:Ee; [|reflexivity]. exfalso. destruct (next_error_lit _ _ _ _ _ _ E Ee) as [F|F]; unfold nerr in N; rewrite Ee in N.
    - rewrite F in N. discriminate N.
    - destruct (lr_tok r =? tNumber) eqn:E1; [apply Z.eqb_eq in E1; rewrite F, E1 in N; vm_compute in N; discriminate|].
      destruct (lr_tok r =? tDate) eqn:E2; [apply Z.eqb_eq in E2; rewrite F, E2 in N; vm_compute in N; discriminate|]. discriminate N. }
  destruct P as [(_ & _ & _ & T)|P]; [rewrite trivia_end_trivia, Hx in T by exact Hw; congruence|].
  assert (Nk : lr_tok r <> EOF).
  { intros F. pose proof (next_eof _ _ _ _ _ E F Ne) as T. rewrite trivia_end_trivia, Hx in T by exact Hw. congruence. }
  assert (Hk : exists k, tk_res r = Some k).
  { unfold nerr in N. unfold tk_res. cbv zeta. rewrite Ne in N. destruct (lr_tok r =? tNumber); [destruct (parse_float (lr_lit r)); [eauto|discriminate]|].
    destruct (lr_tok r =? tString); [eauto|]. destruct (lr_tok r =? tDate).
    { destruct (parse_date (lr_lit r)) eqn:Ep; [eauto|]. destruct (forallb _ _) eqn:Ez; [unfold parse_date in Ep; rewrite Ez in Ep|]; discriminate. }
    repeat match goal with |- context [if ?b then _ else _] => destruct b end; eauto. }
  destruct Hk as (k & Hk). destruct (next_one _ _ _ _ _ _ E Ne Nk Hk) as (w2 & x2 & E2 & Hw2 & Hx2 & _). exists w2, x2. rewrite E2 in P |- *. eauto 10.
Qed.
Lemma starts_no_text d s l d' s' : starts d s l d' s' -> forall w x e rest, s' = w ++ x -> trivia w -> fault x e rest -> forall l', ~ text_of d s l'.
Proof.
  induction 1 as [d s|d v y k r l d' s' Hv Hy H IH]; intros w x e rest E Hw Hx l' Hl'.
  - subst s. destruct (fault_next d w x e rest Hw Hx) as (r & s' & E & N). inversion Hl' as [? u Hu|? u y k r2 l2 Hu Hy Hl2 E2]; subst.
    + rewrite next_nil in E by (apply trivia_end_last, Hu). injection E as <- _. discriminate N.
    + destruct (one_next _ _ _ _ _ Hu Hy) as (r3 & E3 & N3 & _ & N4). match goal with E2 : u ++ y = w ++ x |- _ => rewrite E2, E in E3 end.
      injection E3 as <- _ _. rewrite (nerr_token _ _ N3 N4) in N. discriminate N.
  - destruct (one_next _ _ _ _ _ Hv Hy) as (r3 & E3 & N3 & N4 & N5). inversion Hl' as [? u Hu|? u y2 k2 r2 l2 Hu Hy2 Hl2 E2]; subst.
    + rewrite next_nil in E3 by (apply trivia_end_last, Hu). injection E3 as <- _ _. apply N4. reflexivity.
    + destruct (one_next _ _ _ _ _ Hu Hy2) as (r4 & E4 & M3 & M4 & M5). match goal with E2 : u ++ y2 = v ++ y |- _ => rewrite E2, E3 in E4 end.
      injection E4 as <- <- Eb. assert (k2 = k) as -> by congruence. eapply IH; [reflexivity|exact Hw|exact Hx|exact Hl2].
Qed.
Lemma text_or_fault (s : bytes) : forall dot, (exists l, text_of dot s l) \/ exists l dot' w x e rest, starts dot s l dot' (w ++ x) /\ trivia w /\ fault x e rest /\ exists u, s = u ++ x.
Proof.
  induction s as [s IH] using bytes_ind. intros dot. destruct (token_or_fault dot s) as [H|(w & x & -> & Hw & [(k & rest & Hx & Hl)|(e & rest & Hx)])].
  - left. exists []. apply to_end, H.
  - destruct (IH rest Hl (behind dot k)) as [(l & H)|(l & dot' & w' & x' & e & rest' & H1 & H2 & H3 & u & H4)].
    + left. exists (k :: l). eapply to_token; eassumption.
    + right. exists (k :: l), dot', w', x', e, rest'. split; [eapply st_token; eassumption|]. split; [exact H2|]. split; [exact H3|].
      destruct (one_next _ _ _ _ _ Hw Hx) as (r & E & _). destruct (next_progress _ _ _ _ _ E) as [[q Q] _]. exists (q ++ u). rewrite Q, H4, app_assoc. reflexivity.
  - right. exists [], dot, w, x, e, rest. split; [constructor|]. split; [exact Hw|]. split; [exact Hx|]. exists w. reflexivity.
Qed.
Lemma fault_start x e rest : fault x e rest -> trivia_end x = x.
Proof.
  intros H. destruct (split_text x) as [T|(w & y & E & Hw & Hne & Hy)].
  { destruct (fault_next false [] x e rest tr_nil H) as (r & s' & N1 & N2). cbn [app] in N1. rewrite next_nil in N1 by exact T. injection N1 as <- _. discriminate N2. }
  destruct H as [en s Hq H|en s u t rest Hq H Hu Et Ht|s v rest Hs Hd|s v rest Hs Hd Hn|n rest c Hn Hd Hc Hl|n rest Hn Hd Hb Hr|v rest Hv Hr Hd|x c k Hx Hc Hn].
  1, 2: destruct Hq as [-> | ->]; apply trivia_end_ascii; (lia || discriminate || reflexivity).
  1, 2: apply trivia_end_ascii; (lia || discriminate || reflexivity).
  1, 2: destruct n as [|b n]; [destruct Hd as (d & [Hd _] & _); congruence|]; destruct Hd as (d & [_ Hd] & Hdd); inversion Hn as [|? ? Hb2 Hn1]; subst;
    unfold digit_or_dot, digit_char in *; assert (Hb3 : b2z b < 128) by lia; assert (Hc1 : 48 <= b2z b <= 57) by (assert (C : cur (b :: n) = b2z b) by (apply cur_ascii, Hb3); unfold cur in C; lia);
    cbn [app]; rewrite <- (z2b_b2z b); apply trivia_end_ascii; unfold isSpace; lia.
  - apply (trivia_end_ascii 38); (lia || discriminate || reflexivity).
  - assert (C : cur x = c) by (destruct x; [congruence|]; unfold cur; rewrite Hc; reflexivity).
    apply (trivia_end_start [] x tr_nil); rewrite C.
    + intros ->. apply Hn. right. right. left. vm_compute. tauto.
    + intros ->. apply Hn. right. right. left. vm_compute. tauto.
    + apply not_true_is_false. intros E2. apply Hn. do 4 right. apply isSpace_spec, E2.
Qed.
