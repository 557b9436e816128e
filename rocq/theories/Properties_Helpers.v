(** C55-C57: the exported helpers. *)
From Verif Require Import Bytes Utf8 Float64 GoTime Ast Lexer LexFacts Utf8Facts LexSpec LexTrivia NumSpec Tok Lexical Syntax Parser
  Regroup Legal Properties_Parser Properties_Tree BackModule Properties_Legal Scanned Properties_Scan Helpers.
Open Scope Z_scope.

(** * C55 IsMethod tells whether a dotted name ends in a call *)
Fixpoint dots (d : bool) (l : list tk) : bool := match l with [] => d | k :: l' => dots (behind d k) l' end.
Lemma text_behind d s l1 l2 : text_of d s (l1 ++ l2) -> exists s', text_of (dots d l1) s' l2.
Proof.
  revert d s. induction l1 as [|k l1 IH]; intros d s H; [exists s; exact H|]. cbn [app dots] in *. inversion H; subst. eapply IH. eassumption.
Qed.
Lemma dots_last d l k : dots d (l ++ [k]) = behind (dots d l) k.
Proof. revert d. induction l as [|x l IH]; intros d; [reflexivity|]. apply IH. Qed.
(** No name ends with a dot. *)
Lemma ident_last i : exists l k, toks_ident i = l ++ [k] /\ k <> Pct ".".
Proof.
  destruct i as [n|n a|i e|w s|w n|w e]; cbn [toks_ident].
  - exists [], (KId n). split; [reflexivity|discriminate].
  - exists (KId n :: Pct "(" :: toks_args a), (Pct ")"). split; [reflexivity|discriminate].
  - exists (toks_ident i ++ Pct "[" :: toks_expr e), (Pct "]"). split; [rewrite <- app_assoc; reflexivity|discriminate].
  - exists [KExec w], (KStr s). split; [reflexivity|discriminate].
  - exists [KExec w], (KId n). split; [reflexivity|discriminate].
  - exists (KExec w :: Pct "(" :: toks_expr e), (Pct ")"). split; [reflexivity|discriminate].
Qed.
Lemma path_last p : exists l k, toks_path p = l ++ [k] /\ k <> Pct ".".
Proof.
  destruct p as [i|p i]; cbn [toks_path]; destruct (ident_last i) as (l & k & -> & H).
  - eauto.
  - exists (toks_path p ++ Pct "." :: l), k. split; [rewrite <- app_assoc; reflexivity|exact H].
Qed.
Lemma behind_other d k : k <> Pct "." -> behind d k = false.
Proof.
  intros H. destruct k as [z| | | | | | |]; try reflexivity. cbn [behind]. destruct (Z.eq_dec z 46) as [->|N]; [destruct H; reflexivity|].
  destruct z as [|q|q]; try reflexivity. do 6 (destruct q as [q|q|]; try reflexivity). destruct N. reflexivity.
Qed.
(** Behind the dot of a dotted name there is no reserved word. *)
Lemma no_exec code p w l : ~ text_of false code (toks_path p ++ Pct "." :: KExec w :: l).
Proof.
  intros H. change (toks_path p ++ Pct "." :: KExec w :: l) with (toks_path p ++ [Pct "."] ++ KExec w :: l) in H. rewrite app_assoc in H.
  apply text_behind in H as (s' & H). rewrite dots_last in H. destruct (path_last p) as (q & k & E & Hk). rewrite E, dots_last, (behind_other _ k Hk) in H.
  change (behind false (Pct ".")) with true in H. inversion H as [|? ? ? ? ? ? _ Ho _]; subst. inversion Ho as [? ? ? _ _ Hw| | | | | | | | | | | | |]; subst. inversion Hw.
Qed.
(** For every dotted name: the text is accepted, its tree is one call chain, and IsMethod of
    it is true exactly if the text ends with a closing parenthesis. *)
Theorem C55_method : forall code p i, text_of false code (toks_path (PDot p i)) ->
  exists m s b, accepted code m /\ m_body m = Some [s] /\ IsMethod s = Some b /\
    (b = true <-> exists l, toks_path (PDot p i) = l ++ [Pct ")"]).
Proof.
  intros code p i H. pose proof (proj2 (tokens_text _ _) H) as Ht.
  set (q := Program INil (BOne (CExpr (EPath (PDot p i))))).
  assert (Hw : ~ all_white code).
  { apply (tokens_not_white _ _ Ht). cbn [toks_path]. intros E. apply app_eq_nil in E as [_ E]. discriminate E. }
  destruct (C42_accepted code q Hw Ht) as (m & Hm & E).
  1, 2: reflexivity.
  { unfold legal. repeat split; constructor. }
  specialize (E eq_refl). exists m, (mean_path (regroup_path (PDot p i))).
  assert (K : (exists l, toks_path (PDot p i) = l ++ [Pct ")"]) <-> exists n a, i = ICall n a).
  { cbn [toks_path]. split.
    - intros (l & El). destruct i as [n|n a|i e|w s|w n|w e].
      + exfalso. change (toks_path p ++ Pct "." :: toks_ident (IVar n)) with (toks_path p ++ [Pct "."] ++ [KId n]) in El.
        rewrite app_assoc in El. apply app_inj_tail in El as [_ El]. discriminate El.
      + eauto.
      + exfalso. cbn [toks_ident] in El. rewrite !app_comm_cons, !app_assoc in El. apply app_inj_tail in El as [_ El]. discriminate El.
      + destruct (no_exec code p w _ H).
      + destruct (no_exec code p w _ H).
      + destruct (no_exec code p w _ H).
    - intros (n & a & ->). cbn [toks_ident]. rewrite !app_comm_cons, !app_assoc. eexists. reflexivity. }
  destruct i as [n|n a|i e|w s|w n|w e].
  4-6: exfalso; eapply no_exec; exact H.
  - exists false. rewrite E. split; [rewrite <- E; exact Hm|]. split; [reflexivity|]. split; [reflexivity|]. split; [discriminate|]. intros N. apply K in N as (? & ? & N). discriminate N.
  - exists true. rewrite E. split; [rewrite <- E; exact Hm|]. split; [reflexivity|]. split; [reflexivity|]. split; [|reflexivity]. intros _. apply K. eauto.
  - exists false. rewrite E. split; [rewrite <- E; exact Hm|]. split; [reflexivity|]. split; [reflexivity|]. split; [discriminate|]. intros N. apply K in N as (? & ? & N). discriminate N.
Qed.
Example C55_example : exists p i, text_of false (B "Блокировка.Данные[1].Заблокировать(а, б)") (toks_path (PDot p i)).
Proof.
  exists (PDot (PId (IVar (B "Блокировка"))) (IIndex (IVar (B "Данные")) (ENum (F64 false 4503599627370496 (-52))))),
    (ICall (B "Заблокировать") (AMore (AOne (OSome (EPath (PId (IVar (B "а")))))) (OSome (EPath (PId (IVar (B "б"))))))).
  apply tokens_text. replace (toks_path _) with (toks_of (B "Блокировка.Данные[1].Заблокировать(а, б)")) by (vm_compute; reflexivity). tokenized.
Qed.

(** * C56 The two lower-casing functions agree on UTF-8 texts, and only there *)
(** [utf8 s]: the bytes are the UTF-8 text of some characters. *)
Definition utf8 (s : bytes) : Prop := exists rs, forallb valid_rune rs = true /\ s = string_of_runes rs.

Lemma old_runes s : fastToLower_old s = string_of_runes (map lower_rune (runes s)).
Proof.
  unfold fastToLower_old. f_equal. apply map_ext. intros r. unfold lower_rune.
  destruct ((65 <=? r) && (r <=? 90)), ((1040 <=? r) && (r <=? 1071)); reflexivity.
Qed.
Lemma decode_len s : s <> [] -> (1 <= snd (decode s) <= length s)%nat.
Proof.
  intros Hs. pose proof (adv_length s Hs) as H. unfold adv in H. rewrite skipn_length in H. split; [lia|].
  destruct (decode_shape s Hs) as [E|[_ E]].
  - rewrite E. cbn [snd]. destruct s; [congruence|cbn [length]; lia].
  - destruct (le_lt_dec (snd (decode s)) (length s)) as [L|L]; [exact L|]. exfalso. rewrite firstn_all2 in E by lia.
    pose proof (decode_encode (fst (decode s)) []) as D. rewrite app_nil_r, E in D. destruct (decode_shape s Hs) as [E'|[V _]].
    + rewrite E' in L. cbn in L. destruct s; [congruence|cbn [length] in L; lia].
    + rewrite D in L by exact V. cbn [snd] in L. lia.
Qed.
Lemma lower_valid r : valid_rune r = true -> valid_rune (lower_rune r) = true.
Proof.
  unfold valid_rune, lower_rune. intros H. destruct ((65 <=? r) && (r <=? 90)) eqn:E1; [lia|].
  destruct ((1040 <=? r) && (r <=? 1071)) eqn:E2; [lia|]. destruct (r =? 1025) eqn:E3; lia.
Qed.
Lemma lower_size r : length (encode (lower_rune r)) = length (encode r).
Proof.
  unfold lower_rune. destruct ((65 <=? r) && (r <=? 90)) eqn:E1.
  { unfold encode. replace (valid_rune r) with true by (unfold valid_rune; lia). replace (valid_rune (r + 32)) with true by (unfold valid_rune; lia).
    replace (r <? 128) with true by lia. replace (r + 32 <? 128) with true by lia. reflexivity. }
  destruct ((1040 <=? r) && (r <=? 1071)) eqn:E2.
  { unfold encode. replace (valid_rune r) with true by (unfold valid_rune; lia). replace (valid_rune (r + 32)) with true by (unfold valid_rune; lia).
    replace (r <? 128) with false by lia. replace (r + 32 <? 128) with false by lia.
    replace (r <? 2048) with true by lia. replace (r + 32 <? 2048) with true by lia. reflexivity. }
  destruct (r =? 1025) eqn:E3; [|reflexivity]. apply Z.eqb_eq in E3. subst r. reflexivity.
Qed.
(** The text written is at least as long, and longer if a byte does not belong to a character. *)
Lemma old_length s : (length s <= length (fastToLower_old s))%nat /\ (length s = length (fastToLower_old s) -> utf8 s).
Proof.
  rewrite old_runes. remember (length s) as n. revert s Heqn. induction n as [n IH] using lt_wf_ind. intros s ->.
  destruct s as [|b s]; [split; [cbn; lia|intros _; exists []; auto]|].
  assert (Hs : b :: s <> []) by congruence. pose proof (adv_length _ Hs) as Ha. destruct (IH _ Ha _ eq_refl) as [I1 I2].
  rewrite runes_eq. cbn [map string_of_runes flat_map]. fold (string_of_runes (map lower_rune (runes (adv (b :: s))))).
  rewrite app_length, lower_size. pose proof (decode_len _ Hs) as Hd.
  assert (El : length (b :: s) = (snd (decode (b :: s)) + length (adv (b :: s)))%nat) by (unfold adv; rewrite skipn_length; lia).
  unfold cur. destruct (decode_shape _ Hs) as [E|[V E]].
  - rewrite E in *. cbn [fst snd] in *. change (length (encode RuneError)) with 3%nat. rewrite El. split; [lia|intros; lia].
  - rewrite E. rewrite firstn_length_le by lia. rewrite El. split; [lia|]. intros L. destruct I2 as (rs & R1 & R2); [lia|].
    exists (fst (decode (b :: s)) :: rs). split; [cbn [forallb]; rewrite V, R1; reflexivity|].
    cbn [string_of_runes flat_map]. fold (string_of_runes rs). rewrite E, <- R2. unfold adv. symmetry. apply firstn_skipn.
Qed.
Theorem C56_agree : forall s, fastToLower_old s = fastToLower s <-> utf8 s.
Proof.
  intros s. split.
  - intros E. apply old_length. rewrite E. symmetry. apply lower_length.
  - intros (rs & Hv & ->). rewrite old_runes, lower_runes, runes_string by exact Hv. reflexivity.
Qed.
Example C56_example : fastToLower_old (B "ЁЖ Ik9 Я") = B "ёж ik9 я" /\ utf8 (B "ЁЖ Ik9 Я") /\ fastToLower_old [xff] <> fastToLower [xff].
Proof.
  split; [vm_compute; reflexivity|]. split; [|vm_compute; discriminate].
  exists (runes (B "ЁЖ Ik9 Я")). vm_compute. auto.
Qed.

(** * C57 IsDigit is true exactly for texts of ASCII digits *)
Theorem C57_digits : forall s, IsDigit s = true <-> Forall (fun b => 48 <= b2z b <= 57) s.
Proof.
  intros s. unfold IsDigit. split.
  - remember (length s) as n. revert s Heqn. induction n as [n IH] using lt_wf_ind. intros s ->. destruct s as [|b s]; [constructor|].
    assert (Hs : b :: s <> []) by congruence. rewrite runes_eq. cbn [forallb]. rewrite andb_true_iff. intros [H1 H2].
    specialize (IH _ (adv_length _ Hs) _ eq_refl H2). apply negb_true_iff in H1. unfold cur in H1.
    destruct (decode_shape _ Hs) as [E|[V E]]; [rewrite E in H1; discriminate H1|].
    unfold encode in E. rewrite V in E. remember (fst (decode (b :: s))) as r eqn:Er. clear Er. replace (r <? 128) with true in E by lia.
    pose proof (decode_len _ Hs) as L. unfold adv in IH. destruct (snd (decode (b :: s))) as [|k]; [lia|]. cbn [firstn] in E. injection E as E1 E2.
    destruct (firstn k s) eqn:F; [|discriminate E2]. constructor.
    + assert (R : 48 <= r <= 57) by (clear - H1; lia). rewrite <- E1, b2z_z2b by lia. exact R.
    + rewrite <- (firstn_skipn k s), F. exact IH.
  - induction s as [|b s IH]; intros H; [reflexivity|]. apply Forall_cons_iff in H as [H1 H2]. specialize (IH H2).
    rewrite runes_eq. unfold cur, adv, decode. replace (b2z b <? 128) with true by lia. cbn [fst snd skipn forallb].
    rewrite IH. rewrite andb_true_r. apply negb_true_iff. lia.
Qed.
Example C57_example : IsDigit (B "0123456789") = true /\ IsDigit [] = true /\ IsDigit (B "١") = false /\ IsDigit (B "1.5") = false.
Proof. vm_compute. auto. Qed.

Print Assumptions C55_method. Print Assumptions C56_agree. Print Assumptions C57_digits.
