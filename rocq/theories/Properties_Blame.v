(** Errors are about the right token, at its place (C46, C47).  Specification: Where.v
    (places, the first wrong token), Grammar.v, Lexical.v; proofs: Viable.v, Blame.v,
    Told.v, Stuck.v, Placed.v. *)
From Verif Require Import Bytes Utf8 Float64 GoTime Ast Lexer LexFacts LexSpec LexProofs NumSpec Tables Parser Grammar Tok CertData Cert
  Driver DriverInv Trees Properties_Parser Syntax Rules Declared RulesFacts CleanFacts DeclaredFacts Order OrderFacts CstTrees CstEval CstModule Properties_Tree
  Machine Levels Bind BindCst Items Complete TightOk CstInj CstWf Regroup Properties_Signs Properties_Bind Legal Panics Accept Properties_Legal
  LexTrivia LexTokens Writes Lexical Scanned ViableData Viable Stuck Blame Told Where Placed.
Open Scope Z_scope.

Definition syntax_at (code : bytes) (line col : Z) (lit : bytes) : Prop :=
  exists a', parse code = Some (Ok (a', Some (EParse MSyntax line col lit))).

Lemma can_begin_read st pre : mwf st -> flat_map yield (map snd (rev st)) = pre -> can_begin pre.
Proof.
  intros Hw E. destruct (viable st Hw) as (z & Hz & Hd). exists (map canon z). unfold sentence, unsigned. rewrite map_app, canon_kinds. split.
  - unfold read in Hd. rewrite E in Hd. exact Hd.
  - intros Hu. apply unsigned_more; [rewrite canon_kinds; exact Hz|exact Hu].
Qed.
Lemma blamed_of code l line col lit : tokens code l -> ~ all_white code -> syntax_at code line col lit ->
  exists raw pre k t post, lexes code zero_token raw /\ l = tks raw /\ raw = pre ++ (k, t) :: post /\ EParse MSyntax line col lit = loc code t MSyntax /\
    blamed l (tks pre) (tk_of k t).
Proof.
  intros (raw & Hl & ->) Hw (a' & Hp). destruct (syntax_error _ _ _ _ _ _ (blank_not_white _ Hw) Hl Hp) as (st & pre & post & G1 & G2 & -> & G3 & G4 & k & t & G5 & G6).
  assert (Hwf : Forall tk_wf (tks (pre ++ post))) by (apply (tokens_wf code); exists (pre ++ post); auto).
  pose proof (can_begin_read _ _ G3 G4) as Hb. fold (tks (pre ++ post)). exists (pre ++ post).
  destruct post as [|x post].
  - destruct G5 as (pre' & ->). exists pre', k, t, []. rewrite app_nil_r in *. split; [exact Hl|]. split; [reflexivity|]. split; [reflexivity|]. split; [exact G6|]. right.
    split; [unfold tks; rewrite map_app; reflexivity|]. split; [exact Hb|]. intros [Hs Hu]. destruct (sentence_accepted _ Hs Hu Hwf) as (T & HT).
    exact (stuck _ _ _ _ G1 G2 HT).
  - subst x. exists pre, k, t, post. split; [exact Hl|]. split; [reflexivity|]. split; [reflexivity|]. split; [exact G6|]. left.
    exists (tks post). unfold tks in *. rewrite map_app in *. cbn [map fst snd] in *. split; [reflexivity|]. split; [exact Hb|]. intros r Hs Hu.
    unfold sentence, unsigned in *. rewrite <- app_assoc in Hs, Hu. cbn [app] in Hs, Hu. refine (no_further _ _ _ _ r _ G1 G2 Hs Hu).
    change (tk_of k t :: ?y) with ([tk_of k t] ++ y) in Hwf. rewrite app_assoc in Hwf. apply Forall_app in Hwf as [Hwf _]. exact Hwf.
Qed.

Lemma split_cases {A} (a : list A) : forall x b a' x' b', a ++ x :: b = a' ++ x' :: b' ->
  (a = a' /\ x = x') \/ (exists c, a' = (a ++ [x]) ++ c) \/ (exists c, a = (a' ++ [x']) ++ c).
Proof.
  induction a as [|y a IH]; intros x b [|y' a'] x' b' H; cbn [app] in *.
  - injection H as -> _. auto.
  - injection H as -> _. right. left. exists a'. reflexivity.
  - injection H as -> _. right. right. exists a. reflexivity.
  - injection H as -> H. destruct (IH _ _ _ _ _ H) as [[-> ->]|[(c & ->)|(c & ->)]]; eauto.
Qed.
(** * C46 A syntax error is about the first token that cannot be right *)
(** What stands before the token can still become a sentence of the grammar; together
    with the token it cannot. *)
Theorem C46_first : forall code l line col lit, tokens code l -> ~ all_white code -> syntax_at code line col lit -> exists pre k, blamed l pre k.
Proof. intros code l line col lit Ht Hw Hs. destruct (blamed_of _ _ _ _ _ Ht Hw Hs) as (raw & pre & k & t & post & _ & _ & _ & _ & H). eauto. Qed.
(** There is only one such token (if no default value is signed). *)
Theorem C46_unique : forall l pre k pre' k', unsigned l -> blamed l pre k -> blamed l pre' k' -> pre = pre' /\ k = k'.
Proof.
  assert (P : forall u v, unsigned (u ++ v) -> unsigned u).
  { unfold unsigned. intros u v. generalize false. induction u as [|t u IH]; intros h H; [reflexivity|]. cbn [app unsigned_toks] in *.
    repeat match goal with |- context [if ?c then _ else _] => destruct c end; eauto. }
  assert (X : forall u v w, unsigned (u ++ v ++ w) -> can_begin (u ++ v) -> cannot_begin u -> False).
  { intros u v w Hu (r & R1 & R2) Hc. rewrite app_assoc in Hu. specialize (R2 (P _ _ Hu)). rewrite <- app_assoc in R1, R2. exact (Hc _ R1 R2). }
  intros l pre k pre' k' Hu [(post & E & B1 & B2)|(E & B1 & B2)] [(post' & E' & B1' & B2')|(E' & B1' & B2')].
  - rewrite E' in E. destruct (split_cases _ _ _ _ _ _ E) as [[-> ->]|[(c & ->)|(c & ->)]]; [auto| |]; exfalso.
    + apply (X (pre' ++ [k']) c (k :: post)); [rewrite E', E in Hu; rewrite app_assoc; exact Hu|exact B1|exact B2'].
    + apply (X (pre ++ [k]) c (k' :: post')); [rewrite E' in Hu; rewrite app_assoc; exact Hu|exact B1'|exact B2].
  - exfalso. apply (X (pre ++ [k]) post []); [rewrite app_nil_r, <- app_assoc; cbn [app]; rewrite <- E; exact Hu|rewrite <- app_assoc; cbn [app]; rewrite <- E; exact B1'|exact B2].
  - exfalso. apply (X (pre' ++ [k']) post' []); [rewrite app_nil_r, <- app_assoc; cbn [app]; rewrite <- E'; exact Hu|rewrite <- app_assoc; cbn [app]; rewrite <- E'; exact B1|exact B2'].
  - rewrite E' in E. apply app_inj_tail in E. destruct E. auto.
Qed.
(** A syntax error is reported exactly for the texts that are no sentences. *)
Theorem C46_exactly : forall code l, tokens code l -> ~ all_white code -> unsigned l -> (forall q, parse code <> Some (Panic q)) ->
  ((exists line col lit, syntax_at code line col lit) <-> ~ sentence l).
Proof.
  intros code l Ht Hw Hu Hq. split.
  - intros (line & col & lit & Hs) Hse. destruct (C46_first _ _ _ _ _ Ht Hw Hs) as (pre & k & [(post & -> & _ & B)|(_ & _ & B)]); [|tauto].
    apply (B post); rewrite <- app_assoc; assumption.
  - intros Hn. destruct Ht as (raw & Hl & ->). destruct (parse_ends _ _ (blank_not_white _ Hw) Hl) as [(q & H)|[(a' & T & _ & HT & W1 & W2 & _)|(a' & st & post & t & H & _)]].
    + destruct (Hq q H).
    + exfalso. apply Hn. unfold sentence. fold (tks raw).
      assert (Hwf : Forall tk_wf (tks raw)) by (apply (tokens_wf code); exists raw; auto). pose proof (maccepts_yield _ _ Hwf HT) as Hy.
      rewrite <- Hy. apply wf_derives; assumption.
    + exists (p_line (GetPosition code (tk_off t))). do 2 eexists. exists a'. exact H.
Qed.
(** With signed default values the claim is false: the text is a sentence, and the
    message blames the +. *)
Definition signed_text : bytes := B "Процедура П(а = -б + в) КонецПроцедуры".
Theorem C46_signed_refuted : ~ forall code l line col lit, tokens code l -> ~ all_white code -> syntax_at code line col lit -> ~ sentence l.
Proof.
  intros H. destruct C42_derivable_refuted as (code & l & _).
  set (p := Program (ISnoc INil (IFunc (CFunc None false (B "П") (POne (ParDef (Par (B "а")) (ENeg (EBin BPlus (id (B "б")) (id (B "в")))))) false VNil BNil))) BNil).
  assert (E : toks_of signed_text = toks_program p) by (vm_compute; reflexivity).
  refine (H signed_text (toks_of signed_text) 1 19 (B "+") _ _ _ _).
  - tokenized.
  - intros Hw. rewrite <- blank_white in Hw. revert Hw. vm_compute. discriminate.
  - unfold syntax_at. eexists. vm_compute. reflexivity.
  - unfold sentence. rewrite E. assert (Hd : defaults_ok p = true) by reflexivity. destruct (good_program p Hd) as [W S]. rewrite <- (yield_program p Hd). apply wf_derives; assumption.
Qed.

(** * C47 The message shows the token and its place *)
(** Words, numbers, operators, marks and directives are shown as they are written, with
    the line and the column (counted from 0) of their beginning.  For the others the line
    is the one where the token ends. *)
Theorem C47_syntax_partial : forall code l line col lit, tokens code l -> ~ all_white code -> syntax_at code line col lit ->
  exists pre k before y rest, blamed l pre k /\ written code pre k before y rest /\ shown k y lit /\
    (exists c, place (before ++ y) line c /\ col = c - Z.of_nat (length (runes lit))) /\ (plain k = true -> place before line col).
Proof.
  intros code l line col lit Ht Hw Hs. destruct (blamed_of _ _ _ _ _ Ht Hw Hs) as (raw & pre & k & t & post & Hl & -> & -> & El & H).
  destruct (loc_place _ _ _ _ _ _ _ _ _ Hl (eq_sym El)) as (before & y & rest & G). exists (tks pre), (tk_of k t), before, y, rest. split; [exact H|exact G].
Qed.
(** The same for all other errors of a text without lexical errors: they are about some
    token of the text. *)
Theorem C47_any_partial : forall code l a' e, tokens code l -> ~ all_white code -> parse code = Some (Ok (a', Some e)) ->
  exists m line col lit pre k post before y rest, e = EParse m line col lit /\ l = pre ++ k :: post /\ written code pre k before y rest /\ shown k y lit /\
    (exists c, place (before ++ y) line c /\ col = c - Z.of_nat (length (runes lit))) /\ (plain k = true -> place before line col).
Proof.
  intros code l a' e (raw & Hl & ->) Hw Hp.
  assert (G : exists m t, one_of raw t /\ e = loc code t m).
  { destruct (parse_ends _ _ (blank_not_white _ Hw) Hl) as [(q & H)|[(a2 & T & H & _ & _ & _ & [H2|(m & t & _ & H2 & H3)])|(a2 & st & post & t & H & H2 & _)]]; rewrite Hp in H.
    - discriminate H.
    - apply (f_equal (fun o => match o with Some (Ok (_, x)) => x | _ => None end)) in H. congruence.
    - apply (f_equal (fun o => match o with Some (Ok (_, x)) => x | _ => None end)) in H. rewrite H3 in H. exists m, t. split; [exact H2|congruence].
    - apply (f_equal (fun o => match o with Some (Ok (_, x)) => x | _ => None end)) in H. exists MSyntax, t. split; [exact H2|congruence]. }
  destruct G as (m & t & (pre & k & post & ->) & ->).
  destruct (loc code t m) as [|m' line col lit] eqn:El; [discriminate El|]. assert (m' = m) as -> by (unfold loc in El; injection El as -> _; reflexivity).
  destruct (loc_place _ _ _ _ _ _ _ _ _ Hl El) as (before & y & rest & G). exists m, line, col, lit, (tks pre), (tk_of k t), (tks post), before, y, rest.
  split; [reflexivity|]. split; [unfold tks; rewrite map_app; reflexivity|exact G].
Qed.
(** A token of a text has one place. *)
Theorem C47_unique : forall code pre k before y rest before' y' rest', written code pre k before y rest -> written code pre k before' y' rest' ->
  before = before' /\ y = y' /\ rest = rest'.
Proof. intros. eapply written_det; eassumption. Qed.
(** For strings, dates and labels the place is another one: the quotes are not counted,
    and the white space behind a quoted literal is. *)
Definition quoted_text : bytes := B "а = 1 ""абв""
 х = 1;".
Theorem C47_quoted_refuted : ~ forall code l line col lit, tokens code l -> ~ all_white code -> syntax_at code line col lit ->
  exists pre k before y rest, blamed l pre k /\ written code pre k before y rest /\ place before line col.
Proof.
  intros H. assert (Tk : tokens quoted_text (toks_of quoted_text)) by tokenized.
  assert (Hw : ~ all_white quoted_text) by (intros Hw; rewrite <- blank_white in Hw; revert Hw; vm_compute; discriminate).
  assert (Hs : syntax_at quoted_text 2 (-2) (B "абв")) by (unfold syntax_at; eexists; vm_compute; reflexivity).
  destruct (H _ _ _ _ _ Tk Hw Hs) as (pre & k & before & y & rest & Hb & Hwr & (ls & v & _ & _ & _ & _ & Hc)). lia.
Qed.
(** Not even the line is right. *)
Theorem C47_line_refuted : ~ forall code l line col lit, tokens code l -> ~ all_white code -> syntax_at code line col lit ->
  exists pre k before y rest, blamed l pre k /\ written code pre k before y rest /\ exists c, place before line c.
Proof.
  intros H. assert (Tk : tokens quoted_text (toks_of quoted_text)) by tokenized.
  assert (Hw : ~ all_white quoted_text) by (intros Hw; rewrite <- blank_white in Hw; revert Hw; vm_compute; discriminate).
  assert (Hs : syntax_at quoted_text 2 (-2) (B "абв")) by (unfold syntax_at; eexists; vm_compute; reflexivity).
  destruct (H _ _ _ _ _ Tk Hw Hs) as (pre & k & before & y & rest & Hb & Hwr & c & Hp).
  destruct (C47_syntax_partial _ _ _ _ _ Tk Hw Hs) as (pre2 & k2 & before2 & y2 & rest2 & Hb2 & _ & _ & _ & Hpl).
  assert (Hu : unsigned (toks_of quoted_text)) by (vm_compute; reflexivity).
  destruct (C46_unique _ _ _ _ _ Hu Hb Hb2) as [<- <-]. clear Hb2.
  assert (E : exists post, toks_of quoted_text = pre ++ k :: post) by (destruct Hb as [(post & E & _)|(E & _)]; eauto). destruct E as (post & E).
  assert (Hk : plain k = false) by (destruct (plain k); [destruct (Hpl eq_refl) as (ls & v & _ & _ & _ & _ & Hc); lia|reflexivity]).
  assert (F : forallb (fun x => plain x || match x with KStr _ => true | _ => false end) (toks_of quoted_text) = true) by (vm_compute; reflexivity).
  rewrite E, forallb_app in F. apply andb_true_iff in F as [_ F]. cbn [forallb] in F. apply andb_true_iff in F as [F _]. rewrite Hk in F. destruct k as [| | | | |v| |]; try discriminate F.
  destruct Hwr as (dot & w & _ & _ & O & Ec).
  assert (Eq : exists s0, y ++ rest = z2b 34 :: s0).
  { remember (KStr v) as k eqn:Ek. remember (y ++ rest) as x eqn:Ex. destruct O; try discriminate Ek; [|eauto].
    match goal with W : word_token _ _ _ |- _ => destruct W; discriminate Ek end. }
  destruct Eq as (s0 & Eq). rewrite Eq in Ec.
  assert (El : quoted_text = B "а = 1 ""абв""" ++ LF :: B " х = 1;") by (vm_compute; reflexivity). rewrite El in Ec.
  assert (N1 : ~ In LF (B "а = 1 ""абв""")) by (vm_compute; intuition discriminate).
  assert (N2 : ~ In (z2b 34) (B " х = 1;")) by (vm_compute; intuition discriminate).
  assert (Nb : ~ In LF before).
  { destruct (split_cases _ _ _ _ _ _ Ec) as [[_ X]|[(c0 & X)|(c0 & X)]].
    - discriminate X.
    - exfalso. rewrite X, <- !app_assoc in Ec. apply app_inv_head in Ec. injection Ec as Ec. apply N2. rewrite Ec. apply in_or_app. right. left. reflexivity.
    - intros Y. apply N1. rewrite X, <- app_assoc. apply in_or_app. left. exact Y. }
  destruct (place_det _ _ _ _ _ Hp (place_total _)) as [X _]. rewrite (count_none _ Nb) in X. discriminate X.
Qed.

(** Examples: a wrong token, a text that ends too early, an error of another kind. *)
Definition blame_text : bytes := B "Если а Тогда
  б = ;
КонецЕсли;".
Definition short_text : bytes := B "Процедура П()
  а = 1;".
Definition break_text : bytes := B "а = 1;
Прервать;".
Ltac not_white := let Hw := fresh in intros Hw; rewrite <- blank_white in Hw; revert Hw; vm_compute; discriminate.
Example C46_example : tokens blame_text (toks_of blame_text) /\ ~ all_white blame_text /\ syntax_at blame_text 2 6 (B ";") /\ unsigned (toks_of blame_text) /\
  (forall q, parse blame_text <> Some (Panic q)).
Proof.
  split; [tokenized|]. split; [not_white|]. split; [eexists; vm_compute; reflexivity|]. split; [vm_compute; reflexivity|].
  intros q H. assert (X : match parse blame_text with Some (Panic _) => false | _ => true end = true) by (vm_compute; reflexivity). rewrite H in X. discriminate X.
Qed.
(** ... the semicolon behind the = sign, which the theorems find ... *)
Example C46_where : exists pre before rest, blamed (toks_of blame_text) pre (K 59) /\ written blame_text pre (K 59) before (B ";") rest /\ place before 2 6.
Proof.
  destruct C46_example as (Tk & Hw & Hs & _). destruct (C47_syntax_partial _ _ _ _ _ Tk Hw Hs) as (pre & k & before & y & rest & Hb & Hwr & Sh & _ & Hp).
  assert (E : exists post, toks_of blame_text = pre ++ k :: post) by (destruct Hb as [(post & E & _)|(E & _)]; eauto). destruct E as (post & E).
  assert (F : forallb plain (toks_of blame_text) = true) by (vm_compute; reflexivity). rewrite E, forallb_app in F. apply andb_true_iff in F as [_ F].
  cbn [forallb] in F. apply andb_true_iff in F as [F _]. specialize (Hp F). assert (y = B ";") as -> by (destruct k; try discriminate F; symmetry; exact Sh).
  assert (k = K 59) as ->; [|eauto 10].
  destruct Hwr as (dot & w & _ & _ & O & _). destruct (one_next _ [] _ _ _ tr_nil O) as (r & R1 & _ & _ & R2).
  assert (O' : one_token dot (B ";" ++ rest) (K 59) rest) by (apply (ot_mark dot (z2b 59)); right; left; reflexivity).
  destruct (one_next _ [] _ _ _ tr_nil O') as (r' & R1' & _ & _ & R2'). rewrite R1 in R1'. injection R1' as <- _. congruence.
Qed.
(** ... a text that ends too early: the message is about its last token ... *)
Example C46_short : tokens short_text (toks_of short_text) /\ ~ all_white short_text /\ syntax_at short_text 2 7 (B ";") /\ unsigned (toks_of short_text).
Proof. split; [tokenized|]. split; [not_white|]. split; [eexists; vm_compute; reflexivity|vm_compute; reflexivity]. Qed.
(** ... and an error of another kind. *)
Example C47_example : tokens break_text (toks_of break_text) /\ ~ all_white break_text /\
  exists a', parse break_text = Some (Ok (a', Some (EParse (MLoopOp (B "Прервать")) 2 0 (B "Прервать")))).
Proof. split; [tokenized|]. split; [not_white|]. eexists. vm_compute. reflexivity. Qed.

Print Assumptions C46_first.
Print Assumptions C46_unique.
Print Assumptions C46_exactly.
Print Assumptions C46_signed_refuted.
Print Assumptions C47_syntax_partial.
Print Assumptions C47_any_partial.
Print Assumptions C47_unique.
Print Assumptions C47_quoted_refuted.
Print Assumptions C47_line_refuted.
