(** Where rule messages point (C49).  Specification: Culprit.v, Where.v, Grammar.v;
    proofs: Spot.v, Placed.v. *)
From Verif Require Import Bytes Utf8 Float64 GoTime Ast Lexer LexFacts Utf8Facts LexSpec LexProofs NumSpec Tables Parser Grammar Tok CertData Cert
  Driver DriverInv Trees Properties_Parser Syntax Rules Declared RulesFacts CleanFacts DeclaredFacts Order OrderFacts CstTrees CstEval CstModule Properties_Tree
  Machine Levels Bind BindCst Items Complete TightOk CstInj CstWf Regroup Properties_Signs Properties_Bind Legal Panics Accept Properties_Legal
  LexTrivia LexTokens Writes Lexical Scanned ViableData Viable Stuck Blame Told Where Placed Broken Cause BrokenFacts Faults FaultFacts Reached Skip Past Properties_Faults Properties_Past Properties_Blame Properties_Cause Culprit Spot.
From Verif Require Import Syntax Tok.
Open Scope Z_scope.

Lemma passes_last code l t : passes code l t -> forall l0 k u, l = l0 ++ [(k, u)] -> exists t1, passes code l0 t1 /\ Next code t1 = (k, u, None) /\ k <> EOF.
Proof.
  induction 1 as [|l t1 k t2 H IH E Ek|l t k t' e H IH E|l t t' H IH E]; intros l0 k0 u El; [destruct l0; discriminate El| |eauto|eauto].
  apply app_inj_tail in El as [<- El]. injection El as -> ->. eauto.
Qed.
Lemma passes_place code l k t u m line col lit : passes code (l ++ [(k, t)]) u -> EParse m line col lit = loc code t m -> exists before y rest,
  written_off code (tks l) (tk_of k t) before y rest /\ shown (tk_of k t) y lit /\
  (exists c, place (before ++ y) line c /\ col = c - Z.of_nat (length (runes lit))) /\ (plain (tk_of k t) = true -> place before line col).
Proof.
  intros H E. destruct (passes_last _ _ _ H _ _ _ eq_refl) as (t1 & H1 & S2 & S3). apply passes_left in H1.
  destruct (Next_res _ _ _ _ S2) as (r & s' & pd' & N1 & N2 & N3 & N4 & N5 & N6).
  destruct (Next_fields _ _ _ _ _ S2) as (r2 & s2 & pd2 & F1 & F2 & F3). rewrite N1 in F1. injection F1 as <- <- <-.
  pose proof S3 as S4. rewrite N3 in S4.
  destruct (next_one _ _ _ _ _ _ N1 N2 S4 N6) as (w & x & Ex & Hw & Hx & Hp). rewrite Ex in N1. destruct (one_lit _ _ _ _ _ _ _ Hw Hx N1) as (y & -> & L1 & L2).
  destruct (rest_suffix code t1) as (v & Eu). rewrite Ex in H1, Eu. rewrite app_assoc in Eu. set (q := tk_of k t) in *. clearbody q.
  exists (v ++ w), y, s'. split; [exists (tk_prevDot t1), w; auto|].
  unfold loc in E. injection E as -> -> ->. rewrite F3, F2. pose proof (position_place code (v ++ w) y s' Eu) as P.
  cbn [GetPosition p_line p_col] in P. unfold GetPosition in P |- *. cbn [p_line p_col] in P |- *. split; [exact L1|]. split; [eexists; split; [exact P|ring]|]. intros Hpl. specialize (L2 Hpl).
  assert (El : lr_lit r = y) by (destruct q; try discriminate Hpl; exact L1). rewrite El. destruct L2 as (rs & -> & R1 & R2 & R3).
  rewrite runes_string by exact R2. pose proof (place_before _ _ _ _ R2 R1 (lf_string _ R2 R3) P) as Q.
  match goal with Q : place _ _ ?a |- place _ _ ?b => replace b with a by ring end. exact Q.
Qed.
(** Without faults the tokens read are the tokens of the text. *)
Lemma off_starts code l : text_of false code l -> forall pre dot s, left_out code pre dot s -> starts false code pre dot s \/ s = [].
Proof.
  intros H pre dot s H'. induction H' as [|l' dot w x k rest H' IH Hw Hx|l' dot w x e rest H' IH Hw Hx|l' dot w H' IH Hw].
  - left. apply st_nil.
  - destruct IH as [IH|IH].
    + left. eapply starts_snoc; [exact IH|reflexivity|exact Hw|exact Hx].
    + apply app_eq_nil in IH as [-> ->]. destruct (one_next _ _ _ _ _ Hw Hx) as (r3 & E3 & _ & N4 & _). rewrite next_nil in E3 by reflexivity. injection E3 as <- _ _. destruct N4. reflexivity.
  - exfalso. destruct IH as [IH|IH].
    + exact (starts_no_text _ _ _ _ _ IH _ _ _ _ eq_refl Hw Hx _ H).
    + apply app_eq_nil in IH as [-> ->]. destruct (fault_next false [] [] _ _ Hw Hx) as (r & s' & E1 & E2). cbn [app] in E1. rewrite next_nil in E1 by reflexivity. injection E1 as <- _. discriminate E2.
  - right. reflexivity.
Qed.
Lemma written_whole code l pre k before y rest : tokens code l -> written_off code pre k before y rest -> written code pre k before y rest.
Proof.
  intros Ht (dot & w & H1 & H2 & H3 & H4). apply tokens_text in Ht. exists dot, w. split; [|auto]. destruct (off_starts _ _ Ht _ _ _ H1) as [H|H]; [exact H|].
  exfalso. apply app_eq_nil in H as [-> H]. rewrite H in H3. destruct (one_next _ _ _ _ _ H2 H3) as (r3 & E3 & _ & N4 & _). rewrite next_nil in E3 by reflexivity. injection E3 as <- _ _. destruct N4. reflexivity.
Qed.
Lemma written_reads code pre k before y rest : written_off code pre k before y rest -> reads_off code (pre ++ [k]).
Proof. intros (dot & w & H1 & H2 & H3 & H4). do 2 eexists. eapply lo_token; eassumption. Qed.

(** * C49 A rule message is given at the statement that breaks the rule *)
(** Any text, with any number of lexical errors, which are left out: the tokens read up to the
    message have a statement (or declaration) of the kind the message is about, where the rule does
    not allow it; and the message shows, with its place, the last token of it or the one behind it. *)
Theorem C49_any : forall code a' m line col lit, parse code = Some (Ok (a', Some (EParse m line col lit))) -> m <> MSyntax ->
  exists pre c pre' k before y rest, culprit m pre c /\ shown_at m pre c pre' k /\
    written_off code pre' k before y rest /\ shown k y lit /\
    (exists c0, place (before ++ y) line c0 /\ col = c0 - Z.of_nat (length (runes lit))) /\ (plain k = true -> place before line col).
Proof.
  intros code a' m line col lit Hp Hm. destruct (spot_of _ _ _ _ _ _ Hp Hm _ _ _ _ eq_refl) as (l0 & k & t & u & HP & El & [->|(pre & c & C & Sh & _)]).
  { destruct (C48_any _ _ _ _ _ _ Hp Hm) as (l & _ & []). }
  destruct (passes_place _ _ _ _ _ _ _ _ _ HP El) as (before & y & rest & G). exists pre, c, (tks l0), (tk_of k t), before, y, rest. auto.
Qed.
(** Without lexical errors: the tokens of the text. *)
Theorem C49_at : forall code l a' m line col lit, tokens code l -> parse code = Some (Ok (a', Some (EParse m line col lit))) -> m <> MSyntax ->
  exists pre c post pre' k before y rest, l = pre ++ c ++ post /\ culprit m pre c /\ shown_at m pre c pre' k /\
    written code pre' k before y rest /\ shown k y lit /\
    (exists c0, place (before ++ y) line c0 /\ col = c0 - Z.of_nat (length (runes lit))) /\ (plain k = true -> place before line col).
Proof.
  intros code l a' m line col lit Ht Hp Hm. destruct (C49_any _ _ _ _ _ _ Hp Hm) as (pre & c & pre' & k & before & y & rest & C & Sh & W & G).
  destruct (off_prefix _ _ (proj1 (tokens_text _ _) Ht) _ (written_reads _ _ _ _ _ _ W)) as (l2 & E).
  assert (exists post, l = pre ++ c ++ post) as (post & El).
  { destruct Sh as [Sh|[_ ->]]; [rewrite Sh in E; exists l2|exists (k :: l2)]; rewrite E, <- !app_assoc; reflexivity. }
  exists pre, c, post, pre', k, before, y, rest. split; [exact El|]. split; [exact C|]. split; [exact Sh|]. split; [eapply written_whole; eassumption|exact G].
Qed.
(** For Прервать and Продолжить the place is the one of the operator itself, and the
    message quotes it as it is written. *)
Theorem C49_loop_any : forall code a' w line col lit, parse code = Some (Ok (a', Some (EParse (MLoopOp w) line col lit))) ->
  exists pre k before rest, (k = K tBreak \/ k = K tContinue) /\ balance tLoop tEndLoop pre <= 0 /\
    written_off code pre k before w rest /\ lit = w /\ place before line col.
Proof.
  intros code a' w line col lit Hp.
  destruct (spot_of _ _ _ _ _ _ Hp ltac:(discriminate) _ _ _ _ eq_refl) as (l0 & k & t & u & HP & El & [X|(pre & c & C & Sh & Ew)]); [discriminate X|].
  destruct (passes_place _ _ _ _ _ _ _ _ _ HP El) as (before & y & r & G1 & G2 & _ & G3).
  destruct Sh as [Sh|[[] _]]. destruct C as [C Cb].
  assert (Lit : lit = tk_lit t) by (unfold loc in El; injection El as _ _ ->; reflexivity).
  assert (X : tks l0 = pre /\ (tk_of k t = K tBreak \/ tk_of k t = K tContinue)).
  { destruct C as [-> | ->]; apply app_inj_tail in Sh as [-> ->]; auto. }
  destruct X as [<- Hk].
  assert (P : plain (tk_of k t) = true) by (destruct Hk as [-> | ->]; reflexivity).
  assert (Y : y = w) by (assert (Z : lit = y) by (destruct Hk as [Hk|Hk]; rewrite Hk in G2; exact G2); congruence). subst y.
  exists (tks l0), (tk_of k t), before, r. split; [exact Hk|]. split; [exact Cb|]. split; [exact G1|]. split; [congruence|exact (G3 P)].
Qed.
Theorem C49_loop : forall code l a' w line col lit, tokens code l -> parse code = Some (Ok (a', Some (EParse (MLoopOp w) line col lit))) ->
  exists pre k post before rest, l = pre ++ k :: post /\ (k = K tBreak \/ k = K tContinue) /\ balance tLoop tEndLoop pre <= 0 /\
    written code pre k before w rest /\ lit = w /\ place before line col.
Proof.
  intros code l a' w line col lit Ht Hp. destruct (C49_loop_any _ _ _ _ _ _ Hp) as (pre & k & before & rest & Hk & Hb & W & G).
  destruct (off_prefix _ _ (proj1 (tokens_text _ _) Ht) _ (written_reads _ _ _ _ _ _ W)) as (post & E). rewrite <- app_assoc in E.
  exists pre, k, post, before, rest. split; [exact E|]. split; [exact Hk|]. split; [exact Hb|]. split; [eapply written_whole; eassumption|exact G].
Qed.
(** For the others the place need not be inside the statement: here the second line has
    only the semicolon. *)
Definition next_text : bytes := B "ВызватьИсключение
;".
Theorem C49_inside_refuted : ~ forall code l a' m line col lit, tokens code l -> parse code = Some (Ok (a', Some (EParse m line col lit))) -> m <> MSyntax ->
  exists pre c1 k c2 post before y rest, l = pre ++ (c1 ++ k :: c2) ++ post /\ culprit m pre (c1 ++ k :: c2) /\
    written code (pre ++ c1) k before y rest /\ place before line col.
Proof.
  intros H. assert (Tk : tokens next_text (toks_of next_text)) by tokenized.
  assert (Hs : exists a', parse next_text = Some (Ok (a', Some (EParse (MThrow (B "ВызватьИсключение")) 2 0 (B ";"))))) by (eexists; vm_compute; reflexivity).
  destruct Hs as (a' & Hs). destruct (H _ _ _ _ _ _ _ Tk Hs ltac:(discriminate)) as (pre & c1 & k & c2 & post & before & y & rest & E & [C _] & W & P).
  destruct c1 as [|x c1]; [|destruct c1; discriminate C]. cbn [app] in C. injection C as -> ->. rewrite app_nil_r in W.
  assert (El : toks_of next_text = [K tThrow; K 59]) by (vm_compute; reflexivity). rewrite El in E. cbn [app] in E.
  destruct pre as [|p pre]; [|exfalso; injection E as _ E; destruct pre as [|p2 pre]; [discriminate E|injection E as _ E; destruct pre; discriminate E]].
  destruct W as (dot & w & Hst & Hw & _ & Ec). cbn [app] in Hst. assert (Es : next_text = w ++ y ++ rest) by (clear - Hst; inversion Hst; congruence).
  rewrite Ec in Es. apply app_inv_tail in Es. subst w.
  destruct P as (ls & v & Eb & _ & _ & Hln & _). destruct ls as [|x ls]; [cbn in Hln; lia|]. cbn [map concat] in Eb.
  assert (N : exists b before', before = b :: before') by (rewrite Eb; destruct x; cbn [app]; eauto). destruct N as (b & before' & ->).
  assert (Eb0 : b = z2b 208) by (change next_text with (z2b 208 :: tl next_text) in Ec; cbn [app] in Ec; congruence). subst b. clear - Hw. inversion Hw as [|b w Hb _ Q|l w _ _ Q|l w _ _ Q].
  revert Hb. vm_compute. intuition discriminate.
Qed.

(** Examples: each rule, and what the messages point at. *)
Example C49_example : Forall (fun m => tokens (rule_text m) (toks_of (rule_text m)) /\ told_rule m /\ m <> MSyntax) all_rules.
Proof. exact C48_example. Qed.
Definition told_at (m : emsg) : option (Z * Z * bytes) := match parse (rule_text m) with Some (Ok (_, Some (EParse _ line col lit))) => Some (line, col, lit) | _ => None end.
Example C49_places : map told_at all_rules =
  [Some (1, 48, B "Прервать"); Some (1, 74, B ";"); Some (1, 59, B ";"); Some (1, 74, B ";"); Some (1, 22, B ";"); Some (1, 54, B ";"); Some (1, 23, B ";")].
Proof. vm_compute. reflexivity. Qed.
Example C49_culprit : let l := toks_of (rule_text (MThrow [])) in exists pre, l = pre ++ [K tThrow] ++ [K 59] /\ culprit (MThrow []) pre [K tThrow] /\ balance tCatch tEndTry (firstn 6 pre) = 1.
Proof. exists (firstn 10 (toks_of (rule_text (MThrow [])))). vm_compute. repeat split; try reflexivity; try discriminate. Qed.

Example C49_labels : ends_with_label [K 59; KLabel (B "л")] /\ ~ ends_with_label [K tGoTo; KLabel (B "л")].
Proof.
  split; [exists [K 59], (B "л"); split; [reflexivity|]; intros v t E; destruct v as [|? [|]]; [injection E as <-; reflexivity|discriminate E..]|].
  intros (u & n & E & H). destruct u as [|x [|y u]]; [discriminate E| |destruct u; discriminate E]. injection E as <- _. discriminate (H [] (K tGoTo) eq_refl).
Qed.

(** With lexical errors around: the second of two declarations, the loop operator. *)
Definition fault_texts : list bytes := [B "Перем а $; Перем в, а; Процедура П() КонецПроцедуры"; B "Процедура А() б = 1 $; КонецПроцедуры Процедура П() Перем а; Перем в, а; КонецПроцедуры"; B "а = 1 + 2 $ + 3 @; Прервать;"].
Example C49_example_any : Forall (fun c => lex_error c zero_token) fault_texts /\
  map (fun c => match parse c with Some (Ok (_, Some (EParse m line col lit))) => Some (m, line, col, lit) | _ => None end) fault_texts =
  [Some (MGlobalDup (B "а"), 1, 21, B ";"); Some (MVarDup (B "а"), 1, 71, B ";"); Some (MLoopOp (B "Прервать"), 1, 19, B "Прервать")].
Proof.
  split; [|vm_compute; reflexivity].
  unfold fault_texts; repeat first [apply Forall_nil|apply Forall_cons]; repeat first [apply le_here; do 3 eexists; vm_compute; reflexivity|eapply le_later; [vm_compute; reflexivity|discriminate|]].
Qed.

Print Assumptions C49_any.
Print Assumptions C49_loop_any.
Print Assumptions C49_at.
Print Assumptions C49_loop.
Print Assumptions C49_inside_refuted.
