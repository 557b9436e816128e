(** What the scanner's messages mean, and that every message is about the text (C51, C52,
    and C47 for all texts).  Specification: Faults.v, Lexical.v, Where.v; proofs:
    FaultFacts.v, Reached.v. *)
From Verif Require Import Bytes Utf8 Float64 GoTime Ast Lexer LexFacts LexSpec LexProofs LexTrivia NumSpec Tables Parser Grammar Tok CertData Cert
  Driver DriverInv Trees Properties_Parser Syntax Rules Declared RulesFacts CleanFacts DeclaredFacts Order OrderFacts CstTrees CstEval CstModule Properties_Tree
  Machine Levels Bind BindCst Items Complete TightOk CstInj CstWf Regroup Properties_Signs Properties_Bind Legal Panics Accept Properties_Legal
  Printer Writes Lexical Scanned Properties_Scan Where Blame Told Placed Faults FaultFacts Reached.
Open Scope Z_scope.

(** * C51 The scanner's messages are true *)
(** One call of the scanner, anywhere in a text: it returns the error [e] exactly if the
    text continues, behind trivia, with the fault that [e] names. *)
Theorem C51_fault : forall code t e,
  (exists k t', Next code t = (k, t', Some e)) <-> (exists w x rest, rest_of code t = w ++ x /\ trivia w /\ fault x e rest).
Proof.
  intros code t e. split.
  - intros (k & t' & H). destruct (Next_fault _ _ _ _ _ H) as (w & x & H1 & H2 & H3 & _). eauto 8.
  - intros (w & x & rest & H1 & H2 & H3). eapply fault_Next; eassumption.
Qed.
(** Behind the fault, reading goes on as the fault says. *)
Theorem C51_resumes : forall code t k t' e, Next code t = (k, t', Some e) ->
  exists w x, rest_of code t = w ++ x /\ trivia w /\ fault x e (rest_of code t') /\ tk_prevDot t' = false.
Proof. exact Next_fault. Qed.
(** A place of a text has at most one fault, and no token then. *)
Theorem C51_one : forall x e rest, fault x e rest ->
  (forall e' rest', fault x e' rest' -> e' = e) /\ (forall dot k rest', ~ one_token dot x k rest').
Proof. intros x e rest H. split; [intros e' rest' H'; eapply fault_det; eassumption|intros dot k rest'; eapply fault_no_token; exact H]. Qed.
(** Every text is a sequence of tokens, or has a first fault, and not both. *)
Theorem C51_either : forall code, ((exists l, text_of false code l) \/ (exists e before x, first_fault code e before x)) /\
  ~ ((exists l, text_of false code l) /\ (exists e before x, first_fault code e before x)).
Proof.
  intros code. split.
  - destruct (text_or_fault code false) as [H|(l & d & w & x & e & rest & H1 & H2 & H3 & u & H4)]; [left; exact H|].
    right. exists e, u, x, l, d, w, rest. auto.
  - intros [(l & H) (e & before & x & l2 & d & w & rest & H1 & H2 & H3 & _)]. exact (starts_no_text _ _ _ _ _ H1 _ _ _ _ eq_refl H2 H3 l H).
Qed.
(** If Parse returns an error of the scanner, reading the text gets to the fault that the
    error names. *)
Theorem C51_message : forall code a' e, parse code = Some (Ok (a', Some (ELex e))) -> exists before x, read_fault code e before x.
Proof.
  intros code a' e H. destruct (parse_errors _ _ _ H) as [(x & t & k & t' & E & H1 & H2)|(m & t & E & _)]; [|discriminate E].
  injection E as <-. eapply fault_place; eassumption.
Qed.
(** No error of the scanner is returned for a text that is a sequence of tokens. *)
Theorem C51_none : forall code l a' e, text_of false code l -> parse code <> Some (Ok (a', Some (ELex e))).
Proof.
  intros code l a' e Ht H. destruct (blank code) eqn:Hb.
  { unfold parse, Parse in H. cbn [NewAST a_code] in H. rewrite Hb in H. discriminate H. }
  apply tokens_text in Ht as (raw & Hl & _).
  destruct (parse_ends _ _ Hb Hl) as [(q & H2)|[(a2 & T & H2 & _ & _ & _ & [H3|(m & t & _ & _ & H3)])|(a2 & st & post & t & H2 & _)]]; rewrite H in H2;
    [discriminate| | |discriminate]; injection H2 as <- E2; rewrite H3 in E2; discriminate E2.
Qed.

(** * C47 for all texts *)
(** Every other error, for every text, is about a token that reading the text gets to, and
    gives the place of that token. *)
Theorem C47_all_partial : forall code a' m line col lit, parse code = Some (Ok (a', Some (EParse m line col lit))) ->
  exists k before y rest, read_token code k before y rest /\ shown k y lit /\
    (exists c, place (before ++ y) line c /\ col = c - Z.of_nat (length (runes lit))) /\ (plain k = true -> place before line col).
Proof.
  intros code a' m line col lit H. destruct (parse_errors _ _ _ H) as [(x & t & k & t' & E & _)|(m2 & t & E & Ht)]; [discriminate E|].
  assert (m2 = m) as -> by (unfold loc in E; congruence). eapply token_place; [exact Ht|symmetry; exact E].
Qed.

(** * C52 The error names the first fault of the text *)
(** A text with a fault is never accepted silently (unless it is all white space). *)
Theorem C52_error_partial : forall code e before x a' err, first_fault code e before x -> ~ all_white code -> parse code = Some (Ok (a', err)) -> err <> None.
Proof.
  intros code e before x a' err (l & d & w & rest & H1 & H2 & H3 & _) Hw Hp ->.
  destruct (C45_accepted code (a_module a')) as (p & Ht & _); [split; [exact Hw|eauto]|]. exact (starts_no_text _ _ _ _ _ H1 _ _ _ _ eq_refl H2 H3 _ Ht).
Qed.
(** The full statement. *)
Definition C52_statement : Prop := forall code e before x a' err, first_fault code e before x -> ~ all_white code -> parse code = Some (Ok (a', err)) -> err = Some (ELex e).
(** A first fault, computed. *)
Lemma starts_snoc d s l d' s' : starts d s l d' s' -> forall w x k rest, s' = w ++ x -> trivia w -> one_token d' x k rest -> starts d s (l ++ [k]) (behind d' k) rest.
Proof.
  induction 1 as [d s|d v y k' r l d' s' Hv Hy H IH]; intros w x k rest E Hw Hx; cbn [app].
  - subst s. eapply st_token; [exact Hw|exact Hx|apply st_nil].
  - eapply st_token; [exact Hv|exact Hy|]. eapply IH; eassumption.
Qed.
Lemma first_at code (l : list (Z * token)) t k t' e : Trees.reads code zero_token l t -> Next code t = (k, t', Some e) -> exists before x, first_fault code e before x.
Proof.
  intros H E. destruct (Next_fault _ _ _ _ _ E) as (w & x & Ex & Hw & Hx & _).
  assert (G : starts false code (tks l) (tk_prevDot t) (rest_of code t)).
  { clear - H. remember zero_token as t0 eqn:Ez. induction H as [t|t l t1 k t2 H IH HN Hk]; [subst t; apply st_nil|]. specialize (IH Ez).
    destruct (Next_res _ _ _ _ HN) as (r & s' & pd' & N1 & N2 & N3 & N4 & N5 & N6). pose proof Hk as Hk2. rewrite N3 in Hk2. destruct (next_one _ _ _ _ _ _ N1 N2 Hk2 N6) as (w & x & Ex & Hw & Hx & Hp).
    unfold tks. rewrite map_app. cbn [map fst snd]. rewrite N5, N4, Hp. eapply starts_snoc; eassumption. }
  destruct (rest_suffix code t) as (u & Eu). rewrite Ex in G, Eu. exists (u ++ w), x, (tks l), (tk_prevDot t), w, (rest_of code t'). rewrite <- app_assoc. auto.
Qed.

(** The state of the scanner behind [n] tokens, for the examples. *)
Fixpoint after (code : bytes) (n : nat) (t : token) : list (Z * token) * token :=
  match n with O => ([], t) | S n => match Next code t with (k, t', _) => let '(l, t2) := after code n t' in ((k, t') :: l, t2) end end.
Fixpoint clear (code : bytes) (n : nat) (t : token) : bool :=
  match n with O => true | S n => match Next code t with (k, t', None) => negb (k =? EOF) && clear code n t' | _ => false end end.
Lemma after_reads code n : forall t l0 t0, Trees.reads code t0 l0 t -> clear code n t = true -> Trees.reads code t0 (l0 ++ fst (after code n t)) (snd (after code n t)).
Proof.
  induction n as [|n IH]; intros t l0 t0 H Hc; cbn [after clear fst snd] in *; [rewrite app_nil_r; exact H|].
  destruct (Next code t) as [[k t'] [e|]] eqn:E; [discriminate|]. apply andb_true_iff in Hc as [Hk Hc]. apply negb_true_iff, Z.eqb_neq in Hk.
  specialize (IH t' (l0 ++ [(k, t')]) t0 (rd_snoc _ _ _ _ _ _ H E Hk) Hc). destruct (after code n t') as [l t2]. cbn [fst snd] in *. rewrite <- app_assoc in IH. exact IH.
Qed.
Ltac fault_after c n := eapply (first_at c _ _ _ _ _ (after_reads c n zero_token [] zero_token (rd_nil _ _) ltac:(vm_compute; reflexivity))); vm_compute; reflexivity.
Ltac not_white := rewrite <- blank_white; vm_compute; discriminate.
(** It is hidden behind a syntax error of the token before it ... *)
Definition hidden_text : bytes := B "а = ""x".
Theorem C52_hidden_refuted : ~ C52_statement.
Proof.
  intros H. assert (F : exists before x, first_fault hidden_text LEof before x) by fault_after hidden_text 2%nat. destruct F as (before & x & F).
  assert (W : ~ all_white hidden_text) by not_white.
  assert (P : exists a', parse hidden_text = Some (Ok (a', Some (EParse MSyntax 1 2 (B "="))))) by (eexists; vm_compute; reflexivity).
  destruct P as (a' & P). discriminate (H _ _ _ _ _ _ F W P).
Qed.
(** ... or replaced by a later fault, or by a message about a later statement, which is
    parsed although the fault stands before it. *)
Definition later_text : bytes := B "а = 1 $; б = 2 @; в = 3".
Theorem C52_later_refuted : ~ forall code e before x a' e', first_fault code e before x -> ~ all_white code -> parse code = Some (Ok (a', Some (ELex e'))) -> e' = e.
Proof.
  intros H. assert (F : exists before x, first_fault later_text (LSyntax (B "$")) before x) by fault_after later_text 3%nat. destruct F as (before & x & F).
  assert (W : ~ all_white later_text) by not_white.
  assert (P : exists a', parse later_text = Some (Ok (a', Some (ELex (LSyntax (B "@")))))) by (eexists; vm_compute; reflexivity).
  destruct P as (a' & P). discriminate (H _ _ _ _ _ _ F W P).
Qed.
Definition rule_text : bytes := B "а = 1 $; Прервать;".
Theorem C52_rule_refuted : exists e before x a' line col lit, first_fault rule_text e before x /\
  parse rule_text = Some (Ok (a', Some (EParse (MLoopOp (B "Прервать")) line col lit))) /\ length (elems (m_body (a_module a'))) = 2%nat.
Proof.
  assert (F : exists before x, first_fault rule_text (LSyntax (B "$")) before x) by fault_after rule_text 3%nat. destruct F as (before & x & F).
  exists (LSyntax (B "$")), before, x. do 4 eexists. split; [exact F|]. split; vm_compute; reflexivity.
Qed.

(** Examples. *)
(** Each kind of fault. *)
Example C51_example_faults :
  fault (B "$ а") (LSyntax (B "$")) (B " а") /\ fault (B "&Где а") (LSyntax (B "&")) (B "Где а") /\ fault (B "1а;") LIdentAfterNumber (B "а;") /\
  fault (B "1.2.3;") (LNumber (B "1.2.3")) (B ";") /\ fault (B "'а' ;") LDateConst (B ";") /\ fault (B "'20240230';") (LDate_ (B "20240230")) (B ";") /\
  fault (dquote ++ B "а" ++ [LF] ++ B " б") LEol (B "б") /\ fault (dquote ++ B "а") LEof [].
Proof.
  assert (A : forall c e rest k t', Next c zero_token = (k, t', Some e) -> trivia_end c = c -> rest_of c t' = rest -> fault c e rest).
  { intros c e rest k t' E Hc <-. destruct (Next_fault _ _ _ _ _ E) as (w & x & Ex & Hw & Hx & _). change (rest_of c zero_token) with c in Ex.
    pose proof (trivia_end_trivia w x Hw) as T. rewrite <- Ex, Hc in T. rewrite (fault_start _ _ _ Hx) in T. rewrite <- T in Hx. exact Hx. }
  repeat split; (eapply A; [vm_compute; reflexivity|vm_compute; reflexivity|vm_compute; reflexivity]).
Qed.
(** A text whose fault Parse reports, and one whose token Parse reports behind a fault. *)
Example C51_example : exists a' before x, parse (B "а = 1; $") = Some (Ok (a', Some (ELex (LSyntax (B "$"))))) /\ read_fault (B "а = 1; $") (LSyntax (B "$")) before x.
Proof.
  assert (P : exists a', parse (B "а = 1; $") = Some (Ok (a', Some (ELex (LSyntax (B "$")))))) by (eexists; vm_compute; reflexivity).
  destruct P as (a' & P). destruct (C51_message _ _ _ P) as (before & x & H). eauto.
Qed.
Example C47_example_all : exists a' k before y rest, parse (B "а = 1; $ б = 2;") = Some (Ok (a', Some (EParse MSyntax 1 9 (B "б")))) /\
  read_token (B "а = 1; $ б = 2;") k before y rest /\ shown k y (B "б") /\ (plain k = true -> place before 1 9).
Proof.
  assert (P : exists a', parse (B "а = 1; $ б = 2;") = Some (Ok (a', Some (EParse MSyntax 1 9 (B "б"))))) by (eexists; vm_compute; reflexivity).
  destruct P as (a' & P). destruct (C47_all_partial _ _ _ _ _ _ P) as (k & before & y & rest & H1 & H2 & _ & H3). eauto 10.
Qed.
Example C52_example : exists e before x a' err, first_fault (B "а = 1; $") e before x /\ ~ all_white (B "а = 1; $") /\ parse (B "а = 1; $") = Some (Ok (a', err)) /\ err = Some (ELex e).
Proof.
  assert (F : exists before x, first_fault (B "а = 1; $") (LSyntax (B "$")) before x) by fault_after (B "а = 1; $") 4%nat. destruct F as (before & x & F).
  exists (LSyntax (B "$")), before, x. do 2 eexists. split; [exact F|]. split; [not_white|]. split; vm_compute; reflexivity.
Qed.

Print Assumptions C51_fault.
Print Assumptions C51_resumes.
Print Assumptions C51_one.
Print Assumptions C51_either.
Print Assumptions C51_message.
Print Assumptions C51_none.
Print Assumptions C47_all_partial.
Print Assumptions C52_error_partial.
Print Assumptions C52_hidden_refuted.
Print Assumptions C52_later_refuted.
Print Assumptions C52_rule_refuted.
