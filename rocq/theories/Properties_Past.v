(** Texts with lexical errors: what the parser makes of the tokens around them (C14, C48,
    C52).  Specification: Skip.v; proofs: Past.v. *)
From Verif Require Import Bytes Utf8 Float64 GoTime Ast Lexer LexFacts LexSpec LexProofs NumSpec Tables Parser Grammar Tok CertData Cert
  Driver DriverInv Trees Properties_Parser Syntax Rules Declared RulesFacts CleanFacts DeclaredFacts Order OrderFacts CstTrees CstEval CstModule Properties_Tree
  Machine Levels Bind BindCst Items Complete TightOk CstInj CstWf Regroup Properties_Signs Properties_Bind Legal Panics Accept Properties_Legal
  LexTrivia LexTokens Writes Lexical Scanned ViableData Viable Stuck Blame Told Where Placed Broken Cause BrokenFacts Properties_Cause Faults FaultFacts Reached Skip Past Properties_Faults.
From Verif Require Import Syntax Tok.
Open Scope Z_scope.

(** A text without faults: its tokens begin with [l]. *)
Lemma off_prefix code l : text_of false code l -> forall l', reads_off code l' -> exists l2, l = l' ++ l2.
Proof.
  intros H l' (dot & s & H'). enough (G : exists l2, l = l' ++ l2 /\ text_of dot s l2) by (destruct G as (l2 & G & _); eauto).
  induction H' as [|l' dot w x k rest H' IH Hw Hx|l' dot w x e rest H' IH Hw Hx|l' dot w H' IH Hw].
  - exists l. auto.
  - destruct IH as (l2 & -> & G). destruct (one_next _ _ _ _ _ Hw Hx) as (r3 & E3 & N3 & N4 & N5). remember (w ++ x) as u eqn:Eu.
    destruct G as [dot u Hu|dot w2 y k2 r2 l2 Hu Hy G].
    + rewrite next_nil in E3 by (apply trivia_end_last, Hu). injection E3 as <- _ _. destruct N4. reflexivity.
    + destruct (one_next _ _ _ _ _ Hu Hy) as (r4 & E4 & M3 & M4 & M5). rewrite E3 in E4. injection E4 as <- <- Eb.
      assert (k2 = k) as -> by congruence. exists l2. rewrite <- app_assoc. auto.
  - destruct IH as (l2 & -> & G). destruct (starts_no_text _ _ _ _ _ (st_nil dot (w ++ x)) _ _ _ _ eq_refl Hw Hx _ G).
  - destruct IH as (l2 & -> & G). destruct G as [dot w Hw2|dot w2 y k2 r2 l2 Hu Hy G].
    + exists []. split; [reflexivity|]. apply to_end, trivia_end_nil. reflexivity.
    + destruct (one_next _ _ _ _ _ Hu Hy) as (r4 & E4 & M3 & M4 & M5). rewrite next_nil in E4 by (apply trivia_end_last, Hw). injection E4 as <- _ _. destruct M4. reflexivity.
Qed.
(** The tokens read in [n] calls of the scanner, for the examples. *)
Fixpoint pass (code : bytes) (n : nat) (t : token) : list (Z * token) * token :=
  match n with
  | O => ([], t)
  | S n => match Next code t with (k, t', e) => let '(l, t2) := pass code n t' in ((match e with None => if k =? EOF then [] else [(k, t')] | Some _ => [] end) ++ l, t2) end
  end.
Lemma pass_passes code n : forall t l0, passes code l0 t -> passes code (l0 ++ fst (pass code n t)) (snd (pass code n t)).
Proof.
  induction n as [|n IH]; intros t l0 H; cbn [pass]; [cbn [fst snd]; rewrite app_nil_r; exact H|]. destruct (Next code t) as [[k t'] e] eqn:E.
  specialize (IH t'). destruct (pass code n t') as [l t2]. cbn [fst snd] in *. rewrite app_assoc. apply IH. destruct e as [e|].
  - rewrite app_nil_r. eapply ps_fault; eassumption.
  - destruct (k =? EOF) eqn:Ek; [apply Z.eqb_eq in Ek; subst k; rewrite app_nil_r; eapply ps_end; eassumption|]. apply Z.eqb_neq in Ek. eapply ps_snoc; eassumption.
Qed.
Definition toks_off (code : bytes) (n : nat) : list tk := tks (fst (pass code n zero_token)).
Lemma pass_off code n : reads_off code (toks_off code n).
Proof. eexists _, _. apply passes_left. apply (pass_passes code n zero_token []), ps_nil. Qed.

(** * C14 Parse never panics: any text *)
(** Two Перем lists in a row of which the first repeats a name are needed for a panic, also when
    the text has lexical errors. *)
Theorem C14_any_partial : forall a q, Parse a = Some (Panic q) ->
  exists l x, reads_off (a_code a) (l ++ toks_vars x) /\ second_list x = true /\ ~ NoDup (first_list x).
Proof.
  intros a q H. destruct (blank (a_code a)) eqn:Hb; [unfold Parse in H; rewrite Hb in H; discriminate|].
  pose proof (Parse_past a Hb) as HP. rewrite H in HP. destruct HP as (ts & X & ts2 & c & b1 & b2 & l & t & W1 & W & HX & Hc & Hl & Y).
  destruct (wf_repr _ W n_explicit_variables ltac:(reflexivity)) as (x & Hx & Ex).
  destruct x as [|[|x0 l0] l1]; [contradiction|discriminate Ex|].
  assert (E0 : child (t_vars (VSnoc (VSnoc x0 l0) l1)) = Node 27 [child (t_vars (VSnoc x0 l0)); lf tVar; t_names l1; semi]) by reflexivity.
  rewrite E0 in Ex. pose proof Ex as Ex2. injection Ex as -> Ets.
  exists (flat_map yield ts), (VSnoc (VSnoc x0 l0) l1). split; [|split; [reflexivity|]].
  - exists (tk_prevDot t), (rest_of (a_code a) t). 
    assert (E : flat_map yield ts ++ toks_vars (VSnoc (VSnoc x0 l0) l1) = tks l).
    { rewrite <- Y. f_equal. rewrite <- yield_vars, (t_vars_25' (VSnoc (VSnoc x0 l0) l1)) by discriminate. rewrite E0, Ets. cbn [yield flat_map]. rewrite !app_nil_r. reflexivity. }
    rewrite E. apply passes_left, Hl.
  - change (first_list (VSnoc (VSnoc x0 l0) l1)) with (first_list (VSnoc x0 l0)). eapply evars_map; [discriminate|exact HX|exact Hc].
Qed.
Definition panic_text : bytes := B "Процедура П() $ Перем А, А; Перем Б; КонецПроцедуры &".
Example C14_example_any : (exists q, parse panic_text = Some (Panic q)) /\ lex_error panic_text zero_token /\
  exists l, reads_off panic_text (l ++ toks_vars (VSnoc (VSnoc VNil (Names (Name (B "А")) (B "А"))) (Name (B "Б")))).
Proof.
  split; [eexists; vm_compute; reflexivity|]. split; [do 4 (eapply le_later; [vm_compute; reflexivity|discriminate|]); apply le_here; do 3 eexists; vm_compute; reflexivity|].
  exists (toks_of (B "Процедура П()")).
  match goal with |- reads_off _ ?l => replace l with (toks_off panic_text 13) by (vm_compute; reflexivity) end. apply pass_off.
Qed.

(** * C48 An error message names a rule that the text breaks: any text *)
(** The rule is broken by the tokens that were read before the error was reported, the
    faults between them left out. *)
Lemma new_tree code a' : one_tree (NewAST code) a' -> exists p v a1 g, defaults_ok p = true /\ reads_off code (toks_program p) /\ fresh a1 /\ a_err a1 = None /\ ev (t_program p) v a1 g /\ like a' g.
Proof.
  intros (T & v & a1 & g & l & t & W & S & C & HE & HL & HP & Y). destruct (wf_program _ W S) as (p & Hd & ->). destruct (fresh_new _ _ C) as [F1 F2].
  exists p, v, a1, g. rewrite (yield_program p Hd) in Y. split; [exact Hd|]. split; [|auto]. rewrite Y. exists (tk_prevDot t), (rest_of code t). apply passes_left, HP.
Qed.
Theorem C48_any : forall code a' m line col lit, parse code = Some (Ok (a', Some (EParse m line col lit))) -> m <> MSyntax ->
  exists l, reads_off code l /\ breaks_rule m l.
Proof.
  intros code a' m line col lit H Hm. destruct (blank code) eqn:Hb; [unfold parse, Parse in H; cbn [NewAST a_code] in H; rewrite Hb in H; discriminate|].
  pose proof (Parse_past (NewAST code) Hb) as HP. unfold parse in H. rewrite H in HP. destruct HP as [He [HT|(t & E)]]; [|unfold loc in E; congruence].
  destruct (new_tree _ _ HT) as (p & v & a1 & g & Hd & HO & F1 & F2 & HE & HL). exists (toks_program p). split; [exact HO|]. apply rule_of.
  pose proof (lk_err _ _ HL _ _ _ _ (eq_sym He)) as Hg. rewrite <- He in Hg.
  destruct (wrong_program p v a1 g Hd F1 HE) as [A|(m' & l' & c' & x' & A & Q)]; [congruence|]. rewrite Hg in A. injection A as -> _ _ _. exact Q.
Qed.
Example C48_example_any : let c := B "а = 1 $; Для Каждого а Из б @ Цикл Прервать; КонецЦикла; Прервать;" in
  (exists a' line col lit, parse c = Some (Ok (a', Some (EParse (MLoopOp (B "Прервать")) line col lit)))) /\ lex_error c zero_token /\
  reads_off c (toks_of (B "а = 1; Для Каждого а Из б Цикл Прервать; КонецЦикла; Прервать;")) /\ breaks_rule (MLoopOp []) (toks_of (B "а = 1; Для Каждого а Из б Цикл Прервать; КонецЦикла; Прервать;")).
Proof.
  cbv zeta. set (c := B "а = 1 $; Для Каждого а Из б @ Цикл Прервать; КонецЦикла; Прервать;").
  split; [eexists _, _, _, _; vm_compute; reflexivity|]. split.
  { do 3 (eapply le_later; [vm_compute; reflexivity|discriminate|]). apply le_here. do 3 eexists. vm_compute. reflexivity. }
  split; [|vm_compute; reflexivity].
  match goal with |- reads_off _ ?l => replace l with (toks_off c 18) by (vm_compute; reflexivity) end. apply pass_off.
Qed.

(** * C52 What a lexical error says about the text *)
(** When Parse reports a lexical error, the tokens it read, the faults left out, are those of a
    whole module.  If the module is legal and clean, its tree is the result. *)
Theorem C52_seen_partial : forall code a' e, parse code = Some (Ok (a', Some (ELex e))) ->
  exists p, defaults_ok p = true /\ reads_off code (toks_program p) /\ derives n_module (map kind_of (toks_program p)) /\
    (legal p -> clean p = true -> a_module a' = mean_program p).
Proof.
  intros code a' e H. destruct (blank code) eqn:Hb; [unfold parse, Parse in H; cbn [NewAST a_code] in H; rewrite Hb in H; discriminate|].
  pose proof (Parse_past (NewAST code) Hb) as HP. unfold parse in H. rewrite H in HP. destruct HP as [He [HT|(t & E)]]; [|unfold loc in E; congruence].
  destruct HT as (T & v & a1 & g & l & t & W & S & C & HE & HL & HP & Y). pose proof (wf_derives _ W _ S) as HD. destruct (wf_program _ W S) as (p & Hd & ->). destruct (fresh_new _ _ C) as [F1 F2].
  exists p. rewrite (yield_program p Hd) in Y, HD. split; [exact Hd|]. split; [rewrite Y; exists (tk_prevDot t), (rest_of code t); apply passes_left, HP|].
  split; [exact HD|]. intros Hl Hc. pose proof (legal_program _ _ _ _ Hd F1 F2 HE Hl) as Hg. rewrite (lk_module _ _ HL).
  destruct (eval_program p v a1 g Hd F1 HE Hg) as (_ & _ & _ & _ & _ & _ & E6). destruct (E6 Hc) as [_ E7]. exact E7.
Qed.
Example C52_example_seen : let c := B "Процедура П() $ а = 1 @; КонецПроцедуры 'x" in let c' := B "Процедура П() а = 1; КонецПроцедуры" in
  (exists a', parse c = Some (Ok (a', Some (ELex LEof))) /\ a_module a' = tree_of c') /\ reads_off c (toks_of c') /\ accepted c' (tree_of c').
Proof.
  cbv zeta. set (c := B "Процедура П() $ а = 1 @; КонецПроцедуры 'x"). set (c' := B "Процедура П() а = 1; КонецПроцедуры").
  split; [eexists; split; vm_compute; reflexivity|]. split; [|subst c'; accepted].
  match goal with |- reads_off _ ?l => replace l with (toks_off c 12) by (vm_compute; reflexivity) end. apply pass_off.
Qed.

Print Assumptions C14_any_partial. Print Assumptions C48_any. Print Assumptions C52_seen_partial.
