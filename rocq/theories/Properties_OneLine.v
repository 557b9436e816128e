(** The layout options of Print (C60).  Specification: OneLine.v; proofs: OneLineFacts.v,
    OneLineText.v. *)
From Verif Require Import Bytes Utf8 Float64 GoTime Ast Lexer LexFacts LexSpec LexProofs NumSpec Tables Parser Grammar Tok CertData Cert
  Driver DriverInv Trees Properties_Parser Syntax Rules Declared RulesFacts CleanFacts DeclaredFacts Order OrderFacts CstTrees CstEval CstModule Properties_Tree
  Machine Levels Bind BindCst Items Complete TightOk CstInj CstWf Regroup Properties_Signs Properties_Bind Legal Panics Accept Properties_Legal
  LexTrivia LexTokens Printer PrintInv Writes Lexical Scanned Properties_Scan StmtInd OneLine OneLineFacts OneLineText.
From Verif Require Import Syntax Tok.
From Coq Require Import Permutation.
Open Scope Z_scope.

Lemma filter_line {P : byte -> bool} : P x0a = false -> forall c1 c2 n, filter P (newLine c1 n) = filter P (newLine c2 n).
Proof.
  intros H. assert (X : forall c n, filter P (newLine c n) = []).
  { intros c n. unfold newLine. destruct (oneLine c); [reflexivity|]. induction n; cbn [repeat filter]; [reflexivity|]. rewrite H. exact IHn. }
  intros. rewrite !X. reflexivity.
Qed.
(** Equal behind a filter. *)
Definition alike (P : byte -> bool) (a b : bytes) : Prop := filter P a = filter P b.
Lemma alike_app P a b x y : alike P a b -> alike P x y -> alike P (a ++ x) (b ++ y).
Proof. unfold alike. intros H1 H2. rewrite !filter_app, H1, H2. reflexivity. Qed.
Lemma OR_map P x y : OR (alike P) x y -> option_map (filter P) x = option_map (filter P) y.
Proof. destruct x, y; cbn; try tauto. unfold alike. congruence. Qed.

(** * C60 *)
(** OneLine takes away line feeds and nothing else, for every tree and every margin. *)
Theorem C60_lines : forall order k m,
  option_map unlined (Print order (Conf k true) m) = option_map unlined (Print order (Conf k false) m).
Proof.
  intros order k m. apply (OR_map (fun b => negb (Byte.eqb b x0a))). apply OR_Print.
  - apply alike_app.
  - reflexivity.
  - intros n. apply filter_line. reflexivity.
  - intros d. cbn [margin]. destruct (spaces _); [reflexivity|exact I].
  - split; [intros w _|]; reflexivity.
  - split; reflexivity.
Qed.
(** Margin and OneLine together change line feeds and spaces and nothing else. *)
Theorem C60_letters : forall order c1 c2 m, 0 <= margin c1 -> 0 <= margin c2 ->
  option_map letters (Print order c1 m) = option_map letters (Print order c2 m).
Proof.
  intros order c1 c2 m H1 H2. apply (OR_map (fun b => negb (Byte.eqb b x0a) && negb (Byte.eqb b x20))). apply OR_Print.
  - apply alike_app.
  - reflexivity.
  - intros n. apply filter_line. reflexivity.
  - assert (X : forall c d, 0 <= margin c -> exists s, spaces (margin c * Z.of_nat d) = Some s /\ letters s = []).
    { intros c d Hc. unfold spaces. destruct (Z.ltb_spec (margin c * Z.of_nat d) 0) as [L|L]; [nia|]. eexists. split; [reflexivity|].
      induction (Z.to_nat _); [reflexivity|exact IHn]. }
    intros d. destruct (X c1 d H1) as (s1 & -> & E1). destruct (X c2 d H2) as (s2 & -> & E2). cbn [OR]. unfold alike. unfold letters in *. congruence.
  - split; [intros w _|]; reflexivity.
  - split; reflexivity.
Qed.
(** A statement, the same. *)
Theorem C60_statement : forall s k,
  option_map unlined (PrintStatementWithConf s (Conf k true)) = option_map unlined (PrintStatementWithConf s (Conf k false)).
Proof.
  intros s k. unfold PrintStatementWithConf. destruct (is_nil s); [reflexivity|]. apply (OR_map (fun b => negb (Byte.eqb b x0a))).
  apply (OR_item (alike (fun b => negb (Byte.eqb b x0a)))).
  - apply alike_app.
  - reflexivity.
  - intros n. apply filter_line. reflexivity.
  - intros d. cbn [margin]. destruct (spaces _); [reflexivity|exact I].
  - intros w _. reflexivity.
Qed.
(** With OneLine the output is one line, if the module has no directives and no word of it
    contains a line feed: it is then the usual output with its line feeds taken away. *)
Definition lineless (a b : bytes) : Prop := ~ In x0a a /\ ~ In x0a b.
Lemma lineless_app a b x y : lineless a b -> lineless x y -> lineless (a ++ x) (b ++ y).
Proof. unfold lineless. intros [A1 A2] [B1 B2]. rewrite !in_app_iff. tauto. Qed.
Lemma lineless_plain b : forallb (fun x => negb (Byte.eqb x x0a)) b = true -> lineless b b.
Proof. intros H. rewrite forallb_forall in H. split; intros X; apply H in X; discriminate. Qed.
Lemma unlined_id t : ~ In x0a t -> unlined t = t.
Proof.
  unfold unlined. induction t as [|b t IH]; intros H; [reflexivity|]. cbn [filter]. destruct (Byte.eqb b x0a) eqn:E.
  - destruct H. left. apply Byte.byte_dec_bl in E. exact E.
  - cbn [negb]. f_equal. apply IH. intros X. apply H. right. exact X.
Qed.
Theorem C60_one_line : forall order k m t, one_liner m -> Permutation order (elems (m_gvars m)) ->
  Print order (Conf k true) m = Some t -> ~ In x0a t /\ exists t', Print order (Conf k false) m = Some t' /\ t = unlined t'.
Proof.
  intros order k m t [O1 O2 O3 O4] Hp Ht.
  assert (N : ~ In x0a t).
  { assert (X : OR lineless (Print order (Conf k true) m) (Print order (Conf k true) m)).
    { apply OR_Print.
      - apply lineless_app.
      - intros b Hb. apply andb_true_iff in Hb. apply lineless_plain, Hb.
      - intros n. split; exact (fun H => H).
      - intros d. unfold spaces. destruct (_ <? 0); [exact I|]. apply lineless_plain. induction (Z.to_nat _); [reflexivity|exact IHn].
      - intros s Hs. split; [intros w Hw; split; exact (O1 s w Hs Hw)|]. rewrite (O3 s Hs). split; exact (fun H => H).
      - intros g Hg. apply (Permutation_in g Hp) in Hg. split; [split; exact (O2 g Hg)|]. rewrite (O4 g Hg). split; exact (fun H => H). }
    rewrite Ht in X. apply X. }
  split; [exact N|]. pose proof (C60_lines order k m) as L. rewrite Ht in L. cbn [option_map] in L. rewrite (unlined_id t N) in L.
  destruct (Print order (Conf k false) m) as [t'|]; [|discriminate L]. exists t'. split; [reflexivity|]. cbn [option_map] in L. congruence.
Qed.
(** So it is for the tree of a text without directives and without strings over several lines. *)
Theorem C60_text : forall code l m order k t, accepted code m -> text_of false code l -> clean_toks Begin l = true -> Forall one_line_tk l ->
  Permutation order (elems (m_gvars m)) -> Print order (Conf k true) m = Some t ->
  ~ In x0a t /\ exists t', Print order (Conf k false) m = Some t' /\ t = unlined t'.
Proof.
  intros code l m order k t Hm Hl Hc Ho Hp Ht. apply (C60_one_line order k m t); [|exact Hp|exact Ht].
  destruct (C45_accepted _ _ Hm) as (p & A1 & A2 & A3). pose proof (C45_unique _ _ _ Hl A1) as ->. rewrite clean_program in Hc.
  assert (Hw : ~ all_white code) by apply Hm.
  destruct (proj1 (C45_front code m p Hw A1 A2 A3 Hc) Hm) as [_ ->]. pose proof (text_no_lf _ _ _ A1 Ho) as W.
  assert (W' : forall w, ins w (toks_program p) -> ~ In x0a w) by (intros w [-> |H]; [exact (fun H => H)|exact (W w H)]).
  assert (D : no_dir (toks_program p)) by (intros d Hd; rewrite Forall_forall in Ho; exact (Ho _ Hd)).
  split.
  - intros s w Hs Hw'. apply W'. exact (words_program p s w Hs Hw').
  - intros g Hg. apply W', words_gvars, Hg.
  - intros s. apply dirs_program, D.
  - intros g. apply gdirs_program, D.
Qed.
Definition C60_code : bytes := B "Перем г; Функция Ф(а, б = 5) Для Каждого х Из а Цикл ~м: Если х Тогда х.у(б)[3] = Новый Т; КонецЕсли; КонецЦикла;
 Возврат ?(а, " ++ dquote ++ B "я" ++ dquote ++ B ", '20200101'); КонецФункции Попытка Перейти ~м; Исключение КонецПопытки;".
Example C60_example : accepted C60_code (tree_of C60_code) /\ text_of false C60_code (toks_of C60_code) /\ clean_toks Begin (toks_of C60_code) = true /\
  Forall one_line_tk (toks_of C60_code) /\ elems (m_gvars (tree_of C60_code)) <> [] /\
  exists t, Print (elems (m_gvars (tree_of C60_code))) (Conf 4 true) (tree_of C60_code) = Some t /\ (100 < length t)%nat.
Proof.
  split; [accepted|]. split; [apply C45_text; tokenized|]. split; [vm_compute; reflexivity|]. split.
  { vm_compute toks_of. repeat (constructor; [try exact I; cbn; intuition discriminate|]). constructor. }
  split; [vm_compute; discriminate|]. eexists. split; [vm_compute; reflexivity|]. vm_compute. repeat constructor.
Qed.
(** A directive is always written on a line of its own, and a string over several lines
    stays one. *)
Theorem C60_directive_refuted : exists code m t, accepted code m /\ Print [] (Conf 4 true) m = Some t /\ In x0a t /\ ~ In x0a code.
Proof.
  exists (B "&НаКлиенте Процедура П() КонецПроцедуры"), (tree_of (B "&НаКлиенте Процедура П() КонецПроцедуры")). eexists. split; [accepted|]. split; [vm_compute; reflexivity|].
  split; [left; reflexivity|]. intros X. vm_compute in X. intuition discriminate.
Qed.

Print Assumptions C60_lines.
Print Assumptions C60_letters.
Print Assumptions C60_statement.
Print Assumptions C60_one_line.
Print Assumptions C60_text.
Print Assumptions C60_directive_refuted.
