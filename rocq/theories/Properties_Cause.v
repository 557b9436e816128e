(** The rule an error message names is broken by the text (C48).  Specification: Broken.v,
    Rules.v; proofs: Cause.v, BrokenFacts.v. *)
From Verif Require Import Bytes Utf8 Float64 GoTime Ast Lexer LexFacts LexSpec LexProofs NumSpec Tables Parser Grammar Tok CertData Cert
  Driver DriverInv Trees Properties_Parser Syntax Rules Declared RulesFacts CleanFacts DeclaredFacts Order OrderFacts CstTrees CstEval CstModule Properties_Tree
  Machine Levels Bind BindCst Items Complete TightOk CstInj CstWf Regroup Properties_Signs Properties_Bind Legal Panics Accept Properties_Legal
  LexTrivia LexTokens Writes Lexical Scanned ViableData Viable Stuck Blame Told Where Placed Broken Cause BrokenFacts.
Open Scope Z_scope.

Lemma rule_of p m : program_wrong p m -> breaks_rule m (toks_program p).
Proof.
  destruct m; cbn [program_wrong breaks_rule]; try (intros []; fail); intros H.
  - apply not_true_is_false. intros E. apply strict_program in E. congruence.
  - apply not_true_is_false. intros E. rewrite breaks_program in E. apply breaks_loose in E. congruence.
  - rewrite throws_program. exact H.
  - rewrite returns_program. exact H.
  - destruct H as (f & F1 & F2). rewrite locals_program. eexists. split; [apply in_map, F1|exact F2].
  - rewrite globals_program. exact H.
  - rewrite layout_program. exact H.
Qed.
(** * C48 An error message names a rule that the text breaks *)
Theorem C48_true : forall code l a' m line col lit, tokens code l -> parse code = Some (Ok (a', Some (EParse m line col lit))) -> m <> MSyntax ->
  breaks_rule m l.
Proof.
  intros code l a' m line col lit (raw & Hl & ->) Hp Hm. destruct (blank code) eqn:Hb.
  { unfold parse, Parse in Hp. cbn [NewAST a_code] in Hp. rewrite Hb in Hp. discriminate. }
  destruct (parse_ends _ _ Hb Hl) as [(q & E)|[(b & T & E & HA & W & S & _)|(b & st & post & t & E & _)]]; [congruence| |unfold loc in E; congruence].
  assert (Ht : tokens code (tks raw)) by (exists raw; auto). pose proof (tokens_wf _ _ Ht) as Hin.
  pose proof (accepted_tight _ _ Hin HA) as Hti. pose proof (maccepts_yield _ _ Hin HA) as Hy.
  destruct (wf_program _ W S) as (p & Hd & ->). rewrite (yield_program p Hd) in Hy. rewrite (tight_program p Hd) in Hti.
  fold (tks raw). rewrite <- Hy in *. apply rule_of.
  destruct (Parse_bound (NewAST code) p Hb Ht Hd Hti) as [(v & a1 & a2 & P1 & P2 & P3 & _)|(P1 & _)]; [|unfold parse in Hp; congruence].
  destruct (fresh_new _ _ P2) as [F F2].
  unfold parse in Hp. rewrite P1 in Hp. injection Hp as <- Herr.
  destruct (wrong_program p v a1 a2 Hd F P3) as [A|(m' & l' & c' & x' & A & Q)].
  - congruence.
  - rewrite Herr in A. injection A as -> _ _ _. exact Q.
Qed.
(** Examples: each rule, broken inside a text that obeys the others. *)
Definition rule_text (m : emsg) : bytes :=
  match m with
  | MLoopOp _ => B "Для Каждого а Из б Цикл Продолжить; КонецЦикла; Прервать;"
  | MThrow _ => B "Попытка а(); Исключение ВызватьИсключение; КонецПопытки; ВызватьИсключение;"
  | MReturn => B "Функция Ф() Возврат 1; КонецФункции Процедура П() Возврат 2; КонецПроцедуры"
  | MVarDup _ => B "Перем а; Процедура П() Перем а; КонецПроцедуры Процедура Р() Перем б, в, б; КонецПроцедуры"
  | MGlobalDup _ => B "Перем а, б; Перем в, а; Процедура П() КонецПроцедуры"
  | MGlobalPlace => B "Перем а; Процедура П() Перем б; КонецПроцедуры Перем в;"
  | MSemicolon => B "~л: а = 1; б = 2: в = 3;"
  | _ => []
  end.
Definition all_rules : list emsg := [MLoopOp (B "Прервать"); MThrow (B "ВызватьИсключение"); MReturn; MVarDup (B "б"); MGlobalDup (B "а"); MGlobalPlace; MSemicolon].
Definition told_rule (m : emsg) : Prop := exists a' line col lit, parse (rule_text m) = Some (Ok (a', Some (EParse m line col lit))).
Example C48_example : Forall (fun m => tokens (rule_text m) (toks_of (rule_text m)) /\ told_rule m /\ m <> MSyntax) all_rules.
Proof. unfold all_rules. repeat (constructor; [split; [cbn [rule_text]; tokenized|split; [eexists _, _, _, _; vm_compute; reflexivity|discriminate]]|]). constructor. Qed.
(** The names the rules speak of, and the labels. *)
Example C48_names : locals false false [] (toks_of (rule_text (MVarDup []))) = [[B "а"]; [B "б"; B "в"; B "б"]] /\
  globals false false (toks_of (rule_text (MGlobalDup []))) = [B "а"; B "б"; B "в"; B "а"] /\
  colons_toks false false (toks_of (B "~л: а = 1; Если а Тогда ~м: б(); КонецЕсли;")) = true /\
  colons_toks false false (toks_of (B "Перейти ~л: а = 1;")) = false.
Proof. repeat split; vm_compute; reflexivity. Qed.
(** Each of these texts breaks no other rule, so no other message would be true of it. *)
Definition rules_broken (l : list tk) : list bool :=
  [negb (breaks_toks 0 l); negb (throws_toks 0 l); negb (returns_toks false l); negb (vars_toks false false [] [] l); negb (layout_toks false false l); negb (colons_toks false false l)].
Example C48_alone : map (fun m => rules_broken (toks_of (rule_text m))) all_rules =
  [[true; false; false; false; false; false]; [false; true; false; false; false; false]; [false; false; true; false; false; false];
   [false; false; false; true; false; false]; [false; false; false; true; false; false]; [false; false; false; false; true; false]; [false; false; false; false; false; true]].
Proof. vm_compute. reflexivity. Qed.

Print Assumptions C48_true.
