(** A broken rule is reported, and the only broken rule by its own message (C73).  Specification: OneRule.v, Broken.v. *)
From Verif Require Import Bytes Utf8 Float64 GoTime Ast Lexer LexFacts LexSpec LexProofs NumSpec Tables Parser Grammar Tok CertData Cert
  Driver DriverInv Trees Properties_Parser Syntax Rules Declared RulesFacts CleanFacts DeclaredFacts Order OrderFacts CstTrees CstEval CstModule Properties_Tree
  Panics CstWf Properties_Legal Lexical Where Broken Cause BrokenFacts Properties_Blame Properties_Cause Properties_Same OneRule.
From Verif Require Import Lexical Where Tok.
Open Scope Z_scope.

Lemma twice_nodup {A} (n : A) l : twice n l -> ~ NoDup l.
Proof.
  intros (l1 & l2 & l3 & ->) H. apply NoDup_remove_2 in H. apply H. rewrite !in_app_iff. right. right. left. reflexivity.
Qed.
(** A text accepted breaks no rule of [sure]. *)
Lemma accepted_sure code m0 l m : accepted code m0 -> tokens code l -> ~ sure m l.
Proof.
  intros H Hl. destruct (program_of _ _ H) as (p & H1 & _ & _ & _ & [V1 V2] & _). pose proof (tokens_det _ _ _ Hl H1) as El.
  destruct m; cbn [sure breaks_rule]; try (intros []; fail).
  - rewrite (C18_before_while_partial _ _ _ H Hl). discriminate.
  - rewrite (C19_throw_in_handler _ _ _ H Hl). discriminate.
  - rewrite (C20_return_value_in_function _ _ _ H Hl). discriminate.
  - rewrite El, locals_program. intros (ls & Hi & T). apply in_map_iff in Hi as (f & <- & Hf). rewrite Forall_forall in V1. exact (twice_nodup _ _ T (V1 _ Hf)).
  - rewrite El, globals_program. intros T. exact (twice_nodup _ _ T V2).
  - rewrite (proj1 (C22_layout _ _ _ H Hl)). discriminate.
Qed.

(** * C73 A broken rule is reported *)
Theorem C73_reported : forall code l a' e m, tokens code l -> ~ all_white code -> sentence l -> unsigned l -> parse code = Some (Ok (a', e)) -> sure m l ->
  exists m' line col lit, e = Some (EParse m' line col lit) /\ breaks_rule m' l.
Proof.
  intros code l a' e m Ht Hw Hs Hu Hp Hm. destruct e as [[x|m' line col lit]|].
  - exfalso. destruct Ht as (raw & Hl & _). exact (no_lex_error _ _ _ _ (blank_not_white _ Hw) Hl Hp).
  - exists m', line, col, lit. split; [reflexivity|]. eapply C48_true; [exact Ht|exact Hp|]. intros ->.
    assert (N : forall q, parse code <> Some (Panic q)) by (intros q E; congruence).
    apply (proj1 (C46_exactly code l Ht Hw Hu N)); [|exact Hs]. exists line, col, lit, a'. exact Hp.
  - exfalso. refine (accepted_sure code (a_module a') l m _ Ht Hm). split; [exact Hw|]. exists a'. auto.
Qed.
(** The only broken rule is reported by its own message. *)
Theorem C73_only : forall code l a' e m, tokens code l -> ~ all_white code -> sentence l -> unsigned l -> parse code = Some (Ok (a', e)) -> sure m l ->
  (forall m', breaks_rule m' l -> same_rule m m') -> exists m' line col lit, e = Some (EParse m' line col lit) /\ same_rule m m'.
Proof.
  intros code l a' e m Ht Hw Hs Hu Hp Hm Ho. destruct (C73_reported _ _ _ _ _ Ht Hw Hs Hu Hp Hm) as (m' & line & col & lit & E & Hb). exists m', line, col, lit. auto.
Qed.
(** What is sure is broken. *)
Lemma before_breaks l : forall d, breaks_toks d (before_while l) = false -> breaks_toks d l = false.
Proof.
  induction l as [|t l IH]; intros d H; [exact H|]. cbn [before_while] in H. destruct (kind_of t =? tWhile); [discriminate H|]. cbn [breaks_toks] in *.
  destruct (kind_of t =? tLoop); [auto|]. destruct (kind_of t =? tEndLoop); [auto|]. destruct ((kind_of t =? tBreak) || (kind_of t =? tContinue)); [|auto].
  apply andb_false_iff in H as [->|H]; [reflexivity|]. rewrite (IH _ H). apply andb_false_r.
Qed.
Theorem C73_sure : forall m l, sure m l -> breaks_rule m l.
Proof. intros m l H. destruct m; cbn [sure] in H; try exact H; [destruct H|]. apply before_breaks, H. Qed.
(** Of several violations another one than the first may be reported: the message is that of the last check that failed. *)
Definition two_rules : bytes := B "Прервать; ВызватьИсключение;".
Theorem C73_first_refuted : exists a' line col lit w, tokens two_rules (toks_of two_rules) /\ sure (MLoopOp w) (toks_of two_rules) /\ breaks_toks 0 (firstn 1 (toks_of two_rules)) = false /\
  parse two_rules = Some (Ok (a', Some (EParse (MThrow (B "ВызватьИсключение")) line col lit))).
Proof.
  eexists _, _, _, _, []. split; [tokenized|]. split; [vm_compute; reflexivity|]. split; [vm_compute; reflexivity|]. vm_compute. reflexivity.
Qed.

(** Examples: a text with one broken rule that meets all hypotheses. *)
Definition one_rule : bytes := B "Функция Ф() Возврат Истина; КонецФункции Процедура П() Перем а, б; Возврат Ложь; КонецПроцедуры".
Definition one_program : program :=
  Program (ISnoc (ISnoc INil (IFunc (CFunc None true (B "Ф") PNil false VNil (BSkip (BOne (CReturn (OSome ETrue))) Semi))))
                 (IFunc (CFunc None false (B "П") PNil false (VSnoc VNil (Names (Name (B "а")) (B "б"))) (BSkip (BOne (CReturn (OSome EFalse))) Semi)))) BNil.
Example C73_example : let l := toks_of one_rule in
  tokens one_rule l /\ ~ all_white one_rule /\ sentence l /\ unsigned l /\ sure MReturn l /\ (forall m', breaks_rule m' l -> same_rule MReturn m') /\
  exists a' line col lit, parse one_rule = Some (Ok (a', Some (EParse MReturn line col lit))).
Proof.
  cbv zeta. split; [tokenized|]. split; [intros Hw; rewrite <- blank_white in Hw; revert Hw; vm_compute; discriminate|]. split.
  { assert (E : toks_of one_rule = toks_program one_program) by (vm_compute; reflexivity). unfold sentence. rewrite E. assert (Hd : defaults_ok one_program = true) by reflexivity.
    destruct (good_program one_program Hd) as [W S]. rewrite <- (yield_program one_program Hd). apply wf_derives; assumption. }
  split; [vm_compute; reflexivity|]. split; [vm_compute; reflexivity|]. split; [|eexists _, _, _, _; vm_compute; reflexivity].
  intros m' H. destruct m'; cbn [breaks_rule same_rule] in *; try exact I; try (vm_compute in H; discriminate H); try exact H.
  - assert (E : locals false false [] (toks_of one_rule) = [[]; [B "а"; B "б"]]) by (vm_compute; reflexivity). rewrite E in H. destruct H as (ls & Hi & T). apply twice_nodup in T. apply T.
    destruct Hi as [<-|[<-|[]]]; [constructor|]. constructor; [intros [X|[]]; vm_compute in X; discriminate X|]. constructor; [intros []|constructor].
  - assert (E : globals false false (toks_of one_rule) = []) by (vm_compute; reflexivity). rewrite E in H. apply twice_nodup in H. apply H. constructor.
Qed.
Print Assumptions C73_reported.
Print Assumptions C73_only.
Print Assumptions C73_sure.
Print Assumptions C73_first_refuted.
