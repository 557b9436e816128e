(** Names and literals are opaque to the parser (C59).  Specification: Rename.v; proofs:
    RenameFacts.v. *)
From Verif Require Import Bytes Utf8 Float64 GoTime Ast Lexer LexFacts LexSpec LexProofs NumSpec Tables Parser Grammar Tok CertData Cert
  Driver DriverInv Trees Properties_Parser Syntax Rules Declared RulesFacts CleanFacts DeclaredFacts Order OrderFacts CstTrees CstEval CstModule Properties_Tree
  Machine Levels Bind BindCst Items Complete TightOk CstInj CstWf Regroup Properties_Signs Properties_Bind Legal Panics Accept Properties_Legal
  LexTrivia LexTokens Writes Lexical Scanned Printer Properties_Scan Rename RenameFacts.
From Verif Require Import Syntax Tok.
Open Scope Z_scope.

(** * C59 *)
(** Two texts that differ, apart from spaces, comments and letter case of keywords, in
    names and literals only: the trees of the one are the trees of the other with the names
    and literals exchanged, and the one is accepted exactly if the other is. *)
Theorem C59_rename : forall r code code' l, ~ all_white code -> ~ all_white code' ->
  text_of false code l -> text_of false code' (map (ren_tk r) l) -> proper r l -> clean_toks Begin l = true ->
  forall m', accepted code' m' <-> exists m, accepted code m /\ m' = ren_module r m.
Proof.
  intros r code code' l Hw Hw' Ht Ht' [P1 P2 P3 P4] Hc m'.
  assert (G : forall p, l = toks_program p -> defaults_ok p = true -> bound_program p = true ->
    (accepted code' m' <-> exists m, accepted code m /\ m' = ren_module r m)).
  { intros p -> Hd Hb. rewrite clean_program in Hc. rewrite <- rn_toks_program in Ht'.
    rewrite (C45_front code' m' (rn_program r p) Hw' Ht') by (rewrite ?rn_defaults, ?rn_bound, ?rn_clean; assumption).
    rewrite (rn_legal r P1 P2 P4 p P3), (rn_mean_program r P1 P2 P4). split.
    - intros [HL ->]. exists (mean_program p). split; [|reflexivity]. apply (C45_front code _ p Hw Ht Hd Hb Hc). auto.
    - intros (m & Hm & ->). apply (C45_front code m p Hw Ht Hd Hb Hc) in Hm as [HL ->]. auto. }
  split.
  - intros H. destruct (C45_accepted _ _ H) as (p' & A1 & A2 & A3). pose proof (C45_unique _ _ _ Ht' A1) as E.
    destruct (un_program r p' l E) as (p & <- & <-). rewrite rn_defaults in A2. rewrite rn_bound in A3. apply (G p eq_refl A2 A3), H.
  - intros (m & Hm & E). destruct (C45_accepted _ _ Hm) as (p & A1 & A2 & A3). pose proof (C45_unique _ _ _ Ht A1) as El.
    apply (G p El A2 A3). eauto.
Qed.
(** In particular the new text has a tree exactly if the old one has. *)
Theorem C59_accepted : forall r code code' l, ~ all_white code -> ~ all_white code' ->
  text_of false code l -> text_of false code' (map (ren_tk r) l) -> proper r l -> clean_toks Begin l = true ->
  ((exists m, accepted code m) <-> exists m', accepted code' m').
Proof.
  intros r code code' l H1 H2 H3 H4 H5 H6. pose proof (C59_rename r code code' l H1 H2 H3 H4 H5 H6) as G. split.
  - intros (m & Hm). exists (ren_module r m). apply G. eauto.
  - intros (m' & Hm). apply G in Hm as (m & Hm & _). eauto.
Qed.

(** All names with a digit behind them, all strings doubled, all numbers seven, all dates the same. *)
Definition C59_ren : ren := Ren (fun n => match n with [] => [] | _ => n ++ B "1" end) (fun n => n ++ B "1")
  (fun n => match n with [] => [] | _ => B "&НаСервере" end) (fun s => s ++ s) (fun f => F64 (f_neg f) (7 * 2 ^ 50) (-50)) (fun _ => GoTime 2024 2 29 0 0 0).
Definition C59_old : bytes := B "Перем г; &НаКлиенте Функция Ф(а, Знач б = -5) Перем в; Для Каждого х Из а Цикл ~м: х.у(б)[3] = Новый Т; КонецЦикла; Возврат ?(а, " ++ dquote ++ B "я" ++ dquote ++ B ", '20200101'); КонецФункции".
Definition C59_new : bytes := B "Перем г1; &НаСервере ФУНКЦИЯ Ф1(а1, Знач б1 = -7) // другое
 Перем в1; Для Каждого х1 Из а1 Цикл ~м1: х1.у1(б1)[7] = Новый Т1; КонецЦикла; Возврат ?(а1, " ++ dquote ++ B "яя" ++ dquote ++ B ", '20240229'); КонецФункции".
Example C59_example : ~ all_white C59_old /\ ~ all_white C59_new /\ text_of false C59_old (toks_of C59_old) /\
  text_of false C59_new (map (ren_tk C59_ren) (toks_of C59_old)) /\ proper C59_ren (toks_of C59_old) /\ clean_toks Begin (toks_of C59_old) = true /\
  accepted C59_old (tree_of C59_old) /\ accepted C59_new (ren_module C59_ren (tree_of C59_old)).
Proof.
  assert (A : accepted C59_old (tree_of C59_old)) by accepted.
  assert (A' : accepted C59_new (tree_of C59_new)) by accepted.
  split; [apply A|]. split; [apply A'|]. split; [apply C45_text; tokenized|]. split.
  { replace (map _ _) with (toks_of C59_new) by (vm_compute; reflexivity). apply C45_text; tokenized. }
  split.
  { split; [reflexivity|reflexivity| |reflexivity]. intros n n' _ _. unfold C59_ren. cbn [r_name]. destruct n, n'; intros E; [reflexivity| | |].
    - symmetry in E. apply app_eq_nil in E. destruct E; discriminate.
    - apply app_eq_nil in E. destruct E; discriminate.
    - apply app_inv_tail in E. exact E. }
  split; [vm_compute; reflexivity|]. split; [exact A|].
  replace (ren_module _ _) with (tree_of C59_new) by (vm_compute; reflexivity). exact A'.
Qed.
(** Names that are not kept apart make a difference. *)
Theorem C59_together_refuted : exists r code code' l, ~ all_white code /\ ~ all_white code' /\ text_of false code l /\
  text_of false code' (map (ren_tk r) l) /\ clean_toks Begin l = true /\ (exists m, accepted code m) /\ ~ exists m, accepted code' m.
Proof.
  set (r := Ren (fun n => match n with [] => [] | _ => B "а" end) (fun n => n) (fun n => n) (fun s => s) (fun f => f) (fun d => d)).
  set (c := B "Перем а, б;"). set (c' := B "Перем а, а;"). exists r, c, c', (toks_of c).
  assert (A : accepted c (tree_of c)) by accepted. split; [apply A|]. split.
  { intros H. rewrite <- blank_white in H. revert H. vm_compute. discriminate. }
  split; [apply C45_text; tokenized|]. split.
  { replace (map _ _) with (toks_of c') by (vm_compute; reflexivity). apply C45_text; tokenized. }
  split; [vm_compute; reflexivity|]. split; [eauto|]. intros (m & _ & a' & H & _).
  assert (X : match parse c' with Some (Ok (_, None)) => false | _ => true end = true) by (vm_compute; reflexivity). rewrite H in X. discriminate X.
Qed.

Print Assumptions C59_rename.
Print Assumptions C59_accepted.
Print Assumptions C59_together_refuted.
