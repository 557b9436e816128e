(** Formatting is stable (C44).  Specification: Survive.v; proofs: Strip.v, Stable.v. *)
From Coq Require Import Permutation.
From Verif Require Import Bytes Utf8 Float64 GoTime Ast Lexer LexFacts LexSpec LexProofs Tables Parser Grammar Tok CertData Cert
  Driver DriverInv CellInv Syntax Rules Levels RulesFacts StmtInd Legal Printer PrintInv Properties_Parser Properties_Tree Properties_Bind Properties_Print Properties_Legal
  Writes PrintToks SpellInv Properties_Layout Survive Strip Stable Properties_Back.
Open Scope Z_scope.

(** * C44 A formatted text is not changed by formatting it again *)
(** [order]: the order in which this run lists the global variables. *)
Definition C44_statement : Prop := forall code m order c t, accepted code m -> Permutation order (elems (m_gvars m)) -> 0 <= margin c ->
  Print order c m = Some t -> exists m', accepted t m' /\ Print order c m' = Some t.
(** What holds: for the modules that are read back (C43) and that are settled (Survive.v), the tree of the printed
    text prints like the first one, with all options and orders. *)
Theorem C44_stable_partial : forall code l m order c t, accepted code m -> tokens code l -> clean_toks Begin l = true ->
  lasts_module m = true -> settled_module m = true -> spaced c m -> Permutation order (elems (m_gvars m)) ->
  Print order c m = Some t ->
  exists m', accepted t m' /\ same_module m m' /\ (forall order' c', Print order' c' m' = Print order' c' m) /\ Print order c m' = Some t.
Proof.
  intros code l m order c t Hm Hl Hc Hs Hse Hsp Ho Ht. destruct (print_again code l m order c t) as (m' & A & S & E & p' & ->); auto.
  exists (mean_program p'). split; [exact A|]. split; [exact S|].
  assert (X : forall order' c', Print order' c' (mean_program p') = Print order' c' m).
  { destruct (accepted_history _ _ Hm) as (a & Ha & Ea). destruct (history_built a Ha) as [_ Hbu]. rewrite Ea in Hbu.
    destruct (accepted_history _ _ A) as (a' & Ha' & Ea'). destruct (history_built a' Ha') as [_ Hbu']. rewrite Ea' in Hbu'.
    exact (module_prints p' m Hbu' Hbu E Hse Hs). }
  split; [exact X|]. rewrite X. exact Ht.
Qed.
(** Then formatting any number of times is formatting once: [formatted c code t] if formatting the text [code] once or more often with
    the options [c], each time in any order of the variables, can give [t]. *)
Inductive formatted (c : conf) (code : bytes) : bytes -> Prop :=
| formatted_once m order t : accepted code m -> Permutation order (elems (m_gvars m)) -> Print order c m = Some t -> formatted c code t
| formatted_again t m order u : formatted c code t -> accepted t m -> Permutation order (elems (m_gvars m)) -> Print order c m = Some u -> formatted c code u.
Theorem C44_many_times_partial : forall code l m c t, accepted code m -> tokens code l -> clean_toks Begin l = true ->
  lasts_module m = true -> settled_module m = true -> spaced c m ->
  formatted c code t -> exists order, Permutation order (elems (m_gvars m)) /\ Print order c m = Some t.
Proof.
  intros code l m c t Hm Hl Hc Hs Hse Hsp H. induction H as [m1 order t A P E|t m1 order u _ (o & P1 & E1) A P E].
  - rewrite (accepted_same _ _ _ Hm A). exists order. auto.
  - destruct (C44_stable_partial _ _ _ _ _ _ Hm Hl Hc Hs Hse Hsp P1 E1) as (m' & A' & (_ & Pm & _) & X & _).
    rewrite (accepted_same _ _ _ A' A) in *. exists order. rewrite <- X. split; [|exact E]. eapply Permutation_trans; [exact P|]. apply Permutation_sym, Pm.
Qed.
Example C44_example : let code := C43_text ++ C31_text in let m := tree_of code in
  accepted code m /\ tokens code (toks_of code) /\ clean_toks Begin (toks_of code) = true /\
  lasts_module m = true /\ settled_module m = true /\ spaced (Conf 4 false) m /\ Print (elems (m_gvars m)) (Conf 4 false) m <> None.
Proof.
  cbv zeta. split; [accepted|]. split; [tokenized|]. split; [vm_compute; reflexivity|]. split; [vm_compute; reflexivity|]. split; [vm_compute; reflexivity|]. split; [left; reflexivity|vm_compute; discriminate].
Qed.

(** Not in general.  A text, its formatted text, and what formatting makes of that: *)
Definition drifts (a b c : bytes) : Prop := accepted a (tree_of a) /\ accepted b (tree_of b) /\ accepted c (tree_of c) /\
  Print [] (Conf 4 true) (tree_of a) = Some b /\ Print [] (Conf 4 true) (tree_of b) = Some c /\ b <> c.
Ltac drifts := split; [accepted|]; split; [accepted|]; split; [accepted|]; split; [vm_compute; reflexivity|]; split; [vm_compute; reflexivity|vm_compute; discriminate].
(** a sign in double parentheses survives once and is lost then, *)
Theorem C44_sign_refuted : drifts (B "Ф((-а));") (B "Ф(-а);") (B "Ф(а);") /\
  same_module (tree_of (B "Ф((-а));")) (tree_of (B "Ф(-а);")) /\ ~ same_module (tree_of (B "Ф(-а);")) (tree_of (B "Ф(а);")).
Proof.
  split; [drifts|]. split; [split; [|split]; vm_compute; try reflexivity; constructor|]. intros (_ & _ & H). vm_compute in H. discriminate H.
Qed.
(** НЕ before an operand is moved out of the parentheses, and then applies to more, *)
Theorem C44_not_refuted : drifts (B "х = (НЕ а = б) + 1;") (B "х = (Не (а = б)) + 1;") (B "х = Не ((а = б)) + 1;") /\
  ~ same_module (tree_of (B "х = (Не (а = б)) + 1;")) (tree_of (B "х = Не ((а = б)) + 1;")).
Proof. split; [drifts|]. intros (_ & _ & H). vm_compute in H. discriminate H. Qed.
(** or is moved without harm, *)
Theorem C44_text_refuted : drifts (B "х = у И НЕ а = б;") (B "х = у И (Не (а = б));") (B "х = у И Не ((а = б));") /\
  same_module (tree_of (B "х = у И (Не (а = б));")) (tree_of (B "х = у И Не ((а = б));")).
Proof. split; [drifts|]. split; [|split]; vm_compute; try reflexivity; constructor. Qed.
(** and the branches of several ИначеЕсли change places every time (C23). *)
Theorem C44_branches_refuted : drifts (B "Если а Тогда ИначеЕсли б Тогда ИначеЕсли в Тогда КонецЕсли;") (B "Если а Тогда ИначеЕсли в Тогда ИначеЕсли б Тогда КонецЕсли;")
  (B "Если а Тогда ИначеЕсли б Тогда ИначеЕсли в Тогда КонецЕсли;").
Proof. drifts. Qed.
Theorem C44_statement_refuted : ~ C44_statement.
Proof.
  intros H. destruct C44_sign_refuted as ((A1 & A2 & _ & P1 & P2 & N) & _). destruct (H _ _ [] (Conf 4 true) _ A1 (Permutation_refl _) ltac:(discriminate) P1) as (m' & B1 & B2).
  rewrite <- (accepted_same _ _ _ A2 B1), P2 in B2. congruence.
Qed.

Print Assumptions C44_stable_partial.
Print Assumptions C44_many_times_partial.
Print Assumptions C44_sign_refuted.
Print Assumptions C44_not_refuted.
Print Assumptions C44_text_refuted.
Print Assumptions C44_branches_refuted.
Print Assumptions C44_statement_refuted.
