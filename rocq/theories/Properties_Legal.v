(** Which texts are accepted, which panic (C14, C18, C25, C42).  Specification: Grammar.v,
    Rules.v, Declared.v (rules on tokens), Syntax.v and Levels.v (programs and their
    grouping); proofs: Legal.v, Panics.v, Accept.v, DeclaredFacts.v. *)
From Verif Require Import Bytes Utf8 Float64 GoTime Ast Lexer LexFacts LexSpec LexProofs Tables Parser Grammar Tok CertData Cert
  Driver DriverInv Trees Properties_Parser Syntax Rules Declared RulesFacts CleanFacts DeclaredFacts Order OrderFacts CstTrees CstEval CstModule Properties_Tree
  Machine Levels Bind BindCst Items Complete TightOk CstInj CstWf Regroup Properties_Signs Properties_Bind Legal Panics Accept.
Open Scope Z_scope.

Lemma fresh_new code a : same_ctx (NewAST code) a -> fresh a /\ a_err a = None.
Proof. intros (_ & S2 & S3 & S4 & S5 & S6). unfold fresh. rewrite S2, S3, S4, S5, S6. repeat split. Qed.
(** A program grouped by the table is accepted exactly if it obeys the rules. *)
Lemma legal_accepted code p : ~ all_white code -> tokens code (toks_program p) -> defaults_ok p = true -> bound_program p = true -> legal p ->
  exists m, accepted code m.
Proof.
  intros Hw Ht Hd Hb Hl. destruct (Parse_bound (NewAST code) p (blank_not_white _ Hw) Ht Hd Hb) as [(v & a1 & a' & H1 & H2 & H3 & _)|[_ H]].
  - destruct (fresh_new _ _ H2) as [F1 F2]. pose proof (legal_program _ _ _ _ Hd F1 F2 H3 Hl) as He. rewrite He in H1.
    exists (a_module a'). split; [exact Hw|]. exists a'. auto.
  - destruct Hl as (_ & _ & _ & Hv & _). destruct (legal_map _ Hv H).
Qed.
Lemma accepted_legal code m p : accepted code m -> tokens code (toks_program p) -> defaults_ok p = true -> bound_program p = true ->
  loose_ok p = true /\ throws_ok p = true /\ returns_ok p = true /\ vars_once p /\ layout_ok (pr_items p) = true /\ (clean p = true -> colons_ok p = true /\ m = mean_program p).
Proof.
  intros (Hw & a0 & Ha & Hm) Ht Hd Hb. pose proof (blank_not_white _ Hw) as Hbl.
  destruct (Parse_bound (NewAST code) p Hbl Ht Hd Hb) as [(v & a1 & a' & H1 & H2 & H3 & _)|[H _]]; unfold parse in Ha; rewrite Ha in *; [|discriminate].
  injection H1 as -> He. destruct (fresh_new _ _ H2) as [F1 F2]. subst m.
  destruct (eval_program p v a1 a' Hd F1 H3 (eq_sym He)) as (E1 & E2 & E3 & E4 & E5 & _ & E6). tauto.
Qed.

(** * C42 *)
(** A text is accepted if its tokens are those of a program, whatever its grouping, that
    obeys the rules; its tree is the tree of the program grouped by the table. *)
Theorem C42_accepted : forall code p, ~ all_white code -> tokens code (toks_program p) -> defaults_ok p = true -> defaults_bound p = true -> legal p ->
  exists m, accepted code m /\ (clean p = true -> m = mean_program (regroup_program p)).
Proof.
  intros code p Hw Ht Hd Hb Hl. rewrite <- regroup_program_toks in Ht. rewrite <- regroup_program_defaults in Hd. apply regroup_program_bound in Hb. apply regroup_legal in Hl.
  destruct (legal_accepted _ _ Hw Ht Hd Hb Hl) as (m & Hm). exists m. split; [exact Hm|]. rewrite <- regroup_clean.
  intros Hc. apply (accepted_legal _ _ _ Hm Ht Hd Hb), Hc.
Qed.
(** The same on the tokens alone: derivable from the grammar, every rule obeyed, no colon
    and no signed default value. *)
Theorem C42_derivable : forall code l, ~ all_white code -> tokens code l -> derives n_module (map kind_of l) ->
  breaks_toks 0 l = true -> throws_toks 0 l = true -> returns_toks false l = true -> layout_toks false false l = true ->
  vars_toks false false [] [] l = true -> unsigned_toks false l = true -> ~ In (Pct ":") l -> exists m, accepted code m.
Proof.
  intros code l Hw Ht Hg H1 H2 H3 H4 H5 H6 H7. destruct (derives_program l Hg (tokens_wf _ _ Ht)) as (p & Hd & <-).
  destruct (C42_accepted code p Hw Ht Hd (unsigned_program _ Hd H6)) as (m & Hm & _); [|eauto].
  rewrite breaks_program in H1. rewrite throws_program in H2. rewrite returns_program in H3. rewrite layout_program in H4. apply DeclaredFacts.vars_program in H5.
  destruct (no_colon _ H7) as [H8 _]. unfold legal. auto 10 using breaks_loose.
Qed.
(** Nothing else is accepted, as long as no block starts with a separator. *)
Theorem C42_exactly : forall code l, ~ all_white code -> tokens code l -> clean_toks Begin l = true ->
  ((exists m, accepted code m) <->
   throws_toks 0 l = true /\ returns_toks false l = true /\ layout_toks false false l = true /\ vars_toks false false [] [] l = true /\
   exists p, l = toks_program p /\ defaults_ok p = true /\ defaults_bound p = true /\ loose_ok p = true /\ colons_ok p = true).
Proof.
  intros code l Hw Ht Hc. split.
  - intros (m & Hm). destruct (bound_of _ _ Hm) as (p & H1 & Hd & Hb & _). pose proof (tokens_det _ _ _ Ht H1) as ->.
    destruct (accepted_legal _ _ _ Hm H1 Hd Hb) as (E1 & E2 & E3 & E4 & E5 & E6). rewrite clean_program in Hc. destruct (E6 Hc) as [E7 _].
    rewrite throws_program, returns_program, layout_program. repeat (split; [assumption|]). split; [apply DeclaredFacts.vars_program, E4|].
    exists p. repeat (split; [first [assumption|reflexivity]|]). split; [|auto]. unfold bound_program in Hb. apply andb_true_iff in Hb as [Hb _].
    unfold defaults_bound. rewrite forallb_forall in *. intros f Hf. specialize (Hb f Hf). apply andb_true_iff in Hb. apply Hb.
  - intros (H2 & H3 & H4 & H5 & p & -> & Hd & Hb & H1 & H6). destruct (C42_accepted code p Hw Ht Hd Hb) as (m & Hm & _); [|eauto].
    rewrite throws_program in H2. rewrite returns_program in H3. rewrite layout_program in H4. apply DeclaredFacts.vars_program in H5. rewrite clean_program in Hc.
    unfold legal. auto 10 using clean_sure.
Qed.
(** One example with all the constructs the rules are about. *)
Definition legal_text : bytes := B "Перем г, д Экспорт; Функция Ф(а, Знач б = 5) Перем в, е; Попытка Для Каждого х Из а Цикл Если х = 1 Тогда Прервать; КонецЕсли; КонецЦикла; Исключение ВызватьИсключение; КонецПопытки; Возврат а + б * 2; КонецФункции Ф(1, 2);".
Ltac no_colons := intros H; vm_compute in H; intuition discriminate.
Example C42_example : ~ all_white legal_text /\ tokens legal_text (toks_of legal_text) /\ derives n_module (map kind_of (toks_of legal_text)) /\
  breaks_toks 0 (toks_of legal_text) = true /\ throws_toks 0 (toks_of legal_text) = true /\ returns_toks false (toks_of legal_text) = true /\
  layout_toks false false (toks_of legal_text) = true /\ vars_toks false false [] [] (toks_of legal_text) = true /\ unsigned_toks false (toks_of legal_text) = true /\
  clean_toks Begin (toks_of legal_text) = true /\ ~ In (Pct ":") (toks_of legal_text).
Proof.
  assert (A : accepted legal_text (tree_of legal_text)) by accepted.
  assert (Tk : tokens legal_text (toks_of legal_text)) by tokenized.
  split; [apply A|]. split; [exact Tk|]. split.
  - destruct A as (Hw & a' & Ha & _). destruct (C15_accepted _ _ Ha Hw) as (l & Hl & Hd). rewrite (tokens_det _ _ _ Tk Hl). exact Hd.
  - repeat (split; [vm_compute; reflexivity|]). no_colons.
Qed.
(** Derivability alone is not enough: after the sign of a default value the grammar allows
    any expression, the tables stop at the first operator. *)
Theorem C42_derivable_refuted : exists code l, ~ all_white code /\ tokens code l /\ derives n_module (map kind_of l) /\
  breaks_toks 0 l = true /\ throws_toks 0 l = true /\ returns_toks false l = true /\ layout_toks false false l = true /\
  vars_toks false false [] [] l = true /\ ~ In (Pct ":") l /\ ~ exists m, accepted code m.
Proof.
  set (c := B "Процедура П(а = -б + в) КонецПроцедуры").
  set (p := Program (ISnoc INil (IFunc (CFunc None false (B "П") (POne (ParDef (Par (B "а")) (ENeg (EBin BPlus (id (B "б")) (id (B "в")))))) false VNil BNil))) BNil).
  assert (Tk : tokens c (toks_of c)) by tokenized.
  assert (E : toks_of c = toks_program p) by (vm_compute; reflexivity).
  exists c, (toks_of c). split.
  { intros H. rewrite <- blank_white in H. revert H. vm_compute. discriminate. }
  split; [exact Tk|]. split.
  - rewrite E. assert (Hd : defaults_ok p = true) by reflexivity. destruct (good_program p Hd) as [W S]. rewrite <- (yield_program p Hd). apply wf_derives; assumption.
  - repeat (split; [vm_compute; reflexivity|]). split; [no_colons|]. intros (m & _ & a' & H & _).
    assert (X : match parse c with Some (Ok (_, None)) => false | _ => true end = true) by (vm_compute; reflexivity). rewrite H in X. discriminate X.
Qed.

(** * C14 *)
(** Without lexical errors Parse panics only if the text has two Перем declarations in a
    row of which the first repeats a name ... *)
Theorem C14_only_repeated_partial : forall a l q, tokens (a_code a) l -> Parse a = Some (Panic q) ->
  exists l1 x l2, l = l1 ++ toks_vars x ++ l2 /\ second_list x = true /\ ~ NoDup (first_list x).
Proof. intros a l q Ht H. exact (Parse_panic _ _ _ Ht H). Qed.
(** ... and for texts grouped by the table it does panic exactly then. *)
Theorem C14_exactly : forall a p, blank (a_code a) = false -> tokens (a_code a) (toks_program p) -> defaults_ok p = true -> bound_program p = true ->
  ((exists q, Parse a = Some (Panic q)) <-> breaks_map p).
Proof.
  intros a p Hb Ht Hd Hp. destruct (Parse_bound a p Hb Ht Hd Hp) as [(v & a1 & a' & H1 & _ & _ & H2)|[H1 H2]]; rewrite H1.
  - split; [intros (q & [=])|contradiction].
  - split; [auto|eauto].
Qed.
Definition panic_program (v : cvars) : program := Program (ISnoc INil (IFunc (CFunc None false (B "П") PNil false v BNil))) BNil.
Example C14_example_exactly : let v := VSnoc (VSnoc VNil (Names (Name (B "А")) (B "А"))) (Name (B "Б")) in
  let c := B "Процедура П() Перем А, А; Перем Б; КонецПроцедуры" in
  tokens c (toks_program (panic_program v)) /\ bound_program (panic_program v) = true /\ breaks_map (panic_program v) /\
  ~ breaks_map (panic_program (VSnoc VNil (Names (Name (B "А")) (B "А")))).
Proof.
  cbv zeta. split; [|split; [vm_compute; reflexivity|]].
  - replace (toks_program _) with (toks_of (B "Процедура П() Перем А, А; Перем Б; КонецПроцедуры")) by (vm_compute; reflexivity). tokenized.
  - split.
    + eexists. split; [left; reflexivity|]. split; [reflexivity|]. intros H. inversion H as [|? ? H1 _]. apply H1. left. reflexivity.
    + intros (f & [<-|[]] & H & _). discriminate H.
Qed.

(** * C18: no false alarms *)
(** If every Прервать and Продолжить is inside a loop, a text that obeys the other rules is
    accepted. *)
Theorem C18_no_false_alarm : forall code p, ~ all_white code -> tokens code (toks_program p) -> defaults_ok p = true -> defaults_bound p = true ->
  throws_ok p = true -> returns_ok p = true -> vars_once p -> layout_ok (pr_items p) = true -> sure_ok p = true ->
  breaks_toks 0 (toks_program p) = true -> exists m, accepted code m.
Proof.
  intros code p Hw Ht Hd Hb H1 H2 H3 H4 H5 H6. destruct (C42_accepted code p Hw Ht Hd Hb) as (m & Hm & _); [|eauto].
  rewrite breaks_program in H6. unfold legal. auto 10 using breaks_loose.
Qed.
(** And a text rejected although it obeys the other rules has one outside. *)
Theorem C18_rejected : forall code p, ~ all_white code -> tokens code (toks_program p) -> defaults_ok p = true -> defaults_bound p = true ->
  throws_ok p = true -> returns_ok p = true -> vars_once p -> layout_ok (pr_items p) = true -> sure_ok p = true ->
  ~ (exists m, accepted code m) -> breaks_toks 0 (toks_program p) = false.
Proof.
  intros code p Hw Ht Hd Hb H1 H2 H3 H4 H5 H6. apply not_true_iff_false. intros H. apply H6. eapply C18_no_false_alarm; eassumption.
Qed.
Definition loop_program : program := Program INil (BSkip (BOne (CForEach (B "х") (LPath (PId (IVar (B "а")))) (BSkip (BOne CBreak) Semi))) Semi).
Example C18_example_inside : let c := B "Для Каждого х Из а Цикл Прервать; КонецЦикла;" in
  ~ all_white c /\ tokens c (toks_program loop_program) /\ defaults_ok loop_program = true /\ defaults_bound loop_program = true /\ throws_ok loop_program = true /\ returns_ok loop_program = true /\
  vars_once loop_program /\ layout_ok (pr_items loop_program) = true /\ sure_ok loop_program = true /\ breaks_toks 0 (toks_program loop_program) = true.
Proof.
  cbv zeta. split.
  { intros H. rewrite <- blank_white in H. revert H. vm_compute. discriminate. }
  split.
  { replace (toks_program loop_program) with (toks_of (B "Для Каждого х Из а Цикл Прервать; КонецЦикла;")) by (vm_compute; reflexivity). tokenized. }
  repeat (split; [vm_compute; reflexivity|]). split; [split; constructor|]. repeat (split; [vm_compute; reflexivity|]). vm_compute. reflexivity.
Qed.

(** * C25 on texts *)
Lemma assign_legal n e : legal (assign n e).
Proof. unfold legal, vars_once. repeat split; try reflexivity; constructor. Qed.
Lemma assign_accepted code n e : ~ all_white code -> bound e = true -> tokens code (toks_program (assign n e)) -> exists m, accepted code m /\ m = mean_program (assign n e).
Proof.
  intros Hw Hb Ht.
  assert (Hp : bound_program (assign n e) = true) by (cbn; rewrite Hb; reflexivity).
  destruct (legal_accepted code (assign n e) Hw Ht eq_refl Hp (assign_legal n e)) as (m & Hm). exists m. split; [exact Hm|].
  apply (accepted_legal _ _ _ Hm Ht eq_refl Hp). reflexivity.
Qed.
Lemma assign_inj n e e' : mean_program (assign n e) = mean_program (assign n e') <-> mean_expr e = mean_expr e'.
Proof. split; [intros [= H]; exact H|]. intros H. unfold mean_program, assign. cbn [pr_items pr_body mean_block mean_stmt]. rewrite H. reflexivity. Qed.
(** Exactly when the texts [n = e;] and [n = НЕ e;] get different trees; and [n = -e;]. *)
Theorem C25_text_not_partial : forall c1 c2 n e, ~ all_white c1 -> ~ all_white c2 -> bound e = true -> bound (ENot e) = true ->
  tokens c1 (toks_program (assign n e)) -> tokens c2 (toks_program (assign n (ENot e))) ->
  exists m1 m2, accepted c1 m1 /\ accepted c2 m2 /\
    (m2 <> m1 <-> Properties_Signs.operand e = OBoolean \/ (markable_not (Properties_Signs.operand e) = true /\ has_not e = false)).
Proof.
  intros c1 c2 n e W1 W2 B1 B2 T1 T2. destruct (assign_accepted _ _ _ W1 B1 T1) as (m1 & A1 & ->). destruct (assign_accepted _ _ _ W2 B2 T2) as (m2 & A2 & ->).
  do 2 eexists. split; [exact A1|]. split; [exact A2|]. rewrite assign_inj. apply C25_not_partial.
Qed.
Theorem C25_text_minus_partial : forall c1 c2 n e, ~ all_white c1 -> ~ all_white c2 -> bound e = true -> bound (ENeg e) = true ->
  tokens c1 (toks_program (assign n e)) -> tokens c2 (toks_program (assign n (ENeg e))) ->
  exists m1 m2, accepted c1 m1 /\ accepted c2 m2 /\
    (m2 <> m1 <-> Properties_Signs.operand e = ONumber \/ (markable_minus (Properties_Signs.operand e) = true /\ has_minus e = false)).
Proof.
  intros c1 c2 n e W1 W2 B1 B2 T1 T2. destruct (assign_accepted _ _ _ W1 B1 T1) as (m1 & A1 & ->). destruct (assign_accepted _ _ _ W2 B2 T2) as (m2 & A2 & ->).
  do 2 eexists. split; [exact A1|]. split; [exact A2|]. rewrite assign_inj. apply C25_minus_partial.
Qed.
Example C25_example_text : let e := EPath (PDot (PId (IVar (B "б"))) (IVar (B "в"))) in
  bound e = true /\ bound (ENot e) = true /\ bound (ENeg e) = true /\ tokens (B "а = б.в;") (toks_program (assign (B "а") e)) /\
  tokens (B "а = НЕ б.в;") (toks_program (assign (B "а") (ENot e))) /\ tokens (B "а = -б.в;") (toks_program (assign (B "а") (ENeg e))).
Proof.
  cbv zeta. do 3 (split; [reflexivity|]). split; [|split].
  - replace (toks_program _) with (toks_of (B "а = б.в;")) by (vm_compute; reflexivity). tokenized.
  - replace (toks_program _) with (toks_of (B "а = НЕ б.в;")) by (vm_compute; reflexivity). tokenized.
  - replace (toks_program _) with (toks_of (B "а = -б.в;")) by (vm_compute; reflexivity). tokenized.
Qed.

Print Assumptions C42_accepted.
Print Assumptions C42_derivable.
Print Assumptions C42_exactly.
Print Assumptions C42_derivable_refuted.
Print Assumptions C14_only_repeated_partial.
Print Assumptions C14_exactly.
Print Assumptions C18_no_false_alarm.
Print Assumptions C18_rejected.
Print Assumptions C25_text_not_partial.
Print Assumptions C25_text_minus_partial.
