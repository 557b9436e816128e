(** Layout options of the printer (C30).  Proofs: Writes.v, PrintToks.v, SpellInv.v. *)
From Coq Require Import Permutation.
From Verif Require Import Bytes Utf8 Float64 GoTime Ast Lexer LexFacts LexSpec LexProofs Tables Parser Grammar Tok CertData Cert
  Driver DriverInv CellInv StmtInd Printer PrintInv Properties_Parser Properties_Tree Properties_Print Writes PrintToks SpellInv.
Open Scope Z_scope.

(** * C30 Layout options change only layout *)
(** Both texts are read without a lexical error, as the same tokens. *)
Definition same_tokens (t1 t2 : bytes) : Prop := exists l, tokens t1 l /\ tokens t2 l.
Definition C30_statement : Prop := forall a order c1 c2 t1 t2, history a -> Permutation order (elems (m_gvars (a_module a))) ->
  0 <= margin c1 -> 0 <= margin c2 -> Print order c1 (a_module a) = Some t1 -> Print order c2 (a_module a) = Some t2 -> same_tokens t1 t2.

(** No Попытка in [s]. *)
Inductive no_try : stmt -> Prop :=
| no_try_intro s : (forall b h, s <> STry b h) -> Forall no_try (parts s) -> no_try s.
(** A setting of the options that keeps the words Попытка, Исключение and КонецПопытки
    apart: several lines; or an indentation, if no Попытка outside procedures and blocks
    has an empty block; or there is no Попытка. *)
Definition spaced (c : conf) (m : module) : Prop :=
  oneLine c = false \/ Forall no_try (elems (m_body m)) \/
  (0 < margin c /\ forall b h, In (STry b h) (elems (m_body m)) -> elems b <> [] /\ elems h <> []).
(** No list in parentheses with other than one element in the module. *)
Definition no_lists (m : module) : Prop := Forall single (elems (m_body m)).

Lemma fine_cond c s : forall (P : nat -> stmt -> Prop),
  (forall d b h, P d (STry b h) -> gap_ok c d b = true /\ gap_ok c d h = true) ->
  (forall d s x, P d s -> In x (parts s) -> P (S d) x) ->
  (forall d s x, P (S d) s -> In x (parts s) -> P (S d) x) ->
  (forall d, P d s -> fine c d s = true) /\
  (forall d e tb x y, s = SIf e tb x y -> P (S d) s -> all_fine c (S d) tb = true).
Proof.
  intros P P1 P2 P3. induction s as [s IH] using stmt_parts_ind.
  assert (A : forall d b, (forall x, In x (elems b) -> In x (parts s)) -> (forall x, In x (elems b) -> P (S d) x) -> all_fine c (S d) b = true).
  { intros d b Hi Hp. unfold all_fine. apply forallb_forall. intros x Hx. apply IH; auto. }
  split.
  - intros d Hs. destruct s; try reflexivity.
    + rewrite fine_if, !andb_true_iff. split; [split|].
      * apply A; intros x Hx; [|eapply P2; [exact Hs|]]; cbn [parts]; cbn; rewrite ?in_app_iff; auto.
      * apply A; intros x Hx; [|eapply P2; [exact Hs|]]; cbn [parts]; cbn; rewrite ?in_app_iff; auto.
      * apply forallb_forall. intros i Hi. assert (Hin : In i (parts (SIf s tb eib eb))) by (cbn [parts]; cbn; rewrite ?in_app_iff; auto).
        destruct i; try reflexivity. eapply (proj2 (IH _ Hin)); [reflexivity|]. eapply P2; [exact Hs|exact Hin].
    + rewrite fine_try, !andb_true_iff. destruct (P1 _ _ _ Hs) as [G1 G2]. repeat split; auto;
      (apply A; intros x Hx; [|eapply P2; [exact Hs|]]; cbn [parts]; rewrite ?in_app_iff; auto).
    + rewrite fine_loop. apply A; intros x Hx; [|eapply P2; [exact Hs|]]; cbn [parts]; cbn; auto.
  - intros d e tb x y -> Hp. apply A; intros z Hz; [|eapply P3; [exact Hp|]]; cbn [parts]; cbn; rewrite ?in_app_iff; auto.
Qed.
Lemma no_try_inv s : no_try s -> (forall b h, s <> STry b h) /\ Forall no_try (parts s).
Proof. inversion 1; auto. Qed.
Lemma spaced_fine c m : spaced c m -> forallb (top_fine c) (elems (m_body m)) = true.
Proof.
  intros H. apply forallb_forall. intros s Hs.
  assert (X : exists P : nat -> stmt -> Prop,
    (forall d b h, P d (STry b h) -> gap_ok c d b = true /\ gap_ok c d h = true) /\
    (forall d s x, P d s -> In x (parts s) -> P (S d) x) /\ (forall d s x, P (S d) s -> In x (parts s) -> P (S d) x) /\ P O s).
  { destruct H as [H|[H|[H1 H2]]].
    - exists (fun _ _ => True). unfold gap_ok. rewrite H. auto.
    - exists (fun _ s => no_try s). rewrite Forall_forall in H. split.
      + intros d b h Hn. apply no_try_inv in Hn as [Hn _]. destruct (Hn b h eq_refl).
      + assert (Y : forall s x, no_try s -> In x (parts s) -> no_try x).
        { intros s0 x Hn Hx. apply no_try_inv in Hn as [_ Hn]. rewrite Forall_forall in Hn. auto. }
        split; [intros _; exact Y|]. split; [intros _; exact Y|]. auto.
    - exists (fun d s => d = O -> In s (elems (m_body m))). split.
      + intros d b h Hd. unfold gap_ok, empty_block. apply Z.ltb_lt in H1. rewrite H1. cbn [andb].
        destruct d as [|d]; [|cbn; rewrite !orb_true_r; auto]. destruct (H2 b h (Hd eq_refl)) as [B1 B2].
        destruct (elems b), (elems h); try congruence. cbn. rewrite !orb_true_r. auto.
      + repeat split; try discriminate. auto. }
  destruct X as (P & P1 & P2 & P3 & P4). destruct s; try (apply (fine_cond c _ P P1 P2 P3); exact P4).
  cbn [top_fine]. unfold all_fine. apply forallb_forall. intros x Hx. apply (fine_cond c _ P P1 P2 P3).
  eapply P2; [exact P4|]. cbn [parts]. rewrite in_app_iff. auto.
Qed.

(** For all modules without lists in parentheses and all settings that keep the words of
    Попытка apart. *)
Theorem C30_layout_partial : forall a order c1 c2 t1 t2, history a -> Permutation order (elems (m_gvars (a_module a))) ->
  no_lists (a_module a) -> spaced c1 (a_module a) -> spaced c2 (a_module a) ->
  Print order c1 (a_module a) = Some t1 -> Print order c2 (a_module a) = Some t2 -> same_tokens t1 t2.
Proof.
  intros a order c1 c2 t1 t2 Ha Ho Hl H1 H2 P1 P2. destruct (history_built a Ha) as [Hg Hb]. exists (print_toks order (a_module a)).
  assert (Hg' : Forall gvar_ok order) by (rewrite Forall_forall in *; intros g Hi; apply Hg; eapply Permutation_in; eassumption).
  split; [exact (Print_writes _ _ _ _ Hg' Hb Hl (spaced_fine _ _ H1) P1)|exact (Print_writes _ _ _ _ Hg' Hb Hl (spaced_fine _ _ H2) P2)].
Qed.
(** In particular for all margins, with several lines. *)
Corollary C30_margin_partial : forall a order m1 m2, history a -> Permutation order (elems (m_gvars (a_module a))) ->
  no_lists (a_module a) -> 0 <= m1 -> 0 <= m2 ->
  exists t1 t2, Print order (Conf m1 false) (a_module a) = Some t1 /\ Print order (Conf m2 false) (a_module a) = Some t2 /\ same_tokens t1 t2.
Proof.
  intros a order m1 m2 Ha Ho Hl H1 H2. destruct (C27_print_returns a Ha (Conf m1 false) order H1) as [t1 E1].
  destruct (C27_print_returns a Ha (Conf m2 false) order H2) as [t2 E2]. exists t1, t2. split; [exact E1|]. split; [exact E2|].
  eapply C30_layout_partial; eauto; left; reflexivity.
Qed.

(** Every kind of statement: with several lines and without a margin, with one line and a
    margin. *)
Definition layout_text : bytes := B "Перем Г; Процедура П(а, б = 1) Перем в; Для Каждого э Из Ф(а) Цикл Если (э) Тогда Прервать; ИначеЕсли не э Тогда Продолжить; Иначе Перейти ~м; КонецЕсли; КонецЦикла; Попытка ВызватьИсключение 1; Исключение КонецПопытки; ~м: а = Новый Структура(1); КонецПроцедуры Для к = 1 По 2 Цикл КонецЦикла; Пока Истина Цикл П(?(а, б, в)); КонецЦикла; а.б[1].в()".
Ltac all_single := repeat (first [apply Forall_nil | apply Forall_cons | apply single_intro; [solve [exact I | eexists; reflexivity | reflexivity]|cbn [parts]; cbn]]).
Example C30_example : history (after 1 layout_text) /\ no_lists (a_module (after 1 layout_text)) /\
  spaced (Conf 0 false) (a_module (after 1 layout_text)) /\ spaced (Conf 1 true) (a_module (after 1 layout_text)) /\
  match Print (elems (m_gvars (a_module (after 1 layout_text)))) (Conf 0 false) (a_module (after 1 layout_text)),
        Print (elems (m_gvars (a_module (after 1 layout_text)))) (Conf 1 true) (a_module (after 1 layout_text)) with
  | Some t1, Some t2 => t1 <> t2
  | _, _ => False
  end.
Proof.
  split; [apply after_history|]. split; [|split; [left; reflexivity|split]].
  - unfold no_lists. match goal with |- Forall _ ?l => let l' := eval vm_compute in l in replace l with l' by (vm_compute; reflexivity) end.
    all_single.
  - right. right. split; [reflexivity|]. intros b h.
    match goal with |- In _ ?l -> _ => let l' := eval vm_compute in l in replace l with l' by (vm_compute; reflexivity) end.
    cbn. intros H. repeat (destruct H as [H|H]; [discriminate|]). destruct H.
  - vm_compute. discriminate.
Qed.

(** Not in general: on one line the words of an empty Попытка run together. *)
Definition glued : bytes := B "Попытка Исключение КонецПопытки;".
Lemma tokens_fun code l1 l2 : tokens code l1 -> tokens code l2 -> l1 = l2.
Proof. intros (r1 & L1 & ->) (r2 & L2 & ->). rewrite (lexes_fun _ _ _ _ L1 L2). reflexivity. Qed.
Theorem C30_refuted : exists code m t1 t2, accepted code m /\ Print [] (Conf 0 false) m = Some t1 /\ Print [] (Conf 4 true) m = Some t2 /\
  ~ same_tokens t1 t2.
Proof.
  exists glued, (tree_of glued), (x0a :: B "Попытка" ++ x0a :: B "Исключение" ++ x0a :: B "КонецПопытки;" ++ [x0a]), (B "ПопыткаИсключениеКонецПопытки;").
  split; [accepted|]. split; [vm_compute; reflexivity|]. split; [vm_compute; reflexivity|].
  intros (l & L1 & L2).
  match type of L1 with tokens ?t _ => assert (E1 : l = toks_of t) by (eapply tokens_fun; [exact L1|tokenized]) end.
  match type of L2 with tokens ?t _ => assert (E2 : l = toks_of t) by (eapply tokens_fun; [exact L2|tokenized]) end.
  rewrite E1 in E2. revert E2. vm_compute. discriminate.
Qed.
Theorem C30_statement_refuted : ~ C30_statement.
Proof.
  intros H. assert (X : same_tokens (x0a :: B "Попытка" ++ x0a :: B "Исключение" ++ x0a :: B "КонецПопытки;" ++ [x0a]) (B "ПопыткаИсключениеКонецПопытки;")).
  { apply (H (after 1 glued) [] (Conf 0 false) (Conf 4 true)); try reflexivity; try discriminate.
    - apply after_history. }
  destruct X as (l & L1 & L2).
  match type of L1 with tokens ?t _ => assert (E1 : l = toks_of t) by (eapply tokens_fun; [exact L1|tokenized]) end.
  match type of L2 with tokens ?t _ => assert (E2 : l = toks_of t) by (eapply tokens_fun; [exact L2|tokenized]) end.
  rewrite E1 in E2. revert E2. vm_compute. discriminate.
Qed.
(** Why lists are excluded: their elements are written without commas, and a string behind
    a date makes the text unreadable. *)
Theorem C30_list_refuted : exists code m t, accepted code m /\ Print [] (Conf 0 false) m = Some t /\ forall l, ~ tokens t l.
Proof.
  set (q := [x22]).
  exists (B "а = ('20200101', " ++ q ++ B "б" ++ q ++ B ");"), (tree_of (B "а = ('20200101', " ++ q ++ B "б" ++ q ++ B ");")),
    (x0a :: B "а = '20200101000000'" ++ q ++ B "б" ++ q ++ B ";").
  split; [accepted|]. split; [vm_compute; reflexivity|].
  intros l (r & L & _). eapply lexes_no_error; [exact L|].
  do 2 (eapply le_later; [vm_compute; reflexivity | discriminate |]).
  apply le_here. eexists. eexists. eexists. vm_compute. reflexivity.
Qed.

Print Assumptions C30_layout_partial.
Print Assumptions C30_margin_partial.
Print Assumptions C30_refuted.
Print Assumptions C30_statement_refuted.
Print Assumptions C30_list_refuted.
