(** Printed texts read back (C31, C43).  Specification: Survive.v; proofs: Back.v, BackMade.v,
    BackStmt.v, BackModule.v. *)
From Coq Require Import Permutation.
From Verif Require Import Bytes Utf8 Float64 GoTime Ast Lexer LexFacts LexSpec LexProofs Tables Parser Grammar Tok CertData Cert
  Driver DriverInv CellInv Syntax Rules Levels RulesFacts StmtInd Legal Printer PrintInv Properties_Parser Properties_Tree Properties_Bind Properties_Print Properties_Legal
  Writes PrintToks SpellInv Properties_Layout Survive Strip Back BackMade BackStmt BackModule.
Open Scope Z_scope.

Lemma lasts_single s : forall v, lasts v s = true -> single s.
Proof.
  induction s as [s IH] using stmt_parts_ind. intros v H. constructor.
  - destruct s; try exact I. cbn [lasts] in H. destruct ps as [[|x [|]]|]; try discriminate H. reflexivity.
  - assert (A : forall l : list stmt, (forall x, In x l -> In x (parts s)) -> forallb (fun x => is_nil x || lasts true x) l = true -> Forall single l).
    { intros l Hi Hl. rewrite forallb_forall in Hl. apply Forall_forall. intros x Hx. specialize (Hl x Hx). apply orb_true_iff in Hl as [Hl|Hl]; [|eapply IH; eauto].
      destruct x; try discriminate Hl. constructor; [exact I|constructor]. }
    destruct s; cbn [lasts] in H; try discriminate H; cbn [parts] in *; try (constructor; fail);
    repeat match goal with H : _ && _ = true |- _ => apply andb_true_iff in H as [? ?] end;
    try (match goal with ps : option (list stmt) |- Forall single (elems ?ps) => destruct ps as [l|]; [|constructor]; cbn [elems] in *; apply A; auto end; fail);
    repeat (constructor; [eapply IH; [cbn; auto 6|eassumption]|]); try constructor.
    destruct ps as [[|x [|]]|]; try discriminate H. constructor; [|constructor]. eapply IH; [left; reflexivity|exact H].
Qed.
Lemma nil_single : single SNil. Proof. constructor; [exact I|constructor]. Qed.
Lemma lasts_stmt_single s : (lasts_stmt s = true -> single s) /\
  (forall e tb, s = SIf e tb None None -> lasts false e = true -> forallb lasts_stmt (elems tb) = true -> single s).
Proof.
  induction s as [s IH] using stmt_parts_ind.
  assert (A : forall l, (forall x, In x (elems l) -> In x (parts s)) -> forallb lasts_stmt (elems l) = true -> Forall single (elems l)).
  { intros l Hi Hl. rewrite forallb_forall in Hl. apply Forall_forall. intros x Hx. apply IH; auto. }
  assert (Hm : forall x, maybe x = true -> single x).
  { intros x Hx. apply orb_true_iff in Hx as [Hx|Hx]; [destruct x; try discriminate Hx; apply nil_single|eapply lasts_single; exact Hx]. }
  split.
  - intros H. destruct s; try exact (lasts_single _ true H); try (apply andb_true_iff in H as [H _]; first [exact (lasts_single _ true H)|exact (lasts_single _ false H)]);
    try (constructor; [exact I|constructor]; fail); try discriminate H.
    + cbn [lasts_stmt] in H. destruct ps as [[|e [|]]|]; try discriminate H. apply andb_true_iff in H as [H1 H2]. constructor; [exact I|]. cbn [parts elems].
      constructor; [eapply lasts_single; exact H1|]. constructor; [eapply lasts_single; exact H2|constructor].
    + rewrite lasts_if in H. apply andb_true_iff in H as [H H4]. apply andb_true_iff in H as [H H3]. apply andb_true_iff in H as [H1 H2].
      constructor; [exact I|]. cbn [parts] in *. constructor; [eapply lasts_single; exact H1|]. rewrite !Forall_app. split; [apply A; auto; intros; right; apply in_or_app; auto|].
      split; [|apply A; auto; intros; right; apply in_or_app; right; apply in_or_app; auto].
      destruct eib as [[|i [|]]|]; try discriminate; cbn [elems] in *; [constructor| |]; destruct i; try discriminate; destruct eib, eb0; try discriminate.
      apply andb_true_iff in H4 as [H4 H5]. constructor; [|constructor]. eapply (IH (SIf i tb0 None None)); eauto. right. apply in_or_app. right. left. reflexivity.
    + rewrite lasts_try in H. apply andb_true_iff in H as [H1 H2]. constructor; [exact I|]. cbn [parts] in *. apply Forall_app. split; apply A; auto; intros; apply in_or_app; auto.
    + constructor; [exact I|]. cbn [parts]. constructor; [|constructor]. destruct s; try exact (lasts_single _ true H); try apply nil_single.
      cbn [lasts_stmt] in H. destruct ps as [[|x [|]]|]; try discriminate H. apply andb_true_iff in H as [_ H]. constructor; [reflexivity|]. constructor; [|constructor].
      apply orb_true_iff in H as [H|H]; [destruct x; try discriminate H; apply nil_single|eapply lasts_single; exact H].
    + constructor; [exact I|]. cbn [parts]. constructor; [apply Hm, H|constructor].
    + rewrite lasts_loop in H. repeat (apply andb_true_iff in H as [H ?]). constructor; [exact I|]. cbn [parts] in *.
      repeat (constructor; [apply Hm; assumption|]). apply A; auto. intros; cbn; auto 6.
  - intros e tb -> H1 H2. constructor; [exact I|]. cbn [parts elems app] in *. constructor; [eapply lasts_single; exact H1|]. rewrite app_nil_r. apply (A tb); [|exact H2]. intros x Hx. right. rewrite app_nil_r. exact Hx.
Qed.
Lemma lasts_item_single s : lasts_item s = true -> single s.
Proof.
  destruct s; try (apply lasts_stmt_single). cbn [lasts_item]. intros H. apply andb_true_iff in H as [H H3]. apply andb_true_iff in H as [_ H2].
  constructor; [exact I|]. cbn [parts]. apply Forall_app. split.
  - unfold lasts_block in H2. rewrite forallb_forall in H2. apply Forall_forall. intros x Hx. apply lasts_stmt_single. auto.
  - rewrite forallb_forall in H3. apply Forall_forall. intros x Hx. apply in_map_iff in Hx as (p & <- & Hp). specialize (H3 p Hp). destruct (fst (fst p)); try discriminate H3; constructor; try exact I; constructor.
Qed.
Lemma lasts_single_module m : lasts_module m = true -> Forall single (elems (m_body m)) /\ elems (m_body m) <> [].
Proof.
  unfold lasts_module. destruct (elems (m_body m)) as [|x l] eqn:E; [discriminate|]. intros H. split; [|discriminate].
  rewrite forallb_forall in H. apply Forall_forall. intros y Hy. apply lasts_item_single. auto.
Qed.
Lemma accepted_history code m : accepted code m -> exists a, history a /\ a_module a = m.
Proof. intros (_ & a & H & E). exists a. split; [|exact E]. eapply history_parse; [apply history_new|exact H]. Qed.

Lemma no_toks p : toks_program p = [] -> mean_program p = Module [] None None.
Proof.
  destruct p as [l b]. unfold toks_program, mean_program. cbn [pr_items pr_body]. intros H. apply app_eq_nil in H as [H1 H2].
  assert (El : l = INil).
  { destruct l as [|l i]; [reflexivity|]. cbn [toks_items] in H1. apply app_eq_nil in H1 as [_ H1]. destruct i as [d n x|f]; cbn [toks_item] in H1; [|unfold toks_func in H1];
    apply app_eq_nil in H1 as [_ H1]; discriminate. }
  assert (S : forall s, toks_stmt s <> []).
  { intros s E. destruct s; cbn [toks_stmt] in E; try discriminate.
    - apply app_eq_nil in E as [_ E]. discriminate.
    - pose proof (proj1 begins_all e) as X. rewrite E in X. discriminate X. }
  assert (Eb : mean_block b = []).
  { destruct b as [|s|b x|b x s]; [reflexivity|destruct (S _ H2)| |]; cbn [toks_block] in H2; apply app_eq_nil in H2 as [_ H2]; discriminate. }
  subst l. rewrite Eb. reflexivity.
Qed.

Lemma reparse code l m order t : accepted code m -> tokens code l -> clean_toks Begin l = true ->
  lasts_module m = true -> Permutation order (elems (m_gvars m)) -> tokens t (print_toks order m) ->
  exists m', accepted t m' /\ same_module m m' /\ strips0 (m_body m') = strips (m_body m) /\ exists p', m' = mean_program p'.
Proof.
  intros Hm Hl Hc Hs Ho Hw. destruct (C24_grouping _ _ _ Hm Hl) as (p & -> & Hd & Hb & Hp). specialize (Hp Hc). subst m.
  destruct (accepted_history _ _ Hm) as (a & Ha & Ea). destruct (history_built a Ha) as [Hg Hbu]. rewrite Ea in Hg, Hbu.
  destruct (accepted_legal _ _ _ Hm Hl Hd Hb) as (R1 & R2 & R3 & R4 & _ & _).
  destruct (lasts_single_module _ Hs) as [Hsi Hne].
  destruct (back_program p order (tokens_nk _ _ Hl) Hs Hbu Ho R1 R2 R3 R4) as (p' & E1 & E0 & E2 & E3 & E4 & E5 & E6).
  rewrite <- E1 in Hw.
  assert (Hn : toks_program p' <> []).
  { intros En. assert (X : elems (m_body (mean_program p')) <> []).
    { destruct E2 as (_ & _ & E2). intros X. apply Hne. destruct (m_body (mean_program p)) as [[|]|], (m_body (mean_program p')) as [[|]|]; try reflexivity; discriminate. }
    apply X. rewrite (no_toks _ En). reflexivity. }
  destruct (legal_accepted t p' (tokens_not_white _ _ Hw Hn) Hw E3 E4 E6) as (m' & Hm'). exists m'. split; [exact Hm'|].
  destruct (accepted_legal _ _ _ Hm' Hw E3 E4) as (_ & _ & _ & _ & _ & E7). destruct (E7 E5) as [_ ->]. split; [assumption|]. split; [assumption|eauto].
Qed.
Lemma print_again code l m order c t : accepted code m -> tokens code l -> clean_toks Begin l = true ->
  lasts_module m = true -> spaced c m -> Permutation order (elems (m_gvars m)) ->
  Print order c m = Some t -> exists m', accepted t m' /\ same_module m m' /\ strips0 (m_body m') = strips (m_body m) /\ exists p', m' = mean_program p'.
Proof.
  intros Hm Hl Hc Hs Hsp Ho Ht. eapply reparse; try eassumption.
  destruct (accepted_history _ _ Hm) as (a & Ha & Ea). destruct (history_built a Ha) as [Hg Hbu]. rewrite Ea in Hg, Hbu.
  destruct (lasts_single_module _ Hs) as [Hsi _].
  assert (Hg' : Forall gvar_ok order) by (rewrite Forall_forall in *; intros g Hi; apply Hg; eapply Permutation_in; eassumption).
  exact (Print_writes _ _ _ _ Hg' Hbu Hsi (spaced_fine _ _ Hsp) Ht).
Qed.
Lemma accepted_same t m m' : accepted t m -> accepted t m' -> m = m'.
Proof. intros (_ & a & H1 & <-) (_ & b & H2 & <-). congruence. Qed.

(** * C31 Printed expressions parse back *)
(** The text is one assignment; its expression is printed with PrintStatement. *)
Definition C31_statement : Prop := forall code m x e g c t, accepted code m -> m = Module [] None (Some [SAssign x (Some [e]) g]) -> 0 <= margin c ->
  PrintStatementWithConf (SAssign x (Some [e]) g) c = Some t ->
  exists m' s', accepted t m' /\ m_body m' = Some [s'] /\ same_tree s' (SAssign x (Some [e]) g).
(** What holds: for the expressions that are written in full ([lasts], Survive.v), in texts that do not start with a separator (C16). *)
Theorem C31_statement_partial : forall code l m s c t, accepted code m -> tokens code l -> clean_toks Begin l = true ->
  m = Module [] None (Some [s]) -> lasts_stmt s = true -> spaced c m -> PrintStatementWithConf s c = Some t ->
  exists m' s', accepted t m' /\ m_body m' = Some [s'] /\ same_tree s' s.
Proof.
  intros code l m s c t Hm Hl Hc Em Hs Hsp Ht.
  assert (Hf : lasts_item s = true) by (destruct s; try exact Hs; discriminate Hs).
  assert (Hlm : lasts_module m = true) by (subst m; unfold lasts_module; cbn [m_body elems forallb]; rewrite Hf; reflexivity).
  destruct (accepted_history _ _ Hm) as (a & Ha & Ea). destruct (history_built a Ha) as [_ Hbu]. rewrite Ea in Hbu.
  destruct (lasts_single_module _ Hlm) as [Hsi _]. pose proof (spaced_fine _ _ Hsp) as Hfi.
  destruct (reparse code l m [] t Hm Hl Hc Hlm) as (m' & H1 & H2 & _).
  { subst m. apply Permutation_refl. }
  { apply reads_tokens. subst m. cbn [m_body elems forallb] in *. inversion Hbu as [|? ? B1 _]; subst. inversion Hsi as [|? ? S1 _]; subst. rewrite andb_true_r in Hfi.
    unfold print_toks. cbn [m_body elems flat_map app]. rewrite app_nil_r.
    replace (match s with SFunc _ _ _ _ _ _ _ => func_toks s | _ => itoks s end) with (itoks s) by (destruct s; try reflexivity; discriminate Hs).
    assert (Hfi' : fine c 0 s = true) by (destruct s; try exact Hfi; discriminate Hs).
    unfold PrintStatementWithConf in Ht. destruct (is_nil s) eqn:En; [destruct s; discriminate|].
    pose proof (proj1 (item_writes c s B1 S1) _ _ Hfi' Ht [] [] I (reads_nil _)) as X. rewrite !app_nil_r in X. exact X. }
  destruct H2 as (_ & _ & H2). subst m. cbn [m_body] in H2. destruct (m_body m') as [[|s' [|]]|] eqn:E; try discriminate H2. exists m', s'.
  split; [exact H1|]. split; [exact E|]. unfold same_tree. injection H2 as H2. symmetry. exact H2.
Qed.
Theorem C31_expression_partial : forall code l m x e g c t, accepted code m -> tokens code l -> clean_toks Begin l = true ->
  m = Module [] None (Some [SAssign x (Some [e]) g]) -> lasts true x = true -> lasts false e = true ->
  PrintStatementWithConf (SAssign x (Some [e]) g) c = Some t ->
  exists m' s', accepted t m' /\ m_body m' = Some [s'] /\ same_tree s' (SAssign x (Some [e]) g).
Proof.
  intros code l m x e g c t Hm Hl Hc Em Hx He Ht. eapply C31_statement_partial; try eassumption; [cbn [lasts_stmt]; rewrite Hx, He; reflexivity|].
  right. left. subst m. cbn [m_body elems]. constructor; [|constructor].
  assert (Hn : forall v s, lasts v s = true -> no_try s).
  { intros v s. revert v. induction s as [s IH] using stmt_parts_ind. intros v Hs.
    constructor; [intros b h ->; discriminate Hs|]. apply Forall_forall. intros y Hy.
    destruct (single_inv _ (lasts_single _ _ Hs)) as [H1 _].
    assert (A : forall l : slice, In y (elems l) -> match l with Some l => forallb (fun x => is_nil x || lasts true x) l | None => true end = true -> is_nil y = true \/ lasts true y = true \/ lasts false y = true).
    { intros [r|] Hi Hr; [|destruct Hi]. rewrite forallb_forall in Hr. specialize (Hr y Hi). apply orb_true_iff in Hr as [Hr|Hr]; auto. }
    assert (Y : is_nil y = true \/ lasts true y = true \/ lasts false y = true).
    { destruct s; cbn [lasts parts] in Hs, Hy; try discriminate Hs; try (destruct Hy; fail); auto;
      repeat match goal with H : _ && _ = true |- _ => apply andb_true_iff in H as [? ?] end;
      try (repeat destruct Hy as [<-|Hy]; auto; destruct Hy; fail); try exact (A _ Hy Hs).
      destruct ps as [[|z [|]]|]; try discriminate Hs. destruct Hy as [<-|[]]. auto. }
    destruct Y as [Y|[Y|Y]]; [destruct y; try discriminate Y; constructor; [discriminate|constructor]|exact (IH _ Hy _ Y)|exact (IH _ Hy _ Y)]. }
  constructor; [discriminate|]. cbn [parts elems]. constructor; [exact (Hn _ _ Hx)|]. constructor; [exact (Hn _ _ He)|constructor].
Qed.
(** Every operator, negations, brackets, calls with empty arguments, names with dots, Новый, ?. *)
Definition C31_text : bytes := B "х.у[1] = НЕ (а + (-2) * б.в(, ""ъ"") >= ?(НЕ з, 5, Новый Массив(Истина)) ИЛИ НЕ а) И -ж <> 20 / (2 / 4) % 3 - (4 - а);".
Definition first_of (m : module) : stmt := match elems (m_body m) with s :: _ => s | [] => SNil end.
Definition text_of (o : option bytes) : bytes := match o with Some t => t | None => [] end.
Example C31_example : let m := tree_of C31_text in accepted C31_text m /\ tokens C31_text (toks_of C31_text) /\ clean_toks Begin (toks_of C31_text) = true /\
  (exists x e g, m = Module [] None (Some [SAssign x (Some [e]) g]) /\ lasts true x = true /\ lasts false e = true) /\
  PrintStatement (first_of m) = Some (B "х.у[1] = Не ((((а + (-2 * б.в(, ""ъ""))) >= ?(Не з, 5, Новый Массив(Истина))) ИЛИ Не а)) И (-ж <> (((20 / (2 / 4)) % 3) - (4 - а)));").
Proof.
  cbv zeta. split; [accepted|]. split; [tokenized|]. split; [vm_compute; reflexivity|]. split; [|vm_compute; reflexivity].
  do 3 eexists. split; [vm_compute; reflexivity|]. split; vm_compute; reflexivity.
Qed.
(** Not in general.  One text for each part that is not written: *)
Definition changes (code text : bytes) : Prop := accepted code (tree_of code) /\ accepted text (tree_of text) /\
  PrintStatement (first_of (tree_of code)) = Some text /\
  exists x e g y, tree_of code = Module [] None (Some [SAssign x (Some [e]) g]) /\ m_body (tree_of text) = Some [y] /\ ~ same_tree y (SAssign x (Some [e]) g).
Ltac changes := split; [accepted|]; split; [accepted|]; split; [vm_compute; reflexivity|]; do 4 eexists; split; [vm_compute; reflexivity|]; split; [vm_compute; reflexivity|];
  intros H; vm_compute in H; discriminate H.
(** fractions are rounded, *)
Theorem C31_fraction_refuted : changes (B "а = 1.5;") (B "а = 2;").
Proof. changes. Qed.
(** signs of arguments are dropped, *)
Theorem C31_argument_refuted : changes (B "а = Ф(-б);") (B "а = Ф(б);").
Proof. changes. Qed.
Theorem C31_argument_not_refuted : changes (B "а = Ф(НЕ б);") (B "а = Ф(б);").
Proof. changes. Qed.
(** the minus before a name with dots is dropped, *)
Theorem C31_minus_refuted : changes (B "а = -б.в;") (B "а = б.в;").
Proof. changes. Qed.
(** parentheses around НЕ are dropped, so that it applies to more. *)
Theorem C31_group_refuted : changes (B "а = (НЕ б) = в;") (B "а = Не б = в;").
Proof. changes. Qed.
(** lists in parentheses run together, *)
Theorem C31_list_refuted : changes (B "а = (б, -в);") (B "а = б-в;").
Proof. changes. Qed.
(** and with none of their elements nothing is left that could be accepted. *)
Theorem C31_empty_refuted : exists m t, accepted (B "а = ();") m /\ PrintStatement (first_of m) = Some t /\ forall m', ~ accepted t m'.
Proof.
  exists (tree_of (B "а = ();")), (B "а = ;"). split; [accepted|]. split; [vm_compute; reflexivity|]. intros m' (_ & a & H & _). revert H.
  assert (X : match parse (B "а = ;") with Some (Ok (_, None)) => false | _ => true end = true) by (vm_compute; reflexivity). intros H. rewrite H in X. discriminate X.
Qed.
Theorem C31_statement_refuted : ~ C31_statement.
Proof.
  intros H. destruct C31_fraction_refuted as (A1 & A2 & P & x & e & g & y & E1 & E2 & N).
  destruct (H _ _ x e g (Conf 4 false) (B "а = 2;") A1 E1) as (m' & s' & B1 & B2 & B3); [discriminate| |].
  { rewrite E1 in P. exact P. }
  rewrite <- (accepted_same _ _ _ A2 B1), E2 in B2. injection B2 as <-. apply N, B3.
Qed.

(** * C43 Printed modules read back *)
(** A module whose text is formatted keeps its meaning: the printed text is accepted, and its
    tree is the same up to redundant parentheses. *)
Definition C43_statement : Prop := forall code m order c t, accepted code m -> Permutation order (elems (m_gvars m)) -> 0 <= margin c ->
  Print order c m = Some t -> exists m', accepted t m' /\ same_module m m'.
(** What holds: for the modules all parts of which are written (Survive.v, lasts_module), if no block of the source
    starts with a separator (C16) and the options keep the words of Попытка apart (C30). *)
Theorem C43_module_partial : forall code l m order c t, accepted code m -> tokens code l -> clean_toks Begin l = true ->
  lasts_module m = true -> spaced c m -> Permutation order (elems (m_gvars m)) ->
  Print order c m = Some t -> exists m', accepted t m' /\ same_module m m'.
Proof.
  intros code l m order c t H1 H2 H3 H4 H5 H6 H7. destruct (print_again code l m order c t) as (m' & A & B' & _); auto. exists m'. auto.
Qed.
(** Everything that is written, in one module: directives, exports, variables, parameters with and without default values,
    all statements. *)
Definition C43_text : bytes := B "&НаКлиенте Перем г, д Экспорт; Перем е; &НаСервере Функция Ф(а, Знач б = -5, в = ""ъ"") Экспорт
  Попытка Для Каждого х Из а.б() Цикл Если х = 1 Тогда Прервать; ИначеЕсли НЕ х Тогда Продолжить; Иначе Перейти ~м; КонецЕсли; КонецЦикла; ~м:
  Исключение ВызватьИсключение; КонецПопытки; Для й = 1 По 10 Цикл а[й] = й * (2 + б); КонецЦикла; Возврат а + б * 2; КонецФункции
  Процедура П() КонецПроцедуры
  Пока а > 0 Цикл П(); КонецЦикла; ВызватьИсключение ""ошибка""; Ф(1, 2);".
Example C43_example : accepted C43_text (tree_of C43_text) /\ tokens C43_text (toks_of C43_text) /\ clean_toks Begin (toks_of C43_text) = true /\
  lasts_module (tree_of C43_text) = true /\ spaced (Conf 4 false) (tree_of C43_text) /\ length (elems (m_gvars (tree_of C43_text))) = 3%nat.
Proof. split; [accepted|]. split; [tokenized|]. split; [vm_compute; reflexivity|]. split; [vm_compute; reflexivity|]. split; [left; reflexivity|vm_compute; reflexivity]. Qed.

(** Not in general: *)
Definition loses (code text : bytes) : Prop := exists order, accepted code (tree_of code) /\ accepted text (tree_of text) /\ Permutation order (elems (m_gvars (tree_of code))) /\
  Print order (Conf 4 true) (tree_of code) = Some text /\ ~ same_module (tree_of code) (tree_of text).
Ltac loses := split; [accepted|]; split; [accepted|]; split; [vm_compute; apply Permutation_refl|]; split; [vm_compute; reflexivity|]; intros (_ & _ & H); vm_compute in H; discriminate H.
(** local variables are not written, *)
Theorem C43_locals_refuted : loses (B "Процедура П() Перем а; КонецПроцедуры") (B "Процедура П() КонецПроцедуры ").
Proof. exists []. loses. Qed.
(** the branches of several ИначеЕсли come back in the opposite order (C23), *)
Theorem C43_branches_refuted : loses (B "Если а Тогда ИначеЕсли б Тогда Ф(); ИначеЕсли в Тогда П(); КонецЕсли;") (B "Если а Тогда ИначеЕсли в Тогда     П();ИначеЕсли б Тогда     Ф();КонецЕсли;").
Proof. exists []. loses. Qed.
(** default values with a fraction are rounded, *)
Theorem C43_default_refuted : loses (B "Процедура П(а = -1.5) КонецПроцедуры") (B "Процедура П(а = -2) КонецПроцедуры ").
Proof. exists []. loses. Qed.
(** a comparison that is a statement turns into an assignment, *)
Theorem C43_comparison_refuted : loses (B "(а) = б;") (B "а = б;").
Proof. exists []. loses. Qed.
(** and a module of declarations is printed as the empty text. *)
Theorem C43_only_variables_refuted : exists m, accepted (B "Перем а;") m /\ elems (m_gvars m) <> [] /\ forall order c, Print order c m = Some [].
Proof. exists (tree_of (B "Перем а;")). split; [accepted|]. split; [vm_compute; discriminate|]. intros order c. reflexivity. Qed.
Theorem C43_statement_refuted : ~ C43_statement.
Proof.
  intros H. destruct C43_comparison_refuted as (order & A1 & A2 & P1 & P2 & N). destruct (H _ _ _ (Conf 4 true) (B "а = б;") A1 P1) as (m' & B1 & B2); [discriminate|exact P2|].
  rewrite <- (accepted_same _ _ _ A2 B1) in B2. exact (N B2).
Qed.

Print Assumptions C31_statement_partial.
Print Assumptions C31_expression_partial.
Print Assumptions C31_fraction_refuted.
Print Assumptions C31_argument_refuted.
Print Assumptions C31_argument_not_refuted.
Print Assumptions C31_minus_refuted.
Print Assumptions C31_group_refuted.
Print Assumptions C31_list_refuted.
Print Assumptions C31_empty_refuted.
Print Assumptions C31_statement_refuted.
Print Assumptions C43_module_partial.
Print Assumptions C43_locals_refuted.
Print Assumptions C43_branches_refuted.
Print Assumptions C43_default_refuted.
Print Assumptions C43_comparison_refuted.
Print Assumptions C43_only_variables_refuted.
Print Assumptions C43_statement_refuted.
