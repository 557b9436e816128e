(** The printer on parsed modules: no panic (C27), determinism (C28), declarations of
    global variables (C29).  Proofs for C27: PrintInv.v. *)
From Coq Require Import Permutation.
From Verif Require Import Bytes Utf8 Float64 GoTime Ast Lexer LexFacts LexSpec LexProofs Tables Parser Grammar Tok CertData Cert
  Driver DriverInv CellInv Printer PrintInv Properties_Parser Properties_Tree.
Open Scope Z_scope.

(** * C27 Printing a parsed module never panics *)
(** [history a] (CellInv.v): a new node, or one on which Parse has returned, with or
    without error, any number of times. *)
Lemma history_good a : history a -> good_module (a_module a).
Proof. induction 1; [reflexivity|]. eapply Parse_good; eassumption. Qed.

Theorem C27_print_returns : forall a, history a -> forall c order, 0 <= margin c ->
  exists text, Print order c (a_module a) = Some text.
Proof.
  intros a Ha c order Hm. pose proof (Print_total order c _ Hm (history_good a Ha)) as H.
  destruct (Print order c (a_module a)) as [t|]; [eauto | contradiction].
Qed.
(** Also printing the statements of the body one by one. *)
Theorem C27_statement_returns : forall a, history a -> forall s c, In s (elems (m_body (a_module a))) -> 0 <= margin c ->
  exists text, PrintStatementWithConf s c = Some text.
Proof.
  intros a Ha s c Hs Hm. pose proof (history_good a Ha) as Hg. unfold good_module in Hg. rewrite forallb_forall in Hg.
  specialize (Hg s Hs). unfold PrintStatementWithConf. destruct (is_nil s); [eauto|].
  assert (H : printable s = true \/ is_func s = true) by (destruct s; auto). destruct H as [H|H].
  - pose proof (item_total c s Hm H 0%nat) as H0. destruct (printBodyItem c 0 s); [eauto | contradiction].
  - destruct s; try discriminate. cbn [printBodyItem]. change (margin c * Z.of_nat 0) with (margin c * 0). rewrite Z.mul_0_r.
    change (spaces 0) with (Some (@nil byte)). cbn [obind]. eauto.
Qed.
(** Texts with every kind of statement, one of them rejected after half of the tree was
    built, parsed twice; with margin 3. *)
Definition print_text : bytes := B "Перем Г; Процедура П(а, б = 1) Перем в; Для Каждого э Из Ф(а) Цикл Если э Тогда Прервать; ИначеЕсли не э Тогда Продолжить; Иначе Перейти ~м; КонецЕсли; КонецЦикла; Попытка ВызватьИсключение 1; Исключение ВызватьИсключение; КонецПопытки; ~м: а = Новый Структура(1); КонецПроцедуры Для к = 1 По 2 Цикл КонецЦикла; Пока Истина Цикл П(?(а, б, в)); КонецЦикла; а.б[1].в()".
Definition after (n : nat) (code : bytes) : astnode :=
  Nat.iter n (fun a => match Parse a with Some (Ok (a', _)) => a' | _ => a end) (NewAST code).
Lemma after_history n code : history (after n code).
Proof.
  induction n as [|n IH]; [apply history_new|]. unfold after in *. cbn [Nat.iter nat_rect]. unfold Nat.iter in IH.
  match goal with |- context [Parse ?a] => destruct (Parse a) as [[[a' e]|]|] eqn:E end; try exact IH.
  eapply history_parse; [exact IH | exact E].
Qed.
Example C27_example :
  history (after 2 print_text) /\ length (elems (m_body (a_module (after 2 print_text)))) = 7%nat /\
  history (after 1 (print_text ++ B ";)")) /\ length (elems (m_body (a_module (after 1 (print_text ++ B ";)"))))) = 4%nat /\
  a_err (after 1 (print_text ++ B ";)")) <> None.
Proof.
  split; [apply after_history|]. split; [vm_compute; reflexivity|]. split; [apply after_history|]. split; [vm_compute; reflexivity|].
  vm_compute. discriminate.
Qed.
(** A negative margin does panic. *)
Example C27_margin : Print [] (Conf (-1) false) (tree_of print_text) = None.
Proof. vm_compute. reflexivity. Qed.

(** * C28 Printing is deterministic *)
(** [range] over the map of the global variables enumerates its entries in any order. *)
Definition prints (c : conf) (m : module) (text : bytes) : Prop :=
  exists order, Permutation order (elems (m_gvars m)) /\ Print order c m = Some text.
Definition C28_statement : Prop := forall c m t1 t2, prints c m t1 -> prints c m t2 -> t1 = t2.

(** Deterministic without global variables, with one, or without anything else. *)
Theorem C28_deterministic_partial : forall c m t1 t2, prints c m t1 -> prints c m t2 ->
  (length (elems (m_gvars m)) <= 1)%nat \/ elems (m_body m) = [] -> t1 = t2.
Proof.
  intros c m t1 t2 (o1 & P1 & E1) (o2 & P2 & E2) H.
  destruct H as [H|H]; [|unfold Print in *; rewrite H in *; congruence].
  assert (Ho : o1 = o2).
  { destruct (elems (m_gvars m)) as [|g [|]]; [| |cbn in H; lia].
    - apply Permutation_sym, Permutation_nil in P1, P2. congruence.
    - apply Permutation_sym, Permutation_length_1_inv in P1, P2. congruence. }
  congruence.
Qed.
(** In general two results differ at most by the order of the declarations at the start. *)
Theorem C28_up_to_order_partial : forall c m t1 t2, prints c m t1 -> prints c m t2 ->
  exists d1 d2 rest, Permutation d1 d2 /\ t1 = concat d1 ++ rest /\ t2 = concat d2 ++ rest /\
    length d1 = length d2.
Proof.
  intros c m t1 t2 (o1 & P1 & E1) (o2 & P2 & E2). unfold Print in *.
  destruct (elems (m_body m)) as [|s l].
  { injection E1 as <-. injection E2 as <-. exists [], [], []. auto. }
  destruct (oconcat _) as [r|]; [|discriminate]. cbn [obind] in *. injection E1 as <-. injection E2 as <-.
  eexists (map _ o1), (map _ o2), r. split; [|split; [reflexivity|split; [reflexivity|]]].
  - apply Permutation_map. rewrite P1, P2. reflexivity.
  - rewrite !map_length. apply Permutation_length. rewrite P1, P2. reflexivity.
Qed.
(** And every order of the declarations can appear. *)
Theorem C28_any_order : forall c m order t, prints c m t -> Permutation order (elems (m_gvars m)) ->
  exists t', prints c m t' /\ Print order c m = Some t'.
Proof.
  intros c m order t (o & _ & E) P. assert (H : Print order c m <> None).
  { unfold Print in *. destruct (elems (m_body m)); [discriminate|]. destruct (oconcat _); [discriminate|discriminate]. }
  destruct (Print order c m) as [t'|] eqn:E'; [|contradiction]. exists t'. split; [exists order; auto | reflexivity].
Qed.
Definition one_global : bytes := B "Перем А; Ф()".
Definition two_globals : bytes := B "Перем А, Б; Ф()".
Example C28_example : accepted one_global (tree_of one_global) /\ length (elems (m_gvars (tree_of one_global))) = 1%nat /\
  prints (Conf 4 false) (tree_of one_global) (B "Перем А;" ++ [x0a; x0a] ++ B "Ф();").
Proof.
  split; [accepted|]. split; [vm_compute; reflexivity|]. exists (elems (m_gvars (tree_of one_global))). split; [reflexivity|].
  vm_compute. reflexivity.
Qed.
(** Not in general: the tree of an accepted text, printed in two ways. *)
Theorem C28_refuted : exists code m c t1 t2, accepted code m /\ prints c m t1 /\ prints c m t2 /\ t1 <> t2.
Proof.
  exists two_globals, (tree_of two_globals), (Conf 4 false),
    (B "Перем А;" ++ [x0a] ++ B "Перем Б;" ++ [x0a; x0a] ++ B "Ф();"), (B "Перем Б;" ++ [x0a] ++ B "Перем А;" ++ [x0a; x0a] ++ B "Ф();").
  split; [accepted|].
  assert (E : elems (m_gvars (tree_of two_globals)) = [GVar [] (B "А") false; GVar [] (B "Б") false]) by (vm_compute; reflexivity).
  split; [|split; [|vm_compute; discriminate]].
  - exists [GVar [] (B "А") false; GVar [] (B "Б") false]. rewrite E. split; [reflexivity | vm_compute; reflexivity].
  - exists [GVar [] (B "Б") false; GVar [] (B "А") false]. rewrite E. split; [constructor | vm_compute; reflexivity].
Qed.
Theorem C28_statement_refuted : ~ C28_statement.
Proof. intros H. destruct C28_refuted as (code & m & c & t1 & t2 & _ & H1 & H2 & H3). exact (H3 (H _ _ _ _ H1 H2)). Qed.

(** * C29 Printing keeps global variables *)
Definition contains (text piece : bytes) : Prop := exists before behind, text = before ++ piece ++ behind.
(** The declaration of a variable: its directive on a line of its own, the keyword, the
    name, the export mark. *)
Inductive declares : gvar -> bytes -> Prop :=
| declares_plain n : declares (GVar [] n false) (B "Перем " ++ n ++ B ";")
| declares_export n : declares (GVar [] n true) (B "Перем " ++ n ++ B " Экспорт ;")
| declares_dir d n : d <> [] -> declares (GVar d n false) ([x0a] ++ d ++ [x0a] ++ B "Перем " ++ n ++ B ";")
| declares_dir_export d n : d <> [] -> declares (GVar d n true) ([x0a] ++ d ++ [x0a] ++ B "Перем " ++ n ++ B " Экспорт ;").
Definition C29_statement : Prop := forall c m text v d, prints c m text -> In v (elems (m_gvars m)) -> declares v d -> contains text d.

Lemma declares_print v d : declares v d -> printGlobalVariable v = d.
Proof.
  intros H. inversion H; subst; unfold printGlobalVariable; cbn [gv_dir gv_name gv_export]; try reflexivity;
  match goal with H : ?d <> [] |- _ => destruct d; [contradiction|] end; rewrite <- ?app_assoc; reflexivity.
Qed.
Lemma contains_concat x l : In x l -> contains (concat l) x.
Proof.
  induction l as [|y l IH]; [intros []|]. intros [->|H]; cbn [concat]; [exists [], (concat l); reflexivity|].
  destruct (IH H) as (p & q & ->). exists (y ++ p), q. rewrite <- app_assoc. reflexivity.
Qed.
Theorem C29_declared_partial : forall c m text v d, elems (m_body m) <> [] ->
  prints c m text -> In v (elems (m_gvars m)) -> declares v d -> contains text d.
Proof.
  intros c m text v d Hb (o & P & E) Hv Hd. unfold Print in E. destruct (elems (m_body m)); [contradiction|].
  destruct (oconcat _) as [r|]; [|discriminate]. injection E as <-.
  apply (Permutation_in v (Permutation_sym P)) in Hv. apply (in_map (fun v => printGlobalVariable v ++ newLine c 1)) in Hv.
  apply contains_concat in Hv as (p & q & ->). rewrite (declares_print _ _ Hd).
  exists p, (newLine c 1 ++ q ++ r). rewrite <- !app_assoc. reflexivity.
Qed.
(** Every variable has such a declaration. *)
Theorem C29_declares : forall v, exists d, declares v d.
Proof.
  intros [d n e]. destruct d as [|b d], e; eexists;
  [apply declares_export | apply declares_plain | apply declares_dir_export; discriminate | apply declares_dir; discriminate].
Qed.
Definition directive_text : bytes := B "Перем А Экспорт; &НаКлиенте" ++ [x0a] ++ B "Перем Б; Ф()".
Example C29_example : accepted directive_text (tree_of directive_text) /\ elems (m_body (tree_of directive_text)) <> [] /\
  elems (m_gvars (tree_of directive_text)) = [GVar [] (B "А") true; GVar (B "&НаКлиенте") (B "Б") false].
Proof. split; [accepted|]. split; [vm_compute; discriminate|]. vm_compute. reflexivity. Qed.
(** A module with declarations only is printed as nothing. *)
Theorem C29_refuted : exists code m v, accepted code m /\ In v (elems (m_gvars m)) /\ forall c text, prints c m text -> text = [].
Proof.
  exists (B "Перем А;"), (tree_of (B "Перем А;")), (GVar [] (B "А") false). split; [accepted|].
  assert (E : tree_of (B "Перем А;") = Module [] (Some [GVar [] (B "А") false]) None) by (vm_compute; reflexivity).
  rewrite E. split; [left; reflexivity|]. intros c text (o & _ & H). cbn in H. congruence.
Qed.
Theorem C29_statement_refuted : ~ C29_statement.
Proof.
  intros H. pose (m := Module [] (Some [GVar [] (B "А") false]) None).
  assert (Hp : prints (Conf 4 false) m []) by (exists (elems (m_gvars m)); split; reflexivity).
  destruct (H _ _ _ (GVar [] (B "А") false) _ Hp (or_introl eq_refl) (declares_plain _)) as (p & q & E).
  destruct p; discriminate E.
Qed.

Print Assumptions C27_print_returns.
Print Assumptions C27_statement_returns.
Print Assumptions C28_deterministic_partial.
Print Assumptions C28_up_to_order_partial.
Print Assumptions C28_any_order.
Print Assumptions C28_refuted.
Print Assumptions C29_declared_partial.
Print Assumptions C29_declares.
Print Assumptions C29_refuted.
