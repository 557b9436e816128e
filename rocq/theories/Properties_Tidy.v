(** What formatting does to a tree (C62).  Specification: Tidy.v; proofs: TidyExpr.v, TidyStmt.v, TidyModule.v. *)
From Coq Require Import Permutation QArith Qabs Qpower.
From Verif Require Import Bytes Utf8 Float64 GoTime Ast Lexer LexFacts LexSpec LexProofs NumSpec NumProofs NumTokens Tables Parser Grammar Tok CertData Cert
  Driver DriverInv CellInv Syntax Rules Levels RulesFacts StmtInd Legal Accept Printer PrintInv Properties_Literals Properties_Parser Properties_Tree Properties_Bind Properties_Print Properties_Legal
  Writes PrintToks SpellInv Properties_Layout Survive Strip Back BackMade BackStmt BackModule Properties_Back Tidy TidyExpr TidyStmt TidyModule.
Open Scope Z_scope.

(** * Lists with one element *)
Lemma written_single s : written s = true -> single s.
Proof.
  induction s as [s IH] using stmt_parts_ind. intros H. constructor.
  - destruct s; try exact I. cbn [written] in H. destruct ps as [[|x [|]]|]; try discriminate H. reflexivity.
  - assert (A : forall l : list stmt, (forall x, In x l -> In x (parts s)) -> forallb (fun x => is_nil x || written x) l = true -> Forall single l).
    { intros l Hi Hl. rewrite forallb_forall in Hl. apply Forall_forall. intros x Hx. specialize (Hl x Hx). apply orb_true_iff in Hl as [Hl|Hl]; [|eapply IH; eauto].
      destruct x; try discriminate Hl. apply nil_single. }
    destruct s; cbn [written] in H; try discriminate H; cbn [parts] in *; try (constructor; fail);
    repeat match goal with H : _ && _ = true |- _ => apply andb_true_iff in H as [? ?] end;
    try (match goal with ps : option (list stmt) |- Forall single (elems ?ps) => destruct ps as [l|]; [|constructor]; cbn [elems] in *; apply A; auto end; fail);
    repeat (constructor; [eapply IH; [cbn; auto 6|eassumption]|]); try constructor.
    destruct ps as [[|x [|]]|]; try discriminate H. constructor; [|constructor]. eapply IH; [left; reflexivity|exact H].
Qed.
Lemma may_single s : may_written s = true -> single s.
Proof. intros H. apply orb_true_iff in H as [H|H]; [destruct s; try discriminate H; apply nil_single|apply written_single, H]. Qed.
Lemma written_stmt_single s : written_stmt s = true -> single s.
Proof.
  induction s as [s IH] using stmt_parts_ind.
  assert (A : forall l, (forall x, In x (elems l) -> In x (parts s)) -> forallb written_stmt (elems l) = true -> Forall single (elems l)).
  { intros l Hi Hl. rewrite forallb_forall in Hl. apply Forall_forall. intros x Hx. apply IH; auto. }
  intros H. destruct s; try exact (written_single _ H); try (constructor; [exact I|constructor]; fail); try discriminate H.
  - cbn [written_stmt] in H. destruct ps as [[|e [|]]|]; try discriminate H. apply andb_true_iff in H as [H1 H2]. constructor; [exact I|]. cbn [parts elems].
    constructor; [apply written_single, H1|]. constructor; [apply written_single, H2|constructor].
  - rewrite written_if in H. apply andb_true_iff in H as [H H4]. apply andb_true_iff in H as [H H3]. apply andb_true_iff in H as [H1 H2].
    constructor; [exact I|]. cbn [parts] in *. constructor; [apply written_single, H1|]. rewrite !Forall_app.
    split; [apply A; auto; intros; right; apply in_or_app; auto|]. split; apply A; auto; intros; right; apply in_or_app; right; apply in_or_app; auto.
  - rewrite written_try in H. apply andb_true_iff in H as [H1 H2]. constructor; [exact I|]. cbn [parts] in *. apply Forall_app. split; apply A; auto; intros; apply in_or_app; auto.
  - constructor; [exact I|]. cbn [parts]. constructor; [|constructor]. destruct s; try exact (may_single _ H).
    cbn [written_stmt] in H. destruct ps as [[|x [|]]|]; try discriminate H. constructor; [reflexivity|]. constructor; [apply may_single, H|constructor].
  - constructor; [exact I|]. cbn [parts]. constructor; [apply may_single, H|constructor].
  - rewrite written_loop in H. repeat (apply andb_true_iff in H as [H ?]). constructor; [exact I|]. cbn [parts] in *.
    repeat (constructor; [apply may_single; assumption|]). apply A; auto. intros; cbn; auto 6.
Qed.
Lemma written_item_single s : written_item s = true -> single s.
Proof.
  destruct s; try (apply written_stmt_single). cbn [written_item]. intros H. apply andb_true_iff in H as [H2 H3].
  constructor; [exact I|]. cbn [parts]. apply Forall_app. split.
  - rewrite forallb_forall in H2. apply Forall_forall. intros x Hx. apply written_stmt_single. auto.
  - rewrite forallb_forall in H3. apply Forall_forall. intros x Hx. apply in_map_iff in Hx as (p & <- & Hp). specialize (H3 p Hp). destruct (fst (fst p)); try discriminate H3; constructor; try exact I; constructor.
Qed.

(** * C62 What formatting does to a module *)
(** The text that Print writes for the tree of an accepted text is accepted, and its tree is [formatted m] up to redundant
    parentheses and the order of the module variables.  Texts with every Прервать in a loop (C18) and no block that starts with a
    separator (C16), trees with one expression in parentheses and no labels in expressions, options that keep the words of
    Попытка apart (C30). *)
Theorem C62_formatted : forall code l m order c t, accepted code m -> tokens code l -> clean_toks Begin l = true -> breaks_toks 0 l = true ->
  written_module m = true -> elems (m_body m) <> [] -> spaced c m -> Permutation order (elems (m_gvars m)) ->
  Print order c m = Some t -> exists m', accepted t m' /\ same_module (formatted m) m'.
Proof.
  intros code l m order c t Hm Hl Hc Hbr Hw Hne Hsp Ho Ht.
  destruct (accepted_history _ _ Hm) as (a & Ha & Ea). destruct (history_built a Ha) as [Hg Hbu]. rewrite Ea in Hg, Hbu. clear Ea Ha; clear a.
  assert (Hsi : Forall single (elems (m_body m))).
  { unfold written_module in Hw. rewrite forallb_forall in Hw. apply Forall_forall. intros s Hs. apply written_item_single. auto. }
  assert (Hg' : Forall gvar_ok order) by (rewrite Forall_forall in *; intros g Hi; apply Hg; eapply Permutation_in; eassumption).
  assert (Hr := Print_writes _ _ _ _ Hg' Hbu Hsi (spaced_fine _ _ Hsp) Ht).
  destruct (C24_grouping _ _ _ Hm Hl) as (p & -> & Hd & Hb & Hp). specialize (Hp Hc). subst m.
  destruct (accepted_legal _ _ _ Hm Hl Hd Hb) as (_ & R2 & R3 & R4 & _ & _). rewrite breaks_program in Hbr.
  destruct (tidy_program p order (tokens_nk _ _ Hl) Hw Hne Hbu Ho Hbr R2 R3 R4) as (p' & E1 & E2 & E3 & E4 & E5 & E6).
  rewrite <- E1 in Hr.
  assert (Hn : toks_program p' <> []).
  { intros En. assert (X : elems (m_body (mean_program p')) <> []).
    { destruct E2 as (_ & _ & E2). intros X. apply Hne. unfold formatted in E2. cbn [m_body] in E2.
      destruct (m_body (mean_program p)) as [[|]|], (m_body (mean_program p')) as [[|]|]; try reflexivity; discriminate. }
    apply X. rewrite (no_toks _ En). reflexivity. }
  destruct (legal_accepted t p' (tokens_not_white _ _ Hr Hn) Hr E3 E4 E6) as (m' & Hm'). exists m'. split; [exact Hm'|].
  destruct (accepted_legal _ _ _ Hm' Hr E3 E4) as (_ & _ & _ & _ & _ & E7). destruct (E7 E5) as [_ ->]. exact E2.
Qed.
(** So it keeps the meaning exactly for the trees that [formatted] keeps (the criterion for C43). *)
Theorem C62_unchanged : forall code l m order c t, accepted code m -> tokens code l -> clean_toks Begin l = true -> breaks_toks 0 l = true ->
  written_module m = true -> elems (m_body m) <> [] -> spaced c m -> Permutation order (elems (m_gvars m)) ->
  Print order c m = Some t -> ((exists m', accepted t m' /\ same_module m m') <-> same_module m (formatted m)).
Proof.
  intros code l m order c t H1 H2 H3 H4 H5 H6 H7 H8 H9. destruct (C62_formatted code l m order c t) as (m' & A1 & A2); auto. split.
  - intros (m2 & B1 & B2). rewrite <- (accepted_same _ _ _ A1 B1) in B2. destruct A2 as (X1 & X2 & X3), B2 as (Y1 & Y2 & Y3).
    split; [congruence|]. split; [eapply Permutation_trans; [exact Y2|apply Permutation_sym, X2]|congruence].
  - intros (Y1 & Y2 & Y3). destruct A2 as (X1 & X2 & X3). exists m'. split; [exact A1|]. split; [congruence|]. split; [eapply Permutation_trans; eassumption|congruence].
Qed.
(** Modules that are printed as the same text, with whatever options, are the same module formatted. *)
Theorem C62_same_text : forall code1 l1 m1 order1 c1 code2 l2 m2 order2 c2 t,
  (accepted code1 m1 /\ tokens code1 l1 /\ clean_toks Begin l1 = true /\ breaks_toks 0 l1 = true /\
   written_module m1 = true /\ elems (m_body m1) <> [] /\ spaced c1 m1 /\ Permutation order1 (elems (m_gvars m1))) ->
  (accepted code2 m2 /\ tokens code2 l2 /\ clean_toks Begin l2 = true /\ breaks_toks 0 l2 = true /\
   written_module m2 = true /\ elems (m_body m2) <> [] /\ spaced c2 m2 /\ Permutation order2 (elems (m_gvars m2))) ->
  Print order1 c1 m1 = Some t -> Print order2 c2 m2 = Some t -> same_module (formatted m1) (formatted m2).
Proof.
  intros code1 l1 m1 order1 c1 code2 l2 m2 order2 c2 t (A1 & A2 & A3 & A4 & A5 & A6 & A7 & A8) (B1 & B2 & B3 & B4 & B5 & B6 & B7 & B8) T1 T2.
  destruct (C62_formatted code1 l1 m1 order1 c1 t) as (n1 & N1 & X1 & X2 & X3); auto.
  destruct (C62_formatted code2 l2 m2 order2 c2 t) as (n2 & N2 & Y1 & Y2 & Y3); auto.
  rewrite <- (accepted_same _ _ _ N1 N2) in Y1, Y2, Y3. split; [congruence|].
  split; [eapply Permutation_trans; [exact X2|apply Permutation_sym, Y2]|congruence].
Qed.
(** A module of nothing but declarations of variables is printed as the empty text. *)
Theorem C62_empty : forall order c m, elems (m_body m) = [] -> Print order c m = Some [].
Proof. intros order c m H. unfold Print. rewrite H. reflexivity. Qed.

(** Numbers go to the nearest whole number, halves to the even one; whole numbers stay. *)
Theorem C62_number : forall f, is_f64 (f64_abs f) -> exists n, 0 <= n /\ f_neg (integer f) = f_neg f /\ is_f64 (f64_abs (integer f)) /\
  (f64_Q (f64_abs (integer f)) == inject_Z n)%Q /\ (Qabs (f64_Q (f64_abs f) - inject_Z n) <= 1 # 2)%Q /\
  ((Qabs (f64_Q (f64_abs f) - inject_Z n) == 1 # 2)%Q -> Z.even n = true) /\ (whole (f64_abs f) -> integer f = f).
Proof.
  intros f Hf. pose proof (rounded_int _ Hf) as E. destruct (integer_rounded f Hf) as [Ei En]. exists (nearest_int f). pose proof (nearest_int_nonneg _ Hf) as N0.
  rewrite <- nearest_int_abs in N0, E. split; [exact N0|]. set (g := rounded (f64_abs f)) in *. rewrite Ei. split; [reflexivity|]. cbn [f64_abs f_neg f_man f_exp].
  assert (Hg : F64 false (f_man g) (f_exp g) = g) by (destruct g as [gn gm ge]; cbn [f_neg] in En; subst gn; reflexivity). unfold f64_abs at 1 2. cbn [f_man f_exp]. rewrite Hg.
  apply to_f64_nearest in E; [|exact N0|lia]. assert (Ig : is_f64 g) by apply E. split; [exact Ig|].
  assert (W : forall h, is_f64 h -> (f64_Q h == inject_Z (nearest_int f))%Q -> g = h).
  { intros h Hh Hq. eapply nearest_unique; [exact E|]. apply nearest_self; [exact Hh|]. rewrite Hq, frac_Qmake by lia. reflexivity. }
  assert (Qa : (f64_Q (f64_abs f) == inject_Z (f_man f) * Qpower 2 (f_exp f))%Q) by (rewrite f64_Q_pos by reflexivity; reflexivity).
  assert (Hm : 0 <= f_man f < 2 ^ 53) by (destruct Hf as [_ Hf]; cbn [f64_abs f_man f_exp] in Hf; destruct pow52; lia).
  assert (Wh : whole (f64_abs f) -> g = f64_abs f).
  { intros Hw. destruct (format_float _ Hf) as (_ & _ & _ & _ & _ & _ & Hr). exact (Hr Hw). }
  assert (Last : whole (f64_abs f) -> F64 (f_neg f) (f_man g) (f_exp g) = f) by (intros Hw; rewrite (Wh Hw); destruct f; reflexivity).
  destruct (0 <=? f_exp f) eqn:Ee.
  - assert (Qn : (f64_Q (f64_abs f) == inject_Z (nearest_int f))%Q).
    { rewrite Qa. unfold nearest_int. rewrite Ee, inject_Z_mult. apply Z.leb_le in Ee. rewrite <- Qpower2_Z by exact Ee. reflexivity. }
    split; [rewrite (W _ Hf Qn); exact Qn|].
    assert (Z0 : (Qabs (f64_Q (f64_abs f) - inject_Z (nearest_int f)) == 0)%Q).
    { rewrite Qn. setoid_replace (inject_Z (nearest_int f) - inject_Z (nearest_int f))%Q with 0%Q by ring. reflexivity. }
    rewrite Z0. split; [discriminate|]. split; [intros H; discriminate H|]. exact Last.
  - apply Z.leb_gt in Ee. set (d := 2 ^ (- f_exp f)). assert (Pd : 0 < d) by (apply pow2_pos; lia).
    assert (Nn : nearest_int f = round_ne (f_man f) d) by (unfold nearest_int; rewrite (proj2 (Z.leb_gt 0 (f_exp f)) Ee); reflexivity).
    assert (Hle : nearest_int f <= 2 ^ 53) by (rewrite Nn; apply round_ne_le; [exact Pd|]; nia).
    destruct (small_whole (nearest_int f) (conj N0 Hle)) as (h & Hh & Hq). split; [rewrite (W _ Hh Hq); exact Hq|].
    assert (Qf : (f64_Q (f64_abs f) * inject_Z d == inject_Z (f_man f))%Q).
    { rewrite Qa. unfold d. rewrite <- Qpower2_Z by lia. rewrite <- Qmult_assoc, <- Qpower2_plus, Z.add_opp_diag_r. cbn [Qpower]. ring. }
    destruct (round_ne_spec (f_man f) d Pd) as [S1 S2]. rewrite <- Nn in S1, S2. set (n := nearest_int f) in *.
    assert (Qd : (Qabs (f64_Q (f64_abs f) - inject_Z n) * inject_Z d == inject_Z (Z.abs (n * d - f_man f)))%Q).
    { assert (Ad : (inject_Z d == Qabs (inject_Z d))%Q) by (symmetry; apply Qabs_pos; change 0%Q with (inject_Z 0); rewrite <- Zle_Qle; lia).
      rewrite Ad, <- Qabs_Qmult. rewrite <- Z.abs_opp. setoid_replace ((f64_Q (f64_abs f) - inject_Z n) * inject_Z d)%Q with (inject_Z (- (n * d - f_man f))).
      - reflexivity.
      - replace (- (n * d - f_man f)) with (f_man f + - (n * d)) by ring. rewrite inject_Z_plus, inject_Z_opp, inject_Z_mult, <- Qf. ring. }
    assert (Pq : (0 < inject_Z d)%Q) by (change 0%Q with (inject_Z 0); rewrite <- Zlt_Qlt; exact Pd).
    set (q := Qabs (f64_Q (f64_abs f) - inject_Z n)) in *.
    split; [|split; [|exact Last]].
    + apply (Qmult_le_r _ _ (inject_Z d) Pq). rewrite Qd. apply (Qmult_le_l _ _ 2); [reflexivity|].
      setoid_replace (2 * ((1 # 2) * inject_Z d))%Q with (inject_Z d) by ring. change 2%Q with (inject_Z 2). rewrite <- inject_Z_mult, <- Zle_Qle. exact S1.
    + intros Eq. apply S2. rewrite Eq in Qd. assert (X : (inject_Z (2 * Z.abs (n * d - f_man f)) == inject_Z d)%Q).
      { rewrite inject_Z_mult, <- Qd. change (inject_Z 2) with 2%Q. ring. }
      apply (proj1 (inject_Z_injective _ _)) in X. exact X.
Qed.

(** Everything that changes, in one module. *)
Definition C62_text : bytes := B "Перем г; Функция Ф(а = -1.5) Перем в; Для Каждого х Из а Цикл Если х = 1 Тогда Прервать; ИначеЕсли х Тогда Продолжить; ИначеЕсли НЕ х Тогда КонецЕсли; КонецЦикла;
  б = Ф(-а, НЕ в) + -а.б; в = (НЕ а) + 2.5 > 7; (а) = б; НЕ а.б(); ВызватьИсключение НЕ (а); Возврат -(а + б) И НЕ в; КонецФункции".
Definition C62_result : bytes := B "Перем г;Функция Ф(а = -2) Для Каждого х Из а Цикл Если х = 1 Тогда Прервать; ИначеЕсли НЕ х Тогда ИначеЕсли х Тогда Продолжить; КонецЕсли; КонецЦикла;
  б = Ф(а, в) + а.б; в = (НЕ а + 2) > 7; а = б; а.б(); ВызватьИсключение а; Возврат (а + б) И НЕ в; КонецФункции".
Ltac same := split; [vm_compute; reflexivity|]; split; [vm_compute; apply Permutation_refl|vm_compute; reflexivity].
Example C62_example : let m := tree_of C62_text in accepted C62_text m /\ tokens C62_text (toks_of C62_text) /\ clean_toks Begin (toks_of C62_text) = true /\
  breaks_toks 0 (toks_of C62_text) = true /\ written_module m = true /\ elems (m_body m) <> [] /\ spaced (Conf 4 false) m.
Proof.
  cbv zeta. split; [accepted|]. split; [tokenized|]. split; [vm_compute; reflexivity|]. split; [vm_compute; reflexivity|]. split; [vm_compute; reflexivity|].
  split; [vm_compute; discriminate|]. left; reflexivity.
Qed.
Example C62_example_result : accepted C62_result (tree_of C62_result) /\ same_module (formatted (tree_of C62_text)) (tree_of C62_result) /\
  ~ same_module (tree_of C62_text) (tree_of C62_result).
Proof. split; [accepted|]. split; [same|]. intros (_ & _ & H). vm_compute in H. discriminate H. Qed.
(** Two texts printed alike, their trees not the same. *)
Definition C62_one : bytes := B "Функция Ф(а = 1.5) Перем в; (а) = Ф(-а); Возврат -(а + б); КонецФункции".
Definition C62_two : bytes := B "Функция Ф(а = 2) а = Ф(а); Возврат (а + б); КонецФункции".
Example C62_example_same : (forall code, code = C62_one \/ code = C62_two -> let m := tree_of code in let l := toks_of code in accepted code m /\ tokens code l /\
  clean_toks Begin l = true /\ breaks_toks 0 l = true /\ written_module m = true /\ elems (m_body m) <> [] /\ spaced (Conf 4 false) m /\ m_gvars m = None) /\
  (exists t, Print [] (Conf 4 false) (tree_of C62_one) = Some t /\ Print [] (Conf 4 false) (tree_of C62_two) = Some t) /\ ~ same_module (tree_of C62_one) (tree_of C62_two).
Proof.
  split; [|split].
  - intros code [-> | ->]; cbv zeta; (split; [accepted|]; split; [tokenized|]; split; [vm_compute; reflexivity|]; split; [vm_compute; reflexivity|]; split; [vm_compute; reflexivity|];
    split; [vm_compute; discriminate|]; split; [left; reflexivity|vm_compute; reflexivity]).
  - eexists. split; vm_compute; reflexivity.
  - intros (_ & _ & H). vm_compute in H. discriminate H.
Qed.

Print Assumptions C62_formatted.
Print Assumptions C62_unchanged.
Print Assumptions C62_same_text.
Print Assumptions C62_empty.
Print Assumptions C62_number.
