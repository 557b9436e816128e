(** The tree built for an accepted text and the rules it obeys (C16, C18-C23, C39).
    Specifications: Syntax.v (programs, their tokens and their trees), Rules.v
    (placement rules on token sequences and trees); proofs: CstTrees.v, CstEval.v,
    CstModule.v, RulesFacts.v. *)
From Verif Require Import Bytes Utf8 Float64 GoTime Ast Lexer LexFacts LexSpec LexProofs Tables Parser Grammar Tok CertData Cert
  Driver DriverInv Trees Properties_Parser Syntax Rules RulesFacts CleanFacts Order OrderFacts CstTrees CstEval CstModule.
Open Scope Z_scope.

(** Parse returned nil for a text that is not white space only, leaving the tree [m]. *)
Definition accepted (code : bytes) (m : module) : Prop :=
  ~ all_white code /\ exists a', parse code = Some (Ok (a', None)) /\ a_module a' = m.

Lemma lexes_det code t l : lexes code t l -> forall l', lexes code t l' -> l = l'.
Proof.
  induction 1 as [t t' E|t k t' l E Hk H IH]; intros l' H'; inversion H' as [? t2 E2|? k2 t2 l2 E2 Hk2 H2]; subst; try congruence.
  rewrite E in E2. injection E2 as <- <-. f_equal. apply IH, H2.
Qed.
Lemma tokens_det code l l' : tokens code l -> tokens code l' -> l = l'.
Proof. intros (r & H & ->) (r' & H' & ->). rewrite (lexes_det _ _ _ H _ H'). reflexivity. Qed.

Lemma Parse_err a a' e : Parse a = Some (Ok (a', e)) -> blank (a_code a) = false -> a_err a' = e.
Proof.
  unfold Parse. intros H E. rewrite E in H. destruct (run _ _) as [[[x a1]|]|]; [|discriminate..]. injection H as <- H. exact H.
Qed.
Lemma program_of code m : accepted code m -> exists p, tokens code (toks_program p) /\
  loose_ok p = true /\ throws_ok p = true /\ returns_ok p = true /\ vars_once p /\ layout_ok (pr_items p) = true /\
  (exists fs rest, m = Module [] (gv_slice (item_gvars (pr_items p))) (slice_of (fs ++ rest)) /\
     Forall2 (fun f s => exists body, s = mean_func_with body f) (item_funcs (pr_items p)) fs) /\
  (clean p = true -> colons_ok p = true /\ m = mean_program p).
Proof.
  intros (Hw & a' & H & <-).
  destruct (Parse_tree (NewAST code) a' H (blank_not_white _ Hw)) as (T & v & l & W & S & (a1 & Hs & He) & <- & Ht).
  destruct (wf_program _ W S) as (p & Hd & ->). exists p.
  rewrite (yield_program p Hd) in Ht. split; [exact Ht|].
  assert (Herr : a_err a' = None) by (apply (Parse_err _ _ _ H), (blank_not_white _ Hw)).
  apply (eval_program p v a1 a' Hd); [|exact He|exact Herr].
  destruct Hs as (_ & _ & S3 & S4 & S5 & S6). unfold fresh. rewrite S3, S4, S5, S6. repeat split.
Qed.

(** Reading off the tokens of a text (used in examples only). *)
Fixpoint lex_all (fuel : nat) (code : bytes) (t : token) : option (list tk) :=
  match fuel with
  | O => None
  | S n => match Next code t with
           | (k, t', None) => if k =? EOF then Some [] else option_map (cons (tk_of k t')) (lex_all n code t')
           | _ => None
           end
  end.
Lemma lex_all_lexes n code : forall t l, lex_all n code t = Some l -> exists r, lexes code t r /\ l = map (fun x => tk_of (fst x) (snd x)) r.
Proof.
  induction n as [|n IH]; intros t l H; [discriminate|]. cbn [lex_all] in H.
  destruct (Next code t) as [[k t'] [e|]] eqn:E; [discriminate|].
  destruct (Z.eqb_spec k EOF) as [->|Hk].
  - injection H as <-. exists []. split; [econstructor; exact E|reflexivity].
  - destruct (lex_all n code t') as [r|] eqn:Er; [|discriminate]. injection H as <-.
    destruct (IH _ _ Er) as (r' & Hr & ->). exists ((k, t') :: r'). split; [econstructor; eassumption|reflexivity].
Qed.
Definition toks_of (code : bytes) : list tk := match lex_all (S (length code)) code zero_token with Some l => l | None => [] end.
Lemma toks_of_tokens code : match lex_all (S (length code)) code zero_token with Some _ => true | None => false end = true -> tokens code (toks_of code).
Proof.
  unfold toks_of. destruct (lex_all _ _ _) as [l|] eqn:E; [|discriminate]. intros _. exact (lex_all_lexes _ _ _ _ E).
Qed.
Definition tree_of (code : bytes) : module := match parse code with Some (Ok (a, _)) => a_module a | _ => zero_module end.
Lemma accept code : blank code = false -> match parse code with Some (Ok (_, None)) => true | _ => false end = true -> accepted code (tree_of code).
Proof.
  intros Hb H. split.
  - intros Hw. apply blank_white in Hw. congruence.
  - unfold tree_of. destruct (parse code) as [[[a' [e|]]|]|] eqn:E; try discriminate H. exists a'. split; reflexivity.
Qed.
Ltac tokenized := apply toks_of_tokens; vm_compute; reflexivity.
Ltac accepted := apply accept; vm_compute; reflexivity.

(** * C16 The tree is the meaning of the derivation *)
Definition C16_statement : Prop :=
  forall code m, accepted code m -> exists p, tokens code (toks_program p) /\ m = mean_program p.
(** What holds: the text is a program, and the tree is the tree of the program if no
    block of it starts with a separator; the declarations are always right (C21, C22,
    C39).  Missing: blocks starting with a separator. *)
Theorem C16_tree_partial : forall code m l, accepted code m -> tokens code l ->
  exists p, l = toks_program p /\ (clean_toks Begin l = true -> m = mean_program p).
Proof.
  intros code m l H Hl. destruct (program_of _ _ H) as (p & H1 & _ & _ & _ & _ & _ & _ & H2). exists p.
  rewrite (tokens_det _ _ _ Hl H1). split; [reflexivity|]. rewrite clean_program. intros Hc. apply H2, Hc.
Qed.
Definition clean_text : bytes := B "Функция Ф(а) Если а > 1 Тогда Возврат а; КонецЕсли; КонецФункции Ф(2);".
Example C16_example : accepted clean_text (tree_of clean_text) /\ tokens clean_text (toks_of clean_text) /\
  clean_toks Begin (toks_of clean_text) = true /\ calls_module (tree_of clean_text) = 1%nat /\ length (elems (m_body (tree_of clean_text))) = 2%nat.
Proof. split; [accepted|]. split; [tokenized|]. vm_compute. auto. Qed.
(** The calls of a block starting with a separator come twice: the text below calls
    three times, the tree four times. *)
Definition leak_text : bytes := B "a(); Попытка b(); Исключение КонецПопытки; Попытка ; c(); Исключение КонецПопытки;".
Theorem C16_refuted : ~ C16_statement.
Proof.
  intros H. destruct (H leak_text (tree_of leak_text)) as (p & Ht & Hm); [accepted|].
  pose proof (calls_program p) as Hc. rewrite <- Hm in Hc.
  rewrite (tokens_det _ _ (toks_of leak_text) Ht) in Hc by tokenized.
  replace (calls_module (tree_of leak_text)) with 4%nat in Hc by (vm_compute; reflexivity).
  replace (name_count (toks_of leak_text)) with 3%nat in Hc by (vm_compute; reflexivity). lia.
Qed.

(** * C18 Прервать and Продолжить only inside loops *)
Definition C18_statement : Prop := forall code m, accepted code m ->
  (forall l, tokens code l -> breaks_toks 0 l = true) /\ module_all (breaks_tree false) m = true.
(** Before the first Пока of the text the rule is enforced; afterwards it is not.
    In the tree: for texts without Пока and without blocks starting with a separator. *)
Theorem C18_before_while_partial : forall code m l, accepted code m -> tokens code l -> breaks_toks 0 (before_while l) = true.
Proof.
  intros code m l H Hl. destruct (program_of _ _ H) as (p & H1 & H2 & _). rewrite (tokens_det _ _ _ Hl H1). apply loose_program, H2.
Qed.
Theorem C18_no_while_partial : forall code m l, accepted code m -> tokens code l -> ~ In (K tWhile) l ->
  breaks_toks 0 l = true /\ (clean_toks Begin l = true -> module_all (breaks_tree false) m = true).
Proof.
  intros code m l H Hl Hw. split.
  - rewrite <- (C18_before_while_partial _ _ _ H Hl). f_equal.
    assert (Hk : forall t, In t l -> kind_of t <> tWhile).
    { intros t Hin E. apply Hw. destruct t as [c|x|x|x|x|x|x|x]; try (vm_compute in E; discriminate E). cbn [kind_of] in E. subst c. exact Hin. }
    clear -Hk. induction l as [|t l IH]; [reflexivity|]. cbn [before_while].
    destruct (Z.eqb_spec (kind_of t) tWhile) as [E|E]; [destruct (Hk t (or_introl eq_refl) E)|].
    f_equal. apply IH. intros x Hx. apply Hk. right. exact Hx.
  - destruct (program_of _ _ H) as (p & H1 & H2 & _ & _ & _ & _ & _ & H3).
    rewrite (tokens_det _ _ _ Hl H1), clean_program. intros Hc. destruct (H3 Hc) as (_ & ->).
    rewrite breaks_module, <- loose_breaks_ok; [exact H2|]. apply no_while_toks. rewrite <- (tokens_det _ _ _ Hl H1). exact Hw.
Qed.
Definition break_text : bytes := B "Для Каждого а Из б Цикл Если а Тогда Прервать; Иначе Продолжить; КонецЕсли; КонецЦикла;".
Example C18_example : accepted break_text (tree_of break_text) /\ tokens break_text (toks_of break_text) /\
  ~ In (K tWhile) (toks_of break_text) /\ clean_toks Begin (toks_of break_text) = true /\ In (K tBreak) (toks_of break_text).
Proof.
  split; [accepted|]. split; [tokenized|]. split; [|split; [vm_compute; reflexivity|vm_compute; intuition]].
  intros H. vm_compute in H. intuition discriminate.
Qed.
(** Two ways to break the rule: after any Пока loop the check is off; and the statements
    of a block can turn up again in a later block that starts with a separator. *)
Theorem C18_after_while_refuted : exists code m l, accepted code m /\ tokens code l /\ breaks_toks 0 l = false /\ module_all (breaks_tree false) m = false.
Proof.
  set (c := B "Пока а Цикл КонецЦикла; Прервать;"). exists c, (tree_of c), (toks_of c).
  split; [accepted|]. split; [tokenized|]. split; vm_compute; reflexivity.
Qed.
Theorem C18_refuted : ~ C18_statement.
Proof. intros H. destruct C18_after_while_refuted as (c & m & l & H1 & H2 & H3 & _). rewrite (proj1 (H _ _ H1) _ H2) in H3. discriminate. Qed.
Theorem C18_tree_refuted : exists code m l, accepted code m /\ tokens code l /\ ~ In (K tWhile) l /\ module_all (breaks_tree false) m = false.
Proof.
  set (c := B "Для а По 5 Цикл Прервать; КонецЦикла; Попытка Исключение ; в(); КонецПопытки;"). exists c, (tree_of c), (toks_of c).
  split; [accepted|]. split; [tokenized|]. split; [intros H; vm_compute in H; intuition discriminate|vm_compute; reflexivity].
Qed.

(** * C19 ВызватьИсключение without a value only in handlers *)
Theorem C19_throw_in_handler : forall code m l, accepted code m -> tokens code l -> throws_toks 0 l = true.
Proof.
  intros code m l H Hl. destruct (program_of _ _ H) as (p & H1 & _ & H2 & _). rewrite (tokens_det _ _ _ Hl H1), throws_program. exact H2.
Qed.
Definition throw_text : bytes := B "Попытка а(); Исключение Если б Тогда ВызватьИсключение; КонецЕсли; КонецПопытки; ВызватьИсключение 1;".
Example C19_example : accepted throw_text (tree_of throw_text) /\ tokens throw_text (toks_of throw_text) /\
  clean_toks Begin (toks_of throw_text) = true /\ In (K tThrow) (toks_of throw_text).
Proof. split; [accepted|]. split; [tokenized|]. split; [vm_compute; reflexivity|vm_compute; intuition]. Qed.
(** In the tree, where blocks do not start with a separator; with such blocks a tree
    can contain a bare throw where there is none in the text (C16). *)
Theorem C16_throws_tree_partial : forall code m l, accepted code m -> tokens code l -> clean_toks Begin l = true -> module_all (throws_tree false) m = true.
Proof.
  intros code m l H Hl. destruct (program_of _ _ H) as (p & H1 & _ & H2 & _ & _ & _ & _ & H3).
  rewrite (tokens_det _ _ _ Hl H1), clean_program. intros Hc. destruct (H3 Hc) as (_ & ->). rewrite throws_module. exact H2.
Qed.
Theorem C16_throws_tree_refuted : exists code m, accepted code m /\ module_all (throws_tree false) m = false.
Proof.
  set (c := B "а(); Попытка Исключение ВызватьИсключение; КонецПопытки; Пока а Цикл ; б(); КонецЦикла;"). exists c, (tree_of c).
  split; [accepted|]. vm_compute. reflexivity.
Qed.

(** * C20 Возврат with a value only in functions *)
Theorem C20_return_value_in_function : forall code m l, accepted code m -> tokens code l -> returns_toks false l = true.
Proof.
  intros code m l H Hl. destruct (program_of _ _ H) as (p & H1 & _ & _ & H2 & _). rewrite (tokens_det _ _ _ Hl H1), returns_program. exact H2.
Qed.
Definition return_text : bytes := B "Процедура П() Возврат; КонецПроцедуры Функция Ф() Пока а Цикл Возврат 1 + 2; КонецЦикла; КонецФункции Возврат;".
Example C20_example : accepted return_text (tree_of return_text) /\ tokens return_text (toks_of return_text) /\
  clean_toks Begin (toks_of return_text) = true /\ In (K tReturn) (toks_of return_text).
Proof. split; [accepted|]. split; [tokenized|]. split; [vm_compute; reflexivity|vm_compute; intuition]. Qed.
Theorem C16_returns_tree_partial : forall code m l, accepted code m -> tokens code l -> clean_toks Begin l = true -> module_all (returns_tree false) m = true.
Proof.
  intros code m l H Hl. destruct (program_of _ _ H) as (p & H1 & _ & _ & H2 & _ & _ & _ & H3).
  rewrite (tokens_det _ _ _ Hl H1), clean_program. intros Hc. destruct (H3 Hc) as (_ & ->). rewrite returns_module. exact H2.
Qed.
Theorem C16_returns_tree_refuted : exists code m, accepted code m /\ module_all (returns_tree false) m = false.
Proof.
  set (c := B "Функция Ф() Возврат 1; КонецФункции Процедура П() ; а(); КонецПроцедуры"). exists c, (tree_of c).
  split; [accepted|]. vm_compute. reflexivity.
Qed.

(** * C21 Variables are declared once *)
(** The names after Перем in each procedure or function are distinct and are the keys of
    its ExplicitVariables (in order of insertion); the same for the module. *)
Theorem C21_declared_once : forall code m l, accepted code m -> tokens code l ->
  exists p fs rest, l = toks_program p /\ m_body m = slice_of (fs ++ rest) /\
  Forall2 (fun f s => NoDup (mean_vars (cf_vars f)) /\
             exists n d b ps ty x, s = SFunc (Some (mean_vars (cf_vars f))) n d b ps ty x) (item_funcs (pr_items p)) fs /\
  NoDup (map gv_name (elems (m_gvars m))) /\ elems (m_gvars m) = item_gvars (pr_items p).
Proof.
  intros code m l H Hl. destruct (program_of _ _ H) as (p & H1 & _ & _ & _ & [V1 V2] & _ & (fs & rest & -> & F) & _).
  exists p, fs, rest. cbn [m_body m_gvars]. split; [apply (tokens_det _ _ _ Hl H1)|]. split; [reflexivity|].
  assert (E : elems (gv_slice (item_gvars (pr_items p))) = item_gvars (pr_items p)) by (destruct (item_gvars _); reflexivity).
  rewrite E. split; [|split; [exact V2|reflexivity]].
  clear -V1 F. induction F as [|f s fl sl (body & ->) F IH]; constructor.
  - inversion V1; subst. split; [assumption|]. unfold mean_func_with. eauto 8.
  - apply IH. inversion V1; assumption.
Qed.
Definition vars_text : bytes := B "Перем а, б Экспорт; Перем в; Процедура П() Перем а, г; Перем б; КонецПроцедуры".
Example C21_example : accepted vars_text (tree_of vars_text) /\ tokens vars_text (toks_of vars_text) /\
  map gv_name (elems (m_gvars (tree_of vars_text))) = [B "а"; B "б"; B "в"] /\
  (exists n d b ps ty x, m_body (tree_of vars_text) = Some [SFunc (Some [B "а"; B "г"; B "б"]) n d b ps ty x]).
Proof. split; [accepted|]. split; [tokenized|]. split; [vm_compute; reflexivity|]. do 6 eexists. vm_compute. reflexivity. Qed.

(** * C22 Module layout *)
(** [Перем] of the module come before procedures and functions (on the tokens), these
    before the statements of the module; Body starts with the procedures and functions in
    order.  Without blocks starting with a separator the rest of Body are the statements
    of the module. *)
Theorem C22_layout : forall code m l, accepted code m -> tokens code l ->
  layout_toks false false l = true /\
  exists p fs rest, l = toks_items (pr_items p) ++ toks_block (pr_body p) /\ m_body m = slice_of (fs ++ rest) /\
    Forall2 (fun f s => exists v d b ps x, s = SFunc v (cf_name f) d b ps (if cf_function f then PFFunction else PFProcedure) x) (item_funcs (pr_items p)) fs /\
    (clean_toks Begin l = true -> rest = mean_block (pr_body p)).
Proof.
  intros code m l H Hl. destruct (program_of _ _ H) as (p & H1 & _ & _ & _ & _ & L & (fs & rest & Em & F) & C).
  rewrite (tokens_det _ _ _ Hl H1). split; [rewrite layout_program; exact L|].
  exists p, fs, rest. split; [reflexivity|]. rewrite Em. cbn [m_body]. split; [reflexivity|]. split.
  - clear -F. induction F as [|f s fl sl (body & ->) F IH]; constructor; [unfold mean_func_with; eauto 8|exact IH].
  - rewrite clean_program. intros Hc. destruct (C Hc) as (_ & Em2). rewrite Em2 in Em. unfold mean_program in Em. injection Em as _ Em.
    assert (E : forall x y, slice_of x = slice_of y -> x = y) by (intros [] []; cbn; congruence). apply E in Em.
    assert (Hlen : length (map mean_func (item_funcs (pr_items p))) = length fs).
    { rewrite map_length. clear -F. induction F; cbn; congruence. }
    clear -Em Hlen. revert fs Em Hlen. generalize (map mean_func (item_funcs (pr_items p))). intros xs.
    induction xs as [|x xs IH]; intros [|y fs] Em Hlen; try discriminate Hlen; cbn in Em; [congruence|].
    injection Em as _ Em. apply (IH fs Em). cbn in Hlen. congruence.
Qed.
Definition layout_text : bytes := B "Перем а; &НаСервере Процедура П() Перем б; КонецПроцедуры Функция Ф() КонецФункции а = 1; П();".
Example C22_example : accepted layout_text (tree_of layout_text) /\ tokens layout_text (toks_of layout_text) /\
  clean_toks Begin (toks_of layout_text) = true /\
  map (fun s => match s with SFunc _ n _ _ _ _ _ => n | _ => [] end) (elems (m_body (tree_of layout_text))) = [B "П"; B "Ф"; []; []].
Proof. split; [accepted|]. split; [tokenized|]. split; vm_compute; reflexivity. Qed.

(** * C39 Heads of procedures and functions *)
Theorem C39_heads : forall code m l, accepted code m -> tokens code l ->
  exists p fs rest, l = toks_program p /\ m_body m = slice_of (fs ++ rest) /\
    Forall2 (fun f s => exists v b, s = SFunc v (cf_name f) (match cf_dir f with Some n => n | None => [] end) b
               (mean_params (cf_params f)) (if cf_function f then PFFunction else PFProcedure) (cf_export f)) (item_funcs (pr_items p)) fs.
Proof.
  intros code m l H Hl. destruct (program_of _ _ H) as (p & H1 & _ & _ & _ & _ & _ & (fs & rest & -> & F) & _).
  exists p, fs, rest. split; [apply (tokens_det _ _ _ Hl H1)|]. split; [reflexivity|].
  clear -F. induction F as [|f s fl sl (body & ->) F IH]; constructor; [unfold mean_func_with; eauto|exact IH].
Qed.
Definition head_text : bytes := B "&НаКлиенте Функция Ф(Знач а, б = -5, Знач в = ""х"") Экспорт КонецФункции".
Example C39_example : accepted head_text (tree_of head_text) /\ tokens head_text (toks_of head_text) /\
  m_body (tree_of head_text) = Some [SFunc (Some []) (B "Ф") (B "&НаКлиенте") None
    [(SNil, B "а", true); (SNum (F64 true (5 * 2^50) (-50)), B "б", false); (SStr (B "х"), B "в", true)] PFFunction true].
Proof. split; [accepted|]. split; [tokenized|]. vm_compute. reflexivity. Qed.

(** * C23 ElseIf branches keep source order *)
Definition C23_statement : Prop := forall code m l, accepted code m -> tokens code l -> clean_toks Begin l = true ->
  exists p, l = toks_program p /\ m = src_program p.
(** They are listed in reverse order; so the order is right exactly where there are not two of them. *)
Theorem C23_reversed_partial : forall code m l, accepted code m -> tokens code l -> clean_toks Begin l = true ->
  exists p, l = toks_program p /\ m = turn_module (src_program p) /\
    (each_in one_elseif (m_body m) = true -> m = src_program p).
Proof.
  intros code m l H Hl Hc. destruct (C16_tree_partial _ _ _ H Hl) as (p & H1 & H2). specialize (H2 Hc). exists p. split; [exact H1|].
  rewrite turn_program. split; [exact H2|]. rewrite H2. apply one_elseif_src.
Qed.
Definition if_text : bytes := B "Если а Тогда б(); ИначеЕсли в Тогда г(); Иначе е(); КонецЕсли;".
Example C23_example : accepted if_text (tree_of if_text) /\ tokens if_text (toks_of if_text) /\
  clean_toks Begin (toks_of if_text) = true /\ each_in one_elseif (m_body (tree_of if_text)) = true.
Proof. split; [accepted|]. split; [tokenized|]. split; vm_compute; reflexivity. Qed.
Definition elseif_text : bytes := B "Если а Тогда б(); ИначеЕсли в Тогда г(); ИначеЕсли д Тогда е(); КонецЕсли".
Theorem C23_refuted : ~ C23_statement.
Proof.
  intros H. destruct (H elseif_text (tree_of elseif_text) (toks_of elseif_text)) as (p & Hp & Hm); [accepted|tokenized|vm_compute; reflexivity|].
  assert (Hi : toks_items (pr_items p) = []).
  { destruct (pr_items p) as [|it i] eqn:E; [reflexivity|]. exfalso.
    assert (Hf : exists t, In t (toks_program p) /\ (kind_of t = tVar \/ kind_of t = tFunction \/ kind_of t = tProcedure)).
    { unfold toks_program. rewrite E. cbn [toks_items]. destruct i as [d n x|f]; cbn [toks_item].
      - exists (K tVar). split; [|left; reflexivity]. rewrite !in_app_iff. left. right. right. left. reflexivity.
      - exists (K (if cf_function f then tFunction else tProcedure)).
        split; [|right; destruct (cf_function f); [left|right]; reflexivity]. unfold toks_func. rewrite !in_app_iff. left. right. right. left. reflexivity. }
    destruct Hf as (t & Ht & Hk). rewrite <- Hp in Ht. clear -Ht Hk. vm_compute in Ht.
    repeat (destruct Ht as [<- | Ht]; [vm_compute in Hk; intuition discriminate|]). destruct Ht. }
  assert (Hit : pr_items p = INil).
  { destruct (pr_items p) as [|it [d n x|f]]; [reflexivity|..]; cbn [toks_items toks_item] in Hi; exfalso;
    apply app_eq_nil in Hi as [_ Hi]; unfold toks_func in Hi; apply app_eq_nil in Hi as [_ Hi]; discriminate Hi. }
  pose proof (names_program p) as Hn. rewrite <- Hm, <- Hp in Hn. unfold single_defaults in Hn. rewrite Hit in Hn. specialize (Hn eq_refl eq_refl).
  vm_compute in Hn. discriminate Hn.
Qed.

(** * C41 Names *)
(** The names in the tree are the names in the text, none lost, none added, in order:
    where no block starts with a separator (C16), no If statement has two ElseIf
    branches (C23) and no parameter has two default values. *)
Theorem C41_names_kept_partial : forall code m l, accepted code m -> tokens code l -> clean_toks Begin l = true ->
  each_in one_elseif (m_body m) = true ->
  exists p, l = toks_program p /\ (single_defaults p = true -> names_module m = names_toks l).
Proof.
  intros code m l H Hl Hc H1. destruct (program_of _ _ H) as (p & Ht & _ & _ & _ & _ & L & _ & C). exists p.
  pose proof (tokens_det _ _ _ Hl Ht) as E. split; [exact E|]. intros Hs. rewrite E in *. rewrite clean_program in Hc.
  destruct (C Hc) as (_ & Em). rewrite Em in *. rewrite (one_elseif_src p H1). apply names_program; assumption.
Qed.
Definition names_text : bytes := B "Перем а; Функция Ф(б, в = 1) Перем г; Если а.б(в)[г] Тогда Возврат Новый Д(е); ИначеЕсли ж Тогда Для Каждого з Из ий Цикл к = л; КонецЦикла; КонецЕсли; КонецФункции Выполнить(м);".
Example C41_example : accepted names_text (tree_of names_text) /\ tokens names_text (toks_of names_text) /\
  clean_toks Begin (toks_of names_text) = true /\ each_in one_elseif (m_body (tree_of names_text)) = true /\
  names_module (tree_of names_text) = names_toks (toks_of names_text) /\ length (names_toks (toks_of names_text)) = 18%nat.
Proof. split; [accepted|]. split; [tokenized|]. vm_compute. auto 8. Qed.

Theorem C41_refuted : exists code m l, accepted code m /\ tokens code l /\ (length (names_toks l) < length (names_module m))%nat.
Proof.
  exists leak_text, (tree_of leak_text), (toks_of leak_text). split; [accepted|]. split; [tokenized|]. vm_compute. lia.
Qed.

Print Assumptions C16_tree_partial.
Print Assumptions C16_refuted.
Print Assumptions C16_throws_tree_partial.
Print Assumptions C16_throws_tree_refuted.
Print Assumptions C16_returns_tree_partial.
Print Assumptions C16_returns_tree_refuted.
Print Assumptions C18_before_while_partial.
Print Assumptions C18_no_while_partial.
Print Assumptions C18_after_while_refuted.
Print Assumptions C18_refuted.
Print Assumptions C18_tree_refuted.
Print Assumptions C19_throw_in_handler.
Print Assumptions C20_return_value_in_function.
Print Assumptions C21_declared_once.
Print Assumptions C22_layout.
Print Assumptions C23_reversed_partial.
Print Assumptions C23_refuted.
Print Assumptions C39_heads.
Print Assumptions C41_names_kept_partial.
Print Assumptions C41_refuted.
