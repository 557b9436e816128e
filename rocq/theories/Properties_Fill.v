(** Parsing is compositional (C64): statements accepted as a text of their own can be put
    into any block of an accepted text, and the tree is the tree with the statements put
    at that place.  Specification: Fill.v (places in texts and trees), Syntax.v, Rules.v;
    proofs: FillFacts.v. *)
From Verif Require Import Bytes Utf8 Float64 GoTime Ast Lexer LexFacts LexSpec LexProofs Tables Parser Grammar Tok CertData Cert
  Driver DriverInv Trees Properties_Parser Syntax Rules Declared RulesFacts CleanFacts DeclaredFacts Order OrderFacts CstTrees CstEval CstModule Properties_Tree
  Machine Levels Bind BindCst Items Complete TightOk CstInj CstWf Regroup Properties_Signs Properties_Bind Legal Panics Accept Properties_Legal BackModule Fill FillFacts.
From Coq Require Import Lia.
Open Scope Z_scope.

(** What acceptance says of any way to write the tokens down as a program. *)
Lemma obeys_of code m p : accepted code m -> tokens code (toks_program p) -> defaults_ok p = true -> defaults_bound p = true -> clean p = true ->
  obeys p /\ m = mean_program (regroup_program p).
Proof.
  intros Hm Ht Hd Hb Hc. pose proof Ht as Ht'. rewrite <- regroup_program_toks in Ht'. pose proof Hd as Hd'. rewrite <- regroup_program_defaults in Hd'.
  destruct (accepted_legal _ _ _ Hm Ht' Hd' (regroup_program_bound _ Hb)) as (E1 & E2 & E3 & E4 & E5 & E6). rewrite regroup_clean in E6. destruct (E6 Hc) as [E7 E8].
  split; [|exact E8]. rewrite regroup_colons in E7. rewrite regroup_loose in E1.
  rewrite <- throws_program, regroup_program_toks, throws_program in E2. rewrite <- returns_program, regroup_program_toks, returns_program in E3.
  rewrite <- layout_program, regroup_program_toks, layout_program in E5. apply DeclaredFacts.vars_program in E4. rewrite regroup_program_toks in E4. apply DeclaredFacts.vars_program in E4.
  repeat split; try assumption; apply E4.
Qed.
Lemma accepted_obeys code p : ~ all_white code -> tokens code (toks_program p) -> obeys p -> accepted code (mean_program (regroup_program p)).
Proof.
  intros Hw Ht (A1 & A2 & A3 & A4 & A5 & A6 & A7 & A8 & A9). destruct (C42_accepted code p Hw Ht A8 A9) as (m & Hm & E).
  - unfold legal. auto 10 using clean_sure.
  - rewrite <- (E A1). exact Hm.
Qed.
Lemma fit_of code m B : accepted code m -> tokens code (toks_block B) -> clean_block B = true -> fit B /\ elems (m_body m) = mean_block (regroup_block B).
Proof.
  intros Hm Ht Hc. destruct (obeys_of code m (Program INil B) Hm Ht eq_refl eq_refl Hc) as [(A1 & A2 & A3 & A4 & A5 & _) ->].
  split; [repeat split; assumption|]. unfold mean_program, regroup_program. cbn. apply elems_of.
Qed.

(** * C64 *)
(** [text] is a module, [part] a text of statements; [whole] has the tokens of [text] with
    those of [part] put at the spot [at]. *)
Theorem C64_insert : forall text m part n whole at_ q q' B, accepted text m -> tokens text (toks_program q) ->
  defaults_ok q = true -> defaults_bound q = true -> clean q = true ->
  accepted part n -> tokens part (toks_block B) -> B <> BNil -> clean_block B = true ->
  in_program B at_ q q' -> tokens whole (toks_program q') ->
  accepted whole (put_module (elems (m_body n)) at_ m).
Proof.
  intros text m part n whole p q q' B Hm Ht Hd Hb Hc Hn Hp HB HcB Hi Hw.
  destruct (obeys_of _ _ _ Hm Ht Hd Hb Hc) as [Ho ->]. destruct (fit_of _ _ _ Hn Hp HcB) as (Hf & ->).
  pose proof (obeys_in B HB _ _ _ Hf Hi Ho) as Ho'. pose proof (regroup_in_program _ _ _ _ Hi) as Hr.
  assert (M : mean_block (regroup_block B) <> []).
  { apply clean_mean; [|intros E; apply HB, regroup_nil, E]. rewrite (proj1 (proj2 (proj2 (proj2 (proj1 (proj2 regroup_rules) B))))). exact HcB. }
  rewrite <- (mean_in_program _ M _ _ _ Hr). apply accepted_obeys; [|exact Hw|exact Ho'].
  refine (tokens_not_white _ _ Hw _). intros E. pose proof (mean_in_program _ M _ _ _ Hr) as G.
  destruct Ho' as (_ & _ & _ & _ & _ & _ & _ & A8 & A9). rewrite <- regroup_program_toks in E.
  rewrite (bound_unique (regroup_program q') (Program INil BNil)) in G; try reflexivity; [|rewrite regroup_program_defaults; exact A8|apply regroup_program_bound, A9|exact E].
  apply (f_equal m_body) in G. unfold put_module in G. cbn [m_body] in G. destruct p; discriminate.
Qed.

(** The other way round: statements can be taken out again.  The rest must not need them: its
    Прервать must stand in loops of its own (C18), its colons after labels of its own. *)
Lemma in_defaults B p q q' : in_program B p q q' -> defaults_ok q' = defaults_ok q /\ defaults_bound q' = defaults_bound q.
Proof.
  intros H. destruct H as [p l l' b H|]; [|auto]. destruct (in_items_funcs _ _ _ _ H) as (_ & _ & u & f & f' & v & E1 & E2 & E3).
  unfold defaults_ok, defaults_bound. cbn [pr_items]. rewrite E1, E2, !forallb_app. cbn [forallb]. destruct E3. auto.
Qed.
Lemma tree_same t m m' : accepted t m -> accepted t m' -> m = m'.
Proof. intros (_ & a & H & <-) (_ & a' & H' & <-). congruence. Qed.
Theorem C64_remove : forall text whole w at_ q q' B, ~ all_white text -> tokens text (toks_program q) -> B <> BNil -> clean_block B = true ->
  defaults_ok q = true -> defaults_bound q = true -> clean q = true -> colons_ok q = true -> breaks_toks 0 (toks_program q) = true ->
  in_program B at_ q q' -> tokens whole (toks_program q') -> accepted whole w ->
  exists m, accepted text m /\ forall part n, accepted part n -> tokens part (toks_block B) -> w = put_module (elems (m_body n)) at_ m.
Proof.
  intros text whole w p q q' B Hw Ht HB HcB Hd Hb Hc Hco Hbr Hi Hwt Ha. rewrite breaks_program in Hbr.
  destruct (in_defaults _ _ _ _ Hi) as [D1 D2].
  assert (Hc' : clean q' = true).
  { revert Hc. refine (each_in_program B _ _ _ _ _ _ _ Hi); [intros f f' []; cbn [cf_body]|intros]; eapply (clean_in B HB HcB); eauto. }
  destruct (obeys_of _ _ _ Ha Hwt ltac:(rewrite D1; exact Hd) ltac:(rewrite D2; exact Hb) Hc') as [(_ & _ & _ & O4 & O5 & O6 & O7 & _) _].
  pose proof (obeys_out B _ _ _ Hi Hc Hco Hbr O4 O5 O6 O7 Hd Hb) as Ho.
  pose proof (accepted_obeys _ _ Hw Ht Ho) as Hm. eexists. split; [exact Hm|].
  intros part n Hn Hp. apply (tree_same _ _ _ Ha). exact (C64_insert _ _ _ _ _ _ _ _ _ Hm Ht Hd Hb Hc Hn Hp HB HcB Hi Hwt).
Qed.

(** Texts without declarations. *)
Definition no_decl (l : list tk) : bool := forallb (fun t => negb (existsb (Z.eqb (kind_of t)) [tVar; tProcedure; tFunction])) l.
Lemma no_decl_items p : no_decl (toks_program p) = true -> pr_items p = INil.
Proof.
  destruct p as [[|l i] b]; [reflexivity|]. unfold toks_program, no_decl. cbn [pr_items pr_body toks_items]. rewrite !forallb_app, !andb_true_iff. intros [[_ H] _]. exfalso.
  destruct i as [d n x|f]; unfold toks_item, toks_func in H; rewrite forallb_app, andb_true_iff in H; destruct H as [_ H]; cbn [forallb] in H.
  - discriminate.
  - destruct (cf_function f); discriminate.
Qed.
(** The tokens of an accepted text without declarations are those of a block. *)
Lemma block_of code m l : accepted code m -> tokens code l -> no_decl l = true -> clean_toks Begin l = true -> exists B, l = toks_block B /\ clean_block B = true.
Proof.
  intros Hm Ht Hn Hc. destruct (bound_of _ _ Hm) as (p & H1 & _). pose proof (tokens_det _ _ _ Ht H1) as ->. rewrite clean_program in Hc.
  pose proof (no_decl_items _ Hn) as E. destruct p as [it b]. cbn [pr_items] in E. subst it. exists b. split; [reflexivity|]. exact Hc.
Qed.
Lemma bound_defaults p : bound_program p = true -> defaults_bound p = true.
Proof.
  intros Hb. unfold bound_program in Hb. apply andb_true_iff in Hb as [Hb _].
  unfold defaults_bound. rewrite forallb_forall in *. intros f Hf. specialize (Hb f Hf). apply andb_true_iff in Hb. apply Hb.
Qed.
Lemma seq_nil_dirty B : clean_block (seq BNil B) = false.
Proof.
  induction B; cbn [seq]; try reflexivity.
  - cbn [clean_block]. destruct (seq BNil B) eqn:E; [reflexivity|..]; exact IHB.
  - cbn [clean_block]. destruct (seq BNil B) eqn:E; [reflexivity|..]; rewrite IHB; reflexivity.
Qed.
(** Two texts one after the other: a module, a semicolon, statements.  The whole has the
    declarations of the first and the statements of both. *)
Theorem C64_sequence : forall text m l part n k whole, accepted text m -> tokens text l ->
  accepted part n -> tokens part k -> no_decl k = true -> k <> [] -> clean_toks Begin k = true ->
  tokens whole (l ++ Pct ";" :: k) -> clean_toks Begin (l ++ Pct ";" :: k) = true ->
  accepted whole (Module (m_name m) (m_gvars m) (Some (elems (m_body m) ++ elems (m_body n)))).
Proof.
  intros text m l part n k whole Hm Hl Hn Hk Hd Hne Hck Hw Hc.
  destruct (block_of _ _ _ Hn Hk Hd Hck) as (B & -> & HB).
  destruct (bound_of _ _ Hm) as (q & H1 & Hdq & Hbq & Hmq). pose proof (tokens_det _ _ _ Hl H1) as ->. destruct q as [it b].
  assert (E : toks_program (Program it b) ++ Pct ";" :: toks_block B = toks_program (Program it (seq b B))).
  { unfold toks_program. cbn [pr_items pr_body]. rewrite toks_seq, <- app_assoc. reflexivity. }
  rewrite E in Hw, Hc. rewrite clean_program in Hc. unfold clean, each_body in Hc. cbn [pr_items pr_body] in Hc. apply andb_true_iff in Hc as [C1 C2].
  assert (Hb : b <> BNil) by (intros ->; rewrite seq_nil_dirty in C2; discriminate).
  assert (Cq : clean (Program it b) = true).
  { unfold clean, each_body. cbn [pr_items pr_body]. rewrite C1. cbn [andb]. clear - C2 Hb. induction B; cbn [seq] in C2; rewrite ?clean_skip, ?clean_snoc in C2; tauto. }
  assert (Eq : put_module (elems (m_body n)) (shift (length (item_funcs it)) (Here (count b))) m = Module (m_name m) (m_gvars m) (Some (elems (m_body m) ++ elems (m_body n)))).
  { destruct (Hmq Cq) as [_ ->]. unfold put_module, mean_program. cbn [m_name m_gvars m_body pr_items pr_body shift put]. rewrite elems_of, count_mean. do 2 f_equal.
    rewrite firstn_all2, skipn_all2 by (rewrite app_length, map_length; lia). rewrite app_nil_r. reflexivity. }
  rewrite <- Eq. refine (C64_insert _ _ _ _ _ _ (Program it b) (Program it (seq b B)) B Hm H1 Hdq (bound_defaults _ Hbq) Cq Hn Hk _ HB _ Hw).
  - intros ->. apply Hne. reflexivity.
  - constructor. constructor. exact Hb.
Qed.

(** Statements as the body of a procedure or function. *)
Definition wrapped (function : bool) (name : bytes) (l : list tk) : list tk :=
  K (if function then tFunction else tProcedure) :: KId name :: Pct "(" :: Pct ")" :: l ++ [K (if function then tEndFunction else tEndProcedure)].
Theorem C64_procedure : forall part n k function name whole, accepted part n -> tokens part k -> no_decl k = true -> k <> [] -> clean_toks Begin k = true ->
  tokens whole (wrapped function name k) ->
  accepted whole (Module [] None (Some [SFunc (Some []) name [] (m_body n) [] (if function then PFFunction else PFProcedure) false])).
Proof.
  intros part n k g name whole Hn Hk Hd Hne Hc Hw. destruct (block_of _ _ _ Hn Hk Hd Hc) as (B & -> & HB).
  destruct (fit_of _ _ _ Hn Hk HB) as (Hf & _). destruct (obeys_of part n (Program INil B) Hn Hk eq_refl eq_refl HB) as [_ En].
  set (q b := Program (ISnoc INil (IFunc (CFunc None g name PNil false VNil b))) BNil).
  assert (Hq : obeys (q BNil)) by (unfold obeys, q; repeat split; try (cbn; repeat constructor); reflexivity).
  assert (Hi : in_program B (Inside 0 DBody (Here 0)) (q BNil) (q B)) by (unfold q; constructor; apply (in_func B (Here 0) INil); constructor).
  assert (HN : B <> BNil) by (intros ->; apply Hne; reflexivity).
  pose proof (obeys_in B HN _ _ _ Hf Hi Hq) as Ho.
  assert (Et : wrapped g name (toks_block B) = toks_program (q B)).
  { unfold wrapped, q, toks_program, toks_func. cbn [pr_items pr_body toks_items toks_item toks_func toks_block toks_dir toks_params toks_vars toks_export cf_dir cf_function cf_name cf_params cf_export cf_vars cf_body app].
    unfold toks_func. cbn [toks_dir toks_params toks_vars toks_export cf_dir cf_function cf_name cf_params cf_export cf_vars cf_body app]. rewrite app_nil_r. reflexivity. }
  rewrite Et in Hw. pose proof (accepted_obeys whole (q B)) as A.
  assert (Em : mean_program (regroup_program (q B)) = Module [] None (Some [SFunc (Some []) name [] (m_body n) [] (if g then PFFunction else PFProcedure) false])).
  { rewrite En. reflexivity. }
  rewrite <- Em. apply A; [|exact Hw|exact Ho]. refine (tokens_not_white _ _ Hw _). rewrite <- Et. discriminate.
Qed.

(** Two modules one after the other, the first ending with a procedure or function. *)
Fixpoint join_items (l k : Syntax.items) : Syntax.items := match k with INil => l | ISnoc k i => ISnoc (join_items l k) i end.
Lemma join_toks l k : toks_items (join_items l k) = toks_items l ++ toks_items k.
Proof. induction k as [|k IH i]; cbn [join_items toks_items]; [rewrite app_nil_r; reflexivity|]. rewrite IH, app_assoc. reflexivity. Qed.
Lemma join_funcs l k : item_funcs (join_items l k) = item_funcs l ++ item_funcs k.
Proof. induction k as [|k IH []]; cbn [join_items item_funcs]; rewrite ?app_nil_r, ?IH, ?app_assoc; reflexivity. Qed.
Lemma join_gvars l k : item_gvars (join_items l k) = item_gvars l ++ item_gvars k.
Proof. induction k as [|k IH []]; cbn [join_items item_gvars]; rewrite ?app_nil_r, ?IH, ?app_assoc; reflexivity. Qed.
Lemma regroup_join l k : regroup_items (join_items l k) = join_items (regroup_items l) (regroup_items k).
Proof. induction k as [|k IH i]; cbn [join_items regroup_items]; congruence. Qed.
Lemma block_nil b : toks_block b = [] -> b = BNil.
Proof.
  assert (N : forall s, toks_stmt s <> []).
  { intros s E. destruct s; cbn [toks_stmt] in E; try discriminate.
    - apply app_eq_nil in E as [_ E]. discriminate.
    - pose proof (proj1 begins_all e) as X. rewrite E in X. discriminate X. }
  destruct b; cbn [toks_block]; intros E; [reflexivity|destruct (N _ E)| |]; apply app_eq_nil in E as [_ E]; discriminate.
Qed.
Definition ends_func (l : list tk) : bool := (kind_of (last l (Pct ";")) =? tEndProcedure) || (kind_of (last l (Pct ";")) =? tEndFunction).
Lemma ends_func_body p : ends_func (toks_program p) = true -> pr_body p = BNil.
Proof.
  destruct p as [it b]. unfold ends_func, toks_program. cbn [pr_items pr_body]. intros H. apply block_nil. destruct (toks_block b) as [|t l] eqn:E; [reflexivity|]. exfalso.
  pose proof (proj1 (proj2 stmts_l_other) b) as L. rewrite E in L. rewrite <- (app_nil_l (t :: l)), app_assoc in H. rewrite app_nil_r in H.
  assert (X : last (toks_items it ++ t :: l) (Pct ";") = last (t :: l) (Pct ";")).
  { clear. induction (toks_items it) as [|z u IH]; [reflexivity|]. cbn [app]. rewrite <- IH. destruct (u ++ t :: l) eqn:E; [destruct u; discriminate|reflexivity]. }
  rewrite X in H. assert (I : In (last (t :: l) (Pct ";")) (t :: l)).
  { clear. destruct (exists_last (l := t :: l)) as (u & x & ->); [discriminate|]. rewrite last_last. apply in_or_app. right. left. reflexivity. }
  rewrite forallb_forall in L. specialize (L _ I). unfold l_other in L. apply orb_true_iff in H as [H|H]; rewrite H in L; rewrite ?orb_true_r in L; discriminate.
Qed.
Theorem C64_modules : forall text m l part n k whole, accepted text m -> tokens text l -> accepted part n -> tokens part k ->
  tokens whole (l ++ k) -> ends_func l = true -> clean_toks Begin l = true -> clean_toks Begin k = true ->
  layout_toks false false (l ++ k) = true -> vars_toks false false [] [] (l ++ k) = true ->
  exists w, accepted whole w /\ m_name w = m_name m /\ elems (m_gvars w) = elems (m_gvars m) ++ elems (m_gvars n) /\
    elems (m_body w) = elems (m_body m) ++ elems (m_body n).
Proof.
  intros text m l part n k whole Hm Hl Hn Hk Hw He Cl Ck Hla Hv.
  destruct (bound_of _ _ Hm) as ([it b] & H1 & Hd & Hb & _). pose proof (tokens_det _ _ _ Hl H1) as ->. rewrite clean_program in Cl.
  destruct (bound_of _ _ Hn) as ([it' b'] & H1' & Hd' & Hb' & _). pose proof (tokens_det _ _ _ Hk H1') as ->. rewrite clean_program in Ck.
  pose proof (ends_func_body _ He) as E. cbn [pr_body] in E. subst b.
  destruct (obeys_of _ _ _ Hm Hl Hd (bound_defaults _ Hb) Cl) as [(A1 & A2 & A3 & A4 & A5 & A6 & A7 & A8 & A9) ->].
  destruct (obeys_of _ _ _ Hn Hk Hd' (bound_defaults _ Hb') Ck) as [(B1 & B2 & B3 & B4 & B5 & B6 & B7 & B8 & B9) ->].
  set (q := Program (join_items it it') b').
  assert (Et : toks_program (Program it BNil) ++ toks_program (Program it' b') = toks_program q).
  { unfold toks_program, q. cbn [pr_items pr_body toks_block]. rewrite join_toks, app_nil_r, app_assoc. reflexivity. }
  rewrite Et in *.
  assert (Ho : obeys q).
  { unfold obeys. rewrite layout_program in Hla. apply DeclaredFacts.vars_program in Hv.
    unfold clean, colons_ok, throws_ok, returns_ok, loose_ok, defaults_ok, defaults_bound, each_body, q in *. cbn [pr_items pr_body] in *.
    rewrite join_funcs. rewrite !forallb_app, loose_funcs_app, while_funcs_app. rewrite !andb_true_iff in *.
    repeat split; try tauto; try apply Hv.
    - refine (loose_funcs_more _ false _ _ (proj1 B3)). discriminate.
    - refine (loose_more _ _ _ _ (proj2 B3)). rewrite !orb_true_iff. tauto. }
  exists (mean_program (regroup_program q)). split.
  - apply accepted_obeys; [|exact Hw|exact Ho]. refine (tokens_not_white _ _ Hw _). intros E. rewrite <- Et in E. apply app_eq_nil in E as [E _]. rewrite E in He. discriminate.
  - unfold mean_program, regroup_program, q. cbn [pr_items pr_body m_name m_gvars m_body]. rewrite !elems_of, !regroup_join, !join_funcs, !join_gvars. cbn [regroup_block mean_block].
    rewrite map_app, !app_nil_r, app_assoc. split; [reflexivity|]. split; [|reflexivity].
    destruct (item_gvars (regroup_items it)), (item_gvars (regroup_items it')); cbn; rewrite ?app_nil_r; reflexivity.
Qed.

(** * Examples *)
Definition C64_text : bytes := B "Перем г; Процедура П(а) Если а = в Тогда Для Каждого х Из а Цикл КонецЦикла; ИначеЕсли а Тогда КонецЕсли; КонецПроцедуры П(г);".
Definition C64_part : bytes := B "б = в; Попытка Ф(б); Исключение ВызватьИсключение; КонецПопытки".
Definition C64_whole : bytes := B "Перем г; Процедура П(а) Если а = в Тогда Для Каждого х Из а Цикл б = в; Попытка Ф(б); Исключение ВызватьИсключение; КонецПопытки КонецЦикла; ИначеЕсли а Тогда КонецЕсли; КонецПроцедуры П(г);".
Definition C64_branch : bytes := B "Перем г; Процедура П(а) Если а = в Тогда Для Каждого х Из а Цикл КонецЦикла; ИначеЕсли а Тогда б = в; Попытка Ф(б); Исключение ВызватьИсключение; КонецПопытки КонецЕсли; КонецПроцедуры П(г);".
Definition pvar (s : bytes) : path := PId (IVar s).
Definition evar (s : bytes) : expr := EPath (pvar s).
Definition call (f s : bytes) : cstmt := CExpr (EPath (PId (ICall f (AOne (OSome (evar s)))))).
Definition C64_B : block := BSnoc (BOne (CAssign (pvar (B "б")) (evar (B "в")))) Semi (CTry (BSkip (BOne (call (B "Ф") (B "б"))) Semi) (BSkip (BOne (CThrow ONone)) Semi)).
Definition C64_q (loop branch : block) : program :=
  Program (ISnoc (ISnoc INil (IVars None (Name (B "г")) false)) (IFunc (CFunc None false (B "П") (POne (Par (B "а"))) false VNil
    (BSkip (BOne (CIf (EBin BEq (evar (B "а")) (evar (B "в"))) (BSkip (BOne (CForEach (B "х") (LPath (pvar (B "а"))) loop)) Semi) (EICons (evar (B "а")) branch EINil) NoElse)) Semi))))
    (BSkip (BOne (call (B "П") (B "г"))) Semi).
Lemma C64_places : in_program C64_B (Inside 0 DBody (Inside 0 DThen (Inside 0 DBody (Here 0)))) (C64_q BNil BNil) (C64_q C64_B BNil) /\
  in_program C64_B (Inside 0 DBody (Inside 0 (DElseIf 0) (Here 0))) (C64_q BNil BNil) (C64_q BNil C64_B).
Proof.
  split; unfold C64_q; apply in_procs.
  - apply (in_func C64_B _ (ISnoc INil (IVars None (Name (B "г")) false))), in_skip; [discriminate| |reflexivity]. apply in_one, in_then, in_skip; [discriminate| |reflexivity]. apply in_one, in_each, in_empty.
  - apply (in_func C64_B _ (ISnoc INil (IVars None (Name (B "г")) false))), in_skip; [discriminate| |reflexivity]. apply in_one, in_elseif, in_first, in_empty.
Qed.
(** A loop body and a branch are filled; a try is put behind a module. *)
Example C64_example_insert : accepted C64_text (tree_of C64_text) /\ tokens C64_text (toks_program (C64_q BNil BNil)) /\
  accepted C64_part (tree_of C64_part) /\ tokens C64_part (toks_block C64_B) /\ clean (C64_q BNil BNil) = true /\ clean_block C64_B = true /\
  tokens C64_whole (toks_program (C64_q C64_B BNil)) /\ tokens C64_branch (toks_program (C64_q BNil C64_B)) /\
  accepted C64_whole (put_module (elems (m_body (tree_of C64_part))) (Inside 0 DBody (Inside 0 DThen (Inside 0 DBody (Here 0)))) (tree_of C64_text)) /\
  accepted C64_branch (put_module (elems (m_body (tree_of C64_part))) (Inside 0 DBody (Inside 0 (DElseIf 0) (Here 0))) (tree_of C64_text)).
Proof.
  assert (H1 : accepted C64_text (tree_of C64_text)) by accepted.
  assert (H2 : tokens C64_text (toks_program (C64_q BNil BNil))) by tokenized.
  assert (H3 : accepted C64_part (tree_of C64_part)) by accepted.
  assert (H4 : tokens C64_part (toks_block C64_B)) by tokenized.
  assert (H5 : tokens C64_whole (toks_program (C64_q C64_B BNil))) by tokenized.
  assert (H6 : tokens C64_branch (toks_program (C64_q BNil C64_B))) by tokenized.
  destruct C64_places as [P1 P2].
  split; [exact H1|]. split; [exact H2|]. split; [exact H3|]. split; [exact H4|]. split; [reflexivity|]. split; [reflexivity|]. split; [exact H5|]. split; [exact H6|].
  split; [apply (C64_insert C64_text (tree_of C64_text) C64_part (tree_of C64_part) _ _ _ _ _ H1 H2 eq_refl eq_refl eq_refl H3 H4 ltac:(discriminate) eq_refl P1 H5)|
    apply (C64_insert C64_text (tree_of C64_text) C64_part (tree_of C64_part) _ _ _ _ _ H1 H2 eq_refl eq_refl eq_refl H3 H4 ltac:(discriminate) eq_refl P2 H6)].
Qed.
(** What was put in is taken out again. *)
Example C64_example_remove : ~ all_white C64_text /\ colons_ok (C64_q BNil BNil) = true /\ breaks_toks 0 (toks_program (C64_q BNil BNil)) = true /\
  exists w, accepted C64_whole w.
Proof.
  destruct C64_example_insert as ((Hw & _) & _ & _ & _ & _ & _ & _ & _ & H & _). split; [exact Hw|]. split; [reflexivity|]. split; [vm_compute; reflexivity|]. eexists. exact H.
Qed.
Definition C64_behind : bytes := C64_text ++ B " ; " ++ C64_part.
Example C64_example_sequence : tokens C64_behind (toks_of C64_text ++ Pct ";" :: toks_of C64_part) /\ no_decl (toks_of C64_part) = true /\
  clean_toks Begin (toks_of C64_text ++ Pct ";" :: toks_of C64_part) = true /\ clean_toks Begin (toks_of C64_part) = true /\
  length (elems (m_body (tree_of C64_behind))) = 4%nat.
Proof. split; [tokenized|]. repeat split; vm_compute; reflexivity. Qed.
Example C64_example_procedure : exists name, tokens (B "Функция Ф() " ++ C64_part ++ B " КонецФункции") (wrapped true name (toks_of C64_part)).
Proof. exists (B "Ф"). tokenized. Qed.
Definition C64_first : bytes := B "Перем г; Процедура П() КонецПроцедуры".
Definition C64_second : bytes := B " Функция П2() Возврат г; КонецФункции П();".
Example C64_example_modules : accepted C64_first (tree_of C64_first) /\ accepted C64_second (tree_of C64_second) /\
  tokens (C64_first ++ C64_second) (toks_of C64_first ++ toks_of C64_second) /\ ends_func (toks_of C64_first) = true /\
  layout_toks false false (toks_of C64_first ++ toks_of C64_second) = true /\ vars_toks false false [] [] (toks_of C64_first ++ toks_of C64_second) = true /\
  length (elems (m_body (tree_of (C64_first ++ C64_second)))) = 3%nat.
Proof. split; [accepted|]. split; [accepted|]. split; [tokenized|]. repeat split; vm_compute; reflexivity. Qed.

Print Assumptions C64_insert.
Print Assumptions C64_remove.
Print Assumptions C64_sequence.
Print Assumptions C64_procedure.
Print Assumptions C64_modules.
