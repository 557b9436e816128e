(** C58: modules can be put together and taken apart. *)
From Verif Require Import Bytes Utf8 Float64 GoTime Ast Lexer LexFacts LexSpec LexProofs NumSpec Tables Parser Grammar Tok CertData Cert
  Driver DriverInv Trees Properties_Parser Syntax Rules Declared RulesFacts CleanFacts DeclaredFacts Order OrderFacts CstTrees CstEval CstModule Properties_Tree
  Machine Levels Bind BindCst Items Complete TightOk CstInj CstWf Regroup Properties_Signs Properties_Bind Legal Panics Accept Properties_Legal
  Printer Writes Lexical Scanned Properties_Scan BackModule Placed Glue.
From Verif Require Import Syntax Tok Legal FlatInv.
Open Scope Z_scope.

(** * Programs *)
Fixpoint join_items (a b : items) : items := match b with INil => a | ISnoc b i => ISnoc (join_items a b) i end.
Lemma join_toks a b : toks_items (join_items a b) = toks_items a ++ toks_items b.
Proof. induction b as [|b IH i]; cbn [join_items toks_items]; [rewrite app_nil_r; reflexivity|rewrite IH, app_assoc; reflexivity]. Qed.
Lemma join_funcs a b : item_funcs (join_items a b) = item_funcs a ++ item_funcs b.
Proof. induction b as [|b IH [d n x|f]]; cbn [join_items item_funcs]; [rewrite app_nil_r; reflexivity|exact IH|rewrite IH, app_assoc; reflexivity]. Qed.
Lemma join_gvars a b : item_gvars (join_items a b) = item_gvars a ++ item_gvars b.
Proof. induction b as [|b IH [d n x|f]]; cbn [join_items item_gvars]; [rewrite app_nil_r; reflexivity|rewrite IH, app_assoc; reflexivity|exact IH]. Qed.
Lemma gvars_some d n x : mean_gvars d n x <> [].
Proof. unfold mean_gvars. destruct n as [n|l n]; cbn [name_list]; [discriminate|]. rewrite map_app. intros E. apply app_eq_nil in E as [_ E]. discriminate E. Qed.
Lemma join_layout a b : layout_ok a = true -> layout_ok b = true -> item_funcs a = [] \/ item_gvars b = [] -> layout_ok (join_items a b) = true.
Proof.
  intros Ha. induction b as [|b IH [d n x|f]]; cbn [join_items layout_ok item_gvars]; intros Hb H; [exact Ha| |auto].
  apply andb_true_iff in Hb as [H1 H2]. destruct H as [H|H].
  - rewrite IH, join_funcs, H by auto. destruct (item_funcs b); [reflexivity|discriminate].
  - apply app_eq_nil in H as [_ H]. destruct (gvars_some _ _ _ H).
Qed.
Lemma loose_mono_all :
  (forall s l, loose_stmt l s = true -> loose_stmt true s = true) /\
  (forall b l, loose_block l b = true -> loose_block true b = true) /\
  (forall e l, loose_elseifs l e = true -> loose_elseifs true e = true) /\
  (forall c l, loose_else l c = true -> loose_else true c = true).
Proof.
  apply stmt_all; intros; cbn [loose_stmt loose_block loose_elseifs loose_else orb] in *; rewrite ?andb_true_iff in *;
    repeat match goal with H : _ /\ _ |- _ => destruct H end; repeat split; eauto.
Qed.
Lemma loose_funcs_mono l : forall w, loose_funcs w l = true -> loose_funcs true l = true.
Proof.
  induction l as [|f l IH]; intros w H; [reflexivity|]. cbn [loose_funcs orb] in *. apply andb_true_iff in H as [H1 H2].
  rewrite (proj1 (proj2 loose_mono_all) _ _ H1). eapply IH, H2.
Qed.
Lemma loose_funcs_any l w : loose_funcs false l = true -> loose_funcs w l = true.
Proof. destruct w; [apply loose_funcs_mono|auto]. Qed.
Lemma loose_funcs_app l l' : forall w, loose_funcs w (l ++ l') = loose_funcs w l && loose_funcs (w || while_funcs l) l'.
Proof.
  induction l as [|f l IH]; intros w; cbn [app loose_funcs while_funcs]; [rewrite orb_false_r; reflexivity|]. rewrite IH, orb_assoc, andb_assoc. reflexivity.
Qed.
Lemma while_funcs_app l l' : while_funcs (l ++ l') = while_funcs l || while_funcs l'.
Proof. induction l as [|f l IH]; [reflexivity|]. cbn [app while_funcs]. rewrite IH, orb_assoc. reflexivity. Qed.

(** * C58 *)
(** The texts of two modules, one behind the other: their declarations and procedures
    together.  The first has no statements outside of procedures, and no variable is declared
    behind a procedure or twice. *)
Definition joined (m1 m2 m : module) : Prop :=
  m_name m = [] /\ elems (m_gvars m) = elems (m_gvars m1) ++ elems (m_gvars m2) /\ elems (m_body m) = elems (m_body m1) ++ elems (m_body m2).

Lemma mean_gvars_elems p : elems (m_gvars (mean_program p)) = item_gvars (pr_items p).
Proof. unfold mean_program. cbn [m_gvars]. destruct (item_gvars _); reflexivity. Qed.
Lemma slice_elems l : elems (slice_of l) = l. Proof. destruct l; reflexivity. Qed.
Lemma mean_body_elems p : elems (m_body (mean_program p)) = map mean_func (item_funcs (pr_items p)) ++ mean_block (pr_body p).
Proof. unfold mean_program. cbn [m_body]. apply slice_elems. Qed.
Lemma stmt_not_func s : is_func (mean_stmt s) = false.
Proof.
  destruct s; try reflexivity.
  - cbn [mean_stmt]. assert (M : forall x, is_func x = false -> is_func (mark_not x) = false /\ is_func (mark_minus x) = false) by (intros x; destruct x; auto).
    assert (I : forall i, is_func (mean_ident i) = false) by (intros []; reflexivity).
    induction e; cbn [mean_expr]; try reflexivity; try apply M; auto. 
    + destruct c; reflexivity.
    + destruct p; [apply I|reflexivity].
Qed.
Lemma block_empty b : clean_block b = true -> Forall (fun s => is_func s = true) (mean_block b) -> b = BNil.
Proof.
  induction b as [|s|b IH x|b IH x s]; cbn [clean_block mean_block]; intros Hc H; [reflexivity| | |].
  - apply Forall_cons_iff in H as [H _]. rewrite stmt_not_func in H. discriminate H.
  - assert (E : b = BNil) by (apply IH; [destruct b; [discriminate Hc|exact Hc..]|exact H]). subst b. discriminate Hc.
  - apply Forall_app in H as [_ H]. apply Forall_cons_iff in H as [H _]. rewrite stmt_not_func in H. discriminate H.
Qed.
Lemma accepted_program code m l : accepted code m -> tokens code l -> clean_toks Begin l = true ->
  exists p, l = toks_program p /\ defaults_ok p = true /\ bound_program p = true /\ clean p = true /\ legal p /\ m = mean_program p.
Proof.
  intros Hm Hl Hc. destruct (bound_of _ _ Hm) as (p & H1 & Hd & Hb & _). exists p. rewrite (tokens_det _ _ _ Hl H1) in *. rewrite clean_program in Hc.
  split; [reflexivity|]. split; [exact Hd|]. split; [exact Hb|]. split; [exact Hc|]. apply (C45_front code); auto; [apply Hm|apply tokens_text, H1].
Qed.


Lemma items_last l : l <> INil -> exists r k, toks_items l = r ++ [k] /\ quoted k = false /\ k <> K 46.
Proof.
  destruct l as [|l i]; intros H; [congruence|]. cbn [toks_items].
  assert (E : exists r k, toks_item i = r ++ [k] /\ quoted k = false /\ k <> K 46).
  { destruct i as [d n x|f]; cbn [toks_item].
    - exists (toks_dir d ++ K tVar :: toks_names n ++ toks_export x), (Pct ";"). rewrite <- app_assoc. cbn [app]. rewrite <- app_assoc. repeat split. discriminate.
    - unfold toks_func. exists (toks_dir (cf_dir f) ++ K (if cf_function f then tFunction else tProcedure) :: KId (cf_name f) :: Pct "(" ::
        toks_params (cf_params f) ++ Pct ")" :: toks_export (cf_export f) ++ toks_vars (cf_vars f) ++ toks_block (cf_body f)), (K (if cf_function f then tEndFunction else tEndProcedure)).
      split; [|split].
      + repeat (rewrite <- app_assoc; cbn [app]). reflexivity.
      + reflexivity.
      + destruct (cf_function f); discriminate. }
  destruct E as (r & k & -> & Hk). exists (toks_items l ++ r), k. rewrite app_assoc. auto.
Qed.
Lemma items_shut l : shut false (toks_items l) = true.
Proof. destruct l as [|l i]; [reflexivity|]. destruct (items_last (ISnoc l i) ltac:(discriminate)) as (r & k & -> & H1 & H2). apply shut_last; assumption. Qed.
Lemma join_not_white c1 c2 : ~ all_white c1 -> ~ all_white (c1 ++ nl ++ c2).
Proof. intros H N. apply H. unfold all_white in *. rewrite runes_lead in N; [apply Forall_app in N as [N _]; exact N|]. reflexivity. Qed.

Theorem C58_join : forall c1 c2 m1 m2 l1 l2,
  accepted c1 m1 -> accepted c2 m2 -> tokens c1 l1 -> tokens c2 l2 -> clean_toks Begin l1 = true -> clean_toks Begin l2 = true ->
  Forall (fun s => is_func s = true) (elems (m_body m1)) ->
  elems (m_body m1) = [] \/ elems (m_gvars m2) = [] ->
  NoDup (map gv_name (elems (m_gvars m1) ++ elems (m_gvars m2))) ->
  exists m, accepted (c1 ++ nl ++ c2) m /\ joined m1 m2 m.
Proof.
  intros c1 c2 m1 m2 l1 l2 A1 A2 T1 T2 Cl1 Cl2 Hf Hv Hn.
  destruct (accepted_program _ _ _ A1 T1 Cl1) as ([i1 b1] & E1 & D1 & B1 & K1 & L1 & M1).
  destruct (accepted_program _ _ _ A2 T2 Cl2) as ([i2 b2] & E2 & D2 & B2 & K2 & L2 & M2).
  rewrite M1, mean_body_elems in Hf, Hv. rewrite M2, mean_gvars_elems in Hv. rewrite M1, M2, !mean_gvars_elems in Hn. cbn [pr_items pr_body] in *.
  apply Forall_app in Hf as [_ Hf]. unfold clean, each_body in K1, K2. cbn [pr_items pr_body] in K1, K2. apply andb_true_iff in K1 as [K1a K1b].
  apply andb_true_iff in K2 as [K2a K2b]. apply (block_empty _ K1b) in Hf. subst b1. cbn [mean_block] in Hv. rewrite app_nil_r in Hv.
  set (p := Program (join_items i1 i2) b2).
  assert (E : l1 ++ l2 = toks_program p).
  { rewrite E1, E2. unfold toks_program, p. cbn [pr_items pr_body toks_block]. rewrite join_toks, app_nil_r, app_assoc. reflexivity. }
  assert (T : text_of false (c1 ++ nl ++ c2) (toks_program p)).
  { rewrite <- E. apply glue; [apply tokens_text, T1|apply tokens_text, T2|]. rewrite E1. unfold toks_program. cbn [pr_items pr_body toks_block]. rewrite app_nil_r. apply items_shut. }
  exists (mean_program p). split.
  - apply (C45_front (c1 ++ nl ++ c2) _ p).
    + apply join_not_white, A1.
    + exact T.
    + unfold defaults_ok, p in *. cbn [pr_items] in *. rewrite join_funcs, forallb_app, D1, D2. reflexivity.
    + unfold bound_program, p in *. cbn [pr_items pr_body] in *. rewrite join_funcs, forallb_app. apply andb_true_iff in B1 as [-> _]. exact B2.
    + unfold clean, each_body, p. cbn [pr_items pr_body]. rewrite join_funcs, forallb_app, K1a, K2a. exact K2b.
    + split; [|reflexivity]. destruct L1 as (Q1 & Q2 & Q3 & (Q4 & Q4') & Q5 & Q6), L2 as (R1 & R2 & R3 & (R4 & R4') & R5 & R6).
      unfold legal, loose_ok, throws_ok, returns_ok, sure_ok, each_body, vars_once, p in *. cbn [pr_items pr_body] in *.
      rewrite !join_funcs, !join_gvars, !forallb_app, loose_funcs_app, while_funcs_app. cbn [orb].
      apply andb_true_iff in Q1 as [Q1 _], Q2 as [Q2 _], Q3 as [Q3 _], Q6 as [Q6 _], R1 as [R1 R1'].
      rewrite Q1, Q2, Q3, Q6. cbn [andb]. split; [|split; [exact R2|split; [exact R3|split; [split|split; [|exact R6]]]]].
      * rewrite (loose_funcs_any _ _ R1). cbn [andb]. destruct (while_funcs (item_funcs i1)); [|exact R1']. cbn [orb]. exact (proj1 (proj2 loose_mono_all) _ _ R1').
      * apply Forall_app. split; assumption.
      * exact Hn.
      * apply join_layout; auto. destruct Hv as [Hv|Hv]; [left|right; exact Hv]. destruct (item_funcs i1); [reflexivity|discriminate Hv].
  - unfold joined. rewrite M1, M2, !mean_gvars_elems, !mean_body_elems. unfold p. cbn [pr_items pr_body mean_block]. rewrite join_gvars, join_funcs, map_app, app_nil_r, app_assoc. repeat split.
Qed.

(** Every procedure of a module is a module of its own: its tokens are a piece of the tokens
    of the text, and every text with just these tokens gives the same node. *)
Lemma items_split l f : In f (item_funcs l) -> exists a b, toks_items l = a ++ toks_func f ++ b.
Proof.
  induction l as [|l IH i]; cbn [item_funcs toks_items]; [intros []|]. destruct i as [d n x|g]; cbn [toks_item]; intros H.
  - destruct (IH H) as (a & b & ->). exists a, (b ++ toks_dir d ++ K tVar :: toks_names n ++ toks_export x ++ [Pct ";"]). rewrite <- !app_assoc. reflexivity.
  - apply in_app_or in H as [H|[->|[]]].
    + destruct (IH H) as (a & b & ->). exists a, (b ++ toks_func g). rewrite <- !app_assoc. reflexivity.
    + exists (toks_items l), []. rewrite app_nil_r. reflexivity.
Qed.
Theorem C58_alone : forall code m l f, accepted code m -> tokens code l -> clean_toks Begin l = true -> breaks_toks 0 l = true ->
  In f (elems (m_body m)) -> is_func f = true ->
  exists pre piece post, l = pre ++ piece ++ post /\ forall c, tokens c piece -> accepted c (Module [] None (Some [f])).
Proof.
  intros code m l f A T C Br Hf Hi. destruct (accepted_program _ _ _ A T C) as ([i b] & E & D & B0 & K0 & L & M).
  rewrite E, breaks_program in Br. unfold breaks_ok, each_body in Br. 
  rewrite M, mean_body_elems in Hf. cbn [pr_items pr_body] in *. apply in_app_or in Hf as [Hf|Hf].
  2:{ exfalso. clear - Hf Hi. induction b as [|s|b IH x|b IH x s]; cbn [mean_block] in Hf; auto.
      - destruct Hf as [<-|[]]. rewrite stmt_not_func in Hi. discriminate Hi.
      - apply in_app_or in Hf as [Hf|[<-|[]]]; [auto|]. rewrite stmt_not_func in Hi. discriminate Hi. }
  apply in_map_iff in Hf as (g & <- & Hg). destruct (items_split _ _ Hg) as (pre & post & Ei).
  exists pre, (toks_func g), (post ++ toks_block b). split; [rewrite E; unfold toks_program; cbn [pr_items pr_body]; rewrite Ei, <- !app_assoc; reflexivity|].
  intros c Tc. set (p := Program (ISnoc INil (IFunc g)) BNil).
  assert (Ep : toks_func g = toks_program p) by (unfold toks_program, p; cbn [pr_items pr_body toks_items toks_item toks_block app]; rewrite app_nil_r; reflexivity).
  change (Module [] None (Some [mean_func g])) with (mean_program p).
  destruct L as (Q1 & Q2 & Q3 & (Q4 & Q4') & Q5 & Q6).
  unfold legal, loose_ok, throws_ok, returns_ok, sure_ok, each_body, vars_once, defaults_ok, bound_program, clean, each_body in *. cbn [pr_items pr_body] in *.
  apply andb_true_iff in Br as [Br _], Q2 as [Q2 _], Q3 as [Q3 _], Q6 as [Q6 _], B0 as [B0 _], K0 as [K0 _].
  rewrite forallb_forall in Br, Q2, Q3, Q6, B0, K0, D. rewrite Forall_forall in Q4.
  apply (C45_front c (mean_program p) p).
  - apply (tokens_not_white _ _ Tc). unfold toks_func. destruct (toks_dir _); discriminate.
  - apply tokens_text. rewrite <- Ep. exact Tc.
  - unfold defaults_ok, p. cbn [pr_items item_funcs app forallb]. rewrite (D _ Hg). reflexivity.
  - unfold bound_program, p. cbn [pr_items pr_body item_funcs app forallb]. rewrite (B0 _ Hg). reflexivity.
  - unfold clean, each_body, p. cbn [pr_items pr_body item_funcs app forallb]. rewrite (K0 _ Hg). reflexivity.
  - split; [|reflexivity]. unfold legal. split; [apply breaks_loose; unfold breaks_ok, each_body, p; cbn [pr_items pr_body item_funcs app forallb]; rewrite (Br _ Hg); reflexivity|].
    unfold throws_ok, returns_ok, sure_ok, each_body, vars_once, p. cbn [pr_items pr_body item_funcs item_gvars app forallb map]. rewrite (Q2 _ Hg), (Q3 _ Hg), (Q6 _ Hg).
    repeat split. + constructor; [apply Q4, Hg|constructor]. + constructor.
Qed.

Definition part1 : bytes := B "Перем а, б; // верх
Процедура П(х) Пока х > 0 Цикл х = х - 1; КонецЦикла; КонецПроцедуры // конец".
Definition part2 : bytes := B "#Область О
Функция Ф() Экспорт
  Возврат ""в"";
КонецФункции
П(2);".
Example C58_example : exists l1 l2, accepted part1 (tree_of part1) /\ accepted part2 (tree_of part2) /\ tokens part1 l1 /\ tokens part2 l2 /\
  clean_toks Begin l1 = true /\ clean_toks Begin l2 = true /\ breaks_toks 0 l1 = true /\
  Forall (fun s => is_func s = true) (elems (m_body (tree_of part1))) /\ elems (m_gvars (tree_of part2)) = [] /\
  NoDup (map gv_name (elems (m_gvars (tree_of part1)) ++ elems (m_gvars (tree_of part2)))) /\
  length (elems (m_body (tree_of part1))) = 1%nat /\ length (elems (m_body (tree_of part2))) = 2%nat /\ length (elems (m_gvars (tree_of part1))) = 2%nat.
Proof.
  exists (toks_of part1), (toks_of part2). split; [accepted|]. split; [accepted|]. split; [tokenized|]. split; [tokenized|].
  do 3 (split; [vm_compute; reflexivity|]). split; [vm_compute; constructor; [reflexivity|constructor]|]. split; [vm_compute; reflexivity|]. split; [|vm_compute; auto].
  set (x := map _ _). vm_compute in x. subst x. repeat constructor; cbn; intuition discriminate.
Qed.
(** The conditions are needed: a variable behind a procedure, a procedure behind statements and
    a second declaration make the joined text fail. *)
Definition decl : bytes := B "Перем а;".
Definition proc : bytes := B "Процедура П() КонецПроцедуры".
Definition stat : bytes := B "а = 1;".
Example C58_example_order : accepted decl (tree_of decl) /\ accepted proc (tree_of proc) /\ accepted stat (tree_of stat) /\
  (forall m, ~ accepted (proc ++ nl ++ decl) m) /\ (forall m, ~ accepted (stat ++ nl ++ proc) m) /\ (forall m, ~ accepted (decl ++ nl ++ decl) m).
Proof.
  split; [accepted|]. split; [accepted|]. split; [accepted|].
  assert (N : forall c, (match parse c with Some (Ok (_, None)) => false | _ => true end) = true -> forall m, ~ accepted c m).
  { intros c H m (_ & a & E & _). rewrite E in H. discriminate H. }
  split; [|split]; apply N; vm_compute; reflexivity.
Qed.
(** A text with a loop can make a later text acceptable: the break outside of a loop in [b] is
    only found if no loop with Пока stands before (C18), so a piece is not always accepted. *)
Definition while_proc : bytes := B "Процедура П() Пока х Цикл КонецЦикла; КонецПроцедуры".
Definition break_proc : bytes := B "Процедура Р() Прервать; КонецПроцедуры".
Example C58_example_break : exists code m l f c, accepted code m /\ tokens code l /\ clean_toks Begin l = true /\ In f (elems (m_body m)) /\ is_func f = true /\
  code = while_proc ++ nl ++ c /\ forall m', ~ accepted c m'.
Proof.
  exists (while_proc ++ nl ++ break_proc), (tree_of (while_proc ++ nl ++ break_proc)), (toks_of (while_proc ++ nl ++ break_proc)), (nth 1 (elems (m_body (tree_of (while_proc ++ nl ++ break_proc)))) SNil), break_proc.
  split; [accepted|]. split; [tokenized|]. split; [vm_compute; reflexivity|]. split; [vm_compute; auto|]. split; [vm_compute; reflexivity|]. split; [reflexivity|].
  intros m (_ & a & E & _). revert E. set (x := parse _). vm_compute in x. subst x. discriminate.
Qed.

Print Assumptions C58_join.
Print Assumptions C58_alone.
