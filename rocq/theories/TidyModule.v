(** Printed modules read back, whatever they are. *)
From Coq Require Import Permutation.
From Verif Require Import Bytes Utf8 UnicodeTables Float64 GoTime Ast Lexer LexFacts Utf8Facts LexSpec LexProofs LexTrivia
  LexTokens LexStrings LexReject NumSpec NumProofs NumTokens Tok Syntax Levels RulesFacts StmtInd Parser Printer PrintInv Properties_Literals Properties_Parser Properties_Lexer
  Writes PrintToks Driver SpellInv Legal Accept Survive Strip Back BackMade BackStmt BackModule Tidy TidyExpr TidyStmt.
Open Scope Z_scope.

Lemma tidy_default d : literal d = true -> built d -> d <> SNil ->
  printVarStatement d <> [] /\ exists e, toks_expr e = pt false MV d /\ mean_expr e = tidy true d /\ bound e = true /\ simple e = true.
Proof.
  intros Hl Hb Hn. destruct d as [|v|x|b|t| | | | | | | | | | | | | | | | | | | |]; try discriminate Hl; try congruence.
  - split; [discriminate|]. exists (EStr v). repeat split.
  - apply built_inv in Hb as [Hf _]. cbn [local] in Hf.
    destruct (format_float _ Hf) as (b & s & E1 & _). destruct (integer_rounded x Hf) as [Ei En].
    split. { unfold printVarStatement. cbn [pr]. unfold format_0f in *. destruct x as [[] man ex]; cbn [f_neg f64_abs f_man f_exp] in *; [discriminate|]. rewrite E1. discriminate. }
    cbn [tidy pt]. unfold num_toks. rewrite Ei. set (g := rounded (f64_abs x)) in *. clearbody g. destruct g as [gn gm ge]. cbn [f_neg f_man f_exp] in *. subst gn.
    destruct x as [[] man ex]; cbn [f_neg tminus app].
    + exists (ENeg (ENum (F64 false gm ge))). repeat split.
    + exists (ENum (F64 false gm ge)). repeat split.
  - destruct b; (split; [discriminate|]); [exists ETrue|exists EFalse]; repeat split.
  - split; [discriminate|]. exists (EDate t). repeat split.
  - split; [discriminate|]. exists EUndef. repeat split.
Qed.
Definition tidy_p (p : param) : param := (tidy true (fst (fst p)), snd (fst p), snd p).
Lemma tidy_param (p : param) : named (snd (fst p)) -> literal (fst (fst p)) = true -> built (fst (fst p)) ->
  exists p', toks_param p' = param_toks p /\ mean_param p' = tidy_p p /\ simple_param p' = true /\ bound_param p' = true.
Proof.
  destruct p as [[d n] x]. unfold tidy_p. cbn [fst snd]. intros Hn Hl Hb. unfold named in Hn. cbn [param_toks]. rewrite Hn.
  assert (D : d = SNil \/ d <> SNil) by (destruct d; auto; right; discriminate). destruct D as [->|D].
  - exists (if x then ParVal n else Par n). destruct x; repeat split.
  - destruct (tidy_default d Hl Hb D) as (P & e & E1 & E2 & E3 & E4). destruct (printVarStatement d) as [|b s]; [congruence|].
    exists (ParDef (if x then ParVal n else Par n) e). cbn [toks_param mean_param simple_param bound_param]. rewrite E1, E2, E3, E4. destruct x; repeat split.
Qed.
Lemma tidy_params l : Forall (fun p : param => named (snd (fst p))) l -> forallb (fun p : param => literal (fst (fst p))) l = true ->
  Forall built (map (fun p : param => fst (fst p)) l) ->
  exists l', toks_params l' = tjoin (map param_toks l) /\ mean_params l' = map tidy_p l /\ simple_params l' = true /\ bound_params l' = true.
Proof.
  induction l as [|p l IH] using rev_ind; intros Hn Hl Hb; [exists PNil; repeat split|].
  apply Forall_app in Hn as [N1 N2]. inversion N2 as [|? ? N3 _]; subst. rewrite forallb_app in Hl. apply andb_true_iff in Hl as [L1 L2]. cbn [forallb] in L2. rewrite andb_true_r in L2.
  rewrite map_app in Hb. apply Forall_app in Hb as [B1 B2]. inversion B2 as [|? ? B3 _]; subst.
  destruct (IH N1 L1 B1) as (l' & E1 & E2 & E3 & E4). destruct (tidy_param p N3 L2 B3) as (p' & F1 & F2 & F3 & F4).
  destruct l as [|q l].
  - exists (POne p'). cbn [app map tjoin toks_params mean_params simple_params bound_params]. rewrite F1, F2, F3, F4. repeat split.
  - exists (PSnoc l' p'). cbn [toks_params mean_params simple_params bound_params]. rewrite E1, E2, E3, E4, F1, F2, F3, F4. rewrite !map_app. cbn [map]. rewrite tjoin_snoc by discriminate. repeat split.
Qed.

Definition kept_func (f f' : cfunc) : Prop :=
  toks_func f' = func_toks (mean_func f) /\ strip (mean_func f') = strip (tidy_item (mean_func f)) /\ mean_vars (cf_vars f') = [] /\ cf_function f' = cf_function f /\
  simple_params (cf_params f') = true /\ bound_params (cf_params f') = true /\ bound_block (cf_body f') = true /\ clean_block (cf_body f') = true /\
  sure_block (cf_body f') = true /\ kept_block (cf_body f) (cf_body f').
Lemma tidy_func f rest : nk false (toks_func f ++ rest) -> written_item (mean_func f) = true -> built (mean_func f) -> exists f', kept_func f f'.
Proof.
  destruct f as [d k n ps x v b]. unfold toks_func, mean_func, mean_func_with. cbn [cf_dir cf_function cf_name cf_params cf_export cf_vars cf_body written_item].
  intros H Hl Hb. flat H. apply nk_dir in H.
  apply nk_cons in H; [|destruct k; reflexivity]. apply nk_id in H as [Hn H]. apply nk_cons in H; [|reflexivity]. apply nk_params in H as [Hps H].
  apply nk_cons in H; [|reflexivity]. apply nk_export, nk_vars in H. apply (proj1 (proj2 tidy_stmts)) in H as [_ Hk].
  apply andb_true_iff in Hl as [L2 L3]. rewrite elems_slice in L2.
  apply built_inv in Hb as [_ Hp]. cbn [parts] in Hp. apply Forall_app in Hp as [P1 P2]. rewrite elems_slice in P1.
  destruct (Hk L2 P1) as (b' & B0 & B1 & B2 & B3 & B4 & B5 & B6). destruct (tidy_params _ Hps L3 P2) as (ps' & E1 & E2 & E3 & E4).
  unfold named in Hn.
  exists (CFunc (match d with Some (c :: l) => Some (c :: l) | _ => None end) k n ps' x VNil b').
  unfold kept_func, toks_func, mean_func, mean_func_with. cbn [cf_dir cf_function cf_name cf_params cf_export cf_vars cf_body toks_vars mean_vars app func_toks].
  rewrite E1, E2, E3, E4, B1, B3, B4, B5, btoks_slice, Hn. split.
  { destruct d as [[|]|], k; cbn [toks_dir app]; repeat rewrite <- ?app_assoc; destruct x; reflexivity. }
  split.
  { cbn [tidy_item]. rewrite !strip_func, (strips_tidy _ _ B2). f_equal. destruct d as [[|]|]; reflexivity. }
  repeat split; apply B6.
Qed.

Lemma tidy_items l : forall rest, nk false (toks_items l ++ rest) ->
  Forall (fun f => written_item (mean_func f) = true) (item_funcs l) -> Forall (fun f => built (mean_func f)) (item_funcs l) ->
  exists fs, Forall2 kept_func (item_funcs l) fs.
Proof.
  induction l as [|l IH i]; cbn [toks_items]; intros rest H; [intros _ _; exists []; constructor|]. flat H. pose proof (nk_items _ _ H) as (N & _ & _). destruct i as [d n x|f].
  - exact (IH _ H).
  - cbn [toks_item item_funcs] in *. intros Hl Hb. apply Forall_app in Hl as [L1 L2]. apply Forall_app in Hb as [B1 B2].
    inversion L2 as [|? ? L3 _]; subst. inversion B2 as [|? ? B3 _]; subst. destruct (IH _ H L1 B1) as (fs & Hfs). destruct (tidy_func _ _ N L3 B3) as (f' & Hf).
    exists (fs ++ [f']). apply Forall2_app; [exact Hfs|constructor; [exact Hf|constructor]].
Qed.
Lemma kept_funcs_toks fs fs' : Forall2 kept_func fs fs' ->
  flat_map toks_item (map IFunc fs') = flat_map (fun n => match n with SFunc _ _ _ _ _ _ _ => func_toks n | _ => itoks n end) (map mean_func fs).
Proof. induction 1 as [|f f' fs fs' H _ IH]; [reflexivity|]. cbn [map flat_map toks_item]. rewrite IH. destruct H as [-> _]. reflexivity. Qed.
Lemma kept_funcs_strip fs fs' : Forall2 kept_func fs fs' -> map strip (map mean_func fs') = map strip (map tidy_item (map mean_func fs)).
Proof. induction 1 as [|f f' fs fs' H _ IH]; [reflexivity|]. cbn [map]. rewrite IH. destruct H as [_ [-> _]]. reflexivity. Qed.
Lemma kept_funcs_forallb (P : cfunc -> bool) fs fs' : Forall2 kept_func fs fs' -> (forall f f', kept_func f f' -> P f' = P f) -> forallb P fs' = forallb P fs.
Proof. intros H HP. induction H as [|f f' fs fs' H _ IH]; [reflexivity|]. cbn [forallb]. rewrite IH, (HP _ _ H). reflexivity. Qed.
Lemma kept_funcs_all (P : cfunc -> bool) fs fs' : Forall2 kept_func fs fs' -> (forall f f', kept_func f f' -> P f' = true) -> forallb P fs' = true.
Proof. intros H HP. induction H as [|f f' fs fs' H _ IH]; [reflexivity|]. cbn [forallb]. rewrite IH, (HP _ _ H). reflexivity. Qed.

Theorem tidy_program p order : nk false (toks_program p) -> written_module (mean_program p) = true -> elems (m_body (mean_program p)) <> [] ->
  Forall built (elems (m_body (mean_program p))) ->
  Permutation order (elems (m_gvars (mean_program p))) -> breaks_ok p = true -> throws_ok p = true -> returns_ok p = true -> vars_once p ->
  exists p', toks_program p' = print_toks order (mean_program p) /\ same_module (formatted (mean_program p)) (mean_program p') /\
    defaults_ok p' = true /\ bound_program p' = true /\ clean p' = true /\ legal p'.
Proof.
  destruct p as [l b]. unfold toks_program, breaks_ok, throws_ok, returns_ok, vars_once, written_module, each_body. cbn [pr_items pr_body mean_program m_body m_gvars]. rewrite elems_slice.
  intros Hn L He Hb Ho R1 R2 R3 R4. rewrite <- (app_nil_r (toks_block b)) in Hn. destruct (nk_items l _ Hn) as (N & G & _). pose proof (tidy_items l _ Hn) as F.
  rewrite forallb_app in L. apply andb_true_iff in L as [L1 L2]. apply Forall_app in Hb as [B1 B2].
  destruct F as (fs & Hfs).
  { rewrite forallb_forall in L1. apply Forall_forall. intros f Hf. apply L1, in_map, Hf. }
  { rewrite Forall_forall in B1. apply Forall_forall. intros f Hf. apply B1, in_map, Hf. }
  pose proof (not_func_block _ _ N) as Hnf. apply (proj1 (proj2 tidy_stmts)) in N as [_ Hk].
  assert (L3 : forallb written_stmt (mean_block b) = true).
  { rewrite forallb_forall in *. intros s Hs. specialize (L2 s Hs). specialize (Hnf s Hs). destruct s; try exact L2. discriminate Hnf. }
  assert (L4 : map tidy_item (mean_block b) = map tidy_stmt (mean_block b)).
  { rewrite forallb_forall in Hnf. apply map_ext_in. intros s Hs. specialize (Hnf s Hs). destruct s; try reflexivity. discriminate Hnf. }
  destruct (Hk L3 B2) as (b' & B0' & B1' & B2' & B3' & B4' & B5' & B6' & B7' & B8').
  assert (Ho' : Permutation order (item_gvars l)) by (destruct (item_gvars l); exact Ho).
  set (p' := Program (add_items (add_items INil (map gitem order)) (map IFunc fs)) b').
  assert (EF : item_funcs (pr_items p') = fs) by (cbn [p' pr_items]; rewrite funcs_add, funcs_add_vars; reflexivity).
  assert (EG : item_gvars (pr_items p') = order) by (cbn [p' pr_items]; rewrite gvars_add_funcs, gvars_add; reflexivity).
  apply andb_true_iff in R1 as [R11 R12]. apply andb_true_iff in R2 as [R21 R22]. apply andb_true_iff in R3 as [R31 R32]. destruct R4 as [R41 R42].
  assert (Br : breaks_ok p' = true).
  { unfold breaks_ok, each_body. rewrite EF. cbn [p' pr_body]. rewrite B6', R12, andb_true_r, <- R11. apply (kept_funcs_forallb _ _ _ Hfs). intros f f' H. apply H. }
  exists p'. split.
  { unfold print_toks. cbn [m_body mean_program]. cbn [pr_items pr_body]. rewrite elems_slice.
    replace (match map mean_func (item_funcs l) ++ mean_block b with [] => [] | _ => _ end) with
      (flat_map gvar_toks order ++ flat_map (fun n => match n with SFunc _ _ _ _ _ _ _ => func_toks n | _ => itoks n end) (map mean_func (item_funcs l) ++ mean_block b))
      by (destruct (map mean_func (item_funcs l) ++ mean_block b); [congruence|reflexivity]).
    unfold p'. cbn [pr_items pr_body]. rewrite !toks_add. cbn [toks_items app]. rewrite (kept_funcs_toks _ _ Hfs), flat_map_app, B1', <- app_assoc. f_equal; [|f_equal].
    - assert (G' : Forall (fun g => named (gv_name g)) order) by (eapply Permutation_Forall; [apply Permutation_sym, Ho'|exact G]). clear - G'.
      induction G' as [|g order Hg _ IH]; [reflexivity|]. cbn [map flat_map]. rewrite IH, toks_gitem by exact Hg. reflexivity.
    - clear - Hnf. induction (mean_block b) as [|s r IH]; [reflexivity|]. cbn [forallb] in Hnf. apply andb_true_iff in Hnf as [H1 H2]. cbn [flat_map]. rewrite IH by exact H2. destruct s; try reflexivity. discriminate H1. }
  split.
  { unfold same_module, formatted, mean_program. cbn [m_name m_gvars m_body]. rewrite EF, EG. cbn [pr_items pr_body]. split; [reflexivity|]. split.
    - apply Permutation_sym. assert (A : forall g : list gvar, elems (match g with [] => None | x :: r => Some (x :: r) end) = g) by (intros []; reflexivity). rewrite !A. exact Ho'.
    - cbn [p' pr_body]. assert (E : map strip (map tidy_item (map mean_func (item_funcs l) ++ mean_block b)) = map strip (map mean_func fs ++ mean_block b')).
      { rewrite !map_app, L4, B2', (kept_funcs_strip _ _ Hfs). reflexivity. }
      destruct (map mean_func (item_funcs l) ++ mean_block b) as [|x q]; [congruence|]. cbn [slice_of strips]. rewrite E.
      destruct (map mean_func fs ++ mean_block b') as [|y r]; [discriminate E|reflexivity]. }
  unfold legal. split; [|split; [|split; [|split; [exact (breaks_loose _ Br)|]]]];
  unfold defaults_ok, bound_program, clean, legal, throws_ok, returns_ok, sure_ok, vars_once, each_body; rewrite EF, ?EG; cbn [p' pr_items pr_body].
  { apply (kept_funcs_all _ _ _ Hfs); intros f f' H; apply H. }
  { rewrite B3', andb_true_r; apply (kept_funcs_all _ _ _ Hfs); intros f f' H; apply andb_true_iff; split; apply H. }
  { rewrite B4', andb_true_r; apply (kept_funcs_all _ _ _ Hfs); intros f f' H; apply H. }
  split; [rewrite B7', R22, andb_true_r, <- R21; apply (kept_funcs_forallb _ _ _ Hfs); intros f f' H; apply H|].
  split; [rewrite B8', R32, andb_true_r, <- R31; apply (kept_funcs_forallb _ _ _ Hfs); intros f f' (_ & _ & _ & -> & _ & _ & _ & _ & _ & H); apply H|].
  split; [split|].
  - clear - Hfs. induction Hfs as [|f f' fs fs' H _ IH]; constructor; [|exact IH]. destruct H as (_ & _ & -> & _). constructor.
  - eapply Permutation_NoDup; [|exact R42]. apply Permutation_map, Permutation_sym, Ho'.
  - split; [rewrite layout_add_funcs, layout_add; reflexivity|]. rewrite B5', andb_true_r. apply (kept_funcs_all _ _ _ Hfs). intros f f' H. apply H.
Qed.
