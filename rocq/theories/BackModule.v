(** Printed modules read back. *)
From Coq Require Import Permutation.
From Verif Require Import Bytes Utf8 UnicodeTables Float64 GoTime Ast Lexer LexFacts Utf8Facts LexSpec LexProofs LexTrivia
  LexTokens LexStrings LexReject NumSpec NumProofs NumTokens Tok Syntax Levels RulesFacts StmtInd Parser Printer PrintInv Properties_Literals Properties_Parser Properties_Lexer
  Writes PrintToks Driver SpellInv Legal Survive Strip Back BackMade BackStmt.
Open Scope Z_scope.

(** * Texts with tokens are not blank *)
Lemma white_start c : white c -> isSpace c = false -> ~ token_start c.
Proof.
  intros Hw Hs Ht. assert (Hl : isLetter c = false).
  { apply not_true_is_false. intros Hl. unfold isSpace in Hs.
    assert (A : forallb (fun d => negb (isLetter d)) (map Z.of_nat (seq 9 5) ++ [32; 133; 160; 5760; 8232; 8233; 8239; 8287; 12288] ++ map (fun i => 8192 + Z.of_nat i) (seq 0 11)) = true)
      by (vm_compute; reflexivity).
    rewrite forallb_forall in A. specialize (A c). rewrite Hl in A. discriminate A. rewrite !in_app_iff.
    destruct Hw as [Hw|[Hw|Hw]]; [left|right; left; exact Hw|right; right].
    - apply in_map_iff. exists (Z.to_nat c). rewrite in_seq. lia.
    - apply in_map_iff. exists (Z.to_nat (c - 8192)). rewrite in_seq. lia. }
  destruct Ht as [Ht|[Ht|[Ht|[Ht|Ht]]]].
  - apply isLetter_spec in Ht. congruence.
  - unfold digit_char in Ht. unfold white in Hw. cbn [In] in Hw. lia.
  - vm_compute in Ht. unfold white in Hw. cbn [In] in Hw. lia.
  - unfold white in Hw. cbn [In] in Hw. lia.
  - apply isSpace_spec in Ht. congruence.
Qed.
Lemma white_cases n : forall s, (length s <= n)%nat -> all_white s ->
  trivia s \/ exists w x c, s = w ++ x /\ trivia w /\ first_char x c /\ ~ token_start c.
Proof.
  induction n as [|n IH]; intros s Hn Hs.
  { destruct s; [left; constructor|cbn in Hn; lia]. }
  destruct s as [|b s]; [left; constructor|]. unfold all_white in Hs. rewrite runes_eq in Hs. inversion Hs as [|? ? H1 H2]; subst.
  destruct (isSpace (cur (b :: s))) eqn:E.
  - assert (Hc : cur (b :: s) < 128) by (unfold isSpace in E; lia).
    destruct (cur_small_byte b s Hc) as [Hb1 Hb2].
    destruct (IH (adv (b :: s))) as [H|(w & x & c & E1 & E2 & E3)].
    { rewrite adv_ascii by exact Hb1. cbn in Hn. lia. } { exact H2. }
    + left. rewrite adv_ascii in H by exact Hb1. constructor; [apply isSpace_spec; congruence|exact H].
    + right. rewrite adv_ascii in E1 by exact Hb1. exists (b :: w), x, c. split; [cbn; congruence|]. split; [constructor; [apply isSpace_spec; congruence|exact E2]|exact E3].
  - right. exists [], (b :: s), (cur (b :: s)). split; [reflexivity|]. split; [constructor|]. split; [split; [discriminate|reflexivity]|]. apply white_start; assumption.
Qed.
Lemma tokens_not_white t l : tokens t l -> l <> [] -> ~ all_white t.
Proof.
  intros (raw & H & ->) Hn Hw. destruct (white_cases (length t) t (le_n _) Hw) as [Ht|(w & x & c & E1 & E2 & E3 & E4)].
  - destruct (C04_trailing_trivia t zero_token t (lt_trivia _ Ht) eq_refl) as (t' & E). inversion H as [|? k t1 l1 H1 H2]; subst.
    + apply Hn. reflexivity.
    + rewrite E in H1. injection H1 as <- _. congruence.
  - destruct (unknown_rejects t zero_token w x c E2 E3 E4 E1) as (k & t' & e & E). inversion H as [? ? H1|? ? ? ? H1]; subst; rewrite E in H1; discriminate.
Qed.

(** * Procedures and functions *)
Definition named (n : bytes) : Prop := word_tk false n = KId n.
Lemma nk_id n l : nk false (KId n :: l) -> named n /\ nk false l.
Proof. intros [[H _] H2]. split; assumption. Qed.
Lemma nk_dir d l : nk false (toks_dir d ++ l) -> nk false l.
Proof. destruct d; cbn; [intros [_ H]; exact H|auto]. Qed.
Lemma nk_export x l : nk false (toks_export x ++ l) -> nk false l.
Proof. destruct x; cbn; [intros [_ H]; exact H|auto]. Qed.
Lemma nk_names l : forall rest, nk false (toks_names l ++ rest) -> Forall named (name_list l) /\ nk false rest.
Proof.
  induction l as [n|l IH n]; cbn [toks_names name_list]; intros rest H.
  - apply nk_id in H as [H1 H2]. split; [constructor; [exact H1|constructor]|exact H2].
  - flat H. apply IH in H as [H1 H2]. apply nk_cons in H2; [|reflexivity]. apply nk_id in H2 as [H2 H3]. split; [|exact H3].
    apply Forall_app. split; [exact H1|constructor; [exact H2|constructor]].
Qed.
Lemma nk_vars v : forall rest, nk false (toks_vars v ++ rest) -> nk false rest.
Proof.
  induction v as [|v IH l]; cbn [toks_vars]; intros rest H; [exact H|]. flat H. apply IH in H. apply nk_cons in H; [|reflexivity].
  apply nk_names in H as [_ H]. apply nk_cons in H; [exact H|reflexivity].
Qed.
Lemma nk_param p : forall rest, nk false (toks_param p ++ rest) -> named (snd (fst (mean_param p))) /\ nk false rest.
Proof.
  induction p as [n|n|p IH e]; cbn [toks_param mean_param]; intros rest H.
  - apply nk_id in H. exact H.
  - flat H. apply nk_cons in H; [|reflexivity]. apply nk_id in H. exact H.
  - flat H. apply IH in H as [H1 H2]. apply nk_cons in H2; [|reflexivity]. apply nk_expr in H2. destruct (mean_param p) as [[? ?] ?]. auto.
Qed.
Lemma nk_params l : forall rest, nk false (toks_params l ++ rest) -> Forall (fun p : param => named (snd (fst p))) (mean_params l) /\ nk false rest.
Proof.
  induction l as [|p|l IH p]; cbn [toks_params mean_params]; intros rest H.
  - auto.
  - apply nk_param in H as [H1 H2]. split; [constructor; [exact H1|constructor]|exact H2].
  - flat H. apply IH in H as [H1 H2]. apply nk_cons in H2; [|reflexivity]. apply nk_param in H2 as [H2 H3]. split; [|exact H3].
    apply Forall_app. split; [exact H1|constructor; [exact H2|constructor]].
Qed.

Lemma back_default d : lasts_default d = true -> built d -> d <> SNil ->
  printVarStatement d <> [] /\ exists e, toks_expr e = pt false MV d /\ mean_expr e = d /\ bound e = true /\ simple e = true.
Proof.
  intros Hl Hb Hn. destruct d as [|v|x|b|t| | | | | | | | | | | | | | | | | | | |]; try discriminate Hl; try congruence.
  - split; [discriminate|]. exists (EStr v). repeat split.
  - cbn [lasts_default] in Hl. apply built_inv in Hb as [Hf _]. cbn [local] in Hf.
    destruct (format_float _ Hf) as (b & s & E1 & _ & _ & _ & Hr). specialize (Hr (whole_b_spec _ Hl)).
    assert (E : pt false MV (SNum x) = tminus (f_neg x) ++ [KNum (f64_abs x)]) by (cbn [pt]; unfold num_toks; rewrite Hr; reflexivity).
    split. { unfold printVarStatement. cbn [pr]. unfold format_0f in *. destruct x as [[] man ex]; cbn [f_neg f64_abs f_man f_exp] in *; [discriminate|]. rewrite E1. discriminate. }
    destruct x as [neg man ex]. destruct neg; cbn [f_neg f64_abs f_man f_exp tminus app] in *.
    + exists (ENeg (ENum (F64 false man ex))). rewrite E. repeat split.
    + exists (ENum (F64 false man ex)). rewrite E. repeat split.
  - destruct b; (split; [discriminate|]); [exists ETrue|exists EFalse]; repeat split.
  - split; [discriminate|]. exists (EDate t). repeat split.
  - split; [discriminate|]. exists EUndef. repeat split.
Qed.
Lemma back_param (p : param) : named (snd (fst p)) -> lasts_default (fst (fst p)) = true -> built (fst (fst p)) ->
  exists p', toks_param p' = param_toks p /\ mean_param p' = p /\ simple_param p' = true /\ bound_param p' = true.
Proof.
  destruct p as [[d n] x]. cbn [fst snd]. intros Hn Hl Hb. unfold named in Hn. cbn [param_toks]. rewrite Hn.
  assert (D : d = SNil \/ d <> SNil) by (destruct d; auto; right; discriminate). destruct D as [->|D].
  - exists (if x then ParVal n else Par n). destruct x; repeat split.
  - destruct (back_default d Hl Hb D) as (P & e & E1 & E2 & E3 & E4). destruct (printVarStatement d) as [|b s]; [congruence|].
    exists (ParDef (if x then ParVal n else Par n) e). cbn [toks_param mean_param simple_param bound_param]. rewrite E1, E2, E3, E4. destruct x; repeat split.
Qed.
Lemma back_params l : Forall (fun p : param => named (snd (fst p))) l -> forallb (fun p : param => lasts_default (fst (fst p))) l = true ->
  Forall built (map (fun p : param => fst (fst p)) l) ->
  exists l', toks_params l' = tjoin (map param_toks l) /\ mean_params l' = l /\ simple_params l' = true /\ bound_params l' = true.
Proof.
  induction l as [|p l IH] using rev_ind; intros Hn Hl Hb; [exists PNil; repeat split|].
  apply Forall_app in Hn as [N1 N2]. inversion N2 as [|? ? N3 _]; subst. rewrite forallb_app in Hl. apply andb_true_iff in Hl as [L1 L2]. cbn [forallb] in L2. rewrite andb_true_r in L2.
  rewrite map_app in Hb. apply Forall_app in Hb as [B1 B2]. inversion B2 as [|? ? B3 _]; subst.
  destruct (IH N1 L1 B1) as (l' & E1 & E2 & E3 & E4). destruct (back_param p N3 L2 B3) as (p' & F1 & F2 & F3 & F4).
  destruct l as [|q l].
  - exists (POne p'). cbn [app map tjoin toks_params mean_params simple_params bound_params]. rewrite F1, F2, F3, F4. repeat split.
  - exists (PSnoc l' p'). cbn [toks_params mean_params simple_params bound_params]. rewrite E1, E2, E3, E4, F1, F2, F3, F4. rewrite map_app. cbn [map]. rewrite tjoin_snoc by discriminate. repeat split.
Qed.

Lemma default_strip d : lasts_default d = true -> strip0 d = strip d. Proof. destruct d; try discriminate; reflexivity. Qed.
Definition same_func (f f' : cfunc) : Prop :=
  toks_func f' = func_toks (mean_func f) /\ strip0 (mean_func f') = strip (mean_func f) /\ mean_vars (cf_vars f') = [] /\ cf_function f' = cf_function f /\
  simple_params (cf_params f') = true /\ bound_params (cf_params f') = true /\ bound_block (cf_body f') = true /\ clean_block (cf_body f') = true /\
  sure_block (cf_body f') = true /\ same_block (cf_body f) (cf_body f').
Lemma nk_func f rest : nk false (toks_func f ++ rest) -> nk false rest.
Proof.
  destruct f as [d k n ps x v b]. unfold toks_func. cbn [cf_dir cf_function cf_name cf_params cf_export cf_vars cf_body]. intros H. flat H. apply nk_dir in H.
  apply nk_cons in H; [|destruct k; reflexivity]. apply nk_id in H as [_ H]. apply nk_cons in H; [|reflexivity]. apply nk_params in H as [_ H].
  apply nk_cons in H; [|reflexivity]. apply nk_export, nk_vars in H. apply (proj1 (proj2 back_stmts)) in H as [H _].
  apply nk_cons in H; [exact H|destruct k; reflexivity].
Qed.
Lemma back_func f rest : nk false (toks_func f ++ rest) -> lasts_item (mean_func f) = true -> built (mean_func f) -> exists f', same_func f f'.
Proof.
  destruct f as [d k n ps x v b]. unfold toks_func, mean_func, mean_func_with. cbn [cf_dir cf_function cf_name cf_params cf_export cf_vars cf_body lasts_item elems].
  intros H Hl Hb. flat H. apply nk_dir in H.
  apply nk_cons in H; [|destruct k; reflexivity]. apply nk_id in H as [Hn H]. apply nk_cons in H; [|reflexivity]. apply nk_params in H as [Hps H].
  apply nk_cons in H; [|reflexivity]. apply nk_export, nk_vars in H. apply (proj1 (proj2 back_stmts)) in H as [_ Hk].
  apply andb_true_iff in Hl as [Hl L3]. apply andb_true_iff in Hl as [L1 L2]. unfold lasts_block in L2. rewrite elems_slice in L2.
  apply built_inv in Hb as [_ Hp]. cbn [parts] in Hp. apply Forall_app in Hp as [P1 P2]. rewrite elems_slice in P1.
  destruct (Hk L2 P1) as (b' & B0 & B1 & B2 & B3 & B4 & B5 & B6). destruct (back_params _ Hps L3 P2) as (ps' & E1 & E2 & E3 & E4).
  destruct (mean_vars v) as [|? ?] eqn:Ev; [|discriminate L1]. unfold named in Hn.
  exists (CFunc (match d with Some (c :: l) => Some (c :: l) | _ => None end) k n ps' x VNil b').
  unfold same_func, toks_func, mean_func, mean_func_with. cbn [cf_dir cf_function cf_name cf_params cf_export cf_vars cf_body toks_vars mean_vars app func_toks].
  rewrite E1, E2, E3, E4, B1, B3, B4, B5, Ev, btoks_slice, Hn. split.
  { destruct d as [[|]|], k; cbn [toks_dir app]; repeat rewrite <- ?app_assoc; destruct x; reflexivity. }
  split.
  { rewrite strip0_func, strip_func, (strips_slice _ _ B2). f_equal; [destruct d as [[|]|]; reflexivity|]. apply map_ext_in. intros p Hp. rewrite forallb_forall in L3. rewrite (default_strip _ (L3 p Hp)). reflexivity. }
  repeat split; apply B6.
Qed.

(** * Modules *)
Fixpoint add_items (l : items) (is : list item) : items := match is with [] => l | i :: is => add_items (ISnoc l i) is end.
Lemma toks_add is : forall l, toks_items (add_items l is) = toks_items l ++ flat_map toks_item is.
Proof. induction is as [|i is IH]; intros l; cbn [add_items flat_map]; [rewrite app_nil_r; reflexivity|]. rewrite IH. cbn [toks_items]. rewrite <- app_assoc. reflexivity. Qed.
Lemma funcs_add fs : forall l, item_funcs (add_items l (map IFunc fs)) = item_funcs l ++ fs.
Proof. induction fs as [|f fs IH]; intros l; cbn [add_items map]; [rewrite app_nil_r; reflexivity|]. rewrite IH. cbn [item_funcs]. rewrite <- app_assoc. reflexivity. Qed.
Lemma gvars_add_funcs fs : forall l, item_gvars (add_items l (map IFunc fs)) = item_gvars l.
Proof. induction fs as [|f fs IH]; intros l; cbn [add_items map]; [reflexivity|]. rewrite IH. reflexivity. Qed.
Lemma layout_add_funcs fs : forall l, layout_ok (add_items l (map IFunc fs)) = layout_ok l.
Proof. induction fs as [|f fs IH]; intros l; cbn [add_items map]; [reflexivity|]. rewrite IH. reflexivity. Qed.
Definition gitem (g : gvar) : item := IVars (match gv_dir g with [] => None | d => Some d end) (Name (gv_name g)) (gv_export g).
Lemma toks_gitem g : named (gv_name g) -> toks_item (gitem g) = gvar_toks g.
Proof. unfold named, gvar_toks, gitem. intros ->. destruct g as [[|] n []]; reflexivity. Qed.
Lemma gvars_add gs : forall l, item_gvars (add_items l (map gitem gs)) = item_gvars l ++ gs.
Proof.
  induction gs as [|g gs IH]; intros l; cbn [add_items map]; [rewrite app_nil_r; reflexivity|]. rewrite IH. cbn [item_gvars gitem]. rewrite <- app_assoc.
  destruct g as [[|] n x]; reflexivity.
Qed.
Lemma funcs_add_vars gs : forall l, item_funcs (add_items l (map gitem gs)) = item_funcs l.
Proof. induction gs as [|g gs IH]; intros l; cbn [add_items map]; [reflexivity|]. rewrite IH. reflexivity. Qed.
Lemma layout_add gs : forall l, item_funcs l = [] -> layout_ok (add_items l (map gitem gs)) = layout_ok l.
Proof. induction gs as [|g gs IH]; intros l H; cbn [add_items map]; [reflexivity|]. rewrite IH by exact H. cbn [layout_ok gitem]. rewrite H. apply andb_true_r. Qed.

Lemma nk_items l : forall rest, nk false (toks_items l ++ rest) -> nk false rest /\ Forall (fun g => named (gv_name g)) (item_gvars l) /\
  (Forall (fun f => lasts_item (mean_func f) = true) (item_funcs l) -> Forall (fun f => built (mean_func f)) (item_funcs l) ->
   exists fs, Forall2 same_func (item_funcs l) fs).
Proof.
  induction l as [|l IH i]; cbn [toks_items]; intros rest H; [split; [exact H|split; [constructor|intros _ _; exists []; constructor]]|]. flat H. destruct (IH _ H) as (N & G & F). destruct i as [d n x|f].
  - cbn [toks_item] in N. flat N. apply nk_dir in N. apply nk_cons in N; [|reflexivity]. apply nk_names in N as [N1 N]. apply nk_export in N. apply nk_cons in N; [|reflexivity].
    split; [exact N|]. cbn [item_gvars item_funcs]. split; [|exact F]. apply Forall_app. split; [exact G|]. unfold mean_gvars. apply Forall_forall. intros g Hg.
    apply in_map_iff in Hg as (y & <- & Hy). rewrite Forall_forall in N1. cbn [gv_name]. auto.
  - cbn [toks_item] in N. split; [exact (nk_func _ _ N)|]. cbn [item_gvars item_funcs]. split; [exact G|]. intros Hl Hb. apply Forall_app in Hl as [L1 L2]. apply Forall_app in Hb as [B1 B2].
    inversion L2 as [|? ? L3 _]; subst. inversion B2 as [|? ? B3 _]; subst. destruct (F L1 B1) as (fs & Hfs). destruct (back_func _ _ N L3 B3) as (f' & Hf).
    exists (fs ++ [f']). apply Forall2_app; [exact Hfs|constructor; [exact Hf|constructor]].
Qed.
Definition isfunc (s : stmt) : bool := match s with SFunc _ _ _ _ _ _ _ => true | _ => false end.
Lemma not_func_stmt c rest : nk false (toks_stmt c ++ rest) -> isfunc (mean_stmt c) = false.
Proof.
  destruct c as [|e| | | | | | | | |]; try reflexivity. cbn [toks_stmt mean_stmt]. intros H. pose proof (made_expr _ _ H) as M. destruct (mean_expr e); try reflexivity. inversion M.
Qed.
Lemma not_func_block b : forall rest, nk false (toks_block b ++ rest) -> forallb (fun s => negb (isfunc s)) (mean_block b) = true.
Proof.
  induction b as [|s|b IH x|b IH x s]; cbn [toks_block mean_block]; intros rest H; [reflexivity| | |].
  - apply not_func_stmt in H. cbn [forallb]. rewrite H. reflexivity.
  - flat H. exact (IH _ H).
  - flat H. rewrite forallb_app, (IH _ H). apply (proj1 (proj2 back_stmts)) in H as [H _].
    assert (H' : nk false (toks_stmt s ++ rest)) by (eapply nk_cons; [destruct x; exact H|destruct x; reflexivity]).
    apply not_func_stmt in H'. cbn [forallb]. rewrite H'. reflexivity.
Qed.
Lemma same_funcs_toks fs fs' : Forall2 same_func fs fs' ->
  flat_map toks_item (map IFunc fs') = flat_map (fun n => match n with SFunc _ _ _ _ _ _ _ => func_toks n | _ => itoks n end) (map mean_func fs).
Proof. induction 1 as [|f f' fs fs' H _ IH]; [reflexivity|]. cbn [map flat_map toks_item]. rewrite IH. destruct H as [-> _]. reflexivity. Qed.
Lemma same_funcs_strip fs fs' : Forall2 same_func fs fs' -> map strip0 (map mean_func fs') = map strip (map mean_func fs).
Proof. induction 1 as [|f f' fs fs' H _ IH]; [reflexivity|]. cbn [map]. rewrite IH. destruct H as [_ [-> _]]. reflexivity. Qed.
Lemma same_funcs_while fs fs' : Forall2 same_func fs fs' -> while_funcs fs' = while_funcs fs.
Proof.
  induction 1 as [|f f' fs fs' H _ IH]; [reflexivity|]. cbn [while_funcs]. rewrite IH. destruct H as (_ & _ & _ & _ & _ & _ & _ & _ & _ & _ & H & _). rewrite H. reflexivity.
Qed.
Lemma same_funcs_loose fs fs' : Forall2 same_func fs fs' -> forall w, loose_funcs w fs' = loose_funcs w fs.
Proof.
  induction 1 as [|f f' fs fs' H _ IH]; [reflexivity|]. intros w. cbn [loose_funcs]. rewrite IH. destruct H as (_ & _ & _ & _ & _ & _ & _ & _ & _ & H0 & H & _). rewrite H, H0. reflexivity.
Qed.
Lemma same_funcs_forallb (P : cfunc -> bool) fs fs' : Forall2 same_func fs fs' -> (forall f f', same_func f f' -> P f' = P f) -> forallb P fs' = forallb P fs.
Proof. intros H HP. induction H as [|f f' fs fs' H _ IH]; [reflexivity|]. cbn [forallb]. rewrite IH, (HP _ _ H). reflexivity. Qed.
Lemma same_funcs_all (P : cfunc -> bool) fs fs' : Forall2 same_func fs fs' -> (forall f f', same_func f f' -> P f' = true) -> forallb P fs' = true.
Proof. intros H HP. induction H as [|f f' fs fs' H _ IH]; [reflexivity|]. cbn [forallb]. rewrite IH, (HP _ _ H). reflexivity. Qed.

Theorem back_program p order : nk false (toks_program p) -> lasts_module (mean_program p) = true -> Forall built (elems (m_body (mean_program p))) ->
  Permutation order (elems (m_gvars (mean_program p))) -> loose_ok p = true -> throws_ok p = true -> returns_ok p = true -> vars_once p ->
  exists p', toks_program p' = print_toks order (mean_program p) /\ strips0 (m_body (mean_program p')) = strips (m_body (mean_program p)) /\ same_module (mean_program p) (mean_program p') /\
    defaults_ok p' = true /\ bound_program p' = true /\ clean p' = true /\ legal p'.
Proof.
  destruct p as [l b]. unfold toks_program, loose_ok, throws_ok, returns_ok, vars_once, lasts_module, each_body. cbn [pr_items pr_body mean_program m_body m_gvars]. rewrite elems_slice.
  intros Hn Hl Hb Ho R1 R2 R3 R4. rewrite <- (app_nil_r (toks_block b)) in Hn. destruct (nk_items l _ Hn) as (N & G & F).
  assert (L : forallb lasts_item (map mean_func (item_funcs l) ++ mean_block b) = true) by (destruct (map mean_func (item_funcs l) ++ mean_block b); [discriminate|exact Hl]).
  rewrite forallb_app in L. apply andb_true_iff in L as [L1 L2]. apply Forall_app in Hb as [B1 B2].
  destruct F as (fs & Hfs).
  { rewrite forallb_forall in L1. apply Forall_forall. intros f Hf. apply L1, in_map, Hf. }
  { rewrite Forall_forall in B1. apply Forall_forall. intros f Hf. apply B1, in_map, Hf. }
  pose proof (not_func_block _ _ N) as Hnf. apply (proj1 (proj2 back_stmts)) in N as [_ Hk].
  assert (L3 : forallb lasts_stmt (mean_block b) = true).
  { rewrite forallb_forall in *. intros s Hs. specialize (L2 s Hs). specialize (Hnf s Hs). destruct s; try exact L2. discriminate Hnf. }
  destruct (Hk L3 B2) as (b' & B0' & B1' & B2' & B3' & B4' & B5' & B6' & B7' & B8' & B9').
  assert (Ho' : Permutation order (item_gvars l)) by (destruct (item_gvars l); exact Ho).
  exists (Program (add_items (add_items INil (map gitem order)) (map IFunc fs)) b').
  assert (EF : item_funcs (add_items (add_items INil (map gitem order)) (map IFunc fs)) = fs) by (rewrite funcs_add, funcs_add_vars; reflexivity).
  assert (EG : item_gvars (add_items (add_items INil (map gitem order)) (map IFunc fs)) = order) by (rewrite gvars_add_funcs, gvars_add; reflexivity).
  apply andb_true_iff in R1 as [R11 R12]. apply andb_true_iff in R2 as [R21 R22]. apply andb_true_iff in R3 as [R31 R32]. destruct R4 as [R41 R42].
  split.
  { unfold print_toks. cbn [m_body mean_program]. cbn [pr_items pr_body]. rewrite elems_slice.
    replace (match map mean_func (item_funcs l) ++ mean_block b with [] => [] | _ => _ end) with
      (flat_map gvar_toks order ++ flat_map (fun n => match n with SFunc _ _ _ _ _ _ _ => func_toks n | _ => itoks n end) (map mean_func (item_funcs l) ++ mean_block b))
      by (destruct (map mean_func (item_funcs l) ++ mean_block b); [discriminate Hl|reflexivity]).
    cbn [toks_program pr_items pr_body]. rewrite !toks_add. cbn [toks_items app]. rewrite (same_funcs_toks _ _ Hfs), flat_map_app, B1', <- app_assoc. f_equal; [|f_equal].
    - assert (G' : Forall (fun g => named (gv_name g)) order) by (eapply Permutation_Forall; [apply Permutation_sym, Ho'|exact G]). clear - G'.
      induction G' as [|g order Hg _ IH]; [reflexivity|]. cbn [map flat_map]. rewrite IH, toks_gitem by exact Hg. reflexivity.
    - clear - Hnf. induction (mean_block b) as [|s r IH]; [reflexivity|]. cbn [forallb] in Hnf. apply andb_true_iff in Hnf as [H1 H2]. cbn [flat_map]. rewrite IH by exact H2. destruct s; try reflexivity. discriminate H1. }
  assert (ES : strips0 (slice_of (map mean_func fs ++ mean_block b')) = strips (slice_of (map mean_func (item_funcs l) ++ mean_block b))).
  { apply strips_slice. rewrite !map_app, B2', (same_funcs_strip _ _ Hfs). reflexivity. }
  split; [unfold mean_program; cbn [m_body pr_items pr_body]; rewrite EF; exact ES|]. split.
  { split; [reflexivity|]. unfold mean_program. cbn [m_gvars m_body pr_items pr_body]. rewrite EF, EG. split.
    - apply Permutation_sym. assert (A : forall g : list gvar, elems (match g with [] => None | x :: r => Some (x :: r) end) = g) by (intros []; reflexivity). rewrite !A. exact Ho'.
    - symmetry. apply strips_same, ES. }
  unfold defaults_ok, bound_program, clean, legal, loose_ok, throws_ok, returns_ok, sure_ok, vars_once, each_body. cbn [pr_items pr_body]. rewrite EF, EG.
  split; [apply (same_funcs_all _ _ _ Hfs); intros f f' H; apply H|].
  split; [rewrite B3', andb_true_r; apply (same_funcs_all _ _ _ Hfs); intros f f' H; apply andb_true_iff; split; apply H|].
  split; [rewrite B4', andb_true_r; apply (same_funcs_all _ _ _ Hfs); intros f f' H; apply H|].
  split; [rewrite (same_funcs_loose _ _ Hfs), (same_funcs_while _ _ Hfs), B6', R11, R12; reflexivity|].
  split; [rewrite B8', R22, andb_true_r, <- R21; apply (same_funcs_forallb _ _ _ Hfs); intros f f' H; apply H|].
  split; [rewrite B9', R32, andb_true_r, <- R31; apply (same_funcs_forallb _ _ _ Hfs); intros f f' (_ & _ & _ & -> & _ & _ & _ & _ & _ & H); apply H|].
  split; [split|].
  - clear - Hfs. induction Hfs as [|f f' fs fs' H _ IH]; constructor; [|exact IH]. destruct H as (_ & _ & -> & _). constructor.
  - eapply Permutation_NoDup; [|exact R42]. apply Permutation_map, Permutation_sym, Ho'.
  - split; [rewrite layout_add_funcs, layout_add; reflexivity|]. rewrite B5', andb_true_r. apply (same_funcs_all _ _ _ Hfs). intros f f' H. apply H.
Qed.
