(** From grammar and rules to acceptance: derivations give programs, grouping keeps the
    rules, and the rules on tokens are the rules on programs. *)
From Verif Require Import Bytes Utf8 Float64 GoTime Ast Lexer LexFacts LexSpec LexProofs Tables Parser Grammar Tok CertData Cert Driver DriverInv Trees Syntax Rules RulesFacts CleanFacts CstTrees CstEval CstModule CstInj CstWf Levels Regroup Legal.
Open Scope Z_scope.

(** * Derivations are trees *)
Scheme derives_mind := Induction for derives Sort Prop
  with derives_all_mind := Induction for derives_all Sort Prop.
Lemma prods_checked : forallb (fun p => existsb (fun r => (nt_no (lhs r) =? nt_no (fst p)) && (if list_eq_dec Z.eq_dec (map sym_no (rhs r)) (map sym_no (snd p)) then true else false)) prods) productions = true.
Proof. vm_compute. reflexivity. Qed.
Lemma split_kinds l : forall u w, map kind_of l = u ++ w -> exists l1 l2, l = l1 ++ l2 /\ map kind_of l1 = u /\ map kind_of l2 = w.
Proof.
  induction l as [|k l IH]; intros [|c u] w H; try discriminate H.
  - exists [], []. auto.
  - exists [], (k :: l). auto.
  - cbn in H. injection H as E H. destruct (IH u w H) as (l1 & l2 & -> & E1 & E2). exists (k :: l1), l2. cbn. rewrite E, E1. auto.
Qed.
Lemma derives_tree n w : derives n w -> forall l, map kind_of l = w -> Forall tk_wf l ->
  exists t, wf t /\ sym_of t = - nt_no n /\ yield t = l.
Proof.
  revert n w.
  apply (derives_mind (fun n w _ => forall l, map kind_of l = w -> Forall tk_wf l -> exists t, wf t /\ sym_of t = - nt_no n /\ yield t = l)
    (fun rhs w _ => forall l, map kind_of l = w -> Forall tk_wf l -> exists ch, Forall wf ch /\ map sym_of ch = map sym_no rhs /\ flat_map yield ch = l)).
  - intros n r w Hin _ IH l Hl Hw. destruct (IH l Hl Hw) as (ch & H1 & H2 & H3).
    pose proof prods_checked as C. rewrite forallb_forall in C. specialize (C _ Hin). apply existsb_exists in C as (q & Hq & C).
    apply andb_true_iff in C as [C1 C2]. cbn [fst snd] in *. destruct (list_eq_dec _ _ _) as [E|]; [|discriminate].
    exists (Node q ch). split; [|split; [|exact H3]].
    + constructor; [|congruence|exact H1]. unfold prods in Hq. apply seqZ_in in Hq. unfold prodno. unfold n_prods in *. lia.
    + cbn [sym_of]. lia.
  - intros l Hl _. destruct l; [|discriminate]. exists []. auto.
  - intros c r w _ IH [|k l] Hl Hw; [discriminate|]. cbn in Hl. injection Hl as Ek Hl. inversion Hw; subst.
    destruct (IH l eq_refl) as (ch & G1 & G3 & G4); [assumption|]. exists (Leaf k :: ch). split; [constructor; [constructor; assumption|assumption]|].
    cbn [map flat_map yield app]. rewrite G3, G4. auto.
  - intros n r u w _ IH1 _ IH2 l Hl Hw. apply split_kinds in Hl as (l1 & l2 & -> & E1 & E2). apply Forall_app in Hw as [W1 W2].
    destruct (IH1 l1 E1 W1) as (t & T1 & T2 & T3). destruct (IH2 l2 E2 W2) as (ch & H1 & H2 & H3).
    exists (t :: ch). split; [constructor; assumption|]. cbn [map flat_map sym_no]. rewrite T2, T3, H2, H3. auto.
Qed.
Theorem derives_program l : derives n_module (map kind_of l) -> Forall tk_wf l -> exists p, defaults_ok p = true /\ toks_program p = l.
Proof.
  intros H Hw. destruct (derives_tree _ _ H l eq_refl Hw) as (t & W & S & Y).
  destruct (wf_program _ W S) as (p & Hd & ->). exists p. split; [exact Hd|]. rewrite (yield_program p Hd) in Y. exact Y.
Qed.

(** * Break and continue *)
Lemma bk_loop d r : breaks_toks d (K tLoop :: r) = breaks_toks (d + 1) r. Proof. reflexivity. Qed.
Lemma bk_end d r : breaks_toks d (K tEndLoop :: r) = breaks_toks (d - 1) r. Proof. reflexivity. Qed.
Lemma bk_break d r : breaks_toks d (K tBreak :: r) = (0 <? d) && breaks_toks d r. Proof. reflexivity. Qed.
Lemma bk_continue d r : breaks_toks d (K tContinue :: r) = (0 <? d) && breaks_toks d r. Proof. reflexivity. Qed.
Definition k_other (k : Z) : bool := negb ((k =? tLoop) || (k =? tEndLoop) || (k =? tBreak) || (k =? tContinue)).
Lemma bk_other d t r : k_other (kind_of t) = true -> breaks_toks d (t :: r) = breaks_toks d r.
Proof.
  unfold k_other. intros H. apply negb_true_iff in H. rewrite !orb_false_iff in H.
  destruct H as [[[H1 H2] H3] H4]. cbn [breaks_toks]. rewrite H1, H2, H3, H4. reflexivity.
Qed.
Lemma bk_other' d t r : b_other (kind_of t) = true -> breaks_toks d (t :: r) = breaks_toks d r.
Proof. intros H. apply bk_other. unfold b_other, k_other in *. rewrite negb_true_iff, !orb_false_iff in *. tauto. Qed.
Lemma dskip_bk d l r : forallb d_other l = true -> breaks_toks d (l ++ r) = breaks_toks d r. Proof. dskip bk_other'. Qed.
Ltac bks := repeat first
  [ rewrite bk_loop | rewrite bk_end | rewrite bk_break | rewrite bk_continue
  | rewrite skip_breaks by (apply expr_kinds_ok || apply path_kinds_ok || apply loopexp_kinds_ok || apply oexpr_kinds_ok)
  | rewrite bk_other by reflexivity ].
Definition breaks_eq (ok : bool -> bool) (l : list tk) : Prop :=
  forall d r, 0 <= d -> breaks_toks d (l ++ r) = ok (0 <? d) && breaks_toks d r.
Lemma breaks_toks_eq :
  (forall s, breaks_eq (fun l => breaks_stmt l s) (toks_stmt s)) /\
  (forall b, breaks_eq (fun l => breaks_block l b) (toks_block b)) /\
  (forall l, breaks_eq (fun x => breaks_elseifs x l) (toks_elseifs l)) /\
  (forall c, breaks_eq (fun x => breaks_else x c) (toks_else c)).
Proof.
  apply stmt_all; unfold breaks_eq; cbn [breaks_stmt breaks_block breaks_elseifs breaks_else]; intros; norm; bks; try reflexivity;
  repeat (progress (repeat match goal with H : forall d r, 0 <= d -> _ = _ |- _ => rewrite H by lia end; bks));
  try (destruct x; unfold toks_sep; bks; repeat match goal with H : forall d r, 0 <= d -> _ = _ |- _ => rewrite H by lia end);
  try (replace (0 <? d + 1) with true by lia); try (replace (d + 1 - 1) with d by lia); rewrite ?andb_assoc; try reflexivity.
Qed.
Lemma breaks_items l : forall r, breaks_toks 0 (toks_items l ++ r) = forallb (fun f => breaks_block false (cf_body f)) (item_funcs l) && breaks_toks 0 r.
Proof.
  induction l as [|l IH i]; intros r; [reflexivity|]. cbn [toks_items]. rewrite <- app_assoc. rewrite IH. 
  destruct i as [d n x|f]; cbn [item_funcs toks_item] in *.
  - f_equal. norm2. rewrite dskip_bk by ds. rewrite bk_other by reflexivity. rewrite !dskip_bk by ds. rewrite bk_other by reflexivity. auto.
  - rewrite forallb_app, <- andb_assoc. f_equal. cbn [forallb]. rewrite andb_true_r. norm2. destruct (cf_function f);
    (rewrite dskip_bk by ds; rewrite !bk_other by reflexivity; rewrite dskip_bk by ds; rewrite !bk_other by reflexivity; rewrite !dskip_bk by ds);
    (rewrite (proj1 (proj2 breaks_toks_eq)) by (lia || reflexivity)); (rewrite bk_other by reflexivity); reflexivity.
Qed.
Theorem breaks_program p : breaks_toks 0 (toks_program p) = breaks_ok p.
Proof.
  unfold toks_program, breaks_ok, each_body. rewrite breaks_items, <- (app_nil_r (toks_block _)), (proj1 (proj2 breaks_toks_eq)) by (lia || reflexivity).
  rewrite andb_true_r. reflexivity.
Qed.
(** A break inside a loop is accepted. *)
Lemma breaks_mono :
  (forall s (l l' : bool), (l = true -> l' = true) -> breaks_stmt l s = true -> loose_stmt l' s = true) /\
  (forall s (l l' : bool), (l = true -> l' = true) -> breaks_block l s = true -> loose_block l' s = true) /\
  (forall s (l l' : bool), (l = true -> l' = true) -> breaks_elseifs l s = true -> loose_elseifs l' s = true) /\
  (forall s (l l' : bool), (l = true -> l' = true) -> breaks_else l s = true -> loose_else l' s = true).
Proof.
  apply stmt_all; intros;
  cbn [breaks_stmt breaks_block breaks_elseifs breaks_else loose_stmt loose_block loose_elseifs loose_else] in *;
  rewrite ?andb_true_iff in *; auto; repeat match goal with H : _ /\ _ |- _ => destruct H end; repeat split;
  match goal with IH : forall l l', _ -> ?f l ?s = true -> _, H : ?f _ ?s = true |- _ ?s = true => apply (IH _ _ ltac:(idtac) H) end || idtac; eauto.
  all: match goal with IH : forall l l', _ -> ?f l ?s = true -> _, H : ?f ?l0 ?s = true |- _ => refine (IH _ _ _ H) end; intros; subst; rewrite ?orb_true_iff; auto.
Qed.
Lemma breaks_funcs_loose l : forall w, forallb (fun f => breaks_block false (cf_body f)) l = true -> loose_funcs w l = true.
Proof.
  induction l as [|f l IH]; intros w H; [reflexivity|]. cbn [forallb loose_funcs] in *. apply andb_true_iff in H as [H1 H2].
  rewrite (proj1 (proj2 breaks_mono) _ false w) by (congruence || exact H1). apply IH, H2.
Qed.
Theorem breaks_loose p : breaks_ok p = true -> loose_ok p = true.
Proof.
  unfold breaks_ok, each_body, loose_ok. intros H. apply andb_true_iff in H as [H1 H2]. apply andb_true_intro. split; [apply breaks_funcs_loose, H1|].
  refine (proj1 (proj2 breaks_mono) _ false _ _ H2). discriminate.
Qed.

(** * Colons *)
Lemma clean_sure_all :
  (forall s, clean_stmt s = true -> colons_stmt s = true -> sure_stmt s = true) /\
  (forall s, clean_block s = true -> colons_block s = true -> sure_block s = true) /\
  (forall s, clean_elseifs s = true -> colons_elseifs s = true -> sure_elseifs s = true) /\
  (forall s, clean_else s = true -> colons_else s = true -> sure_else s = true).
Proof.
  apply stmt_all; intros; cbn [clean_stmt clean_block clean_elseifs clean_else colons_stmt colons_block colons_elseifs colons_else sure_stmt sure_block sure_elseifs sure_else] in *;
  rewrite ?andb_true_iff in *; auto; repeat match goal with H : _ /\ _ |- _ => destruct H end; repeat split; auto.
  - destruct b; auto.
  - unfold sure_sep. destruct x; [reflexivity|]. destruct b; [discriminate|..]; rewrite ?H0; cbn [andb]; assumption.
  - destruct b; [discriminate|..]; rewrite ?andb_true_iff in *; tauto.
  - unfold sure_sep. destruct x; [reflexivity|]. destruct b; [discriminate|..]; apply andb_true_iff in H1 as [H1 _]; rewrite H1; cbn [andb]; assumption.
  - destruct b; [discriminate|..]; rewrite ?andb_true_iff in *; tauto.
Qed.
Lemma each_mono (P Q R : cfunc -> bool) (P' Q' R' : block -> bool) p : (forall f, P f = true -> Q f = true -> R f = true) ->
  (forall f, P' f = true -> Q' f = true -> R' f = true) -> each_body P P' p = true -> each_body Q Q' p = true -> each_body R R' p = true.
Proof.
  unfold each_body. rewrite !andb_true_iff, !forallb_forall. intros H1 H2 [A1 A2] [B1 B2]. split; [|auto]. intros f Hf. auto.
Qed.
Theorem clean_sure p : clean p = true -> colons_ok p = true -> sure_ok p = true.
Proof. apply each_mono; intros; apply clean_sure_all; assumption. Qed.
Lemma no_colon_all :
  (forall s, ~ In (Pct ":") (toks_stmt s) -> sure_stmt s = true /\ colons_stmt s = true) /\ (forall s, ~ In (Pct ":") (toks_block s) -> sure_block s = true /\ colons_block s = true) /\
  (forall s, ~ In (Pct ":") (toks_elseifs s) -> sure_elseifs s = true /\ colons_elseifs s = true) /\ (forall s, ~ In (Pct ":") (toks_else s) -> sure_else s = true /\ colons_else s = true).
Proof.
  apply stmt_all; intros; cbn [toks_stmt toks_block toks_elseifs toks_else sure_stmt sure_block sure_elseifs sure_else colons_stmt colons_block colons_elseifs colons_else] in *;
  repeat (progress (rewrite ?in_app_iff in *; cbn [In] in *)); rewrite ?andb_true_iff; try tauto.
  - destruct x; [unfold sure_sep, colon_ok; tauto|]. exfalso. apply H0. unfold toks_sep. auto.
  - destruct x; [unfold sure_sep, colon_ok; tauto|]. exfalso. apply H1. unfold toks_sep. auto.
Qed.
Theorem no_colon p : ~ In (Pct ":") (toks_program p) -> sure_ok p = true /\ colons_ok p = true.
Proof.
  unfold toks_program, sure_ok, colons_ok, each_body. intros H. rewrite !andb_true_iff, !forallb_forall.
  assert (Hb : ~ In (Pct ":") (toks_block (pr_body p))) by (intros Hi; apply H, in_or_app; auto).
  assert (Hf : forall f, In f (item_funcs (pr_items p)) -> ~ In (Pct ":") (toks_block (cf_body f))).
  { intros f Hf Hi. apply H, in_or_app. left. eapply in_items; eassumption. }
  pose proof (proj1 (proj2 no_colon_all) _ Hb). split; (split; [|tauto]); intros f F; apply (proj1 (proj2 no_colon_all) _ (Hf f F)).
Qed.

(** * Grouping keeps the rules *)
Definition islab (s : stmt) : bool := match s with SLabel _ => true | _ => false end.
Lemma islab_not s : islab (mark_not s) = islab s. Proof. destruct s; reflexivity. Qed.
Lemma islab_minus s : islab (mark_minus s) = islab s. Proof. destruct s; reflexivity. Qed.
Lemma islab_attach l o x : islab (mean_expr (attach l o x)) = false.
Proof. induction l; cbn [attach]; destruct (right_above _ _); cbn [mean_expr]; rewrite ?islab_not, ?islab_minus; auto. Qed.
Lemma islab_join r : forall l o, islab (mean_expr (join l o r)) = false.
Proof. induction r; intros; cbn [join]; try apply islab_attach. apply IHr2. Qed.
Lemma islab_prefix f e : (forall e, islab (mean_expr (f e)) = islab (mean_expr e)) -> islab (mean_expr (prefix f e)) = islab (mean_expr e).
Proof. intros H. destruct e; cbn [prefix]; auto. apply islab_join. Qed.
Lemma islab_path p : islab (mean_path p) = false. Proof. destruct p as [[]|]; reflexivity. Qed.
Lemma islab_regroup e : islab (mean_expr (regroup e)) = islab (mean_expr e).
Proof.
  induction e; cbn [regroup mean_expr]; rewrite ?islab_not, ?islab_minus, ?islab_path; try reflexivity.
  - rewrite islab_prefix by (intros; cbn [mean_expr]; apply islab_minus). assumption.
  - rewrite islab_prefix by (intros; reflexivity). assumption.
  - rewrite islab_prefix by (intros; cbn [mean_expr]; apply islab_not). assumption.
  - apply islab_join.
  - destruct c; reflexivity.
Qed.
Lemma islab_stmt s : islab (mean_stmt (regroup_stmt s)) = islab (mean_stmt s).
Proof.
  destruct s; try reflexivity. cbn [regroup_stmt mean_stmt]. pose proof (islab_regroup e) as H.
  destruct (split_assign (regroup e)) as [[p r]|] eqn:E; [|exact H].
  destruct (regroup e); try discriminate. rewrite <- H. reflexivity.
Qed.
Lemma mean_block_last b : match mean_block (regroup_block b), mean_block b with [], [] => True | x :: l, y :: m => islab (last (x :: l) SNil) = islab (last (y :: m) SNil) | _, _ => False end.
Proof.
  induction b; cbn [regroup_block mean_block]; [exact I|cbn; apply islab_stmt|assumption|].
  assert (G : forall l s, exists x r, l ++ [s] = x :: r /\ last (x :: r) SNil = s).
  { intros l s0. destruct l as [|x0 l]; [exists s0, []; auto|]. exists x0, (l ++ [s0]). split; [reflexivity|]. change (x0 :: l ++ [s0]) with ((x0 :: l) ++ [s0]). apply last_last. }
  destruct (G (mean_block (regroup_block b)) (mean_stmt (regroup_stmt s))) as (y & r & -> & ->).
  destruct (G (mean_block b) (mean_stmt s)) as (y' & r' & -> & ->). apply islab_stmt.
Qed.
Lemma colon_regroup x b : colon_ok x (mean_block (regroup_block b)) = colon_ok x (mean_block b).
Proof.
  pose proof (mean_block_last b) as H. unfold colon_ok. destruct x; [reflexivity|].
  destruct (mean_block (regroup_block b)), (mean_block b); try contradiction; [reflexivity|exact H].
Qed.
Lemma regroup_rules :
  (forall s, (forall l, loose_stmt l (regroup_stmt s) = loose_stmt l s) /\ while_stmt (regroup_stmt s) = while_stmt s /\ colons_stmt (regroup_stmt s) = colons_stmt s /\ clean_stmt (regroup_stmt s) = clean_stmt s /\ sure_stmt (regroup_stmt s) = sure_stmt s) /\
  (forall s, (forall l, loose_block l (regroup_block s) = loose_block l s) /\ while_block (regroup_block s) = while_block s /\ colons_block (regroup_block s) = colons_block s /\ clean_block (regroup_block s) = clean_block s /\ sure_block (regroup_block s) = sure_block s) /\
  (forall s, (forall l, loose_elseifs l (regroup_elseifs s) = loose_elseifs l s) /\ while_elseifs (regroup_elseifs s) = while_elseifs s /\ colons_elseifs (regroup_elseifs s) = colons_elseifs s /\ clean_elseifs (regroup_elseifs s) = clean_elseifs s /\ sure_elseifs (regroup_elseifs s) = sure_elseifs s) /\
  (forall s, (forall l, loose_else l (regroup_else s) = loose_else l s) /\ while_else (regroup_else s) = while_else s /\ colons_else (regroup_else s) = colons_else s /\ clean_else (regroup_else s) = clean_else s /\ sure_else (regroup_else s) = sure_else s).
Proof.
  apply stmt_all; intros; cbn [regroup_stmt regroup_block regroup_elseifs regroup_else];
  try (destruct (split_assign (regroup e)) as [[? ?]|]);
  cbn [while_stmt while_block while_elseifs while_else loose_stmt loose_block loose_elseifs loose_else colons_stmt colons_block colons_elseifs colons_else
    clean_stmt clean_block clean_elseifs clean_else sure_stmt sure_block sure_elseifs sure_else];
  repeat match goal with H : _ /\ _ |- _ => destruct H end; repeat split; intros; unfold sure_sep; rewrite ?colon_regroup;
  repeat match goal with H : _ = _ |- _ => rewrite H | H : forall l : bool, _ = _ |- _ => rewrite H end; try reflexivity; try assumption.
  - destruct b; try reflexivity; assumption.
  - destruct b; try reflexivity; f_equal; assumption.
Qed.
Lemma regroup_each (P Q : cfunc -> bool) (P' Q' : block -> bool) p : (forall f, P (regroup_func f) = Q f) -> (forall b, P' (regroup_block b) = Q' b) ->
  each_body P P' (regroup_program p) = each_body Q Q' p.
Proof.
  intros H1 H2. unfold each_body, regroup_program. cbn [pr_items pr_body]. rewrite H2, regroup_funcs, forallb_map. f_equal. apply forallb_ext, H1.
Qed.
Lemma regroup_while_funcs l : while_funcs (map regroup_func l) = while_funcs l.
Proof. induction l as [|f l IH]; [reflexivity|]. cbn [map while_funcs]. rewrite IH. unfold regroup_func at 1. cbn [cf_body]. rewrite (proj1 (proj2 (proj1 (proj2 regroup_rules) _))). reflexivity. Qed.
Lemma regroup_loose_funcs l : forall w, loose_funcs w (map regroup_func l) = loose_funcs w l.
Proof.
  induction l as [|f l IH]; intros w; [reflexivity|]. cbn [map loose_funcs]. rewrite IH. unfold regroup_func at 1 2. cbn [cf_body].
  destruct (proj1 (proj2 regroup_rules) (cf_body f)) as (R1 & R2 & _). rewrite R1, R2. reflexivity.
Qed.
Theorem regroup_loose p : loose_ok (regroup_program p) = loose_ok p.
Proof.
  unfold loose_ok, regroup_program. cbn [pr_items pr_body]. rewrite regroup_funcs, regroup_loose_funcs, regroup_while_funcs.
  destruct (proj1 (proj2 regroup_rules) (pr_body p)) as (R1 & _). rewrite R1. reflexivity.
Qed.
Theorem regroup_sure p : sure_ok (regroup_program p) = sure_ok p.
Proof. apply regroup_each; intros; apply regroup_rules. Qed.
Theorem regroup_colons p : colons_ok (regroup_program p) = colons_ok p.
Proof. apply regroup_each; intros; apply regroup_rules. Qed.
Theorem regroup_clean p : clean (regroup_program p) = clean p.
Proof. apply regroup_each; intros; apply regroup_rules. Qed.
Lemma regroup_gvars l : item_gvars (regroup_items l) = item_gvars l.
Proof. induction l as [|l IH i]; [reflexivity|]. cbn [regroup_items item_gvars]. destruct i; rewrite IH; reflexivity. Qed.
Theorem regroup_vars p : vars_once p -> vars_once (regroup_program p).
Proof.
  unfold vars_once, regroup_program. cbn [pr_items]. rewrite regroup_funcs, regroup_gvars. intros [H1 H2]. split; [|exact H2].
  rewrite Forall_map. exact H1.
Qed.
Theorem regroup_legal p : legal p -> legal (regroup_program p).
Proof.
  intros (H1 & H2 & H3 & H4 & H5 & H6). unfold legal. rewrite regroup_loose, regroup_sure.
  rewrite <- throws_program, <- returns_program, <- layout_program, regroup_program_toks, throws_program, returns_program, layout_program.
  auto 10 using regroup_vars.
Qed.
