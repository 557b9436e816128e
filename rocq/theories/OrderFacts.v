(** Proofs about source order. *)
From Verif Require Import Bytes Float64 GoTime Ast Lexer Tok Syntax Order StmtInd Rules RulesFacts.

Lemma turn_expr_all : (forall e, turn (mean_expr e) = mean_expr e) /\ (forall p, turn (mean_path p) = mean_path p) /\
  (forall i, turn (mean_ident i) = mean_ident i) /\ (forall c, turn (mean_new c) = mean_new c) /\ (forall l : args, True) /\ (forall o, turn (mean_oexpr o) = mean_oexpr o).
Proof.
  assert (M : forall s, turn s = s -> turn (mark_minus s) = mark_minus s) by (intros [] H; cbn in *; congruence).
  assert (N : forall s, turn s = s -> turn (mark_not s) = mark_not s) by (intros [] H; cbn in *; congruence).
  apply expr_all; intros; cbn [mean_expr mean_path mean_ident mean_new mean_oexpr]; auto.
Qed.
Lemma turn_slice l : option_map (map turn) (slice_of l) = slice_of (map turn l).
Proof. destruct l; reflexivity. Qed.
Lemma turn_all :
  (forall s, turn (src_stmt s) = mean_stmt s) /\ (forall b, map turn (src_block b) = mean_block b) /\
  (forall l, map turn (src_elseifs l) = mean_elseifs l) /\ (forall c, option_map (map turn) (src_else c) = mean_else c).
Proof.
  apply stmt_all; intros; cbn [src_stmt src_block src_elseifs src_else mean_stmt mean_block mean_elseifs mean_else turn option_map map];
    rewrite ?turn_slice, ?map_app; cbn [map]; try congruence; try reflexivity; apply turn_expr_all.
Qed.
Lemma turn_func f : turn (src_func f) = mean_func f.
Proof. unfold src_func, mean_func, mean_func_with. cbn [turn]. rewrite turn_slice, (proj1 (proj2 turn_all)). reflexivity. Qed.
Theorem turn_program p : turn_module (src_program p) = mean_program p.
Proof.
  unfold turn_module, src_program, mean_program. cbn [m_name m_gvars m_body]. rewrite turn_slice, map_app, map_map, (proj1 (proj2 turn_all)).
  do 2 f_equal. f_equal. apply map_ext, turn_func.
Qed.
(** Turning changes nothing where there is nothing to turn. *)
Lemma turn_one : forall s, one_elseif s = true -> turn s = s.
Proof.
  apply (stmt_parts_ind (fun s => one_elseif s = true -> turn s = s)). intros s IH H.
  assert (A : forall o, (forall x, In x (elems o) -> In x (parts s)) -> each_in one_elseif o = true -> option_map (map turn) o = o).
  { intros [l|] Hin Ho; [|reflexivity]. cbn [option_map]. f_equal. cbn [elems each_in] in *.
    rewrite <- (map_id l) at 2. apply map_ext_in. intros x Hx. apply IH; [apply Hin, Hx|].
    rewrite forallb_forall in Ho. apply Ho, Hx. }
  destruct s; try reflexivity; cbn [one_elseif turn parts] in *.
  - rewrite !andb_true_iff in H. destruct H as [[[H1 H2] H3] H4].
    rewrite !A; try assumption; try (intros x Hx; right; rewrite !in_app_iff; tauto).
    f_equal. pose proof (A eib) as A2. destruct eib as [[|x [|y l]]|]; try reflexivity; [|discriminate H4].
    specialize (A2 ltac:(intros z Hz; right; rewrite !in_app_iff; tauto) H2). cbn in *. injection A2 as A2. rewrite A2. reflexivity.
  - apply andb_true_iff in H as [H1 H2]. rewrite !A; try assumption; try reflexivity; intros x Hx; rewrite !in_app_iff; tauto.
  - rewrite A; try assumption; try reflexivity; intros x Hx; do 4 right; assumption.
  - rewrite A; try assumption; try reflexivity; intros x Hx; rewrite !in_app_iff; tauto.
Qed.
Lemma turn_one_elseif : forall s, one_elseif (turn s) = one_elseif s.
Proof.
  apply (stmt_parts_ind (fun s => one_elseif (turn s) = one_elseif s)). intros s IH.
  assert (A : forall o, (forall x, In x (elems o) -> In x (parts s)) -> each_in one_elseif (option_map (map turn) o) = each_in one_elseif o).
  { intros [l|] Hin; [|reflexivity]. cbn [option_map each_in elems] in *.
    induction l as [|x l IHl]; [reflexivity|]. cbn [map forallb]. rewrite IH by (apply Hin; left; reflexivity). f_equal.
    apply IHl. intros y Hy. apply Hin. right. exact Hy. }
  destruct s; try reflexivity; cbn [one_elseif turn parts] in *.
  - rewrite !A by (intros x Hx; right; rewrite !in_app_iff; tauto).
    rewrite <- (A eib) by (intros x Hx; right; rewrite !in_app_iff; tauto).
    destruct eib as [[|x [|y l]]|]; try reflexivity. cbn [option_map]. rewrite !andb_assoc || idtac.
    assert (E : match Some (rev (map turn (x :: y :: l))) with Some (_ :: _ :: _) => false | _ => true end = false).
    { cbn [map rev]. rewrite <- app_assoc. cbn [app]. destruct (rev (map turn l)) as [|? [|? ?]]; reflexivity. }
    rewrite E. rewrite !andb_false_r. reflexivity.
  - rewrite !A by (intros x Hx; rewrite !in_app_iff; tauto). reflexivity.
  - rewrite A by (intros x Hx; do 4 right; assumption). reflexivity.
  - rewrite A by (intros x Hx; rewrite !in_app_iff; tauto). reflexivity.
Qed.
Theorem one_elseif_src p : each_in one_elseif (m_body (mean_program p)) = true -> mean_program p = src_program p.
Proof.
  rewrite <- turn_program. unfold turn_module. cbn [m_body]. intros H. destruct (src_program p) as [n g [l|]]; [|reflexivity].
  cbn [m_name m_gvars m_body option_map each_in] in *. f_equal. f_equal. rewrite <- (map_id l) at 2. apply map_ext_in. intros x Hx.
  apply turn_one. rewrite <- turn_one_elseif. rewrite forallb_forall in H. apply H, in_map, Hx.
Qed.

(** * Names *)
Lemma names_mark_minus s : names_in (mark_minus s) = names_in s. Proof. destruct s; reflexivity. Qed.
Lemma names_mark_not s : names_in (mark_not s) = names_in s. Proof. destruct s; reflexivity. Qed.
Lemma names_app a b : names_toks (a ++ b) = names_toks a ++ names_toks b. Proof. apply flat_map_app. Qed.
Ltac names_norm := unfold names_toks; repeat (progress (rewrite ?flat_map_app; cbn [flat_map name_of app])); fold names_toks; rewrite ?app_nil_r.
Lemma names_exprs :
  (forall e, names_in (mean_expr e) = names_toks (toks_expr e)) /\ (forall e, names_in (mean_path e) = names_toks (toks_path e)) /\
  (forall e, names_in (mean_ident e) = names_toks (toks_ident e)) /\ (forall e, names_in (mean_new e) = names_toks (toks_new e)) /\
  (forall e, flat_map names_in (mean_args e) = names_toks (toks_args e)) /\ (forall e, names_in (mean_oexpr e) = names_toks (toks_oexpr e)).
Proof.
  apply expr_all; intros; cbn [mean_expr mean_path mean_ident mean_new mean_args mean_oexpr toks_expr toks_path toks_ident toks_new toks_args toks_oexpr names_in];
  rewrite ?names_mark_minus, ?names_mark_not; rewrite ?flat_map_app; cbn [flat_map];
  unfold names_toks in *; repeat (progress (rewrite ?flat_map_app; cbn [flat_map name_of Pct app nm])); rewrite ?app_nil_r;
  repeat match goal with H : _ = _ |- _ => rewrite H; clear H end; rewrite ?app_nil_r, ?app_assoc; try reflexivity.
Qed.
Lemma names_slice l : match slice_of l with Some l => flat_map names_in l | None => [] end = flat_map names_in l.
Proof. destruct l; reflexivity. Qed.
Lemma loopexp_names l : names_in (mean_loopexp l) = names_toks (toks_loopexp l).
Proof.
  destruct l as [p|c|c|x y z]; cbn [mean_loopexp toks_loopexp]; [apply names_exprs|apply names_exprs| |exact (proj1 names_exprs (ETern x y z))].
  unfold names_toks. cbn [flat_map name_of Pct app]. rewrite flat_map_app. cbn. rewrite app_nil_r. apply names_exprs.
Qed.
Lemma loopexp_nn l : mean_loopexp l <> SNil.
Proof. destruct l as [p|c|c|x y z]; cbn; try discriminate; try (destruct c; discriminate). destruct p as [[]|]; discriminate. Qed.
Lemma names_stmts :
  (forall s, names_in (src_stmt s) = names_toks (toks_stmt s)) /\ (forall b, flat_map names_in (src_block b) = names_toks (toks_block b)) /\
  (forall l, flat_map names_in (src_elseifs l) = names_toks (toks_elseifs l)) /\
  (forall c, match src_else c with Some l => flat_map names_in l | None => [] end = names_toks (toks_else c)).
Proof.
  pose proof (proj1 names_exprs) as NE. pose proof (proj1 (proj2 names_exprs)) as NP. pose proof (proj2 (proj2 (proj2 (proj2 (proj2 names_exprs))))) as NO.
  apply stmt_all; intros; cbn [src_stmt src_block src_elseifs src_else mean_stmt toks_stmt toks_block toks_elseifs toks_else];
  try (match goal with |- context [SLoop (SStr _) SNil (mean_loopexp ?x)] => pose proof (loopexp_nn x) end);
  cbn [names_in]; rewrite ?flat_map_app; cbn [flat_map names_in]; rewrite ?names_slice; cbn [flat_map];
  rewrite ?NE, ?NP, ?NO, ?loopexp_names;
  unfold names_toks in *; repeat (progress (rewrite ?flat_map_app; cbn [flat_map name_of Pct app])); rewrite ?app_nil_r;
  repeat match goal with H : flat_map _ _ = _ |- _ => rewrite H; clear H | H : _ _ = flat_map _ _ |- _ => rewrite H; clear H 
    | H : match _ with Some _ => _ | None => _ end = _ |- _ => rewrite H; clear H end; rewrite ?app_nil_r, ?app_assoc; try reflexivity.
  all: try (destruct x; cbn; rewrite ?app_nil_r; reflexivity).
  destruct (mean_loopexp l); try reflexivity. destruct H0; reflexivity.
Qed.
Lemma names_list_toks l : flat_map nm (name_list l) = names_toks (toks_names l).
Proof. induction l; cbn [name_list toks_names]; [reflexivity|]. rewrite flat_map_app, names_app, IHl. reflexivity. Qed.
Lemma names_vars v : flat_map nm (mean_vars v) = names_toks (toks_vars v).
Proof.
  induction v as [|v IH l]; [reflexivity|]. cbn [mean_vars toks_vars]. rewrite flat_map_app, names_app, IH. f_equal.
  change (names_toks (K tVar :: ?x)) with (names_toks x). rewrite names_app, names_list_toks. symmetry. apply app_nil_r.
Qed.
Lemma names_param p : one_default p = true -> nm (snd (fst (mean_param p))) ++ names_in (fst (fst (mean_param p))) = names_toks (toks_param p).
Proof.
  destruct p as [n|n|[n|n|] e]; intros H; try discriminate H; cbn; rewrite ?app_nil_r; try reflexivity; rewrite (proj1 names_exprs); reflexivity.
Qed.
Definition pnames (ps : list param) : list bytes := flat_map (fun p => nm (snd (fst p)) ++ names_in (fst (fst p))) ps.
Lemma names_params l : one_defaults l = true -> pnames (mean_params l) = names_toks (toks_params l).
Proof.
  induction l as [|p|l IH p]; intros H; cbn [mean_params toks_params one_defaults] in *; [reflexivity| |].
  - unfold pnames. cbn [flat_map]. rewrite app_nil_r. apply names_param, H.
  - apply andb_true_iff in H as [H1 H2]. unfold pnames in *. rewrite flat_map_app, names_app. f_equal; [apply IH, H1|].
    cbn [flat_map]. rewrite app_nil_r. apply names_param, H2.
Qed.
Lemma names_func f : one_defaults (cf_params f) = true -> names_in (src_func f) = names_toks (toks_func f).
Proof.
  intros H. unfold src_func, mean_func_with, toks_func. cbn [names_in]. rewrite names_slice, (proj1 (proj2 names_stmts)), names_vars.
  fold (pnames (mean_params (cf_params f))). rewrite (names_params _ H). rewrite !names_app.
  replace (names_toks (toks_dir (cf_dir f))) with (@nil bytes) by (destruct (cf_dir f); reflexivity). cbn [app].
  change (names_toks (K ?k :: KId ?n :: Pct "(" :: ?x)) with (nm n ++ names_toks x). f_equal. rewrite names_app. f_equal.
  change (names_toks (Pct ")" :: ?x)) with (names_toks x). rewrite !names_app.
  replace (names_toks (toks_export (cf_export f))) with (@nil bytes) by (destruct (cf_export f); reflexivity). cbn [app]. f_equal.
  destruct (cf_function f); symmetry; apply app_nil_r.
Qed.
Lemma names_gvars d l x : flat_map (fun g => nm (gv_name g)) (mean_gvars d l x) = names_toks (toks_names l).
Proof. unfold mean_gvars. rewrite <- names_list_toks. induction (name_list l); [reflexivity|]. cbn. rewrite IHl0. reflexivity. Qed.
Lemma names_items l : layout_ok l = true -> forallb (fun f => one_defaults (cf_params f)) (item_funcs l) = true ->
  flat_map (fun g => nm (gv_name g)) (item_gvars l) ++ flat_map names_in (map src_func (item_funcs l)) = names_toks (toks_items l).
Proof.
  induction l as [|l IH [d n x|f]]; intros H1 H2; [reflexivity|..]; cbn [layout_ok item_gvars item_funcs toks_items toks_item] in *.
  - apply andb_true_iff in H1 as [H0 H1]. rewrite names_app, <- IH by assumption. destruct (item_funcs l); [|discriminate H1]. cbn [map flat_map].
    rewrite !app_nil_r, flat_map_app, names_gvars. f_equal. rewrite names_app.
    replace (names_toks (toks_dir d)) with (@nil bytes) by (destruct d; reflexivity). cbn [app].
    change (names_toks (K tVar :: ?x)) with (names_toks x). rewrite !names_app.
    replace (names_toks (toks_export x)) with (@nil bytes) by (destruct x; reflexivity). symmetry. apply app_nil_r.
  - rewrite forallb_app in H2. apply andb_true_iff in H2 as [H2 H3]. cbn in H3. rewrite andb_true_r in H3.
    rewrite names_app, <- IH by assumption. rewrite map_app, flat_map_app. cbn [map flat_map]. rewrite app_nil_r, names_func by assumption.
    rewrite app_assoc. reflexivity.
Qed.
Theorem names_program p : layout_ok (pr_items p) = true -> single_defaults p = true -> names_module (src_program p) = names_toks (toks_program p).
Proof.
  intros H1 H2. unfold names_module, src_program, toks_program. cbn [m_gvars m_body]. rewrite names_app, <- names_items by assumption.
  assert (E : forall l, elems (slice_of l) = l) by (intros [|]; reflexivity). rewrite E, flat_map_app, (proj1 (proj2 names_stmts)).
  rewrite app_assoc. do 2 f_equal. destruct (item_gvars (pr_items p)); reflexivity.
Qed.
