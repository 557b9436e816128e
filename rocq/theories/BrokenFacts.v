(** The rules of Broken.v on the tokens of a program. *)
From Verif Require Import Bytes Utf8 Float64 GoTime Ast Lexer LexFacts Parser Tok Declared Syntax Rules RulesFacts DeclaredFacts Broken Cause.
Open Scope Z_scope.

(** * Declared names *)
Lemma lskips l : forall p ls r, forallb l_other l = true -> locals p false ls (l ++ r) = locals p false ls r.
Proof.
  induction l as [|t l IH]; intros p ls r H; [reflexivity|]. cbn [forallb] in H. apply andb_true_iff in H as [H1 H2].
  unfold l_other in H1. apply negb_true_iff in H1. rewrite !orb_false_iff in H1. destruct H1 as [[[[K1 K2] K3] K4] K5].
  cbn [app locals]. rewrite <- (IH p ls r H2). rewrite K1, K2, K3, K4, K5, andb_false_r. destruct t; try (destruct (_ =? 59)); reflexivity.
Qed.
Lemma lsone p ls t r : l_other t = true -> locals p false ls (t :: r) = locals p false ls r.
Proof. intros H. apply (lskips [t]). cbn [forallb]. rewrite H. reflexivity. Qed.
Lemma lsnames n : forall p ls r, locals p true ls (toks_names n ++ r) = locals p true (if p then ls ++ name_list n else ls) r.
Proof.
  induction n as [n|l IH n]; intros p ls r; cbn [toks_names name_list].
  - cbn [app locals]. destruct p; reflexivity.
  - rewrite <- app_assoc, IH. cbn [app]. change (locals p true ?x (Pct "," :: KId n :: r)) with (locals p true (if p && true then x ++ [n] else x) r).
    destruct p; cbn [andb]; rewrite ?app_assoc; reflexivity.
Qed.
Lemma lsvars v : forall ls r, locals true false ls (toks_vars v ++ r) = locals true false (ls ++ mean_vars v) r.
Proof.
  induction v as [|v IH l]; intros ls r; [cbn; rewrite app_nil_r; reflexivity|]. cbn [toks_vars mean_vars]. rewrite <- app_assoc, IH, app_assoc.
  change (locals true false ?x ((K tVar :: ?y) ++ r)) with (locals true true x (y ++ r)). rewrite <- app_assoc, lsnames. reflexivity.
Qed.
Lemma lsitems l : forall r, locals false false [] (toks_items l ++ r) = map (fun f => mean_vars (cf_vars f)) (item_funcs l) ++ locals false false [] r.
Proof.
  induction l as [|l IH i]; intros r; [reflexivity|]. cbn [toks_items]. rewrite <- app_assoc, IH. destruct i as [d n x|f]; cbn [toks_item item_funcs].
  - rewrite ?app_nil_r. apply (f_equal (app _)). norm2. rewrite lskips by ls.
    change (locals false false ?x (K tVar :: ?y)) with (locals false true x y). rewrite lsnames. destruct x; reflexivity.
  - rewrite map_app, <- app_assoc. f_equal. cbn [map app]. norm2. rewrite lskips by ls.
    assert (G : forall b, locals true false [] (KId (cf_name f) :: Pct "(" :: toks_params (cf_params f) ++ Pct ")" :: toks_export (cf_export f) ++ toks_vars (cf_vars f) ++ toks_block (cf_body f) ++ K (if b : bool then tEndFunction else tEndProcedure) :: r) =
      mean_vars (cf_vars f) :: locals false false [] r).
    { intros b. rewrite !lsone by reflexivity. rewrite lskips by ls. rewrite lsone by reflexivity. rewrite lskips by ls. rewrite lsvars, lskips by ls. destruct b; reflexivity. }
    destruct (cf_function f); [exact (G true)|exact (G false)].
Qed.
Theorem locals_program p : locals false false [] (toks_program p) = map (fun f => mean_vars (cf_vars f)) (item_funcs (pr_items p)).
Proof. unfold toks_program. rewrite lsitems, <- (app_nil_r (toks_block _)), lskips by ls. apply app_nil_r. Qed.

Lemma gskips l : forall p r, forallb l_other l = true -> globals p false (l ++ r) = globals p false r.
Proof.
  induction l as [|t l IH]; intros p r H; [reflexivity|]. cbn [forallb] in H. apply andb_true_iff in H as [H1 H2].
  unfold l_other in H1. apply negb_true_iff in H1. rewrite !orb_false_iff in H1. destruct H1 as [[[[K1 K2] K3] K4] K5].
  cbn [app globals]. rewrite <- (IH p r H2). rewrite K1, K2, K3, K4, K5, andb_false_r. destruct t; try (destruct (_ =? 59)); reflexivity.
Qed.
Lemma gsone p t r : l_other t = true -> globals p false (t :: r) = globals p false r.
Proof. intros H. apply (gskips [t]). cbn [forallb]. rewrite H. reflexivity. Qed.
Lemma gsnames n : forall p r, globals p true (toks_names n ++ r) = (if p then [] else name_list n) ++ globals p true r.
Proof.
  induction n as [n|l IH n]; intros p r; cbn [toks_names name_list].
  - cbn [app globals]. destruct p; reflexivity.
  - rewrite <- app_assoc, IH. cbn [app]. change (globals p true (Pct "," :: KId n :: r)) with ((if negb p && true then [n] else []) ++ globals p true r).
    destruct p; cbn [andb negb]; rewrite <- ?app_assoc; reflexivity.
Qed.
Lemma gsvars v : forall r, globals true false (toks_vars v ++ r) = globals true false r.
Proof.
  induction v as [|v IH l]; intros r; [reflexivity|]. cbn [toks_vars]. rewrite <- app_assoc, IH.
  change (globals true false ((K tVar :: ?y) ++ r)) with (globals true true (y ++ r)). rewrite <- app_assoc, gsnames. reflexivity.
Qed.
Lemma gsitems l : forall r, globals false false (toks_items l ++ r) = map gv_name (item_gvars l) ++ globals false false r.
Proof.
  induction l as [|l IH i]; intros r; [reflexivity|]. cbn [toks_items]. rewrite <- app_assoc, IH. destruct i as [d n x|f]; cbn [toks_item item_gvars].
  - norm2. rewrite map_app. rewrite <- app_assoc. apply (f_equal (app _)). rewrite gskips by ls.
    change (globals false false (K tVar :: ?y)) with (globals false true y). rewrite gsnames.
    unfold mean_gvars. rewrite map_map. cbn [gv_name]. rewrite map_id. f_equal. destruct x; reflexivity.
  - rewrite ?app_nil_r. apply (f_equal (app _)). norm2. rewrite gskips by ls.
    assert (G : forall b, globals true false (KId (cf_name f) :: Pct "(" :: toks_params (cf_params f) ++ Pct ")" :: toks_export (cf_export f) ++ toks_vars (cf_vars f) ++ toks_block (cf_body f) ++ K (if b : bool then tEndFunction else tEndProcedure) :: r) =
      globals false false r).
    { intros b. rewrite !gsone by reflexivity. rewrite gskips by ls. rewrite gsone by reflexivity. rewrite gskips by ls. rewrite gsvars, gskips by ls. destruct b; reflexivity. }
    destruct (cf_function f); [exact (G true)|exact (G false)].
Qed.
Theorem globals_program p : globals false false (toks_program p) = map gv_name (item_gvars (pr_items p)).
Proof. unfold toks_program. rewrite gsitems, <- (app_nil_r (toks_block _)), gskips by ls. apply app_nil_r. Qed.

(** * Colons *)
Definition no_colon (t : tk) : bool := negb (kind_of t =? 58).
(** The state after tokens without a colon. *)
Fixpoint lab_after (lab val : bool) (l : list tk) : bool :=
  match l with [] => lab | t :: l => lab_after ((kind_of t =? tGoToLabel) && negb val) (before_value (kind_of t)) l end.
Fixpoint val_after (val : bool) (l : list tk) : bool :=
  match l with [] => val | t :: l => val_after (before_value (kind_of t)) l end.
Lemma colons_skip l : forall lab val r, forallb no_colon l = true -> colons_toks lab val (l ++ r) = colons_toks (lab_after lab val l) (val_after val l) r.
Proof.
  induction l as [|t l IH]; intros lab val r H; [reflexivity|]. cbn [forallb] in H. apply andb_true_iff in H as [H1 H2]. apply negb_true_iff in H1.
  cbn [app colons_toks lab_after val_after]. rewrite H1. apply IH, H2.
Qed.
Lemma lab_app l : forall lab val t r, lab_after lab val (l ++ t :: r) = lab_after ((kind_of t =? tGoToLabel) && negb (val_after val l)) (before_value (kind_of t)) r.
Proof. induction l as [|u l IH]; intros lab val t r; [reflexivity|]. apply IH. Qed.
Lemma expr_no_colon l : forallb expr_tok l = true -> forallb no_colon l = true.
Proof.
  rewrite !forallb_forall. intros H t Ht. specialize (H t Ht). unfold expr_tok in H. apply existsb_exists in H as (k & Hk & E). apply Z.eqb_eq in E.
  unfold no_colon. rewrite E. cbn in Hk. repeat (destruct Hk as [<- | Hk]; [reflexivity|]). destruct Hk.
Qed.
Definition Lab (l : list tk) : Prop := forall lab val, lab_after lab val l = false.
Lemma lab_last l k : k <> tGoToLabel -> Lab (l ++ [K k]).
Proof. intros H lab val. rewrite lab_app. cbn [lab_after kind_of]. destruct (Z.eqb_spec k tGoToLabel); [contradiction|reflexivity]. Qed.
Lemma lab_more t r l : Lab (t :: r) -> Lab (l ++ t :: r).
Proof. intros H lab val. specialize (H lab (val_after val l)). rewrite lab_app. exact H. Qed.
Lemma lab_cons t r : Lab r -> Lab (t :: r). Proof. intros H lab val. apply H. Qed.
Lemma labs :
  (forall e, (forall lab, lab_after lab true (toks_expr e) = false) /\ forall lab val, lab_after lab val (toks_expr e) = true -> exists n, e = ELabel n) /\
  (forall p, Lab (toks_path p)) /\ (forall i, Lab (toks_ident i)) /\ (forall c, Lab (toks_new c)) /\ (forall a : args, True) /\ (forall o : oexpr, True).
Proof.
  assert (Q : forall l, Lab l -> (forall lab, lab_after lab true l = false) /\ forall e : expr, forall lab val, lab_after lab val l = true -> exists n, e = ELabel n).
  { intros l H. split; [intros lab; apply H|]. intros e lab val. rewrite H. discriminate. }
  apply expr_all; intros; auto; cbn [toks_expr toks_path toks_ident toks_new];
    try solve [split; [reflexivity|intros lab val _; eauto]];
    try (match goal with |- _ /\ forall lab val, lab_after lab val ?l = true -> exists n, ?e = ELabel n =>
      assert (L : Lab l); [|destruct (Q l L) as [Q1 Q2]; exact (conj Q1 (Q2 e))] end);
    try (intros ? ?; reflexivity); try match goal with H : _ /\ _ |- _ => destruct H as [H _] end.
  - intros lab val. apply H.
  - intros lab val. apply H.
  - intros lab val. apply H.
  - intros lab val. rewrite lab_app. destruct o; apply H0.
  - rewrite app_comm_cons. apply lab_last. discriminate.
  - assumption.
  - apply lab_cons, lab_cons, lab_more, lab_cons, lab_more, lab_cons, lab_last. discriminate.
  - assumption.
  - apply lab_more, lab_cons. assumption.
  - rewrite !app_comm_cons. apply lab_last. discriminate.
  - apply lab_more, lab_cons. apply lab_last. discriminate.
  - rewrite !app_comm_cons. apply lab_last. discriminate.
  - rewrite !app_comm_cons. apply lab_last. discriminate.
  - rewrite !app_comm_cons. apply lab_last. discriminate.
Qed.

Lemma lab_expr e : forall lab val, lab_after lab val (toks_expr e) = true -> exists n, e = ELabel n.
Proof. apply labs. Qed.
Lemma lab_value e : forall lab, lab_after lab true (toks_expr e) = false.
Proof. apply labs. Qed.

Definition ends_labelled (b : block) : Prop := negb (Nat.eqb (length (mean_block b)) 0) && labelled (last (mean_block b) SNil) = true.
Definition CS s := forall lab val r, colons_toks lab val (toks_stmt s ++ r) = true ->
  strict_stmt s = true /\ exists lab' val', colons_toks lab' val' r = true /\ (lab' = true -> labelled (mean_stmt s) = true).
Definition CB b := forall val r, colons_toks false val (toks_block b ++ r) = true ->
  strict_block b = true /\ exists lab' val', colons_toks lab' val' r = true /\ (lab' = true -> ends_labelled b).
Definition CL l := forall lab val r, colons_toks lab val (toks_elseifs l ++ r) = true ->
  strict_elseifs l = true /\ exists lab' val', colons_toks lab' val' r = true.
Definition CC c := forall lab val r, colons_toks lab val (toks_else c ++ r) = true ->
  strict_else c = true /\ exists lab' val', colons_toks lab' val' r = true.
Lemma colons_other t lab val r : no_colon t = true -> colons_toks lab val (t :: r) = colons_toks ((kind_of t =? tGoToLabel) && negb val) (before_value (kind_of t)) r.
Proof. intros H. apply negb_true_iff in H. cbn [colons_toks]. rewrite H. reflexivity. Qed.
Ltac one H := rewrite colons_other in H by reflexivity.
Ltac exprs H := rewrite colons_skip in H by (apply expr_no_colon; (apply expr_kinds_ok || apply path_kinds_ok || apply loopexp_kinds_ok || apply oexpr_kinds_ok)).
Lemma colons_sep b x lab val r : (lab = true -> ends_labelled b) -> colons_toks lab val (toks_sep x :: r) = true ->
  strict_sep x (mean_block b) = true /\ exists val', colons_toks false val' r = true.
Proof.
  intros Hl H. destruct x; cbn [toks_sep] in H.
  - one H. split; [reflexivity|]. eexists. exact H.
  - change (lab && colons_toks false false r = true) in H. apply andb_true_iff in H as [H1 H2]. split; [exact (Hl H1)|]. eauto.
Qed.
Lemma labelled_snoc l s : labelled s = true -> negb (Nat.eqb (length (l ++ [s])) 0) && labelled (last (l ++ [s]) SNil) = true.
Proof. intros H. rewrite last_last, H, app_length. cbn [length]. rewrite Nat.add_comm. reflexivity. Qed.
Lemma strict_toks : (forall s, CS s) /\ (forall b, CB b) /\ (forall l, CL l) /\ (forall c, CC c).
Proof.
  apply stmt_all; unfold CS, CB, CL, CC; intros;
    cbn [toks_stmt toks_block toks_elseifs toks_else strict_stmt strict_block strict_elseifs strict_else mean_stmt] in *;
    match goal with H : colons_toks _ _ _ = true |- _ => rename H into X end; repeat (progress (rewrite <- ?app_assoc in X; cbn [app] in X)).
  - exprs X. one X. exprs X. split; [reflexivity|]. eexists _, _. split; [exact X|]. change (before_value (kind_of (K tEQUAL))) with true. rewrite lab_value. discriminate.
  - exprs X. split; [reflexivity|]. eexists _, _. split; [exact X|]. intros L. apply lab_expr in L as (n & ->). reflexivity.
  - one X. exprs X. one X. cbn [kind_of Z.eqb Pos.eqb andb] in X.
    apply H in X as (S1 & lab1 & val1 & X & _). apply H0 in X as (S2 & lab2 & val2 & X). apply H1 in X as (S3 & lab3 & val3 & X). one X.
    rewrite S1, S2, S3. split; [reflexivity|]. eexists _, _. split; [exact X|discriminate].
  - do 4 one X. exprs X. one X. apply H in X as (S1 & lab1 & val1 & X & _). one X.
    rewrite S1. split; [reflexivity|]. eexists _, _. split; [exact X|discriminate].
  - one X. exprs X. one X. exprs X. one X. apply H in X as (S1 & lab1 & val1 & X & _). one X.
    rewrite S1. split; [reflexivity|]. eexists _, _. split; [exact X|discriminate].
  - one X. exprs X. one X. apply H in X as (S1 & lab1 & val1 & X & _). one X.
    rewrite S1. split; [reflexivity|]. eexists _, _. split; [exact X|discriminate].
  - one X. apply H in X as (S1 & lab1 & val1 & X & _). one X. apply H0 in X as (S2 & lab2 & val2 & X & _). one X.
    rewrite S1, S2. split; [reflexivity|]. eexists _, _. split; [exact X|discriminate].
  - one X. split; [reflexivity|]. eexists _, _. split; [exact X|discriminate].
  - one X. split; [reflexivity|]. eexists _, _. split; [exact X|discriminate].
  - one X. exprs X. split; [reflexivity|]. eexists _, _. split; [exact X|]. destruct o; cbn [toks_oexpr]; [discriminate|]. change (before_value (kind_of (K tThrow))) with true. rewrite lab_value. discriminate.
  - one X. exprs X. split; [reflexivity|]. eexists _, _. split; [exact X|]. destruct o; cbn [toks_oexpr]; [discriminate|]. change (before_value (kind_of (K tReturn))) with true. rewrite lab_value. discriminate.
  - split; [reflexivity|]. eexists _, _. split; [exact X|discriminate].
  - apply H in X as (S1 & lab1 & val1 & X & L). split; [exact S1|]. eexists _, _. split; [exact X|]. intros E. unfold ends_labelled. cbn [mean_block]. apply (labelled_snoc []), L, E.
  - apply H in X as (S1 & lab1 & val1 & X & L). apply (colons_sep _ _ _ _ _ L) in X as (S2 & val2 & X). rewrite S1, S2. split; [reflexivity|]. eexists _, _. split; [exact X|discriminate].
  - apply H in X as (S1 & lab1 & val1 & X & L). apply (colons_sep _ _ _ _ _ L) in X as (S2 & val2 & X). apply H0 in X as (S3 & lab3 & val3 & X & L3).
    rewrite S1, S2, S3. split; [reflexivity|]. eexists _, _. split; [exact X|]. intros E. unfold ends_labelled. cbn [mean_block]. apply labelled_snoc, L3, E.
  - split; [reflexivity|]. eauto.
  - one X. exprs X. one X. apply H in X as (S1 & lab1 & val1 & X & _). apply H0 in X as (S2 & lab2 & val2 & X). rewrite S1, S2. split; [reflexivity|]. eauto.
  - split; [reflexivity|]. eauto.
  - one X. apply H in X as (S1 & lab1 & val1 & X & _). rewrite S1. split; [reflexivity|]. eauto.
Qed.
Lemma colons_block_toks b : CB b. Proof. apply strict_toks. Qed.
Lemma names_no_colon n : forallb no_colon (toks_names n) = true.
Proof. induction n as [n|l IH n]; [reflexivity|]. cbn [toks_names]. rewrite forallb_app, IH. reflexivity. Qed.
Lemma vars_no_colon v : forallb no_colon (toks_vars v) = true.
Proof. induction v as [|v IH l]; [reflexivity|]. cbn [toks_vars]. rewrite forallb_app, IH. cbn [forallb]. rewrite forallb_app, names_no_colon. reflexivity. Qed.
Lemma param_no_colon p : forallb no_colon (toks_param p) = true.
Proof. induction p as [n|n|p IH e]; try reflexivity. cbn [toks_param]. rewrite forallb_app, IH. cbn [forallb]. rewrite expr_no_colon by apply expr_kinds_ok. reflexivity. Qed.
Lemma params_no_colon l : forallb no_colon (toks_params l) = true.
Proof. induction l as [|p|l IH p]; [reflexivity|apply param_no_colon|]. cbn [toks_params]. rewrite forallb_app, IH. cbn [forallb]. rewrite param_no_colon. reflexivity. Qed.
Lemma lab_vars v : forall val, lab_after false val (toks_vars v) = false.
Proof. destruct v as [|v l]; intros val; [reflexivity|]. cbn [toks_vars]. apply (lab_more (K tVar)). rewrite app_comm_cons. apply lab_last. discriminate. Qed.
Lemma colons_items l : forall val r, colons_toks false val (toks_items l ++ r) = true ->
  forallb (fun f => strict_block (cf_body f)) (item_funcs l) = true /\ exists val', colons_toks false val' r = true.
Proof.
  induction l as [|l IH i]; intros val r X; [eauto|]. cbn [toks_items] in X. rewrite <- app_assoc in X. apply IH in X as (S & val' & X).
  destruct i as [d n x|f]; cbn [toks_item item_funcs] in *.
  - rewrite ?app_nil_r. split; [exact S|]. revert X. norm2. intros X.
    assert (D : forallb no_colon (toks_dir d) = true) by (destruct d; reflexivity). rewrite colons_skip in X by exact D. one X.
    rewrite colons_skip in X by apply names_no_colon. 
    assert (Q : forallb no_colon (toks_export x) = true) by (destruct x; reflexivity). rewrite colons_skip in X by exact Q. one X. eauto.
  - rewrite forallb_app. cbn [forallb]. rewrite S. revert X. norm2. intros X.
    assert (D : forallb no_colon (toks_dir (cf_dir f)) = true) by (destruct (cf_dir f); reflexivity). rewrite colons_skip in X by exact D.
    assert (Q : forallb no_colon (toks_export (cf_export f)) = true) by (destruct (cf_export f); reflexivity).
    assert (G : forall k (b : bool) lab val, no_colon (K k) = true -> colons_toks lab val (K k :: KId (cf_name f) :: Pct "(" :: toks_params (cf_params f) ++ Pct ")" :: toks_export (cf_export f) ++ toks_vars (cf_vars f) ++ toks_block (cf_body f) ++ K (if b then tEndFunction else tEndProcedure) :: r) = true ->
      strict_block (cf_body f) = true /\ exists val', colons_toks false val' r = true).
    { clear X. intros k b lab1 val1 Hk X. rewrite colons_other in X by exact Hk. do 2 one X. rewrite colons_skip in X by apply params_no_colon. one X.
      rewrite colons_skip in X by exact Q. rewrite colons_skip in X by apply vars_no_colon.
      assert (L : forall v, lab_after false v (toks_export (cf_export f)) = false) by (intros v; destruct (cf_export f); reflexivity).
      change ((kind_of (Pct ")") =? tGoToLabel) && ?y) with false in X. rewrite L, lab_vars in X.
      apply colons_block_toks in X as (S1 & lab2 & val2 & X & _). split; [exact S1|]. destruct b; one X; eauto. }
    destruct (cf_function f); [destruct (G tFunction true _ _ eq_refl X) as (S1 & val2 & X2)|destruct (G tProcedure false _ _ eq_refl X) as (S1 & val2 & X2)];
      rewrite S1; eauto.
Qed.
Theorem strict_program p : colons_toks false false (toks_program p) = true -> strict_ok p = true.
Proof.
  unfold toks_program, strict_ok, each_body. intros X. apply colons_items in X as (S & val & X). rewrite <- (app_nil_r (toks_block _)) in X.
  apply colons_block_toks in X as (S1 & _). rewrite S, S1. reflexivity.
Qed.
