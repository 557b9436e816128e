(** The rule of Declared.v is the rule of Syntax.v. *)
From Verif Require Import Bytes Float64 GoTime Ast Lexer LexFacts Tok Declared Syntax Rules RulesFacts.

Fixpoint addable (ls l : list bytes) : bool :=
  match l with [] => true | n :: l => negb (seen n ls) && addable (n :: ls) l end.
Lemma seen_in n l : seen n l = true <-> In n l.
Proof.
  unfold seen. rewrite existsb_exists. split; [intros (x & H & E); apply beqb_eq in E; subst; exact H|]. intros H. exists n. split; [exact H|]. apply beqb_eq. reflexivity.
Qed.
Lemma addable_app l : forall m ls, addable ls (l ++ m) = addable ls l && addable (rev l ++ ls) m.
Proof. induction l as [|n l IH]; intros m ls; [reflexivity|]. cbn [app addable rev]. rewrite IH, <- andb_assoc, <- app_assoc. reflexivity. Qed.
Lemma addable_nodup l : forall ls, addable ls l = true <-> (NoDup l /\ forall x, In x l -> ~ In x ls).
Proof.
  induction l as [|n l IH]; intros ls; cbn [addable].
  - split; [intros _; split; [constructor|intros x []]|reflexivity].
  - rewrite andb_true_iff, negb_true_iff, <- not_true_iff_false, seen_in, IH. split.
    + intros (H1 & H2 & H3). split; [constructor; [intros H; apply (H3 n H); left; reflexivity|exact H2]|].
      intros x [<-|Hx]; [exact H1|]. intros H. apply (H3 x Hx). right. exact H.
    + intros (H1 & H2). inversion H1; subst. split; [apply H2; left; reflexivity|]. split; [assumption|].
      intros x Hx [<-|H]; [contradiction|]. apply (H2 x); [right; exact Hx|exact H].
Qed.
Lemma addable_nil l : addable [] l = true <-> NoDup l.
Proof. rewrite addable_nodup. split; [tauto|]. intros H. split; [exact H|]. intros x _ []. Qed.

Lemma vskip l : forall p gs ls r, forallb l_other l = true -> vars_toks p false gs ls (l ++ r) = vars_toks p false gs ls r.
Proof.
  induction l as [|t l IH]; intros p gs ls r H; [reflexivity|]. cbn [forallb] in H. apply andb_true_iff in H as [H1 H2].
  unfold l_other in H1. apply negb_true_iff in H1. rewrite !orb_false_iff in H1. destruct H1 as [[[[K1 K2] K3] K4] K5].
  cbn [app vars_toks]. rewrite <- (IH p gs ls r H2). rewrite K1, K2, K3, K4, K5. destruct t; try (destruct (_ =? 59)); reflexivity.
Qed.
Lemma vone p gs ls t r : l_other t = true -> vars_toks p false gs ls (t :: r) = vars_toks p false gs ls r.
Proof. intros H. apply (vskip [t]). cbn [forallb]. rewrite H. reflexivity. Qed.
Lemma vnames_in n : forall gs ls r, vars_toks true true gs ls (toks_names n ++ r) = addable ls (name_list n) && vars_toks true true gs (rev (name_list n) ++ ls) r.
Proof.
  induction n as [n|l IH n]; intros gs ls r; cbn [toks_names name_list].
  - cbn [app vars_toks addable rev]. rewrite andb_true_r. reflexivity.
  - rewrite <- app_assoc, IH, addable_app, rev_app_distr, <- andb_assoc. f_equal. cbn [app addable rev]. rewrite andb_true_r. reflexivity.
Qed.
Lemma vnames_out n : forall gs ls r, vars_toks false true gs ls (toks_names n ++ r) = addable gs (name_list n) && vars_toks false true (rev (name_list n) ++ gs) ls r.
Proof.
  induction n as [n|l IH n]; intros gs ls r; cbn [toks_names name_list].
  - cbn [app vars_toks addable rev]. rewrite andb_true_r. reflexivity.
  - rewrite <- app_assoc, IH, addable_app, rev_app_distr, <- andb_assoc. f_equal. cbn [app addable rev]. rewrite andb_true_r. reflexivity.
Qed.
Lemma vvars v : forall gs ls r, vars_toks true false gs ls (toks_vars v ++ r) = addable ls (mean_vars v) && vars_toks true false gs (rev (mean_vars v) ++ ls) r.
Proof.
  induction v as [|v IH l]; intros gs ls r; [reflexivity|]. cbn [toks_vars mean_vars]. rewrite <- app_assoc, IH, addable_app, rev_app_distr, <- andb_assoc, <- app_assoc. f_equal.
  change (vars_toks true false gs ?x ((K tVar :: ?y) ++ r)) with (vars_toks true true gs x (y ++ r)). rewrite <- app_assoc, vnames_in. reflexivity.
Qed.
Lemma vitems l : forall r, vars_toks false false [] [] (toks_items l ++ r) =
  forallb (fun f => addable [] (mean_vars (cf_vars f))) (item_funcs l) && addable [] (map gv_name (item_gvars l)) && vars_toks false false (rev (map gv_name (item_gvars l))) [] r.
Proof.
  induction l as [|l IH i]; intros r; [reflexivity|]. cbn [toks_items]. rewrite <- app_assoc, IH. destruct i as [d n x|f]; cbn [toks_item item_funcs item_gvars].
  - rewrite map_app, addable_app, rev_app_distr, !app_nil_r. rewrite <- !andb_assoc. f_equal. f_equal. norm2. rewrite vskip by ls.
    change (vars_toks false false ?g ?x (K tVar :: ?y)) with (vars_toks false true g x y). rewrite vnames_out.
    unfold mean_gvars. rewrite map_map. cbn [gv_name]. rewrite map_id. f_equal. destruct x; reflexivity.
  - rewrite forallb_app. cbn [forallb]. rewrite andb_true_r, <- !andb_assoc. f_equal. rewrite (andb_comm (addable _ (mean_vars _))), <- andb_assoc. f_equal.
    norm2. rewrite vskip by ls. set (g := rev _).
    assert (G : forall b, vars_toks true false g [] (KId (cf_name f) :: Pct "(" :: toks_params (cf_params f) ++ Pct ")" :: toks_export (cf_export f) ++ toks_vars (cf_vars f) ++ toks_block (cf_body f) ++ K (if b : bool then tEndFunction else tEndProcedure) :: r) =
      vars_toks false false g [] r && addable [] (mean_vars (cf_vars f))).
    { intros b. rewrite !vone by reflexivity. rewrite vskip by ls. rewrite vone by reflexivity. rewrite vskip by ls. rewrite vvars, vskip by ls. rewrite andb_comm. destruct b; reflexivity. }
    destruct (cf_function f); [exact (G true)|exact (G false)].
Qed.
Theorem vars_program p : vars_toks false false [] [] (toks_program p) = true <-> vars_once p.
Proof.
  unfold toks_program, vars_once. rewrite vitems, <- (app_nil_r (toks_block _)), vskip by ls. cbn [vars_toks]. rewrite andb_true_r, andb_true_iff, addable_nil, Forall_forall, forallb_forall.
  split; intros [H1 H2]; (split; [|exact H2]); intros f Hf; apply addable_nil; auto.
Qed.

(** * Default values *)
From Verif Require Import Levels Regroup.
Definition signed (e : expr) : bool := match e with ENeg _ | EPos _ => true | _ => false end.
Fixpoint unsigned_param (p : cparam) : bool :=
  match p with Par _ | ParVal _ => true | ParDef p e => unsigned_param p && negb (signed e) end.
Fixpoint unsigned_params (l : cparams) : bool :=
  match l with PNil => true | POne p => unsigned_param p | PSnoc l p => unsigned_params l && unsigned_param p end.
Lemma unsigned_bound e : simple e = true -> signed e = false -> bound e = true.
Proof. destruct e; try discriminate; reflexivity. Qed.
Lemma unsigned_right n p : simple_param p = true -> unsigned_param p = true -> param_right n p = true.
Proof.
  destruct p as [| |p e]; try reflexivity. cbn [simple_param unsigned_param param_right]. rewrite !andb_true_iff, negb_true_iff.
  intros [_ H1] [_ H2]. destruct e; try discriminate; reflexivity.
Qed.
Lemma unsigned_param_bound p : simple_param p = true -> unsigned_param p = true -> bound_param p = true.
Proof.
  induction p as [| |p IH e]; try reflexivity. intros H1 H2. cbn [bound_param]. cbn [simple_param unsigned_param] in *. rewrite !andb_true_iff, negb_true_iff in *.
  destruct H1, H2. auto using unsigned_bound, unsigned_right.
Qed.
Lemma unsigned_params_bound l : simple_params l = true -> unsigned_params l = true -> bound_params l = true.
Proof.
  induction l as [|p|l IH p]; [reflexivity|apply unsigned_param_bound|]. cbn [simple_params unsigned_params bound_params]. rewrite !andb_true_iff.
  intros [H1 H2] [H3 H4]. auto using unsigned_param_bound.
Qed.
Lemma uskip l : forall r, forallb l_other l = true -> unsigned_toks false (l ++ r) = unsigned_toks false r.
Proof.
  induction l as [|t l IH]; intros r H; [reflexivity|]. cbn [forallb] in H. apply andb_true_iff in H as [H1 H2].
  unfold l_other in H1. apply negb_true_iff in H1. rewrite !orb_false_iff in H1. destruct H1 as [[[[K1 K2] _] _] _].
  cbn [app unsigned_toks]. rewrite K1, K2. cbn [orb andb]. destruct (_ =? 41); apply IH, H2.
Qed.
Lemma uparam p : forall r, simple_param p = true -> unsigned_toks true (toks_param p ++ r) = unsigned_param p && unsigned_toks true r.
Proof.
  induction p as [n|n|p IH e]; intros r; [reflexivity..|]. cbn [simple_param unsigned_param toks_param]. rewrite andb_true_iff. intros [H1 H2].
  rewrite <- app_assoc, IH by exact H1. rewrite <- andb_assoc. f_equal. destruct e; try discriminate; reflexivity.
Qed.
Lemma uparams l : forall r, simple_params l = true -> unsigned_toks true (toks_params l ++ r) = unsigned_params l && unsigned_toks true r.
Proof.
  induction l as [|p|l IH p]; intros r; [reflexivity|apply uparam|]. cbn [simple_params unsigned_params toks_params]. rewrite andb_true_iff. intros [H1 H2].
  rewrite <- app_assoc, IH by exact H1. rewrite <- andb_assoc. f_equal. cbn [app].
  change (unsigned_toks true (Pct "," :: ?x)) with (unsigned_toks true x). apply uparam, H2.
Qed.
Lemma uvars v : forall r, unsigned_toks false (toks_vars v ++ r) = unsigned_toks false r.
Proof.
  induction v as [|v IH l]; intros r; [reflexivity|]. cbn [toks_vars]. rewrite <- app_assoc, IH. cbn [app]. rewrite <- app_assoc.
  change (unsigned_toks false (K tVar :: ?x)) with (unsigned_toks false x). rewrite uskip by ls. reflexivity.
Qed.
Lemma uitems l : forall r, forallb (fun f => simple_params (cf_params f)) (item_funcs l) = true ->
  unsigned_toks false (toks_items l ++ r) = forallb (fun f => unsigned_params (cf_params f)) (item_funcs l) && unsigned_toks false r.
Proof.
  induction l as [|l IH i]; intros r H; [reflexivity|]. cbn [toks_items]. rewrite <- app_assoc. destruct i as [d n x|f]; cbn [toks_item item_funcs] in *.
  - rewrite IH by exact H. f_equal. norm2. rewrite uskip by ls. change (unsigned_toks false (K tVar :: ?x)) with (unsigned_toks false x).
    rewrite !uskip by ls. reflexivity.
  - rewrite forallb_app in *. apply andb_true_iff in H as [H1 H2]. cbn [forallb] in *. rewrite andb_true_r in *. rewrite IH by exact H1. rewrite <- andb_assoc. f_equal.
    norm2. rewrite uskip by ls.
    assert (G : forall b, unsigned_toks true (KId (cf_name f) :: Pct "(" :: toks_params (cf_params f) ++ Pct ")" :: toks_export (cf_export f) ++ toks_vars (cf_vars f) ++ toks_block (cf_body f) ++ K (if b : bool then tEndFunction else tEndProcedure) :: r) =
      unsigned_params (cf_params f) && unsigned_toks false r).
    { intros b. change (unsigned_toks true (KId ?x :: Pct "(" :: ?y)) with (unsigned_toks true y). rewrite uparams by exact H2. f_equal.
      change (unsigned_toks true (Pct ")" :: ?y)) with (unsigned_toks false y). rewrite uskip by ls. rewrite uvars, uskip by ls. destruct b; reflexivity. }
    destruct (cf_function f); [exact (G true)|exact (G false)].
Qed.
Theorem unsigned_program p : defaults_ok p = true -> unsigned_toks false (toks_program p) = true -> defaults_bound p = true.
Proof.
  unfold toks_program, defaults_ok, defaults_bound. intros Hd H. rewrite uitems in H by exact Hd. apply andb_true_iff in H as [H _].
  rewrite forallb_forall in *. intros f Hf. apply unsigned_params_bound; auto.
Qed.
