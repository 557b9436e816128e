(** Trees with the same parts are printed the same way (C44). *)
From Coq Require Import Permutation.
From Verif Require Import Bytes Utf8 Float64 GoTime Ast StmtInd Parser Syntax Levels RulesFacts Printer PrintInv PrintToks Survive Strip.
Open Scope Z_scope.

(** * Expressions *)
Lemma concat_ext (f g : stmt -> bytes) l : (forall x, In x l -> f x = g x) -> concat (map f l) = concat (map g l).
Proof. intros H. f_equal. apply map_ext_in, H. Qed.
Lemma pr_deep s : forall a b, pr (ME (S a)) s = pr (ME (S b)) s.
Proof.
  induction s as [s IH] using stmt_parts_ind. intros a b. destruct s; try reflexivity; cbn [pr parts] in *.
  - rewrite (IH s1 ltac:(ins) (S a) (S b)), (IH s2 ltac:(ins) (S a) (S b)). reflexivity.
  - destruct ps as [l|]; [|reflexivity]. do 2 f_equal. apply concat_ext. intros x Hx. apply IH, Hx.
Qed.
Lemma pr_value n s : settled n true s = true -> pr MV s = pr (ME 0) s.
Proof.
  destruct s; try reflexivity. cbn [settled pr]. destruct fl as [mi pl no]. cbn [fl_not fl_minus andb]. destruct mi, no; try discriminate. reflexivity.
Qed.
Lemma settled_less v s : settled true v s = true -> settled false v s = true.
Proof.
  revert v. induction s as [s IH] using stmt_parts_ind. intros v. destruct s; try (intros H; exact H).
  - cbn [settled]. intros H. apply andb_true_iff in H as [H H2]. apply andb_true_iff in H as [H0 H1]. rewrite H1, H2. destruct (fl_minus fl), (fl_not fl); try reflexivity; discriminate H0.
  - destruct ps as [[|x [|]]|]; try (intros H; exact H). cbn [settled]. apply IH. left. reflexivity.
Qed.
Lemma settled_value n s : settled n true s = true -> settled n false s = true.
Proof.
  revert n. induction s as [s IH] using stmt_parts_ind. intros n. destruct s; try (intros H; exact H).
  - reflexivity.
  - destruct ps as [[|x [|]]|]; try (intros H; exact H). cbn [settled andb]. destruct (fl_not fl); cbn [negb]; [auto|]. apply IH. left. reflexivity.
Qed.
Definition fits (m : pmode) (n v : bool) (s : stmt) : Prop :=
  match m with
  | MV => n = false /\ v = true
  | ME O => n = false /\ v = false
  | ME (S _) => n = true /\ v = false
  | MC => n = false /\ v = true /\ pathish s = true
  end.
Lemma pr_strip s : forall m n v, built s -> settled n v s = true -> fits m n v s -> pr m s = pr m (strip s).
Proof.
  induction s as [s IH] using stmt_parts_ind. intros m n v Hb Hs Hf. apply built_inv in Hb as [Hlo Hb]. rewrite Forall_forall in Hb.
  assert (A : forall l, (forall x, In x l -> In x (parts s)) -> forallb (fun x => is_nil x || settled false true x) l = true -> map (pr MV) l = map (pr MV) (map strip l)).
  { intros l Hi Hl. rewrite map_map. apply map_ext_in. intros x Hx. rewrite forallb_forall in Hl. specialize (Hl x Hx). apply orb_true_iff in Hl as [Hl|Hl].
    - destruct x; try discriminate Hl. reflexivity.
    - apply (IH x (Hi x Hx) MV false true (Hb x (Hi x Hx)) Hl). split; reflexivity. }
  destruct s; try reflexivity; cbn [settled] in Hs; try discriminate Hs; cbn [parts] in *.
  - rewrite strip_method. cbn [pr]. destruct ps as [l|]; [|reflexivity]. cbn [strips]. rewrite <- A; auto.
  - rewrite strip_item. cbn [pr]. apply andb_true_iff in Hs as [S1 S2].
    rewrite (IH s1 ltac:(ins) (ME 0) false false) by (auto; try (apply Hb; ins); split; reflexivity).
    rewrite (IH s2 ltac:(ins) MV false true) by (auto; try (apply Hb; ins); split; reflexivity). reflexivity.
  - rewrite strip_chain. cbn [pr]. apply andb_true_iff in Hs as [S1 S2]. destruct Hlo as [Hu Hc].
    rewrite (IH s2 ltac:(ins) MC false true) by (auto; try (apply Hb; ins); repeat split; assumption).
    rewrite (IH s1 ltac:(ins) MV false true) by (auto; try (apply Hb; ins); repeat split; assumption).
    pose proof (strip_nil s2) as N. destruct s2; try discriminate Hc; cbn [strip] in *; reflexivity.
  - destruct ps as [l|].
    + rewrite strip_new_some. cbn [pr]. rewrite <- A; auto.
    + destruct m; reflexivity.
  - rewrite strip_tern. cbn [pr]. apply andb_true_iff in Hs as [Hs S3]. apply andb_true_iff in Hs as [S1 S2].
    rewrite (IH s1 ltac:(ins) (ME 0) false false) by (auto; try (apply Hb; ins); split; reflexivity).
    rewrite (IH s2 ltac:(ins) (ME 0) false false) by (auto; try (apply Hb; ins); split; reflexivity).
    rewrite (IH s3 ltac:(ins) (ME 0) false false) by (auto; try (apply Hb; ins); split; reflexivity). reflexivity.
  - apply andb_true_iff in Hs as [Hs S2]. apply andb_true_iff in Hs as [S0 S1].
    assert (E1 : forall k, pr (ME (S k)) s1 = pr (ME (S k)) (strip s1)) by (intros k; apply (IH s1 ltac:(ins) (ME (S k)) true false); auto; [apply Hb; ins|split; reflexivity]).
    assert (E2 : forall k, pr (ME (S k)) s2 = pr (ME (S k)) (strip s2)) by (intros k; apply (IH s2 ltac:(ins) (ME (S k)) true false); auto; [apply Hb; ins|split; reflexivity]).
    cbn [strip]. destruct (fl_not fl) eqn:En.
    + destruct n; [destruct (fl_minus fl); discriminate S0|]. destruct (fl_minus fl) eqn:Em; [discriminate S0|].
      destruct m as [|[|k]|]; cbn [fits] in Hf; [| |destruct Hf; discriminate|destruct Hf as (_ & _ & Hf); discriminate Hf];
        cbn [pr elems map concat not_mark fl_not fl_minus]; rewrite En, Em, E1, E2; cbn [Nat.ltb Nat.leb orb not_str fl_not fl_minus]; rewrite ?app_nil_r, <- ?app_assoc; cbn [app]; rewrite ?app_nil_r, <- ?app_assoc; reflexivity.
    + destruct m; cbn [pr fl_minus fl_not]; rewrite ?En, ?E1, ?E2; reflexivity.
  - destruct ps as [[|x [|]]|]; try discriminate Hs. cbn [strip elems] in *. destruct (fl_not fl) eqn:En.
    + rewrite andb_false_r in Hs.
      destruct m as [|[|k]|]; cbn [fits] in Hf; [| | |destruct Hf as (_ & _ & Hf); discriminate Hf]; destruct Hf as [-> ->];
        cbn [pr elems map concat not_mark fl_not fl_minus]; rewrite En.
      * rewrite (IH x ltac:(ins) (ME 0) false false) by (auto; try (apply Hb; ins); split; reflexivity). reflexivity.
      * rewrite (IH x ltac:(ins) (ME 0) false false) by (auto; try (apply Hb; ins); split; reflexivity). reflexivity.
      * rewrite (IH x ltac:(ins) (ME (S (S k))) true false) by (auto; try (apply Hb; ins); split; reflexivity). reflexivity.
    + cbn [negb] in Hs. rewrite andb_true_r in Hs. destruct (is_nil x) eqn:Ex; [destruct x; try discriminate Ex; discriminate Hs|].
      destruct m as [|[|k]|]; cbn [fits] in Hf; [| | |destruct Hf as (_ & _ & Hf); discriminate Hf]; destruct Hf as [-> ->];
        cbn [pr elems map concat]; rewrite En; cbn [app]; rewrite ?app_nil_r.
      * rewrite <- (pr_value _ _ Hs). apply (IH x ltac:(ins) MV false true); auto; [apply Hb; ins|split; reflexivity].
      * apply (IH x ltac:(ins) (ME 0) false false); auto; [apply Hb; ins|split; reflexivity].
      * rewrite (pr_deep x (S k) k). apply (IH x ltac:(ins) (ME (S k)) true false); auto; [apply Hb; ins|split; reflexivity].
Qed.

(** * What [settled] says is about the stripped tree *)
Lemma settled_strip0 s : forall n v, settled n v (strip0 s) = true -> settled n v s = true.
Proof.
  induction s as [s IH] using stmt_parts_ind. intros n v.
  assert (A : forall l, (forall x, In x l -> In x (parts s)) -> forallb (fun x => is_nil x || settled false true x) (map strip0 l) = true -> forallb (fun x => is_nil x || settled false true x) l = true).
  { intros l Hi. rewrite !forallb_forall. intros H x Hx. specialize (H (strip0 x) (in_map _ _ _ Hx)). rewrite strip0_nil in H. apply orb_true_iff in H as [H|H]; [rewrite H; reflexivity|]. rewrite (IH x (Hi x Hx) _ _ H). apply orb_true_r. }
  destruct s; try (intros H; exact H); cbn [parts] in *.
  - rewrite strip0_method. cbn [settled]. destruct ps as [l|]; [|reflexivity]. apply A. auto.
  - rewrite strip0_item. cbn [settled]. rewrite !andb_true_iff. intros [H1 H2]. rewrite !IH; auto; ins.
  - rewrite strip0_chain. cbn [settled]. rewrite !andb_true_iff. intros [H1 H2]. rewrite !IH; auto; ins.
  - destruct ps as [l|]; [|reflexivity]. rewrite strip0_new_some. cbn [settled]. apply A. auto.
  - rewrite strip0_tern. cbn [settled]. rewrite !andb_true_iff. intros [[H1 H2] H3]. rewrite !IH; auto; ins.
  - cbn [strip0 settled]. rewrite !andb_true_iff. intros [[H1 H2] H3]. rewrite !IH; auto; ins.
  - cbn [strip0]. destruct ps as [[|x [|]]|]; try (intros H; discriminate H). destruct (fl_not fl) eqn:E.
    + cbn [settled not_mark fl_not]. rewrite E, andb_false_r. apply IH. ins.
    + cbn [settled]. rewrite E. cbn [negb]. rewrite andb_true_r. destruct (is_nil x) eqn:Ex; [destruct x; try discriminate Ex; discriminate|]. cbn [orb]. destruct (jump x) eqn:Jx; [|apply IH; ins]. destruct x; discriminate.
Qed.
Lemma settled_strip s : forall n v, settled n v s = true -> settled n v (strip s) = true.
Proof.
  induction s as [s IH] using stmt_parts_ind. intros n v.
  assert (A : forall l, (forall x, In x l -> In x (parts s)) -> forallb (fun x => is_nil x || settled false true x) l = true -> forallb (fun x => is_nil x || settled false true x) (map strip l) = true).
  { intros l Hi. rewrite !forallb_forall. intros H x Hx. apply in_map_iff in Hx as (y & <- & Hy). specialize (H y Hy). rewrite strip_nil. apply orb_true_iff in H as [H|H]; [rewrite H; reflexivity|]. rewrite (IH y (Hi y Hy) _ _ H). apply orb_true_r. }
  destruct s; try (intros H; exact H); try (intros H; discriminate H); cbn [parts] in *.
  - rewrite strip_method. cbn [settled]. destruct ps as [l|]; [|reflexivity]. apply A. auto.
  - rewrite strip_item. cbn [settled]. rewrite !andb_true_iff. intros [H1 H2]. rewrite !IH; auto; ins.
  - rewrite strip_chain. cbn [settled]. rewrite !andb_true_iff. intros [H1 H2]. rewrite !IH; auto; ins.
  - destruct ps as [l|]; [|reflexivity]. rewrite strip_new_some. cbn [settled]. apply A. auto.
  - rewrite strip_tern. cbn [settled]. rewrite !andb_true_iff. intros [[H1 H2] H3]. rewrite !IH; auto; ins.
  - cbn [strip settled]. rewrite !andb_true_iff. intros [[H1 H2] H3]. destruct (fl_not fl) eqn:E.
    + cbn [settled not_mark fl_not fl_minus negb]. rewrite andb_false_r. cbn [negb andb]. rewrite !IH; auto; ins.
    + cbn [settled fl_not fl_minus]. rewrite andb_false_r. rewrite !IH; auto; ins.
  - cbn [strip]. destruct ps as [[|x [|]]|]; try (intros H; discriminate H). cbn [settled]. destruct (fl_not fl) eqn:E.
    + cbn [settled not_mark fl_not negb]. apply IH. ins.
    + cbn [negb]. rewrite andb_true_r. destruct (is_nil x) eqn:Ex; [|apply IH; ins]. destruct x; try discriminate Ex. cbn [settled]. discriminate.
Qed.
Lemma settled_back n v t s : strip0 t = strip s -> settled n v s = true -> settled n v t = true.
Proof. intros E H. apply settled_strip0. rewrite E. apply settled_strip, H. Qed.

(** The texts of two expressions with the same parts. *)
Lemma pr_same m n v t s : built t -> built s -> strip0 t = strip s -> settled n v s = true -> fits m n v s -> fits m n v t -> pr m t = pr m s.
Proof.
  intros Bt Bs E Hs Fs Ft. rewrite (pr_strip s m n v Bs Hs Fs), (pr_strip t m n v Bt (settled_back _ _ _ _ E Hs) Ft), (strip_same _ _ E). reflexivity.
Qed.
(** * Statements *)
Definition stmtish (s : stmt) : bool :=
  match s with SAssign _ _ _ | SIf _ _ _ _ | STry _ _ | SThrow _ | SReturn _ | SBreak | SContinue | SLoop _ _ _ _ _ | SFunc _ _ _ _ _ _ _ => true | _ => false end.
Lemma settled_kind n v s : settled n v s = true -> stmtish (strip s) = false /\ jump (strip s) = false.
Proof.
  revert n v. induction s as [s IH] using stmt_parts_ind. intros n v H. destruct s; try (split; reflexivity); try discriminate H; cbn [strip].
  - destruct ps; split; reflexivity.
  - destruct (fl_not fl); split; reflexivity.
  - destruct ps as [[|x [|]]|]; try discriminate H. destruct (fl_not fl) eqn:E; [split; reflexivity|]. destruct (is_nil x) eqn:N; [split; reflexivity|]. eapply IH; [left; reflexivity|exact H].
Qed.
Lemma marked_kind s : stmtish (strip0 (mark_not s)) = true \/ stmtish (strip0 (mark_minus s)) = true -> stmtish (strip0 s) = true.
Proof. destruct s; cbn [mark_not mark_minus]; intros [H|H]; try exact H; try discriminate H. cbn [strip0] in H. destruct ps as [[|x [|]]|]; discriminate H. Qed.
Lemma marked_jump s : jump (strip0 (mark_not s)) = true \/ jump (strip0 (mark_minus s)) = true -> (jump (strip0 s) = true -> jump s = true) -> strip0 (mark_not s) = mark_not s /\ strip0 (mark_minus s) = mark_minus s /\ jump s = true.
Proof.
  intros H H0. assert (J : jump (strip0 s) = true).
  { destruct s; cbn [mark_not mark_minus] in H; destruct H as [H|H]; try exact H; try discriminate H. cbn [strip0] in H. destruct ps as [[|x [|]]|]; discriminate H. }
  specialize (H0 J). destruct s; try discriminate H0; repeat split.
Qed.
Lemma mean_kinds :
  (forall e, stmtish (strip0 (mean_expr e)) = false /\ (jump (strip0 (mean_expr e)) = true -> jump (mean_expr e) = true)) /\
  (forall p, stmtish (strip0 (mean_path p)) = false /\ (jump (strip0 (mean_path p)) = true -> jump (mean_path p) = true)) /\
  (forall i, stmtish (strip0 (mean_ident i)) = false /\ (jump (strip0 (mean_ident i)) = true -> jump (mean_ident i) = true)) /\
  (forall c, stmtish (strip0 (mean_new c)) = false /\ (jump (strip0 (mean_new c)) = true -> jump (mean_new c) = true)) /\
  (forall l x, In x (mean_args l) -> stmtish (strip0 x) = false /\ (jump (strip0 x) = true -> jump x = true)) /\
  (forall o, stmtish (strip0 (mean_oexpr o)) = false /\ (jump (strip0 (mean_oexpr o)) = true -> jump (mean_oexpr o) = true)).
Proof.
  apply expr_all; intros; cbn [mean_expr mean_path mean_ident mean_new mean_args mean_oexpr] in *; try assumption; try (split; [reflexivity|intros X; exact X]).
  - destruct H as [H1 H2]. split.
    + destruct (stmtish (strip0 (mark_minus _))) eqn:E; [|reflexivity]. rewrite (marked_kind _ (or_intror E)) in H1. discriminate.
    + intros J. destruct (marked_jump _ (or_intror J) H2) as (_ & X & _). rewrite X in J. exact J.
  - destruct H as [H1 H2]. split.
    + destruct (stmtish (strip0 (mark_not _))) eqn:E; [|reflexivity]. rewrite (marked_kind _ (or_introl E)) in H1. discriminate.
    + intros J. destruct (marked_jump _ (or_introl J) H2) as (X & _ & _). rewrite X in J. exact J.
  - cbn [strip0 fl_not no_flags]. destruct (mean_args l) as [|x [|y k]]; try (split; [reflexivity|discriminate]).
    destruct (is_nil x || jump x) eqn:E; [split; [reflexivity|discriminate]|]. apply orb_false_iff in E as [_ E]. destruct (H x (or_introl eq_refl)) as [H1 H2]. split; [exact H1|].
    intros J. rewrite (H2 J) in E. discriminate.
  - destruct H0 as [<-|[]]. exact H.
  - apply in_app_iff in H1 as [H1|[<-|[]]]; auto.
Qed.
Lemma mean_kind e : stmtish (strip0 (mean_expr e)) = false. Proof. apply mean_kinds. Qed.
Lemma mean_jump e : jump (strip0 (mean_expr e)) = true -> strip0 (mean_expr e) = mean_expr e.
Proof. intros J. apply jump_strip0. apply (proj1 mean_kinds), J. Qed.

Lemma same_nil t s : strip0 t = strip s -> is_nil t = is_nil s.
Proof. intros E. rewrite <- strip0_nil, E. apply strip_nil. Qed.
Lemma pr_may t s : built t -> built s -> strip0 t = strip s -> may_settled s = true -> pr (ME 0) t = pr (ME 0) s.
Proof.
  intros Bt Bs E H. apply orb_true_iff in H as [H|H].
  - pose proof (same_nil _ _ E) as N. rewrite H in N. destruct s, t; try discriminate. reflexivity.
  - apply (pr_same _ false false); auto; split; reflexivity.
Qed.
Lemma pr_mv t s : built t -> built s -> strip0 t = strip s -> settled false true s = true -> pr MV t = pr MV s.
Proof. intros Bt Bs E H. apply (pr_same _ false true); auto; split; reflexivity. Qed.

Lemma chain_not_strip s : chain_not (strip s) = chain_not s.
Proof.
  induction s as [s IH] using stmt_parts_ind. destruct s; try reflexivity; cbn [strip].
  - destruct ps; reflexivity.
  - destruct (fl_not fl) eqn:E; reflexivity.
  - destruct ps as [[|x [|]]|]; try reflexivity. destruct (fl_not fl) eqn:E; [cbn [chain_not not_mark fl_not]; rewrite E; reflexivity|]. destruct (is_nil x) eqn:N; [reflexivity|]. cbn [chain_not]. rewrite E. apply IH. left. reflexivity.
Qed.
Lemma chain_not_strip0 s : chain_not (strip0 s) = chain_not s.
Proof.
  induction s as [s IH] using stmt_parts_ind. destruct s; try reflexivity; cbn [strip0].
  - destruct ps; reflexivity.
  - destruct ps as [[|x [|]]|]; try reflexivity. destruct (fl_not fl) eqn:E; [cbn [chain_not not_mark fl_not]; rewrite E; reflexivity|]. destruct (is_nil x || jump x) eqn:N; [reflexivity|]. cbn [chain_not]. rewrite E. apply IH. left. reflexivity.
Qed.
Lemma list_not_strip v s : settled true v s = true -> list_not (strip s) = list_not s.
Proof.
  revert v. induction s as [s IH] using stmt_parts_ind. intros v H. destruct s; try reflexivity; cbn [strip].
  - destruct ps; reflexivity.
  - destruct (fl_not fl) eqn:E; [|reflexivity]. cbn [settled] in H. rewrite E in H. discriminate.
  - destruct ps as [[|x [|]]|]; try reflexivity. destruct (fl_not fl) eqn:E; [cbn [list_not not_mark fl_not]; rewrite E; reflexivity|]. destruct (is_nil x) eqn:N; [reflexivity|]. cbn [list_not]. rewrite E. cbn [settled] in H. eapply IH; [left; reflexivity|exact H].
Qed.
Lemma list_not_strip0 s : list_not (strip0 s) = list_not s.
Proof.
  induction s as [s IH] using stmt_parts_ind. destruct s; try reflexivity; cbn [strip0].
  - destruct ps; reflexivity.
  - destruct ps as [[|x [|]]|]; try reflexivity. destruct (fl_not fl) eqn:E; [cbn [list_not not_mark fl_not]; rewrite E; reflexivity|]. destruct (is_nil x || jump x) eqn:N; [reflexivity|]. cbn [list_not]. rewrite E. apply IH. left. reflexivity.
Qed.

(** An expression as a statement. *)
Lemma item_expr c d s : settled false true s = true -> chain_not s = false ->
  printBodyItem c d s = (sp <~ spaces (margin c * Z.of_nat d); Some (sp ++ pr MV s ++ B ";")).
Proof.
  intros H N.
  destruct s; try discriminate H; cbn [printBodyItem]; (destruct (spaces _) as [sp|]; [|reflexivity]); cbn [obind]; try reflexivity.
  cbn [chain_not] in N. unfold printCallChainStatement. cbn [pr]. rewrite N. reflexivity.
Qed.
(** The parameter of ВызватьИсключение. *)
Lemma item_throw c d p : is_nil p = false -> settled true true p = true -> list_not p = false ->
  printBodyItem c d (SThrow p) = (sp <~ spaces (margin c * Z.of_nat d); Some (sp ++ B "ВызватьИсключение" ++ (B "(" ++ pr MV p ++ B ")") ++ B ";")).
Proof.
  intros Hn H N. cbn [printBodyItem]. destruct (spaces _) as [sp|]; [|reflexivity]. cbn [obind]. do 3 f_equal.
  assert (G : printParams (Some [p]) = pr MV p). { unfold printParams. cbn [elems map join]. reflexivity. }
  destruct p; try discriminate Hn; try (rewrite G; reflexivity). cbn [settled list_not] in H, N. destruct ps as [[|x [|]]|]; try discriminate H.
  apply orb_false_iff in N as [N1 N2]. rewrite N1 in H. cbn [negb andb] in H. unfold printParams. cbn [elems map join pr concat]. rewrite N1. cbn [app]. rewrite !app_nil_r.
  unfold printVarStatement. rewrite (pr_value _ _ H). reflexivity.
Qed.

Definition prints (t : stmt) : Prop := forall s, built t -> built s -> strip0 t = strip s -> settled_stmt s = true -> forall c d, printBodyItem c d t = printBodyItem c d s.
Lemma map_same (l k : list stmt) : map strip0 l = map strip k -> Forall2 (fun t s => strip0 t = strip s) l k.
Proof. revert k. induction l as [|x l IH]; intros [|y k] H; try discriminate; constructor; [injection H; auto|apply IH; injection H; auto]. Qed.
Lemma block_prints l k c d : (forall x, In x l -> prints x) -> Forall built l -> Forall built k -> map strip0 l = map strip k -> forallb settled_stmt k = true ->
  map (printBodyItem c d) l = map (printBodyItem c d) k.
Proof.
  intros P Bl Bk E H. apply map_same in E. revert P Bl Bk H. induction E as [|x y l k E _ IH]; intros P Bl Bk H; [reflexivity|]. cbn [map].
  inversion Bl; subst. inversion Bk; subst. cbn [forallb] in H. apply andb_true_iff in H as [Ha Hz]. rewrite (P x (or_introl eq_refl) y) by assumption.
  f_equal. apply IH; auto. intros z Hin. apply P. right. exact Hin.
Qed.
Lemma body_prints b b' c d : (forall x, In x (elems b) -> prints x) -> Forall built (elems b) -> Forall built (elems b') -> strips0 b = strips b' -> forallb settled_stmt (elems b') = true ->
  printBody c d b = printBody c d b'.
Proof.
  intros P B1 B2 E H. unfold printBody. assert (E' : map strip0 (elems b) = map strip (elems b')) by (destruct b, b'; try discriminate E; [injection E as E; exact E|reflexivity]).
  pose proof (block_prints _ _ c d P B1 B2 E' H) as X.
  replace (map (fun i => r <~ printBodyItem c d i; Some (newLine c 1 ++ r)) (elems b)) with (map (fun i => r <~ i; Some (newLine c 1 ++ r)) (map (printBodyItem c d) (elems b))) by (rewrite map_map; reflexivity).
  rewrite X, map_map. reflexivity.
Qed.
Lemma settled_block l : match l with Some l => forallb settled_stmt l | None => true end = forallb settled_stmt (elems l). Proof. destruct l; reflexivity. Qed.

(** The other statements. *)
Lemma stmt_of_kind s : settled_stmt s = true -> stmtish (strip s) = true -> stmtish s = true.
Proof.
  intros H K. destruct s; try reflexivity; try discriminate K; exfalso; cbn [settled_stmt] in H; apply andb_true_iff in H as [H _]; apply settled_kind in H as [H _]; congruence.
Qed.
Lemma built_at s x : built s -> In x (parts s) -> built x.
Proof. intros H Hi. apply built_inv in H as [_ H]. rewrite Forall_forall in H. auto. Qed.

Definition branch (c : conf) (d : nat) (sp : bytes) (i : stmt) : option bytes :=
  match i with
  | SIf e' tb' _ _ => r <~ printBody c (S d) tb'; Some (sp ++ B "ИначеЕсли " ++ printExpression e' 0 ++ B " Тогда " ++ r)
  | _ => None
  end.
Lemma settled_if e tb eib eb : settled_stmt (SIf e tb eib eb) = settled false false e && forallb settled_stmt (elems tb) && forallb settled_stmt (elems eib) && forallb settled_stmt (elems eb).
Proof. cbn [settled_stmt]. rewrite !settled_block. reflexivity. Qed.
Lemma may s : settled false false s = true -> may_settled s = true. Proof. intros H. unfold may_settled. rewrite H. apply orb_true_r. Qed.
Lemma branch_prints c d sp x y e b : x = SIf (mean_expr e) b None None -> (forall y, In y (elems b) -> prints y) ->
  built x -> built y -> strip0 x = strip y -> settled_stmt y = true -> branch c d sp x = branch c d sp y.
Proof.
  intros -> P Bt Bs E Hs. assert (K : stmtish y = true) by (apply stmt_of_kind; [exact Hs|rewrite <- E; reflexivity]).
  destruct y; try discriminate K; try discriminate E. rewrite strip0_ifs, strip_ifs in E. injection E as E1 E2 E3 E4. rewrite settled_if in Hs.
  apply andb_true_iff in Hs as [Hs _]. apply andb_true_iff in Hs as [Hs _]. apply andb_true_iff in Hs as [S1 S2]. cbn [branch].
  assert (In1 : forall z, In z (elems b) -> In z (parts (SIf (mean_expr e) b None None))) by (intros z Hz; cbn [parts elems]; cbn [parts]; ins).
  rewrite (body_prints b tb); [|exact P| | |exact E2|exact S2].
  - unfold printExpression. rewrite (pr_may (mean_expr e) y); [reflexivity|apply (built_at _ _ Bt); cbn [parts]; ins|apply (built_at _ _ Bs); cbn [parts]; ins|exact E1|apply may, S1].
  - apply Forall_forall. intros z Hz. apply (built_at _ _ Bt). auto.
  - apply Forall_forall. intros z Hz. apply (built_at _ _ Bs). cbn [parts]. ins.
Qed.
Lemma built_all s l : built s -> (forall x, In x l -> In x (parts s)) -> Forall built l.
Proof. intros H Hi. apply Forall_forall. intros x Hx. apply (built_at _ _ H), Hi, Hx. Qed.
Lemma loop_prints a1 a2 a3 a4 b1 : (forall x, In x (elems b1) -> prints x) -> prints (SLoop a1 a2 a3 a4 b1).
Proof.
  intros Hb s Bt Bs E Hs c d. assert (K : stmtish s = true) by (apply stmt_of_kind; [exact Hs|rewrite <- E; reflexivity]).
  destruct s as [| | | | | | | | | | | | | | | | | | | | |f t i w b| | |]; try discriminate K; try discriminate E.
  rewrite strip0_loops, strip_loops in E. injection E as E1 E2 E3 E4 E5. cbn [settled_stmt] in Hs. rewrite !settled_block in Hs.
  apply andb_true_iff in Hs as [Hs S5]. apply andb_true_iff in Hs as [Hs S4]. apply andb_true_iff in Hs as [Hs S3]. apply andb_true_iff in Hs as [S1 S2].
  rewrite !item_loop. rewrite (body_prints b1 b); [|exact Hb|apply (built_all _ _ Bt); intros; cbn [parts]; ins|apply (built_all _ _ Bs); intros; cbn [parts]; ins|exact E5|exact S5].
  unfold printExpression. pose proof (proj1 (built_inv _ Bt)) as L1. pose proof (proj1 (built_inv _ Bs)) as L2. cbn [local] in L1, L2.
  rewrite (same_nil _ _ E2), (same_nil _ _ E3), (same_nil _ _ E4).
  rewrite (pr_may a1 f), (pr_may a2 t), (pr_may a3 i), (pr_may a4 w); auto; try (apply (built_at _ _ Bt); cbn [parts]; ins); try (apply (built_at _ _ Bs); cbn [parts]; ins).
  destruct (is_nil i) eqn:Ei; [reflexivity|]. rewrite (same_nil _ _ E3), Ei in L1. destruct L1 as [L1|(n1 & -> & _)]; [discriminate|]. destruct L2 as [L2|(n2 & -> & _)]; [discriminate|].
  cbn [strip strip0] in E1. injection E1 as ->. reflexivity.
Qed.
Lemma stmt_prints :
  (forall st, prints (mean_stmt st)) /\ (forall b x, In x (mean_block b) -> prints x) /\
  (forall l x, In x (mean_elseifs l) -> exists e b, x = SIf (mean_expr e) b None None /\ forall y, In y (elems b) -> prints y) /\
  (forall c x, In x (elems (mean_else c)) -> prints x).
Proof.
  assert (SL : forall l : list stmt, elems (slice_of l) = l) by (intros [|]; reflexivity).
  apply stmt_all.
  - (* CAssign *)
    intros p e s Bt Bs E Hs c d. cbn [mean_stmt] in *. assert (K : stmtish s = true) by (apply stmt_of_kind; [exact Hs|rewrite <- E; reflexivity]).
    destruct s; try discriminate K; try discriminate E. rewrite strip0_assign, strip_assign in E. injection E as E1 E2 E3. destruct ps as [[|x [|]]|]; try discriminate E2. injection E2 as E2.
    cbn [settled_stmt] in Hs. apply andb_true_iff in Hs as [S1 S2]. cbn [printBodyItem]. destruct (spaces _); [|reflexivity]. cbn [obind]. unfold printVarStatement. cbn [pr map].
    rewrite <- E3. rewrite (pr_mv _ _ (built_at _ _ Bt ltac:(cbn [parts]; ins)) (built_at _ _ Bs ltac:(cbn [parts]; ins)) E1 S1).
    rewrite (pr_may (mean_expr e) x); [reflexivity|apply (built_at _ _ Bt); cbn [parts]; ins|apply (built_at _ _ Bs); cbn [parts]; ins|exact E2|apply may, S2].
  - (* CExpr *)
    intros e s Bt Bs E Hs c d. cbn [mean_stmt] in *. pose proof (mean_kind e) as K. rewrite E in K.
    assert (G : (jump s = true /\ strip s = s) \/ (settled false true s = true /\ chain_not s = false)).
    { destruct s; try discriminate K; try (left; split; reflexivity); right; cbn [settled_stmt] in Hs; apply andb_true_iff in Hs as [H1 H2]; apply negb_true_iff in H2; auto. }
    destruct G as [[J F]|[H1 H2]].
    + rewrite F in E. assert (mean_expr e = s); [|congruence]. rewrite <- E. symmetry. apply mean_jump. rewrite E. exact J.
    + rewrite (item_expr c d s H1 H2), item_expr; [|exact (settled_back _ _ _ _ E H1)|rewrite <- chain_not_strip0, E, chain_not_strip; exact H2].
      rewrite (pr_mv _ _ Bt Bs E H1). reflexivity.
  - (* CIf *)
    intros e b Hb l Hl k Hk s Bt Bs E Hs c d. cbn [mean_stmt] in *. assert (K : stmtish s = true) by (apply stmt_of_kind; [exact Hs|rewrite <- E; reflexivity]).
    destruct s as [| | | | | | | | | | | | | | |e' tb eib eb| | | | | | | | |]; try discriminate K; try discriminate E.
    rewrite strip0_ifs, strip_ifs in E. injection E as E1 E2 E3 E4. cbn [settled_stmt] in Hs. rewrite !settled_block in Hs.
    apply andb_true_iff in Hs as [Hs S4]. apply andb_true_iff in Hs as [Hs S3]. apply andb_true_iff in Hs as [S1 S2].
    rewrite !item_if. destruct (spaces _) as [sp|]; [|reflexivity]. cbn [obind].
    rewrite (body_prints (slice_of (mean_block b)) tb);
      [|rewrite SL; exact Hb|apply (built_all _ _ Bt); intros; cbn [parts]; ins|apply (built_all _ _ Bs); intros; cbn [parts]; ins|exact E2|exact S2].
    destruct (printBody c (S d) tb) as [r|]; [|reflexivity]. cbn [obind].
    assert (Ee : map (branch c d sp) (elems (Some (rev (mean_elseifs l)))) = map (branch c d sp) (elems eib)).
    { destruct eib as [eib|]; [|discriminate E3]. cbn [elems] in *. injection E3 as E3.
      assert (Hl' : forall x, In x (rev (mean_elseifs l)) -> exists e b, x = SIf (mean_expr e) b None None /\ forall y, In y (elems b) -> prints y) by (intros x Hx; apply Hl, in_rev, Hx).
      assert (Bl : Forall built (rev (mean_elseifs l))) by (apply (built_all _ _ Bt); intros; cbn [parts]; ins).
      assert (Be : Forall built eib) by (apply (built_all _ _ Bs); intros; cbn [parts]; ins).
      revert Hl' Bl Be S3. clear - E3. apply map_same in E3. induction E3 as [|x y k m E _ IH]; intros Hl Bl Be S3; [reflexivity|].
      inversion Bl; subst. inversion Be; subst. cbn [forallb] in S3. apply andb_true_iff in S3 as [S3 S4]. destruct (Hl x (or_introl eq_refl)) as (e0 & b0 & F1 & F2). cbn [map].
      rewrite (branch_prints c d sp x y e0 b0) by assumption. f_equal. apply IH; auto. intros z Hz. apply Hl. right. exact Hz. }
    match goal with |- context [oconcat (map ?f (elems (Some (rev ?x))))] => change (map f (elems (Some (rev x)))) with (map (branch c d sp) (elems (Some (rev x)))) end. rewrite Ee. destruct (oconcat _) as [r2|]; [|reflexivity]. cbn [obind].
    assert (Ex : printBody c (S d) (mean_else k) = printBody c (S d) eb).
    { apply body_prints; [exact Hk|apply (built_all _ _ Bt); intros; cbn [parts]; ins|apply (built_all _ _ Bs); intros; cbn [parts]; ins|exact E4|exact S4]. }
    rewrite Ex. unfold printExpression. rewrite (pr_may (mean_expr e) e'); [|apply (built_at _ _ Bt); cbn [parts]; ins|apply (built_at _ _ Bs); cbn [parts]; ins|exact E1|apply may, S1].
    destruct (mean_else k), eb; try discriminate E4; reflexivity.
  - (* CForEach *)
    intros v l b Hb. apply loop_prints. rewrite SL. exact Hb.
  - intros e1 e2 b Hb. apply loop_prints. rewrite SL. exact Hb.
  - intros e b Hb. apply loop_prints. rewrite SL. exact Hb.
  - (* CTry *)
    intros b Hb k Hk s Bt Bs E Hs c d. cbn [mean_stmt] in *. assert (K : stmtish s = true) by (apply stmt_of_kind; [exact Hs|rewrite <- E; reflexivity]).
    destruct s as [| | | | | | | | | | | | | | | |b' k'| | | | | | | |]; try discriminate K; try discriminate E.
    rewrite strip0_trys, strip_trys in E. injection E as E1 E2. cbn [settled_stmt] in Hs. rewrite !settled_block in Hs. apply andb_true_iff in Hs as [S1 S2]. rewrite !item_try.
    rewrite (body_prints (slice_of (mean_block b)) b'); [|rewrite SL; exact Hb|apply (built_all _ _ Bt); intros; cbn [parts]; ins|apply (built_all _ _ Bs); intros; cbn [parts]; ins|exact E1|exact S1].
    rewrite (body_prints (slice_of (mean_block k)) k'); [|rewrite SL; exact Hk|apply (built_all _ _ Bt); intros; cbn [parts]; ins|apply (built_all _ _ Bs); intros; cbn [parts]; ins|exact E2|exact S2].
    destruct (slice_of (mean_block b)), b'; try discriminate E1; destruct (slice_of (mean_block k)), k'; try discriminate E2; reflexivity.
  - intros s Bt Bs E Hs c d. assert (K : stmtish s = true) by (apply stmt_of_kind; [exact Hs|rewrite <- E; reflexivity]). destruct s; try discriminate K; try discriminate E. reflexivity.
  - intros s Bt Bs E Hs c d. assert (K : stmtish s = true) by (apply stmt_of_kind; [exact Hs|rewrite <- E; reflexivity]). destruct s; try discriminate K; try discriminate E. reflexivity.
  - (* CThrow *)
    intros o s Bt Bs E Hs c d. cbn [mean_stmt] in *. assert (K : stmtish s = true) by (apply stmt_of_kind; [exact Hs|rewrite <- E; reflexivity]).
    destruct s as [| | | | | | | | | | | | | | | | |p| | | | | | |]; try discriminate K; try discriminate E. cbn [strip strip0] in E. injection E as E. pose proof (same_nil _ _ E) as N.
    cbn [settled_stmt] in Hs. apply orb_true_iff in Hs as [Hs|Hs].
    + rewrite Hs in N. destruct p, (mean_oexpr o); try discriminate; reflexivity.
    + apply andb_true_iff in Hs as [S1 S2]. apply negb_true_iff in S2. assert (Np : is_nil p = false) by (destruct p; try reflexivity; discriminate S1).
      rewrite (item_throw c d p Np S1 S2), item_throw; [|congruence|exact (settled_back _ _ _ _ E S1)|rewrite <- list_not_strip0, E, (list_not_strip _ _ S1); exact S2].
      rewrite (pr_mv (mean_oexpr o) p); [reflexivity|apply (built_at _ _ Bt); cbn [parts]; ins|apply (built_at _ _ Bs); cbn [parts]; ins|exact E|apply settled_less, S1].
  - (* CReturn *)
    intros o s Bt Bs E Hs c d. cbn [mean_stmt] in *. assert (K : stmtish s = true) by (apply stmt_of_kind; [exact Hs|rewrite <- E; reflexivity]).
    destruct s as [| | | | | | | | | | | | | | | | | |p| | | | | |]; try discriminate K; try discriminate E. cbn [strip strip0] in E. injection E as E. pose proof (same_nil _ _ E) as N.
    cbn [settled_stmt] in Hs. cbn [printBodyItem]. unfold printExpression. rewrite (pr_may (mean_oexpr o) p); [|apply (built_at _ _ Bt); cbn [parts]; ins|apply (built_at _ _ Bs); cbn [parts]; ins|exact E|exact Hs].
    destruct (mean_oexpr o), p; try discriminate N; reflexivity.
  - intros x [].
  - intros s H x [<-|[]]. exact H.
  - intros b H x y Hy. exact (H y Hy).
  - intros b H x s Hs y Hy. cbn [mean_block] in Hy. apply in_app_iff in Hy as [Hy|[<-|[]]]; auto.
  - intros x [].
  - intros e b H l Hl x [<-|Hx]; [|auto]. exists e, (slice_of (mean_block b)). split; [reflexivity|]. rewrite SL. exact H.
  - intros x [].
  - intros b H x Hx. cbn [mean_else] in Hx. rewrite SL in Hx. auto.
Qed.

(** * Modules *)
Lemma default_settled s : lasts_default s = true -> is_nil s || settled false true s = true.
Proof. destruct s; try discriminate; reflexivity. Qed.
Lemma param_prints t s : built (fst (fst t)) -> built (fst (fst s)) -> (strip0 (fst (fst t)), snd (fst t), snd t) = (strip (fst (fst s)), snd (fst s), snd s) ->
  lasts_default (fst (fst s)) = true -> printParam t = printParam s.
Proof.
  destruct t as [[t tn] tv], s as [[s sn] sv]. cbn [fst snd]. intros Bt Bs E H. injection E as E -> ->. apply default_settled, orb_true_iff in H. cbn [printParam]. unfold printVarStatement.
  assert (X : pr MV t = pr MV s); [|rewrite X; reflexivity]. destruct H as [H|H]; [|exact (pr_mv _ _ Bt Bs E H)].
  pose proof (same_nil _ _ E) as N. rewrite H in N. destruct s, t; try discriminate; reflexivity.
Qed.
Definition print_item (c : conf) (n : stmt) : option bytes :=
  match n with
  | SFunc _ _ _ _ _ _ _ => r <~ printFunctionOrProcedure c n; Some (r ++ newLine c 3)
  | _ => r <~ printBodyItem c 0 n; Some (newLine c 1 ++ r)
  end.
Lemma func_prints f s c : built (mean_func f) -> built s -> strip0 (mean_func f) = strip s -> settled_item s = true -> lasts_item s = true -> print_item c (mean_func f) = print_item c s.
Proof.
  intros Bt Bs E Hs Hl.
  assert (K : exists a b c d e g h, s = SFunc a b c d e g h).
  { destruct s; try discriminate Hs; try discriminate E; try (do 7 eexists; reflexivity); exfalso; cbn [settled_item settled_stmt] in Hs; apply andb_true_iff in Hs as [Hs _];
    apply settled_kind in Hs as [Hs _]; rewrite <- E in Hs; discriminate. }
  destruct K as (vs & n & dir & b & ps & ty & x & ->). unfold mean_func, mean_func_with in *. rewrite strip0_func, strip_func in E.
  set (tb := slice_of (mean_block (cf_body f))) in *. set (tp := mean_params (cf_params f)) in *. injection E as E1 E2 E3 E4 E5 E6 E7.
  cbn [settled_item lasts_item] in Hs, Hl. apply andb_true_iff in Hl as [_ Hl]. cbn [print_item printFunctionOrProcedure]. rewrite E2, E3, E6, E7.
  rewrite (body_prints tb b); [| |apply (built_all _ _ Bt); intros; cbn [parts]; ins|apply (built_all _ _ Bs); intros; cbn [parts]; ins|exact E4|exact Hs].
  2: { intros y Hy. apply (proj1 (proj2 stmt_prints) (cf_body f)). unfold tb in Hy. destruct (mean_block (cf_body f)); exact Hy. }
  assert (Ep : map printParam tp = map printParam ps); [|rewrite Ep; reflexivity].
  assert (B1 : Forall built (map (fun p => fst (fst p)) tp)) by (apply (built_all _ _ Bt); intros; cbn [parts]; ins).
  assert (B2 : Forall built (map (fun p => fst (fst p)) ps)) by (apply (built_all _ _ Bs); intros; cbn [parts]; ins).
  clear - E5 Hl B1 B2. clearbody tp. revert ps E5 Hl B1 B2. induction tp as [|t l IH]; intros [|s k] E Hl B1 B2; try discriminate E; [reflexivity|].
  cbn [map forallb] in *. inversion B1; subst. inversion B2; subst. apply andb_true_iff in Hl as [Ha Hz].
  assert (Et : (strip0 (fst (fst t)), snd (fst t), snd t) = (strip (fst (fst s)), snd (fst s), snd s)) by (injection E as F1 F2 F3 _; congruence).
  rewrite (param_prints t s) by assumption. f_equal. apply IH; auto. injection E as _ _ _ E. exact E.
Qed.
Lemma mean_not_func st : is_func (strip0 (mean_stmt st)) = false.
Proof.
  destruct st; cbn [mean_stmt strip0]; try reflexivity. pose proof (mean_kind e) as K. destruct (strip0 (mean_expr e)); try reflexivity. discriminate K.
Qed.
Lemma block_not_func b x : In x (mean_block b) -> is_func (strip0 x) = false.
Proof.
  induction b as [|s|b IH sp|b IH sp s]; cbn [mean_block]; intros H; try destruct H; auto.
  - subst x. apply mean_not_func.
  - contradiction.
  - apply in_app_iff in H as [H|[<-|[]]]; auto. apply mean_not_func.
Qed.
Lemma is_func_strip0 s : is_func s = true -> is_func (strip0 s) = true. Proof. destruct s; try discriminate. reflexivity. Qed.
Lemma is_func_strip s : is_func s = true -> is_func (strip s) = true. Proof. destruct s; try discriminate. reflexivity. Qed.
Lemma not_func_item c s : is_func s = false -> print_item c s = (r <~ printBodyItem c 0 s; Some (newLine c 1 ++ r)). Proof. destruct s; try discriminate; reflexivity. Qed.
Lemma item_prints b x s c : In x (mean_block b) -> built x -> built s -> strip0 x = strip s -> settled_item s = true -> print_item c x = print_item c s.
Proof.
  intros Hi Bt Bs E Hs. pose proof (block_not_func _ _ Hi) as N.
  assert (N1 : is_func x = false) by (destruct (is_func x) eqn:F; [apply is_func_strip0 in F; congruence|reflexivity]).
  assert (N2 : is_func s = false) by (destruct (is_func s) eqn:F; [apply is_func_strip in F; congruence|reflexivity]).
  assert (Hs' : settled_stmt s = true) by (destruct s; try exact Hs; discriminate N2).
  rewrite !not_func_item by assumption. rewrite (proj1 (proj2 stmt_prints) b x Hi s Bt Bs E Hs'). reflexivity.
Qed.

Lemma Print_items order c m : Print order c m = match elems (m_body m) with [] => Some [] | l => r <~ oconcat (map (print_item c) l); Some (concat (map (fun v => printGlobalVariable v ++ newLine c 1) order) ++ r) end.
Proof. reflexivity. Qed.
(** A module is printed like any other with the same parts. *)
Theorem module_prints p m : Forall built (elems (m_body (mean_program p))) -> Forall built (elems (m_body m)) ->
  strips0 (m_body (mean_program p)) = strips (m_body m) -> settled_module m = true -> lasts_module m = true ->
  forall order c, Print order c (mean_program p) = Print order c m.
Proof.
  intros Bt Bs E Hs Hl order c. rewrite !Print_items. set (body := m_body (mean_program p)) in *.
  assert (In1 : forall x, In x (elems body) -> (exists f, x = mean_func f) \/ In x (mean_block (pr_body p))).
  { intros x. unfold body, mean_program. cbn [m_body]. intros H.
    assert (H' : In x (map mean_func (item_funcs (pr_items p)) ++ mean_block (pr_body p))) by (destruct (map mean_func (item_funcs (pr_items p)) ++ mean_block (pr_body p)); exact H).
    apply in_app_iff in H' as [H'|H']; [left|right; exact H']. apply in_map_iff in H' as (f & <- & _). eauto. }
  clearbody body. unfold settled_module in Hs. unfold lasts_module in Hl.
  assert (E' : map strip0 (elems body) = map strip (elems (m_body m))) by (destruct body, (m_body m); try discriminate E; [injection E as E; exact E|reflexivity]).
  assert (Hl' : forallb lasts_item (elems (m_body m)) = true) by (destruct (elems (m_body m)); [discriminate Hl|exact Hl]). clear Hl E.
  assert (X : map (print_item c) (elems body) = map (print_item c) (elems (m_body m))).
  { revert In1 Bt Bs E' Hs Hl'. generalize (elems body), (elems (m_body m)). intros l k In1 Bt Bs E. apply map_same in E. revert In1 Bt Bs.
    induction E as [|x y l k E _ IH]; intros In1 Bt Bs Hs Hl; [reflexivity|]. inversion Bt; subst. inversion Bs; subst. cbn [forallb map] in *.
    apply andb_true_iff in Hs as [Hs1 Hs2]. apply andb_true_iff in Hl as [Hl1 Hl2].
    assert (Ex : print_item c x = print_item c y).
    { destruct (In1 x (or_introl eq_refl)) as [(f & ->)|Hi]; [apply func_prints|eapply item_prints; try eassumption]; assumption. }
    rewrite Ex. f_equal. apply IH; auto. intros z Hz. apply In1. right. exact Hz. }
  destruct (elems body), (elems (m_body m)); try discriminate E'; [reflexivity|]. rewrite X. reflexivity.
Qed.
