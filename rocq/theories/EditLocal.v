(** Edits of the statements themselves, wherever Walk comes. *)
From Verif Require Import Bytes Float64 GoTime Ast StmtInd Walk WalkSpec WalkFacts FlatInv WalkModule WalkEdit EditSpec EditFacts.

Lemma blanks_replace b i x : blanks (in_slice b i x) = blanks b.
Proof.
  destruct b as [l|]; [|reflexivity]. unfold blanks, in_slice. cbn [option_map]. f_equal. revert i. induction l as [|y l IH]; intros [|i]; cbn; try reflexivity.
  rewrite IH. reflexivity.
Qed.
Lemma own_put k x s : own (put k x s) = own s.
Proof. destruct k as [f i], f, s; cbn [put own fst snd]; rewrite ?blanks_replace; reflexivity. Qed.
Lemma at_app p : forall s r, at_path s (p ++ r) = match at_path s p with Some t => at_path t r | None => None end.
Proof.
  induction p as [|[f i] p IH]; intros s r; [reflexivity|]. cbn [app at_path]. destruct (nth_error (field_of f s) i); [apply IH|reflexivity].
Qed.
Lemma own_put_path q : forall p s x, p <> q -> (exists k r, p = q ++ k :: r) -> forallb (fun k => walked (fst k)) p = true -> at_path s p <> None ->
  exists t t', at_path s q = Some t /\ at_path (put_path p x s) q = Some t' /\ own t' = own t.
Proof.
  induction q as [|[f i] q IH]; intros p s x Np (k & r & ->) Hw Hs.
  - cbn [app] in *. destruct k as [f i]. cbn [put_path at_path] in *. exists s, (put_path ((f, i) :: r) x s). cbn [put_path]. split; [reflexivity|]. split; [reflexivity|].
    destruct (nth_error (field_of f s) i); [apply own_put|reflexivity].
  - cbn [app put_path at_path forallb fst] in *. apply andb_true_iff in Hw as [W1 W2].
    destruct (nth_error (field_of f s) i) as [c|] eqn:E; [|contradiction]. rewrite (put_there _ _ _ _ _ W1 E).
    apply IH; [intros Hq; apply (f_equal (@length key)) in Hq; rewrite app_length in Hq; cbn in Hq; lia | eauto | exact W2 | exact Hs].
Qed.

Lemma wrap_slot m p : slot_at m p = at_path (wrap m) (key_of p).
Proof. reflexivity. Qed.
Lemma wrap_put m p x : wrap (put_slot p x m) = put_path (key_of p) x (wrap m).
Proof.
  unfold put_slot, wrap, key_of. cbn [put_path field_of]. destruct (nth_error (elems (m_body m)) (fst p)); [|reflexivity]. reflexivity.
Qed.
Lemma in_list_key p : in_list (key_of p) = in_list (snd p).
Proof. destruct p as [i p]. unfold key_of. cbn [fst snd]. destruct p; reflexivity. Qed.

(** One edit of one slot by a local change. *)
Lemma local_at f s r : local f -> r <> [] -> at_path (f s) r = at_path s r.
Proof. intros [H _] Hr. destruct r as [|[g i] r]; [congruence|]. cbn [at_path]. rewrite H. reflexivity. Qed.
Lemma edit_slot f m p s : local f -> reached m p -> slot_at m p = Some s ->
  slot_at (put_slot p (f s) m) p = Some (f s) /\
  (forall q, q <> p -> option_map own (slot_at (put_slot p (f s) m) q) = option_map own (slot_at m q)).
Proof.
  intros Hf [H1 H2] Hs. assert (W : forallb (fun k => walked (fst k)) (key_of p) = true) by exact H2.
  rewrite wrap_slot in Hs, H1. split.
  - rewrite wrap_slot, wrap_put. apply put_path_there; [exact W | exact H1].
  - intros q Hq. rewrite !wrap_slot, wrap_put. destruct (apart_cases (key_of p) (key_of q)) as [E|[(k & r & E)|[(k & r & E)|E]]].
    + apply key_inj in E. congruence.
    + rewrite E, !at_app, (put_path_there _ _ _ W H1), Hs. rewrite local_at; [reflexivity | exact Hf | discriminate].
    + destruct (own_put_path (key_of q) (key_of p) (wrap m) (f s)) as (t & t' & E1 & E2 & E3); [intros X; apply key_inj in X; congruence | eauto | exact W | exact H1|].
      rewrite E1, E2. cbn. congruence.
    + rewrite put_path_other; [reflexivity | exact E | exact W | exact H1].
Qed.

Section Local.
Context {St : Type}.
Context (cb : option stmt -> parent -> stmt -> St -> stmt * option stmt * St) (h : stmt -> stmt) (g : stmt -> option stmt).
Hypothesis cb_is : forall r p s st, fst (cb r p s st) = (h s, g s).
Definition eff (l : bool) (s : stmt) : stmt := left_in l (h s) (g s).
Hypothesis eff_local : forall l, local (eff l).

Definition after_edits (m : module) (qs : list (nat * path)) (mk : module) : Prop :=
  (forall p s, In p qs -> slot_at m p = Some s -> option_map own (slot_at mk p) = Some (own (eff (in_list (snd p)) s))) /\
  (forall p, ~ In p qs -> option_map own (slot_at mk p) = option_map own (slot_at m p)) /\ (forall p, slot_at mk p = None <-> slot_at m p = None) /\
  m_name mk = m_name m /\ m_gvars mk = m_gvars m.

Lemma put_slot_rest p x m : m_name (put_slot p x m) = m_name m /\ m_gvars (put_slot p x m) = m_gvars m.
Proof. unfold put_slot. destruct (nth_error _ _); auto. Qed.
Lemma edits_step m qs mk last st p : after_edits m qs mk -> ~ In p qs -> reached m p ->
  after_edits m (qs ++ [p]) (fst (fst (visit cb (mk, last, st) p))).
Proof.
  intros (A1 & A2 & A3 & A4 & A5) Hp [R1 R2]. unfold visit. destruct (slot_at mk p) as [s|] eqn:Es; [|apply A3 in Es; contradiction].
  match goal with |- context [cb ?r ?pp s st] => pose proof (cb_is r pp s st) as Hc; destruct (cb r pp s st) as [[n a] st'] end.
  cbn [fst] in *. injection Hc as -> ->. change (left_in (in_list (snd p)) (h s) (g s)) with (eff (in_list (snd p)) s).
  assert (Rk : reached mk p) by (split; [congruence | exact R2]).
  destruct (edit_slot (eff (in_list (snd p))) mk p s (eff_local _) Rk Es) as [E1 E2].
  assert (D : forall q, q = p \/ q <> p).
  { intros [i q]. destruct p as [j p]. destruct (Nat.eq_dec i j) as [->|Hn]; [|right; congruence].
    destruct (apart_cases q p) as [->|[(k & r & ->)|[(k & r & ->)|X]]]; [left; reflexivity | right | right | right].
    - intros X. injection X as X. apply (f_equal (@length key)) in X. rewrite app_length in X. cbn in X. lia.
    - intros X. injection X as X. apply (f_equal (@length key)) in X. rewrite app_length in X. cbn in X. lia.
    - intros Y. injection Y as Y. subst q. clear - X. remember p as q eqn:E in X at 1. assert (H : apart q p) by exact X. clear X. induction H as [k k' a b Hk|k a b H IH]; [congruence | apply IH; congruence]. }
  split; [|split; [|split]].
  - intros q t Hq Ht. destruct (D q) as [->|Nq].
    + rewrite E1. cbn [option_map]. f_equal. apply (proj2 (eff_local _)).
      pose proof (A2 p Hp) as X. rewrite Es, Ht in X. injection X as X. exact X.
    + apply in_app_iff in Hq as [Hq|[Hq|[]]]; [|congruence]. rewrite (E2 q Nq). apply A1; assumption.
  - intros q Hq. rewrite in_app_iff in Hq. assert (Nq : q <> p) by (intros ->; apply Hq; right; left; reflexivity). rewrite (E2 q Nq). apply A2. tauto.
  - intros q. destruct (D q) as [->|Nq].
    + rewrite E1. split; [discriminate|]. intros X. apply A3 in X. congruence.
    + rewrite <- A3. specialize (E2 q Nq). destruct (slot_at (put_slot _ _ _) q), (slot_at mk q); cbn in E2; split; congruence.
  - destruct (put_slot_rest p (eff (in_list (snd p)) s) mk) as [-> ->]. auto.
Qed.
Lemma edits_fold m qs ps : forall mk last st, NoDup (qs ++ ps) -> (forall p, In p ps -> reached m p) -> after_edits m qs mk ->
  after_edits m (qs ++ ps) (fst (fst (fold_left (visit cb) ps (mk, last, st)))).
Proof.
  revert qs. induction ps as [|p ps IH]; intros qs mk last st Hn Hr Ha; [rewrite app_nil_r; exact Ha|]. cbn [fold_left].
  pose proof (edits_step m qs mk last st p Ha (fun X => NoDup_remove_2 _ _ _ Hn (in_or_app _ _ _ (or_introl X))) (Hr p (or_introl eq_refl))) as E.
  destruct (visit cb (mk, last, st) p) as [[mk' last'] st']. cbn [fst] in E.
  replace (qs ++ p :: ps) with ((qs ++ [p]) ++ ps) in * by (rewrite <- app_assoc; reflexivity). apply IH; [exact Hn | | exact E].
  intros q Hq. apply Hr. right. exact Hq.
Qed.
Lemma edits m st : flat_module m -> after_edits m (slots m) (fst (WalkEdit cb m st)).
Proof.
  intros Hf. rewrite (WalkEdit_visits cb m st Hf). unfold visits.
  pose proof (edits_fold m [] (slots m) m None st (slots_nodup m) (fun p => proj1 (slots_reached m p))) as E. cbn [app] in E.
  destruct (fold_left _ _ _) as [[m' l'] st']. cbn [fst] in *. apply E. split; [intros p s []|]. repeat split; auto.
Qed.
End Local.

(** What every statement itself is determines the tree. *)
Lemma blanks_length b b' : blanks b = blanks b' -> length (elems b) = length (elems b') /\ (b = None <-> b' = None).
Proof.
  destruct b as [l|], b' as [l'|]; unfold blanks; cbn; intros H; try discriminate; [|split; [reflexivity|tauto]].
  injection H as H. apply (f_equal (@length stmt)) in H. rewrite !map_length in H. split; [exact H|]. split; discriminate.
Qed.
Lemma blanks_same b b' : blanks b = blanks b' -> elems b = elems b' -> b = b'.
Proof. intros H1 H2. apply blanks_length in H1 as [_ H1]. destruct b, b'; cbn in *; try congruence; [destruct H1 as [_ H1]; discriminate (H1 eq_refl) | destruct H1 as [H1 _]; discriminate (H1 eq_refl)]. Qed.
Lemma params_same (p q : list (stmt * bytes * bool)) :
  map (fun p => (SNil, snd (fst p), snd p)) p = map (fun p => (SNil, snd (fst p), snd p)) q ->
  map (fun p => fst (fst p)) p = map (fun p => fst (fst p)) q -> p = q.
Proof.
  revert q. induction p as [|[[a b] c] p IH]; intros [|[[a' b'] c'] q] H1 H2; try discriminate; [reflexivity|]. cbn in *.
  injection H1 as -> -> H1. injection H2 as -> H2. rewrite (IH q); auto.
Qed.
Lemma own_fields s t : own s = own t -> (forall f, field_of f s = field_of f t) -> s = t.
Proof.
  intros Ho Hf.
  destruct s, t; cbn [own] in Ho; try discriminate Ho; try exact Ho.
  - injection Ho as -> Hb -> ->. f_equal. apply blanks_same; [exact Hb | exact (Hf FArg)].
  - pose proof (Hf FItem) as H1. pose proof (Hf FObject) as H2. cbn in H1, H2. congruence.
  - pose proof (Hf FUnit) as H1. pose proof (Hf FCall) as H2. cbn in H1, H2. congruence.
  - injection Ho as -> Hb ->. f_equal. apply blanks_same; [exact Hb | exact (Hf FNewArg)].
  - pose proof (Hf FTernCond) as H1. pose proof (Hf FTernTrue) as H2. pose proof (Hf FTernFalse) as H3. cbn in H1, H2, H3. congruence.
  - pose proof (Hf FLeft) as H1. pose proof (Hf FRight) as H2. cbn in H1, H2. congruence.
  - injection Ho as Hb ->. f_equal. apply blanks_same; [exact Hb | exact (Hf FExprs)].
  - pose proof (Hf FVar) as H1. pose proof (Hf FAssigned) as H2. cbn in H1, H2. injection Ho as Hb ->. injection H1 as ->. f_equal. apply blanks_same; [exact Hb|exact H2].
  - pose proof (Hf FCond) as H1. cbn in H1. injection H1 as ->. injection Ho as B1 B2 B3.
    f_equal; apply blanks_same; try assumption; [exact (Hf FThen) | exact (Hf FElseIf) | exact (Hf FElse)].
  - injection Ho as B1 B2. f_equal; apply blanks_same; try assumption; [exact (Hf FTryBody) | exact (Hf FCatch)].
  - pose proof (Hf FThrow) as H1. cbn in H1. congruence.
  - pose proof (Hf FReturn) as H1. cbn in H1. congruence.
  - pose proof (Hf FFor) as H1. pose proof (Hf FTo) as H2. pose proof (Hf FIn) as H3. pose proof (Hf FWhile) as H4. cbn in H1, H2, H3, H4.
    injection Ho as Hb. injection H1 as ->. injection H2 as ->. injection H3 as ->. injection H4 as ->. f_equal. apply blanks_same; [exact Hb | exact (Hf FLoopBody)].
  - injection Ho as -> -> -> Hb Hp -> ->. f_equal; [apply blanks_same; [exact Hb | exact (Hf FFuncBody)] | apply params_same; [exact Hp | exact (Hf FDefault)]].
Qed.
Lemma nth_ext_error {A} (l l' : list A) : (forall i, nth_error l i = nth_error l' i) -> l = l'.
Proof.
  revert l'. induction l as [|x l IH]; intros [|y l'] H; [reflexivity | discriminate (H 0%nat) | discriminate (H 0%nat)|].
  pose proof (H 0%nat) as H0. cbn in H0. injection H0 as ->. f_equal. apply IH. intros i. exact (H (S i)).
Qed.
Lemma field_part f s c : In c (field_of f s) -> In c (parts s).
Proof. destruct f, s; cbn [field_of parts In]; rewrite ?in_app_iff; intuition. Qed.
Lemma determined s : forall t, (forall p, option_map own (at_path s p) = option_map own (at_path t p)) -> s = t.
Proof.
  induction s as [s IH] using stmt_parts_ind. intros t H. apply own_fields.
  - specialize (H []). cbn in H. congruence.
  - intros f. apply nth_ext_error. intros i. pose proof (fun p => H ((f, i) :: p)) as Hk. cbn [at_path] in Hk.
    destruct (nth_error (field_of f s) i) as [c|] eqn:E1, (nth_error (field_of f t) i) as [d|] eqn:E2; try reflexivity;
      try (specialize (Hk []); discriminate Hk). f_equal. apply IH; [|exact Hk]. apply nth_error_In in E1. exact (field_part _ _ _ E1).
Qed.
