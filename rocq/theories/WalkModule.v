(** Walk on a whole module. *)
From Verif Require Import Bytes Float64 GoTime Ast Walk StmtInd WalkSpec WalkFacts FlatInv.

Definition body_order (f : field) (l : list stmt) : list path := flat_map group (index f 0 l).
Definition slots_from (i : nat) (l : list stmt) : list (nat * path) :=
  flat_map (fun kc => map (pair (snd (fst kc))) (order (snd kc))) (index FTryBody i l).
(** The slots of a module in the order of the visits. *)
Definition slots (m : module) : list (nat * path) := slots_from 0 (elems (m_body m)).
Definition wrap (m : module) : stmt := STry (m_body m) None.
Definition key_of (p : nat * path) : path := (FTryBody, fst p) :: snd p.

Lemma index_field f l : forall i k c, In (k, c) (index f i l) -> fst k = f.
Proof. intros i k c H. apply in_index in H as (j & -> & _). reflexivity. Qed.
Lemma slots_key l i : map key_of (slots_from i l) = flat_map group (index FTryBody i l).
Proof.
  unfold slots_from. revert i. induction l as [|x l IH]; intros i; [reflexivity|]. cbn [index flat_map]. rewrite map_app, IH. f_equal.
  unfold group. cbn [fst snd]. rewrite map_map. reflexivity.
Qed.
Lemma slots_wrap m : map key_of (slots m) ++ [[]] = order (wrap m).
Proof. unfold slots, wrap. rewrite slots_key, order_eq. cbn [kids elems index]. rewrite app_nil_r. reflexivity. Qed.
Lemma key_inj p q : key_of p = key_of q -> p = q.
Proof. destruct p, q. unfold key_of. cbn. congruence. Qed.
Lemma in_slots m p : In p (slots m) <-> In (key_of p) (order (wrap m)).
Proof.
  rewrite <- slots_wrap, in_app_iff, in_map_iff. split.
  - intros H. left. eauto.
  - intros [(q & E & H)|[H|[]]]; [apply key_inj in E; congruence | discriminate].
Qed.
Lemma before_unmap {A C} (f : A -> C) l p q : (forall x y, f x = f y -> x = y) -> before (map f l) (f p) (f q) -> before l p q.
Proof.
  intros Hf (x & y & z & E). apply map_eq_app in E as (x' & r & -> & <- & E).
  destruct r as [|p' r]; [discriminate|]. cbn in E. injection E as E1 E. apply Hf in E1 as ->.
  apply map_eq_app in E as (y' & r' & -> & <- & E). destruct r' as [|q' z']; [discriminate|]. injection E as E1 _. apply Hf in E1 as ->.
  exists x', y', z'. reflexivity.
Qed.
Lemma before_drop {A} (l : list A) x p q : x <> q -> before (l ++ [x]) p q -> before l p q.
Proof.
  intros Hx (a & b & c & E). destruct c as [|c0 c] using rev_ind.
  - change (a ++ p :: b ++ [q]) with (a ++ (p :: b) ++ [q]) in E. rewrite app_assoc in E. apply app_inj_tail in E as [_ E]. contradiction.
  - clear IHc. exists a, b, c. replace (a ++ p :: b ++ q :: c ++ [c0]) with ((a ++ p :: b ++ q :: c) ++ [c0]) in E.
    + apply app_inj_tail in E as [E _]. exact E.
    + rewrite <- app_assoc. cbn. rewrite <- app_assoc. reflexivity.
Qed.
Lemma before_slots m p q : before (order (wrap m)) (key_of p) (key_of q) -> before (slots m) p q.
Proof.
  rewrite <- slots_wrap. intros H. apply before_drop in H; [|discriminate]. exact (before_unmap key_of _ _ _ key_inj H).
Qed.

Lemma slots_reached m p : In p (slots m) <-> reached m p.
Proof.
  rewrite in_slots, order_in. destruct p as [i p]. unfold reached, slot_at, key_of. cbn [fst snd at_path forallb walked andb].
  unfold wrap. cbn [field_of]. reflexivity.
Qed.
Lemma slots_nodup m : NoDup (slots m).
Proof. apply (NoDup_map_inv key_of). pose proof (order_nodup (wrap m)) as H. rewrite <- slots_wrap in H. apply NoDup_remove_1 in H. rewrite app_nil_r in H. exact H. Qed.
Lemma slots_inside m p q : In q (slots m) -> inside p q -> before (slots m) q p.
Proof.
  intros H (E1 & k & r & E2). apply before_slots. rewrite in_slots in H. revert H. unfold key_of. rewrite <- E1, E2.
  exact (order_inner (wrap m) ((FTryBody, fst p) :: snd p) k r).
Qed.
Lemma slots_sibling m p q : In p (slots m) -> In q (slots m) -> sibling p q -> before (slots m) p q.
Proof.
  intros H1 H2 H. apply before_slots. rewrite in_slots in H1, H2. revert H1 H2. unfold key_of.
  destruct H as [(E1 & E2 & Hl)|(E & b & f & i & j & E1 & E2 & Hl)].
  - rewrite E1, E2. intros H1 H2. exact (order_siblings (wrap m) [] FTryBody _ _ H1 H2 Hl).
  - rewrite E, E1, E2. intros H1 H2. exact (order_siblings (wrap m) ((FTryBody, fst q) :: b) f _ _ H1 H2 Hl).
Qed.

(** The events. *)
Lemma record_calm : calm record_cb (@length event) (fun e st => st ++ [e]) None SNil.
Proof. split; [reflexivity|]. intros e st. rewrite app_length. cbn. lia. Qed.
Lemma after_record es : forall st, after (fun e st => st ++ [e]) es st = st ++ es.
Proof.
  induction es as [|e es IH]; intros st; cbn [after fold_left]; [rewrite app_nil_r; reflexivity|].
  fold (after (fun e st => st ++ [e]) es (st ++ [e])). rewrite IH, <- app_assoc. reflexivity.
Qed.
Lemma Walk_record m : Walk record_cb m [] = (m, evts_list (PRoot (m_body m)) None (elems (m_body m))).
Proof.
  unfold Walk. destruct m as [n g [l|]]; cbn [m_body elems]; [|reflexivity]. unfold StatementWalk.
  rewrite (quiet_list _ _ _ _ _ l record_calm).
  - rewrite after_record. reflexivity.
  - apply Forall_forall. intros x _. apply (quiet_all _ _ _ _ _ record_calm).
  - exact I.
Qed.
Lemma events_list m : events m = evts_list (PRoot (m_body m)) None (elems (m_body m)).
Proof. unfold events. rewrite Walk_record. reflexivity. Qed.

Lemma forall2_from (R : nat * path -> event -> Prop) par l : forall i root,
  (forall j x r, nth_error l j = Some x -> Forall2 (fun p e => R ((i + j)%nat, p) e) (order x) (evts r par x)) ->
  Forall2 R (slots_from i l) (evts_list par root l).
Proof.
  induction l as [|x l IH]; intros i root H; [constructor|]. unfold slots_from. cbn [index flat_map].
  change (evts_list par root (x :: l)) with (evts root par x ++ evts_list par (nxt root x) l). apply Forall2_app.
  - cbn [fst snd]. pose proof (H 0%nat x root eq_refl) as H0. rewrite Nat.add_0_r in H0. clear - H0. induction H0; cbn [map]; constructor; auto.
  - apply IH. intros j y r Hy. specialize (H (S j) y r Hy). rewrite Nat.add_succ_comm. exact H.
Qed.

(** * The root argument *)
Lemma plain_roots s : plain s -> forall root par, Forall (fun e => fst (fst e) = root) (evts root par s).
Proof.
  induction s as [s IH] using stmt_parts_ind. intros Hp root par. apply plain_inv in Hp as [P1 P2].
  assert (En : nxt root s = root) by (destruct s; try reflexivity; discriminate).
  rewrite Forall_forall in P2.
  assert (HL : forall l, (forall x, In x l -> In x (parts s)) -> Forall (fun e => fst (fst e) = root) (evts_list (PStmt s) root l)).
  { induction l as [|x l IHl]; intros Hl; [constructor|].
    assert (Hx : plain x) by (apply P2, Hl; left; reflexivity).
    change (evts_list (PStmt s) root (x :: l)) with (evts root (PStmt s) x ++ evts_list (PStmt s) (nxt root x) l).
    replace (nxt root x) with root by (apply plain_inv in Hx as [Hx _]; destruct x; try reflexivity; discriminate).
    apply Forall_app. split; [apply IH; [apply Hl; left; reflexivity | exact Hx] | apply IHl; intros y Hy; apply Hl; right; exact Hy]. }
  rewrite evts_eq. apply Forall_app. split; [|constructor; [exact En | constructor]].
  unfold kid_events. rewrite En. clear IH P2 En.
  destruct s; try (exact (Forall_nil _)); repeat (lazymatch goal with |- Forall _ (_ ++ _) => apply Forall_app; split end); apply HL; intros y Hy; cbn [parts];
  cbn [In] in *; rewrite ?in_app_iff; intuition.
Qed.
Lemma shallow_roots s : shallow s -> forall root par, Forall (fun e => fst (fst e) = nxt root s) (evts root par s).
Proof.
  intros Hs root par. destruct (is_func s) eqn:E.
  - destruct s; try discriminate. unfold shallow in Hs. cbn [parts] in Hs. apply Forall_app in Hs as [Hs _].
    rewrite evts_eq. apply Forall_app. split; [|constructor; [reflexivity|constructor]]. unfold kid_events. cbn [nxt].
    match goal with |- Forall (fun e => _ = ?r) (evts_list ?p ?r _) => generalize r, p end. induction Hs as [|x l Hx Hl IH]; intros r p; [constructor|].
    change (evts_list p r (x :: l)) with (evts r p x ++ evts_list p (nxt r x) l).
    replace (nxt r x) with r by (apply plain_inv in Hx as [Hx _]; destruct x; try reflexivity; discriminate).
    apply Forall_app. split; [apply plain_roots; exact Hx | apply IH].
  - replace (nxt root s) with root by (destruct s; try reflexivity; discriminate). apply plain_roots. constructor; assumption.
Qed.

(** The last procedure or function among [l]. *)
Definition last_function (l : list stmt) : option stmt := find is_func (rev l).
Lemma last_function_snoc l x : last_function (l ++ [x]) = if is_func x then Some x else last_function l.
Proof. unfold last_function. rewrite rev_app_distr. reflexivity. Qed.
Lemma roots_from par l : Forall shallow l -> forall pre,
  Forall2 (fun p e => fst (fst e) = last_function (firstn (S (fst p)) (pre ++ l))) (slots_from (length pre) l) (evts_list par (last_function pre) l).
Proof.
  induction 1 as [|x l Hx Hl IH]; intros pre; [constructor|]. unfold slots_from. cbn [index flat_map].
  change (evts_list par (last_function pre) (x :: l)) with (evts (last_function pre) par x ++ evts_list par (nxt (last_function pre) x) l).
  assert (En : nxt (last_function pre) x = last_function (pre ++ [x])) by (rewrite last_function_snoc; destruct x; reflexivity).
  apply Forall2_app.
  - cbn [fst snd]. pose proof (shallow_roots x Hx (last_function pre) par) as Hr. rewrite En in Hr.
    assert (E : firstn (S (length pre)) (pre ++ x :: l) = pre ++ [x]).
    { change (x :: l) with ([x] ++ l). rewrite app_assoc, firstn_app, app_length. cbn [length].
      rewrite firstn_all2 by (rewrite app_length; cbn; lia). replace (S (length pre) - (length pre + 1))%nat with 0%nat by lia. rewrite firstn_O, app_nil_r. reflexivity. }
    pose proof (order_length x (last_function pre) par) as Hlen. revert Hr Hlen.
    generalize (evts (last_function pre) par x) (order x). intros es. induction es as [|e es IHe]; intros [|p ps]; cbn [length]; try discriminate; intros Hr Hlen; [constructor|].
    inversion Hr; subst. cbn [map]. constructor; [cbn [fst]; rewrite E; assumption|]. apply IHe; [assumption|lia].
  - rewrite En. specialize (IH (pre ++ [x])). rewrite <- app_assoc in IH. cbn [app] in IH. rewrite app_length in IH. cbn [length] in IH.
    rewrite Nat.add_1_r in IH. exact IH.
Qed.
Lemma roots_module m : flat_module m ->
  Forall2 (fun p e => fst (fst e) = last_function (firstn (S (fst p)) (elems (m_body m)))) (slots m) (events m).
Proof. intros H. rewrite events_list. exact (roots_from (PRoot (m_body m)) _ H []). Qed.

Lemma plain_function s p : plain s -> function_of s p = None.
Proof.
  revert p. induction s as [s IH] using stmt_parts_ind. intros p Hs. apply plain_inv in Hs as [P1 P2].
  assert (E : match s with SFunc _ _ _ _ _ _ _ => Some s | _ => None end = None) by (destruct s; try reflexivity; discriminate).
  destruct p as [|[f i] p]; cbn [function_of]; [exact E|]. destruct (nth_error (field_of f s) i) as [c|] eqn:Ec; [|exact E].
  assert (Hc : In c (parts s)).
  { apply nth_error_In in Ec. clear - Ec. destruct f, s; cbn [field_of parts] in *; cbn [In] in *; rewrite ?in_app_iff; intuition. }
  rewrite IH, E; [reflexivity | exact Hc|]. rewrite Forall_forall in P2. auto.
Qed.
Lemma shallow_function s p : shallow s -> at_path s p <> None -> function_of s p = if is_func s then Some s else None.
Proof.
  intros Hs Hp. destruct (is_func s) eqn:E; [|apply plain_function; constructor; assumption].
  destruct p as [|[f i] p]; [destruct s; try discriminate; reflexivity|]. cbn [function_of at_path] in *.
  destruct (nth_error (field_of f s) i) as [c|] eqn:Ec; [|contradiction].
  rewrite plain_function; [destruct s; try discriminate; reflexivity|].
  unfold shallow in Hs. rewrite Forall_forall in Hs. apply Hs. apply nth_error_In in Ec. clear - Ec.
  destruct f, s; cbn [field_of parts] in *; cbn [In] in *; rewrite ?in_app_iff; intuition.
Qed.

(** * One replacement *)
Definition replace_cb (k : nat) (new : stmt) : option stmt -> parent -> stmt -> nat -> stmt * nat :=
  fun _ _ s n => (if Nat.eqb n k then new else s, S n).
Lemma replace_calm k new : calm (replace_cb k new) (fun n => n) (fun _ n => S n) (Some k) new.
Proof. split; reflexivity. Qed.

Lemma Walk_replace m k p new : nth_error (slots m) k = Some p ->
  Walk (replace_cb k new) m 0%nat = (if in_list (snd p) then put_slot p new m else m, length (slots m)).
Proof.
  intros H.
  assert (H' : nth_error (flat_map group (index FTryBody 0 (elems (m_body m)))) k = Some (key_of p)) by (rewrite <- slots_key; apply map_nth_error; exact H).
  destruct (hits_list _ _ _ k new (elems (m_body m)) (replace_calm k new)) with (f := FTryBody) (i := 0%nat) (par := PRoot (m_body m)) (root := @None stmt) (st := 0%nat) (j := k) (p := key_of p)
    as (j' & c & q & st' & E1 & E2 & E3 & E4).
  - apply Forall_forall. intros x _. apply (hits_all _ _ _ _ _ (replace_calm k new)).
  - exact H'.
  - reflexivity.
  - destruct p as [i p]. unfold key_of in E1. cbn [fst snd] in E1. injection E1 as -> ->.
    assert (El : st' = length (slots m)).
    { rewrite E3. rewrite <- slots_key, map_length. reflexivity. }
    subst st'. unfold put_slot. cbn [fst snd] in *.
    destruct m as [n g [l|]]; cbn [m_body elems m_name m_gvars] in *; [|destruct j'; discriminate].
    unfold Walk, StatementWalk. cbn [m_body m_name m_gvars]. rewrite E4, E2. unfold result. destruct (in_list q).
    + rewrite <- El. reflexivity.
    + rewrite replace_same by exact E2. rewrite <- El. reflexivity.
Qed.

(** What [put_slot] does. *)
Lemma nth_replace_other l : forall i j x, i <> j -> nth_error (replace_nth i x l) j = nth_error l j.
Proof. induction l as [|y l IH]; intros [|i] [|j] x H; cbn; try reflexivity; [contradiction|]. apply IH. congruence. Qed.
Lemma put_there s f j c x : walked f = true -> nth_error (field_of f s) j = Some c -> nth_error (field_of f (put (f, j) x s)) j = Some x.
Proof.
  intros Hw H. destruct s, f; cbn [field_of put fst snd walked] in *; try discriminate; slices; cbn [elems in_slice option_map] in *;
  try (destruct j as [|[|j]]; discriminate); try (eapply nth_error_replace; exact H); destruct j as [|[|j]]; try discriminate; reflexivity.
Qed.
Lemma put_other s f j g i c x : nth_error (field_of f s) j = Some c -> (g, i) <> (f, j) ->
  nth_error (field_of g (put (f, j) x s)) i = nth_error (field_of g s) i.
Proof.
  intros Hc H. destruct s, f; cbn [put fst snd]; try reflexivity; destruct g; cbn [field_of] in *; try reflexivity; slices; cbn [elems in_slice option_map] in *; try reflexivity;
  try (apply nth_replace_other; congruence);
  destruct i as [|[|i]], j as [|[|j]]; try discriminate; try reflexivity; congruence.
Qed.
Lemma put_path_there p : forall s x, forallb (fun k => walked (fst k)) p = true -> at_path s p <> None -> at_path (put_path p x s) p = Some x.
Proof.
  induction p as [|[f j] p IH]; intros s x Hw H; [reflexivity|]. cbn [put_path at_path forallb fst] in *. apply andb_true_iff in Hw as [W1 W2].
  destruct (nth_error (field_of f s) j) as [c|] eqn:Ec; [|contradiction]. rewrite (put_there _ _ _ _ _ W1 Ec). apply IH; assumption.
Qed.
(** Paths of which none leads through the other. *)
Inductive apart : path -> path -> Prop :=
| apart_here k k' p q : k <> k' -> apart (k :: p) (k' :: q)
| apart_deep k p q : apart p q -> apart (k :: p) (k :: q).
Lemma put_path_other p q : apart p q -> forall s x, forallb (fun k => walked (fst k)) p = true -> at_path s p <> None ->
  at_path (put_path p x s) q = at_path s q.
Proof.
  induction 1 as [[f j] [g i] p q Hk|[f j] p q _ IH]; intros s x Hw H; cbn [put_path at_path forallb fst] in *; apply andb_true_iff in Hw as [W1 W2];
  destruct (nth_error (field_of f s) j) as [c|] eqn:Ec; try contradiction.
  - rewrite (put_other _ _ _ _ _ _ _ Ec) by congruence. reflexivity.
  - rewrite (put_there _ _ _ _ _ W1 Ec). apply IH; assumption.
Qed.
Lemma apart_cases p : forall q, p = q \/ (exists k r, q = p ++ k :: r) \/ (exists k r, p = q ++ k :: r) \/ apart p q.
Proof.
  induction p as [|k p IH]; intros [|k' q]; [left; reflexivity | right; left; exists k', q; reflexivity | right; right; left; exists k, p; reflexivity|].
  assert (D : k = k' \/ k <> k') by (destruct k as [[] i], k' as [[] j]; try (right; congruence); (destruct (Nat.eq_dec i j); [left|right]; congruence)).
  destruct D as [<-|D]; [|right; right; right; constructor; exact D].
  destruct (IH q) as [->|[(a & r & ->)|[(a & r & ->)|H]]]; [left; reflexivity | right; left; exists a, r; reflexivity | right; right; left; exists a, r; reflexivity | right; right; right; constructor; exact H].
Qed.
