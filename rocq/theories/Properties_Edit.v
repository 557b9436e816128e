(** Rewriting trees with Walk (C66).  Specification: EditSpec.v. *)
From Verif Require Import Bytes Utf8 Float64 GoTime Ast Lexer Tables Parser Printer CellInv Properties_Tree StmtInd Walk WalkSpec WalkFacts FlatInv WalkModule WalkEdit EditSpec EditFacts EditLocal.
Open Scope Z_scope.

(** * C66 Rewriting with Walk *)
(** Whatever the callback writes: walking is visiting the slots of the tree one by one, inner
    ones first and blocks in order.  Every visit is told what the slot, the statement around
    it and the procedure around it look like by then; what is written into the statement
    stays, what is assigned to the slot stays in lists. *)
Theorem C66_any : forall (St : Type) (cb : option stmt -> parent -> stmt -> St -> stmt * option stmt * St) a st, history a -> exists ps,
  NoDup ps /\ (forall p, In p ps <-> reached (a_module a) p) /\
  (forall p q, In q ps -> inside p q -> before ps q p) /\
  (forall p q, In p ps -> In q ps -> sibling p q -> before ps p q) /\
  WalkEdit cb (a_module a) st = visits cb ps (a_module a) st.
Proof.
  intros St cb a st Ha. exists (slots (a_module a)). split; [apply slots_nodup|]. split; [apply slots_reached|].
  split; [intros p q; apply slots_inside|]. split; [intros p q; apply slots_sibling|]. apply WalkEdit_visits. apply history_flat. exact Ha.
Qed.

(** A callback that changes the statement it is given, [h] through the pointer and [g] by
    assignment, without regard to what is inside: every slot Walk comes to has changed
    accordingly, all others have kept their statement, and there are no other slots. *)
Definition given_by {St} (cb : option stmt -> parent -> stmt -> St -> stmt * option stmt * St) (h : stmt -> stmt) (g : stmt -> option stmt) : Prop :=
  forall r p s st, fst (cb r p s st) = (h s, g s).
Theorem C66_local : forall (St : Type) (cb : option stmt -> parent -> stmt -> St -> stmt * option stmt * St) h g a st,
  history a -> given_by cb h g -> (forall l, local (fun s => left_in l (h s) (g s))) ->
  let m := a_module a in let m' := fst (WalkEdit cb m st) in
  (forall p s, reached m p -> slot_at m p = Some s ->
     option_map own (slot_at m' p) = Some (own (left_in (in_list (snd p)) (h s) (g s)))) /\
  (forall p, ~ reached m p -> option_map own (slot_at m' p) = option_map own (slot_at m p)) /\
  m_name m' = m_name m /\ m_gvars m' = m_gvars m.
Proof.
  intros St cb h g a st Ha Hc Hl m m'. destruct (edits cb h g Hc Hl m st (history_flat a Ha)) as (A1 & A2 & A3 & A4 & A5).
  split; [|split; [|split; assumption]].
  - intros p s Hp. apply A1. apply slots_reached. exact Hp.
  - intros p Hp. apply A2. rewrite slots_reached. exact Hp.
Qed.
(** Writing through the pointer: it takes effect in every slot Walk comes to. *)
Theorem C66_in_place : forall (St : Type) (cb : option stmt -> parent -> stmt -> St -> stmt * option stmt * St) h a st,
  history a -> given_by cb h (fun _ => None) -> local h ->
  let m := a_module a in let m' := fst (WalkEdit cb m st) in
  (forall p s, reached m p -> slot_at m p = Some s -> option_map own (slot_at m' p) = Some (own (h s))) /\
  (forall p, ~ reached m p -> option_map own (slot_at m' p) = option_map own (slot_at m p)).
Proof.
  intros St cb h a st Ha Hc Hl. destruct (C66_local St cb h (fun _ => None) a st Ha Hc) as (H1 & H2 & _); [|auto].
  intros l. exact Hl.
Qed.
(** This describes the trees completely: trees with the same statements in all slots are equal. *)
Theorem C66_determined : forall m m', (forall p, option_map own (slot_at m p) = option_map own (slot_at m' p)) ->
  elems (m_body m) = elems (m_body m').
Proof.
  intros m m' H. apply nth_ext_error. intros i. pose proof (fun p => H (i, p)) as Hi. unfold slot_at in Hi. cbn [fst snd] in Hi.
  destruct (nth_error (elems (m_body m)) i) as [s|], (nth_error (elems (m_body m')) i) as [t|]; try reflexivity; try (specialize (Hi []); discriminate Hi).
  f_equal. apply determined. exact Hi.
Qed.

(** Callbacks that only assign: the model of C35-C37 says the same. *)
Section Agree.
Context {St : Type} (c : stmt -> St -> stmt * St).
Definition old_cb (r : option stmt) (p : parent) (s : stmt) (st : St) : stmt * St := c s st.
Definition new_cb (r : option stmt) (p : parent) (s : stmt) (st : St) : stmt * option stmt * St := let '(x, st') := c s st in (s, Some x, st').
Definition agree (s : stmt) : Prop := forall rk pk root par st,
  WalkEdit.walk1 new_cb rk pk s st = let '(n, v, _, st') := Walk.walk1 old_cb root par s st in (n, v, st').
Lemma agree_list l : Forall agree l -> forall rk pk done root par st,
  WalkEdit.walk_list new_cb rk pk done l st = let '(l', st') := Walk.walk_list old_cb root par l st in (done ++ l', st').
Proof.
  induction 1 as [|x l Hx Hl IH]; intros rk pk done root par st; cbn [WalkEdit.walk_list Walk.walk_list]; [rewrite app_nil_r; reflexivity|].
  rewrite (Hx _ _ root par). destruct (Walk.walk1 old_cb root par x st) as [[[n v] root'] st1].
  rewrite (IH _ _ _ root' par). destruct (Walk.walk_list old_cb root' par l st1) as [l' st2]. rewrite <- app_assoc. reflexivity.
Qed.
Lemma agree_sl rk k b root par st : Forall agree (elems b) ->
  sl_ new_cb rk k b st = walk_slice old_cb root par b st.
Proof.
  destruct b as [l|]; [|reflexivity]. intros H. cbn [sl_ walk_slice]. rewrite (agree_list l H _ _ [] root par). cbn [app]. destruct (Walk.walk_list old_cb root par l st). reflexivity.
Qed.
Lemma agree_temp rk k e root par st : agree e -> temp_ new_cb rk k e st = walk_temp old_cb root par e st.
Proof.
  intros H. unfold temp_, walk_temp. rewrite (H _ _ root par). destruct (Walk.walk1 old_cb root par e st) as [[[n v] r] st']. reflexivity.
Qed.
Lemma agree_all s : agree s.
Proof.
  induction s as [s IH] using stmt_parts_ind. intros rk pk root par st. rewrite EditFacts.walk1_eq, WalkFacts.walk1_eq.
  assert (E : below new_cb (self rk s) s st = walk_kids old_cb (nxt root s) s st).
  { generalize (self rk s) (nxt root s). intros rk' r.
    assert (HS : forall b k st, (forall x, In x (elems b) -> In x (parts s)) -> sl_ new_cb rk' k b st = walk_slice old_cb r (PStmt s) b st).
    { intros b k st0 Hb. apply agree_sl. apply Forall_forall. auto. }
    assert (HT : forall e k st, In e (parts s) -> temp_ new_cb rk' k e st = walk_temp old_cb r (PStmt s) e st) by (intros e k st0 He; apply agree_temp; auto).
    destruct s; try reflexivity; cbn [below walk_kids];
    repeat match goal with
    | |- context [sl_ new_cb rk' ?k ?b ?st] => rewrite (HS b k st) by (intros ? ?; cbn; rewrite ?in_app_iff; solve [auto 10]);
        match goal with |- context [walk_slice old_cb ?a1 ?a2 b st] => destruct (walk_slice old_cb a1 a2 b st) end
    | |- context [temp_ new_cb rk' ?k ?b ?st] => rewrite (HT b k st) by (cbn; rewrite ?in_app_iff; solve [auto 10]);
        match goal with |- context [walk_temp old_cb ?a1 ?a2 b st] => destruct (walk_temp old_cb a1 a2 b st) end
    end; reflexivity. }
  rewrite E. destruct (walk_kids old_cb (nxt root s) s st) as [s' st']. unfold new_cb, old_cb. destruct (c s' st') as [x st'']. reflexivity.
Qed.
End Agree.
Theorem C66_agrees : forall (St : Type) (c : stmt -> St -> stmt * St) m st,
  WalkEdit (fun _ _ s st => let '(x, st') := c s st in (s, Some x, st')) m st = Walk (fun _ _ s st => c s st) m st.
Proof.
  intros St c m st. unfold WalkEdit, Walk, StatementWalk. destruct (m_body m) as [l|]; [|reflexivity].
  change (fun _ _ s st => let '(x, st') := c s st in (s, Some x, st')) with (new_cb c). change (fun _ _ s st => c s st) with (old_cb c).
  rewrite (agree_list c l (proj2 (Forall_forall _ _) (fun x _ => agree_all c x)) _ _ [] None (PRoot (Some l))).
  destruct (Walk.walk_list (old_cb c) None (PRoot (Some l)) l st). reflexivity.
Qed.

(** Turning sums into differences through the pointer, and renaming calls by assignment. *)
Definition to_minus (s : stmt) : stmt := match s with SExp OpPlus l r fl => SExp OpMinus l r fl | _ => s end.
Definition renamed (s : stmt) : option stmt := match s with SMethod n ps pfl fl => Some (SMethod (n ++ B "2") ps pfl fl) | _ => None end.
Definition edit_cb (r : option stmt) (p : parent) (s : stmt) (n : nat) : stmt * option stmt * nat := (to_minus s, renamed s, S n).
Lemma edit_local l : local (fun s => left_in l (to_minus s) (renamed s)).
Proof.
  split.
  - intros s k. destruct l, s; try reflexivity; try (destruct k; reflexivity); destruct o, k; reflexivity.
  - intros s t H. destruct s, t; try discriminate H; try exact H; cbn in H; destruct l; cbn [left_in renamed to_minus own] in *; try congruence;
    try (destruct o, o0; try discriminate H; cbn [own]; congruence).
Qed.
Definition edit_text : bytes := B "Функция П() Если Ф(1 + 2) = 1 + 2 Тогда Ф(а + Г(3)); б = 4 + Ф(5); Возврат Ф(6) + 7; КонецЕсли; КонецФункции".
Example C66_example : accepted edit_text (tree_of edit_text) /\ given_by edit_cb to_minus renamed /\ (forall s, pointed s = false -> to_minus s = s) /\
  (forall l, local (fun s => left_in l (to_minus s) (renamed s))) /\
  fst (WalkEdit edit_cb (tree_of edit_text) 0%nat) <> tree_of edit_text /\
  Print [] (Conf 0 true) (fst (WalkEdit edit_cb (tree_of edit_text) 0%nat)) =
    Some (B "Функция П() Если Ф(1 - 2) = (1 - 2) Тогда Ф2(а - Г(3));б = 4 + Ф(5);Возврат Ф(6) - 7;КонецЕсли;КонецФункции ").
Proof.
  split; [accepted|]. split; [intros r p s st; reflexivity|]. split; [intros [] H; try reflexivity; discriminate H|]. split; [apply edit_local|].
  split; [|vm_compute; reflexivity]. intros H. apply (f_equal (fun m => Print [] (Conf 0 true) m)) in H. revert H. vm_compute. discriminate.
Qed.

Print Assumptions C66_any.
Print Assumptions C66_local.
Print Assumptions C66_in_place.
Print Assumptions C66_determined.
Print Assumptions C66_agrees.
