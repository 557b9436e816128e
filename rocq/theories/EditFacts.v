(** Walking with edits is visiting the slots one by one. *)
From Verif Require Import Bytes Float64 GoTime Ast StmtInd Walk WalkSpec WalkFacts FlatInv WalkModule WalkEdit EditSpec.

Section Facts.
Context {St : Type}.
Context (cb : option stmt -> parent -> stmt -> St -> stmt * option stmt * St).

(** A visit below a statement. *)
Definition vis (rk : stmt -> option stmt) (pk : stmt -> parent) (lst : bool) (x : stmt * St) (p : path) : stmt * St :=
  let '(i, st) := x in
  match at_path i p with
  | None => x
  | Some s =>
    let par := match p with [] => pk i | _ => match at_path i (up p) with Some q => PStmt q | None => pk i end end in
    let '(n, a, st') := cb (rk i) par s st in
    (put_path p (left_in (match p with [] => lst | _ => in_list p end) n a) i, st')
  end.

(** A place for a statement. *)
Definition frame (k : key) (K : stmt -> stmt) : Prop :=
  (forall c, nth_error (field_of (fst k) (K c)) (snd k) = Some c) /\ (forall c x, put k x (K c) = K x).

Lemma vis_frame k K rk pk lst p c st : frame k K ->
  vis rk pk lst (K c, st) (k :: p) =
  let '(c', st') := vis (fun y => rk (K y)) (fun y => PStmt (K y)) (is_list (fst k)) (c, st) p in (K c', st').
Proof.
  destruct k as [f i]. intros [F1 F2]. cbn [fst snd] in *. unfold vis. cbn [at_path]. rewrite F1.
  destruct (at_path c p) as [s|] eqn:E; [|reflexivity].
  assert (EP : match at_path (K c) (up ((f, i) :: p)) with Some q => PStmt q | None => pk (K c) end =
               match p with [] => PStmt (K c) | _ => match at_path c (up p) with Some q => PStmt q | None => PStmt (K c) end end).
  { destruct p as [|k' p]; [reflexivity|]. unfold up. change (removelast ((f, i) :: k' :: p)) with ((f, i) :: removelast (k' :: p)).
    cbn [at_path]. rewrite F1. destruct (at_path c (removelast (k' :: p))) eqn:E2; [reflexivity|].
    exfalso. revert E E2. clear. revert c k'. induction p as [|k p IH]; intros c k'; [discriminate|].
    change (removelast (k' :: k :: p)) with (k' :: removelast (k :: p)). destruct k' as [f j]. cbn [at_path].
    destruct (nth_error (field_of f c) j); [|discriminate]. apply IH. }
  rewrite EP. destruct (cb _ _ s st) as [[n a] st'] eqn:Ecb. cbn [put_path]. rewrite F1, F2.
  assert (EL : in_list ((f, i) :: p) = match p with [] => is_list f | _ => in_list p end) by (destruct p; reflexivity).
  rewrite EL. destruct p; cbn [fst]; reflexivity.
Qed.
Lemma fold_frame k K rk pk lst ps : frame k K -> forall c st,
  fold_left (vis rk pk lst) (map (cons k) ps) (K c, st) =
  let '(c', st') := fold_left (vis (fun y => rk (K y)) (fun y => PStmt (K y)) (is_list (fst k))) ps (c, st) in (K c', st').
Proof.
  intros F. induction ps as [|p ps IH]; intros c st; [reflexivity|]. cbn [map fold_left]. rewrite (vis_frame _ _ _ _ _ _ _ _ F).
  destruct (vis _ _ _ (c, st) p) as [c' st']. apply IH.
Qed.

(** What is shown of every statement. *)
Definition good (c : stmt) : Prop := forall rk pk lst st,
  fold_left (vis rk pk lst) (order c) (c, st) =
  let '(n, v, st') := walk1 cb rk pk c st in (if lst then v else n, st').

Definition lframe (f : field) (K : list stmt -> stmt) : Prop :=
  is_list f = true /\ (forall l, field_of f (K l) = l) /\ (forall l i x, put (f, i) x (K l) = K (replace_nth i x l)).
Lemma nth_mid {A} (d : list A) x l : nth_error (d ++ x :: l) (length d) = Some x.
Proof. induction d as [|y d IH]; [reflexivity|exact IH]. Qed.
Lemma replace_mid d x y l : replace_nth (length d) y (d ++ x :: l) = d ++ y :: l.
Proof. induction d as [|z d IH]; cbn; [reflexivity|]. rewrite IH. reflexivity. Qed.
Lemma lframe_frame f K d l : lframe f K -> frame (f, length d) (fun y => K (d ++ y :: l)).
Proof.
  intros (_ & F1 & F2). split; cbn [fst snd]; intros.
  - rewrite F1. apply nth_mid.
  - rewrite F2, replace_mid. reflexivity.
Qed.

Lemma fold_list f K rk pk lst : lframe f K -> forall l, Forall good l -> Forall (fun s => is_func s = false) l -> forall done st,
  fold_left (vis rk pk lst) (flat_map group (index f (length done) l)) (K (done ++ l), st) =
  let '(l', st') := walk_list cb (fun l => rk (K l)) (fun l => PStmt (K l)) done l st in (K l', st').
Proof.
  intros F l. induction l as [|x l IH]; intros Hg Hp done st; [rewrite app_nil_r; reflexivity|].
  inversion Hg as [|? ? G1 G2]; subst. inversion Hp as [|? ? P1 P2]; subst.
  cbn [index flat_map]. rewrite fold_left_app. unfold group at 2. cbn [fst snd].
  pose proof (fold_frame (f, length done) (fun y => K (done ++ y :: l)) rk pk lst (order x) (lframe_frame _ _ _ _ F) x st) as E.
  cbn beta in E. rewrite E. clear E. rewrite G1. cbn [walk_list fst]. destruct F as (F0 & F1 & F2). rewrite F0.
  destruct (walk1 cb _ _ x st) as [[n v] st1].
  replace (match x with SFunc _ _ _ _ _ _ _ => fun _ => Some n | _ => fun l0 => rk (K l0) end) with (fun l0 => rk (K l0)) by (destruct x; try reflexivity; discriminate).
  replace (done ++ v :: l) with ((done ++ [v]) ++ l) by (rewrite <- app_assoc; reflexivity).
  replace (S (length done)) with (length (done ++ [v])) by (rewrite app_length; cbn; lia).
  apply IH; assumption.
Qed.

(** The walk below a statement. *)
Definition sl_ rk (k : slice -> stmt) (b : slice) (st : St) : slice * St :=
  match b with
  | None => (None, st)
  | Some l => let '(l', st') := walk_list cb (fun l => rk (k (Some l))) (fun l => PStmt (k (Some l))) [] l st in (Some l', st')
  end.
Definition temp_ (rk : stmt -> option stmt) (k : stmt -> stmt) (s : stmt) (st : St) : stmt * St :=
  let '(s', _, st') := walk1 cb (fun y => rk (k y)) (fun y => PStmt (k y)) s st in (s', st').
Definition below (rk : stmt -> option stmt) (item : stmt) (st : St) : stmt * St :=
    match item with
    | SIf e tb eib eb =>
      let '(e', st) := temp_ rk (fun x => SIf x tb eib eb) e st in
      let '(tb', st) := sl_ rk (fun b => SIf e' b eib eb) tb st in
      let '(eb', st) := sl_ rk (fun b => SIf e' tb' eib b) eb st in
      let '(eib', st) := sl_ rk (fun b => SIf e' tb' b eb') eib st in
      (SIf e' tb' eib' eb', st)
    | STry b c =>
      let '(b', st) := sl_ rk (fun x => STry x c) b st in
      let '(c', st) := sl_ rk (fun x => STry b' x) c st in
      (STry b' c', st)
    | SLoop f t i w b =>
      let '(b', st) := sl_ rk (fun x => SLoop f t i w x) b st in
      (SLoop f t i w b', st)
    | SFunc vs n d b ps ty ex =>
      let '(b', st) := sl_ rk (fun x => SFunc vs n d x ps ty ex) b st in
      (SFunc vs n d b' ps ty ex, st)
    | SMethod n ps pfl fl =>
      let '(ps', st) := sl_ rk (fun x => SMethod n x pfl fl) ps st in
      (SMethod n ps' pfl fl, st)
    | SExp o l r fl =>
      let '(r', st) := temp_ rk (fun x => SExp o l x fl) r st in
      let '(l', st) := temp_ rk (fun x => SExp o x r' fl) l st in
      (SExp o l' r' fl, st)
    | STern e t f =>
      let '(e', st) := temp_ rk (fun x => STern x t f) e st in
      let '(t', st) := temp_ rk (fun x => STern e' x f) t st in
      let '(f', st) := temp_ rk (fun x => STern e' t' x) f st in
      (STern e' t' f', st)
    | SReturn p =>
      let '(p', st) := temp_ rk SReturn p st in
      (SReturn p', st)
    | _ => (item, st)
    end.
Definition self (rk : stmt -> option stmt) (item : stmt) : stmt -> option stmt :=
  match item with SFunc _ _ _ _ _ _ _ => Some | _ => rk end.
Lemma walk1_eq rk pk item st : walk1 cb rk pk item st =
  let '(item', st') := below (self rk item) item st in
  let '(n, a, st'') := cb (self rk item item') (pk item') item' st' in
  (n, match a with Some x => x | None => n end, st'').
Proof. destruct item; reflexivity. Qed.

Lemma fold_sl f (k : slice -> stmt) rk pk lst b st : is_list f = true -> (forall l, field_of f (k (Some l)) = l) ->
  (forall l i x, put (f, i) x (k (Some l)) = k (Some (replace_nth i x l))) ->
  Forall good (elems b) -> Forall (fun s => is_func s = false) (elems b) ->
  fold_left (vis rk pk lst) (flat_map group (index f 0 (elems b))) (k b, st) =
  let '(b', st') := sl_ rk k b st in (k b', st').
Proof.
  intros F0 F1 F2 Hg Hp. destruct b as [l|]; [|reflexivity]. cbn [elems sl_] in *.
  pose proof (fold_list f (fun l => k (Some l)) rk pk lst (conj F0 (conj F1 F2)) l Hg Hp [] st) as E. cbn [app length] in E. rewrite E.
  destruct (walk_list cb _ _ [] l st). reflexivity.
Qed.
Lemma fold_temp f (k : stmt -> stmt) rk pk lst e st : is_list f = false -> (forall c, field_of f (k c) = [c]) ->
  (forall c x, put (f, 0%nat) x (k c) = k x) -> good e ->
  fold_left (vis rk pk lst) (flat_map group (index f 0 [e])) (k e, st) =
  let '(e', st') := temp_ rk k e st in (k e', st').
Proof.
  intros F0 F1 F2 Hg. cbn [index flat_map]. rewrite app_nil_r. unfold group. cbn [fst snd].
  rewrite (fold_frame (f, 0%nat) k); [|split; [intros c; cbn [fst snd]; rewrite F1; reflexivity | exact F2]].
  rewrite Hg. cbn [fst]. rewrite F0. unfold temp_. destruct (walk1 cb _ _ e st) as [[n v] st']. reflexivity.
Qed.

Lemma below_fold item rk pk lst st : (forall x, In x (parts item) -> good x) -> (forall x, In x (parts item) -> is_func x = false) ->
  fold_left (vis rk pk lst) (flat_map group (kids item)) (item, st) = below rk item st.
Proof.
  intros Hg Hp.
  destruct item; try reflexivity; cbn [kids below]; rewrite ?flat_map_app, ?fold_left_app.
  - rewrite (fold_sl FArg (fun x => SMethod name x pfl fl)); try reflexivity; apply Forall_forall; auto.
  - rewrite (fold_temp FTernCond (fun x => STern x item2 item3)); try reflexivity; [|apply Hg; cbn; auto].
    destruct (temp_ _ _ item1 st) as [e' st1].
    rewrite (fold_temp FTernTrue (fun x => STern e' x item3)); try reflexivity; [|apply Hg; cbn; auto].
    destruct (temp_ _ _ item2 st1) as [t' st2].
    rewrite (fold_temp FTernFalse (fun x => STern e' t' x)); try reflexivity. apply Hg; cbn; auto.
  - rewrite (fold_temp FRight (fun x => SExp o item1 x fl)); try reflexivity; [|apply Hg; cbn; auto].
    destruct (temp_ _ _ item2 st) as [r' st1].
    rewrite (fold_temp FLeft (fun x => SExp o x r' fl)); try reflexivity. apply Hg; cbn; auto.
  - rewrite (fold_temp FCond (fun x => SIf x tb eib eb)); try reflexivity; [|apply Hg; cbn; auto].
    destruct (temp_ _ _ item st) as [e' st1].
    rewrite (fold_sl FThen (fun x => SIf e' x eib eb)); try reflexivity; try (apply Forall_forall; intros x Hx; (apply Hg || apply Hp); cbn [parts In]; rewrite ?in_app_iff; auto).
    destruct (sl_ _ _ tb st1) as [tb' st2].
    rewrite (fold_sl FElse (fun x => SIf e' tb' eib x)); try reflexivity; try (apply Forall_forall; intros x Hx; (apply Hg || apply Hp); cbn [parts In]; rewrite ?in_app_iff; auto).
    destruct (sl_ _ _ eb st2) as [eb' st3].
    rewrite (fold_sl FElseIf (fun x => SIf e' tb' x eb')); try reflexivity; try (apply Forall_forall; intros x Hx; (apply Hg || apply Hp); cbn [parts In]; rewrite ?in_app_iff; auto).
  - rewrite (fold_sl FTryBody (fun x => STry x catch)); try reflexivity; try (apply Forall_forall; intros x Hx; (apply Hg || apply Hp); cbn [parts In]; rewrite ?in_app_iff; auto).
    destruct (sl_ _ _ body st) as [b' st1].
    rewrite (fold_sl FCatch (fun x => STry b' x)); try reflexivity; try (apply Forall_forall; intros x Hx; (apply Hg || apply Hp); cbn [parts In]; rewrite ?in_app_iff; auto).
  - rewrite (fold_temp FReturn SReturn); try reflexivity. apply Hg; cbn; auto.
  - rewrite (fold_sl FLoopBody (fun x => SLoop item1 item2 item3 item4 x)); try reflexivity; try (apply Forall_forall; intros x Hx; (apply Hg || apply Hp); cbn [parts In]; rewrite ?in_app_iff; auto 10).
  - rewrite (fold_sl FFuncBody (fun x => SFunc vars name directive x params ty export)); try reflexivity; try (apply Forall_forall; intros x Hx; (apply Hg || apply Hp); cbn [parts In]; rewrite ?in_app_iff; auto 10).
Qed.

Lemma walk1_fold item : (forall x, In x (parts item) -> good x) -> (forall x, In x (parts item) -> is_func x = false) ->
  forall rk pk lst st, fold_left (vis (self rk item) pk lst) (order item) (item, st) =
  let '(n, v, st') := walk1 cb rk pk item st in (if lst then v else n, st').
Proof.
  intros Hg Hp rk pk lst st. rewrite order_eq, fold_left_app, (below_fold item _ _ _ _ Hg Hp), walk1_eq.
  destruct (below _ item st) as [i' st']. cbn [fold_left vis at_path put_path]. destruct (cb _ _ i' st') as [[n a] st''].
  unfold left_in. destruct a, lst; reflexivity.
Qed.
Lemma plain_good s : plain s -> good s.
Proof.
  induction s as [s IH] using stmt_parts_ind. intros H rk pk lst st. inversion H as [? Hf Hp]; subst.
  rewrite Forall_forall in Hp. rewrite <- walk1_fold.
  - replace (self rk s) with rk by (destruct s; try reflexivity; discriminate). reflexivity.
  - intros x Hx. apply IH; auto.
  - intros x Hx. specialize (Hp x Hx). inversion Hp. assumption.
Qed.
End Facts.

(** * Modules *)
Section Modules.
Context {St : Type}.
Context (cb : option stmt -> parent -> stmt -> St -> stmt * option stmt * St).
Lemma is_func_put k x s : is_func (put k x s) = is_func s.
Proof. destruct k as [f i], f, s; reflexivity. Qed.
Lemma is_func_put_path p x s : p <> [] -> is_func (put_path p x s) = is_func s.
Proof.
  destruct p as [|[f i] p]; [congruence|]. intros _. cbn [put_path]. destruct (nth_error (field_of f s) i); [apply is_func_put|reflexivity].
Qed.
Lemma visit_item nm g done l (rk : stmt -> option stmt) (last : option stmt) c st p :
  p <> [] -> (forall y, is_func y = is_func c -> rk y = match y with SFunc _ _ _ _ _ _ _ => Some y | _ => last end) ->
  visit cb (Module nm g (Some (done ++ c :: l)), last, st) (length done, p) =
  let '(c', st') := vis cb rk (fun y => PRoot (Some (done ++ y :: l))) true (c, st) p in
  (Module nm g (Some (done ++ c' :: l)), last, st').
Proof.
  intros Np Hr. unfold visit, vis, slot_at, around. cbn [m_body elems fst snd]. rewrite nth_mid.
  destruct (at_path c p) as [s|] eqn:E; [|reflexivity].
  replace (match match c with SFunc vs n d b ps ty ex => Some (SFunc vs n d b ps ty ex) | _ => None end with Some f => Some f | None => last end)
    with (rk c) by (rewrite (Hr c eq_refl); destruct c; reflexivity).
  destruct p as [|k p]; [congruence|].
  destruct (cb _ _ s st) as [[n a] st'].
  unfold put_slot. cbn [m_body elems fst snd]. rewrite nth_mid. cbn [m_name m_gvars]. unfold in_slice. cbn [option_map]. rewrite replace_mid. reflexivity.
Qed.
Lemma visit_items nm g done l rk last ps : (forall p, In p ps -> p <> []) -> forall c st,
  (forall y, is_func y = is_func c -> rk y = match y with SFunc _ _ _ _ _ _ _ => Some y | _ => last end) ->
  fold_left (visit cb) (map (pair (length done)) ps) (Module nm g (Some (done ++ c :: l)), last, st) =
  (let '(c', st') := fold_left (vis cb rk (fun y => PRoot (Some (done ++ y :: l))) true) ps (c, st) in
  (Module nm g (Some (done ++ c' :: l)), last, st')) /\
  is_func (fst (fold_left (vis cb rk (fun y => PRoot (Some (done ++ y :: l))) true) ps (c, st))) = is_func c.
Proof.
  induction ps as [|p ps IH]; intros Np c st Hr; [split; reflexivity|]. cbn [map fold_left].
  rewrite (visit_item _ _ _ _ _ _ _ _ _ (Np p (or_introl eq_refl)) Hr).
  assert (Hf : is_func (fst (vis cb rk (fun y => PRoot (Some (done ++ y :: l))) true (c, st) p)) = is_func c).
  { unfold vis. destruct (at_path c p) as [s|]; [|reflexivity]. destruct (cb _ _ s st) as [[n a] st']. cbn [fst].
    apply is_func_put_path. apply Np. left. reflexivity. }
  destruct (vis _ _ _ _ (c, st) p) as [c' st']. cbn [fst] in Hf. destruct (IH (fun q H => Np q (or_intror H)) c' st') as [I1 I2].
  - intros y Hy. apply Hr. congruence.
  - split; [exact I1|congruence].
Qed.
Lemma group_nonempty ks p : In p (flat_map group ks) -> p <> [].
Proof. intros H. apply in_flat in H as (kc & _ & H). apply in_map_iff in H as (q & <- & _). discriminate. Qed.

Definition rk_of (last : option stmt) (y : stmt) : option stmt := match y with SFunc _ _ _ _ _ _ _ => Some y | _ => last end.
Lemma visit_statement nm g done l last x st : shallow x ->
  fold_left (visit cb) (map (pair (length done)) (order x)) (Module nm g (Some (done ++ x :: l)), last, st) =
  let '(n, v, st') := walk1 cb (fun _ => last) (fun y => PRoot (Some (done ++ y :: l))) x st in
  (Module nm g (Some (done ++ v :: l)), match x with SFunc _ _ _ _ _ _ _ => Some n | _ => last end, st').
Proof.
  intros Hs. unfold shallow in Hs. rewrite Forall_forall in Hs.
  assert (Hg : forall y, In y (parts x) -> good cb y) by (intros y Hy; apply plain_good; auto).
  assert (Hp : forall y, In y (parts x) -> is_func y = false) by (intros y Hy; specialize (Hs y Hy); inversion Hs; assumption).
  rewrite order_eq, map_app, fold_left_app, walk1_eq.
  destruct (visit_items nm g done l (self (fun _ => last) x) last (flat_map group (kids x)) (group_nonempty _) x st) as [E1 E2].
  { intros y Hy. destruct x, y; try discriminate Hy; reflexivity. }
  rewrite E1. clear E1. rewrite (below_fold cb x _ _ _ _ Hg Hp) in *. destruct (below cb _ x st) as [x' st']. cbn [fst] in E2.
  cbn [map fold_left]. unfold visit, slot_at, around. cbn [m_body elems fst snd]. rewrite nth_mid. cbn [at_path].
  replace (match match x' with SFunc vs n d b ps ty ex => Some (SFunc vs n d b ps ty ex) | _ => None end with Some f => Some f | None => last end)
    with (self (fun _ => last) x x') by (destruct x, x'; try discriminate E2; reflexivity).
  destruct (cb _ _ x' st') as [[n a] st'']. unfold put_slot. cbn [m_body elems fst snd]. rewrite nth_mid. cbn [m_name m_gvars put_path].
  unfold in_slice. cbn [option_map]. rewrite replace_mid. cbn [in_list]. unfold left_in.
  destruct x, x'; try discriminate E2; reflexivity.
Qed.
Lemma visit_list nm g l : Forall shallow l -> forall done last rk st, (forall l, rk l = last) ->
  exists last', fold_left (visit cb) (slots_from (length done) l) (Module nm g (Some (done ++ l)), last, st) =
  let '(l', st') := walk_list cb rk (fun l => PRoot (Some l)) done l st in (Module nm g (Some l'), last', st').
Proof.
  induction l as [|x l IH]; intros Hl done last rk st Hr; [exists last; rewrite app_nil_r; reflexivity|].
  inversion Hl as [|? ? H1 H2]; subst. unfold slots_from. cbn [index flat_map]. rewrite fold_left_app. cbn [fst snd].
  rewrite (visit_statement nm g done l last x st H1). cbn [walk_list].
  assert (EW : forall rk' st0, (forall y, rk' y = last) -> walk1 cb rk' (fun y => PRoot (Some (done ++ y :: l))) x st0 =
    walk1 cb (fun _ => last) (fun y => PRoot (Some (done ++ y :: l))) x st0).
  { intros rk' st0 Hk. unfold shallow in H1. rewrite Forall_forall in H1.
    assert (Hg : forall y, In y (parts x) -> good cb y) by (intros y Hy; apply plain_good; auto).
    assert (Hp : forall y, In y (parts x) -> is_func y = false) by (intros y Hy; specialize (H1 y Hy); inversion H1; assumption).
    assert (EF : forall pk lst ps s, fold_left (vis cb (self rk' x) pk lst) ps s = fold_left (vis cb (self (fun _ => last) x) pk lst) ps s).
    { intros pk lst ps. induction ps as [|q ps IHp]; intros s; [reflexivity|]. cbn [fold_left]. rewrite IHp. f_equal.
      unfold vis. destruct s as [i st1]. destruct (at_path i q); [|reflexivity].
      replace (self rk' x i) with (self (fun _ => last) x i) by (unfold self; destruct x; rewrite ?Hk; reflexivity). reflexivity. }
    pose proof (walk1_fold cb x Hg Hp rk' (fun y => PRoot (Some (done ++ y :: l))) true st0) as A1.
    pose proof (walk1_fold cb x Hg Hp (fun _ => last) (fun y => PRoot (Some (done ++ y :: l))) true st0) as A2.
    pose proof (walk1_fold cb x Hg Hp rk' (fun y => PRoot (Some (done ++ y :: l))) false st0) as A3.
    pose proof (walk1_fold cb x Hg Hp (fun _ => last) (fun y => PRoot (Some (done ++ y :: l))) false st0) as A4.
    rewrite EF in A1. rewrite A2 in A1. rewrite EF in A3. rewrite A4 in A3.
    destruct (walk1 cb rk' _ x st0) as [[n v] s1], (walk1 cb (fun _ => last) _ x st0) as [[n' v'] s1']. congruence. }
  rewrite (EW (fun y => rk (done ++ y :: l)) st (fun y => Hr _)). destruct (walk1 cb _ _ x st) as [[n v] st1].
  replace (done ++ v :: l) with ((done ++ [v]) ++ l) by (rewrite <- app_assoc; reflexivity).
  replace (S (length done)) with (length (done ++ [v])) by (rewrite app_length; cbn; lia).
  apply IH; [exact H2|]. intros l0. destruct x; rewrite ?Hr; reflexivity.
Qed.
Theorem WalkEdit_visits m st : flat_module m -> WalkEdit cb m st = visits cb (slots m) m st.
Proof.
  intros Hf. unfold WalkEdit, visits, slots, flat_module in *. destruct m as [nm g [l|]]; cbn [m_body elems m_name m_gvars] in *; [|reflexivity].
  destruct (visit_list nm g l Hf [] None (fun _ => None) st (fun _ => eq_refl)) as [last' E]. cbn [length app] in E. rewrite E.
  destruct (walk_list cb _ _ [] l st). reflexivity.
Qed.
End Modules.
