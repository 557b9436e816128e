(** Walk: the order of the visits and the effect of a replacement. *)
From Verif Require Import Bytes Float64 GoTime Ast StmtInd Walk WalkSpec.

Lemma in_flat {A C} (f : A -> list C) l y : In y (flat_map f l) <-> exists x, In x l /\ In y (f x).
Proof. apply in_flat_map. Qed.

(** * The order of the slots *)
Fixpoint order (s : stmt) : list path :=
  let go := fun f => fix go (i : nat) (l : list stmt) : list path :=
    match l with [] => [] | x :: l' => map (cons (f, i)) (order x) ++ go (S i) l' end in
  let sl f b := match b with Some l => go f 0%nat l | None => [] end in
  let one f e := map (cons (f, 0%nat)) (order e) in
  (match s with
   | SIf e tb eib eb => one FCond e ++ sl FThen tb ++ sl FElse eb ++ sl FElseIf eib
   | STry b c => sl FTryBody b ++ sl FCatch c
   | SLoop _ _ _ _ b => sl FLoopBody b
   | SFunc _ _ _ b _ _ _ => sl FFuncBody b
   | SMethod _ b _ _ => sl FArg b
   | SExp _ l r _ => one FRight r ++ one FLeft l
   | STern e t f => one FTernCond e ++ one FTernTrue t ++ one FTernFalse f
   | SReturn e => one FReturn e
   | _ => []
   end) ++ [[]].

Fixpoint index (f : field) (i : nat) (l : list stmt) : list (key * stmt) :=
  match l with [] => [] | x :: l' => ((f, i), x) :: index f (S i) l' end.
Definition kids (s : stmt) : list (key * stmt) :=
  match s with
  | SIf e tb eib eb => index FCond 0 [e] ++ index FThen 0 (elems tb) ++ index FElse 0 (elems eb) ++ index FElseIf 0 (elems eib)
  | STry b c => index FTryBody 0 (elems b) ++ index FCatch 0 (elems c)
  | SLoop _ _ _ _ b => index FLoopBody 0 (elems b)
  | SFunc _ _ _ b _ _ _ => index FFuncBody 0 (elems b)
  | SMethod _ b _ _ => index FArg 0 (elems b)
  | SExp _ l r _ => index FRight 0 [r] ++ index FLeft 0 [l]
  | STern e t f => index FTernCond 0 [e] ++ index FTernTrue 0 [t] ++ index FTernFalse 0 [f]
  | SReturn e => index FReturn 0 [e]
  | _ => []
  end.

Definition group (kc : key * stmt) : list path := map (cons (fst kc)) (order (snd kc)).
Lemma order_eq s : order s = flat_map group (kids s) ++ [[]].
Proof.
  assert (G : forall f l i, (fix go (i : nat) (l : list stmt) : list path :=
    match l with [] => [] | x :: l' => map (cons (f, i)) (order x) ++ go (S i) l' end) i l = flat_map group (index f i l)).
  { intros f l. induction l as [|x l IH]; intros i; [reflexivity|]. cbn [index flat_map]. rewrite IH. reflexivity. }
  destruct s; cbn [order kids]; try reflexivity; rewrite ?flat_map_app, ?G; cbn [index flat_map group fst snd]; rewrite ?app_nil_r;
  repeat match goal with b : option (list stmt) |- _ => destruct b end; cbn [elems]; rewrite ?G; reflexivity.
Qed.

Lemma in_index f l : forall i k c, In (k, c) (index f i l) <-> exists j, k = (f, (i + j)%nat) /\ nth_error l j = Some c.
Proof.
  induction l as [|x l IH]; intros i k c; cbn [index].
  - split; [intros []|]. intros (j & _ & H). destruct j; discriminate.
  - cbn [In]. rewrite IH. split.
    + intros [H|(j & -> & H)].
      * injection H as <- <-. exists 0%nat. rewrite Nat.add_0_r. split; reflexivity.
      * exists (S j). split; [f_equal; lia | exact H].
    + intros (j & -> & H). destruct j as [|j].
      * left. cbn in H. injection H as <-. f_equal. f_equal. lia.
      * right. exists j. split; [f_equal; lia | exact H].
Qed.

Lemma in_one f (e : stmt) k c : In (k, c) (index f 0 [e]) <-> exists j, k = (f, j) /\ nth_error [e] j = Some c.
Proof. rewrite in_index. reflexivity. Qed.

(** The kids are what is in the walked fields. *)
Lemma kids_spec s f i c : In ((f, i), c) (kids s) <-> walked f = true /\ nth_error (field_of f s) i = Some c.
Proof.
  assert (N : forall x, nth_error (@nil stmt) i = Some x <-> False) by (intros x; destruct i; split; [discriminate | intros [] | discriminate | intros []]).
  assert (J : forall g l, In ((f, i), c) (index g 0 l) <-> f = g /\ nth_error l i = Some c).
  { intros g l. rewrite in_index. split; [intros (j & [= -> ->] & H); auto | intros (-> & H); exists i; auto]. }
  destruct s, f; cbn [kids walked field_of]; rewrite ?in_app_iff, ?J, ?N; cbn [In];
  intuition (try discriminate).
Qed.

Fixpoint keys_from (f : field) (i n : nat) : list key := match n with O => [] | S n' => (f, i) :: keys_from f (S i) n' end.
Lemma index_keys f l : forall i, map fst (index f i l) = keys_from f i (length l).
Proof. induction l as [|x l IH]; intros i; [reflexivity|]. cbn. rewrite IH. reflexivity. Qed.
Lemma in_keys f n : forall i k, In k (keys_from f i n) -> fst k = f /\ (i <= snd k)%nat.
Proof.
  induction n as [|n IH]; intros i k; [intros []|]. intros [<-|H]; [auto|]. apply IH in H. intuition lia.
Qed.
Lemma keys_nodup f n : forall i, NoDup (keys_from f i n).
Proof.
  induction n as [|n IH]; intros i; constructor; [|apply IH]. intros H. apply in_keys in H as [_ H]. cbn in H. lia.
Qed.
Lemma nodup_app {A} (l1 l2 : list A) : NoDup l1 -> NoDup l2 -> (forall x, In x l1 -> In x l2 -> False) -> NoDup (l1 ++ l2).
Proof.
  induction l1 as [|x l1 IH]; intros H1 H2 H; [exact H2|]. inversion H1; subst. cbn. constructor.
  - rewrite in_app_iff. intros [Hx|Hx]; [contradiction | apply (H x); [left; reflexivity | exact Hx]].
  - apply IH; auto. intros y Hy. apply H. right. exact Hy.
Qed.
Lemma kids_nodup s : NoDup (map fst (kids s)).
Proof.
  destruct s; cbn [kids]; try (constructor; fail); rewrite ?map_app, ?index_keys;
  repeat (apply nodup_app; [| |]); try apply keys_nodup; intros x; rewrite ?in_app_iff; intros H1 H2;
  repeat match goal with H : _ \/ _ |- _ => destruct H end;
  repeat match goal with H : In _ (keys_from _ _ _) |- _ => apply in_keys in H as [H _] end; congruence.
Qed.
Lemma kids_parts s kc : In kc (kids s) -> In (snd kc) (parts s).
Proof.
  destruct kc as [[f i] c]. rewrite kids_spec. intros [_ H]. apply nth_error_In in H. cbn [snd].
  destruct f, s; cbn [field_of parts] in *; cbn [In] in *; rewrite ?in_app_iff; intuition.
Qed.

(** In a block the kids come in order. *)
Lemma index_sorted f l : forall i j1 j2 c1 c2, In ((f, j1), c1) (index f i l) -> In ((f, j2), c2) (index f i l) -> (j1 < j2)%nat ->
  before (index f i l) ((f, j1), c1) ((f, j2), c2).
Proof.
  induction l as [|x l IH]; intros i j1 j2 c1 c2 H1 H2 Hlt; [destruct H1|]. cbn [index] in *. destruct H1 as [H1|H1].
  - injection H1 as <- <-. destruct H2 as [H2|H2]; [injection H2; lia|]. apply in_split in H2 as (y & z & ->).
    exists [], y, z. reflexivity.
  - destruct H2 as [H2|H2].
    + injection H2 as <- <-. apply in_index in H1 as (j & [= ->] & _). lia.
    + destruct (IH _ _ _ _ _ H1 H2 Hlt) as (a & b & c & ->). exists (((f, i), x) :: a), b, c. reflexivity.
Qed.
Lemma before_app {A} (l1 l2 l3 : list A) p q : before l2 p q -> before (l1 ++ l2 ++ l3) p q.
Proof. intros (x & y & z & ->). exists (l1 ++ x), y, (z ++ l3). rewrite <- !app_assoc. cbn. rewrite <- !app_assoc. reflexivity. Qed.
Lemma kids_sorted s f j1 j2 c1 c2 : In ((f, j1), c1) (kids s) -> In ((f, j2), c2) (kids s) -> (j1 < j2)%nat ->
  before (kids s) ((f, j1), c1) ((f, j2), c2).
Proof.
  intros H1 H2 Hlt. apply kids_spec in H1 as [W H1]. apply kids_spec in H2 as [_ H2].
  cut (exists a b, kids s = a ++ index f 0 (field_of f s) ++ b).
  { intros (a & b & ->). apply before_app. apply index_sorted; [apply in_index; exists j1; auto | apply in_index; exists j2; auto | exact Hlt]. }
  destruct s, f; try discriminate W; cbn [field_of kids] in *; try (destruct j1; discriminate H1);
  first [ exists []; eexists; reflexivity
        | exists [], []; rewrite app_nil_r; reflexivity
        | eexists; exists []; rewrite app_nil_r; reflexivity
        | do 2 eexists; reflexivity
        | do 2 eexists; rewrite app_assoc; reflexivity
        | eexists; exists []; rewrite app_nil_r, app_assoc; reflexivity
        | eexists; exists []; rewrite app_nil_r, app_assoc, app_assoc; reflexivity ].
Qed.

(** * Properties of the order *)
Lemma order_in s : forall p, In p (order s) <-> at_path s p <> None /\ forallb (fun k => walked (fst k)) p = true.
Proof.
  induction s as [s IH] using stmt_parts_ind. intros p. rewrite order_eq, in_app_iff, in_flat. split.
  - intros [([[f i] c] & Hk & Hp)|[<-|[]]]; [|cbn; split; [discriminate|reflexivity]].
    pose proof (kids_parts _ _ Hk) as Hc. apply kids_spec in Hk as [W Hk]. apply in_map_iff in Hp as (p' & <- & Hp).
    apply (IH c Hc) in Hp as [P1 P2]. cbn [at_path fst forallb]. rewrite Hk, W. auto.
  - destruct p as [|[f i] p]; [right; left; reflexivity|]. cbn [at_path fst forallb]. rewrite andb_true_iff. intros (H1 & W & H2). left.
    destruct (nth_error (field_of f s) i) as [c|] eqn:E; [|contradiction].
    assert (Hk : In ((f, i), c) (kids s)) by (apply kids_spec; auto). exists ((f, i), c). split; [exact Hk|].
    apply in_map. apply (IH c (kids_parts _ _ Hk)). auto.
Qed.

Lemma flat_map_nodup {A C} (f : A -> list C) l : (forall x, In x l -> NoDup (f x)) ->
  (forall x y z, In x l -> In y l -> In z (f x) -> In z (f y) -> x = y) -> NoDup l -> NoDup (flat_map f l).
Proof.
  induction l as [|x l IH]; intros H1 H2 H3; [constructor|]. cbn [flat_map]. inversion H3; subst. apply nodup_app.
  - apply H1. left. reflexivity.
  - apply IH; [intros; apply H1; right; assumption | intros y z w Hy Hz; apply H2; right; assumption | assumption].
  - intros z Hz1 Hz2. apply in_flat in Hz2 as (y & Hy & Hz2).
    assert (x = y) as -> by (apply (H2 x y z); [left; reflexivity | right; exact Hy | exact Hz1 | exact Hz2]). contradiction.
Qed.
Lemma map_nodup {A C} (f : A -> C) l : (forall x y, f x = f y -> x = y) -> NoDup l -> NoDup (map f l).
Proof.
  intros H. induction 1 as [|x l Hx Hn IH]; constructor; [|exact IH]. intros Hi. apply in_map_iff in Hi as (y & Hy & Hi). apply H in Hy. congruence.
Qed.
Lemma fst_nodup {A C} (l : list (A * C)) : NoDup (map fst l) -> NoDup l /\ forall k c c', In (k, c) l -> In (k, c') l -> c = c'.
Proof.
  induction l as [|[k c] l IH]; intros H; [split; [constructor|intros k c c' []]|].
  inversion H; subst. destruct (IH H3) as [I1 I2]. split.
  - constructor; [|exact I1]. intros Hi. apply H2. apply (in_map fst) in Hi. exact Hi.
  - intros k0 c0 c0' [E1|E1] [E2|E2]; [congruence| | |eauto].
    + injection E1 as <- <-. destruct H2. apply (in_map fst) in E2. exact E2.
    + injection E2 as <- <-. destruct H2. apply (in_map fst) in E1. exact E1.
Qed.
Lemma order_nodup s : NoDup (order s).
Proof.
  induction s as [s IH] using stmt_parts_ind. rewrite order_eq. destruct (fst_nodup _ (kids_nodup s)) as [K1 K2]. apply nodup_app.
  - apply flat_map_nodup; [| |exact K1].
    + intros kc Hk. apply map_nodup; [congruence | apply IH, kids_parts, Hk].
    + intros [k c] [k' c'] z H1 H2 Hz1 Hz2. apply in_map_iff in Hz1 as (p & <- & _). apply in_map_iff in Hz2 as (q & [= <- <-] & _).
      cbn [fst snd] in *. f_equal. eauto.
  - constructor; [intros []|constructor].
  - intros x Hx [<-|[]]. apply in_flat in Hx as (kc & _ & Hx). apply in_map_iff in Hx as (p & Hp & _). discriminate.
Qed.

(** Whatever lies inside comes before. *)
Lemma before_in_app {A} (l1 l2 : list A) p q : In p l1 -> In q l2 -> before (l1 ++ l2) p q.
Proof.
  intros H1 H2. apply in_split in H1 as (a & b & ->). apply in_split in H2 as (c & d & ->).
  exists a, (b ++ c), d. rewrite <- ?app_assoc. cbn. rewrite <- ?app_assoc. reflexivity.
Qed.
Lemma before_map {A C} (f : A -> C) l p q : before l p q -> before (map f l) (f p) (f q).
Proof. intros (x & y & z & ->). exists (map f x), (map f y), (map f z). rewrite map_app. cbn. rewrite map_app. reflexivity. Qed.
Lemma before_flat {A C} (f : A -> list C) l x p q : In x l -> before (f x) p q -> before (flat_map f l) p q.
Proof.
  intros H Hb. apply in_split in H as (a & b & ->). rewrite flat_map_app. cbn [flat_map]. apply before_app. exact Hb.
Qed.
Lemma before_flat2 {A C} (f : A -> list C) l x y p q : before l x y -> In p (f x) -> In q (f y) -> before (flat_map f l) p q.
Proof.
  intros (a & b & c & ->) Hp Hq. rewrite flat_map_app. cbn [flat_map]. rewrite flat_map_app. cbn [flat_map].
  rewrite app_assoc. apply before_in_app; rewrite ?in_app_iff; auto.
Qed.
Lemma order_inner s : forall p k r, In (p ++ k :: r) (order s) -> before (order s) (p ++ k :: r) p.
Proof.
  induction s as [s IH] using stmt_parts_ind. intros p k r H. rewrite order_eq in *. apply in_app_iff in H as [H|[H|[]]]; [|destruct p; discriminate].
  apply in_flat in H as ([k0 c] & Hk & H). unfold group in H. cbn [fst snd] in H. apply in_map_iff in H as (p' & E & H).
  destruct p as [|k1 p]; cbn [app] in *.
  - injection E as -> ->. apply before_in_app; [|left; reflexivity]. apply in_flat. exists (k, c). split; [exact Hk|]. apply in_map. exact H.
  - injection E as -> ->. rewrite <- (app_nil_r (flat_map group (kids s) ++ [[]])), <- app_assoc. apply (before_app []).
    apply (before_flat _ _ (k1, c) _ _ Hk). apply (before_map (cons k1)). apply (IH c (kids_parts _ _ Hk)). exact H.
Qed.
Lemma order_siblings s : forall b f i j, In (b ++ [(f, i)]) (order s) -> In (b ++ [(f, j)]) (order s) -> (i < j)%nat ->
  before (order s) (b ++ [(f, i)]) (b ++ [(f, j)]).
Proof.
  induction s as [s IH] using stmt_parts_ind. intros b f i j H1 H2 Hlt. rewrite order_eq in *.
  apply in_app_iff in H1 as [H1|[H1|[]]]; [|destruct b; discriminate]. apply in_app_iff in H2 as [H2|[H2|[]]]; [|destruct b; discriminate].
  apply in_flat in H1 as ([k1 c1] & K1 & H1). apply in_flat in H2 as ([k2 c2] & K2 & H2).
  apply in_map_iff in H1 as (p1 & E1 & H1). apply in_map_iff in H2 as (p2 & E2 & H2). cbn [fst snd] in *.
  rewrite <- (app_nil_r (flat_map group (kids s) ++ [[]])), <- app_assoc. apply (before_app []).
  destruct b as [|k b]; cbn [app] in *.
  - injection E1 as -> ->. injection E2 as -> ->. apply (before_flat2 _ _ _ _ _ _ (kids_sorted _ _ _ _ _ _ K1 K2 Hlt)); apply (in_map (cons _)); assumption.
  - injection E1 as -> ->. injection E2 as -> ->. destruct (fst_nodup _ (kids_nodup s)) as [_ K]. rewrite (K _ _ _ K2 K1) in H2.
    apply (before_flat _ _ (k, c1) _ _ K1). apply (before_map (cons k)). apply (IH c1 (kids_parts _ _ K1)); assumption.
Qed.

(** * Events *)
Definition nxt (root : option stmt) (s : stmt) : option stmt := match s with SFunc _ _ _ _ _ _ _ => Some s | _ => root end.
Fixpoint evts (root : option stmt) (par : parent) (s : stmt) : list event :=
  let r0 := nxt root s in
  let go := fix go (r : option stmt) (l : list stmt) : list event :=
    match l with [] => [] | x :: l' => evts r (PStmt s) x ++ go (nxt r x) l' end in
  let sl b := match b with Some l => go r0 l | None => [] end in
  let one e := evts r0 (PStmt s) e in
  (match s with
   | SIf e tb eib eb => one e ++ sl tb ++ sl eb ++ sl eib
   | STry b c => sl b ++ sl c
   | SLoop _ _ _ _ b => sl b
   | SFunc _ _ _ b _ _ _ => sl b
   | SMethod _ b _ _ => sl b
   | SExp _ l r _ => one r ++ one l
   | STern e t f => one e ++ one t ++ one f
   | SReturn e => one e
   | _ => []
   end) ++ [(r0, par, s)].
Definition evts_list (par : parent) := fix go (r : option stmt) (l : list stmt) : list event :=
  match l with [] => [] | x :: l' => evts r par x ++ go (nxt r x) l' end.
Definition kid_events (root : option stmt) (s : stmt) : list event :=
  let r0 := nxt root s in
  let sl b := evts_list (PStmt s) r0 (elems b) in
  let one e := evts_list (PStmt s) r0 [e] in
  match s with
   | SIf e tb eib eb => one e ++ sl tb ++ sl eb ++ sl eib
   | STry b c => sl b ++ sl c
   | SLoop _ _ _ _ b => sl b
   | SFunc _ _ _ b _ _ _ => sl b
   | SMethod _ b _ _ => sl b
   | SExp _ l r _ => one r ++ one l
   | STern e t f => one e ++ one t ++ one f
   | SReturn e => one e
   | _ => []
   end.
Lemma evts_eq root par s : evts root par s = kid_events root s ++ [(nxt root s, par, s)].
Proof.
  destruct s; cbn [evts]; unfold kid_events, nxt; cbn [evts_list]; rewrite ?app_nil_r; try reflexivity;
  repeat match goal with b : option (list stmt) |- _ => destruct b end; cbn [elems evts_list]; rewrite ?app_nil_r; reflexivity.
Qed.

(** Callbacks that change at most one slot, the one visited when the counter is [k]. *)
Definition calm {St} (cb : option stmt -> parent -> stmt -> St -> stmt * St) (cnt : St -> nat) (upd : event -> St -> St)
  (k : option nat) (new : stmt) : Prop :=
  (forall r p s st, cb r p s st = (if match k with Some k => Nat.eqb (cnt st) k | None => false end then new else s, upd (r, p, s) st)) /\
  (forall e st, cnt (upd e st) = S (cnt st)).
Definition after {St} (upd : event -> St -> St) (es : list event) (st : St) : St := fold_left (fun st e => upd e st) es st.
Lemma after_app {St} upd es1 es2 (st : St) : after upd (es1 ++ es2) st = after upd es2 (after upd es1 st).
Proof. apply fold_left_app. Qed.
Lemma after_cnt {St} cb cnt upd k new es : @calm St cb cnt upd k new -> forall st, cnt (after upd es st) = (cnt st + length es)%nat.
Proof.
  intros [_ H]. induction es as [|e es IH]; intros st; cbn [after fold_left length]; [lia|]. fold (after upd es (upd e st)). rewrite IH, H. lia.
Qed.
Definition misses (k : option nat) (c n : nat) : Prop := match k with Some k => (k < c \/ c + n <= k)%nat | None => True end.
Lemma misses_app k c n1 n2 : misses k c (n1 + n2) -> misses k c n1 /\ misses k (c + n1) n2.
Proof. unfold misses. destruct k; [lia|auto]. Qed.

Ltac slices := repeat match goal with b : option (list stmt) |- _ => destruct b end.

Definition quiet {St} cb (cnt : St -> nat) upd k (s : stmt) : Prop := forall root par st,
  misses k (cnt st) (length (evts root par s)) ->
  walk1 cb root par s st = (s, s, nxt root s, after upd (evts root par s) st).

Lemma quiet_list {St} cb cnt upd k new l : @calm St cb cnt upd k new -> Forall (quiet cb cnt upd k) l -> forall par root st,
  misses k (cnt st) (length (evts_list par root l)) ->
  walk_list cb root par l st = (l, after upd (evts_list par root l) st).
Proof.
  intros Hc. induction 1 as [|x l Hx Hl IH]; intros par root st Hm; [reflexivity|]. cbn [walk_list] in *. unfold evts_list in *. fold (evts_list par) in *.
  rewrite app_length in Hm. apply misses_app in Hm as [M1 M2]. rewrite (Hx _ _ _ M1). rewrite IH.
  - rewrite after_app. reflexivity.
  - rewrite (after_cnt _ _ _ _ _ _ Hc). exact M2.
Qed.
Lemma walk_list_eq {St} cb root par l (st : St) :
  (fix walk_list (root : option stmt) (par : parent) (l : list stmt) (st : St)
    {struct l} : list stmt * St :=
    match l with
    | [] => ([], st)
    | x :: l' =>
      let '(_, x', root', st1) := walk1 cb root par x st in
      let '(r, st2) := walk_list root' par l' st1 in
      (x' :: r, st2)
    end) root par l st = walk_list cb root par l st.
Proof. reflexivity. Qed.

(** walkHelper on slices and on the temporary slices of one element. *)
Definition walk_slice {St} (cb : option stmt -> parent -> stmt -> St -> stmt * St) root par (b : slice) st : slice * St :=
  match b with None => (None, st) | Some l => let '(l', st') := walk_list cb root par l st in (Some l', st') end.
Definition walk_temp {St} (cb : option stmt -> parent -> stmt -> St -> stmt * St) root par (s : stmt) st : stmt * St :=
  let '(s', _, _, st') := walk1 cb root par s st in (s', st').
Definition walk_kids {St} (cb : option stmt -> parent -> stmt -> St -> stmt * St) (root : option stmt) (item : stmt) (st : St) : stmt * St :=
  let me := PStmt item in
  match item with
    | SIf e tb eib eb =>
      let '(e', st) := walk_temp cb root me e st in
      let '(tb', st) := walk_slice cb root me tb st in
      let '(eb', st) := walk_slice cb root me eb st in
      let '(eib', st) := walk_slice cb root me eib st in
      (SIf e' tb' eib' eb', st)
    | STry b c =>
      let '(b', st) := walk_slice cb root me b st in
      let '(c', st) := walk_slice cb root me c st in
      (STry b' c', st)
    | SLoop f t i w b =>
      let '(b', st) := walk_slice cb root me b st in
      (SLoop f t i w b', st)
    | SFunc vs n d b ps ty ex =>
      let '(b', st) := walk_slice cb root me b st in
      (SFunc vs n d b' ps ty ex, st)
    | SMethod n ps pfl fl =>
      let '(ps', st) := walk_slice cb root me ps st in
      (SMethod n ps' pfl fl, st)
    | SExp o l r fl =>
      let '(r', st) := walk_temp cb root me r st in
      let '(l', st) := walk_temp cb root me l st in
      (SExp o l' r' fl, st)
    | STern e t f =>
      let '(e', st) := walk_temp cb root me e st in
      let '(t', st) := walk_temp cb root me t st in
      let '(f', st) := walk_temp cb root me f st in
      (STern e' t' f', st)
    | SReturn p =>
      let '(p', st) := walk_temp cb root me p st in
      (SReturn p', st)
    | _ => (item, st)
    end.
Lemma walk1_eq {St} cb root par s (st : St) : walk1 cb root par s st =
  let '(s', st') := walk_kids cb (nxt root s) s st in
  let '(x, st'') := cb (nxt root s) par s' st' in (s', x, nxt root s, st'').
Proof.
  destruct s; cbn [walk1 walk_kids nxt]; unfold walk_temp, walk_slice; try reflexivity; slices; rewrite ?walk_list_eq;
  repeat match goal with
  | |- context [walk1 cb ?r ?p ?s ?st] => destruct (walk1 cb r p s st) as [[[? ?] ?] ?]
  | |- context [walk_list cb ?r ?p ?s ?st] => rewrite ?walk_list_eq; destruct (walk_list cb r p s st)
  end; reflexivity.
Qed.

Lemma quiet_all {St} cb cnt upd k new : @calm St cb cnt upd k new -> forall s, quiet cb cnt upd k s.
Proof.
  intros Hc. induction s as [s IH] using stmt_parts_ind. intros root par st Hm. rewrite walk1_eq.
  rewrite evts_eq, app_length in Hm. apply misses_app in Hm as [M1 M2].
  assert (HL : forall l, (forall x, In x l -> In x (parts s)) -> forall r st, misses k (cnt st) (length (evts_list (PStmt s) r l)) ->
     walk_list cb r (PStmt s) l st = (l, after upd (evts_list (PStmt s) r l) st)).
  { intros l Hl r st0. apply (quiet_list _ _ _ _ _ _ Hc). apply Forall_forall. auto. }
  assert (HS : forall b, (forall x, In x (elems b) -> In x (parts s)) -> forall r st, misses k (cnt st) (length (evts_list (PStmt s) r (elems b))) ->
     walk_slice cb r (PStmt s) b st = (b, after upd (evts_list (PStmt s) r (elems b)) st)).
  { intros [l|] Hl r st0 Hm0; cbn [walk_slice elems] in *; [|reflexivity]. rewrite (HL l Hl r st0 Hm0). reflexivity. }
  assert (HO : forall x, In x (parts s) -> forall r st, misses k (cnt st) (length (evts_list (PStmt s) r [x])) ->
     walk_temp cb r (PStmt s) x st = (x, after upd (evts_list (PStmt s) r [x]) st)).
  { intros x Hx r st0 Hm0. unfold walk_temp. cbn [evts_list] in *. rewrite app_nil_r in *. rewrite (IH x Hx r (PStmt s) st0 Hm0). reflexivity. }
  assert (HK : walk_kids cb (nxt root s) s st = (s, after upd (kid_events root s) st)).
  { destruct s; cbn [walk_kids]; try reflexivity; unfold kid_events in *;
    repeat rewrite app_length in M1; repeat match goal with H : misses _ _ (_ + _) |- _ => apply misses_app in H as [? ?] end;
    repeat match goal with
    | |- context [walk_temp cb ?r ?p ?s ?st] => rewrite (HO s) by (first [cbn; rewrite ?in_app_iff; solve [auto 10] | rewrite ?(after_cnt _ _ _ _ _ _ Hc); first [assumption | rewrite Nat.add_assoc in *; assumption]])
    | |- context [walk_slice cb ?r ?p ?s ?st] => rewrite (HS s) by (first [intros ? ?; cbn; rewrite ?in_app_iff; solve [auto 10] | rewrite ?(after_cnt _ _ _ _ _ _ Hc); first [assumption | rewrite Nat.add_assoc in *; assumption]])
    end; rewrite ?after_app; reflexivity. }
  rewrite HK. destruct Hc as [C1 C2]. rewrite C1, evts_eq, after_app.
  pose proof (after_cnt cb cnt upd k new (kid_events root s) (conj C1 C2) st) as E. rewrite E.
  destruct k as [k|]; [|reflexivity]. cbn [misses length] in M2. destruct (Nat.eqb_spec (cnt st + length (kid_events root s)) k); [lia|reflexivity].
Qed.

(** What an event tells about its slot. *)
Definition describes (par : parent) (s : stmt) (p : path) (e : event) : Prop :=
  at_path s p = Some (snd e) /\ (p = [] -> snd (fst e) = par) /\
  (p <> [] -> exists q, at_path s (up p) = Some q /\ snd (fst e) = PStmt q).

Lemma forall2_app {A C} (R : A -> C -> Prop) a b c d : Forall2 R a b -> Forall2 R c d -> Forall2 R (a ++ c) (b ++ d).
Proof. apply Forall2_app. Qed.

Lemma describes_cons par s f i c p e : nth_error (field_of f s) i = Some c -> describes (PStmt s) c p e -> describes par s ((f, i) :: p) e.
Proof.
  intros E (D1 & D2 & D3). split; [cbn [at_path]; rewrite E; exact D1|]. split; [discriminate|]. intros _.
  destruct p as [|k p].
  - exists s. split; [reflexivity | auto].
  - destruct D3 as (q & Q1 & Q2); [discriminate|]. exists q. split; [|exact Q2].
    change (up ((f, i) :: k :: p)) with ((f, i) :: up (k :: p)). cbn [at_path]. rewrite E. exact Q1.
Qed.
Lemma describes_map par s f i c l es : nth_error (field_of f s) i = Some c -> Forall2 (describes (PStmt s) c) l es ->
  Forall2 (describes par s) (map (cons (f, i)) l) es.
Proof. intros E. induction 1; cbn [map]; constructor; [eapply describes_cons; eassumption | assumption]. Qed.

Lemma describes_list par s f l : forall done root, field_of f s = done ++ l ->
  Forall (fun x => forall root par, Forall2 (describes par x) (order x) (evts root par x)) l ->
  Forall2 (describes par s) (flat_map group (index f (length done) l)) (evts_list (PStmt s) root l).
Proof.
  induction l as [|x l IH]; intros done root E H; [constructor|]. cbn [index flat_map]. inversion H; subst.
  change (evts_list (PStmt s) root (x :: l)) with (evts root (PStmt s) x ++ evts_list (PStmt s) (nxt root x) l).
  apply Forall2_app.
  - unfold group. cbn [fst snd]. eapply describes_map; [|apply H2]. rewrite E, nth_error_app2, Nat.sub_diag by lia. reflexivity.
  - replace (S (length done)) with (length (done ++ [x])) by (rewrite app_length; cbn; lia). apply IH; [|assumption].
    rewrite <- app_assoc. exact E.
Qed.

Lemma describes_all s : forall root par, Forall2 (describes par s) (order s) (evts root par s).
Proof.
  induction s as [s IH] using stmt_parts_ind. intros root par. rewrite order_eq, evts_eq. apply Forall2_app.
  2: { constructor; [|constructor]. split; [reflexivity|]. split; [reflexivity|]. intros H. contradiction. }
  assert (HL : forall f l root, field_of f s = l -> (forall x, In x l -> In x (parts s)) ->
     Forall2 (describes par s) (flat_map group (index f 0 l)) (evts_list (PStmt s) root l)).
  { intros f l r E Hl. apply (describes_list par s f l [] r E). apply Forall_forall. auto. }
  destruct s; cbn [kids]; unfold kid_events; cbn [flat_map]; rewrite ?flat_map_app;
  repeat lazymatch goal with |- Forall2 _ (_ ++ _) _ => apply Forall2_app end;
  first [apply Forall2_nil | apply HL; [reflexivity | intros x Hx; cbn in *; rewrite ?in_app_iff; solve [intuition]]].
Qed.
Lemma order_length s root par : length (evts root par s) = length (order s).
Proof. pose proof (describes_all s root par) as H. symmetry. induction H; cbn; congruence. Qed.

(** * One replacement *)
Definition result (new s : stmt) (p : path) : stmt := if in_list p then put_path p new s else s.
Definition inner (new s : stmt) (p : path) : stmt := match p with [] => s | _ => result new s p end.
Definition hits {St} cb (cnt : St -> nat) k new (s : stmt) : Prop := forall root par st j p,
  nth_error (order s) j = Some p -> k = (cnt st + j)%nat ->
  exists st', cnt st' = (cnt st + length (order s))%nat /\
    walk1 cb root par s st = (inner new s p, result new s p, nxt root s, st').

Lemma nth_error_replace l : forall i x c, nth_error l i = Some c -> nth_error (replace_nth i x l) i = Some x.
Proof. induction l as [|y l IH]; intros [|i] x c; cbn; try discriminate; eauto. Qed.
Lemma replace_same l : forall i c, nth_error l i = Some c -> replace_nth i c l = l.
Proof. induction l as [|y l IH]; intros [|i] c; cbn; try discriminate; [congruence|]. intros H. rewrite IH by exact H. reflexivity. Qed.
Lemma put_same s f i c : nth_error (field_of f s) i = Some c -> put (f, i) c s = s.
Proof.
  intros H. destruct f, s; cbn [put fst snd field_of] in *; try reflexivity; slices; cbn [elems] in *;
  try (destruct i as [|[|i]]; cbn in H; congruence); try (destruct i; discriminate H);
  cbn [in_slice option_map]; rewrite replace_same by exact H; reflexivity.
Qed.

Lemma group_list_length l : forall f i root par, length (flat_map group (index f i l)) = length (evts_list par root l).
Proof.
  induction l as [|x l IH]; intros f i root par; [reflexivity|]. cbn [index flat_map].
  change (evts_list par root (x :: l)) with (evts root par x ++ evts_list par (nxt root x) l).
  rewrite !app_length, <- (IH f (S i) (nxt root x) par), order_length. unfold group. rewrite map_length. reflexivity.
Qed.

Lemma hits_list {St} cb cnt upd k new l : @calm St cb cnt upd (Some k) new -> Forall (hits cb cnt k new) l -> forall f i par root st j p,
  nth_error (flat_map group (index f i l)) j = Some p -> k = (cnt st + j)%nat ->
  exists j' c q st', p = (f, (i + j')%nat) :: q /\ nth_error l j' = Some c /\
    cnt st' = (cnt st + length (flat_map group (index f i l)))%nat /\
    walk_list cb root par l st = (replace_nth j' (result new c q) l, st').
Proof.
  intros Hc. induction 1 as [|x l Hx Hl IH]; intros f i par root st j p Hj Hk; [destruct j; discriminate|].
  cbn [index flat_map] in *. unfold group at 1 in Hj. cbn [fst snd] in Hj.
  destruct (Nat.lt_ge_cases j (length (order x))) as [Hlt|Hge].
  - rewrite nth_error_app1 in Hj by (rewrite map_length; exact Hlt). rewrite nth_error_map in Hj.
    match type of Hj with context [nth_error ?u ?v] => destruct (nth_error u v) as [q|] eqn:Eq end; cbn [option_map] in Hj; [|discriminate Hj]. injection Hj as <-.
    destruct (Hx root par st j q Eq Hk) as (st1 & C1 & E1).
    exists 0%nat, x, q. rewrite Nat.add_0_r. cbn [walk_list]. rewrite E1.
    rewrite (quiet_list cb cnt upd (Some k) new l Hc).
    + eexists. split; [reflexivity|]. split; [reflexivity|]. split; [|reflexivity].
      rewrite (after_cnt _ _ _ _ _ _ Hc), C1, app_length. unfold group at 1. rewrite map_length. cbn [snd].
      rewrite (group_list_length l f (S i) (nxt root x) par). lia.
    + apply Forall_forall. intros y _. apply (quiet_all _ _ _ _ _ Hc).
    + cbn [misses]. left. rewrite C1. lia.
  - rewrite nth_error_app2 in Hj by (rewrite map_length; exact Hge). rewrite map_length in Hj.
    assert (E1 : walk1 cb root par x st = (x, x, nxt root x, after upd (evts root par x) st)).
    { apply (quiet_all _ _ _ _ _ Hc). cbn [misses]. rewrite order_length. right. lia. }
    assert (C1 : cnt (after upd (evts root par x) st) = (cnt st + length (order x))%nat) by (rewrite (after_cnt _ _ _ _ _ _ Hc), order_length; reflexivity).
    destruct (IH f (S i) par (nxt root x) (after upd (evts root par x) st) _ _ Hj) as (j' & c & q & st' & -> & Hn & C2 & E2); [lia|].
    exists (S j'), c, q, st'. cbn [walk_list replace_nth nth_error]. rewrite E1, E2. split; [do 2 f_equal; lia|]. split; [exact Hn|].
    split; [|reflexivity]. rewrite C2, C1, app_length. unfold group at 2. rewrite map_length. cbn [snd]. lia.
Qed.

Lemma nth_app_cases {A} (l1 l2 : list A) j x : nth_error (l1 ++ l2) j = Some x ->
  (j < length l1 /\ nth_error l1 j = Some x)%nat \/ (length l1 <= j /\ nth_error l2 (j - length l1) = Some x)%nat.
Proof.
  intros H. destruct (Nat.lt_ge_cases j (length l1)) as [Hl|Hl].
  - rewrite nth_error_app1 in H by exact Hl. auto.
  - rewrite nth_error_app2 in H by exact Hl. auto.
Qed.

Ltac kid_temp HO QO f x r st :=
  first [ match goal with Hj : nth_error (flat_map group (index f 0 [x])) _ = Some _ |- _ =>
            let q := fresh "q" in let st' := fresh "st" in let C := fresh in let E := fresh in
            destruct (HO x f ltac:(cbn; rewrite ?in_app_iff; auto 10) r st _ _ Hj ltac:(lia)) as (q & st' & -> & C & E); rewrite E; clear Hj end
        | let st' := fresh "st" in let C := fresh in let E := fresh in
          destruct (QO x f r st) as (st' & E & C); [cbn [misses]; lia|]; rewrite E ].
Ltac kid_slice HS QS f b r st :=
  first [ match goal with Hj : nth_error (flat_map group (index f 0 (elems b))) _ = Some _ |- _ =>
            let i := fresh "i" in let c := fresh "c" in
            let q := fresh "q" in let st' := fresh "st" in let C := fresh in let E := fresh in let N := fresh "N" in
            destruct (HS b f ltac:(intros ? ?; cbn; rewrite ?in_app_iff; auto 10) r st _ _ Hj ltac:(lia)) as (i & c & q & st' & -> & N & C & E); rewrite E; clear Hj end
        | let st' := fresh "st" in let C := fresh in let E := fresh in
          destruct (QS b f r st) as (st' & E & C); [cbn [misses]; lia|]; rewrite E ].
Ltac kid HO HS QO QS f :=
  match goal with
  | |- context [walk_temp ?cb ?r ?p ?x ?st] => kid_temp HO QO f x r st
  | |- context [walk_slice ?cb ?r ?p ?b ?st] => kid_slice HS QS f b r st
  end.

Lemma hits_all {St} cb cnt upd k new : @calm St cb cnt upd (Some k) new -> forall s, hits cb cnt k new s.
Proof.
  intros Hc. induction s as [s IH] using stmt_parts_ind. intros root par st j p Hj Hk. rewrite walk1_eq.
  assert (HL : forall l f, (forall x, In x l -> In x (parts s)) -> forall r st j p,
     nth_error (flat_map group (index f 0 l)) j = Some p -> k = (cnt st + j)%nat ->
     exists j' c q st', p = (f, j') :: q /\ nth_error l j' = Some c /\
       cnt st' = (cnt st + length (flat_map group (index f 0 l)))%nat /\
       walk_list cb r (PStmt s) l st = (replace_nth j' (result new c q) l, st')).
  { intros l f Hl r st0 j0 p0 H1 H2. assert (Hf : Forall (hits cb cnt k new) l) by (apply Forall_forall; auto).
    exact (hits_list cb cnt upd k new l Hc Hf f 0 (PStmt s) r st0 j0 p0 H1 H2). }
  assert (HS : forall b f, (forall x, In x (elems b) -> In x (parts s)) -> forall r st j p,
     nth_error (flat_map group (index f 0 (elems b))) j = Some p -> k = (cnt st + j)%nat ->
     exists j' c q st', p = (f, j') :: q /\ nth_error (elems b) j' = Some c /\
       cnt st' = (cnt st + length (flat_map group (index f 0 (elems b))))%nat /\
       walk_slice cb r (PStmt s) b st = (in_slice b j' (result new c q), st')).
  { intros [l|] f Hl r st0 j0 p0 H1 H2; [|destruct j0; discriminate].
    destruct (HL l f Hl r st0 j0 p0 H1 H2) as (j' & c & q & st' & A1 & A2 & A3 & A4).
    exists j', c, q, st'. cbn [walk_slice]. rewrite A4. auto. }
  assert (HO : forall x f, In x (parts s) -> forall r st j p,
     nth_error (flat_map group (index f 0 [x])) j = Some p -> k = (cnt st + j)%nat ->
     exists q st', p = (f, 0%nat) :: q /\ cnt st' = (cnt st + length (flat_map group (index f 0 [x])))%nat /\
       walk_temp cb r (PStmt s) x st = (inner new x q, st')).
  { intros x f Hx r st0 j0 p0 H1 H2. cbn [index flat_map] in *. rewrite app_nil_r in *. unfold group in *. cbn [fst snd] in *.
    rewrite map_length. rewrite nth_error_map in H1. match type of H1 with context [nth_error ?u ?v] => destruct (nth_error u v) as [q|] eqn:Eq end; cbn [option_map] in H1; [|discriminate H1]. injection H1 as <-.
    destruct (IH x Hx r (PStmt s) st0 j0 q Eq H2) as (st1 & C1 & E1). exists q, st1. unfold walk_temp. rewrite E1. auto. }
  (* slots that are not hit *)
  assert (QS : forall b f r st, misses (Some k) (cnt st) (length (flat_map group (index f 0 (elems b)))) ->
     exists st', walk_slice cb r (PStmt s) b st = (b, st') /\ cnt st' = (cnt st + length (flat_map group (index f 0 (elems b))))%nat).
  { intros b f r st0 Hm. rewrite (group_list_length (elems b) f 0%nat r (PStmt s)) in *. destruct b as [l|]; [|exists st0; cbn; auto].
    cbn [walk_slice elems] in *. rewrite (quiet_list cb cnt upd (Some k) new l Hc); [|apply Forall_forall; intros y _; apply (quiet_all _ _ _ _ _ Hc)|exact Hm].
    eexists. split; [reflexivity|]. rewrite (after_cnt _ _ _ _ _ _ Hc). reflexivity. }
  assert (QO : forall x f r st, misses (Some k) (cnt st) (length (flat_map group (index f 0 [x]))) ->
     exists st', walk_temp cb r (PStmt s) x st = (x, st') /\ cnt st' = (cnt st + length (flat_map group (index f 0 [x])))%nat).
  { intros x f r st0 Hm. rewrite (group_list_length [x] f 0%nat r (PStmt s)) in *. cbn [evts_list] in *. rewrite app_nil_r in *.
    unfold walk_temp. rewrite (quiet_all _ _ _ _ _ Hc x r (PStmt s) st0 Hm).
    eexists. split; [reflexivity|]. rewrite (after_cnt _ _ _ _ _ _ Hc). reflexivity. }
  rewrite order_eq in Hj. apply nth_app_cases in Hj. destruct Hj as [[Hl Hj]|[Hl Hj]].
  - (* inside *)
    assert (HK : exists f i c q st', p = (f, i) :: q /\ nth_error (field_of f s) i = Some c /\
       cnt st' = (cnt st + length (flat_map group (kids s)))%nat /\
       walk_kids cb (nxt root s) s st = (put (f, i) (if is_list f then result new c q else inner new c q) s, st')).
    { clear HL Hl. destruct s; cbn [walk_kids kids] in *; try (destruct j; discriminate Hj);
      repeat rewrite flat_map_app in *; repeat rewrite app_length in *;
      repeat match goal with H : nth_error (_ ++ _) _ = Some _ |- _ => apply nth_app_cases in H as [[? H]|[? H]] end;
      lazymatch goal with
      | |- context [SIf] => kid HO HS QO QS FCond; kid HO HS QO QS FThen; kid HO HS QO QS FElse; kid HO HS QO QS FElseIf
      | |- context [STry] => kid HO HS QO QS FTryBody; kid HO HS QO QS FCatch
      | |- context [SLoop] => kid HO HS QO QS FLoopBody
      | |- context [SFunc] => kid HO HS QO QS FFuncBody
      | |- context [SMethod] => kid HO HS QO QS FArg
      | |- context [SExp] => kid HO HS QO QS FRight; kid HO HS QO QS FLeft
      | |- context [STern] => kid HO HS QO QS FTernCond; kid HO HS QO QS FTernTrue; kid HO HS QO QS FTernFalse
      | |- context [SReturn] => kid HO HS QO QS FReturn
      end;
      do 5 eexists; (split; [reflexivity|]; split; [cbn [field_of]; first [eassumption | reflexivity]|]; split; [|cbn [put fst snd is_list]; reflexivity]; lia).
}
    destruct HK as (f & i & c & q & st1 & -> & Hn & C1 & E1). rewrite E1.
    assert (ER : put (f, i) (if is_list f then result new c q else inner new c q) s = result new s ((f, i) :: q)).
    { unfold result at 2. cbn [put_path]. rewrite Hn. destruct q as [|k0 q].
      - cbn [in_list]. destruct (is_list f); [reflexivity|]. cbn [inner]. apply put_same, Hn.
      - assert (EQ : (if is_list f then result new c (k0 :: q) else inner new c (k0 :: q)) = result new c (k0 :: q)) by (destruct (is_list f); reflexivity).
        rewrite EQ. unfold result. change (in_list ((f, i) :: k0 :: q)) with (in_list (k0 :: q)).
        destruct (in_list (k0 :: q)); [reflexivity | apply put_same, Hn]. }
    destruct Hc as [D1 D2]. rewrite ER, D1. cbn [inner].
    assert (Hne : Nat.eqb (cnt st1) k = false) by (apply Nat.eqb_neq; lia). rewrite Hne.
    eexists. split; [|reflexivity]. rewrite D2, C1, order_eq, app_length. cbn [length]. lia.
  - (* the slot itself *)
    destruct (j - length (flat_map group (kids s)))%nat as [|n] eqn:En; [|destruct n; discriminate Hj]. injection Hj as <-.
    assert (Hjl : j = length (flat_map group (kids s))) by lia.
    assert (HK : exists st', walk_kids cb (nxt root s) s st = (s, st') /\ cnt st' = (cnt st + length (flat_map group (kids s)))%nat).
    { clear HL Hl. destruct s; cbn [walk_kids kids] in *; try (eexists; split; [reflexivity | cbn; lia]);
      repeat rewrite flat_map_app in *; repeat rewrite app_length in *;
      lazymatch goal with
      | |- context [SIf] => kid HO HS QO QS FCond; kid HO HS QO QS FThen; kid HO HS QO QS FElse; kid HO HS QO QS FElseIf
      | |- context [STry] => kid HO HS QO QS FTryBody; kid HO HS QO QS FCatch
      | |- context [SLoop] => kid HO HS QO QS FLoopBody
      | |- context [SFunc] => kid HO HS QO QS FFuncBody
      | |- context [SMethod] => kid HO HS QO QS FArg
      | |- context [SExp] => kid HO HS QO QS FRight; kid HO HS QO QS FLeft
      | |- context [STern] => kid HO HS QO QS FTernCond; kid HO HS QO QS FTernTrue; kid HO HS QO QS FTernFalse
      | |- context [SReturn] => kid HO HS QO QS FReturn
      end; (eexists; (split; [reflexivity | lia])). }
    destruct HK as (st1 & E1 & C1). rewrite E1. destruct Hc as [D1 D2]. rewrite D1.
    assert (He : Nat.eqb (cnt st1) k = true) by (apply Nat.eqb_eq; lia). rewrite He.
    eexists. split; [|reflexivity]. rewrite D2, C1, order_eq, app_length. cbn [length]. lia.
Qed.
