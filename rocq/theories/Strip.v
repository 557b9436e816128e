(** Taking redundant parentheses away. *)
From Verif Require Import Bytes Float64 GoTime Ast StmtInd Survive.
Open Scope Z_scope.

(** * Parentheses taken away, marks left where they are *)
Definition jump (s : stmt) : bool := match s with SGoTo _ | SLabel _ => true | _ => false end.
Fixpoint strip0 (s : stmt) : stmt :=
  let all (l : slice) : slice := match l with Some l => Some (map strip0 l) | None => None end in
  match s with
  | SMethod n ps g fl => SMethod n (all ps) g fl
  | SItem i o => SItem (strip0 i) (strip0 o)
  | SChain u c fl => SChain (strip0 u) (strip0 c) fl
  | SNew c None g => SNew c (Some [SNil]) g
  | SNew c ps g => SNew c (all ps) g
  | STern e t f => STern (strip0 e) (strip0 t) (strip0 f)
  | SExp o l r fl => SExp o (strip0 l) (strip0 r) fl
  | SExprs (Some [x]) fl => if fl_not fl then SExprs (Some [strip0 x]) not_mark else if is_nil x || jump x then s else strip0 x
  | SExprs ps fl => SExprs (all ps) fl
  | SAssign v ps g => SAssign (strip0 v) (all ps) g
  | SIf e tb eib eb => SIf (strip0 e) (all tb) (all eib) (all eb)
  | STry b c => STry (all b) (all c)
  | SThrow p => SThrow (strip0 p)
  | SReturn p => SReturn (strip0 p)
  | SLoop a b c d e => SLoop (strip0 a) (strip0 b) (strip0 c) (strip0 d) (all e)
  | SFunc v n d b ps ty x => SFunc v n d (all b) (map (fun p => (strip0 (fst (fst p)), snd (fst p), snd p)) ps) ty x
  | _ => s
  end.
Definition strips0 (l : slice) : slice := match l with Some l => Some (map strip0 l) | None => None end.

Lemma strip_nil s : is_nil (strip s) = is_nil s.
Proof.
  induction s as [s IH] using stmt_parts_ind. destruct s; try reflexivity; cbn [strip].
  - destruct ps; reflexivity.
  - destruct (fl_not fl); reflexivity.
  - destruct ps as [[|x [|y l]]|]; try reflexivity. destruct (fl_not fl); [reflexivity|]. destruct (is_nil x) eqn:E; [reflexivity|]. rewrite IH by (left; reflexivity). exact E.
Qed.
Lemma strip0_nil s : is_nil (strip0 s) = is_nil s.
Proof.
  induction s as [s IH] using stmt_parts_ind. destruct s; try reflexivity; cbn [strip0].
  - destruct ps; reflexivity.
  - destruct ps as [[|x [|y l]]|]; try reflexivity. destruct (fl_not fl); [reflexivity|]. destruct (is_nil x) eqn:E; [reflexivity|]. cbn [orb]. destruct (jump x); [reflexivity|]. rewrite IH by (left; reflexivity). exact E.
Qed.

(** * Equations *)
Lemma strip_method n ps g fl : strip (SMethod n ps g fl) = SMethod n (strips ps) g fl. Proof. reflexivity. Qed.
Lemma strip_item i o : strip (SItem i o) = SItem (strip i) (strip o). Proof. reflexivity. Qed.
Lemma strip_chain u c fl : strip (SChain u c fl) = SChain (strip u) (strip c) fl. Proof. reflexivity. Qed.
Lemma strip_new_some c l g : strip (SNew c (Some l) g) = SNew c (Some (map strip l)) g. Proof. reflexivity. Qed.
Lemma strip_tern e t f : strip (STern e t f) = STern (strip e) (strip t) (strip f). Proof. reflexivity. Qed.
Lemma strip_assign v ps g : strip (SAssign v ps g) = SAssign (strip v) (strips ps) g. Proof. reflexivity. Qed.
Lemma strip_ifs e a b c : strip (SIf e a b c) = SIf (strip e) (strips a) (strips b) (strips c). Proof. reflexivity. Qed.
Lemma strip_trys a b : strip (STry a b) = STry (strips a) (strips b). Proof. reflexivity. Qed.
Lemma strip_loops a b c d e : strip (SLoop a b c d e) = SLoop (strip a) (strip b) (strip c) (strip d) (strips e). Proof. reflexivity. Qed.
Lemma strip_func v n d b ps ty x : strip (SFunc v n d b ps ty x) = SFunc v n d (strips b) (map (fun p => (strip (fst (fst p)), snd (fst p), snd p)) ps) ty x. Proof. reflexivity. Qed.
Lemma strip0_method n ps g fl : strip0 (SMethod n ps g fl) = SMethod n (strips0 ps) g fl. Proof. reflexivity. Qed.
Lemma strip0_item i o : strip0 (SItem i o) = SItem (strip0 i) (strip0 o). Proof. reflexivity. Qed.
Lemma strip0_chain u c fl : strip0 (SChain u c fl) = SChain (strip0 u) (strip0 c) fl. Proof. reflexivity. Qed.
Lemma strip0_new_some c l g : strip0 (SNew c (Some l) g) = SNew c (Some (map strip0 l)) g. Proof. reflexivity. Qed.
Lemma strip0_tern e t f : strip0 (STern e t f) = STern (strip0 e) (strip0 t) (strip0 f). Proof. reflexivity. Qed.
Lemma strip0_assign v ps g : strip0 (SAssign v ps g) = SAssign (strip0 v) (strips0 ps) g. Proof. reflexivity. Qed.
Lemma strip0_ifs e a b c : strip0 (SIf e a b c) = SIf (strip0 e) (strips0 a) (strips0 b) (strips0 c). Proof. reflexivity. Qed.
Lemma strip0_trys a b : strip0 (STry a b) = STry (strips0 a) (strips0 b). Proof. reflexivity. Qed.
Lemma strip0_loops a b c d e : strip0 (SLoop a b c d e) = SLoop (strip0 a) (strip0 b) (strip0 c) (strip0 d) (strips0 e). Proof. reflexivity. Qed.
Lemma strip0_func v n d b ps ty x : strip0 (SFunc v n d b ps ty x) = SFunc v n d (strips0 b) (map (fun p => (strip0 (fst (fst p)), snd (fst p), snd p)) ps) ty x. Proof. reflexivity. Qed.

Lemma list_eq (f g h : stmt -> stmt) (l : list stmt) : (forall x, In x l -> f (g x) = h x) -> map f (map g l) = map h l.
Proof. intros H. rewrite map_map. apply map_ext_in. exact H. Qed.
Lemma strips_strips0 l : (forall x, In x (elems l) -> strip (strip0 x) = strip x) -> strips (strips0 l) = strips l.
Proof. destruct l; cbn; [|reflexivity]. intros H. f_equal. apply list_eq, H. Qed.
Lemma strips_strips l : (forall x, In x (elems l) -> strip (strip x) = strip x) -> strips (strips l) = strips l.
Proof. destruct l; cbn; [|reflexivity]. intros H. f_equal. apply list_eq, H. Qed.
Ltac ins := cbn [In elems] in *; rewrite ?in_app_iff; cbn [In elems]; rewrite ?in_app_iff; tauto.
Ltac piece IH := first [apply strips_strips0; intros; apply IH; ins | apply strips_strips; intros; apply IH; ins | apply list_eq; intros; apply IH; ins | apply IH; ins].
Lemma strip_strip0 s : strip (strip0 s) = strip s.
Proof.
  induction s as [s IH] using stmt_parts_ind. destruct s; try reflexivity; cbn [parts] in IH.
  - rewrite strip0_method, !strip_method. f_equal. piece IH.
  - rewrite strip0_item, !strip_item. f_equal; piece IH.
  - rewrite strip0_chain, !strip_chain. f_equal; piece IH.
  - destruct ps; [|reflexivity]. rewrite strip0_new_some, !strip_new_some. do 2 f_equal. piece IH.
  - rewrite strip0_tern, !strip_tern. f_equal; piece IH.
  - cbn [strip strip0]. rewrite !IH by ins. reflexivity.
  - destruct ps as [[|x [|y l]]|]; try reflexivity.
    + cbn [strip strip0]. destruct (fl_not fl) eqn:E; [cbn [strip not_mark fl_not]; rewrite IH by ins; reflexivity|].
      destruct (is_nil x) eqn:N; [cbn [strip orb]; rewrite E, N; reflexivity|]. cbn [orb]. destruct (jump x); [cbn [strip]; rewrite E, N; reflexivity|]. apply IH. ins.
    + cbn [strip strip0 map]. rewrite !IH by ins. do 4 f_equal. piece IH.
  - rewrite strip0_assign, !strip_assign. f_equal; piece IH.
  - rewrite strip0_ifs, !strip_ifs. f_equal; piece IH.
  - rewrite strip0_trys, !strip_trys. f_equal; piece IH.
  - cbn [strip strip0]. rewrite IH by ins. reflexivity.
  - cbn [strip strip0]. rewrite IH by ins. reflexivity.
  - rewrite strip0_loops, !strip_loops. f_equal; piece IH.
  - rewrite strip0_func, !strip_func. f_equal; [piece IH|]. rewrite map_map. apply map_ext_in. intros p Hp. cbn [fst snd]. rewrite IH; [reflexivity|].
    apply in_or_app. right. apply in_map_iff. eauto.
Qed.
Lemma strip_strip s : strip (strip s) = strip s.
Proof.
  induction s as [s IH] using stmt_parts_ind. destruct s; try reflexivity; cbn [parts] in IH.
  - rewrite !strip_method. f_equal. piece IH.
  - rewrite !strip_item. f_equal; piece IH.
  - rewrite !strip_chain. f_equal; piece IH.
  - destruct ps; [|reflexivity]. rewrite !strip_new_some. do 2 f_equal. piece IH.
  - rewrite !strip_tern. f_equal; piece IH.
  - cbn [strip]. destruct (fl_not fl); cbn [strip not_mark fl_not fl_minus fl_plus]; rewrite !IH by ins; reflexivity.
  - destruct ps as [[|x [|y l]]|]; try reflexivity.
    + cbn [strip]. destruct (fl_not fl) eqn:E; [cbn [strip not_mark fl_not]; rewrite IH by ins; reflexivity|].
      destruct (is_nil x) eqn:N; [cbn [strip]; rewrite E, N; reflexivity|]. apply IH. ins.
    + cbn [strip map]. rewrite !IH by ins. do 4 f_equal. piece IH.
  - rewrite !strip_assign. f_equal; piece IH.
  - rewrite !strip_ifs. f_equal; piece IH.
  - rewrite !strip_trys. f_equal; piece IH.
  - cbn [strip]. rewrite IH by ins. reflexivity.
  - cbn [strip]. rewrite IH by ins. reflexivity.
  - rewrite !strip_loops. f_equal; piece IH.
  - rewrite !strip_func. f_equal; [piece IH|]. rewrite map_map. apply map_ext_in. intros p Hp. cbn [fst snd]. rewrite IH; [reflexivity|].
    apply in_or_app. right. apply in_map_iff. eauto.
Qed.
Lemma strip_same t s : strip0 t = strip s -> strip t = strip s.
Proof. intros H. rewrite <- strip_strip0, H. apply strip_strip. Qed.
Lemma strips_same t s : strips0 t = strips s -> strips t = strips s.
Proof.
  destruct t as [t|], s as [s|]; cbn; try discriminate; [|reflexivity]. intros H. injection H as H. f_equal. revert s H.
  induction t as [|x t IH]; intros [|y s] H; try discriminate; [reflexivity|]. injection H as H1 H2. cbn [map]. rewrite (strip_same _ _ H1), (IH _ H2). reflexivity.
Qed.

(** Labels do not last as parts of expressions. *)
Lemma lasts_jump v s : lasts v s = true -> jump (strip s) = false.
Proof.
  revert v. induction s as [s IH] using stmt_parts_ind. intros v H. destruct s; try reflexivity; try discriminate H; cbn [strip].
  - destruct ps; reflexivity.
  - destruct (fl_not fl); reflexivity.
  - destruct ps as [[|x [|y l]]|]; try discriminate H. destruct (fl_not fl); [reflexivity|]. destruct (is_nil x); [reflexivity|]. cbn [lasts] in H. eapply IH; [left; reflexivity|exact H].
Qed.
Lemma jump_strip0 s : jump s = true -> strip0 s = s. Proof. destruct s; try discriminate; reflexivity. Qed.
Lemma back_jump t s v : strip0 t = strip s -> lasts v s = true -> jump t = false.
Proof.
  intros E H. destruct (jump t) eqn:J; [|reflexivity]. apply lasts_jump in H. rewrite <- E, (jump_strip0 _ J) in H. congruence.
Qed.
