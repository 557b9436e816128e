(** The driver on two texts that differ in names, literals and faults: both runs go in
    step (C69). *)
From Verif Require Import Bytes Utf8 Float64 GoTime Ast Lexer LexFacts Utf8Facts LexSpec LexProofs LexTrivia LexTokens LexReject NumSpec NumTokens Tables Parser Grammar Tok CertData Cert Driver DriverInv Trees Machine
  Levels Bind Items Complete TightOk ViableData Viable Blame Told Writes Lexical Scanned Where Placed Alike Lockstep Faults FaultFacts Reached Same Pieces PiecesRun Rename RenPieces RenAct.
Open Scope Z_scope.

(** Cells that hold an expression, and not nil. *)
Definition expr_syms : list Z := map (fun n => - nt_no n) [n_loopExp; n_expr; n_simple_expr; n_through_dot; n_identifier; n_ternary; n_new_object].
Definition label_sym : Z := - nt_no n_goToLabel.
Lemma minus_some s : s <> SNil -> unaryMinus s <> SNil. Proof. destruct s; cbn; congruence. Qed.
Lemma not_some s : s <> SNil -> not_ s <> SNil. Proof. destruct s; cbn; congruence. Qed.
Lemma label_some l : l <> None -> label_stmt l <> SNil. Proof. destruct l; cbn; congruence. Qed.
Definition sym_at (r : Z) (i : nat) : Z := nth (i - 1) (map sym_no (rhs r)) 0.
Lemma expr_rule r d v a : prodno r -> In (- nt_no (lhs r)) expr_syms -> (forall i, In (sym_at r i) expr_syms -> (1 <= i)%nat -> v_stmt (d i) <> SNil) ->
  (forall i, sym_at r i = label_sym -> (1 <= i)%nat -> v_goToLabel (d i) <> None) -> (forall i, placed value_places r i = true -> tk_value (v_token (d i)) <> SNil) ->
  exists w, act r d v a = Ok (w, a) /\ v_stmt w <> SNil.
Proof.
  intros Hr H. assert (G : existsb (Z.eqb (- nt_no (lhs r))) expr_syms = true) by (apply existsb_exists; exists (- nt_no (lhs r)); split; [exact H|apply Z.eqb_refl]). clear H. revert G.
  all_prods r Hr; intros G; vm_compute in G; try discriminate G; clear G; intros HE HL HV; cbn [act]; unfold binop; (eexists; split; [reflexivity|]); cbn [set_stmt v_stmt]; try discriminate.
  all: try (apply not_some); try (apply minus_some).
  all: first [apply (HV 1%nat); reflexivity|apply label_some, (HL 1%nat); [vm_compute; reflexivity|lia]|apply (HE 1%nat); [apply in_syms; vm_compute; reflexivity|lia]|apply (HE 2%nat); [apply in_syms; vm_compute; reflexivity|lia]|idtac].
Qed.
Lemma label_rule r d v a : prodno r -> - nt_no (lhs r) = label_sym -> exists w, act r d v a = Ok (w, a) /\ v_goToLabel w <> None.
Proof.
  intros Hr. all_prods r Hr; intros G; vm_compute in G; try discriminate G; clear G; cbn [act]; (eexists; split; [reflexivity|]); discriminate.
Qed.
Lemma value_some k t : tok_rel k t -> In (kind_of k) value_kinds -> tk_value t <> SNil.
Proof.
  intros (_ & (_ & _ & _ & S1 & N1 & D1 & T1 & F1) & E1) H. destruct H as [H|[H|[H|[H|[H|[]]]]]]; symmetry in H.
  - rewrite (S1 H). discriminate.
  - destruct (N1 H) as [f ->]. discriminate.
  - destruct (D1 H) as [f ->]. discriminate.
  - rewrite (T1 H). discriminate.
  - rewrite (F1 H). discriminate.
Qed.

Section Texts.
Context (rr : ren) (g : lexerr -> lexerr) (c1 c2 : bytes) (all : list piece) (Hne1 : c1 <> []) (Hne2 : c2 <> []) (Hp : proper rr (toks_in all)).
Let S n := In (KId n) (toks_in all).
Let rp := ren_piece rr g.
Let rs := ren_stmt rr.
Let rstrip := rstrip rr.
Let known := known S.
Lemma in_toks k pre post : all = pre ++ inl k :: post -> In k (toks_in all).
Proof. intros ->. unfold toks_in. rewrite flat_map_app. apply in_or_app. right. left. reflexivity. Qed.

Definition TN (t1 t2 : token) : Prop :=
  exists pre post, all = pre ++ post /\ reading_to c1 pre (tk_prevDot t1) (rest_of c1 t1) /\ reading_to c2 (map rp pre) (tk_prevDot t2) (rest_of c2 t2) /\
    pieces_of (tk_prevDot t1) (rest_of c1 t1) post /\ pieces_of (tk_prevDot t2) (rest_of c2 t2) (map rp post).
Definition pair_ren (t1 t2 : token) : Prop := exists pre k post, all = pre ++ inl k :: post /\ at_piece c1 pre k t1 /\ at_piece c2 (map rp pre) (ren_tk rr k) t2.
Let P := pair_ren.
Let A := AN rr g S P c1 c2.

Lemma kind_ren k : kind_of (ren_tk rr k) = kind_of k. Proof. destruct k; reflexivity. Qed.
Lemma Lex_ren a1 a2 t1 t2 k1 u1 b1 k2 u2 b2 : A a1 a2 -> TN t1 t2 -> Lex a1 t1 = (k1, u1, b1) -> Lex a2 t2 = (k2, u2, b2) ->
  A b1 b2 /\ TN u1 u2 /\ k1 = k2 /\ (k1 <> EOF -> tk_of k2 u2 = ren_tk rr (tk_of k1 u1) /\ In k1 kinds /\ In (tk_of k1 u1) (toks_in all)).
Proof.
  intros HA (pre & post & Ea & R1 & R2 & P1 & P2). unfold Lex. rewrite (an_code1 _ _ _ _ _ _ _ _ HA), (an_code2 _ _ _ _ _ _ _ _ HA).
  replace (match c1 with [] => (EOF, t1, a1) | _ :: _ => let '(tok, t', e) := Next c1 t1 in match e with Some e0 => (EOF, t', set_err a1 (ELex e0)) | None => if tok =? EOF then (EOF, t', a1) else (tok, t', set_cur a1 t') end end)
    with (let '(tok, t', e) := Next c1 t1 in match e with Some e0 => (EOF, t', set_err a1 (ELex e0)) | None => if tok =? EOF then (EOF, t', a1) else (tok, t', set_cur a1 t') end) by (destruct c1; [congruence|reflexivity]).
  replace (match c2 with [] => (EOF, t2, a2) | _ :: _ => let '(tok, t', e) := Next c2 t2 in match e with Some e0 => (EOF, t', set_err a2 (ELex e0)) | None => if tok =? EOF then (EOF, t', a2) else (tok, t', set_cur a2 t') end end)
    with (let '(tok, t', e) := Next c2 t2 in match e with Some e0 => (EOF, t', set_err a2 (ELex e0)) | None => if tok =? EOF then (EOF, t', a2) else (tok, t', set_cur a2 t') end) by (destruct c2; [congruence|reflexivity]).
  destruct (Next c1 t1) as [[z1 v1] e1] eqn:N1, (Next c2 t2) as [[z2 v2] e2] eqn:N2.
  pose proof (Next_piece _ _ _ _ _ _ _ R1 P1 N1) as C1. pose proof (Next_piece _ _ _ _ _ _ _ R2 P2 N2) as C2.
  destruct post as [|[x|x] post]; cbn [map hd_error tl came rp ren_piece] in C1, C2.
  - destruct C1 as (-> & -> & A1 & A2), C2 as (-> & -> & A3 & A4). rewrite Z.eqb_refl. intros [= <- <- <-] [= <- <- <-]. split; [exact HA|]. split; [exists pre, []; auto|]. split; [reflexivity|]. congruence.
  - destruct C1 as (-> & K1 & X1 & I1 & V1 & A1 & A2), C2 as (-> & K2 & X2 & I2 & V2 & A3 & A4). replace (z1 =? EOF) with false by (symmetry; apply Z.eqb_neq; exact K1). replace (z2 =? EOF) with false by (symmetry; apply Z.eqb_neq; exact K2).
    intros [= <- <- <-] [= <- <- <-].
    assert (E : z1 = z2) by (rewrite <- (tk_of_kind _ _ I1 V1), <- (tk_of_kind _ _ I2 V2), X1, X2, kind_ren; reflexivity).
    split; [|split; [exists (pre ++ [inl x]), post; split; [rewrite <- app_assoc; exact Ea|rewrite map_app; auto]|split; [exact E|intros _; split; [congruence|split; [exact I1|rewrite X1; eapply in_toks; exact Ea]]]]].
    destruct HA, V1 as [V1 _], V2 as [V2 _]. constructor; cbn [set_cur a_code a_module a_isLoop a_isTry a_isFunction a_cur a_err]; auto; [congruence|].
    intros _. exists pre, x, post. split; [exact Ea|]. split; [exists t1, z1|exists t2, z2]; auto.
  - destruct C1 as (-> & A1 & A2), C2 as (-> & A3 & A4). intros [= <- <- <-] [= <- <- <-].
    split; [|split; [exists (pre ++ [inr x]), post; split; [rewrite <- app_assoc; exact Ea|rewrite map_app; auto]|split; [reflexivity|congruence]]].
    destruct HA. constructor; cbn [set_err a_code a_module a_isLoop a_isTry a_isFunction a_cur a_err]; auto. right. left. exists x. auto.
Qed.

(** What becomes of the text of a symbol. *)
Definition lit_fun (s : Z) : bytes -> bytes :=
  if s =? tokno_of tDirective then r_dir rr else if s =? tokno_of tGoToLabel then r_label rr
  else if (s =? tokno_of tIdent) || (s =? tokno_of tExecute) then r_name rr else fun b => b.
Record cell (x y : slot) : Prop := {
  ce_strip : rstrip x = strip y;
  ce_known : known x;
  ce_lit : In (chk (yys x)) text_syms -> tk_lit (v_token y) = lit_fun (chk (yys x)) (tk_lit (v_token x));
  ce_id : chk (yys x) = tokno_of tIdent -> S (tk_lit (v_token x));
  ce_value : In (chk (yys x)) value_syms -> tk_value (v_token y) = rs (tk_value (v_token x)) /\ tk_value (v_token x) <> SNil;
  ce_expr : In (chk (yys x)) expr_syms -> v_stmt x <> SNil;
  ce_label : chk (yys x) = label_sym -> v_goToLabel x <> None }.
Record PN (p1 p2 : pst) : Prop := {
  pn_inv1 : inv p1;
  pn_inv2 : inv p2;
  pn_stk : Forall2 cell (p_stk p1) (p_stk p2);
  pn_above : map rstrip (p_above p1) = map strip (p_above p2);
  pn_stale : Forall known (p_above p1);
  pn_state : p_state p1 = p_state p2;
  pn_char : p_char p1 = p_char p2;
  pn_tok : p_tok p1 = p_tok p2;
  pn_scan : TN (v_token (p_lval p1)) (v_token (p_lval p2));
  pn_look : 0 <= p_char p1 -> tk_of (p_char p1) (v_token (p_lval p2)) = ren_tk rr (tk_of (p_char p1) (v_token (p_lval p1))) /\ In (tk_of (p_char p1) (v_token (p_lval p1))) (toks_in all);
  pn_ast : A (p_ast p1) (p_ast p2) }.

Lemma look_pn p q : PN p q -> PN (look p) (look q).
Proof.
  intros H. destruct (look_inv _ (pn_inv1 _ _ H)) as [I1 _]. destruct (look_inv _ (pn_inv2 _ _ H)) as [I2 _]. revert I1 I2.
  unfold look. rewrite <- (pn_char _ _ H). destruct (p_char p <? 0); [|intros _ _; exact H].
  destruct (Lex (p_ast p) (v_token (p_lval p))) as [[k1 u1] b1] eqn:E1, (Lex (p_ast q) (v_token (p_lval q))) as [[k2 u2] b2] eqn:E2.
  destruct (Lex_ren _ _ _ _ _ _ _ _ _ _ (pn_ast _ _ H) (pn_scan _ _ H) E1 E2) as (HA & HT & <- & HK). intros I1 I2. destruct H.
  constructor; cbn [p_stk p_above p_state p_lval p_char p_tok p_ast set_token v_token]; auto. intros Hk. destruct HK as (K1 & K2 & K3); [unfold EOF; lia|]. auto.
Qed.
Lemma look1_pn p q : PN p q -> PN (look1 p) (look1 q).
Proof. intros H. unfold look1. rewrite <- (pn_state _ _ H). destruct (_ <=? _); [exact H|apply look_pn, H]. Qed.
Lemma look2_pn p q : PN p q -> PN (look2 p) (look2 q).
Proof. intros H. pose proof (look1_pn _ _ H) as H1. unfold look2. rewrite <- (pn_state _ _ H). destruct (_ =? -2); [apply look_pn|]; exact H1. Qed.

Lemma cells_strip l k : Forall2 cell l k -> map rstrip l = map strip k.
Proof. induction 1 as [|x y l k H _ IH]; [reflexivity|]. cbn [map]. rewrite IH, (ce_strip _ _ H). reflexivity. Qed.
Lemma cells_known l k : Forall2 cell l k -> Forall known l.
Proof. induction 1 as [|x y l k H _ IH]; constructor; [apply (ce_known _ _ H)|exact IH]. Qed.
Lemma cells_nth l : forall k i, Forall2 cell l k -> (i < length l)%nat -> cell (nth i l zero_slot) (nth i k zero_slot).
Proof.
  induction l as [|x l IH]; intros k i H Hi; [cbn in Hi; lia|]. inversion H as [|? y ? k' Hx Hl]; subst. destruct i as [|i]; cbn [nth]; [exact Hx|]. apply IH; [exact Hl|cbn in Hi; lia].
Qed.
Lemma cells_split (l1 : list slot) : forall l2 k1 k2, Forall2 cell (l1 ++ l2) (k1 ++ k2) -> length l1 = length k1 -> Forall2 cell l1 k1 /\ Forall2 cell l2 k2.
Proof.
  induction l1 as [|x l1 IH]; intros l2 [|y k1] k2 H Hl; try discriminate Hl; [auto|]. cbn [app] in H. inversion H; subst. destruct (IH l2 k1 k2) as [A' B]; auto.
Qed.
Lemma cells_rev (l : list slot) : forall k, Forall2 cell l k -> Forall2 cell (rev l) (rev k).
Proof. induction l as [|x l IH]; intros k H; inversion H; subst; cbn [rev]; [constructor|]. apply Forall2_app; [apply IH; assumption|]. constructor; [assumption|constructor]. Qed.
Lemma zero_strip : rstrip zero_slot = strip zero_slot.
Proof. unfold rstrip, RenAct.rstrip, rparam. cbn. rewrite (pr_no_name _ _ Hp). reflexivity. Qed.
Lemma zero_known : known zero_slot. Proof. repeat split; constructor. Qed.
Lemma nth_rstrip l k i : map rstrip l = map strip k -> rstrip (nth i l zero_slot) = strip (nth i k zero_slot).
Proof. intros H. rewrite <- (map_nth rstrip), <- (map_nth strip), H, zero_strip. reflexivity. Qed.
Lemma nth_known l i : Forall known l -> known (nth i l zero_slot).
Proof. intros H. destruct (Nat.lt_ge_cases i (length l)) as [L|L]; [rewrite Forall_forall in H; apply H, nth_In, L|]. rewrite nth_overflow by exact L. apply zero_known. Qed.

Lemma lit_place_fun r i : placed lit_places r i = true -> lit_fun (sym_at r i) = ren_lit rr r.
Proof.
  intros H. apply place_in in H. unfold lit_places in H. cbn [In] in H. repeat destruct H as [H|H]; [injection H as <- <-; vm_compute; reflexivity ..|destruct H].
Qed.

Definition SRN := Lockstep.SR (fun p q => (inv p -> inv q -> PN p q)) A.
Lemma reduce_pn p q r : PN p q -> reduce_ok (p_state p) r = true -> SRN (reduce p r) (reduce q r).
Proof.
  intros H Hr. pose proof (pn_inv1 _ _ H) as I1. pose proof (pn_inv2 _ _ H) as I2. pose proof (pn_state _ _ H) as Hs.
  destruct (i_top _ I1) as [k1 T1]. destruct (i_top _ I2) as [k2 T2]. pose proof (i_path _ I1) as Q1. pose proof (i_path _ I2) as Q2. rewrite T1 in Q1. rewrite T2 in Q2.
  destruct (reduce_eq p r _ _ T1 Q1 Hr) as (pop1 & base1 & rest1 & q1 & E1 & M1 & G1 & G2 & _ & _ & _ & Hprod & _ & ->).
  rewrite Hs in Hr. destruct (reduce_eq q r _ _ T2 Q2 Hr) as (pop2 & base2 & rest2 & q2 & E2 & M2 & G3 & _ & _ & _ & _ & _ & _ & ->).
  cbv zeta.
  assert (Hlen1 : length pop1 = length (rhs r)) by (apply (f_equal (@length Z)) in M1; rewrite !map_length, rev_length in M1; exact M1).
  assert (Hlen2 : length pop2 = length (rhs r)) by (apply (f_equal (@length Z)) in M2; rewrite !map_length, rev_length in M2; exact M2).
  pose proof (pn_stk _ _ H) as Hk. rewrite E1, E2 in Hk. destruct (cells_split _ _ _ _ Hk ltac:(congruence)) as [Kp Kr]. pose proof (cells_rev _ _ Kp) as Kv.
  assert (Kabove : map rstrip (rev pop1 ++ p_above p) = map strip (rev pop2 ++ p_above q)) by (rewrite !map_app, (cells_strip _ _ Kv), (pn_above _ _ H); reflexivity).
  assert (Kknown : Forall known (rev pop1 ++ p_above p)) by (apply Forall_app; split; [exact (cells_known _ _ Kv)|exact (pn_stale _ _ H)]).
  assert (Kyys : yys base1 = yys base2) by (inversion Kr as [|? ? ? ? Kb _]; subst; exact (f_equal yys (ce_strip _ _ Kb))). assert (q2 = q1) as -> by congruence.
  assert (Hcell : forall i, (1 <= i)%nat -> (i <= length (rhs r))%nat -> cell (nth (i - 1) (rev pop1 ++ p_above p) zero_slot) (nth (i - 1) (rev pop2 ++ p_above q) zero_slot) /\
    chk (yys (nth (i - 1) (rev pop1 ++ p_above p) zero_slot)) = sym_at r i).
  { intros i Hi1 Hi. rewrite !app_nth1 by (rewrite rev_length; lia). split; [apply cells_nth; [exact Kv|rewrite rev_length; lia]|]. rewrite nth_map_chk by (rewrite rev_length; lia). rewrite M1. reflexivity. }
  assert (Hin : forall i l, In (sym_at r i) l -> ~ In 0 l -> (1 <= i)%nat -> (i <= length (rhs r))%nat).
  { intros i l Hi H0 H1. destruct (Nat.le_gt_cases i (length (rhs r))) as [L|L]; [exact L|]. unfold sym_at in Hi. rewrite nth_overflow in Hi by (rewrite map_length; lia). contradiction. }
  rewrite !hd_nth.
  set (A1 := fun i => nth (i - 1) (rev pop1 ++ p_above p) zero_slot) in *. set (A2 := fun i => nth (i - 1) (rev pop2 ++ p_above q) zero_slot) in *.
  change (nth (1 - 1) (rev pop1 ++ p_above p) zero_slot) with (A1 1%nat) in *. change (nth (1 - 1) (rev pop2 ++ p_above q) zero_slot) with (A2 1%nat) in *.
  assert (XL : forall i, placed lit_places r i = true -> tk_lit (v_token (A2 i)) = ren_lit rr r (tk_lit (v_token (A1 i)))).
  { intros i Hi. pose proof (places_in_rhs _ _ (or_introl Hi)) as L. destruct (Hcell i) as [C1 C2]; [lia|lia|]. rewrite <- (lit_place_fun _ _ Hi), <- C2. apply (ce_lit _ _ C1). rewrite C2.
    pose proof lit_place_syms as LS. rewrite forallb_forall in LS. exact (in_syms _ _ (LS _ (place_in _ _ _ Hi))). }
  assert (XV : forall i, placed value_places r i = true -> tk_value (v_token (A2 i)) = rs (tk_value (v_token (A1 i))) /\ tk_value (v_token (A1 i)) <> SNil).
  { intros i Hi. pose proof (places_in_rhs _ _ (or_intror Hi)) as L. destruct (Hcell i) as [C1 C2]; [lia|lia|]. apply (ce_value _ _ C1). rewrite C2.
    pose proof value_place_syms as LS. rewrite forallb_forall in LS. exact (in_syms _ _ (LS _ (place_in _ _ _ Hi))). }
  assert (XE : forall i, In (sym_at r i) expr_syms -> (1 <= i)%nat -> v_stmt (A1 i) <> SNil).
  { intros i Hi H1. destruct (Hcell i H1 (Hin _ _ Hi ltac:(vm_compute; intuition discriminate) H1)) as [C1 C2]. apply (ce_expr _ _ C1). rewrite C2. exact Hi. }
  assert (XG : forall i, sym_at r i = label_sym -> (1 <= i)%nat -> v_goToLabel (A1 i) <> None).
  { intros i Hi H1. destruct (Hcell i H1 (Hin i [label_sym] ltac:(left; symmetry; exact Hi) ltac:(vm_compute; intuition discriminate) H1)) as [C1 C2]. apply (ce_label _ _ C1). rewrite C2. exact Hi. }
  assert (XI : forall i, sym_at r i = tokno_of tIdent -> (1 <= i)%nat -> S (tk_lit (v_token (A1 i)))).
  { intros i Hi H1. destruct (Hcell i H1 (Hin i [tokno_of tIdent] ltac:(left; symmetry; exact Hi) ltac:(vm_compute; intuition discriminate) H1)) as [C1 C2]. apply (ce_id _ _ C1). rewrite C2. exact Hi. }
  pose proof (act_ren rr g S (pr_no_name _ _ Hp) (pr_no_dir _ _ Hp) (pr_apart _ _ Hp) (pr_opp _ _ Hp) P c1 c2 r A1 A2 (p_ast p) (p_ast q) Hprod
    (fun i => nth_rstrip _ _ _ Kabove) (fun i => nth_known _ _ Kknown) XL (fun i Hi => proj1 (XV i Hi))) as X.
  specialize (X ltac:(intros ->; apply XE; [apply in_syms; vm_compute; reflexivity|lia]) ltac:(intros ->; apply XI; [vm_compute; reflexivity|lia]) ltac:(intros ->; apply XI; [vm_compute; reflexivity|lia]) (pn_ast _ _ H)).
  assert (Y : forall v1 b1 v2 b2, act r A1 (A1 1%nat) (p_ast p) = Ok (v1, b1) -> act r A2 (A2 1%nat) (p_ast q) = Ok (v2, b2) -> In (- nt_no (lhs r)) text_syms ->
    tk_lit (v_token v2) = lit_fun (- nt_no (lhs r)) (tk_lit (v_token v1))).
  { intros v1 b1 v2 b2 Y1 Y2 Hi. destruct (text_rule r A1 (A1 1%nat) (p_ast p) Hprod Hi) as (Z1 & x & Z2 & Z3). destruct (text_rule r A2 (A2 1%nat) (p_ast q) Hprod Hi) as (Z4 & _).
    rewrite Y1 in Z1. rewrite Y2 in Z4. injection Z1 as -> _. injection Z4 as -> _. destruct (Hcell 1%nat) as [C1 C2]; [lia|rewrite Z2; cbn; lia|].
    cbn [set_token v_token]. change (nth (1 - 1) (rev pop1 ++ p_above p) zero_slot) with (A1 1%nat) in *. change (nth (1 - 1) (rev pop2 ++ p_above q) zero_slot) with (A2 1%nat) in *.
    rewrite (ce_lit _ _ C1); rewrite C2; [|unfold sym_at; rewrite Z2; exact Z3].
    assert (GG : lit_fun (sym_at r 1) = lit_fun (- nt_no (lhs r))); [|rewrite GG; reflexivity].
    assert (GH : existsb (Z.eqb (- nt_no (lhs r))) text_syms = true) by (apply existsb_exists; exists (- nt_no (lhs r)); split; [exact Hi|apply Z.eqb_refl]).
    revert GH. clear -Hprod. all_prods r Hprod; intros GH; vm_compute in GH; try discriminate GH; vm_compute; reflexivity. }
  assert (W : forall v1 b1, act r A1 (A1 1%nat) (p_ast p) = Ok (v1, b1) -> (In (- nt_no (lhs r)) expr_syms -> v_stmt v1 <> SNil) /\ (- nt_no (lhs r) = label_sym -> v_goToLabel v1 <> None)).
  { intros v1 b1 Ev. split; intros Hi.
    - destruct (expr_rule r A1 (A1 1%nat) (p_ast p) Hprod Hi XE XG (fun i Hv => proj2 (XV i Hv))) as (w & W1 & W2). rewrite Ev in W1. injection W1 as -> _. exact W2.
    - destruct (label_rule r A1 (A1 1%nat) (p_ast p) Hprod Hi) as (w & W1 & W2). rewrite Ev in W1. injection W1 as -> _. exact W2. }
  destruct (act r A1 (A1 1%nat) (p_ast p)) as [[v1 b1]|x] eqn:Y1, (act r A2 (A2 1%nat) (p_ast q)) as [[v2 b2]|y] eqn:Y2; cbn [RR] in X; try contradiction; cbn [sbind]; [|exact X].
  destruct X as (X1 & X2 & X3). cbn [fst snd] in X1, X2, X3. specialize (Y _ _ _ _ eq_refl eq_refl). specialize (W _ _ eq_refl). destruct W as [W1 W2]. intros J1 J2. destruct H.
  unfold push in *. constructor; cbn [p_stk p_above p_state p_lval p_char p_tok p_ast]; auto.
  - constructor; [|exact Kr]. constructor; cbn [set_yys yys v_token v_stmt v_goToLabel].
    + transitivity (set_yys (rstrip v1) q1); [reflexivity|]. transitivity (set_yys (strip v2) q1); [f_equal; exact X1|reflexivity].
    + exact X3.
    + rewrite G2. exact Y.
    + rewrite G2. intros Hi. exfalso. revert Hi. clear -Hprod. all_prods r Hprod; vm_compute; discriminate.
    + rewrite G2. intros Hv. destruct (value_rule r Hprod Hv).
    + rewrite G2. exact W1.
    + rewrite G2. exact W2.
  - transitivity (tl (map rstrip (rev pop1 ++ p_above p))); [destruct (rev pop1 ++ p_above p); reflexivity|]. rewrite Kabove. destruct (rev pop2 ++ p_above q); reflexivity.
  - destruct (rev pop1 ++ p_above p); [constructor|]. inversion Kknown; assumption.
Qed.

(** A token that is pushed. *)
Lemma lit_rel k t1 t2 : tok_rel k t1 -> tok_rel (ren_tk rr k) t2 -> In (kind_of k) lit_kinds -> tk_lit t2 = lit_fun (tokno_of (kind_of k)) (tk_lit t1).
Proof.
  intros (_ & _ & E1) (_ & _ & E2) H. rewrite kind_ren in E2.
  assert (F : lit_fun (tokno_of tIdent) = r_name rr /\ lit_fun (tokno_of tExecute) = r_name rr /\ lit_fun (tokno_of tDirective) = r_dir rr /\ lit_fun (tokno_of tGoToLabel) = r_label rr) by (repeat split; vm_compute; reflexivity).
  destruct F as (F1 & F2 & F3 & F4). revert E1 E2. destruct H as [<-|[<-|[<-|[<-|[]]]]]; rewrite ?F1, ?F2, ?F3, ?F4; cbn; intros <-; cbn; congruence.
Qed.
Lemma value_rel k t1 t2 : tok_rel k t1 -> tok_rel (ren_tk rr k) t2 -> In (kind_of k) value_kinds -> tk_value t2 = rs (tk_value t1).
Proof.
  intros (_ & (_ & _ & _ & S1 & N1 & D1 & T1 & F1) & E1) (_ & (_ & _ & _ & S2 & N2 & D2 & T2 & F2) & E2) H. rewrite kind_ren in *. revert E1 E2. unfold tk_of.
  destruct H as [H|[H|[H|[H|[H|[]]]]]]; symmetry in H; rewrite H.
  - rewrite (S1 H), (S2 H). cbn. intros <-. cbn. congruence.
  - destruct (N1 H) as [f1 ->], (N2 H) as [f2 ->]. cbn. intros <-. cbn. congruence.
  - destruct (D1 H) as [f1 ->], (D2 H) as [f2 ->]. cbn. intros <-. cbn. congruence.
  - rewrite (T1 H), (T2 H). reflexivity.
  - rewrite (F1 H), (F2 H). reflexivity.
Qed.
Lemma no_nt l k : In k kinds -> forallb (fun k => forallb (fun n => negb (tokno_of k =? - nt_no n)) l) kinds = true -> ~ In (tokno_of k) (map (fun n => - nt_no n) l).
Proof.
  intros Hk G Hin. rewrite forallb_forall in G. specialize (G _ Hk). rewrite forallb_forall in G. apply in_map_iff in Hin as (n & E1 & E2). specialize (G _ E2). rewrite E1, Z.eqb_refl in G. discriminate G.
Qed.
Lemma shift_cell p q st : PN p q -> 0 <= p_char p -> chk st = p_tok p -> cell (set_yys (p_lval p) st) (set_yys (p_lval q) st).
Proof.
  intros H Hc Hst. destruct (i_look _ (pn_inv1 _ _ H)) as [?|(J1 & J2 & V1)]; [lia|]. destruct (i_look _ (pn_inv2 _ _ H)) as [L|(_ & _ & V2)]; [rewrite <- (pn_char _ _ H) in L; lia|].
  rewrite <- (pn_char _ _ H) in V2. destruct (pn_look _ _ H Hc) as [E Ein]. pose proof (payload_kinds _ _ J1 V1) as R1. pose proof (payload_kinds _ _ J1 V2) as R2. rewrite E in R2.
  pose proof (tk_of_kind _ _ J1 V1) as Ek.
  constructor; cbn [set_yys yys v_token].
  - rewrite (i_lval _ (pn_inv1 _ _ H)), (i_lval _ (pn_inv2 _ _ H)). transitivity (set_yys (rstrip zero_slot) st); [reflexivity|]. rewrite zero_strip. reflexivity.
  - rewrite (i_lval _ (pn_inv1 _ _ H)). repeat split; constructor.
  - rewrite Hst, J2. intros Hin. unfold text_syms in Hin. apply in_app_or in Hin. destruct Hin as [Hin|Hin].
    + apply sym_kinds in Hin; [|vm_compute; reflexivity|exact J1]. apply in_app_or in Hin. destruct Hin as [Hin|Hin].
      * pose proof (lit_rel _ _ _ R1 R2) as L. rewrite Ek in L. exact (L Hin).
      * destruct V1 as (_ & A1 & A2 & _), V2 as (_ & A3 & A4 & _). destruct Hin as [Hin|[Hin|[]]]; symmetry in Hin; [rewrite (A2 Hin), (A4 Hin)|rewrite (A1 Hin), (A3 Hin)]; rewrite Hin; reflexivity.
    + exfalso. revert Hin. apply no_nt; [exact J1|vm_compute; reflexivity].
  - rewrite Hst, J2. intros Hin. assert (p_char p = tIdent) as Hi.
    { destruct (sym_kinds [tIdent] (p_char p)) as [<-|[]]; [vm_compute; reflexivity|exact J1|left; symmetry; exact Hin|reflexivity]. }
    unfold S. rewrite Hi in Ein. exact Ein.
  - rewrite Hst, J2. intros Hin. apply sym_kinds in Hin; [|vm_compute; reflexivity|exact J1]. split; [eapply value_rel; [exact R1|exact R2|]|eapply value_some; [exact R1|]]; rewrite Ek; exact Hin.
  - rewrite Hst, J2. intros Hin. exfalso. revert Hin. apply no_nt; [exact J1|vm_compute; reflexivity].
  - rewrite Hst, J2. intros Hin. exfalso. apply (no_nt [n_goToLabel] (p_char p) J1); [vm_compute; reflexivity|left; symmetry; exact Hin].
Qed.
Lemma step_pn p q : PN p q -> Lockstep.SR PN A (step p) (step q).
Proof.
  intros H. pose proof (pn_inv1 _ _ H) as I1. pose proof (pn_inv2 _ _ H) as I2. destruct (inv_states _ I1) as [Hs1 Hst1]. destruct (inv_states _ I2) as [Hs2 Hst2].
  pose proof (step_inv _ I1) as S1. pose proof (step_inv _ I2) as S2.
  assert (W : SRN (step p) (step q)).
  2: { destruct (step p), (step q); cbn [Lockstep.SR SRN] in *; try contradiction; auto. apply W; [apply S1|apply S2]. }
  clear S1 S2. rewrite (step_eq p Hs1 Hst1 (inv_tokno _ I1)), (step_eq q Hs2 Hst2 (inv_tokno _ I2)), <- (pn_state _ _ H), <- (pn_tok _ _ (look1_pn _ _ H)), <- (pn_tok _ _ (look2_pn _ _ H)).
  destruct (shift_of (p_state p) (p_tok (look1 p))) as [st|] eqn:Eq.
  - intros J1 J2. pose proof (look_pn _ _ H) as HL. destruct (shift_looked p st I1 Eq) as [L1 L2]. pose proof (shift_cell _ _ st HL L1 L2) as HC. destruct HL.
    constructor; cbn [shift push p_stk p_above p_state p_lval p_char p_tok p_ast] in *; try assumption; try reflexivity; [constructor; assumption| | |lia].
    + transitivity (tl (map rstrip (p_above (look p)))); [destruct (p_above (look p)); reflexivity|]. rewrite pn_above0. destruct (p_above (look q)); reflexivity.
    + destruct (p_above (look p)); [constructor|]. inversion pn_stale0; assumption.
  - pose proof (look2_pn _ _ H) as HL. destruct (default (p_state p) (p_tok (look2 p))) as [x|r| |] eqn:Ed; cbn [do_default].
    1, 4: unfold fail; pose proof (Error_ren rr g S P c1 c2 _ _ MSyntax MSyntax (pn_ast _ _ HL) eq_refl) as X; destruct (Error (p_ast (look2 p)) MSyntax), (Error (p_ast (look2 q)) MSyntax);
      cbn [RR] in X; try contradiction; cbn [sbind Lockstep.SR SRN]; auto.
    2: { split; [reflexivity|]. exact (pn_ast _ _ HL). }
    apply reduce_pn; [exact HL|]. destruct (look2_inv p I1) as (_ & _ & _ & -> & _). eapply reduce_checked; eassumption.
Qed.
Lemma run_pn f : forall p q, PN p q ->
  match run f p, run f q with
  | None, None => True
  | Some x, Some y => RR (fun u v => fst u = fst v /\ A (snd u) (snd v)) x y
  | _, _ => False
  end.
Proof.
  induction f as [|f IH]; intros p q H; cbn [run]; [exact I|]. pose proof (step_pn _ _ H) as X.
  destruct (step p), (step q); cbn [Lockstep.SR] in X; try contradiction; [apply IH, X|exact X|exact X].
Qed.
Lemma init_pn : pieces_of false c1 all -> pieces_of false c2 (map rp all) -> PN (init_pst (NewAST c1)) (init_pst (NewAST c2)).
Proof.
  intros H1 H2. constructor; try reflexivity; try apply init_inv.
  - constructor; [|constructor]. constructor; try (vm_compute; discriminate).
    + apply zero_strip.
    + apply zero_known.
    + reflexivity.
    + intros Hi. exfalso. revert Hi. vm_compute. intuition discriminate.
    + intros Hi. exfalso. revert Hi. vm_compute. intuition discriminate.
  - constructor.
  - exists [], all. split; [reflexivity|]. split; [apply rt_start|]. split; [apply rt_start|]. auto.
  - cbn. lia.
  - constructor; try reflexivity; [constructor|discriminate|]. left. auto.
Qed.
Theorem parse_ren : blank c1 = false -> blank c2 = false -> pieces_of false c1 all -> pieces_of false c2 (map rp all) ->
  match parse c1, parse c2 with
  | Some (Ok (a1, e1)), Some (Ok (a2, e2)) => a_module a2 = ren_module rr (a_module a1) /\ err_ren rr g P c1 c2 e1 e2
  | Some (Panic p), Some (Panic q) => p = q
  | _, _ => False
  end.
Proof.
  intros B1 B2 X1 X2. pose proof (init_pn X1 X2) as HA.
  set (f := Nat.max (parse_fuel c1) (parse_fuel c2)).
  assert (Q : exists x, run (parse_fuel c1) (init_pst (NewAST c1)) = Some x).
  { destruct (run_result _ (init_inv (NewAST c1))) as (n & p' & _ & _ & _ & R4 & R). rewrite R by (rewrite init_potential; unfold parse_fuel; cbn [NewAST a_code]; lia).
    destruct (step p'); [contradiction| |]; cbn [outcome]; eauto. }
  pose proof (run_pn f _ _ HA) as R.
  unfold parse, Parse. cbn [NewAST a_code]. rewrite B1, B2. fold (NewAST c1) (NewAST c2).
  pose proof (run_enough (NewAST c1) f) as R1. pose proof (run_enough (NewAST c2) f) as R2. cbn [NewAST a_code] in R1, R2. fold (NewAST c1) in R1. fold (NewAST c2) in R2. subst f.
  rewrite R1 in Q |- * by lia. rewrite R2 by lia. destruct Q as (x & Q). rewrite Q in *.
  destruct (run _ (init_pst (NewAST c2))) as [y|]; [|contradiction].
  destruct x as [[n1 u1]|], y as [[n2 u2]|]; cbn [RR] in R; try contradiction; [|exact R].
  destruct R as [_ R]. cbn [fst snd] in R. destruct R. auto.
Qed.
End Texts.
