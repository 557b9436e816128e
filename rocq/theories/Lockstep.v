(** The driver on two texts with the same tokens: both runs go in step (C50). *)
From Verif Require Import Bytes Utf8 Float64 GoTime Ast Lexer LexFacts LexSpec LexProofs Tables Parser Grammar Tok CertData Cert Driver DriverInv Trees Machine
  CstEval Levels Bind Items Complete TightOk ViableData Viable Blame Told Alike.
Open Scope Z_scope.

(** * The tokens the actions read *)
Lemma evs_nth ts : forall vs a b i x, evs ts vs a b -> nth_error ts i = Some x -> exists v c d, nth_error vs i = Some v /\ ev x v c d.
Proof.
  induction ts as [|t ts IH]; intros vs a b i x H Hx; [destruct i; discriminate Hx|].
  apply evs_cons_inv in H as (v & vs1 & b1 & -> & H1 & H2). destruct i as [|i]; cbn [nth_error] in *.
  - injection Hx as <-. eauto.
  - eapply IH; eassumption.
Qed.
Lemma leaf_at r ch i c : Forall wf ch -> map sym_of ch = map sym_no (rhs r) -> nth_error (rhs r) i = Some (T c) -> In c terminals -> exists k, nth_error ch i = Some (Leaf k) /\ kind_of k = c.
Proof.
  intros Hw Hs Hn Hc. assert (E : nth_error (map sym_of ch) i = Some (sym_no (T c))) by (rewrite Hs; apply map_nth_error, Hn).
  destruct (nth_error ch i) as [x|] eqn:Ex.
  2: { apply nth_error_None in Ex. assert (nth_error (map sym_of ch) i = None) as F by (apply nth_error_None; rewrite map_length; exact Ex). congruence. }
  rewrite (map_nth_error sym_of _ _ Ex) in E. injection E as E. rewrite Forall_forall in Hw.
  destruct (sym_tok x c (Hw _ (nth_error_In _ _ Ex)) Hc E) as (k & -> & Hk & _). eauto.
Qed.
Definition term_at (cs : list Z) (x : Z * nat) : bool :=
  match nth_error (rhs (fst x)) (snd x - 1) with Some (T c) => existsb (Z.eqb c) cs && existsb (Z.eqb c) terminals | _ => false end.
Definition lit_kinds := [tIdent; tExecute; tDirective; tGoToLabel].
Definition value_kinds := [tString; tNumber; tDate; tTrue; tFalse].
Lemma lit_terms : forallb (fun x => (fst x =? 19) || term_at lit_kinds x) lit_places = true.
Proof. vm_compute. reflexivity. Qed.
Lemma value_terms : forallb (term_at value_kinds) value_places = true.
Proof. vm_compute. reflexivity. Qed.
Lemma place_in l r i : placed l r i = true -> In (r, i) l.
Proof.
  unfold placed. rewrite existsb_exists. intros ((r' & i') & H1 & H2). rewrite andb_true_iff in H2. destruct H2 as [H2 H3]. cbn in *.
  apply Z.eqb_eq in H2. apply Nat.eqb_eq in H3. subst. exact H1.
Qed.
Lemma rel_lit k t1 t2 : tok_rel k t1 -> tok_rel k t2 -> In (kind_of k) lit_kinds -> tk_lit t1 = tk_lit t2.
Proof.
  intros (_ & _ & E1) (_ & _ & E2) H. rewrite <- E2 in E1. revert E1. destruct H as [<-|[<-|[<-|[<-|[]]]]]; cbn; congruence.
Qed.
Lemma rel_value k t1 t2 : tok_rel k t1 -> tok_rel k t2 -> In (kind_of k) value_kinds -> tk_value t1 = tk_value t2.
Proof.
  intros (_ & (_ & _ & _ & S1 & N1 & D1 & T1 & F1) & E1) (_ & (_ & _ & _ & S2 & N2 & D2 & T2 & F2) & E2) H. rewrite <- E2 in E1. revert E1. unfold tk_of.
  destruct H as [H|[H|[H|[H|[H|[]]]]]]; symmetry in H; rewrite H.
  - rewrite (S1 H), (S2 H). cbn. congruence.
  - destruct (N1 H) as [f1 ->], (N2 H) as [f2 ->]. cbn. congruence.
  - destruct (D1 H) as [f1 ->], (D2 H) as [f2 ->]. cbn. congruence.
  - rewrite (T1 H), (T2 H). reflexivity.
  - rewrite (F1 H), (F2 H). reflexivity.
Qed.
Lemma rel_at cs r ch i ds1 ds2 a1 b1 a2 b2 : term_at cs (r, i) = true -> Forall wf ch -> map sym_of ch = map sym_no (rhs r) ->
  evs ch ds1 a1 b1 -> evs ch ds2 a2 b2 ->
  exists k, In (kind_of k) cs /\ tok_rel k (v_token (nth (i - 1) ds1 zero_slot)) /\ tok_rel k (v_token (nth (i - 1) ds2 zero_slot)).
Proof.
  intros Ht Hw Hs E1 E2. unfold term_at in Ht. cbn [fst snd] in Ht. destruct (nth_error (rhs r) (i - 1)) as [[c|n]|] eqn:Er; try discriminate Ht.
  rewrite andb_true_iff in Ht. destruct Ht as [H1 H2]. apply existsb_exists in H1 as (c1 & I1 & Q1). apply existsb_exists in H2 as (c2 & I2 & Q2).
  apply Z.eqb_eq in Q1. apply Z.eqb_eq in Q2. subst c1 c2.
  destruct (leaf_at _ _ _ _ Hw Hs Er I2) as (k & Ek & Kk). exists k. rewrite Kk. split; [exact I1|].
  destruct (evs_nth _ _ _ _ _ _ E1 Ek) as (v1 & x1 & y1 & N1 & V1). destruct (evs_nth _ _ _ _ _ _ E2 Ek) as (v2 & x2 & y2 & N2 & V2).
  rewrite (nth_error_nth _ _ zero_slot N1), (nth_error_nth _ _ zero_slot N2).
  apply ev_leaf_inv in V1 as (t1 & q1 & R1 & _ & ->). apply ev_leaf_inv in V2 as (t2 & q2 & R2 & _ & ->). auto.
Qed.
Lemma one_child (ch : list tree) x : map sym_of ch = [x] -> exists t, ch = [t] /\ sym_of t = x.
Proof. destruct ch as [|t [|]]; cbn; intros [= <-]; eauto. Qed.
(** The cell of a separator holds the separator. *)
Lemma sep_lit t : wf t -> sym_of t = sym_no (N n_separator) -> exists s, forall v a b, ev t v a b -> tk_lit (v_token v) = s.
Proof.
  intros Hw Hs. destruct (sym_nt _ _ Hw Hs) as (r & ch & -> & Hl & Hr). inversion Hw as [|r0 ch0 _ Hm Hf]; subst.
  assert (Hrr : r = 22 \/ r = 23) by (revert Hl; clear -Hr; all_prods r Hr; intros E; try discriminate E; auto).
  assert (In 59 terminals /\ In 58 terminals) as [I59 I58] by (split; vm_compute; tauto).
  destruct Hrr as [-> | ->]; [exists (B ";")|exists (B ":")]; intros v a b H;
  destruct (one_child _ _ Hm) as (u & -> & Hu); inversion Hf as [|? ? Wu _]; subst;
  destruct (sym_nt _ _ Wu Hu) as (r & ch & -> & Hl2 & Hr2); inversion Wu as [|r0 ch0 _ Hm2 Hf2]; subst;
  (assert (Hrr : r = 109 \/ r = 110) by (revert Hl2; clear -Hr2; all_prods r Hr2; intros E; try discriminate E; auto));
  destruct Hrr as [-> | ->]; try discriminate Hl2;
  destruct (one_child _ _ Hm2) as (w & -> & Hw2); inversion Hf2 as [|? ? Ww _]; subst;
  (first [destruct (sym_tok _ 59 Ww I59 Hw2) as (k & -> & Hk & _)|destruct (sym_tok _ 58 Ww I58 Hw2) as (k & -> & Hk & _)]);
  apply ev_node_inv in H as (ds & v0 & v1 & q & a1 & a2 & _ & H & Hv & Ha & _ & ->);
  apply evs_cons_inv in H as (w1 & ws & c1 & -> & H1 & H); apply evs_nil_inv in H as [-> ->]; cbn [act] in Ha; injection Ha as <- <-;
  apply ev_node_inv in H1 as (ds & v2 & v3 & q1 & a3 & a4 & _ & H1 & Hv2 & Ha2 & _ & ->);
  apply evs_cons_inv in H1 as (w1 & ws & c2 & -> & H2 & H1); apply evs_nil_inv in H1 as [-> ->]; cbn [act] in Ha2; injection Ha2 as <- <-;
  apply ev_leaf_inv in H2 as (t & q2 & (_ & R & _) & _ & ->); rewrite Hk in R; cbn in Hv, Hv2; subst; cbn; apply R; reflexivity.
Qed.
Lemma lits_alike r ch ds1 ds2 a1 b1 a2 b2 i : Forall wf ch -> map sym_of ch = map sym_no (rhs r) -> evs ch ds1 a1 b1 -> evs ch ds2 a2 b2 ->
  placed lit_places r i = true -> tk_lit (v_token (nth (i - 1) ds1 zero_slot)) = tk_lit (v_token (nth (i - 1) ds2 zero_slot)).
Proof.
  intros Hw Hs E1 E2 Hp. apply place_in in Hp. pose proof lit_terms as L. rewrite forallb_forall in L. specialize (L _ Hp). cbn [fst] in L.
  destruct (Z.eq_dec r 19) as [->|Hr].
  - assert (i = 2%nat) as ->.
    { revert Hp. unfold lit_places. cbn [In]. intros Hp. repeat destruct Hp as [Hp|Hp]; try discriminate Hp; [congruence|destruct Hp]. }
    change (map sym_no (rhs 19)) with [sym_no (N n_opt_body); sym_no (N n_separator); sym_no (N n_opt_stmt)] in Hs.
    destruct ch as [|x1 [|x2 [|x3 [|]]]]; cbn [map] in Hs; try discriminate Hs. injection Hs as _ Hs _.
    inversion Hw as [|? ? _ Hw1]; subst. inversion Hw1 as [|? ? Hw2 _]; subst. destruct (sep_lit _ Hw2 Hs) as (s & HS).
    apply evs_cons_inv in E1 as (w1 & ws & c1 & -> & _ & E1). apply evs_cons_inv in E1 as (w2 & ws2 & c2 & -> & X1 & _).
    apply evs_cons_inv in E2 as (y1 & ys & d1 & -> & _ & E2). apply evs_cons_inv in E2 as (y2 & ys2 & d2 & -> & X2 & _).
    cbn [nth Nat.sub]. rewrite (HS _ _ _ X1), (HS _ _ _ X2). reflexivity.
  - destruct (r =? 19) eqn:E; [apply Z.eqb_eq in E; contradiction|]. cbn [orb] in L.
    destruct (rel_at _ _ _ _ _ _ _ _ _ _ L Hw Hs E1 E2) as (k & K1 & R1 & R2). eapply rel_lit; eassumption.
Qed.
Lemma values_alike r ch ds1 ds2 a1 b1 a2 b2 i : Forall wf ch -> map sym_of ch = map sym_no (rhs r) -> evs ch ds1 a1 b1 -> evs ch ds2 a2 b2 ->
  placed value_places r i = true -> tk_value (v_token (nth (i - 1) ds1 zero_slot)) = tk_value (v_token (nth (i - 1) ds2 zero_slot)).
Proof.
  intros Hw Hs E1 E2 Hp. apply place_in in Hp. pose proof value_terms as L. rewrite forallb_forall in L. specialize (L _ Hp).
  destruct (rel_at _ _ _ _ _ _ _ _ _ _ L Hw Hs E1 E2) as (k & K1 & R1 & R2). eapply rel_value; eassumption.
Qed.
Lemma places_in_rhs r i : placed lit_places r i = true \/ placed value_places r i = true -> (1 <= i <= length (rhs r))%nat.
Proof.
  intros H. assert (Hi : In (r, i) (lit_places ++ value_places)) by (apply in_or_app; destruct H as [H|H]; apply place_in in H; auto).
  assert (L : forallb (fun x => (1 <=? snd x)%nat && (snd x <=? length (rhs (fst x)))%nat) (lit_places ++ value_places) = true) by (vm_compute; reflexivity).
  rewrite forallb_forall in L. specialize (L _ Hi). cbn [fst snd] in L. rewrite andb_true_iff, !Nat.leb_le in L. exact L.
Qed.

(** * Two runs in step *)
Definition paired (all1 all2 : list (Z * token)) (t1 t2 : token) : Prop :=
  exists u1 v1 u2 v2 k, all1 = u1 ++ (k, t1) :: v1 /\ all2 = u2 ++ (k, t2) :: v2 /\ length u1 = length u2.

Record alike (a b : astnode) (all1 all2 : list (Z * token)) (st : frames) (p1 p2 : pst) : Prop := {
  al_sim : exists raw1 vs1 a1 l1 t1 raw2 vs2 a2 l2 t2, sim a st raw1 vs1 a1 l1 t1 p1 /\ sim b st raw2 vs2 a2 l2 t2 p2 /\ tks raw1 = tks raw2;
  al_char : p_char p1 < 0 <-> p_char p2 < 0;
  al_stk : map strip (p_stk p1) = map strip (p_stk p2);
  al_above : map strip (p_above p1) = map strip (p_above p2);
  al_ast : AR (paired all1 all2) (a_code a) (a_code b) (p_ast p1) (p_ast p2) }.

Lemma look_form a st raw vs a0 l t p : sim a st raw vs a0 l t p -> p_char p < 0 ->
  (p_ast (look p) = p_ast p /\ p_char (look p) < 0) \/ (p_ast (look p) = set_cur (p_ast p) (v_token (p_lval (look p))) /\ 0 <= p_char (look p)).
Proof.
  intros H Hc. pose proof (s_tinv _ _ _ _ _ _ _ _ H) as T. unfold look. destruct (p_char p <? 0) eqn:E; [|lia].
  unfold Lex. destruct (a_code (p_ast p)) as [|b code] eqn:Ec; [left; cbn [p_ast p_char]; unfold EOF; split; [reflexivity|lia]|]. rewrite <- Ec.
  destruct (Next (a_code (p_ast p)) (v_token (p_lval p))) as [[k u] e] eqn:EN.
  assert (e = None) as ->.
  { rewrite (t_code _ _ _ _ _ _ _ T) in EN. destruct (t_look _ _ _ _ _ _ _ T) as [[_ [X|[_ X]]]|[X _]].
    - rewrite X in EN. apply (lexes_next _ _ _ _ _ _ (s_rest _ _ _ _ _ _ _ _ H) EN).
    - destruct (Next_end _ _ X) as (t' & F). rewrite F in EN. congruence.
    - apply kinds_pos in X. lia. }
  destruct (k =? EOF) eqn:Ek; cbn [p_ast p_char p_lval v_token set_token]; [left|right].
  - split; [reflexivity|unfold EOF; lia].
  - split; [reflexivity|]. destruct (Next_kinds _ _ _ _ EN) as [X|[X _]]; [lia|]. apply kinds_pos in X. lia.
Qed.

Lemma alike_look a b all1 all2 st p1 p2 : lexes (a_code a) zero_token all1 -> lexes (a_code b) zero_token all2 -> alike a b all1 all2 st p1 p2 -> alike a b all1 all2 st (look p1) (look p2).
Proof.
  intros X1 X2 [(raw1 & vs1 & a1 & l1 & t1 & raw2 & vs2 & a2 & l2 & t2 & S1 & S2 & Er) Hc Hk Ha HA].
  destruct (look_sim _ _ _ _ _ _ _ _ S1) as (a1' & S1' & K1 & N1 & P1). destruct (look_sim _ _ _ _ _ _ _ _ S2) as (a2' & S2' & K2 & N2 & P2).
  assert (Hc' : p_char (look p1) < 0 <-> p_char (look p2) < 0).
  { split; intros Hx.
    - destruct (Z.lt_ge_cases (p_char (look p2)) 0) as [|G]; [assumption|]. destruct (P2 ltac:(lia)) as (r2 & -> & _). rewrite (N1 Hx) in Er. discriminate Er.
    - destruct (Z.lt_ge_cases (p_char (look p1)) 0) as [|G]; [assumption|]. destruct (P1 ltac:(lia)) as (r1 & -> & _). rewrite (N2 Hx) in Er. discriminate Er. }
  destruct (look_stk p1) as (Q1 & Q2 & _). destruct (look_stk p2) as (R1 & R2 & _).
  constructor; try congruence; [exists raw1, vs1, a1', l1, t1, raw2, vs2, a2', l2, t2; auto|].
  destruct (Z.lt_ge_cases (p_char p1) 0) as [L1|G1].
  2: { unfold look. replace (p_char p1 <? 0) with false by lia. replace (p_char p2 <? 0) with false by lia. exact HA. }
  assert (L2 : p_char p2 < 0) by tauto.
  destruct (look_form _ _ _ _ _ _ _ _ S1 L1) as [[F1 F2]|[F1 F2]], (look_form _ _ _ _ _ _ _ _ S2 L2) as [[F3 F4]|[F3 F4]]; try (exfalso; lia).
  - rewrite F1, F3. exact HA.
  - destruct (P1 F2) as (r1 & E1 & _). destruct (P2 F4) as (r2 & E2 & _).
    destruct (i_look _ (s_inv _ _ _ _ _ _ _ _ S1')) as [?|(J1 & _ & V1)]; [lia|]. destruct (i_look _ (s_inv _ _ _ _ _ _ _ _ S2')) as [?|(J2 & _ & V2)]; [lia|].
    assert (Ek : p_char (look p1) = p_char (look p2)).
    { rewrite <- (tk_of_kind _ _ J1 V1), <- (tk_of_kind _ _ J2 V2). rewrite E1, E2 in Er. cbn [tks map fst snd] in Er. congruence. }
    rewrite F1, F3. destruct HA. destruct V1 as [V1 _], V2 as [V2 _].
    constructor; cbn [set_cur a_code a_module a_isLoop a_isTry a_isFunction a_cur a_err]; auto; [congruence|].
    intros _. pose proof (lexes_det _ _ _ X1 _ (sim_all _ _ _ _ _ _ _ _ S1)) as D1. pose proof (lexes_det _ _ _ X2 _ (sim_all _ _ _ _ _ _ _ _ S2)) as D2.
    exists l1, r1, l2, r2, (p_char (look p1)). rewrite D1, D2, E1, E2, Ek.
    rewrite (sim_length _ _ _ _ _ _ _ _ S1), (sim_length _ _ _ _ _ _ _ _ S2). auto.
Qed.
Lemma alike_state a b all1 all2 st p1 p2 : alike a b all1 all2 st p1 p2 -> p_state p1 = p_state p2.
Proof. intros [(? & ? & ? & ? & ? & ? & ? & ? & ? & ? & S1 & S2 & _) _ _ _ _]. rewrite (sim_top _ _ _ _ _ _ _ _ S1), (sim_top _ _ _ _ _ _ _ _ S2). reflexivity. Qed.
Lemma alike_look1 a b all1 all2 st p1 p2 : lexes (a_code a) zero_token all1 -> lexes (a_code b) zero_token all2 -> alike a b all1 all2 st p1 p2 -> alike a b all1 all2 st (look1 p1) (look1 p2).
Proof. intros X1 X2 H. unfold look1. rewrite (alike_state _ _ _ _ _ _ _ H). destruct (_ <=? _); [exact H|apply alike_look; assumption]. Qed.
Lemma alike_look2 a b all1 all2 st p1 p2 : lexes (a_code a) zero_token all1 -> lexes (a_code b) zero_token all2 -> alike a b all1 all2 st p1 p2 -> alike a b all1 all2 st (look2 p1) (look2 p2).
Proof.
  intros X1 X2 H. pose proof (alike_look1 _ _ _ _ _ _ _ X1 X2 H) as H1. unfold look2. rewrite (alike_state _ _ _ _ _ _ _ H). destruct (_ =? -2); [apply alike_look; assumption|exact H1].
Qed.

(** The cells a reduction takes off the stack. *)
Lemma popped_evs a st raw vs a0 l t p popped base rest : sim a st raw vs a0 l t p -> p_stk p = popped ++ base :: rest ->
  exists c b, evs (map snd (rev (firstn (length popped) st))) (rev popped) c b /\ Forall wf (map snd (rev (firstn (length popped) st))) /\
    map sym_of (map snd (rev (firstn (length popped) st))) = map (fun c => chk (yys c)) (rev popped).
Proof.
  intros [Hi HT Hv Hrest] E1. pose proof HT as [H1 H2 H3 H4 H5 H6 H7 H8 H9]. rewrite H1 in E1. destruct (rev_app_split _ _ _ _ _ E1) as (vs1 & -> & Eb).
  set (n := length popped). set (A := firstn n st). set (Bs := skipn n st).
  assert (Est : st = A ++ Bs) by (symmetry; apply firstn_skipn).
  assert (HlA : length A = n).
  { subst A. apply firstn_length_le. apply (f_equal (@length Z)) in Hv. rewrite !map_length, rev_length, app_length, rev_length in Hv. subst n. lia. }
  rewrite Est, rev_app_distr, !map_app in Hv. rewrite Est, rev_app_distr, !map_app in H3. rewrite Est, rev_app_distr, map_app in H2, H5.
  assert (HlB : length (map yys vs1) = length (map fst (rev Bs))).
  { apply (f_equal (@length Z)) in Hv. rewrite !app_length, !map_length, !rev_length in Hv. rewrite !map_length, rev_length. subst n. lia. }
  assert (HlB2 : length (map sym_of (map snd (rev Bs))) = length (map (fun c => chk (yys c)) vs1)) by (rewrite !map_length in *; lia).
  rewrite ?(map_app sym_of), ?(map_app (fun c => chk (yys c))) in H3.
  destruct (app_inj_length _ _ _ _ HlB2 H3) as [S1 S2]. destruct (evs_split _ _ _ _ _ H5) as (ws1 & ws2 & b & Ews & V1 & V2).
  assert (ws1 = vs1 /\ ws2 = rev popped) as [-> ->].
  { apply app_inj_length; [|symmetry; exact Ews]. pose proof (evs_length _ _ _ _ V1) as HL. rewrite HL, map_length. rewrite !map_length in HlB. lia. }
  apply Forall_app in H2. destruct H2 as [W1 W2]. exists b, (p_ast p). auto.
Qed.

Lemma strip_zero : strip zero_slot = zero_slot. Proof. reflexivity. Qed.
Lemma strip_yys c q : strip (set_yys c q) = set_yys (strip c) q. Proof. reflexivity. Qed.
Lemma nth_strip l1 l2 i : map strip l1 = map strip l2 -> strip (nth i l1 zero_slot) = strip (nth i l2 zero_slot).
Proof. intros H. rewrite <- !(map_nth strip), H. reflexivity. Qed.
Lemma hd_nth {A} (d : A) l : hd d l = nth (1 - 1) l d. Proof. destruct l; reflexivity. Qed.

Definition SR (R : pst -> pst -> Prop) (S : astnode -> astnode -> Prop) (x y : sres) : Prop :=
  match x, y with
  | Next_ p, Next_ q => R p q
  | Done n a, Done m b => n = m /\ S a b
  | Crash p, Crash q => p = q
  | _, _ => False
  end.

Lemma reduce_alike a b all1 all2 st p1 p2 r : alike a b all1 all2 st p1 p2 -> reduce_ok (p_state p1) r = true ->
  SR (fun q1 q2 => p_char q1 = p_char p1 /\ p_char q2 = p_char p2 /\ map strip (p_stk q1) = map strip (p_stk q2) /\ map strip (p_above q1) = map strip (p_above q2) /\
        AR (paired all1 all2) (a_code a) (a_code b) (p_ast q1) (p_ast q2)) (fun _ _ => False) (reduce p1 r) (reduce p2 r).
Proof.
  intros H Hr. pose proof (alike_state _ _ _ _ _ _ _ H) as Hs. destruct H as [(raw1 & vs1 & a1 & l1 & t1 & raw2 & vs2 & a2 & l2 & t2 & S1 & S2 & Er) Hc Hk Ha HA].
  pose proof (s_inv _ _ _ _ _ _ _ _ S1) as I1. pose proof (s_inv _ _ _ _ _ _ _ _ S2) as I2.
  destruct (i_top _ I1) as [k1 T1]. destruct (i_top _ I2) as [k2 T2]. pose proof (i_path _ I1) as Q1. pose proof (i_path _ I2) as Q2. rewrite T1 in Q1. rewrite T2 in Q2.
  destruct (reduce_eq p1 r _ _ T1 Q1 Hr) as (pop1 & base1 & rest1 & q1 & E1 & M1 & G1 & _ & _ & _ & _ & Hprod & _ & ->).
  rewrite Hs in Hr. destruct (reduce_eq p2 r _ _ T2 Q2 Hr) as (pop2 & base2 & rest2 & q2 & E2 & M2 & G2 & _ & _ & _ & _ & _ & _ & ->).
  cbv zeta.
  assert (Hlen1 : length pop1 = length (rhs r)) by (apply (f_equal (@length Z)) in M1; rewrite !map_length, rev_length in M1; exact M1).
  assert (Hlen2 : length pop2 = length (rhs r)) by (apply (f_equal (@length Z)) in M2; rewrite !map_length, rev_length in M2; exact M2).
  rewrite E1, E2, !map_app in Hk. assert (Hll : length (map strip pop1) = length (map strip pop2)) by (rewrite !map_length, Hlen1, Hlen2; reflexivity).
  destruct (app_inj_length _ _ _ _ Hll Hk) as [Kp Kr]. cbn [map] in Kr.
  pose proof (f_equal (hd zero_slot) Kr) as Kb. cbn [hd] in Kb. pose proof (f_equal (@tl slot) Kr) as Kt. cbn [tl] in Kt.
  assert (Kabove : map strip (rev pop1 ++ p_above p1) = map strip (rev pop2 ++ p_above p2)) by (rewrite !map_app, !map_rev, Kp, Ha; reflexivity).
  assert (Kyys : yys base1 = yys base2) by exact (f_equal yys Kb). assert (q2 = q1) as -> by congruence.
  destruct (popped_evs _ _ _ _ _ _ _ _ _ _ _ S1 E1) as (x1 & y1 & V1 & W1 & Z1). destruct (popped_evs _ _ _ _ _ _ _ _ _ _ _ S2 E2) as (x2 & y2 & V2 & _ & _).
  rewrite M1 in Z1. rewrite Hlen1 in V1, W1, Z1. rewrite Hlen2 in V2.
  rewrite !hd_nth.
  pose proof (act_alike (paired all1 all2) (a_code a) (a_code b) r (fun i => nth (i - 1) (rev pop1 ++ p_above p1) zero_slot) (fun i => nth (i - 1) (rev pop2 ++ p_above p2) zero_slot)
    (p_ast p1) (p_ast p2) Hprod (fun i => nth_strip _ _ _ Kabove)) as X. cbv beta in X.
  assert (Hin : forall i, placed lit_places r i = true \/ placed value_places r i = true -> (i - 1 < length (rev pop1))%nat /\ (i - 1 < length (rev pop2))%nat).
  { intros i Hi. pose proof (places_in_rhs _ _ Hi). rewrite !rev_length, Hlen1, Hlen2. lia. }
  specialize (X ltac:(intros i Hi; destruct (Hin i (or_introl Hi)) as [L1 L2]; rewrite (app_nth1 _ _ _ L1), (app_nth1 _ _ _ L2); eapply lits_alike; eassumption)).
  specialize (X ltac:(intros i Hi; destruct (Hin i (or_intror Hi)) as [L1 L2]; rewrite (app_nth1 _ _ _ L1), (app_nth1 _ _ _ L2); eapply values_alike; eassumption) HA).
  destruct (act r _ _ (p_ast p1)) as [[v1 b1]|x], (act r _ _ (p_ast p2)) as [[v2 b2]|y]; cbn [RR] in X; try contradiction; cbn [sbind SR]; [|exact X].
  destruct X as [X1 X2]. cbn [fst snd] in X1, X2. unfold push. cbn [p_stk p_above p_state p_lval p_char p_tok p_ast].
  split; [reflexivity|]. split; [reflexivity|]. split; [cbn [map]; rewrite !strip_yys, X1, Kb, Kt; reflexivity|]. split; [|exact X2].
  transitivity (tl (map strip (rev pop1 ++ p_above p1))); [destruct (rev pop1 ++ p_above p1); reflexivity|]. rewrite Kabove. destruct (rev pop2 ++ p_above p2); reflexivity.
Qed.

Lemma step_alike a b all1 all2 st p1 p2 : lexes (a_code a) zero_token all1 -> lexes (a_code b) zero_token all2 -> alike a b all1 all2 st p1 p2 ->
  SR (fun q1 q2 => exists st', alike a b all1 all2 st' q1 q2) (AR (paired all1 all2) (a_code a) (a_code b)) (step p1) (step p2).
Proof.
  intros X1 X2 H. pose proof (alike_look _ _ _ _ _ _ _ X1 X2 H) as HL. pose proof (alike_look2 _ _ _ _ _ _ _ X1 X2 H) as HL2.
  pose proof H as [(raw1 & vs1 & a1 & l1 & t1 & raw2 & vs2 & a2 & l2 & t2 & S1 & S2 & Er) _ _ _ _].
  pose proof (s_inv _ _ _ _ _ _ _ _ S1) as I1. destruct (inv_states _ I1) as [Hs1 Hst1]. pose proof (sim_top _ _ _ _ _ _ _ _ S1) as T1.
  pose proof (s_inv _ _ _ _ _ _ _ _ S2) as I2. destruct (inv_states _ I2) as [Hs2 Hst2]. pose proof (sim_top _ _ _ _ _ _ _ _ S2) as T2.
  pose proof (step_sim _ _ _ _ _ _ _ _ S1) as F1. pose proof (step_sim _ _ _ _ _ _ _ _ S2) as F2. rewrite <- Er in F2.
  assert (Next : forall q1 q2, step p1 = Next_ q1 -> step p2 = Next_ q2 -> exists st' raw1 vs1 a1 l1 t1 raw2 vs2 a2 l2 t2,
    sim a st' raw1 vs1 a1 l1 t1 q1 /\ sim b st' raw2 vs2 a2 l2 t2 q2 /\ tks raw1 = tks raw2).
  { intros q1 q2 E1 E2. destruct (mstep st (tks raw1)) as [st' inp'|T|]; cbn [follows] in F1, F2; rewrite E1 in F1; rewrite E2 in F2.
    - destruct F1 as [(p1' & r1 & v1 & b1 & m1 & u1 & G1 & G2 & G3)|[F1 _]]; [|discriminate F1].
      destruct F2 as [(p2' & r2 & v2 & b2 & m2 & u2 & K1 & K2 & K3)|[F2 _]]; [|discriminate F2].
      injection G1 as <-. injection K1 as <-. exists st', r1, v1, b1, m1, u1, r2, v2, b2, m2, u2. split; [exact G3|]. split; [exact K3|congruence].
    - destruct F1 as (? & ? & ? & F1 & _). discriminate F1.
    - destruct F1 as (? & F1). discriminate F1. }
  clear F1 F2. revert Next.
  rewrite (step_eq p1 Hs1 Hst1 (inv_tokno _ I1)), (step_eq p2 Hs2 Hst2 (inv_tokno _ I2)), T1, T2.
  destruct (look1_sim _ _ _ _ _ _ _ _ S1) as (b1 & _ & E1). destruct (look1_sim _ _ _ _ _ _ _ _ S2) as (b2 & _ & E2). rewrite E1, E2, <- Er.
  destruct (look2_sim _ _ _ _ _ _ _ _ S1) as (d1 & L1 & D1). destruct (look2_sim _ _ _ _ _ _ _ _ S2) as (d2 & L2 & D2). rewrite D1, D2, <- Er.
  destruct (shift_of (top st) (la (tks raw1))) as [q|] eqn:Eq.
  - intros Next. cbn [SR]. destruct (Next _ _ eq_refl eq_refl) as (st' & N). exists st'. destruct HL as [_ _ Hk Ha HA].
    destruct (look_sim _ _ _ _ _ _ _ _ S1) as (e1 & M1 & _). destruct (look_sim _ _ _ _ _ _ _ _ S2) as (e2 & M2 & _).
    pose proof (i_lval _ (s_inv _ _ _ _ _ _ _ _ M1)) as V1. pose proof (i_lval _ (s_inv _ _ _ _ _ _ _ _ M2)) as V2.
    constructor; [exact N|reflexivity| | |exact HA]; unfold shift, push; cbn [p_stk p_above map].
    + rewrite Hk, V1, V2. reflexivity.
    + transitivity (tl (map strip (p_above (look p1)))); [destruct (p_above (look p1)); reflexivity|]. rewrite Ha. destruct (p_above (look p2)); reflexivity.
  - destruct (default (top st) (la (tks raw1))) as [q|r| |] eqn:Ed; cbn [do_default]; intros Next.
    1, 4: unfold fail; pose proof (Error_alike _ _ _ _ _ MSyntax MSyntax (al_ast _ _ _ _ _ _ _ HL2) eq_refl) as X; destruct (Error (p_ast (look2 p1)) MSyntax), (Error (p_ast (look2 p2)) MSyntax);
      cbn [RR] in X; try contradiction; cbn [sbind SR]; auto.
    2: { cbn [SR]. split; [reflexivity|]. exact (al_ast _ _ _ _ _ _ _ HL2). }
    assert (R : reduce_ok (p_state (look2 p1)) r = true).
    { rewrite (sim_top _ _ _ _ _ _ _ _ L1). eapply action_reduce; [rewrite <- T1; exact Hs1|apply la_tokno|]. unfold action_of. rewrite Eq. exact Ed. }
    pose proof (reduce_alike _ _ _ _ _ _ _ _ HL2 R) as X. destruct (reduce (look2 p1) r) as [q1| |], (reduce (look2 p2) r) as [q2| |]; cbn [SR] in *; try contradiction; auto; [|tauto].
    destruct X as (C1 & C2 & Hk & Ha & HA). destruct (Next _ _ eq_refl eq_refl) as (st' & N). exists st'. constructor; auto. rewrite C1, C2. exact (al_char _ _ _ _ _ _ _ HL2).
Qed.

Lemma run_alike a b all1 all2 : lexes (a_code a) zero_token all1 -> lexes (a_code b) zero_token all2 -> forall f st p1 p2, alike a b all1 all2 st p1 p2 ->
  match run f p1, run f p2 with
  | None, None => True
  | Some x, Some y => RR (fun u v => fst u = fst v /\ AR (paired all1 all2) (a_code a) (a_code b) (snd u) (snd v)) x y
  | _, _ => False
  end.
Proof.
  intros X1 X2. induction f as [|f IH]; intros st p1 p2 H; cbn [run]; [exact I|]. pose proof (step_alike _ _ _ _ _ _ _ X1 X2 H) as X.
  destruct (step p1), (step p2); cbn [SR] in X; try contradiction.
  - destruct X as (st' & X). eapply IH, X.
  - cbn [RR fst snd]. exact X.
  - cbn [RR]. exact X.
Qed.

Lemma run_enough a f : (parse_fuel (a_code a) <= f)%nat -> run (parse_fuel (a_code a)) (init_pst a) = run f (init_pst a).
Proof.
  intros Hf. destruct (run_result _ (init_inv a)) as (n & p' & _ & _ & _ & _ & R). rewrite !R; [reflexivity| |];
  rewrite init_potential; unfold parse_fuel in *; lia.
Qed.
Lemma init_alike c1 c2 all1 all2 : lexes c1 zero_token all1 -> lexes c2 zero_token all2 -> tks all1 = tks all2 ->
  alike (NewAST c1) (NewAST c2) all1 all2 [] (init_pst (NewAST c1)) (init_pst (NewAST c2)).
Proof.
  intros X1 X2 E. constructor; try reflexivity.
  - do 10 eexists. split; [apply init_sim; exact X1|]. split; [apply init_sim; exact X2|exact E].
  - constructor; try reflexivity; [discriminate|]. left. auto.
Qed.

(** The outcomes of two texts with the same tokens. *)
Definition outcomes_alike c1 c2 all1 all2 (x y : option (res (astnode * option perr))) : Prop :=
  match x, y with
  | Some (Ok (a1, e1)), Some (Ok (a2, e2)) => a_module a1 = a_module a2 /\ err_rel (paired all1 all2) c1 c2 e1 e2
  | Some (Panic p), Some (Panic q) => p = q
  | _, _ => False
  end.
Theorem parse_alike c1 c2 all1 all2 : blank c1 = false -> blank c2 = false -> lexes c1 zero_token all1 -> lexes c2 zero_token all2 -> tks all1 = tks all2 ->
  outcomes_alike c1 c2 all1 all2 (parse c1) (parse c2).
Proof.
  intros B1 B2 X1 X2 E. pose proof (init_alike _ _ _ _ X1 X2 E) as HA.
  set (f := Nat.max (parse_fuel c1) (parse_fuel c2)).
  assert (P : exists x, run (parse_fuel c1) (init_pst (NewAST c1)) = Some x).
  { destruct (run_result _ (init_inv (NewAST c1))) as (n & p' & _ & _ & _ & R4 & R). rewrite R by (rewrite init_potential; unfold parse_fuel; cbn [NewAST a_code]; lia).
    destruct (step p'); [contradiction| |]; cbn [outcome]; eauto. }
  pose proof (run_alike (NewAST c1) (NewAST c2) all1 all2 X1 X2 f _ _ _ HA) as R. cbn [NewAST a_code] in R.
  unfold parse, Parse. cbn [NewAST a_code]. rewrite B1, B2. fold (NewAST c1) (NewAST c2).
  pose proof (run_enough (NewAST c1) f) as R1. pose proof (run_enough (NewAST c2) f) as R2. cbn [NewAST a_code] in R1, R2. fold (NewAST c1) in R1. fold (NewAST c2) in R2. subst f.
  rewrite R1 in P |- * by lia. rewrite R2 by lia. destruct P as (x & P). rewrite P in *.
  destruct (run _ (init_pst (NewAST c2))) as [y|]; [|contradiction].
  destruct x as [[n1 u1]|], y as [[n2 u2]|]; cbn [RR] in R; try contradiction; cbn [outcomes_alike]; [|exact R].
  destruct R as [_ R]. cbn [fst snd] in R. destruct R. auto.
Qed.
