(** The driver of y.go without semantic actions: a machine on stacks of states and
    trees.  On a text without lexical errors the driver follows it step by step. *)
From Verif Require Import Bytes Utf8 Float64 GoTime Ast Lexer LexFacts LexSpec LexProofs Tables Parser Grammar Tok CertData Cert Driver DriverInv Trees.

(** * The machine *)
(** The number of the next token; 1 at the end. *)
Definition la (inp : list tk) : Z := match inp with [] => 1 | x :: _ => tokno_of (kind_of x) end.
Notation frames := (list (Z * tree)).
Definition top (st : frames) : Z := match st with [] => 0 | f :: _ => fst f end.

Inductive mres := MNext (st : frames) (inp : list tk) | MAccept (t : tree) | MFail.
Definition mstep (st : frames) (inp : list tk) : mres :=
  match action_of (top st) (la inp) with
  | Shift q => match inp with x :: inp' => MNext ((q, Leaf x) :: st) inp' | [] => MFail end
  | Reduce r =>
    let st' := skipn (length (rhs r)) st in
    MNext ((goto (top st') (nt_no (lhs r)), Node r (rev (map snd (firstn (length (rhs r)) st)))) :: st') inp
  | Accept => match st with [(_, t)] => MAccept t | _ => MFail end
  | Fail => MFail
  end.
Inductive msteps : frames -> list tk -> frames -> list tk -> Prop :=
| ms_refl st inp : msteps st inp st inp
| ms_step st inp st1 inp1 st2 inp2 : mstep st inp = MNext st1 inp1 -> msteps st1 inp1 st2 inp2 -> msteps st inp st2 inp2.
Lemma msteps_trans st inp st1 inp1 st2 inp2 : msteps st inp st1 inp1 -> msteps st1 inp1 st2 inp2 -> msteps st inp st2 inp2.
Proof. induction 1; [auto|]. intros H2. econstructor; [eassumption|auto]. Qed.
Definition maccepts (inp : list tk) (t : tree) : Prop := exists st' inp', msteps [] inp st' inp' /\ mstep st' inp' = MAccept t.

(** A stopped machine is where every run gets to. *)
Lemma msteps_det st inp st1 inp1 : msteps st inp st1 inp1 -> forall st2 inp2, msteps st inp st2 inp2 ->
  (forall s i, mstep st2 inp2 <> MNext s i) -> msteps st1 inp1 st2 inp2.
Proof.
  induction 1 as [|st inp sta inpa stb inpb E H IH]; intros st2 inp2 H2 Hs; [exact H2|].
  inversion H2 as [|? ? stc inpc ? ? E2 H3]; subst; [destruct (Hs _ _ E)|]. rewrite E in E2. injection E2 as <- <-. auto.
Qed.
Lemma maccepts_det inp t t' : maccepts inp t -> maccepts inp t' -> t = t'.
Proof.
  intros (s & i & H & E) (s' & i' & H' & E').
  assert (N : forall x y, mstep s' i' <> MNext x y) by (rewrite E'; discriminate).
  pose proof (msteps_det _ _ _ _ H _ _ H' N) as H2. inversion H2 as [|? ? ? ? ? ? E2]; subst; [congruence|].
  rewrite E in E2. discriminate.
Qed.

(** * Following *)
Record sim (a : astnode) (st : frames) (raw : list (Z * token)) (vs : list slot) (a0 : astnode) (l : list (Z * token)) (t : token) (p : pst) : Prop := {
  s_inv : inv p;
  s_tinv : tinv a (map snd (rev st)) vs a0 l t p;
  s_states : map yys vs = map fst (rev st);
  s_rest : lexes (a_code a) t raw }.

Lemma lexes_next code t raw k t' e : lexes code t raw -> Next code t = (k, t', e) ->
  e = None /\ ((k = EOF /\ raw = []) \/ (k <> EOF /\ exists raw', raw = (k, t') :: raw' /\ lexes code t' raw')).
Proof.
  intros H E. inversion H as [t0 t1 E1|t0 k1 t1 l1 E1 K1 H1]; subst; rewrite E in E1; injection E1 as -> -> ->; split; eauto 6.
Qed.

Lemma sim_top a st raw vs a0 l t p : sim a st raw vs a0 l t p -> p_state p = top st.
Proof.
  intros [Hi HT Hv _]. destruct (i_top p Hi) as [l0 Ht]. rewrite (t_stk _ _ _ _ _ _ _ HT), map_app, map_rev, Hv in Ht.
  rewrite map_rev, rev_involutive in Ht. destruct st as [|[s u] st]; cbn in Ht |- *; congruence.
Qed.

Lemma look_sim a st raw vs a0 l t p : sim a st raw vs a0 l t p ->
  exists a0', sim a st raw vs a0' l t (look p) /\ p_tok (look p) = la (tks raw) /\
    (p_char (look p) < 0 -> raw = []) /\
    (0 <= p_char (look p) -> exists raw', raw = (p_char (look p), v_token (p_lval (look p))) :: raw' /\
                                lexes (a_code a) (v_token (p_lval (look p))) raw').
Proof.
  intros [Hi HT Hv Hr]. pose proof HT as [H1 H2 H3 H4 H5 H6 H7 H8 H9].
  destruct (look_inv p Hi) as (L1 & _ & _ & _ & L5).
  assert (Hex : exists a0', tinv a (map snd (rev st)) vs a0' l t (look p) /\
    (p_char (look p) < 0 -> raw = []) /\
    (0 <= p_char (look p) -> exists raw', raw = (p_char (look p), v_token (p_lval (look p))) :: raw' /\
                                lexes (a_code a) (v_token (p_lval (look p))) raw')).
  { clear L1 L5. unfold look. destruct (p_char p <? 0) eqn:E.
    2: { exists a0. split; [exact HT|]. split; [lia|]. intros _. destruct H9 as [[H9 _]|[K1 H9]]; [lia|].
         destruct (lexes_next _ _ _ _ _ _ Hr H9) as (_ & [[HEo _]|(_ & raw' & -> & Hr')]); [apply kinds_not_EOF in K1; contradiction|]. eauto. }
    destruct (Lex (p_ast p) (v_token (p_lval p))) as [[c t'] a'] eqn:EL.
    destruct (Lex_spec _ _ _ _ _ (i_off p Hi) EL) as (L1 & L2 & L3). rewrite H6 in *.
    cbn [p_stk p_above p_state p_lval p_char p_tok p_ast v_token set_token].
    destruct H9 as [[_ H9]|[H9 _]]; [|apply kinds_pos in H9; lia].
    destruct L3 as [(K1 & K2 & K3 & -> & K4)|[(-> & -> & K1)|(-> & _ & k & e & K1 & -> & _)]].
    - assert (Hq : v_token (p_lval p) = t).
      { destruct H9 as [H9|[_ H9]]; [exact H9|]. exfalso. destruct (Next_at_end _ _ H9) as [t2 E2].
        rewrite E2 in K3. injection K3 as <- _. apply kinds_not_EOF in K1. contradiction. }
      destruct (evs_ctx _ _ _ _ (set_cur (p_ast p) t') H5) as (a0' & C1 & C2); [repeat split|].
      exists a0'. rewrite Hq in K3. split; [|split].
      + constructor; cbn [p_stk p_above p_state p_lval p_char p_tok p_ast v_token set_token]; auto.
        eapply same_ctx_trans; eassumption.
      + intros H. apply kinds_pos in K1. lia.
      + intros _. destruct (lexes_next _ _ _ _ _ _ Hr K3) as (_ & [[HEo _]|(_ & raw' & -> & Hr')]); [apply kinds_not_EOF in K1; contradiction|]. eauto.
    - exists a0. assert (HE : exists t', Next (a_code a) t = (EOF, t', None)).
      { destruct K1 as [[Ec ->]|[K1 _]].
        - apply Next_at_end. rewrite Ec. apply skipn_nil.
        - destruct H9 as [H9|[H9 _]]; [rewrite <- H9; eauto | exact H9]. }
      split; [|split].
      + constructor; cbn [p_stk p_above p_state p_lval p_char p_tok p_ast v_token set_token]; auto.
        left. split; [unfold EOF; lia|]. destruct K1 as [[Ec ->]|[K1 _]].
        * destruct H9 as [H9|H9]; auto.
        * right. split; [exact HE|]. eapply Next_end, K1.
      + intros _. destruct HE as [t2 HE]. destruct (lexes_next _ _ _ _ _ _ Hr HE) as (_ & [[_ ->]|[H _]]); [reflexivity|contradiction].
      + unfold EOF. lia.
    - exfalso. destruct H9 as [H9|[_ H9]].
      + rewrite H9 in K1. destruct (lexes_next _ _ _ _ _ _ Hr K1) as [H _]. discriminate H.
      + destruct (Next_at_end _ _ H9) as [t2 E2]. rewrite E2 in K1. discriminate K1. }
  destruct Hex as (a0' & E1 & E2 & E3). exists a0'. split; [constructor; assumption|]. split; [|split; assumption].
  destruct (Z.lt_ge_cases (p_char (look p)) 0) as [H|H].
  - rewrite (E2 H). apply L5, H.
  - destruct (E3 ltac:(lia)) as (raw' & -> & _). cbn [tks map la fst snd].
    destruct (i_look _ L1) as [Hl|(Hk & Htok & Hval)]; [lia|]. rewrite (tk_of_kind _ _ Hk Hval). exact Htok.
Qed.

Lemma look1_sim a st raw vs a0 l t p : sim a st raw vs a0 l t p ->
  exists a0', sim a st raw vs a0' l t (look1 p) /\ shift_of (top st) (p_tok (look1 p)) = shift_of (top st) (la (tks raw)).
Proof.
  intros H. pose proof (sim_top _ _ _ _ _ _ _ _ H) as Ht. unfold look1. rewrite Ht. destruct (_ <=? _) eqn:E.
  - exists a0. split; [exact H|]. unfold shift_of. rewrite E. reflexivity.
  - destruct (look_sim _ _ _ _ _ _ _ _ H) as (a1 & H1 & -> & _). eauto.
Qed.
Lemma look2_sim a st raw vs a0 l t p : sim a st raw vs a0 l t p ->
  exists a0', sim a st raw vs a0' l t (look2 p) /\ default (top st) (p_tok (look2 p)) = default (top st) (la (tks raw)).
Proof.
  intros H. pose proof (sim_top _ _ _ _ _ _ _ _ H) as Ht. destruct (look1_sim _ _ _ _ _ _ _ _ H) as (a1 & H1 & _).
  unfold look2. rewrite Ht. destruct (_ =? -2) eqn:E.
  - destruct (look_sim _ _ _ _ _ _ _ _ H1) as (a2 & H2 & -> & _). eauto.
  - exists a1. split; [exact H1|]. unfold default. rewrite E. reflexivity.
Qed.

(** Only production 27 writes to a nil map. *)
Lemma Error_not_map a m : Error a m <> Panic PNilMap.
Proof. unfold Error. destruct (tk_ast _); discriminate. Qed.
Ltac no_map := match goal with |- context [Error ?a ?m] => let E := fresh in pose proof (Error_not_map a m) as E; destruct (Error a m) as [?|[]]; cbn [bind]; try discriminate; congruence end.
Lemma gvars_not_map vs : forall a, append_gvars vs a <> Panic PNilMap.
Proof.
  induction vs as [|v vs IH]; intros a; cbn [append_gvars]; [discriminate|].
  destruct (append_gvar v a) as [a1|q] eqn:E; cbn [bind]; [apply IH|]. intros [= ->]. revert E. unfold append_gvar.
  destruct (negb _); [apply Error_not_map|]. destruct (mem _ _); [apply Error_not_map|discriminate].
Qed.
Lemma act_nil_map r d v a : prodno r -> act r d v a = Panic PNilMap -> r = 27 /\ v_explicit_variables (d 1%nat) = None.
Proof.
  intros Hr. all_prods r Hr; cbn [act]; try discriminate.
  1: { pose proof (gvars_not_map (v_global_variables (d 1%nat)) a). destruct (append_gvars _ a); cbn [bind]; congruence. }
  1: { unfold append_func. destruct (_ && _); [no_map|discriminate]. }
  1: { cbv zeta. destruct (_ && _); [no_map|discriminate]. }
  1: { destruct (appendVars (Some []) _) as [[m [n|]]|] eqn:E; cbn [bind]; [no_map|discriminate|]. destruct (appendVars_some _ _ _ E). }
  1: { destruct (v_explicit_variables (d 1%nat)) as [l|] eqn:E0; [|auto].
       destruct (appendVars (Some l) _) as [[m [n|]]|] eqn:E; cbn [bind]; [no_map|discriminate|]. destruct (appendVars_some _ _ _ E). }
  1-4: unfold checkLoopOperator, checkThrowParam, checkReturnParam; match goal with |- context [if ?c then _ else _] => destruct c end; [no_map|discriminate].
  destruct (v_param v) as [[x n] b]. discriminate.
Qed.
Lemma reduce_sim a st raw vs a0 l t p r : sim a st raw vs a0 l t p -> reduce_ok (p_state p) r = true ->
  match reduce p r with
  | Next_ p' => inv p' -> exists vs',
     sim a ((goto (top (skipn (length (rhs r)) st)) (nt_no (lhs r)), Node r (rev (map snd (firstn (length (rhs r)) st)))) :: skipn (length (rhs r)) st) raw vs' a0 l t p'
  | Crash x => x = PNilMap -> r = 27 /\ exists X ts c b1 b2, rev (map snd (firstn (length (rhs r)) st)) = X :: ts /\ ev X c b1 b2 /\ v_explicit_variables c = None
  | Done _ _ => False
  end.
Proof.
  intros [Hi HT Hv Hrest] Hr. pose proof HT as [H1 H2 H3 H4 H5 H6 H7 H8 H9]. destruct (i_top p Hi) as [l0 Ht].
  pose proof (i_path p Hi) as Hp. rewrite Ht in Hp.
  destruct (reduce_eq p r _ _ Ht Hp Hr) as (popped & base & rest & q & E1 & E2 & Eq & Eq2 & Hpred & Hq & Hpath & Hprod & Hh & ->).
  cbv zeta. set (above := rev popped ++ p_above p).
  rewrite H1 in E1. destruct (rev_app_split _ _ _ _ _ E1) as (vs1 & -> & Eb).
  set (n := length (rhs r)). set (A := firstn n st). set (Bs := skipn n st).
  assert (Hn : length (rev popped) = n).
  { apply (f_equal (@length Z)) in E2. rewrite !map_length in E2. exact E2. }
  assert (Est : st = A ++ Bs) by (symmetry; apply firstn_skipn).
  assert (HlA : length A = n).
  { subst A. apply firstn_length_le. apply (f_equal (@length Z)) in Hv. rewrite !map_length, rev_length, app_length in Hv. lia. }
  rewrite Est, rev_app_distr, !map_app in Hv. rewrite Est, rev_app_distr, !map_app in H3, H8.
  rewrite Est, rev_app_distr, map_app in H2, H5.
  assert (HlB : length (map yys vs1) = length (map fst (rev Bs))).
  { apply (f_equal (@length Z)) in Hv. rewrite !app_length, !map_length, !rev_length in Hv. rewrite rev_length in Hn. rewrite !map_length, rev_length. lia. }
  destruct (app_inj_length _ _ _ _ HlB Hv) as [Hv1 Hv2].
  assert (HlB2 : length (map sym_of (map snd (rev Bs))) = length (map (fun c => chk (yys c)) vs1)).
  { rewrite !map_length in *. lia. }
  rewrite (map_app sym_of), (map_app (fun c => chk (yys c))) in H3.
  destruct (app_inj_length _ _ _ _ HlB2 H3) as [S1 S2].
  destruct (evs_split _ _ _ _ _ H5) as (ws1 & ws2 & b & Ews & V1 & V2).
  assert (ws1 = vs1 /\ ws2 = rev popped) as [-> ->].
  { apply app_inj_length; [|symmetry; exact Ews]. pose proof (evs_length _ _ _ _ V1) as HL. rewrite HL, map_length. rewrite !map_length in HlB. lia. }
  apply Forall_app in H2. destruct H2 as [W1 W2].
  assert (Hrev : rev (map snd A) = map snd (rev A)) by (symmetry; apply map_rev). rewrite Hrev.
  destruct (act r (fun i => nth (i - 1) above zero_slot) (hd zero_slot above) (p_ast p)) as [[v' a']|x] eqn:EA.
  2: { cbn [sbind]. intros ->. destruct (act_nil_map _ _ _ _ Hprod EA) as (Hr27 & Hnone). split; [exact Hr27|].
       assert (Hlen : n = 4%nat) by (subst n; rewrite Hr27; reflexivity). rewrite Hlen in Hn.
       subst above. destruct (rev popped) as [|c0 dr] eqn:Er; [discriminate Hn|].
       clear -V2 Hnone. fold n A. revert V2. generalize (map snd (rev A)). intros us V2.
       inversion V2 as [|X ts ? ? ? ? ? VX]; subst us. exists X, ts, c0. do 2 eexists. split; [reflexivity|]. split; [exact VX|exact Hnone]. }
  cbn [sbind]. destruct (act_input _ _ _ _ _ _ Hprod EA) as (I1 & I2 & I3). intros Hi'.
  assert (Htop : yys base = top Bs).
  { rewrite <- (rev_involutive Bs). set (B' := rev Bs) in *. clearbody B'. destruct B' as [|x B' _] using rev_ind.
    - destruct vs1; [|discriminate Hv1]. cbn in Eb. injection Eb as -> _. reflexivity.
    - rewrite map_app in Hv1. destruct vs1 as [|y vs1 _] using rev_ind; [destruct (map fst B'); discriminate Hv1|].
      rewrite map_app in Hv1. apply app_inj_tail in Hv1 as [_ Hv1]. rewrite rev_unit in Eb. cbn in Eb. injection Eb as -> _.
      rewrite rev_unit. exact Hv1. }
  exists (vs1 ++ [set_yys v' q]). constructor; [exact Hi'| | |exact Hrest].
  2: { cbn [rev]. rewrite !map_app, Hv1. cbn [map fst]. rewrite <- Htop, <- Eq. reflexivity. }
  cbn [rev]. rewrite map_app. cbn [map snd].
  unfold push. constructor; cbn [p_stk p_above p_state p_lval p_char p_tok p_ast]; auto.
  - rewrite rev_unit. cbn [app]. rewrite <- Eb. reflexivity.
  - apply Forall_app. split; [exact W1|]. constructor; [|constructor]. constructor; auto. congruence.
  - rewrite !map_app, S1. cbn [map sym_of]. change (yys (set_yys v' q)) with q. rewrite Eq2. reflexivity.
  - eapply evs_app; [exact V1|]. econstructor; [|constructor].
    apply ev_node with (ds := rev popped) (v0 := hd zero_slot above) (a1 := p_ast p) (a2 := a'); auto using same_ctx_refl.
    + destruct (rev popped) as [|d0 dr] eqn:Er; [exact I|]. subst above. reflexivity.
    + rewrite <- EA. apply act_ext; [exact Hprod|]. intros i Hi2. subst above. rewrite app_nth1; [reflexivity|].
      fold n in Hi2. lia.
  - congruence.
  - rewrite flat_map_app in *. cbn [flat_map yield]. rewrite app_nil_r. exact H8.
Qed.

Definition follows (a : astnode) (p : pst) (m : mres) : Prop :=
  match m with
  | MNext st' inp' => (exists p' raw' vs a0 l t, step p = Next_ p' /\ tks raw' = inp' /\ sim a st' raw' vs a0 l t p') \/
     (step p = Crash PNilMap /\ exists s X ts c b1 b2 rest, st' = (s, Node 27 (X :: ts)) :: rest /\ ev X c b1 b2 /\ v_explicit_variables c = None)
  | MAccept u => exists v a1 a', step p = Done 0 a' /\ wf u /\ sym_of u = - nt_no n_module /\ same_ctx a a1 /\ ev u v a1 a'
  | MFail => exists a', step p = Done 1 a'
  end.
Lemma fail_follows a : (exists a', fail a = Done 1 a') \/ fail a = Crash PNilDeref.
Proof. unfold fail, Error. destruct (tk_ast _); cbn [sbind]; eauto. Qed.
Theorem step_sim a st raw vs a0 l t p : sim a st raw vs a0 l t p -> follows a p (mstep st (tks raw)).
Proof.
  intros H. pose proof (s_inv _ _ _ _ _ _ _ _ H) as Hi. destruct (inv_states p Hi) as [Hs Hst].
  pose proof (sim_top _ _ _ _ _ _ _ _ H) as Htop. pose proof (step_inv p Hi) as Hstep.
  unfold mstep, action_of, follows. rewrite step_eq in * by (auto using inv_tokno). rewrite Htop in *.
  destruct (look1_sim _ _ _ _ _ _ _ _ H) as (a1 & H1 & E1). rewrite E1 in *.
  destruct (shift_of (top st) (la (tks raw))) as [q|] eqn:Eq.
  - pose proof (shift_flag _ _ _ Eq) as Hf.
    destruct (look_sim _ _ _ _ _ _ _ _ H) as (a2 & H2 & K1 & K2 & K3).
    destruct (Z.lt_ge_cases (p_char (look p)) 0) as [Hlt|Hge].
    { exfalso. rewrite (K2 Hlt) in Eq. cbn in Eq. rewrite no_end_shift in Eq by exact Hs. discriminate. }
    destruct (K3 ltac:(lia)) as (raw' & -> & Hr'). cbn [tks map fst snd]. left.
    exists (shift (look p) q), raw'. pose proof (s_tinv _ _ _ _ _ _ _ _ H2) as T2.
    assert (Hq : shift_of (p_state (look p)) (p_tok (look p)) = Some q).
    { destruct (look_stk p) as (_ & _ & ->). rewrite Htop, K1. exact Eq. }
    pose proof (shift_tinv _ _ _ _ _ _ _ q (s_inv _ _ _ _ _ _ _ _ H2) T2 ltac:(lia) Hq) as T3.
    do 4 eexists. split; [reflexivity|]. split; [reflexivity|]. destruct Hstep as (Hinv & _).
    constructor; [exact Hinv| | |exact Hr'].
    + cbn [rev]. rewrite map_app. exact T3.
    + cbn [rev]. rewrite !map_app, (s_states _ _ _ _ _ _ _ _ H). reflexivity.
  - destruct (look2_sim _ _ _ _ _ _ _ _ H) as (a2 & H2 & E2). rewrite E2 in *.
    assert (Hred : forall r, default (top st) (la (tks raw)) = Reduce r -> reduce_ok (p_state (look2 p)) r = true).
    { intros r Hd. apply default_reduce; [exact Hi|]. rewrite Htop. congruence. }
    destruct (default (top st) (la (tks raw))) as [q|r| |] eqn:Ed; cbn [do_default] in *.
    + unfold default in Ed. destruct (_ =? -2) in Ed; [|destruct (_ =? 0) in Ed; discriminate Ed].
      destruct (exca_find _ _) in Ed; [|discriminate]. destruct (exca_scan _ _) in Ed; [|discriminate].
      destruct (_ <? 0) in Ed; [discriminate|]. destruct (_ =? 0) in Ed; discriminate.
    + pose proof (reduce_sim _ _ _ _ _ _ _ _ r H2 (Hred r eq_refl)) as HR.
      destruct (reduce (look2 p) r) as [p'|x a'|x]; [|contradiction|].
      2: { right. destruct Hstep as (-> & _). destruct (HR eq_refl) as (-> & X & ts & c & b1 & b2 & ER & HX). split; [reflexivity|].
           rewrite ER. do 7 eexists. split; [reflexivity|exact HX]. }
      destruct Hstep as (Hinv & _). destruct (HR Hinv) as (vs' & HR2). left. exists p', raw. do 4 eexists. split; [reflexivity|]. split; [reflexivity|exact HR2].
    + assert (Hk : tokno (la (tks raw))).
      { unfold la. destruct (tks raw); [unfold tokno, n_tokens; lia|apply tokno_of_range]. }
      destruct (only_accept _ _ Hs Hk Ed) as [Es Ek].
      pose proof (s_tinv _ _ _ _ _ _ _ _ H2) as [T1 T2 T3 T4 T5 T6 T7 T8 T9].
      assert (Hstk : map yys (p_stk p) = [1; 0]).
      { pose proof (i_path p Hi) as Hp. destruct (i_top p Hi) as [l0 Ht]. rewrite Htop, Es in Ht. rewrite Ht in Hp |- *. inversion Hp as [|s1 s2 l1 Hpr Hp1]; subst.
        change (pred 1) with [0] in Hpr. destruct Hpr as [<-|[]].
        inversion Hp1 as [|s1 s2 l2 Hpr2 Hp2]; subst; [reflexivity|]. destruct Hpr2. }
      destruct (look2_inv p Hi) as (_ & _ & B3 & _). rewrite B3 in T1. rewrite T1, map_app, map_rev in Hstk. cbn [map] in Hstk.
      rewrite (s_states _ _ _ _ _ _ _ _ H), map_rev, rev_involutive in Hstk.
      destruct st as [|[s T] [|? st]]; [discriminate Hstk| |destruct st; discriminate Hstk].
      cbn in Hstk. injection Hstk as ->. cbn [rev map app snd] in *.
      destruct vs as [|v [|? ?]]; [discriminate T3| |discriminate T3]. inversion T2; subst. inversion T5; subst.
      match goal with H : evs [] [] _ _ |- _ => inversion H; subst end.
      pose proof (s_states _ _ _ _ _ _ _ _ H) as Hv. cbn in Hv. injection Hv as Hv.
      cbn [map] in T3. injection T3 as T3.
      exists v, a2, (p_ast (look2 p)). split; [reflexivity|]. split; [assumption|]. split; [rewrite T3, Hv; reflexivity|]. auto.
    + destruct (fail_follows (p_ast (look2 p))) as [F|F]; [exact F|]. rewrite F in Hstep. destruct Hstep as [F' _]. discriminate F'.
Qed.

(** * Whole runs *)
(** A machine that accepts is followed to the end, or an action panics. *)
Lemma run_accepts st inp st' inp' : msteps st inp st' inp' -> forall T, mstep st' inp' = MAccept T ->
  forall a raw vs a0 l t p, sim a st raw vs a0 l t p -> tks raw = inp ->
  (exists n p' v a1 a', steps n p p' /\ step p' = Done 0 a' /\ wf T /\ sym_of T = - nt_no n_module /\ same_ctx a a1 /\ ev T v a1 a') \/
  (exists n p' s X ts c b1 b2 rest inp1, steps n p p' /\ step p' = Crash PNilMap /\
     msteps st inp ((s, Node 27 (X :: ts)) :: rest) inp1 /\ msteps ((s, Node 27 (X :: ts)) :: rest) inp1 st' inp' /\ ev X c b1 b2 /\ v_explicit_variables c = None).
Proof.
  induction 1 as [st inp|st inp st1 inp1 st2 inp2 E H IH]; intros T HT a raw vs a0 l t p Hs <-;
  pose proof (step_sim _ _ _ _ _ _ _ _ Hs) as Hf.
  - rewrite HT in Hf. destruct Hf as (v & a1 & a' & Hf). left. exists O, p, v, a1, a'. split; [constructor|exact Hf].
  - rewrite E in Hf. destruct Hf as [(p' & raw' & vs' & a0' & l' & t' & F1 & F2 & F3)|(F & s & X & ts & c & b1 & b2 & rest & -> & F')].
    2: { right. exists O, p, s, X, ts, c, b1, b2, rest, inp1. split; [constructor|]. split; [exact F|]. split; [econstructor; [eassumption|constructor]|]. split; [exact H|exact F']. }
    destruct (IH T HT _ _ _ _ _ _ _ F3 F2) as [(n & pn & v & a1 & a' & G1 & G2)|(n & pn & s & X & ts & c & b1 & b2 & rest & inp0 & G1 & G2 & G3 & G4)].
    + left. exists (S n), pn, v, a1, a'. split; [econstructor; eassumption|exact G2].
    + right. exists (S n), pn, s, X, ts, c, b1, b2, rest, inp0. split; [econstructor; eassumption|]. split; [exact G2|]. split; [econstructor; eassumption|exact G4].
Qed.
(** A run that ends with 0 is a run of the machine that accepts. *)
Lemma run_accepted n p p' : steps n p p' -> forall a st raw vs a0 l t, sim a st raw vs a0 l t p -> forall a', step p' = Done 0 a' ->
  exists st' inp' T v a1, msteps st (tks raw) st' inp' /\ mstep st' inp' = MAccept T /\
    wf T /\ sym_of T = - nt_no n_module /\ same_ctx a a1 /\ ev T v a1 a'.
Proof.
  induction 1 as [p|n p p1 p2 E H IH]; intros a st raw vs a0 l t Hs a' Ha;
  pose proof (step_sim _ _ _ _ _ _ _ _ Hs) as Hf.
  - exists st, (tks raw). destruct (mstep st (tks raw)) as [st1 inp1|T|] eqn:Em; cbn [follows] in Hf; rewrite Ha in Hf.
    + destruct Hf as [(? & ? & ? & ? & ? & ? & F & _)|(F & _)]; discriminate F.
    + destruct Hf as (v & a1 & a2 & F1 & F2). injection F1 as <-. exists T, v, a1. split; [constructor|]. auto.
    + destruct Hf as (? & F); discriminate F.
  - destruct (mstep st (tks raw)) as [st1 inp1|T|] eqn:Em; cbn [follows] in Hf; rewrite E in Hf.
    + destruct Hf as [(p' & raw' & vs' & a0' & l' & t' & F1 & F2 & F3)|(F & _)]; [|discriminate F]. injection F1 as <-.
      destruct (IH _ _ _ _ _ _ _ F3 _ Ha) as (st' & inp' & T & v & a1 & G1 & G2). rewrite F2 in G1.
      exists st', inp', T, v, a1. split; [econstructor; eassumption|exact G2].
    + destruct Hf as (v & a1 & a2 & F1 & F2). discriminate F1.
    + destruct Hf as (? & F); discriminate F.
Qed.
Lemma init_sim a raw : lexes (a_code a) zero_token raw -> sim a [] raw [] a [] zero_token (init_pst a).
Proof. intros H. constructor; [apply init_inv|apply init_tinv|reflexivity|exact H]. Qed.

(** Parse on a text without lexical errors that the machine accepts. *)
Theorem Parse_accepts a inp T : blank (a_code a) = false -> tokens (a_code a) inp -> maccepts inp T ->
  (exists v a1 a', Parse a = Some (Ok (a', a_err a')) /\ wf T /\ sym_of T = - nt_no n_module /\ same_ctx a a1 /\ ev T v a1 a') \/
  exists s X ts c b1 b2 rest inp1 st' inp', Parse a = Some (Panic PNilMap) /\ msteps ((s, Node 27 (X :: ts)) :: rest) inp1 st' inp' /\
    mstep st' inp' = MAccept T /\ ev X c b1 b2 /\ v_explicit_variables c = None.
Proof.
  intros Hb (raw & Hl & ->) (st' & inp' & Hm & Ha).
  assert (Hrun : forall n p', steps n (init_pst a) p' -> (match step p' with Next_ _ => False | _ => True end) ->
     Parse a = match outcome (step p') with None => None | Some (Panic q) => Some (Panic q) | Some (Ok (_, a')) => Some (Ok (a', a_err a')) end).
  { intros n p' H1 H2. destruct (run_result _ (init_inv a)) as (n2 & p2 & R1 & R2 & R3 & R4 & R5).
    assert (p2 = p') as ->.
    { clear - H1 H2 R1 R4. revert n2 R1. induction H1 as [p|n p p1 p' E H IH]; intros n2 R1; inversion R1; subst; auto.
      - rewrite H in H2. contradiction.
      - rewrite E in R4. contradiction.
      - rewrite E in H0. injection H0 as <-. eauto. }
    unfold Parse. rewrite Hb, R5 by (rewrite init_potential; unfold parse_fuel; lia). reflexivity. }
  destruct (run_accepts _ _ _ _ Hm _ Ha _ _ _ _ _ _ _ (init_sim a raw Hl) eq_refl) as [(n & p' & v & a1 & a' & G1 & G2 & G3)|(n & p' & s & X & ts & c & b1 & b2 & rest & inp0 & G1 & G2 & G3 & G4 & G5)].
  - left. exists v, a1, a'. split; [|exact G3]. rewrite (Hrun _ _ G1) by (rewrite G2; exact I). rewrite G2. reflexivity.
  - right. exists s, X, ts, c, b1, b2, rest, inp0, st', inp'. rewrite (Hrun _ _ G1) by (rewrite G2; exact I). rewrite G2. auto.
Qed.
(** An accepted text: the machine accepts its tokens. *)
Theorem Parse_accepted a a' : Parse a = Some (Ok (a', None)) -> blank (a_code a) = false ->
  exists inp T v a1, tokens (a_code a) inp /\ maccepts inp T /\ wf T /\ sym_of T = - nt_no n_module /\ same_ctx a a1 /\ ev T v a1 a'.
Proof.
  intros H Hb. destruct (Parse_tree a a' H Hb) as (T0 & v0 & l & _ & _ & _ & _ & raw & Hl & ->).
  exists (tks raw). unfold Parse in H. rewrite Hb in H.
  destruct (run_result _ (init_inv a)) as (n & p' & H1 & H2 & H3 & H4 & H5).
  rewrite H5 in H by (rewrite init_potential; unfold parse_fuel; lia).
  pose proof (step_inv p' H3) as Hs.
  destruct (step p') as [|x a2|q] eqn:Es; [contradiction| |discriminate]. cbn [outcome] in H.
  injection H as -> He. destruct Hs as (_ & S2 & S3).
  assert (x = 0) as -> by (destruct (Z.eq_dec x 0) as [E|E]; [exact E | destruct (S3 E He)]).
  destruct (run_accepted _ _ _ H1 _ _ _ _ _ _ _ (init_sim a raw Hl) _ Es) as (st' & inp' & T & v & a1 & G1 & G2 & G3 & G4 & G5 & G6).
  exists T, v, a1. split; [exists raw; auto|]. split; [exists st', inp'; auto|]. auto.
Qed.
