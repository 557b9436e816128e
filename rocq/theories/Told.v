(** Every error of a text without lexical errors is about one of its tokens. *)
From Verif Require Import Bytes Utf8 Float64 GoTime Ast Lexer LexFacts LexSpec LexProofs Tables Parser Grammar Tok CertData Cert Driver DriverInv Trees Machine
  Levels Bind Items Complete TightOk ViableData Viable Blame.
Open Scope Z_scope.

Definition one_of (raw : list (Z * token)) (t : token) : Prop := exists pre k post, raw = pre ++ (k, t) :: post.
Definition told (raw : list (Z * token)) (p : pst) : Prop :=
  a_err (p_ast p) = None \/ exists m t, one_of raw t /\ a_err (p_ast p) = Some (loc (a_code (p_ast p)) t m).
Lemma Next_end code t : skipn (tk_off t) code = [] -> exists t', Next code t = (EOF, t', None).
Proof. intros H. unfold Next. rewrite H. eexists. reflexivity. Qed.
Lemma look_err a st raw vs a0 l t p : sim a st raw vs a0 l t p -> a_err (p_ast (look p)) = a_err (p_ast p) /\ a_code (p_ast (look p)) = a_code (p_ast p).
Proof.
  intros H. pose proof (s_tinv _ _ _ _ _ _ _ _ H) as T. unfold look. destruct (p_char p <? 0) eqn:E; [|auto].
  unfold Lex. destruct (a_code (p_ast p)) as [|b code] eqn:Ec; [cbn [p_ast]; auto|]. rewrite <- Ec.
  destruct (Next (a_code (p_ast p)) (v_token (p_lval p))) as [[k u] e] eqn:EN.
  assert (e = None) as ->.
  { rewrite (t_code _ _ _ _ _ _ _ T) in EN. destruct (t_look _ _ _ _ _ _ _ T) as [[_ [X|[_ X]]]|[X _]].
    - rewrite X in EN. apply (lexes_next _ _ _ _ _ _ (s_rest _ _ _ _ _ _ _ _ H) EN).
    - destruct (Next_end _ _ X) as (t' & F). rewrite F in EN. congruence.
    - apply kinds_pos in X. lia. }
  destruct (k =? EOF); cbn [p_ast a_err a_code set_cur]; auto.
Qed.
Lemma look1_err a st raw vs a0 l t p : sim a st raw vs a0 l t p -> a_err (p_ast (look1 p)) = a_err (p_ast p) /\ a_code (p_ast (look1 p)) = a_code (p_ast p).
Proof. intros H. unfold look1. destruct (_ <=? _); [auto|eapply look_err; exact H]. Qed.
Lemma look2_err a st raw vs a0 l t p : sim a st raw vs a0 l t p -> a_err (p_ast (look2 p)) = a_err (p_ast p) /\ a_code (p_ast (look2 p)) = a_code (p_ast p).
Proof.
  intros H. destruct (look1_err _ _ _ _ _ _ _ _ H) as [E1 E2]. unfold look2. destruct (_ =? -2); [|auto].
  destruct (look1_sim _ _ _ _ _ _ _ _ H) as (a1 & H1 & _). destruct (look_err _ _ _ _ _ _ _ _ H1). split; congruence.
Qed.
Lemma lexes_det code t l : lexes code t l -> forall l', lexes code t l' -> l = l'.
Proof.
  induction 1 as [t t1 E|t k t1 l0 E Hk H IH]; intros l' H2; inversion H2 as [? ? E'|? ? ? ? E' ? ?]; subst; try congruence.
  rewrite E in E'. injection E' as <- <-. f_equal. auto.
Qed.
(** The current token is one of the text. *)
Lemma cur_one a st raw vs a0 l t p : sim a st raw vs a0 l t p -> cur_at t p -> tk_ast (a_cur (p_ast p)) = true -> one_of (l ++ raw) (a_cur (p_ast p)).
Proof.
  intros H Hc Ha. pose proof (s_tinv _ _ _ _ _ _ _ _ H) as T. pose proof (t_reads _ _ _ _ _ _ _ T) as R. unfold cur_at in Hc. destruct (p_char p <? 0) eqn:E0.
  - rewrite Hc in *. inversion R as [t0 Ez El|t0 l0 t1 k t2 R1 R2 R3].
    { match goal with E : zero_token = t |- _ => rewrite <- E in Ha end. discriminate Ha. }
    exists l0, k, raw. rewrite <- app_assoc. reflexivity.
  - destruct (t_look _ _ _ _ _ _ _ T) as [[X _]|[X1 X2]]; [lia|]. rewrite Hc.
    destruct (lexes_next _ _ _ _ _ _ (s_rest _ _ _ _ _ _ _ _ H) X2) as (_ & [[X _]|(_ & raw' & -> & _)]); [apply kinds_not_EOF in X1; contradiction|].
    exists l, (p_char p), raw'. reflexivity.
Qed.
Lemma sim_all a st raw vs a0 l t p : sim a st raw vs a0 l t p -> lexes (a_code a) zero_token (l ++ raw).
Proof. intros H. exact (reads_lexes _ _ _ _ (t_reads _ _ _ _ _ _ _ (s_tinv _ _ _ _ _ _ _ _ H)) _ (s_rest _ _ _ _ _ _ _ _ H)). Qed.

Lemma told_step a st raw vs a0 l t p p' all : lexes (a_code a) zero_token all -> sim a st raw vs a0 l t p -> cur_at t p -> no_syntax p -> told all p -> step p = Next_ p' -> told all p'.
Proof.
  intros Hall H Hc Hn Ht Hstep. pose proof (s_inv _ _ _ _ _ _ _ _ H) as Hi. destruct (inv_states p Hi) as [Hs Hst].
  pose proof (sim_top _ _ _ _ _ _ _ _ H) as Htop. rewrite step_eq in Hstep by (auto using inv_tokno). rewrite Htop in Hstep.
  destruct (look1_sim _ _ _ _ _ _ _ _ H) as (a1 & H1 & E1). rewrite E1 in Hstep.
  destruct (shift_of (top st) (la (tks raw))) as [q|] eqn:Eq.
  - injection Hstep as <-. destruct (look_err _ _ _ _ _ _ _ _ H) as [L1 L2]. unfold told. cbn [shift push p_ast]. rewrite L1, L2. exact Ht.
  - destruct (look2_sim _ _ _ _ _ _ _ _ H) as (a2 & H2 & E2). rewrite E2 in Hstep. destruct (look2_cur t p Hc Hn) as (C2 & N2 & _).
    destruct (look2_err _ _ _ _ _ _ _ _ H) as [L1 L2].
    destruct (default (top st) (la (tks raw))) as [q|r| |] eqn:Ed; cbn [do_default] in Hstep; try discriminate Hstep.
    1, 3: destruct (fail_follows (p_ast (look2 p))) as [[? F]|F]; rewrite F in Hstep; discriminate Hstep.
    assert (Hr : prodno r).
    { assert (R : reduce_ok (top st) r = true).
      { eapply action_reduce; [rewrite <- Htop; exact Hs|apply la_tokno|]. unfold action_of. rewrite Eq. exact Ed. }
      unfold reduce_ok in R. rewrite !andb_true_iff in R. unfold prodno. lia. }
    revert Hstep. unfold reduce. destruct (tab yyR2 r) as [n|]; [|discriminate]. cbn [sbind].
    destruct (pop _ _ _) as [[stk' above']|]; [|discriminate]. destruct stk' as [|base stk']; [discriminate|].
    destruct (tab yyR1 r) as [r1|]; [|discriminate]. cbn [sbind]. destruct (goto_ _ _) as [q|]; [|discriminate]. cbn [sbind].
    destruct (act r _ _ _) as [[v' a']|] eqn:EA; [|discriminate]. cbn [sbind]. intros [= <-].
    destruct (act_input _ _ _ _ _ _ Hr EA) as (I1 & _ & _). unfold told. cbn [push p_ast]. rewrite I1, L2.
    destruct (act_step _ _ _ _ _ _ Hr EA) as [S1|(m & [M1 M2] & M3)].
    + rewrite S1, L1. exact Ht.
    + right. exists m, (a_cur (p_ast (look2 p))). split; [|rewrite M3, L2; reflexivity].
      rewrite (lexes_det _ _ _ Hall _ (sim_all _ _ _ _ _ _ _ _ H2)). eapply cur_one; eassumption.
Qed.
Lemma run_told all n p p' : steps n p p' -> forall a st raw vs a0 l t, lexes (a_code a) zero_token all -> sim a st raw vs a0 l t p -> cur_at t p -> no_syntax p -> told all p ->
  exists st' raw' vs' a0' l' t', msteps st (tks raw) st' (tks raw') /\ sim a st' raw' vs' a0' l' t' p' /\ cur_at t' p' /\ no_syntax p' /\ told all p'.
Proof.
  induction 1 as [p|n p p1 p2 E H IH]; intros a st raw vs a0 l t Hall Hs Hc Hn Ht.
  - exists st, raw, vs, a0, l, t. split; [constructor|]. auto.
  - pose proof (step_sim _ _ _ _ _ _ _ _ Hs) as Hf. destruct (mstep st (tks raw)) as [st1 inp1|T|] eqn:Em; cbn [follows] in Hf; rewrite E in Hf.
    + destruct Hf as [(p' & raw' & vs' & a0' & l' & t' & F1 & F2 & F3)|(F & _)]; [|discriminate F]. injection F1 as <-. subst inp1.
      destruct (cur_step _ _ _ _ _ _ _ _ _ _ _ _ _ _ _ Hs Hc Hn E Em F3) as [C1 N1].
      destruct (IH _ _ _ _ _ _ _ Hall F3 C1 N1 (told_step _ _ _ _ _ _ _ _ _ _ Hall Hs Hc Hn Ht E)) as (st2 & raw2 & vs2 & a2 & l2 & t2 & G1 & G2).
      exists st2, raw2, vs2, a2, l2, t2. split; [econstructor; eassumption|exact G2].
    + destruct Hf as (v & a1 & a2 & F1 & F2). discriminate F1.
    + destruct Hf as (? & F); discriminate F.
Qed.
(** How parsing ends: a panic, acceptance by the machine, or a syntax error. *)
Theorem parse_ends code raw : blank code = false -> lexes code zero_token raw ->
  (exists q, parse code = Some (Panic q)) \/
  (exists a' T, parse code = Some (Ok (a', a_err a')) /\ maccepts (tks raw) T /\ wf T /\ sym_of T = - nt_no n_module /\
     (a_err a' = None \/ exists m t, m <> MSyntax /\ one_of raw t /\ a_err a' = Some (loc code t m))) \/
  (exists a' st post t, parse code = Some (Ok (a', Some (loc code t MSyntax))) /\ one_of raw t /\
     msteps [] (tks raw) st (tks post) /\ mstep st (tks post) = MFail).
Proof.
  intros Hb Hl. unfold parse, Parse. cbn [NewAST a_code]. rewrite Hb.
  destruct (run_result _ (init_inv (NewAST code))) as (n & p' & R1 & R2 & R3 & R4 & R5).
  rewrite R5 by (rewrite init_potential; unfold parse_fuel; cbn [NewAST a_code]; lia).
  assert (Hc0 : cur_at zero_token (init_pst (NewAST code))) by reflexivity.
  assert (Hn0 : no_syntax (init_pst (NewAST code))) by (intros l c x; discriminate).
  assert (Ht0 : told raw (init_pst (NewAST code))) by (left; reflexivity).
  destruct (run_told raw _ _ _ R1 (NewAST code) _ _ _ _ _ _ Hl (init_sim (NewAST code) raw Hl) Hc0 Hn0 Ht0) as (st & post & vs & a0 & pre & t & G1 & G2 & G3 & G4 & G5).
  pose proof (s_inv _ _ _ _ _ _ _ _ G2) as Hi. destruct (inv_states p' Hi) as [Hs Hst]. pose proof (sim_top _ _ _ _ _ _ _ _ G2) as Htop.
  pose proof (s_tinv _ _ _ _ _ _ _ _ G2) as T. pose proof (t_code _ _ _ _ _ _ _ T) as Tc. cbn [NewAST a_code] in Tc.
  pose proof (step_sim _ _ _ _ _ _ _ _ G2) as Hf. pose proof (step_eq p' Hs Hst (inv_tokno _ Hi)) as Hstep. rewrite Htop in Hstep.
  destruct (look1_sim _ _ _ _ _ _ _ _ G2) as (a1 & H1 & E1). rewrite E1 in Hstep.
  destruct (look2_sim _ _ _ _ _ _ _ _ G2) as (a2 & H2 & E2). rewrite E2 in Hstep. destruct (look2_cur t p' G3 G4) as (C2 & N2 & D2).
  destruct (look2_err _ _ _ _ _ _ _ _ G2) as [L1 L2].
  destruct (mstep st (tks post)) as [st1 inp1|tree|] eqn:Em; cbn [follows] in Hf.
  - destruct Hf as [(p1 & ? & ? & ? & ? & ? & F & _)|(F & _)]; rewrite F in *; [contradiction|]. left. eexists. reflexivity.
  - right. left. destruct Hf as (v & a3 & a' & F & F1 & F2 & _). rewrite F. cbn [outcome]. exists a', tree. split; [reflexivity|]. split; [exists st, (tks post); auto|]. split; [exact F1|]. split; [exact F2|].
    assert (Ea : a' = p_ast (look2 p')).
    { unfold mstep, action_of in Em. destruct (shift_of (top st) (la (tks post))); [destruct (tks post); discriminate Em|].
      destruct (default (top st) (la (tks post))); cbn [do_default] in Hstep; try discriminate Em; [destruct (tks post); discriminate Em|]. rewrite F in Hstep. congruence. }
    rewrite Ea, L1. unfold told in G5. rewrite Tc in G5. destruct G5 as [G5|(m & u & U1 & U2)]; [left; exact G5|right]. exists m, u. split; [|auto].
    intros ->. unfold loc in U2. exact (G4 _ _ _ U2).
  - right. right. destruct Hf as (a' & F). rewrite F. cbn [outcome].
    assert (Ef : fail (p_ast (look2 p')) = Done 1 a').
    { rewrite <- F, Hstep. unfold mstep, action_of in Em. destruct (shift_of (top st) (la (tks post))) eqn:Es.
      { rewrite Hstep in F. discriminate F. }
      rewrite F in Hstep.
      destruct (default (top st) (la (tks post))); cbn [do_default] in *; try discriminate Em; try reflexivity. discriminate Hstep. }
    unfold fail in Ef. destruct (Error (p_ast (look2 p')) MSyntax) as [b|] eqn:Ee; [|discriminate Ef]. cbn [sbind] in Ef. injection Ef as <-.
    apply Error_loc in Ee as [-> Hast]. exists (set_err (p_ast (look2 p')) (loc (a_code (p_ast (look2 p'))) (a_cur (p_ast (look2 p'))) MSyntax)), st, post, (a_cur (p_ast (look2 p'))).
    cbn [a_err set_err]. rewrite L2, Tc. split; [reflexivity|]. split; [|auto].
    rewrite (lexes_det _ _ _ Hl _ (sim_all _ _ _ _ _ _ _ _ H2)). eapply cur_one; eassumption.
Qed.
