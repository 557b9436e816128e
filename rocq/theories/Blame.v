(** Where the driver stops at a syntax error: what the machine has read by then, and
    which token the message is about. *)
From Verif Require Import Bytes Utf8 Float64 GoTime Ast Lexer LexFacts LexSpec LexProofs Tables Parser Grammar Tok CertData Cert Driver DriverInv Trees Machine
  Levels Bind Items Complete TightOk ViableData Viable.
Open Scope Z_scope.

(** * Errors of the actions *)
Definition loc (code : bytes) (t : token) (m : emsg) : perr :=
  EParse m (p_line (GetPosition code (tk_off t))) (p_col (GetPosition code (tk_off t)) - (Z.of_nat (length (runes (tk_lit t))) + 1)) (tk_lit t).
Definition err_step (a a' : astnode) : Prop :=
  a_err a' = a_err a \/ exists m, (m <> MSyntax /\ tk_ast (a_cur a) = true) /\ a_err a' = Some (loc (a_code a) (a_cur a) m).
Lemma err_refl a : err_step a a. Proof. left. reflexivity. Qed.
Lemma Error_loc a m a' : Error a m = Ok a' -> a' = set_err a (loc (a_code a) (a_cur a) m) /\ tk_ast (a_cur a) = true.
Proof. unfold Error. destruct (tk_ast (a_cur a)); [|discriminate]. intros [= <-]. split; reflexivity. Qed.
Lemma Error_step a m a' : m <> MSyntax -> Error a m = Ok a' -> err_step a a'.
Proof. intros Hm H. apply Error_loc in H as [-> Ht]. right. exists m. split; [auto|reflexivity]. Qed.
Lemma err_trans a b c : same_input a b -> err_step a b -> err_step b c -> err_step a c.
Proof.
  intros (S1 & S2 & _) H1 H2. destruct H2 as [H2|(m & M1 & M2)].
  - destruct H1 as [H1|(m & M1 & M2)]; [left; congruence|right; exists m; split; [exact M1|congruence]].
  - right. exists m. rewrite S2 in M1. rewrite S1, S2 in M2. auto.
Qed.
Lemma append_gvar_step v a a' : append_gvar v a = Ok a' -> err_step a a'.
Proof.
  unfold append_gvar. destruct (negb _); [apply Error_step; discriminate|].
  destruct (Parser.mem _ _); [|intros [= <-]; left; reflexivity].
  intros H. apply Error_loc in H as [-> Ht]. right. eexists. split; [|reflexivity]. split; [discriminate|exact Ht].
Qed.
Lemma append_gvars_step vs : forall a a', append_gvars vs a = Ok a' -> err_step a a'.
Proof.
  induction vs as [|v vs IH]; cbn [append_gvars]; intros a a' H; [injection H as <-; apply err_refl|].
  destruct (append_gvar v a) as [a1|q] eqn:E; [|discriminate]. cbn [bind] in H.
  eapply err_trans; [eapply append_gvar_input; exact E|eapply append_gvar_step; exact E|eauto].
Qed.
Ltac err_case :=
  match goal with |- context [Error ?a ?m] => let E := fresh in
    destruct (Error a m) as [|] eqn:E; [|discriminate]; cbn [bind]; intros [= <- <-]; eapply Error_step; [|exact E]; discriminate end.
Ltac err_vars :=
  match goal with |- context [appendVars ?x ?y] => destruct (appendVars x y) as [[m [n|]]|]; cbn [bind]; [| |discriminate] end;
    [ err_case | intros [= <- <-]; apply err_refl ].
Ltac err_check :=
  unfold checkLoopOperator, checkThrowParam, checkReturnParam;
  match goal with |- context [if ?c then _ else _] => destruct c end; [ err_case | cbn [bind]; intros [= <- <-]; apply err_refl ].
Lemma act_step r d v a v' a' : prodno r -> act r d v a = Ok (v', a') -> err_step a a'.
Proof.
  intros Hr. all_prods r Hr; cbn [act];
  try (intros [= <- <-]; left; reflexivity).
  1: { destruct (append_gvars _ a) as [a1|] eqn:E; [|discriminate]. cbn [bind]. intros [= <- <-]. eapply append_gvars_step; exact E. }
  1: { unfold append_func. destruct (_ && _); [err_case|]. cbn [bind]. intros [= <- <-]. left. reflexivity. }
  1: { cbv zeta. destruct (_ && _); [err_case|]. cbn [bind]. intros [= <- <-]. left. reflexivity. }
  1: err_vars. 1: err_vars. 1: err_check. 1: err_check. 1: err_check. 1: err_check.
  1: { destruct (v_param v) as [[x n] b]. intros [= <- <-]. apply err_refl. }
Qed.

(** * The token the message is about *)
Definition cur_at (t : token) (p : pst) : Prop :=
  a_cur (p_ast p) = if p_char p <? 0 then t else v_token (p_lval p).
Definition no_syntax (p : pst) : Prop := forall l c x, a_err (p_ast p) <> Some (EParse MSyntax l c x).
Lemma look_cur t p : cur_at t p -> no_syntax p -> cur_at t (look p) /\ no_syntax (look p) /\ a_code (p_ast (look p)) = a_code (p_ast p).
Proof.
  unfold cur_at, look. intros H N. destruct (p_char p <? 0) eqn:E; [|rewrite E; auto].
  unfold Lex. destruct (a_code (p_ast p)) as [|b code] eqn:Ec.
  { cbn [p_ast p_char p_lval]. change (EOF <? 0) with true. auto. }
  rewrite <- Ec. destruct (Next (a_code (p_ast p)) (v_token (p_lval p))) as [[k u] e] eqn:EN. destruct e as [e|].
  { cbn [p_ast p_char p_lval]. change (EOF <? 0) with true. split; [exact H|]. split; [|reflexivity]. intros l c x. discriminate. }
  destruct (k =? EOF) eqn:Ek.
  { cbn [p_ast p_char p_lval]. change (EOF <? 0) with true. auto. }
  cbn [p_ast p_char p_lval]. split; [|split; [exact N|reflexivity]]. cbn [a_cur set_cur]. destruct (Next_kinds _ _ _ _ EN) as [X|[X _]]; [lia|].
  apply kinds_pos in X. destruct (k <? 0) eqn:E0; [lia|reflexivity].
Qed.
Lemma look1_cur t p : cur_at t p -> no_syntax p -> cur_at t (look1 p) /\ no_syntax (look1 p) /\ a_code (p_ast (look1 p)) = a_code (p_ast p).
Proof. intros H N. unfold look1. destruct (_ <=? _); [auto|apply look_cur; assumption]. Qed.
Lemma look2_cur t p : cur_at t p -> no_syntax p -> cur_at t (look2 p) /\ no_syntax (look2 p) /\ a_code (p_ast (look2 p)) = a_code (p_ast p).
Proof.
  intros H N. destruct (look1_cur t p H N) as (H1 & N1 & C1). unfold look2. destruct (_ =? -2); [|auto].
  destruct (look_cur t _ H1 N1) as (H2 & N2 & C2). split; [exact H2|]. split; [exact N2|congruence].
Qed.
Lemma reduce_keeps p r p' : prodno r -> reduce p r = Next_ p' -> p_char p' = p_char p /\ p_lval p' = p_lval p /\ a_cur (p_ast p') = a_cur (p_ast p) /\ (no_syntax p -> no_syntax p').
Proof.
  intros Hr. unfold reduce. destruct (tab yyR2 r) as [n|]; [|discriminate]. cbn [sbind].
  destruct (pop _ _ _) as [[stk' above']|]; [|discriminate]. destruct stk' as [|base stk']; [discriminate|].
  destruct (tab yyR1 r) as [r1|]; [|discriminate]. cbn [sbind]. destruct (goto_ _ _) as [q|]; [|discriminate]. cbn [sbind].
  destruct (act r _ _ _) as [[v' a']|] eqn:EA; [|discriminate]. cbn [sbind]. intros [= <-]. cbn [push p_char p_lval p_ast].
  destruct (act_input _ _ _ _ _ _ Hr EA) as (_ & I2 & _). split; [reflexivity|]. split; [reflexivity|]. split; [exact I2|].
  intros N l c x Hx. cbn [push p_ast] in Hx. destruct (act_step _ _ _ _ _ _ Hr EA) as [S1|(m & M1 & M2)]; [rewrite S1 in Hx; exact (N _ _ _ Hx)|].
  rewrite M2 in Hx. unfold loc in Hx. injection Hx as Hm _. destruct M1. contradiction.
Qed.
Lemma reads_det code t l t1 : reads code t l t1 -> forall l' t1', reads code t l' t1' -> length l = length l' -> l = l' /\ t1 = t1'.
Proof.
  induction 1 as [t|t l t1 k t2 H IH HN Hk]; intros l' t1' H' Hl.
  - inversion H' as [|? l2 ? ? ? ? ? ?]; subst; [auto|]. rewrite app_length in Hl. cbn in Hl. lia.
  - inversion H' as [|? l2 u k' ? H2 HN' Hk']; subst; [rewrite app_length in Hl; cbn in Hl; lia|]. rewrite !app_length in Hl. cbn in Hl.
    destruct (IH _ _ H2) as [-> <-]; [lia|]. rewrite HN in HN'. injection HN' as <- <-. auto.
Qed.

Lemma sim_length a st raw vs a0 l t p : sim a st raw vs a0 l t p -> length l = length (flat_map yield (map snd (rev st))).
Proof. intros H. rewrite (t_yield _ _ _ _ _ _ _ (s_tinv _ _ _ _ _ _ _ _ H)). unfold tks. rewrite map_length. reflexivity. Qed.
Lemma sim_mwf a st raw vs a0 l t p : sim a st raw vs a0 l t p -> mwf st.
Proof.
  intros H. pose proof (s_inv _ _ _ _ _ _ _ _ H) as Hi. pose proof (s_tinv _ _ _ _ _ _ _ _ H) as T. pose proof (s_states _ _ _ _ _ _ _ _ H) as V. split.
  - pose proof (i_path p Hi) as P. rewrite (t_stk _ _ _ _ _ _ _ T), map_app, map_rev, V, <- map_rev, rev_involutive in P. exact P.
  - pose proof (t_wf _ _ _ _ _ _ _ T) as W. pose proof (t_sym _ _ _ _ _ _ _ T) as S.
    assert (S' : map sym_of (map snd (rev st)) = map chk (map fst (rev st))) by (rewrite S, <- V, map_map; reflexivity).
    clear - W S'. apply Forall_rev in W. rewrite <- map_rev, rev_involutive in W. rewrite !map_map in S'.
    assert (S2 : map (fun x => sym_of (snd x)) st = map (fun x => chk (fst x)) st) by (apply (f_equal (@rev Z)) in S'; rewrite <- !map_rev, rev_involutive in S'; exact S').
    clear S'. induction st as [|[s u] st IH]; constructor.
    + cbn in *. inversion W; subst. injection S2 as E _. auto.
    + apply IH; [inversion W; assumption|injection S2 as _ E; exact E].
Qed.

Lemma cur_step a st raw vs a0 l t p p' st' raw' vs' a0' l' t' : sim a st raw vs a0 l t p -> cur_at t p -> no_syntax p -> step p = Next_ p' ->
  mstep st (tks raw) = MNext st' (tks raw') -> sim a st' raw' vs' a0' l' t' p' -> cur_at t' p' /\ no_syntax p'.
Proof.
  intros H Hc Hn Hstep Hm H'. pose proof (s_inv _ _ _ _ _ _ _ _ H) as Hi. destruct (inv_states p Hi) as [Hs Hst].
  pose proof (sim_top _ _ _ _ _ _ _ _ H) as Htop. pose proof (sim_mwf _ _ _ _ _ _ _ _ H) as Hw.
  pose proof (mstep_yield _ _ _ _ Hw Hm) as Hy.
  pose proof (sim_length _ _ _ _ _ _ _ _ H) as Ln. pose proof (sim_length _ _ _ _ _ _ _ _ H') as Ln'.
  rewrite step_eq in Hstep by (auto using inv_tokno). rewrite Htop in Hstep.
  destruct (look1_sim _ _ _ _ _ _ _ _ H) as (a1 & H1 & E1). rewrite E1 in Hstep.
  unfold mstep, action_of in Hm. destruct (shift_of (top st) (la (tks raw))) as [q|] eqn:Eq.
  - injection Hstep as <-. destruct (look_sim _ _ _ _ _ _ _ _ H) as (a2 & H2 & K1 & K2 & K3). destruct (look_cur t p Hc Hn) as (C1 & N1 & _).
    destruct (Z.lt_ge_cases (p_char (look p)) 0) as [Hlt|Hge].
    { exfalso. rewrite (K2 Hlt) in Eq. cbn in Eq. rewrite no_end_shift in Eq by (rewrite <- Htop; exact Hs). discriminate. }
    destruct (K3 ltac:(lia)) as (raw1 & -> & Hr1). cbn [tks map] in Hm. injection Hm as <- _.
    unfold cur_at in *. cbn [shift push p_char p_lval p_ast]. change (-1 <? 0) with true. destruct (p_char (look p) <? 0) eqn:E0; [lia|]. split; [|exact N1].
    rewrite C1. pose proof (s_tinv _ _ _ _ _ _ _ _ H2) as T2. pose proof (t_reads _ _ _ _ _ _ _ T2) as R2.
    destruct (t_look _ _ _ _ _ _ _ T2) as [[X _]|[X1 X2]]; [lia|].
    pose proof (rd_snoc _ _ _ _ _ _ R2 X2 (kinds_not_EOF _ X1)) as R3.
    pose proof (t_reads _ _ _ _ _ _ _ (s_tinv _ _ _ _ _ _ _ _ H')) as R'. destruct (reads_det _ _ _ _ R3 _ _ R') as [_ E]; [|exact E].
    rewrite Ln', app_length, Ln. cbn [rev]. rewrite map_app, flat_map_app, app_length. reflexivity.
  - destruct (look2_sim _ _ _ _ _ _ _ _ H) as (a2 & H2 & E2). rewrite E2 in Hstep. destruct (look2_cur t p Hc Hn) as (C2 & N2 & _).
    destruct (default (top st) (la (tks raw))) as [q|r| |] eqn:Ed; cbn [do_default] in Hstep; try discriminate Hm.
    { destruct (fail_follows (p_ast (look2 p))) as [[? F]|F]; rewrite F in Hstep; discriminate Hstep. }
    2: { destruct st as [|[s u] [|? ?]]; discriminate Hm. }
    assert (Hr : prodno r).
    { assert (R : reduce_ok (top st) r = true).
      { eapply action_reduce; [rewrite <- Htop; exact Hs|apply la_tokno|]. unfold action_of. rewrite Eq. exact Ed. }
      unfold reduce_ok in R. rewrite !andb_true_iff in R. unfold prodno. lia. }
    destruct (reduce_keeps _ _ _ Hr Hstep) as (R1 & R2 & R3 & R4). split; [|auto]. unfold cur_at in *. rewrite R1, R2, R3, C2.
    assert (t' = t) as ->; [|reflexivity].
    pose proof (t_reads _ _ _ _ _ _ _ (s_tinv _ _ _ _ _ _ _ _ H)) as Ra. pose proof (t_reads _ _ _ _ _ _ _ (s_tinv _ _ _ _ _ _ _ _ H')) as Rb.
    destruct (reads_det _ _ _ _ Rb _ _ Ra) as [_ E]; [|exact E]. rewrite Ln, Ln'. injection Hm as _ Hm. 
    apply (f_equal (@length tk)) in Hy. rewrite !app_length, Hm in Hy. lia.
Qed.
Lemma run_follows n p p' : steps n p p' -> forall a st raw vs a0 l t, sim a st raw vs a0 l t p -> cur_at t p -> no_syntax p ->
  exists st' raw' vs' a0' l' t', msteps st (tks raw) st' (tks raw') /\ sim a st' raw' vs' a0' l' t' p' /\ cur_at t' p' /\ no_syntax p'.
Proof.
  induction 1 as [p|n p p1 p2 E H IH]; intros a st raw vs a0 l t Hs Hc Hn.
  - exists st, raw, vs, a0, l, t. split; [constructor|]. auto.
  - pose proof (step_sim _ _ _ _ _ _ _ _ Hs) as Hf. destruct (mstep st (tks raw)) as [st1 inp1|T|] eqn:Em; cbn [follows] in Hf; rewrite E in Hf.
    + destruct Hf as [(p' & raw' & vs' & a0' & l' & t' & F1 & F2 & F3)|(F & _)]; [|discriminate F]. injection F1 as <-. subst inp1.
      destruct (cur_step _ _ _ _ _ _ _ _ _ _ _ _ _ _ _ Hs Hc Hn E Em F3) as [C1 N1].
      destruct (IH _ _ _ _ _ _ _ F3 C1 N1) as (st2 & raw2 & vs2 & a2 & l2 & t2 & G1 & G2).
      exists st2, raw2, vs2, a2, l2, t2. split; [econstructor; eassumption|exact G2].
    + destruct Hf as (v & a1 & a2 & F1 & F2). discriminate F1.
    + destruct Hf as (? & F); discriminate F.
Qed.

(** No state fails without having looked at the next token. *)
Lemma fail_looks : forallb (fun s => negb ((at_ yyPact s <=? yyFlag) && (at_ yyDef s =? 0))) states = true.
Proof. vm_compute. reflexivity. Qed.
Lemma look2_form p k : state (p_state p) -> default (p_state p) k = Fail -> look2 p = look p \/ look2 p = look (look p).
Proof.
  intros Hs Hd. pose proof (forall_states _ fail_looks _ Hs) as Hf. cbv beta in Hf. unfold look2, look1. unfold default in Hd.
  destruct (at_ yyPact (p_state p) <=? yyFlag) eqn:E1; destruct (at_ yyDef (p_state p) =? -2) eqn:E2; auto.
  destruct (at_ yyDef (p_state p) =? 0) eqn:E3; [discriminate Hf|discriminate Hd].
Qed.

(** * Syntax errors *)
Theorem syntax_error code a' line col lit raw : blank code = false -> lexes code zero_token raw ->
  parse code = Some (Ok (a', Some (EParse MSyntax line col lit))) ->
  exists st pre post, msteps [] (tks raw) st (tks post) /\ mstep st (tks post) = MFail /\ raw = pre ++ post /\ mwf st /\
    flat_map yield (map snd (rev st)) = tks pre /\
    exists k t, match post with x :: _ => x = (k, t) | [] => exists pre', pre = pre' ++ [(k, t)] end /\ EParse MSyntax line col lit = loc code t MSyntax.
Proof.
  intros Hb Hl HP. unfold parse, Parse in HP. cbn [NewAST a_code] in HP. rewrite Hb in HP.
  destruct (run_result _ (init_inv (NewAST code))) as (n & p' & R1 & R2 & R3 & R4 & R5).
  rewrite R5 in HP by (rewrite init_potential; unfold parse_fuel; cbn [NewAST a_code]; lia).
  assert (Hc0 : cur_at zero_token (init_pst (NewAST code))) by reflexivity.
  assert (Hn0 : no_syntax (init_pst (NewAST code))) by (intros l c x; discriminate).
  destruct (run_follows _ _ _ R1 _ _ _ _ _ _ _ (init_sim (NewAST code) raw Hl) Hc0 Hn0) as (st & post & vs & a0 & pre & t & G1 & G2 & G3 & G4).
  pose proof (step_sim _ _ _ _ _ _ _ _ G2) as Hf.
  pose proof (s_inv _ _ _ _ _ _ _ _ G2) as Hi. destruct (inv_states p' Hi) as [Hs Hst]. pose proof (sim_top _ _ _ _ _ _ _ _ G2) as Htop.
  pose proof (s_tinv _ _ _ _ _ _ _ _ G2) as T. pose proof (t_reads _ _ _ _ _ _ _ T) as Rd. cbn [NewAST a_code] in Rd.
  assert (Eraw : raw = pre ++ post).
  { pose proof (reads_lexes _ _ _ _ Rd _ (s_rest _ _ _ _ _ _ _ _ G2)) as L2. clear - Hl L2. revert Hl L2. generalize zero_token (pre ++ post). intros t l.
    intros H. revert l. induction H as [t t1 E|t k t1 l0 E Hk H IH]; intros l H2; inversion H2; subst; try congruence.
    rewrite E in H0. injection H0 as <- <-. f_equal. auto. }
  exists st, pre, post. split; [exact G1|]. 
  assert (Hstep := step_eq p' Hs Hst (inv_tokno _ Hi)). rewrite Htop in Hstep. 
  destruct (look1_sim _ _ _ _ _ _ _ _ G2) as (a1 & H1 & E1). rewrite E1 in Hstep.
  destruct (look2_sim _ _ _ _ _ _ _ _ G2) as (a2 & H2 & E2). rewrite E2 in Hstep. destruct (look2_cur t p' G3 G4) as (C2 & N2 & D2).
  unfold mstep, action_of in Hf |- *.
  destruct (shift_of (top st) (la (tks post))) as [q|] eqn:Eq.
  { exfalso. rewrite Hstep in R4. exact R4. }
  destruct (default (top st) (la (tks post))) as [q|r| |] eqn:Ed; cbn [do_default] in Hstep.
  - exfalso. unfold default in Ed. destruct (_ =? -2) in Ed; [|destruct (_ =? 0) in Ed; discriminate Ed].
    destruct (exca_find _ _) in Ed; [|discriminate]. destruct (exca_scan _ _) in Ed; [|discriminate].
    destruct (_ <? 0) in Ed; [discriminate|]. destruct (_ =? 0) in Ed; discriminate.
  - exfalso. cbn [follows] in Hf. destruct Hf as [(? & ? & ? & ? & ? & ? & F & _)|(F & _)]; rewrite F in *; [exact R4|discriminate HP].
  - exfalso. rewrite Hstep in HP. cbn [outcome] in HP. injection HP as _ HP. exact (N2 _ _ _ HP).
  - split; [reflexivity|]. split; [exact Eraw|]. split; [exact (sim_mwf _ _ _ _ _ _ _ _ G2)|]. split; [exact (t_yield _ _ _ _ _ _ _ T)|].
    rewrite Hstep in HP. unfold fail in HP. destruct (Error (p_ast (look2 p')) MSyntax) as [b|] eqn:Ee; [|discriminate HP]. cbn [sbind outcome] in HP.
    apply Error_loc in Ee as [-> Hast]. apply (f_equal (fun o => match o with Some (Ok (_, e)) => e | _ => None end)) in HP. cbn [a_err set_err] in HP.
    assert (Hcode : a_code (p_ast (look2 p')) = code) by (rewrite D2; exact (t_code _ _ _ _ _ _ _ T)). rewrite Hcode in HP.
    rewrite <- Htop in Ed. 
    assert (Hlk : exists q, look2 p' = look q /\ exists b, sim (NewAST code) st post vs b pre t q).
    { destruct (look2_form p' _ Hs Ed) as [X|X]; rewrite X; [eauto|]. destruct (look_sim _ _ _ _ _ _ _ _ G2) as (b & Hb2 & _). eauto. }
    destruct Hlk as (q & Eq2 & b & Hq). destruct (look_sim _ _ _ _ _ _ _ _ Hq) as (b' & Hq2 & _ & Q1 & Q2). rewrite <- Eq2 in Q1, Q2. unfold cur_at in C2.
    destruct (p_char (look2 p') <? 0) eqn:E0.
    + rewrite Q1 by lia. rewrite C2 in HP, Hast. inversion Rd as [t0 Ez El|t0 l0 t1 k t2 Rd1 Rd2 Rd3].
      { match goal with E : zero_token = t |- _ => rewrite <- E in Hast end. discriminate Hast. }
      exists k, t. split; [eauto|]. congruence.
    + destruct Q2 as (raw' & -> & _); [lia|]. exists (p_char (look2 p')), (v_token (p_lval (look2 p'))). split; [reflexivity|]. rewrite <- C2. congruence.
Qed.
