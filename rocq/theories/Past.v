(** Runs of the driver on any text: it builds the trees of the tokens read so far, and faults
    leave no trace but the error. *)
From Verif Require Import Bytes Utf8 Float64 GoTime Ast Lexer LexFacts Utf8Facts LexSpec LexProofs LexTrivia LexTokens LexReject NumSpec NumTokens Tables Parser Grammar Tok CertData Cert Driver DriverInv Trees Machine
  Levels Bind Items Complete TightOk ViableData Viable Blame Writes Lexical Scanned Where Placed Faults FaultFacts Alike Reached Skip.
Open Scope Z_scope.

(** * Reading *)
Inductive passes (code : bytes) : list (Z * token) -> token -> Prop :=
| ps_nil : passes code [] zero_token
| ps_snoc l t1 k t2 : passes code l t1 -> Next code t1 = (k, t2, None) -> k <> EOF -> passes code (l ++ [(k, t2)]) t2
| ps_fault l t1 k t2 e : passes code l t1 -> Next code t1 = (k, t2, Some e) -> passes code l t2
| ps_end l t1 t2 : passes code l t1 -> Next code t1 = (EOF, t2, None) -> passes code l t2.
Lemma passes_left code l t : passes code l t -> left_out code (tks l) (tk_prevDot t) (rest_of code t).
Proof.
  induction 1 as [|l t k t' H IH E Ek|l t k t' e H IH E|l t t' H IH E].
  - apply lo_start.
  - destruct (Next_res _ _ _ _ E) as (r & s' & pd' & N1 & N2 & N3 & N4 & N5 & N6). rewrite N4, N5. rewrite N3 in Ek.
    destruct (next_one _ _ _ _ _ _ N1 N2 Ek N6) as (w & x & Ex & Hw & Hx & ->). rewrite Ex in IH. unfold tks. rewrite map_app. eapply lo_token; eassumption.
  - destruct (Next_fault _ _ _ _ _ E) as (w & x & Ex & Hw & Hx & ->). rewrite Ex in IH. eapply lo_fault; eassumption.
  - destruct (Next_res _ _ _ _ E) as (r & s' & pd' & N1 & N2 & N3 & N4 & N5 & N6). rewrite N4, N5. symmetry in N3.
    pose proof (next_eof _ _ _ _ _ N1 N3 N2) as T. rewrite next_nil in N1 by exact T. injection N1 as _ <- <-.
    eapply lo_end; [exact IH|]. apply trivia_end_nil, T.
Qed.

(** * Nodes up to lexical errors *)
Record like (a g : astnode) : Prop := {
  lk_code : a_code a = a_code g;
  lk_module : a_module a = a_module g;
  lk_cur : a_cur a = a_cur g;
  lk_loop : a_isLoop a = a_isLoop g;
  lk_try : a_isTry a = a_isTry g;
  lk_function : a_isFunction a = a_isFunction g;
  lk_err : forall m l c x, a_err a = Some (EParse m l c x) -> a_err g = a_err a }.
Lemma like_refl a : like a a. Proof. constructor; auto. Qed.
Lemma Error_like a g m : like a g -> RR like (Error a m) (Error g m).
Proof.
  intros []. unfold Error. rewrite <- lk_cur0. destruct (tk_ast _); cbn [RR]; [|reflexivity].
  constructor; cbn [set_err a_code a_module a_isLoop a_isTry a_isFunction a_cur a_err]; auto. intros. rewrite lk_code0. reflexivity.
Qed.
Lemma like_module a g m : like a g -> like (set_module a m) (set_module g m).
Proof. intros []. constructor; auto. Qed.
Lemma like_function a g b : like a g -> like (set_function a b) (set_function g b).
Proof. intros []. constructor; auto. Qed.
Lemma like_loop a g n : like a g -> like (add_loop a n) (add_loop g n).
Proof. intros []. constructor; cbn [add_loop a_code a_module a_isLoop a_isTry a_isFunction a_cur a_err]; auto; congruence. Qed.
Lemma like_try a g n : like a g -> like (add_try a n) (add_try g n).
Proof. intros []. constructor; cbn [add_try a_code a_module a_isLoop a_isTry a_isFunction a_cur a_err]; auto; congruence. Qed.
Lemma gvar_like v a g : like a g -> RR like (append_gvar v a) (append_gvar v g).
Proof.
  intros H. unfold append_gvar. rewrite <- (lk_module _ _ H). destruct (negb _); [apply Error_like, H|].
  destruct (Parser.mem _ _); [apply Error_like, like_module, H|]. cbn [RR]. apply like_module, H.
Qed.
Lemma gvars_like vs : forall a g, like a g -> RR like (append_gvars vs a) (append_gvars vs g).
Proof. induction vs as [|v vs IH]; intros a g H; cbn [append_gvars]; [exact H|]. eapply RR_bind; [apply gvar_like, H|exact IH]. Qed.
Lemma stmts_like b a g : like a g -> RR like (append_stmts b a) (append_stmts b g).
Proof. intros H. unfold append_stmts. rewrite <- (lk_module _ _ H). apply like_module, H. Qed.
Lemma func_like f a g : like a g -> RR like (append_func f a) (append_func f g).
Proof.
  intros H. unfold append_func. rewrite <- (lk_module _ _ H). destruct (_ && _); [apply Error_like, H|]. apply like_module, H.
Qed.
Lemma loopop_like u a g : like a g -> RR like (checkLoopOperator u a) (checkLoopOperator u g).
Proof. intros H. unfold checkLoopOperator. rewrite <- (lk_loop _ _ H). destruct (_ =? 0); [apply Error_like, H|exact H]. Qed.
Lemma throw_like u s a g : like a g -> RR like (checkThrowParam u s a) (checkThrowParam u s g).
Proof. intros H. unfold checkThrowParam. rewrite <- (lk_try _ _ H). destruct (_ && _); [apply Error_like, H|exact H]. Qed.
Lemma return_like s a g : like a g -> RR like (checkReturnParam s a) (checkReturnParam s g).
Proof. intros H. unfold checkReturnParam. rewrite <- (lk_function _ _ H). destruct (_ && _); [apply Error_like, H|exact H]. Qed.
Definition pair_like (x y : slot * astnode) : Prop := fst x = fst y /\ like (snd x) (snd y).
Lemma act_like r d v a g : prodno r -> like a g -> RR pair_like (act r d v a) (act r d v g).
Proof.
  intros Hr H. pose proof (lk_loop _ _ H) as A1. pose proof (lk_try _ _ H) as A2. pose proof (lk_function _ _ H) as A3.
  all_prods r Hr; cbn [act]; unfold createFunctionOrProcedure.
  all: try (cbn [RR]; split; [reflexivity|exact H]).
  all: try (cbn [RR]; split; [cbn [fst]; congruence|cbn [snd]; first [apply like_function|apply like_loop|apply like_try]; exact H]).
  all: try (eapply RR_bind; [first [apply stmts_like|apply gvars_like|apply func_like|apply loopop_like|apply throw_like|apply return_like]; exact H|];
    intros b1 b2 HB; cbn [RR]; split; [reflexivity|exact HB]).
  all: try (destruct (appendVars _ _) as [[m [n|]]|]; cbn [bind]; [|split; [reflexivity|exact H]|reflexivity]).
  all: try (eapply RR_bind; [first [destruct (_ && _); [apply Error_like, H|exact H]|apply Error_like, H]|]; intros b1 b2 HB; cbn [RR]; split; [reflexivity|exact HB]).
  all: try (destruct (v_param v) as [[x n] b]; split; [reflexivity|exact H]).
  all: try (cbn [RR]; split; [cbn [fst]; rewrite ?A1, ?A2, ?A3; reflexivity|exact H]).
Qed.

(** * The invariant *)
(** As [tinv], with a node [g] that saw no lexical error. *)
Record ginv (a : astnode) (ts : list tree) (vs : list slot) (a0 g : astnode) (l : list (Z * token)) (t : token) (p : pst) : Prop := {
  g_stk : p_stk p = rev vs ++ [set_yys zero_slot 0];
  g_wf : Forall wf ts;
  g_sym : map sym_of ts = map (fun c => chk (yys c)) vs;
  g_ctx : same_ctx a a0;
  g_ev : evs ts vs a0 g;
  g_like : like (p_ast p) g;
  g_code : a_code (p_ast p) = a_code a;
  g_reads : passes (a_code a) l t;
  g_yield : flat_map yield ts = tks l;
  g_look : (p_char p < 0 /\ v_token (p_lval p) = t) \/ (In (p_char p) kinds /\ Next (a_code a) t = (p_char p, v_token (p_lval p), None)) }.
Lemma like_cur a g t : like a g -> like (set_cur a t) (set_cur g t).
Proof. intros []. constructor; auto. Qed.
Lemma like_lex a g e : like a g -> like (set_err a (ELex e)) g.
Proof. intros []. constructor; cbn [set_err a_code a_module a_isLoop a_isTry a_isFunction a_cur a_err]; auto. intros. discriminate. Qed.
Lemma look_ginv a ts vs a0 g l t p : inv p -> ginv a ts vs a0 g l t p -> exists a0' g' t', ginv a ts vs a0' g' l t' (look p).
Proof.
  intros Hi HT. pose proof HT as [H1 H2 H3 H4 H5 HG H6 H7 H8 H9]. unfold look. destruct (p_char p <? 0) eqn:E; [|eauto].
  destruct (Lex (p_ast p) (v_token (p_lval p))) as [[c t'] a'] eqn:EL.
  destruct (Lex_spec _ _ _ _ _ (i_off p Hi) EL) as (L1 & L2 & L3). rewrite H6 in *.
  destruct H9 as [[_ H9]|[H9 _]]; [|apply kinds_pos in H9; lia].
  destruct L3 as [(K1 & K2 & K3 & -> & K4)|[(-> & -> & K1)|(-> & _ & k & e & K1 & -> & _)]].
  - destruct (evs_ctx _ _ _ _ (set_cur g t') H5) as (a0' & C1 & C2); [repeat split|].
    exists a0', (set_cur g t'), t. constructor; cbn [p_stk p_above p_state p_lval p_char p_tok p_ast v_token set_token]; auto.
    + eapply same_ctx_trans; eassumption.
    + apply like_cur, HG.
    + right. split; [exact K1|]. rewrite <- H9. exact K3.
  - exists a0, g, t'. constructor; cbn [p_stk p_above p_state p_lval p_char p_tok p_ast v_token set_token]; auto.
    + destruct K1 as [[_ ->]|[K1 _]]; [rewrite H9; exact H7|]. eapply ps_end; [exact H7|]. rewrite <- H9. exact K1.
    + left. split; [unfold EOF; lia|reflexivity].
  - exists a0, g, t'. constructor; cbn [p_stk p_above p_state p_lval p_char p_tok p_ast v_token set_token]; auto.
    + apply like_lex, HG.
    + eapply ps_fault; [exact H7|]. rewrite <- H9. exact K1.
    + left. split; [unfold EOF; lia|reflexivity].
Qed.
Lemma look1_ginv a ts vs a0 g l t p : inv p -> ginv a ts vs a0 g l t p -> exists a0' g' t', ginv a ts vs a0' g' l t' (look1 p).
Proof. intros Hi HT. unfold look1. destruct (_ <=? _); [eauto|]. eapply look_ginv; eassumption. Qed.
Lemma look2_ginv a ts vs a0 g l t p : inv p -> ginv a ts vs a0 g l t p -> exists a0' g' t', ginv a ts vs a0' g' l t' (look2 p).
Proof.
  intros Hi HT. destruct (look1_inv p Hi) as (A1 & _). destruct (look1_ginv _ _ _ _ _ _ _ _ Hi HT) as (a1 & g1 & t1 & H1).
  unfold look2. destruct (_ =? -2); [eapply look_ginv; eassumption|eauto].
Qed.
Lemma shift_ginv a ts vs a0 g l t p q : inv p -> ginv a ts vs a0 g l t p -> 0 <= p_char p ->
  shift_of (p_state p) (p_tok p) = Some q ->
  ginv a (ts ++ [Leaf (tk_of (p_char p) (v_token (p_lval p)))]) (vs ++ [set_yys (p_lval p) q]) a0 g (l ++ [(p_char p, v_token (p_lval p))]) (v_token (p_lval p)) (shift p q).
Proof.
  intros Hi HT Hc Hq. pose proof HT as [H1 H2 H3 H4 H5 HG H6 H7 H8 H9]. destruct (inv_states p Hi) as [Hs _].
  destruct (i_look p Hi) as [Hl|(Hk & Htok & Hval)]; [lia|]. destruct H9 as [[H9 _]|[_ H9]]; [lia|].
  pose proof (payload_kinds _ _ Hk Hval) as Hrel.
  unfold shift, push. constructor; cbn [p_stk p_above p_state p_lval p_char p_tok p_ast]; auto.
  - rewrite rev_unit, H1. reflexivity.
  - apply Forall_app. split; [exact H2|]. constructor; [|constructor]. constructor. apply Hrel.
  - rewrite !map_app, H3. cbn [map sym_of]. f_equal. f_equal. change (yys (set_yys (p_lval p) q)) with q.
    rewrite (tk_of_kind _ _ Hk Hval), <- Htok.
    destruct (checked _ Hs) as (_ & _ & HC). destruct (HC (p_tok p)) as (Hshift & _); [rewrite Htok; apply tokno_of_range|].
    unfold shift_ok in Hshift. rewrite Hq in Hshift. rewrite !andb_true_iff in Hshift. lia.
  - eapply evs_app; [exact H5|]. econstructor; [|constructor]. rewrite (i_lval p Hi).
    constructor; [|apply same_ctx_refl]. exact Hrel.
  - econstructor; [exact H7|exact H9|apply kinds_not_EOF, Hk].
  - rewrite flat_map_app, H8. unfold tks. rewrite map_app. reflexivity.
  - left. split; [lia|]. reflexivity.
Qed.
(** A panic of an action: [ts] ends with the children of production 27, whose first cell has no map. *)
Definition nil_map (a : astnode) : Prop :=
  exists ts X ts2 c b1 b2 l t, Forall wf ts /\ wf (Node 27 (X :: ts2)) /\ ev X c b1 b2 /\ v_explicit_variables c = None /\
    passes (a_code a) l t /\ flat_map yield ts ++ yield (Node 27 (X :: ts2)) = tks l.
Lemma reduce_ginv a ts vs a0 g l t p r : inv p -> ginv a ts vs a0 g l t p -> reduce_ok (p_state p) r = true ->
  match reduce p r with
  | Next_ p' => exists ts1 ts2 vs1 ds b v0 v' q g', ts = ts1 ++ ts2 /\ vs = vs1 ++ ds /\ wf (Node r ts2) /\ evs ts2 ds b g /\
      act r (fun i => nth (i - 1) ds zero_slot) v0 (p_ast p) = Ok (v', p_ast p') /\ p_char p' = p_char p /\ p_lval p' = p_lval p /\
      ginv a (ts1 ++ [Node r ts2]) (vs1 ++ [set_yys v' q]) a0 g' l t p'
  | Crash x => x = PNilMap -> nil_map a
  | Done _ _ => False
  end.
Proof.
  intros Hi HT Hr. pose proof HT as [H1 H2 H3 H4 H5 HG H6 H7 H8 H9]. destruct (i_top p Hi) as [l0 Ht].
  pose proof (i_path p Hi) as Hp. rewrite Ht in Hp.
  destruct (reduce_eq p r _ _ Ht Hp Hr) as (popped & base & rest & q & E1 & E2 & Eq & Eq2 & Hpred & Hq & Hpath & Hprod & Hh & ->).
  cbv zeta. set (above := rev popped ++ p_above p).
  rewrite H1 in E1. destruct (rev_app_split _ _ _ _ _ E1) as (vs1 & -> & Eb).
  assert (exists ts1 ts2, ts = ts1 ++ ts2 /\ map sym_of ts1 = map (fun c => chk (yys c)) vs1 /\
            map sym_of ts2 = map (fun c => chk (yys c)) (rev popped)) as (ts1 & ts2 & -> & S1 & S2).
  { rewrite map_app in H3. apply map_eq_app in H3. destruct H3 as (ts1 & ts2 & -> & S1 & S2). exists ts1, ts2. auto. }
  destruct (evs_split _ _ _ _ _ H5) as (ws1 & ws2 & b & Ews & V1 & V2).
  assert (ws1 = vs1 /\ ws2 = rev popped) as [-> ->].
  { apply app_inj_length; [|symmetry; exact Ews]. pose proof (evs_length _ _ _ _ V1). apply (f_equal (@length Z)) in S1.
    rewrite !map_length in S1. lia. }
  apply Forall_app in H2. destruct H2 as [W1 W2].
  assert (WN : wf (Node r ts2)) by (constructor; auto; congruence).
  destruct (act r (fun i => nth (i - 1) above zero_slot) (hd zero_slot above) (p_ast p)) as [[v' a']|x] eqn:EA; cbn [sbind].
  2: { intros ->. destruct (act_nil_map _ _ _ _ Hprod EA) as (Hr27 & Hnone).
       assert (Hlen : length (rev popped) = 4%nat).
       { apply (f_equal (@length Z)) in E2. rewrite !map_length in E2. rewrite E2, Hr27. reflexivity. }
       subst above. destruct (rev popped) as [|c0 dr] eqn:Er; [discriminate Hlen|]. cbn [app nth Nat.sub] in Hnone.
       inversion V2 as [|X ts3 ? ? ? ? ? VX]; subst ts2. subst. exists ts1, X, ts3, c0. do 2 eexists. exists l, t.
       split; [exact W1|]. split; [exact WN|]. split; [exact VX|]. split; [exact Hnone|]. split; [exact H7|].
       rewrite flat_map_app in H8. cbn [yield]. exact H8. }
  pose proof (act_like r (fun i => nth (i - 1) above zero_slot) (hd zero_slot above) _ _ Hprod HG) as HL. rewrite EA in HL. unfold RR in HL.
  destruct (act r _ _ g) as [[v2 g2]|] eqn:EG; [|contradiction]. unfold pair_like in HL; cbn [fst snd] in HL. destruct HL as [<- HL].
  destruct (act_input _ _ _ _ _ _ Hprod EA) as (I1 & I2 & I3).
  assert (Ext : forall n, act r (fun i => nth (i - 1) (rev popped) zero_slot) (hd zero_slot above) n = act r (fun i => nth (i - 1) above zero_slot) (hd zero_slot above) n).
  { intros n. apply act_ext; [exact Hprod|]. intros i Hi2. subst above. rewrite app_nth1; [reflexivity|].
    apply (f_equal (@length Z)) in E2. rewrite !map_length in E2. lia. }
  exists ts1, ts2, vs1, (rev popped), b, (hd zero_slot above), v', q, g2. do 2 (split; [reflexivity|]). split; [exact WN|]. split; [exact V2|].
  split; [rewrite Ext; exact EA|]. do 2 (split; [reflexivity|]).
  unfold push. constructor; cbn [p_stk p_above p_state p_lval p_char p_tok p_ast]; auto.
  - rewrite rev_unit. cbn [app]. rewrite <- Eb. reflexivity.
  - apply Forall_app. split; [exact W1|]. constructor; [exact WN|constructor].
  - rewrite !map_app, S1. cbn [map sym_of]. change (yys (set_yys v' q)) with q. rewrite Eq2. reflexivity.
  - eapply evs_app; [exact V1|]. econstructor; [|constructor].
    apply ev_node with (ds := rev popped) (v0 := hd zero_slot above) (a1 := g) (a2 := g2); auto using same_ctx_refl.
    + destruct (rev popped) as [|d0 dr] eqn:Er; [exact I|]. subst above. reflexivity.
    + rewrite Ext. exact EG.
  - congruence.
  - rewrite flat_map_app in *. cbn [flat_map yield]. rewrite app_nil_r. exact H8.
Qed.

(** * Runs *)
(** An accepting step: one tree. *)
Definition one_tree (a a' : astnode) : Prop :=
  exists T v a1 g l t, wf T /\ sym_of T = - nt_no n_module /\ same_ctx a a1 /\ ev T v a1 g /\ like a' g /\ passes (a_code a) l t /\ yield T = tks l.
Lemma step_ginv a ts vs a0 g l t p : inv p -> ginv a ts vs a0 g l t p ->
  match step p with
  | Next_ p' => exists ts' vs' a0' g' l' t', ginv a ts' vs' a0' g' l' t' p'
  | Crash _ => nil_map a
  | Done x a' => (x = 0 /\ one_tree a a') \/ (exists t m, a_err a' = Some (loc (a_code a) t m) /\ m = MSyntax)
  end.
Proof.
  intros Hi HT. destruct (inv_states p Hi) as [Hs Hst]. pose proof (step_inv p Hi) as Hstep. rewrite step_eq in * by (auto using inv_tokno).
  destruct (look1_inv p Hi) as (A1 & A2 & A3 & A4 & A5 & A6).
  destruct (shift_of (p_state p) (p_tok (look1 p))) as [q|] eqn:Eq.
  - pose proof (shift_flag _ _ _ Eq) as Hf. unfold look1 in *. rewrite Hf in *.
    assert (Hch : 0 <= p_char (look p)).
    { destruct (Z.lt_ge_cases (p_char (look p)) 0) as [Hlt|]; [|assumption]. exfalso.
      destruct (look_inv p Hi) as (_ & _ & _ & _ & L5). rewrite (L5 Hlt), no_end_shift in Eq by exact Hs. discriminate. }
    rewrite <- A4 in Eq. destruct (look_ginv _ _ _ _ _ _ _ _ Hi HT) as (a1 & g1 & t1 & H1).
    do 6 eexists. exact (shift_ginv _ _ _ _ _ _ _ _ q A1 H1 Hch Eq).
  - destruct (look2_inv p Hi) as (B1 & B2 & B3 & B4 & B5 & B6 & B7).
    destruct (look2_ginv _ _ _ _ _ _ _ _ Hi HT) as (a1 & g1 & t1 & H1).
    assert (HF : match fail (p_ast (look2 p)) with Next_ _ => False | Crash x => x <> PNilMap | Done x a' => exists t m, a_err a' = Some (loc (a_code a) t m) /\ m = MSyntax end).
    { unfold fail. destruct (Error (p_ast (look2 p)) MSyntax) as [a'|x] eqn:Ee; cbn [sbind].
      - apply Error_loc in Ee as [-> _]. rewrite (g_code _ _ _ _ _ _ _ _ H1). cbn [set_err a_err]. eauto.
      - unfold Error in Ee. destruct (tk_ast _); [discriminate|]. injection Ee as <-. discriminate. }
    destruct (default (p_state p) (p_tok (look2 p))) as [q|r| |] eqn:Ed; cbn [do_default] in *.
    + destruct (fail _); [contradiction|right; exact HF|]. destruct Hstep as [-> _]. congruence.
    + pose proof (reduce_ginv _ _ _ _ _ _ _ _ r B1 H1 (Trees.default_reduce p r Hi Ed)) as HR.
      destruct (reduce (look2 p) r) as [p'|x a'|x]; [|contradiction|apply HR, Hstep].
      destruct HR as (? & ? & ? & ? & ? & ? & ? & ? & ? & _ & _ & _ & _ & _ & _ & _ & HR). do 6 eexists. exact HR.
    + pose proof (default_accept _ _ Ed) as Hd.
      assert (Hk : tokno (p_tok (look2 p))).
      { destruct (inv_tokno _ B1) as [Hn|Hn]; [rewrite (B7 Hd Hn); unfold tokno, n_tokens; lia | exact Hn]. }
      destruct (only_accept _ _ Hs Hk Ed) as [Es Ek].
      pose proof H1 as [T1 T2 T3 T4 T5 TG T6 T7 T8 T9].
      assert (Hstk : map yys (p_stk p) = [1; 0]).
      { pose proof (i_path p Hi) as Hp. destruct (i_top p Hi) as [l0 Ht]. rewrite Ht, Es in Hp |- *. inversion Hp as [|s1 s2 l1 Hpr Hp1]; subst.
        change (pred 1) with [0] in Hpr. destruct Hpr as [<-|[]].
        inversion Hp1 as [|s1 s2 l2 Hpr2 Hp2]; subst; [reflexivity|]. destruct Hpr2. }
      rewrite B3 in T1. rewrite T1, map_app in Hstk. cbn [map] in Hstk.
      assert (exists v, vs = [v] /\ yys v = 1) as (v & -> & Hv).
      { destruct vs as [|v vs] using rev_ind; [discriminate Hstk|]. rewrite rev_unit in Hstk. cbn [map app] in Hstk.
        injection Hstk as Hv Hstk. exists v. destruct vs as [|v2 vs2] using rev_ind; [auto|]. exfalso.
        rewrite rev_unit in Hstk. cbn [map app] in Hstk. injection Hstk as _ Hstk. destruct (map yys (rev vs2)); discriminate. }
      destruct ts as [|T [|? ?]]; try discriminate T3. cbn [map] in T3. injection T3 as T3.
      left. split; [reflexivity|]. exists T, v, a1, g1, l, t1. inversion T2; subst. inversion T5; subst.
      match goal with H : evs [] [] _ _ |- _ => inversion H; subst end.
      split; [assumption|]. split; [rewrite T3, Hv; reflexivity|]. do 4 (split; [assumption|]).
      cbn [flat_map] in T8. rewrite app_nil_r in T8. exact T8.
    + destruct (fail _); [contradiction|right; exact HF|]. destruct Hstep as [-> _]. congruence.
Qed.
Lemma steps_ginv n p p' : steps n p p' -> inv p -> forall a ts vs a0 g l t, ginv a ts vs a0 g l t p -> exists ts' vs' a0' g' l' t', ginv a ts' vs' a0' g' l' t' p'.
Proof.
  induction 1 as [p|n p p1 p2 E H IH]; intros Hi a ts vs a0 g l t HT; [eauto 10|].
  pose proof (step_inv p Hi) as Hs. rewrite E in Hs. destruct Hs as (H1 & _).
  pose proof (step_ginv _ _ _ _ _ _ _ _ Hi HT) as HG. rewrite E in HG. destruct HG as (ts' & vs' & a0' & g' & l' & t' & HT').
  eapply IH; eassumption.
Qed.
Lemma init_ginv a : ginv a [] [] a a [] zero_token (init_pst a).
Proof.
  constructor; cbn [init_pst p_stk p_above p_state p_lval p_char p_tok p_ast]; eauto using same_ctx_refl, evs, like_refl, passes.
  left. split; [lia|]. reflexivity.
Qed.
(** Every call of Parse on a text that is not blank. *)
Theorem Parse_past a : blank (a_code a) = false ->
  match Parse a with
  | Some (Ok (a', e)) => e = a_err a' /\ (one_tree a a' \/ exists t, a_err a' = Some (loc (a_code a) t MSyntax))
  | Some (Panic _) => nil_map a
  | None => False
  end.
Proof.
  intros Hb. unfold Parse. rewrite Hb. destruct (run_result _ (init_inv a)) as (n & p' & H1 & H2 & H3 & H4 & H5).
  rewrite H5 by (rewrite init_potential; unfold parse_fuel; lia).
  destruct (steps_ginv _ _ _ H1 (init_inv a) _ _ _ _ _ _ _ (init_ginv a)) as (ts & vs & a0 & g & l & t & HT).
  pose proof (step_ginv _ _ _ _ _ _ _ _ H3 HT) as HS.
  destruct (step p') as [|x a2|q]; cbn [outcome]; [contradiction| |exact HS].
  split; [reflexivity|]. destruct HS as [[_ HS]|(u & m & E & ->)]; eauto.
Qed.
