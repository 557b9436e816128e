(** How many messages there can be, and where they are. *)
From Verif Require Import Bytes Utf8 Float64 GoTime Ast Lexer LexFacts LexSpec LexProofs Tables Parser Grammar Tok CertData Cert Driver DriverInv Trees Machine
  Levels Bind Items Complete TightOk ViableData Viable Blame Told Syntax Rules RulesFacts CstTrees CstEval CstModule Past Spot Cost CostTold.
From Verif Require Import Syntax Tok.
Open Scope Z_scope.

(** * The token named by a message ends inside the text *)
Definition inside (p : pst) : Prop := (tk_off (a_cur (p_ast p)) <= length (a_code (p_ast p)))%nat.
Lemma look_inside p : inv p -> inside p -> inside (look p).
Proof.
  intros Hi H. unfold inside, look in *. destruct (p_char p <? 0); [|exact H]. destruct (Lex (p_ast p) (v_token (p_lval p))) as [[c t'] a'] eqn:EL. cbn [p_ast].
  destruct (Lex_spec _ _ _ _ _ (i_off p Hi) EL) as (L1 & L2 & L3). rewrite L1.
  destruct L3 as [(_ & _ & _ & -> & _)|[(_ & -> & _)|(_ & _ & k & e & _ & -> & _)]]; cbn [a_cur set_cur set_err]; lia.
Qed.
Lemma look1_inside p : inv p -> inside p -> inside (look1 p).
Proof. intros Hi H. unfold look1. destruct (_ <=? _); [exact H|apply look_inside; assumption]. Qed.
Lemma look2_inside p : inv p -> inside p -> inside (look2 p).
Proof.
  intros Hi H. destruct (look1_inv p Hi) as (A1 & _). unfold look2. destruct (_ =? -2); [apply look_inside; [exact A1|]|]; apply look1_inside; assumption.
Qed.
Lemma prefixes_all p n : Forall (fun x => x = tk_off (a_cur (p_ast p))) (prefixes p n).
Proof. unfold prefixes. induction n; constructor; auto. Qed.
Lemma e_do_all p d : Forall (fun x => x = tk_off (a_cur (p_ast p))) (e_do p d).
Proof. destruct d; cbn [e_do]; try apply prefixes_all. constructor. Qed.
Lemma step_inside p : inv p -> inside p ->
  Forall (fun n => (n <= length (a_code (p_ast p)))%nat) (e_step p) /\ match step p with Next_ p' => inside p' | _ => True end.
Proof.
  intros Hi H. destruct (inv_states p Hi) as [Hs Hst]. rewrite (e_step_eq p Hs) by (auto using inv_tokno). rewrite step_eq by (auto using inv_tokno).
  destruct (look2_inv p Hi) as (_ & _ & _ & _ & B5 & _). pose proof (look2_inside p Hi H) as H2.
  destruct (shift_of _ _) as [q|]; [split; [constructor|exact (look_inside p Hi H)]|]. split.
  - eapply Forall_impl; [|apply e_do_all]. cbn beta. intros n ->. rewrite <- B5. exact H2.
  - destruct (default (p_state p) (p_tok (look2 p))) as [z|r| |] eqn:Ed; cbn [do_default].
    + unfold fail, sbind. destruct (Error _ _); exact I.
    + destruct (reduce (look2 p) r) as [p'| |] eqn:Er; [|exact I|exact I]. unfold inside.
      assert (Hr : prodno r) by exact (Reached.default_reduce _ _ Hi Ed).
      destruct (reduce_keeps _ _ _ Hr Er) as (_ & _ & R3 & _). rewrite R3.
      assert (a_code (p_ast p') = a_code (p_ast (look2 p))) as ->; [|exact H2].
      clear - Hr Er. unfold reduce in Er. destruct (tab yyR2 r) as [n|]; [|discriminate]. cbn [sbind] in Er.
      destruct (pop _ _ _) as [[stk' above']|]; [|discriminate]. destruct stk' as [|base stk']; [discriminate|].
      destruct (tab yyR1 r) as [r1|]; [|discriminate]. cbn [sbind] in Er. destruct (goto_ _ _) as [q|]; [|discriminate]. cbn [sbind] in Er.
      destruct (act r _ _ _) as [[v' a']|] eqn:EA; [|discriminate]. cbn [sbind] in Er. injection Er as <-.
      destruct (act_input _ _ _ _ _ _ Hr EA) as (I1 & _). exact I1.
    + exact I.
    + unfold fail, sbind. destruct (Error _ _); exact I.
Qed.
Lemma run_inside f : forall p, inv p -> inside p -> Forall (fun n => (n <= length (a_code (p_ast p)))%nat) (e_run f p).
Proof.
  induction f as [|f IH]; intros p Hi H; cbn [e_run]; [constructor|]. destruct (step_inside p Hi H) as [H1 H2]. apply Forall_app. split; [exact H1|].
  pose proof (step_inv p Hi) as Hok. destruct (step p) as [p'| |]; [|constructor|constructor]. destruct Hok as (O1 & _ & O3 & _). rewrite <- O3. apply IH; assumption.
Qed.

(** * At most one message a step, and one more for every token of a declaration *)
Fixpoint mains (t : tree) : nat :=
  match t with
  | Leaf _ => 0%nat
  | Node r ch => if r =? 6 then length (flat_map yield ch)
                 else (fix go (l : list tree) : nat := match l with [] => 0 | x :: l' => mains x + go l' end)%nat ch
  end.
Fixpoint mains_all (l : list tree) : nat := match l with [] => 0 | x :: l' => mains x + mains_all l' end%nat.
Lemma mains_node r ch : mains (Node r ch) = if r =? 6 then length (flat_map yield ch) else mains_all ch.
Proof. cbn [mains]. destruct (r =? 6); [reflexivity|]. induction ch as [|x l IH]; [reflexivity|]. cbn [mains_all]. rewrite <- IH. reflexivity. Qed.
Lemma mains_app l1 l2 : mains_all (l1 ++ l2) = (mains_all l1 + mains_all l2)%nat.
Proof. induction l1 as [|x l IH]; [reflexivity|]. cbn [app mains_all]. rewrite IH. lia. Qed.
Lemma mains_le : forall t, (mains t <= length (yield t))%nat.
Proof.
  fix F 1. intros [k|r ch]; [cbn; lia|]. rewrite mains_node. cbn [yield]. destruct (r =? 6); [lia|].
  induction ch as [|x l IH]; [cbn; lia|]. cbn [mains_all flat_map]. rewrite app_length. pose proof (F x).  lia.
Qed.
Lemma mains_all_le l : (mains_all l <= length (flat_map yield l))%nat.
Proof. induction l as [|x l IH]; [cbn; lia|]. cbn [mains_all flat_map]. rewrite app_length. pose proof (mains_le x).  lia. Qed.
Lemma mains_names l : mains (t_names l) = 0%nat.
Proof. induction l; [reflexivity|]. cbn [t_names]. rewrite mains_node. cbn [Z.eqb Pos.eqb mains_all]. rewrite IHl. reflexivity. Qed.
Lemma mains_item ch : wf (Node 6 ch) -> mains_all ch = 0%nat.
Proof.
  intros W. repr_of W 6. destruct R as (i & _ & R). destruct i as [d l e|]; [|discriminate R]. cbn [t_item] in R. injection R as ->.
  cbn [mains_all]. rewrite mains_node. cbn [Z.eqb Pos.eqb mains_all]. rewrite mains_names. destruct d, e; reflexivity.
Qed.
Lemma m_gvars_le vs : forall a, (m_gvars vs a <= length vs)%nat.
Proof.
  induction vs as [|v vs IH]; intros a; cbn [m_gvars length]; [lia|]. assert (m_gvar v a <= 1)%nat by (unfold m_gvar; destruct (negb _); [lia|destruct (Parser.mem _ _); lia]).
  destruct (append_gvar v a) as [a'|]; [specialize (IH a')|]; lia.
Qed.
Lemma names_length l : (length (name_list l) <= length (yield (t_names l)))%nat.
Proof. induction l; [cbn; lia|]. cbn [name_list t_names yield flat_map]. rewrite !app_length. cbn [length yield comma pct]. lia. Qed.
Lemma m_act_le r ch ds b b' a : wf (Node r ch) -> evs ch ds b b' -> (m_act r (fun i => nth (i - 1) ds zero_slot) a + mains_all ch <= 1 + mains (Node r ch))%nat.
Proof.
  intros W HE. rewrite mains_node. destruct (Z.eqb_spec r 6) as [->|Hr].
  - rewrite (mains_item _ W). cbn [m_act]. pose proof (m_gvars_le (v_global_variables (nth (1 - 1) ds zero_slot)) a) as L.
    repr_of W 6. destruct R as (i & _ & R). destruct i as [d l e|]; [|discriminate R]. cbn [t_item] in R. injection R as ->.
    cells HE. cbn [nth Nat.sub] in *.
    assert (En : map gv_name (v_global_variables x) = name_list l).
    { clear - C. unf. repeat ev1. match goal with H : ev (t_names _) _ _ _ |- _ => apply eval_names in H as [H En] end. acts. slots.
      rewrite map_map. match type of En with ?x = _ => change (x = name_list l) end. exact En. }
    apply (f_equal (@length _)) in En. rewrite map_length in En. pose proof (names_length l) as N.
    cbn [flat_map yield]. rewrite !app_length. lia.
  - assert (m_act r (fun i => nth (i - 1) ds zero_slot) a <= 1)%nat; [|lia]. inversion W as [|r' ch' Hp HS HF]; subst. clear W HE HS HF.
    revert Hr. all_prods r Hp; intros Hr; cbn [m_act]; try lia.
    all: repeat match goal with |- context [if ?c then _ else _] => destruct c end; try lia.
    all: destruct (appendVars _ _) as [[? [?|]]|]; lia.
Qed.
Lemma m_act_ext r d d' a : prodno r -> (forall i, (1 <= i <= length (rhs r))%nat -> d i = d' i) -> m_act r d a = m_act r d' a.
Proof.
  intros Hr. all_prods r Hr; intros H; cbn [m_act]; try reflexivity;
    repeat match goal with |- context [d ?i] => rewrite (H i) by (vm_compute; lia) end; reflexivity.
Qed.
Lemma m_reduce_le a ts vs a0 g l t p r : inv p -> ginv a ts vs a0 g l t p -> reduce_ok (p_state p) r = true ->
  match reduce p r with
  | Next_ p' => exists ts' vs' g', ginv a ts' vs' a0 g' l t p' /\ (m_reduce p r + mains_all ts <= 1 + mains_all ts')%nat
  | _ => (m_reduce p r + mains_all ts <= 1 + length (flat_map yield ts))%nat
  end.
Proof.
  intros Hi HT Hr. pose proof (reduce_ginv _ _ _ _ _ _ _ _ r Hi HT Hr) as HR.
  pose proof HT as [H1 H2 H3 H4 H5 HG H6 H7 H8 H9]. destruct (i_top p Hi) as [l0 Ht].
  pose proof (i_path p Hi) as Hp. rewrite Ht in Hp.
  destruct (reduce_eq p r _ _ Ht Hp Hr) as (popped & base & rest & q & E1 & E2 & Eq & Eq2 & Hpred & Hq & Hpath & Hprod & Hh & _).
  assert (Em : m_reduce p r = m_act r (fun i => nth (i - 1) (rev popped) zero_slot) (p_ast p)).
  { unfold m_reduce. destruct (prods_ok r Hprod) as [R1 R2].
    rewrite tab_at by (change (Z.of_nat (length yyR2)) with 113; unfold prodno, n_prods in Hprod; lia).
    rewrite E1, pop_app; cycle 1.
    { rewrite R2, Nat2Z.id. apply (f_equal (@length Z)) in E2. rewrite !map_length, rev_length in E2. exact E2. }
    apply m_act_ext; [exact Hprod|]. intros i Hi2. rewrite app_nth1; [reflexivity|].
    apply (f_equal (@length Z)) in E2. rewrite !map_length in E2. lia. }
  rewrite H1 in E1. destruct (rev_app_split _ _ _ _ _ E1) as (vs1 & -> & Eb).
  assert (exists ts1 ts2, ts = ts1 ++ ts2 /\ map sym_of ts1 = map (fun c => chk (yys c)) vs1 /\
            map sym_of ts2 = map (fun c => chk (yys c)) (rev popped)) as (ts1 & ts2 & -> & S1 & S2).
  { rewrite map_app in H3. apply map_eq_app in H3. destruct H3 as (ts1 & ts2 & -> & S1 & S2). exists ts1, ts2. auto. }
  destruct (evs_split _ _ _ _ _ H5) as (ws1 & ws2 & b & Ews & V1 & V2).
  assert (ws1 = vs1 /\ ws2 = rev popped) as [-> ->].
  { apply app_inj_length; [|symmetry; exact Ews]. pose proof (evs_length _ _ _ _ V1). apply (f_equal (@length Z)) in S1.
    rewrite !map_length in S1. lia. }
  apply Forall_app in H2. destruct H2 as [W1 W2].
  assert (WN : wf (Node r ts2)) by (constructor; auto; congruence).
  pose proof (m_act_le r ts2 (rev popped) _ _ (p_ast p) WN V2) as L. rewrite <- Em in L. rewrite mains_app.
  destruct (reduce p r) as [p'|x a'|x]; [|contradiction|].
  - destruct HR as (us1 & us2 & ws1 & ds & b2 & v0 & v' & q2 & g' & U1 & U2 & WU & VU & _ & _ & _ & HR).
    exists (us1 ++ [Node r us2]), (ws1 ++ [set_yys v' q2]), g'. split; [exact HR|].
    assert (us2 = ts2 /\ us1 = ts1) as [-> ->].
    { apply app_inj_length in U1 as [-> ->]; [auto|]. inversion WN; subst. inversion WU; subst.
      assert (length us2 = length ts2) by (apply (f_equal (@length Z)) in S2; match goal with A : map sym_of ts2 = _, B : map sym_of us2 = _ |- _ => apply (f_equal (@length Z)) in A, B; rewrite !map_length in A, B; lia end).
      apply (f_equal (@length tree)) in U1. rewrite !app_length in U1. lia. }
    rewrite mains_app. cbn [mains_all]. lia.
  - pose proof (mains_le (Node r ts2)). pose proof (mains_all_le ts1). rewrite flat_map_app, app_length. cbn [yield] in *. lia.
Qed.
Lemma e_do_length p d : (length (e_do p d) <= match d with Reduce r => m_reduce p r | _ => 1 end)%nat.
Proof. destruct d; cbn [e_do]; unfold prefixes; rewrite ?repeat_length; cbn [length]; lia. Qed.
Lemma step_mains a ts vs a0 g l t p : inv p -> ginv a ts vs a0 g l t p ->
  match step p with
  | Next_ p' => exists ts' vs' a0' g' l' t', ginv a ts' vs' a0' g' l' t' p' /\ (length (e_step p) + mains_all ts <= 1 + mains_all ts')%nat
  | _ => (length (e_step p) + mains_all ts <= 1 + length (flat_map yield ts))%nat
  end.
Proof.
  intros Hi HT. destruct (inv_states p Hi) as [Hs Hst]. rewrite (e_step_eq p Hs) by (auto using inv_tokno). rewrite step_eq by (auto using inv_tokno).
  pose proof (mains_all_le ts) as ML.
  destruct (look1_inv p Hi) as (A1 & A2 & A3 & A4 & A5 & A6).
  destruct (shift_of (p_state p) (p_tok (look1 p))) as [q|] eqn:Eq.
  - pose proof (shift_flag _ _ _ Eq) as Hf. unfold look1 in *. rewrite Hf in *.
    assert (Hch : 0 <= p_char (look p)).
    { destruct (Z.lt_ge_cases (p_char (look p)) 0) as [Hlt|]; [|assumption]. exfalso.
      destruct (look_inv p Hi) as (_ & _ & _ & _ & L5). rewrite (L5 Hlt), no_end_shift in Eq by exact Hs. discriminate. }
    rewrite <- A4 in Eq. destruct (look_ginv _ _ _ _ _ _ _ _ Hi HT) as (a1 & g1 & t1 & H1).
    do 6 eexists. split; [exact (shift_ginv _ _ _ _ _ _ _ _ q A1 H1 Hch Eq)|]. rewrite mains_app. cbn [length]. lia.
  - destruct (look2_inv p Hi) as (B1 & B2 & B3 & B4 & B5 & B6 & B7).
    destruct (look2_ginv _ _ _ _ _ _ _ _ Hi HT) as (a1 & g1 & t1 & H1).
    assert (HF : forall d, match d with Reduce _ => False | _ => True end -> match fail (p_ast (look2 p)) with Next_ _ => False | _ => True end /\ (length (e_do (look2 p) d) + mains_all ts <= 1 + length (flat_map yield ts))%nat).
    { intros d Hd. split; [unfold fail, sbind; destruct (Error _ _); exact I|]. pose proof (e_do_length (look2 p) d). destruct d; [|contradiction| |]; lia. }
    destruct (default (p_state p) (p_tok (look2 p))) as [q|r| |] eqn:Ed; cbn [do_default].
    + destruct (HF (Shift q) I) as [F1 F2]. destruct (fail _); [contradiction|exact F2|exact F2].
    + pose proof (m_reduce_le _ _ _ _ _ _ _ _ r B1 H1 (Trees.default_reduce p r Hi Ed)) as HR. cbn [e_do]. unfold prefixes. rewrite repeat_length.
      destruct (reduce (look2 p) r) as [p'|x a'|x]; [|exact HR|exact HR]. destruct HR as (ts' & vs' & g' & R1 & R2). do 6 eexists. split; [exact R1|exact R2].
    + destruct (HF Accept I) as [_ F2]. exact F2.
    + destruct (HF Fail I) as [F1 F2]. destruct (fail _); [contradiction|exact F2|exact F2].
Qed.
Lemma passes_off code l t : Past.passes code l t -> (length l <= tk_off t <= length code)%nat.
Proof.
  induction 1 as [|l t k t' H IH E Ek|l t k t' e H IH E|l t t' H IH E]; [cbn; lia| | |].
  all: destruct (Next_progress code t ltac:(lia) _ _ _ E) as (_ & P1 & P2).
  - rewrite app_length. cbn [length]. destruct P2 as [[P2 _]|P2]; [contradiction|lia].
  - lia.
  - lia.
Qed.
Lemma ginv_size a ts vs a0 g l t p : ginv a ts vs a0 g l t p -> (length (flat_map yield ts) <= length (a_code a))%nat.
Proof.
  intros H. rewrite (g_yield _ _ _ _ _ _ _ _ H). unfold tks. rewrite map_length. pose proof (passes_off _ _ _ (g_reads _ _ _ _ _ _ _ _ H)). lia.
Qed.
Lemma run_mains f : forall a ts vs a0 g l t p, inv p -> ginv a ts vs a0 g l t p ->
  Z.of_nat (length (e_run f p) + mains_all ts) <= potential p + 1 + Z.of_nat (length (a_code a)).
Proof.
  induction f as [|f IH]; intros a ts vs a0 g l t p Hi HT; pose proof (ginv_size _ _ _ _ _ _ _ _ HT) as HS; pose proof (mains_all_le ts) as ML; pose proof (potential_nonneg p) as HP; cbn [e_run].
  { cbn [length]. lia. }
  pose proof (step_mains _ _ _ _ _ _ _ _ Hi HT) as H. pose proof (step_inv p Hi) as Hok. rewrite app_length.
  destruct (step p) as [p'|x b|q]; [|cbn [length]; lia|cbn [length]; lia].
  destruct Hok as (O1 & O2 & _). destruct H as (ts' & vs' & a0' & g' & l' & t' & H1 & H2). specialize (IH _ _ _ _ _ _ _ _ O1 H1). lia.
Qed.
Theorem parse_messages code : (length (e_parse code) <= 11 * length code + 2)%nat.
Proof.
  unfold e_parse. destruct (blank code); [cbn; lia|].
  pose proof (run_mains (parse_fuel code) _ _ _ _ _ _ _ _ (init_inv (NewAST code)) (init_ginv (NewAST code))) as H.
  rewrite init_potential in H. cbn [NewAST a_code mains_all] in H. lia.
Qed.
