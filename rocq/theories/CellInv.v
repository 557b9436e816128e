(** Invariants that hold for all cells of the parse stack, old ones included. *)
From Verif Require Import Bytes Utf8 Float64 GoTime Ast Lexer LexFacts LexSpec LexProofs Tables Parser Grammar CertData Cert Driver DriverInv.

(** [G] holds for all cells; [L k] for the cells of the stack with grammar symbol number
    [k]; [M] for the module built so far. *)
Record keeps (G : slot -> Prop) (L : Z -> slot -> Prop) (M : module -> Prop) : Prop := {
  k_zero : G zero_slot;
  k_yys : forall c q, G c -> G (set_yys c q);
  k_token : forall c code k t' e, G c -> Next code (v_token c) = (k, t', e) -> G (set_token c t');
  k_start : L (chk 0) zero_slot;
  k_shift : forall k c, In k kinds -> (exists code t, Next code t = (k, v_token c, None)) -> G c -> L (tokno_of k) c;
  k_label : forall k c q, L k c -> L k (set_yys c q);
  k_act : forall r d v a v' a', prodno r -> act r d v a = Ok (v', a') ->
    (forall i, G (d i)) -> v = d 1%nat -> M (a_module a) ->
    (forall i y, nth_error (rhs r) i = Some y -> L (sym_no y) (d (S i))) ->
    G v' /\ M (a_module a') /\ L (- nt_no (lhs r)) v' }.

Record cells (G : slot -> Prop) (L : Z -> slot -> Prop) (M : module -> Prop) (p : pst) : Prop := {
  c_stk : Forall G (p_stk p);
  c_above : Forall G (p_above p);
  c_lval : G (p_lval p);
  c_label : Forall (fun c => L (chk (yys c)) c) (p_stk p);
  c_module : M (a_module (p_ast p));
  c_read : 0 <= p_char p -> exists code t, Next code t = (p_char p, v_token (p_lval p), None) }.

Lemma Lex_module a t k t' a' : Lex a t = (k, t', a') -> a_module a' = a_module a /\
  (t' = t \/ exists c e, Next (a_code a) t = (c, t', e)) /\ (0 <= k -> Next (a_code a) t = (k, t', None)).
Proof.
  unfold Lex. destruct (a_code a) as [|b0 code0] eqn:Ec; [intros [= <- <- <-]; split; [auto|split; [auto|intros H; exfalso; revert H; unfold EOF; lia]]|]. rewrite <- Ec. clear Ec.
  destruct (Next (a_code a) t) as [[c u] e] eqn:E. destruct e as [e|]; [|destruct (_ =? _)]; intros [= <- <- <-]; (split; [reflexivity|split; [eauto|]]); intros H; auto; exfalso; revert H; unfold EOF; lia.
Qed.
Lemma set_token_same c : set_token c (v_token c) = c.
Proof. destruct c; reflexivity. Qed.

Lemma look_cells G L M p : keeps G L M -> cells G L M p -> cells G L M (look p).
Proof.
  intros K [H1 H2 H3 H4 H5 H6]. unfold look. destruct (_ <? 0); [|constructor; assumption].
  destruct (Lex (p_ast p) (v_token (p_lval p))) as [[c t'] a'] eqn:E.
  destruct (Lex_module _ _ _ _ _ E) as (L1 & L2 & L3).
  constructor; cbn [p_stk p_above p_lval p_ast p_char]; auto; [|rewrite L1; exact H5|intros Hc; eauto].
  destruct L2 as [->|(k & e & L2)]; [rewrite set_token_same; exact H3 | eapply (k_token _ _ _ K); eassumption].
Qed.
Lemma look1_cells G L M p : keeps G L M -> cells G L M p -> cells G L M (look1 p).
Proof. intros K. unfold look1. destruct (_ <=? _); auto using look_cells. Qed.
Lemma look2_cells G L M p : keeps G L M -> cells G L M p -> cells G L M (look2 p).
Proof. intros K. unfold look2. destruct (_ =? _); auto using look_cells, look1_cells. Qed.

Definition cells_ok G L (M : module -> Prop) (r : sres) : Prop :=
  match r with Next_ p => cells G L M p | Done _ a => M (a_module a) | Crash _ => True end.

Lemma nth_cell (G : slot -> Prop) l i : G zero_slot -> Forall G l -> G (nth i l zero_slot).
Proof.
  intros H0 H. destruct (nth_in_or_default i l zero_slot) as [Hi| ->]; [|exact H0].
  rewrite Forall_forall in H. auto.
Qed.

Lemma shift_cells G L M p q : keeps G L M -> inv p -> cells G L M p -> shift_of (p_state p) (p_tok p) = Some q -> 0 <= p_char p ->
  cells G L M (shift p q).
Proof.
  intros K Hi [H1 H2 H3 H4 H5 H6] Hq Hch. destruct (inv_states p Hi) as [Hs _]. destruct Hi as [_ _ Hl _ _ _ _].
  destruct Hl as [Hl|(Hk & Htok & _)]; [lia|].
  destruct (checked _ Hs) as (_ & _ & HC). destruct (HC (p_tok p)) as (Hshift & _); [rewrite Htok; apply tokno_of_range|].
  unfold shift_ok in Hshift. rewrite Hq, !andb_true_iff in Hshift. destruct Hshift as ((_ & Hchk) & _).
  constructor; cbn [shift push p_stk p_above p_lval p_ast p_char]; auto; [|..|intros Hc; lia].
  - constructor; [apply (k_yys _ _ _ K); exact H3 | exact H1].
  - destruct H2; cbn; auto.
  - constructor; [|exact H4]. change (yys (set_yys (p_lval p) q)) with q.
    replace (chk q) with (tokno_of (p_char p)) by lia. apply (k_shift _ _ _ K); [exact Hk | apply H6, Hch | apply (k_yys _ _ _ K); exact H3].
Qed.

Lemma reduce_cells G L M p r : keeps G L M -> inv p -> cells G L M p -> reduce_ok (p_state p) r = true -> cells_ok G L M (reduce p r).
Proof.
  intros K Hi [H1 H2 H3 H4 H5 H6] Hr. destruct Hi as [Hp (l & Ht) _ _ _ _ _].
  pose proof Hp as Hp'. rewrite Ht in Hp'.
  destruct (reduce_eq p r _ _ Ht Hp' Hr) as (popped & base & rest & q & E1 & E2 & Eq & Eq2 & Hpred & Hq & Hpath & Hprod & Hh & ->).
  cbv zeta. rewrite E1 in H1, H4. apply Forall_app in H1 as [P1 P2]. apply Forall_app in H4 as [Q1 Q2].
  assert (Ha : Forall G (rev popped ++ p_above p)).
  { apply Forall_app. split; [|exact H2]. apply Forall_rev. exact P1. }
  remember (rev popped ++ p_above p) as above eqn:Ea.
  destruct (act r (fun i => nth (i - 1) above zero_slot) (hd zero_slot above) (p_ast p)) as [[v' a']|x] eqn:EA; [|exact I].
  destruct (k_act _ _ _ K _ _ _ _ _ _ Hprod EA) as (G1 & G2 & G3).
  - intros i. apply nth_cell; [apply (k_zero _ _ _ K) | exact Ha].
  - destruct above; reflexivity.
  - exact H5.
  - intros i y Hy. cbn [Nat.sub]. rewrite Nat.sub_0_r. apply (map_nth_error sym_no) in Hy. rewrite <- E2, nth_error_map in Hy.
    destruct (nth_error (rev popped) i) as [c|] eqn:Ec; [|discriminate]. injection Hy as Hy. rewrite <- Hy.
    assert (En : nth i above zero_slot = c).
    { rewrite Ea, app_nth1 by (apply nth_error_Some; congruence). apply nth_error_nth. exact Ec. }
    rewrite En. apply nth_error_In, in_rev in Ec. rewrite Forall_forall in Q1. exact (Q1 _ Ec).
  - cbn [sbind cells_ok]. constructor; cbn [push p_stk p_above p_lval p_ast p_char]; auto.
    + constructor; [apply (k_yys _ _ _ K); exact G1 | exact P2].
    + destruct Ha; cbn; auto.
    + constructor; [|exact Q2]. change (yys (set_yys v' q)) with q. rewrite Eq2. apply (k_label _ _ _ K). exact G3.
Qed.

Lemma step_cells G L M p : keeps G L M -> inv p -> cells G L M p -> cells_ok G L M (step p).
Proof.
  intros K Hi Hc. destruct (inv_states p Hi) as [Hs Hst].
  rewrite step_eq by (auto using inv_tokno).
  destruct (look1_inv p Hi) as (A1 & A2 & A3 & A4 & A5 & A6).
  destruct (shift_of (p_state p) (p_tok (look1 p))) as [q|] eqn:Eq.
  - pose proof (shift_flag _ _ _ Eq) as Hf. pose proof (look1_cells _ _ _ _ K Hc) as Hc1. unfold look1 in *. rewrite Hf in *.
    assert (Hch : 0 <= p_char (look p)).
    { destruct (Z.lt_ge_cases (p_char (look p)) 0) as [Hlt|]; [|assumption]. exfalso.
      destruct (look_inv p Hi) as (_ & _ & _ & _ & L5). rewrite (L5 Hlt), no_end_shift in Eq by exact Hs. discriminate. }
    rewrite <- A4 in Eq. apply shift_cells; assumption.
  - destruct (look2_inv p Hi) as (B1 & B2 & B3 & B4 & B5 & B6 & B7). pose proof (look2_cells _ _ _ _ K Hc) as Hc2.
    destruct (default (p_state p) (p_tok (look2 p))) as [q|r| |] eqn:Ed; cbn [do_default].
    + unfold fail. destruct (Error (p_ast (look2 p)) MSyntax) as [a1|] eqn:E; [|exact I]. apply Error_inv in E as [e ->]. apply (c_module _ _ _ _ Hc2).
    + apply reduce_cells; [exact K | exact B1 | exact Hc2|].
      rewrite B4. destruct (checked _ Hs) as (_ & _ & HC).
      destruct (Z.eq_dec (at_ yyDef (p_state p)) (-2)) as [E|E].
      * destruct (HC (p_tok (look2 p))) as (_ & Hd & _).
        { destruct (inv_tokno _ B1) as [Hn|Hn]; [rewrite (B7 E Hn); unfold tokno, n_tokens; lia | exact Hn]. }
        unfold default_ok in Hd. rewrite Ed in Hd. exact Hd.
      * destruct (HC 1) as (_ & Hd & _); [unfold tokno, n_tokens; lia|]. unfold default_ok in Hd.
        replace (default (p_state p) 1) with (Reduce r) in Hd; [exact Hd|]. rewrite <- Ed. unfold default.
        apply Z.eqb_neq in E. rewrite E. reflexivity.
    + apply (c_module _ _ _ _ Hc2).
    + unfold fail. destruct (Error (p_ast (look2 p)) MSyntax) as [a1|] eqn:E; [|exact I]. apply Error_inv in E as [e ->]. apply (c_module _ _ _ _ Hc2).
Qed.

Lemma steps_cells G L M n p p' : keeps G L M -> steps n p p' -> inv p -> cells G L M p -> cells G L M p'.
Proof.
  intros K. induction 1 as [p|n p p1 p2 E H IH]; intros Hi Hc; [exact Hc|].
  pose proof (step_inv p Hi) as Hs. pose proof (step_cells _ _ _ p K Hi Hc) as Hk. rewrite E in Hs, Hk. destruct Hs as (H1 & _). auto.
Qed.
Lemma init_cells G L M a : keeps G L M -> M (a_module a) -> cells G L M (init_pst a).
Proof.
  intros K H. constructor; cbn [init_pst p_stk p_above p_lval p_ast].
  - constructor; [apply (k_yys _ _ _ K), (k_zero _ _ _ K) | constructor].
  - constructor.
  - apply (k_zero _ _ _ K).
  - constructor; [|constructor]. apply (k_label _ _ _ K). apply (k_start _ _ _ K).
  - exact H.
  - cbn [init_pst p_char]. lia.
Qed.

Theorem Parse_keeps G L M a a' e : keeps G L M -> M (a_module a) -> Parse a = Some (Ok (a', e)) -> M (a_module a').
Proof.
  intros K Ha. unfold Parse. destruct (blank (a_code a)); [intros [= <- <-]; exact Ha|].
  destruct (run_result _ (init_inv a)) as (n & p' & H1 & H2 & H3 & H4 & H5).
  rewrite H5 by (rewrite init_potential; unfold parse_fuel; lia).
  pose proof (step_cells _ _ _ _ K H3 (steps_cells _ _ _ _ _ _ K H1 (init_inv a) (init_cells _ _ _ a K Ha))) as Hc.
  destruct (step p') as [?|x a1|y]; cbn [outcome]; [contradiction| |discriminate].
  intros [= <- <-]. exact Hc.
Qed.

(** The nodes a program can hold: new ones, and those on which Parse has returned, with
    or without error, any number of times. *)
Inductive history : astnode -> Prop :=
| history_new code : history (NewAST code)
| history_parse a a' e : history a -> Parse a = Some (Ok (a', e)) -> history a'.
Theorem history_keeps G L M a : keeps G L M -> M (a_module (NewAST [])) -> history a -> M (a_module a).
Proof. intros K H0. induction 1; [exact H0|]. eapply Parse_keeps; eassumption. Qed.
