(** Operator levels on parse trees, and: every tree accepted by the machine respects them. *)
From Verif Require Import Bytes Utf8 Float64 GoTime Ast Lexer LexFacts LexSpec LexProofs Tables Parser Grammar Tok CertData Cert Driver DriverInv Trees Machine.

(** * Levels of productions, tokens and states *)
Definition is_bin (r : Z) : bool := (66 <=? r) && (r <=? 78).
Definition lev (r : Z) : Z := at_ [9; 9; 10; 10; 10; 8; 8; 7; 1; 2; 3; 4; 5] (r - 66).
Definition bins : list Z := seqZ 66 13.
Definition op_tok (r : Z) : Z := match rhs r with [_; x; _] => sym_no x | _ => 0 end.
(** The level of a token as a binary operator; 0 for the others. *)
Definition ptok (k : Z) : Z := match find (fun r => op_tok r =? k) bins with Some r => lev r | None => 0 end.
Definition k_eq : Z := tokno_of tEQUAL.

(** * Levels on trees *)
Fixpoint t_left (n : Z) (t : tree) : bool :=
  match t with
  | Node r (l :: _) => if is_bin r then (n <? lev r) && t_left n l else true
  | _ => true
  end.
Fixpoint t_right (n : Z) (t : tree) : bool :=
  match t with
  | Node r [_; _; e] => if is_bin r then (n <=? lev r) && t_right n e else if r =? 99 then t_right n e else true
  | Node r [_; e] => if r =? 79 then (n <=? 6) && t_right n e else if (r =? 90) || (r =? 91) then (n <=? 11) && t_right n e else true
  | Node r [e] => if r =? 64 then t_right n e else true
  | _ => true
  end.
Definition is_path (t : tree) : bool := match t with Node r _ => r =? 83 | Leaf _ => false end.
Fixpoint t_noassign (t : tree) : bool :=
  match t with
  | Node r (l :: _) => if is_bin r then negb ((r =? 73) && is_path l) && t_noassign l else true
  | _ => true
  end.
Definition t_local (r : Z) (ch : list tree) : bool :=
  match ch with
  | [l; _; e] => if is_bin r then t_right (lev r) l && t_left (lev r) e else if r =? 99 then t_right 7 l else true
  | [_; e] => if r =? 79 then t_left 6 e else if (r =? 90) || (r =? 91) then t_left 11 e else true
  | [e] => if r =? 45 then t_noassign e else true
  | _ => true
  end.
Fixpoint tight (t : tree) : bool :=
  match t with Leaf _ => true | Node r ch => t_local r ch && forallb tight ch end.

(** * States *)
(** The level at which an operand begins in a state; -1 where no operand begins after an operator. *)
Definition slev (s : Z) : Z := 
  (* after a binary operator: the production whose operator has just been read *)
  match find (fun r => (chk s =? op_tok r) && forallb (fun b => chk b =? - nt_no n_expr) (pred s)) bins with
  | Some r => lev r
  | None => if chk s =? tokno_of tNot then 6
            else if (chk s =? tokno_of 45) || (chk s =? tokno_of 43) then 11
            else -1
  end.
(** A statement can begin here. *)
Definition sstart (s : Z) : bool :=
  match shift_of (goto s (nt_no n_through_dot)) k_eq with Some _ => chk (goto s (nt_no n_through_dot)) =? - nt_no n_through_dot | None => false end.

Definition reduce_check (s k r : Z) : bool :=
  if is_bin r then (ptok k <=? lev r) && forallb (fun b => slev b =? lev r) (pred s)
  else if r =? 79 then (ptok k <=? 6) && forallb (fun b => slev b =? 6) (pred s)
  else if (r =? 90) || (r =? 91) then (ptok k <=? 11) && forallb (fun b => slev b =? 11) (pred s)
  else if r =? 45 then forallb sstart (pred s)
  else if r =? 83 then if k =? k_eq then forallb (fun b => negb (sstart b)) (pred s) else true
  else true.
Lemma reduces_checked : forallb (fun s => forallb (fun k => match action_of s k with Reduce r => reduce_check s k r | _ => true end) toknos) states = true.
Proof. vm_compute. reflexivity. Qed.
Lemma reduce_checked s k r : state s -> tokno k -> action_of s k = Reduce r -> reduce_check s k r = true.
Proof.
  intros Hs Hk E. pose proof (forall_states _ reduces_checked s Hs) as H. pose proof (forall_toknos _ H k Hk) as H2. cbv beta in H2.
  rewrite E in H2. exact H2.
Qed.
Lemma ops_checked : forallb (fun b => forallb (fun r =>
  match shift_of (goto b (nt_no n_expr)) (op_tok r) with Some _ => slev b <? lev r | None => true end) bins) states = true.
Proof. vm_compute. reflexivity. Qed.
Lemma op_checked b r q : state b -> is_bin r = true -> shift_of (goto b (nt_no n_expr)) (op_tok r) = Some q -> slev b < lev r.
Proof.
  intros Hs Hr E. pose proof (forall_states _ ops_checked b Hs) as H. cbv beta in H. rewrite forallb_forall in H.
  assert (Hi : In r bins) by (apply in_seqZ; unfold is_bin in Hr; lia).
  specialize (H r Hi). rewrite E in H. lia.
Qed.
Lemma bin_rhs r : is_bin r = true -> exists c, rhs r = [N n_expr; T c; N n_expr] /\ lhs r = n_expr /\ op_tok r = tokno_of c /\ ptok (op_tok r) = lev r /\ (r = 73 <-> op_tok r = k_eq).
Proof.
  intros H. unfold is_bin in H.
  assert (E : r = 66 \/ r = 67 \/ r = 68 \/ r = 69 \/ r = 70 \/ r = 71 \/ r = 72 \/ r = 73 \/ r = 74 \/ r = 75 \/ r = 76 \/ r = 77 \/ r = 78) by lia.
  repeat (destruct E as [-> | E]; [eexists; split; [reflexivity|]; split; [reflexivity|]; split; [reflexivity|]; split; [reflexivity|];
    split; intros X; solve [reflexivity | discriminate X] | ]).
  subst r. eexists; split; [reflexivity|]; split; [reflexivity|]; split; [reflexivity|]; split; [reflexivity|];
    split; intros X; solve [reflexivity | discriminate X].
Qed.

(** * The stack *)
Definition mwf (st : frames) : Prop :=
  path (map fst st ++ [0]) /\ Forall (fun f => wf (snd f) /\ chk (fst f) = sym_of (snd f)) st.
Lemma top_hd st : exists l, map fst st ++ [0] = top st :: l.
Proof. destruct st as [|[s t] st]; cbn; eauto. Qed.
Lemma mwf_state st : mwf st -> state (top st).
Proof. intros [H _]. destruct (top_hd st) as [l E]. rewrite E in H. exact (path_state _ _ H). Qed.
Lemma la_tokno inp : tokno (la inp).
Proof. destruct inp; [unfold tokno, n_tokens, la; lia|apply tokno_of_range]. Qed.
Lemma mwf_cons s t st : mwf ((s, t) :: st) -> mwf st /\ wf t /\ chk s = sym_of t /\ In (top st) (pred s).
Proof.
  intros [H1 H2]. inversion H2 as [|? ? [A B] C]; subst. cbn [map fst app] in H1. destruct (top_hd st) as [l E].
  rewrite E in H1. inversion H1 as [|? ? ? P1 P2]; subst. split; [split; [rewrite E; exact P2|exact C]|]. auto.
Qed.

Lemma shift_edge s k q : state s -> tokno k -> shift_of s k = Some q -> In s (pred q) /\ chk q = k.
Proof.
  intros Hs Hk E. destruct (checked _ Hs) as (_ & _ & HC). destruct (HC k Hk) as (H & _).
  unfold shift_ok in H. rewrite E in H. unfold edge_ok in H. rewrite !andb_true_iff in H. destruct H as ((H & H2) & _).
  destruct H as [_ H]. apply zmem_in in H. lia || (split; [exact H|lia]).
Qed.
Lemma action_reduce s k r : state s -> tokno k -> action_of s k = Reduce r -> reduce_ok s r = true.
Proof.
  intros Hs Hk E. destruct (checked _ Hs) as (_ & _ & HC). destruct (HC k Hk) as (_ & H & _).
  unfold action_of in E. destruct (shift_of s k); [discriminate|]. unfold default_ok in H. rewrite E in H. exact H.
Qed.

(** What a reduction pops. *)
Lemma reduce_split st r : mwf st -> reduce_ok (top st) r = true ->
  let n := length (rhs r) in let st' := skipn n st in
  length (firstn n st) = n /\ prodno r /\ mwf st' /\
  map sym_of (rev (map snd (firstn n st))) = map sym_no (rhs r) /\ Forall wf (rev (map snd (firstn n st))) /\
  In (top st') (pred (goto (top st') (nt_no (lhs r)))) /\ chk (goto (top st') (nt_no (lhs r))) = - nt_no (lhs r).
Proof.
  intros [Hp Hf] Hr. cbv zeta. destruct (top_hd st) as [l E]. rewrite E in Hp.
  unfold reduce_ok in Hr. rewrite !andb_true_iff in Hr. destruct Hr as ((H1 & H2) & H3).
  destruct (back [top st] (rev (map sym_no (rhs r)))) as [bs|] eqn:Eb; [|discriminate].
  destruct (back_sound _ _ _ _ _ Eb Hp (or_introl eq_refl) (rhs_syms r)) as (po & b & rest & E1 & E2 & E3 & E4).
  rewrite forallb_forall in H3. specialize (H3 b E3). cbv zeta in H3.
  rewrite !andb_true_iff in H3. destruct H3 as ((H3 & H4) & _).
  unfold edge_ok in H3. rewrite !andb_true_iff in H3. destruct H3 as (_ & H6). apply zmem_in in H6.
  set (n := length (rhs r)).
  assert (Hl : length po = n).
  { apply (f_equal (@length Z)) in E2. rewrite rev_length, !map_length in E2. exact E2. }
  assert (Hle : (n <= length st)%nat).
  { rewrite <- E in E1. apply (f_equal (@length Z)) in E1. rewrite !app_length, map_length in E1. cbn in E1. lia. }
  rewrite <- E in E1. rewrite <- (firstn_skipn n st) in E1 at 1. rewrite map_app, <- app_assoc in E1.
  apply app_inj_length in E1; [|rewrite map_length, firstn_length_le by exact Hle; congruence].
  destruct E1 as [Ea Ec]. subst po. destruct (top_hd (skipn n st)) as [l2 E5]. rewrite E5 in Ec. injection Ec as <- <-.
  rewrite <- (firstn_skipn n st) in Hf. apply Forall_app in Hf as [F1 F2].
  assert (Hsym : map chk (map fst (firstn n st)) = map sym_of (map snd (firstn n st))).
  { clear -F1. rewrite !map_map. apply map_ext_Forall. eapply Forall_impl; [|exact F1]. intros ? [_ H]. exact H. }
  split; [apply firstn_length_le, Hle|]. split; [unfold prodno; lia|]. split; [split; [rewrite E5; exact E4|exact F2]|].
  split; [rewrite map_rev, <- Hsym, E2; apply rev_involutive|].
  split; [apply Forall_rev; apply Forall_map; eapply Forall_impl; [|exact F1]; intros ? [H _]; exact H|].
  split; [exact H6|lia].
Qed.
Lemma mwf_step st inp st' inp' : mwf st -> Forall tk_wf inp -> mstep st inp = MNext st' inp' -> mwf st' /\ Forall tk_wf inp'.
Proof.
  intros Hw Hi H. pose proof (mwf_state _ Hw) as Hs. pose proof (la_tokno inp) as Hk. unfold mstep in H.
  destruct (action_of (top st) (la inp)) as [q|r| |] eqn:Ea.
  - unfold action_of in Ea. destruct (shift_of (top st) (la inp)) as [q'|] eqn:Eq; [injection Ea as ->|].
    2: { exfalso. unfold default in Ea. repeat match type of Ea with context [match ?x with _ => _ end] => destruct x | context [if ?x then _ else _] => destruct x end; discriminate Ea. }
    destruct (shift_edge _ _ _ Hs Hk Eq) as [A B]. destruct inp as [|x inp]; [discriminate|]. injection H as <- <-.
    inversion Hi; subst. split; [|assumption]. destruct Hw as [W1 W2]. split.
    + cbn [map fst app]. destruct (top_hd st) as [l E]. rewrite E in *. constructor; assumption.
    + constructor; [|exact W2]. cbn [fst snd sym_of la] in *. split; [constructor; assumption|exact B].
  - injection H as <- <-. split; [|exact Hi].
    destruct (reduce_split st r Hw (action_reduce _ _ _ Hs Hk Ea)) as (R1 & R2 & R3 & R4 & R5 & R6 & R7).
    destruct R3 as [P1 P2]. split.
    + cbn [map fst app]. destruct (top_hd (skipn (length (rhs r)) st)) as [l E]. rewrite E in *. constructor; assumption.
    + constructor; [|exact P2]. cbn [fst snd sym_of]. split; [constructor; assumption|exact R7].
  - destruct st as [|[] []]; discriminate.
  - discriminate.
Qed.

(** * Levels on the stack *)
Definition dest (b : Z) (t : tree) : option Z :=
  match t with Leaf x => shift_of b (tokno_of (kind_of x)) | Node r _ => Some (goto b (nt_no (lhs r))) end.
Definition next_ok (k b : Z) (u : tree) : Prop :=
  t_right (ptok k) u = true /\ (k = k_eq -> sstart b = true -> is_path u = false).
Definition gtop (st : frames) (k : Z) : Prop :=
  match st with [] => True | f :: st' => next_ok k (top st') (snd f) end.
Fixpoint good (st : frames) : Prop :=
  match st with
  | [] => True
  | f :: st' =>
    good st' /\ tight (snd f) = true /\ t_left (slev (top st')) (snd f) = true /\
    (sstart (top st') = true -> t_noassign (snd f) = true) /\ dest (top st') (snd f) = Some (fst f) /\
    match snd f with Leaf x => gtop st' (tokno_of (kind_of x)) | Node _ _ => True end
  end.

Lemma t_right_short n r ch : (4 <= length ch)%nat \/ ch = [] -> t_right n (Node r ch) = true.
Proof. intros [H| ->]; [|reflexivity]. destruct ch as [|? [|? [|? [|? ?]]]]; cbn in H; try lia. reflexivity. Qed.
Lemma t_local_short r ch : (4 <= length ch)%nat \/ ch = [] -> t_local r ch = true.
Proof. intros [H| ->]; [|reflexivity]. destruct ch as [|? [|? [|? [|? ?]]]]; cbn in H; try lia. reflexivity. Qed.

Lemma good_step st inp st' inp' : mwf st -> good st -> gtop st (la inp) -> mstep st inp = MNext st' inp' ->
  good st' /\ gtop st' (la inp').
Proof.
  intros Hw Hg Ht H. pose proof (mwf_state _ Hw) as Hs. pose proof (la_tokno inp) as Hk. unfold mstep in H.
  destruct (action_of (top st) (la inp)) as [q|r| |] eqn:Ea.
  - unfold action_of in Ea. destruct (shift_of (top st) (la inp)) as [q'|] eqn:Eq; [injection Ea as ->|].
    2: { exfalso. unfold default in Ea. repeat match type of Ea with context [match ?x with _ => _ end] => destruct x | context [if ?x then _ else _] => destruct x end; discriminate Ea. }
    destruct inp as [|x inp]; [discriminate|]. injection H as <- <-.
    cbn [good fst snd tight t_left t_noassign dest]. split; [|split; [reflexivity|intros; reflexivity]].
    split; [exact Hg|]. split; [reflexivity|]. split; [reflexivity|]. split; [reflexivity|]. split; [exact Eq|exact Ht].
  - injection H as <- <-. pose proof (reduce_checked _ _ _ Hs Hk Ea) as HC.
    destruct (reduce_split st r Hw (action_reduce _ _ _ Hs Hk Ea)) as (R1 & R2 & R3 & R4 & R5 & R6 & R7).
    assert (Hn : exists n, n = length (rhs r)) by eauto. destruct Hn as [n Hn]. rewrite <- Hn in *. set (b := skipn n st) in *. set (ch := rev (map snd (firstn n st))) in *.
    unfold reduce_check in HC.
    assert (Hlen : length ch = n) by (subst ch; rewrite rev_length, map_length; exact R1).
    (* the parts *)
    assert (Hgb : good b /\ forallb tight ch = true).
    { subst b ch. clear - Hg. revert st Hg. induction n as [|n IH]; intros st Hg; [split; [exact Hg|reflexivity]|].
      destruct st as [|f st]; [split; [exact I|reflexivity]|]. cbn [good] in Hg. destruct Hg as (G1 & G2 & _).
      destruct (IH _ G1) as [A B]. split; [exact A|]. cbn [firstn map rev]. rewrite forallb_app, B. cbn. rewrite G2. reflexivity. }
    destruct Hgb as [Hgb Htight].
    assert (Hcases : t_local r ch = true /\ t_left (slev (top b)) (Node r ch) = true /\
       (sstart (top b) = true -> t_noassign (Node r ch) = true) /\ t_right (ptok (la inp)) (Node r ch) = true /\
       (la inp = k_eq -> sstart (top b) = true -> is_path (Node r ch) = false)).
    { destruct (is_bin r) eqn:Er.
      - destruct (bin_rhs r Er) as (c & Q1 & Q2 & Q3 & Q4 & Q5). rewrite Q1 in *. cbn [length map] in *. subst n.
        destruct st as [|[s3 e3] [|[s2 e2] [|[s1 e1] st]]]; try (cbn in R1; lia). cbn [skipn] in b. subst b. cbn [firstn map rev snd app] in ch. subst ch.
        cbn [map] in R4. injection R4 as S1 S2 S3.
        cbn [good fst snd] in Hg. destruct Hg as (((G0 & G1) & G2) & G3).
        destruct G2 as (_ & _ & _ & D2 & P2). destruct G1 as (T1 & L1 & A1 & D1 & P1). destruct G3 as (T3 & L3 & A3 & D3 & P3).
        destruct e2 as [x|r2 ch2]; [|exfalso; cbn [sym_of sym_no] in S2; pose proof (nt_no_pos (lhs r2)); pose proof (tokno_of_range c) as [Hc _]; unfold tokno in Hc; lia].
        cbn [sym_of sym_no] in S2. rewrite <- Q3 in S2. rewrite S2 in P2. cbn [gtop snd top fst] in P2, L3, L1, A1. destruct P2 as [P2 P2']. rewrite Q4 in P2.
        apply andb_true_iff in HC as [C1 C1']. rewrite forallb_forall in C1'.
        assert (Hpred : In s2 (pred s3)).
        { apply mwf_cons in Hw as (_ & _ & _ & Hw). exact Hw. }
        specialize (C1' _ Hpred). apply Z.eqb_eq in C1'. rewrite C1' in L3.
        assert (Hlt : slev (top st) < lev r).
        { apply (op_checked _ _ s2); [exact (mwf_state _ R3)|exact Er|]. cbn [dest] in D2. rewrite S2 in D2. cbn [top fst] in D2.
          destruct e1 as [x1|r1 ch1]; [cbn [sym_of sym_no] in S1; pose proof (nt_no_pos n_expr); pose proof (tokno_of_range (kind_of x1)) as [Hc _]; unfold tokno in Hc; lia|].
          cbn [dest] in D1. injection D1 as D1. cbn [sym_of sym_no] in S1. assert (Ex : nt_no (lhs r1) = nt_no n_expr) by (apply Z.opp_inj; exact S1). rewrite Ex in D1. rewrite D1. exact D2. }
        cbn [t_local t_left t_noassign t_right is_path]. rewrite Er, P2, L3, L1. cbn [andb].
        split; [reflexivity|]. split; [lia|]. split.
        { intros Hst. rewrite (A1 Hst). rewrite andb_true_r, negb_true_iff. destruct (Z.eqb_spec r 73) as [E73|E73]; [|reflexivity].
          apply Q5 in E73. rewrite (P2' E73 Hst). reflexivity. }
        split. { destruct Ht as [Ht _]. cbn [snd] in Ht. rewrite Ht. lia. }
        intros _ _. unfold is_bin in Er. lia.
      - (* not a binary operator *)
        assert (Hl : t_left (slev (top b)) (Node r ch) = true) by (destruct ch; cbn [t_left]; rewrite ?Er; reflexivity).
        assert (Hna : t_noassign (Node r ch) = true) by (destruct ch; cbn [t_noassign]; rewrite ?Er; reflexivity).
        assert (Hip : la inp = k_eq -> sstart (top b) = true -> is_path (Node r ch) = false).
        { intros E1 E2. cbn [is_path]. destruct (Z.eqb_spec r 83) as [E83|E83]; [exfalso|reflexivity].
          subst r. change (length (rhs 83)) with 1%nat in Hn. subst n. destruct st as [|f st]; [cbn in R1; lia|]. cbn [skipn] in b. subst b.
          destruct f as [s u]. apply mwf_cons in Hw as (_ & _ & _ & Hw). 
          assert (HC' : (if la inp =? k_eq then forallb (fun b => negb (sstart b)) (pred s) else true) = true) by exact HC.
          apply Z.eqb_eq in E1. rewrite E1, forallb_forall in HC'. specialize (HC' _ Hw). rewrite E2 in HC'. discriminate HC'. }
        enough (t_local r ch = true /\ t_right (ptok (la inp)) (Node r ch) = true) by tauto.
        clear Hl Hna Hip.
        destruct n as [|[|[|[|n4]]]].
        + destruct ch; [|discriminate Hlen]. split; reflexivity.
        + destruct st as [|[s1 e1] st]; [cbn in R1; lia|]. cbn [skipn] in b. cbn [firstn map rev snd app] in ch. subst ch b.
          cbn [t_local t_right]. split.
          * destruct (Z.eqb_spec r 45) as [-> |E45]; [|reflexivity].
            assert (C4 : forallb sstart (pred s1) = true) by exact HC. rewrite forallb_forall in C4.
            pose proof (mwf_cons _ _ _ Hw) as (_ & _ & _ & Hin). specialize (C4 _ Hin).
            cbn [good fst snd] in Hg. destruct Hg as (_ & _ & _ & Hg & _). auto.
          * destruct Ht as [Ht _]. destruct (r =? 64); [exact Ht|reflexivity].
        + destruct st as [|[s2 e2] [|[s1 e1] st]]; try (cbn in R1; lia). cbn [skipn] in b. cbn [firstn map rev snd app] in ch. subst ch b.
          pose proof (mwf_cons _ _ _ Hw) as (_ & _ & _ & Hin). cbn [top fst] in *.
          cbn [good fst snd] in Hg. destruct Hg as (_ & _ & Hg & _). cbn [top fst] in Hg.
          destruct Ht as [Ht _]. cbn [snd] in Ht. cbn [t_local t_right].
          destruct (r =? 79) eqn:E79.
          { apply andb_true_iff in HC as [C2 C2']. rewrite forallb_forall in C2'. specialize (C2' _ Hin). apply Z.eqb_eq in C2'. rewrite C2' in Hg. rewrite Hg, Ht. split; [reflexivity|lia]. }
          destruct ((r =? 90) || (r =? 91)) eqn:E90; [|split; reflexivity].
          apply andb_true_iff in HC as [C3 C3']. rewrite forallb_forall in C3'. specialize (C3' _ Hin). apply Z.eqb_eq in C3'. rewrite C3' in Hg. rewrite Hg, Ht. split; [reflexivity|lia].
        + destruct st as [|[s3 e3] [|[s2 e2] [|[s1 e1] st]]]; try (cbn in R1; lia). cbn [skipn] in b. cbn [firstn map rev snd app] in ch. subst ch b.
          cbn [t_local t_right]. rewrite Er. destruct Ht as [Ht _]. cbn [snd] in Ht.
          destruct (Z.eqb_spec r 99) as [E99|E99]; [|split; reflexivity]. split; [|exact Ht]. subst r.
          change (map sym_no (rhs 99)) with [- nt_no n_declarations_method_param; tokno_of tEQUAL; - nt_no n_simple_expr] in R4.
          cbn [map] in R4. injection R4 as S1 S2 S3.
          cbn [good fst snd] in Hg. destruct Hg as ((_ & _ & _ & _ & _ & P2) & _).
          destruct e2 as [x|r2 ch2]; [|exfalso; cbn [sym_of] in S2; pose proof (nt_no_pos (lhs r2)); pose proof (tokno_of_range tEQUAL) as [Hc _]; unfold tokno in Hc; lia].
          cbn [sym_of] in S2. rewrite S2 in P2. destruct P2 as [P2 _]. exact P2.
        + split; [apply t_local_short|apply t_right_short]; left; lia. }
    destruct Hcases as (K1 & K2 & K3 & K4 & K5).
    split; [|split; [exact K4|exact K5]].
    cbn [good fst snd]. split; [exact Hgb|]. split; [cbn [tight]; rewrite K1, Htight; reflexivity|].
    split; [exact K2|]. split; [exact K3|]. split; [reflexivity|exact I].
  - destruct st as [|[] []]; discriminate.
  - discriminate.
Qed.

(** Accepted trees respect the levels. *)
Theorem accepted_tight inp t : Forall tk_wf inp -> maccepts inp t -> tight t = true.
Proof.
  intros Hi (st & inp' & H & Ha).
  assert (G : forall st0 inp0, msteps st0 inp0 st inp' -> mwf st0 -> Forall tk_wf inp0 -> good st0 -> gtop st0 (la inp0) -> tight t = true).
  { intros st0 inp0 H0. induction H0 as [s i|s i s1 i1 s2 i2 E H0 IH]; intros W F G0 T0.
    - unfold mstep in Ha. destruct (action_of (top s) (la i)); try discriminate Ha.
      + destruct i; discriminate Ha.
      + destruct s as [|[q u] [|? ?]]; try discriminate Ha. injection Ha as ->. destruct G0 as (_ & G0 & _). exact G0.
    - destruct (mwf_step _ _ _ _ W F E) as [W' F']. destruct (good_step _ _ _ _ W G0 T0 E) as [G' T']. apply IH; assumption. }
  apply (G _ _ H); [|exact Hi|exact I|exact I]. split; [cbn; constructor|constructor].
Qed.
