(** Every tree that respects the operator levels is accepted by the machine. *)
From Verif Require Import Bytes Utf8 Float64 GoTime Ast Lexer LexFacts LexSpec LexProofs Tables Parser Grammar Tok CertData Cert Driver DriverInv Trees Machine Bind Items.

(** * Levels handed down a tree *)
(** A node is expected at a level [x] (0 to 11; 12 for the left edge of a statement)
    and followed by the token [k]. *)
Definition lev_of (x : Z) : Z := if x =? 12 then 0 else x.
Definition pass (r d x : Z) : Z :=
  if is_bin r then (if d =? 0 then x else if d =? 2 then lev r else 0)
  else if r =? 79 then 6
  else if (r =? 90) || (r =? 91) then 11
  else if r =? 45 then 12
  else 0.
Definition perm (r x k : Z) : bool :=
  if is_bin r then (lev_of x <? lev r) && (ptok k <=? lev r)
  else if r =? 79 then ptok k <=? 6
  else if r =? 83 then negb ((x =? 12) && (k =? k_eq))
  else true.
(** The first token of a forest, or [k]. *)
Definition head (k : Z) (l : list tk) : Z := match l with [] => k | x :: _ => tokno_of (kind_of x) end.
Fixpoint ok (x k : Z) (t : tree) : bool :=
  match t with
  | Leaf _ => true
  | Node r ch => perm r x k &&
    (fix go (d : Z) (ch : list tree) : bool :=
       match ch with [] => true | c :: ch' => ok (pass r d x) (head k (flat_map yield ch')) c && go (d + 1) ch' end) 0 ch
  end.
Definition oks (r x k : Z) := fix go (d : Z) (ch : list tree) : bool :=
  match ch with [] => true | c :: ch' => ok (pass r d x) (head k (flat_map yield ch')) c && go (d + 1) ch' end.
Lemma ok_node x k r ch : ok x k (Node r ch) = perm r x k && oks r x k 0 ch.
Proof. reflexivity. Qed.

(** * Sets of tokens *)
Definition mem (k : Z) (m : BinNums.N) : bool := N.testbit m (Z.to_N k).
Definition all_mask : BinNums.N := N.ones 68.
Definition perm_mask (r x : Z) : BinNums.N :=
  if is_bin r || (r =? 79) || (r =? 83) then
    fold_left (fun m k => if perm r x k then N.setbit m (Z.to_N k) else m) toknos 0%N
  else all_mask.
Definition nonterm_at {A} (l : list A) (n : nonterm) (d : A) : A := nth (Z.to_nat (nt_no n - 1)) l d.
Definition first (n : nonterm) : BinNums.N := nonterm_at firsts n 0%N.
Definition nullable (n : nonterm) : bool := nonterm_at nullables n false.
Fixpoint first_mask (l : list sym) (m : BinNums.N) : BinNums.N :=
  match l with
  | [] => m
  | T c :: _ => N.setbit 0 (Z.to_N (tokno_of c))
  | N n :: l => if nullable n then N.lor (first n) (first_mask l m) else first n
  end.
Definition subset (a b : BinNums.N) : bool := (N.ldiff a b =? 0)%N.
Lemma subset_mem a b k : subset a b = true -> mem k a = true -> mem k b = true.
Proof.
  unfold subset, mem. intros H1 H2. apply N.eqb_eq in H1. apply (f_equal (fun m => N.testbit m (Z.to_N k))) in H1.
  rewrite N.ldiff_spec, N.bits_0, H2 in H1. destruct (N.testbit b (Z.to_N k)); [reflexivity|discriminate].
Qed.
Lemma mem_lor k a b : mem k (N.lor a b) = mem k a || mem k b.
Proof. apply N.lor_spec. Qed.
Lemma mem_land k a b : mem k (N.land a b) = mem k a && mem k b.
Proof. apply N.land_spec. Qed.
Lemma mem_single k : mem k (N.setbit 0 (Z.to_N k)) = true.
Proof. unfold mem. apply N.setbit_eq. Qed.
Lemma mem_all k : tokno k -> mem k all_mask = true.
Proof. intros H. unfold mem, all_mask. apply N.ones_spec_low. unfold tokno, n_tokens in H. lia. Qed.
Lemma mem_fold (f : Z -> bool) (l : list Z) : NoDup l -> (forall k, In k l -> 0 <= k) -> forall k m, 0 <= k ->
  mem k (fold_left (fun m k => if f k then N.setbit m (Z.to_N k) else m) l m) = (if in_dec Z.eq_dec k l then f k || mem k m else mem k m).
Proof.
  induction 1 as [|y l Hy Hn IH]; intros Hp k m Hk; [reflexivity|]. cbn [fold_left]. rewrite IH by (try intros; auto using in_cons).
  destruct (in_dec Z.eq_dec k l) as [A|A].
  - destruct (in_dec Z.eq_dec k (y :: l)) as [B|B]; [|destruct B; right; exact A].
    assert (Hky : y <> k) by congruence. f_equal. unfold mem. destruct (f y); [|reflexivity].
    apply N.setbit_neq. intros E. apply Hky. apply Z2N.inj in E; auto. apply Hp. left. reflexivity.
  - destruct (in_dec Z.eq_dec k (y :: l)) as [[->|B]|B].
    + unfold mem. destruct (f k); [apply N.setbit_eq|reflexivity].
    + contradiction.
    + unfold mem. destruct (f y); [|reflexivity]. apply N.setbit_neq. intros E. apply B. left. apply Z2N.inj in E; auto. apply Hp. left. reflexivity.
Qed.
Lemma toknos_nodup : NoDup toknos.
Proof.
  unfold toknos, seqZ. generalize (seq_NoDup (Z.to_nat n_tokens) 0). generalize (seq 0 (Z.to_nat n_tokens)).
  induction 1 as [|y l Hy Hn IH]; cbn [map]; constructor; [|exact IH]. rewrite in_map_iff. intros (z & E & Hz).
  apply Hy. replace y with z by lia. exact Hz.
Qed.
Lemma mem_perm r x k : tokno k -> perm r x k = true -> mem k (perm_mask r x) = true.
Proof.
  intros Hk Hp. unfold perm_mask. destruct (_ || _); [|apply mem_all, Hk].
  rewrite mem_fold; [|apply toknos_nodup|intros; unfold toknos in *; apply seqZ_in in H; lia|unfold tokno in Hk; lia].
  destruct (in_dec Z.eq_dec k toknos) as [A|A]; [rewrite Hp; reflexivity|]. destruct A. apply in_seqZ. unfold tokno in Hk. lia.
Qed.

Definition perm_tab : list (list BinNums.N) := map (fun r => map (perm_mask r) (seqZ 0 13)) prods.
Definition perm_at (r x : Z) : BinNums.N :=
  if (r <=? 0) || (x <? 0) then all_mask
  else match nth_error perm_tab (Z.to_nat (r - 1)) with
       | Some l => match nth_error l (Z.to_nat x) with Some m => m | None => all_mask end
       | None => all_mask
       end.
Lemma nth_seqZ a n i y : nth_error (seqZ a n) i = Some y -> y = a + Z.of_nat i.
Proof.
  unfold seqZ. rewrite nth_error_map. destruct (nth_error (seq 0 (Z.to_nat n)) i) as [j|] eqn:E; [|discriminate].
  intros [= <-]. assert (Hi : (i < length (seq 0 (Z.to_nat n)))%nat) by (apply nth_error_Some; congruence).
  rewrite seq_length in Hi. rewrite (nth_error_nth' _ 0%nat) in E by (rewrite seq_length; exact Hi).
  rewrite seq_nth in E by exact Hi. injection E as <-. lia.
Qed.
Lemma mem_perm_at r x k : tokno k -> perm r x k = true -> mem k (perm_at r x) = true.
Proof.
  intros Hk Hp. unfold perm_at. destruct ((r <=? 0) || (x <? 0)) eqn:E; [apply mem_all, Hk|].
  unfold perm_tab. rewrite nth_error_map. destruct (nth_error prods (Z.to_nat (r - 1))) as [r'|] eqn:Er; [|apply mem_all, Hk].
  apply nth_seqZ in Er. cbn [option_map]. rewrite nth_error_map.
  destruct (nth_error (seqZ 0 13) (Z.to_nat x)) as [x'|] eqn:Ex; [|apply mem_all, Hk]. apply nth_seqZ in Ex. cbn [option_map].
  replace r' with r by lia. replace x' with x by lia. apply mem_perm; assumption.
Qed.

(** * First tokens *)
Lemma firsts_checked : forallb (fun p => subset (first_mask (snd p) 0%N) (first (fst p)) &&
  (negb (forallb (fun x => match x with T _ => false | N n => nullable n end) (snd p)) || nullable (fst p))) productions = true.
Proof. vm_compute. reflexivity. Qed.
Definition begins (syms : list sym) (l : list tk) : Prop :=
  match l with
  | [] => forallb (fun x => match x with T _ => false | N n => nullable n end) syms = true
  | x :: _ => forall m, mem (tokno_of (kind_of x)) (first_mask syms m) = true
  end.
Lemma tree_begins t : wf t -> forall n, sym_of t = - nt_no n ->
  match yield t with [] => nullable n = true | x :: _ => mem (tokno_of (kind_of x)) (first n) = true end.
Proof.
  induction t as [k|r ch IH] using tree_ind2; intros Hw n Hn.
  { exfalso. destruct (sym_nt _ n Hw Hn) as (r & ch & E & _). discriminate. }
  inversion Hw as [|r0 ch0 Hr Hs Hf]; subst. cbn [sym_of] in Hn. assert (lhs r = n) as <- by (apply nt_no_inj; lia).
  assert (Hgen : forall syms ch, Forall (fun t => wf t -> forall n, sym_of t = - nt_no n ->
      match yield t with [] => nullable n = true | x :: _ => mem (tokno_of (kind_of x)) (first n) = true end) ch ->
      Forall wf ch -> map sym_of ch = map sym_no syms -> begins syms (flat_map yield ch)).
  { clear. induction syms as [|y syms IHs]; intros [|t ch] IH Hf Hs; try discriminate Hs; [reflexivity|].
    cbn [map] in Hs. injection Hs as Hy Hs. inversion IH as [|? ? I1 I2]; subst. inversion Hf as [|? ? F1 F2]; subst.
    specialize (IHs _ I2 F2 Hs). cbn [flat_map]. destruct y as [c|n].
    - destruct t as [k|r2 ch2].
      + cbn [yield app begins first_mask]. intros m. cbn [sym_of sym_no] in Hy. rewrite Hy. apply mem_single.
      + exfalso. cbn [sym_of sym_no] in Hy. pose proof (nt_no_pos (lhs r2)). pose proof (tokno_of_range c) as [Hc _]. unfold tokno in Hc. lia.
    - specialize (I1 F1 n Hy). destruct (yield t) as [|x l].
      + cbn [app]. unfold begins in *. destruct (flat_map yield ch) as [|x l]; cbn [forallb first_mask]; rewrite I1; [exact IHs|].
        intros m. rewrite mem_lor, IHs. apply orb_true_r.
      + cbn [app begins first_mask]. intros m. destruct (nullable n); [rewrite mem_lor, I1; reflexivity|exact I1]. }
  specialize (Hgen (rhs r) ch IH Hf Hs). pose proof firsts_checked as HC. rewrite forallb_forall in HC.
  specialize (HC _ (prod_in r Hr)). cbn [fst snd] in HC. apply andb_true_iff in HC as [C1 C2]. cbn [yield].
  destruct (flat_map yield ch) as [|x l]; cbn [begins] in Hgen.
  - rewrite Hgen in C2. exact C2.
  - eapply subset_mem; [exact C1|apply Hgen].
Qed.
Lemma forest_begins syms : forall ch, Forall wf ch -> map sym_of ch = map sym_no syms ->
  forall m k, mem k m = true -> mem (head k (flat_map yield ch)) (first_mask syms m) = true.
Proof.
  induction syms as [|y syms IH]; intros [|t ch] Hf Hs m k Hm; try discriminate Hs; [exact Hm|].
  cbn [map] in Hs. injection Hs as Hy Hs. inversion Hf as [|? ? F1 F2]; subst. cbn [flat_map]. destruct y as [c|n].
  - destruct t as [k'|r2 ch2].
    + cbn [yield app head first_mask]. cbn [sym_of sym_no] in Hy. rewrite Hy. apply mem_single.
    + exfalso. cbn [sym_of sym_no] in Hy. pose proof (nt_no_pos (lhs r2)). pose proof (tokno_of_range c) as [Hc _]. unfold tokno in Hc. lia.
  - pose proof (tree_begins t F1 n Hy) as Hb. cbn [first_mask]. destruct (yield t) as [|x l].
    + cbn [app]. rewrite Hb, mem_lor, IH by assumption. apply orb_true_r.
    + cbn [app head]. destruct (nullable n); [rewrite mem_lor, Hb; reflexivity|exact Hb].
Qed.

(** * Items *)
Definition state_items (s : Z) : list (Z * Z * Z * BinNums.N) := nth (Z.to_nat s) items [].
Definition item_mask (s r d x : Z) : BinNums.N :=
  match find (fun i => let '(r', d', x', _) := i in (r =? r') && (d =? d') && (x =? x')) (state_items s) with
  | Some (_, _, _, m) => m
  | None => 0%N
  end.
Definition item_ok (s : Z) (i : Z * Z * Z * BinNums.N) : bool :=
  let '(r, d, x, m) := i in
  match nth_error (rhs r) (Z.to_nat d) with
  | None => forallb (fun k => if mem k m then match action_of s k with Reduce r' => r' =? r | _ => false end else true) toknos
  | Some (T c) => match action_of s (tokno_of c) with Shift q => subset m (item_mask q r (d + 1) x) | _ => false end
  | Some (N n) =>
    subset m (item_mask (goto s (nt_no n)) r (d + 1) x) &&
    (let y := pass r d x in
     let f := first_mask (skipn (Z.to_nat (d + 1)) (rhs r)) m in
     forallb (fun r' => if nt_no (lhs r') =? nt_no n then subset (N.land f (perm_at r' y)) (item_mask s r' 0 y) else true) prods)
  end.
Lemma items_checked : forallb (fun s => forallb (item_ok s) (state_items s)) states = true.
Proof. vm_compute. reflexivity. Qed.

Definition has (s r d x k : Z) : Prop := mem k (item_mask s r d x) = true.
Lemma has_item s r d x k : has s r d x k -> state s -> exists m, item_ok s (r, d, x, m) = true /\ item_mask s r d x = m /\ mem k m = true.
Proof.
  intros H Hs. unfold has in H. exists (item_mask s r d x). split; [|auto]. unfold item_mask in *.
  destruct (find _ (state_items s)) as [[[[r' d'] x'] m]|] eqn:E; [|discriminate H].
  apply find_some in E as [E1 E2]. rewrite !andb_true_iff, !Z.eqb_eq in E2. destruct E2 as ((-> & ->) & ->).
  pose proof (forall_states _ items_checked s Hs) as HC. cbv beta in HC. rewrite forallb_forall in HC. exact (HC _ E1).
Qed.
Lemma has_reduce s r d x k : has s r d x k -> state s -> tokno k -> nth_error (rhs r) (Z.to_nat d) = None -> action_of s k = Reduce r.
Proof.
  intros H Hs Hk Hn. destruct (has_item _ _ _ _ _ H Hs) as (m & H1 & _ & H2). unfold item_ok in H1. rewrite Hn in H1.
  pose proof (forall_toknos _ H1 k Hk) as H3. cbv beta in H3. rewrite H2 in H3.
  destruct (action_of s k); try discriminate. apply Z.eqb_eq in H3. congruence.
Qed.
Lemma has_shift s r d x k c : has s r d x k -> state s -> nth_error (rhs r) (Z.to_nat d) = Some (T c) ->
  exists q, action_of s (tokno_of c) = Shift q /\ has q r (d + 1) x k.
Proof.
  intros H Hs Hn. destruct (has_item _ _ _ _ _ H Hs) as (m & H1 & _ & H2). unfold item_ok in H1. rewrite Hn in H1.
  destruct (action_of s (tokno_of c)) as [q| | |]; try discriminate. exists q. split; [reflexivity|]. eapply subset_mem; eassumption.
Qed.
Lemma has_goto s r d x k n : has s r d x k -> state s -> nth_error (rhs r) (Z.to_nat d) = Some (N n) ->
  has (goto s (nt_no n)) r (d + 1) x k /\
  forall ch r' , Forall wf ch -> map sym_of ch = map sym_no (skipn (Z.to_nat (d + 1)) (rhs r)) -> tokno (head k (flat_map yield ch)) ->
    prodno r' -> lhs r' = n -> perm r' (pass r d x) (head k (flat_map yield ch)) = true -> has s r' 0 (pass r d x) (head k (flat_map yield ch)).
Proof.
  intros H Hs Hn. destruct (has_item _ _ _ _ _ H Hs) as (m & H1 & _ & H2). unfold item_ok in H1. rewrite Hn in H1.
  apply andb_true_iff in H1 as [H1 H3]. split; [eapply subset_mem; eassumption|]. intros ch r' Hf Hc Hk Hr <- Hp.
  rewrite forallb_forall in H3. specialize (H3 r' (in_seqZ 1 n_prods r' ltac:(unfold prodno in Hr; lia))).
  rewrite Z.eqb_refl in H3. eapply subset_mem; [exact H3|]. rewrite mem_land. apply andb_true_iff. split; [|apply mem_perm_at; assumption].
  apply forest_begins; assumption.
Qed.

(** * Completeness *)
Lemma head_la k l rest : la rest = k -> la (l ++ rest) = head k l.
Proof. intros <-. destruct l; reflexivity. Qed.
Lemma action_shift_state s k q : action_of s k = Shift q -> state q.
Proof.
  unfold action_of. destruct (shift_of s k) as [q'|] eqn:E.
  - intros [= ->]. unfold shift_of in E. destruct (_ <=? _) in E; [discriminate|]. destruct (_ || _) in E; [discriminate|].
    destruct (chk _ =? k) in E; [|discriminate]. injection E as <-. apply act_range.
  - unfold default. intros H. repeat match type of H with context [match ?x with _ => _ end] => destruct x | context [if ?x then _ else _] => destruct x end; discriminate H.
Qed.
Theorem complete_tree t : wf t -> forall x st rest, match t with Leaf _ => False | Node r _ => has (top st) r 0 x (la rest) end ->
  state (top st) -> ok x (la rest) t = true ->
  match t with Leaf _ => False | Node r _ => msteps st (yield t ++ rest) ((goto (top st) (nt_no (lhs r)), t) :: st) rest end.
Proof.
  induction t as [k|r ch IH] using tree_ind2; intros Hw x st rest Hh Hs Ho; [destruct Hh|].
  inversion Hw as [|r0 ch0 Hr Hsy Hf]; subst. rewrite ok_node in Ho. apply andb_true_iff in Ho as [_ Ho].
  assert (Hgen : forall ch d st, Forall (fun t => wf t -> forall x st rest, match t with Leaf _ => False | Node r _ => has (top st) r 0 x (la rest) end ->
        state (top st) -> ok x (la rest) t = true ->
        match t with Leaf _ => False | Node r _ => msteps st (yield t ++ rest) ((goto (top st) (nt_no (lhs r)), t) :: st) rest end) ch ->
      Forall wf ch -> 0 <= d -> map sym_of ch = map sym_no (skipn (Z.to_nat d) (rhs r)) -> oks r x (la rest) d ch = true ->
      state (top st) -> has (top st) r d x (la rest) ->
      exists fs, msteps st (flat_map yield ch ++ rest) (fs ++ st) rest /\ map snd fs = rev ch /\ state (top (fs ++ st)) /\
        has (top (fs ++ st)) r (d + Z.of_nat (length ch)) x (la rest)).
  { clear Hh Ho IH Hsy Hf Hw Hs st ch. induction ch as [|t ch IHc]; intros d st IH Hf Hd Hsy Ho Hs Hh.
    - exists []. rewrite Z.add_0_r. split; [constructor|]. auto.
    - inversion IH as [|? ? I1 I2]; subst. inversion Hf as [|? ? F1 F2]; subst. cbn [oks] in Ho. apply andb_true_iff in Ho as [O1 O2].
      destruct (skipn (Z.to_nat d) (rhs r)) as [|y syms] eqn:Es; [discriminate Hsy|]. cbn [map] in Hsy. injection Hsy as Hy Hsy.
      assert (Hn : nth_error (rhs r) (Z.to_nat d) = Some y /\ skipn (Z.to_nat (d + 1)) (rhs r) = syms).
      { clear -Es Hd. replace (Z.to_nat (d + 1)) with (S (Z.to_nat d)) by lia. revert Es. generalize (Z.to_nat d). generalize (rhs r).
        intros l n. revert l. induction n as [|n IHn]; intros [|z l] E; try discriminate E; cbn in *.
        - injection E as -> ->. auto.
        - apply IHn, E. }
      destruct Hn as [Hn Hsk]. cbn [flat_map]. rewrite <- app_assoc.
      assert (Hstep : exists q, msteps st (yield t ++ flat_map yield ch ++ rest) ((q, t) :: st) (flat_map yield ch ++ rest) /\ state q /\ has q r (d + 1) x (la rest)).
      { destruct y as [c|n].
        - destruct t as [k|r2 ch2]; [|exfalso; cbn [sym_of sym_no] in Hy; pose proof (nt_no_pos (lhs r2)); pose proof (tokno_of_range c) as [Hc _]; unfold tokno in Hc; lia].
          cbn [sym_of sym_no] in Hy. destruct (has_shift _ _ _ _ _ _ Hh Hs Hn) as (q & Q1 & Q2). exists q.
          split; [|split; [exact (action_shift_state _ _ _ Q1)|exact Q2]].
          apply ms_step with (st1 := (q, Leaf k) :: st) (inp1 := flat_map yield ch ++ rest); [|constructor].
          cbn [yield app]. unfold mstep. cbn [la]. rewrite Hy, Q1. reflexivity.
        - destruct (has_goto _ _ _ _ _ _ Hh Hs Hn) as [G1 G2]. destruct t as [k|r2 ch2]; [exfalso|].
          { cbn [sym_of sym_no] in Hy. pose proof (nt_no_pos n). pose proof (tokno_of_range (kind_of k)) as [Hc _]. unfold tokno in Hc. lia. }
          cbn [sym_of sym_no] in Hy. assert (En : lhs r2 = n) by (apply nt_no_inj; lia). inversion F1 as [|r3 ch3 Hr2 _ _]; subst.
          exists (goto (top st) (nt_no (lhs r2))). split; [|split; [apply goto_range|exact G1]].
          apply (I1 F1 (pass r d x) st (flat_map yield ch ++ rest)); [|exact Hs|].
          + rewrite (head_la (la rest)) by reflexivity. apply G2; auto.
            * rewrite <- (head_la (la rest) _ rest eq_refl). apply la_tokno.
            * rewrite ok_node in O1. apply andb_true_iff in O1 as [O1 _]. exact O1.
          + rewrite (head_la (la rest)) by reflexivity. exact O1. }
      destruct Hstep as (q & Q1 & Q2 & Q3).
      destruct (IHc (d + 1) ((q, t) :: st) I2 F2 ltac:(lia)) as (fs & M1 & M2 & M3 & M4); try assumption; [rewrite Hsk; exact Hsy|].
      exists (fs ++ [(q, t)]). rewrite <- app_assoc. cbn [app]. split; [eapply msteps_trans; eassumption|].
      split; [rewrite map_app, M2; reflexivity|]. split; [exact M3|].
      replace (d + Z.of_nat (length (t :: ch))) with (d + 1 + Z.of_nat (length ch)) by (cbn [length]; lia). exact M4. }
  destruct (Hgen ch 0 st IH Hf ltac:(lia) Hsy Ho Hs Hh) as (fs & M1 & M2 & M3 & M4).
  eapply msteps_trans; [exact M1|]. eapply ms_step; [|constructor].
  assert (Hl : length ch = length (rhs r)).
  { apply (f_equal (@length Z)) in Hsy. cbn [Z.to_nat skipn] in Hsy. rewrite !map_length in Hsy. exact Hsy. }
  assert (Hfl : length (rhs r) = length fs).
  { rewrite <- Hl. apply (f_equal (@length tree)) in M2. rewrite map_length, rev_length in M2. congruence. }
  assert (Ha : action_of (top (fs ++ st)) (la rest) = Reduce r).
  { apply (has_reduce _ _ _ _ _ M4 M3 (la_tokno rest)). apply nth_error_None. lia. }
  unfold mstep. rewrite Ha, Hfl.
  rewrite skipn_app, Nat.sub_diag, skipn_all, firstn_app, Nat.sub_diag, firstn_all. cbn [skipn firstn app]. rewrite app_nil_r, M2, rev_involutive. reflexivity.
Qed.

Lemma start_items : forallb (fun r => if nt_no (lhs r) =? nt_no n_module then mem 1 (item_mask 0 r 0 0) else true) prods = true.
Proof. vm_compute. reflexivity. Qed.
Theorem complete t : wf t -> sym_of t = - nt_no n_module -> ok 0 1 t = true -> maccepts (yield t) t.
Proof.
  intros Hw Hs Ho. destruct (sym_nt _ n_module Hw Hs) as (r & ch & -> & Hl & Hr).
  pose proof start_items as HS. rewrite forallb_forall in HS. specialize (HS r (in_seqZ 1 n_prods r ltac:(unfold prodno in Hr; lia))).
  cbv beta in HS. rewrite Hl, Z.eqb_refl in HS.
  pose proof (complete_tree (Node r ch) Hw 0 [] []) as H. cbn [top la] in H. specialize (H HS ltac:(unfold state, n_states; lia) Ho).
  rewrite app_nil_r in H. eexists. eexists. split; [exact H|]. rewrite Hl. reflexivity.
Qed.
