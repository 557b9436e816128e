(** Trees that respect the operator levels meet the conditions of Complete.v. *)
From Verif Require Import Bytes Utf8 Float64 GoTime Ast Lexer LexFacts LexSpec LexProofs Tables Parser Grammar Tok CertData Cert Driver DriverInv Trees Machine Bind Items Complete.

(** * Trees respecting the levels *)
Lemma t_left_0 t : t_left 0 t = true.
Proof.
  induction t as [k|r [|l ch] IH] using tree_ind2; try reflexivity. inversion IH; subst. cbn [t_left]. destruct (is_bin r) eqn:E; [|reflexivity].
  destruct (bin_rhs r E) as (c & _). rewrite H1, andb_true_r. unfold is_bin in E.
  assert (F : forallb (fun r => 0 <? lev r) bins = true) by reflexivity. rewrite forallb_forall in F. apply F, in_seqZ. lia.
Qed.
Lemma t_right_0 t : t_right 0 t = true.
Proof.
  induction t as [k|r ch IH] using tree_ind2; [reflexivity|]. destruct ch as [|a [|b [|c [|d ch]]]]; try reflexivity; cbn [t_right].
  - inversion IH; subst. destruct (r =? 64); auto.
  - inversion IH as [|? ? _ IH2]; subst. inversion IH2; subst. destruct (r =? 79); auto. destruct (_ || _); auto.
  - inversion IH as [|? ? _ IH2]; subst. inversion IH2 as [|? ? _ IH3]; subst. inversion IH3 as [|? ? H0 _]; subst. rewrite H0. destruct (is_bin r) eqn:E; [|destruct (r =? 99); auto].
    rewrite andb_true_r. unfold is_bin in E.
    assert (F : forallb (fun r => 0 <=? lev r) bins = true) by reflexivity. rewrite forallb_forall in F. apply F, in_seqZ. lia.
Qed.
Definition nt_in (n : nonterm) (l : list nonterm) : bool := existsb (fun m => nt_no n =? nt_no m) l.
(** The nonterminals with operators along their edges, and the others that can end with an expression. *)
Definition spine (n : nonterm) : bool := nt_in n [n_expr; n_simple_expr; n_declarations_method_param].
Definition ends_expr (n : nonterm) : bool :=
  nt_in n [n_module; n_body; n_opt_body; n_stmt; n_opt_stmt; n_opt_expr; n_exprs; n_opt_elseif_list; n_opt_else; n_declarations_method_params].
Definition special (r d : Z) : bool :=
  (is_bin r && negb (d =? 1)) || ((r =? 79) && (d =? 1)) || ((r =? 90) && (d =? 1)) || ((r =? 91) && (d =? 1)) || (r =? 64) || ((r =? 99) && negb (d =? 1)) || (r =? 45).
Definition pos_ok (r d : Z) : bool :=
  match nth_error (rhs r) (Z.to_nat d) with
  | Some (N n) =>
    if special r d then true
    else if spine n || ends_expr n then
      let rest := skipn (Z.to_nat (d + 1)) (rhs r) in
      forallb (fun k => negb (mem k (first_mask rest 0)) || (ptok k =? 0)) toknos &&
      (negb (forallb (fun x => match x with T _ => false | N n => nullable n end) rest) || (ends_expr (lhs r) && negb (spine (lhs r)))) &&
      ((r =? 79) || (pass r d 0 =? 0))
    else true
  | _ => true
  end.
Lemma positions_checked : forallb (fun r => forallb (pos_ok r) (seqZ 0 12)) prods = true.
Proof. vm_compute. reflexivity. Qed.
Lemma rhs_short : forallb (fun r => Z.of_nat (length (rhs r)) <=? 12) prods = true.
Proof. vm_compute. reflexivity. Qed.
Lemma ptok_end : ptok 1 = 0. Proof. vm_compute. reflexivity. Qed.
Lemma ptok_eq : ptok k_eq = 7. Proof. vm_compute. reflexivity. Qed.
Lemma lev_range r : is_bin r = true -> 1 <= lev r <= 10.
Proof.
  intros E. unfold is_bin in E. assert (F : forallb (fun r => (1 <=? lev r) && (lev r <=? 10)) bins = true) by reflexivity.
  rewrite forallb_forall in F. specialize (F r (in_seqZ 66 13 r ltac:(lia))). lia.
Qed.

Definition req (t : tree) (x k : Z) : Prop :=
  match t with
  | Leaf _ => True
  | Node r _ =>
    if spine (lhs r) then t_left (lev_of x) t = true /\ (x = 12 -> t_noassign t = true /\ (is_path t = true -> k <> k_eq)) /\ t_right (ptok k) t = true
    else ends_expr (lhs r) = true -> ptok k = 0
  end.
Lemma req_0 t k : ptok k = 0 -> req t 0 k.
Proof.
  intros H. destruct t as [|r ch]; [exact I|]. unfold req. destruct (spine (lhs r)); [|auto]. rewrite H.
  split; [apply t_left_0|]. split; [discriminate|apply t_right_0].
Qed.
Lemma forest_nullable syms : forall ch, Forall wf ch -> map sym_of ch = map sym_no syms -> flat_map yield ch = [] ->
  forallb (fun x => match x with T _ => false | N n => nullable n end) syms = true.
Proof.
  induction syms as [|y syms IH]; intros [|t ch] Hf Hs He; try discriminate Hs; [reflexivity|].
  cbn [map] in Hs. injection Hs as Hy Hs. inversion Hf as [|? ? F1 F2]; subst. cbn [flat_map] in He. apply app_eq_nil in He as [He1 He2].
  cbn [forallb]. rewrite (IH ch F2 Hs He2), andb_true_r. destruct y as [c|n].
  - exfalso. destruct t as [k|r2 ch2]; [discriminate He1|]. cbn [sym_of sym_no] in Hy. pose proof (nt_no_pos (lhs r2)). pose proof (tokno_of_range c) as [Hc _]. unfold tokno in Hc. lia.
  - pose proof (tree_begins t F1 n Hy) as Hb. rewrite He1 in Hb. exact Hb.
Qed.
Lemma spine_lhs r : is_bin r = true \/ r = 79 \/ r = 90 \/ r = 91 \/ r = 64 \/ r = 99 \/ r = 83 -> spine (lhs r) = true.
Proof.
  intros [H|H]; [destruct (bin_rhs r H) as (c & _ & -> & _); reflexivity|]. repeat destruct H as [->|H]; subst; reflexivity.
Qed.
(** What a forest begins with. *)
Lemma forest_begin syms : forall ch, Forall wf ch -> map sym_of ch = map sym_no syms -> begins syms (flat_map yield ch).
Proof.
  induction syms as [|y syms IHs]; intros [|t ch] Hf Hs; try discriminate Hs; [reflexivity|].
  cbn [map] in Hs. injection Hs as Hy Hs. inversion Hf as [|? ? F1 F2]; subst. specialize (IHs _ F2 Hs). cbn [flat_map]. destruct y as [c|n].
  - destruct t as [k|r2 ch2].
    + cbn [yield app begins first_mask]. intros m. cbn [sym_of sym_no] in Hy. rewrite Hy. apply mem_single.
    + exfalso. cbn [sym_of sym_no] in Hy. pose proof (nt_no_pos (lhs r2)). pose proof (tokno_of_range c) as [Hc _]. unfold tokno in Hc. lia.
  - pose proof (tree_begins t F1 n Hy) as I1. destruct (yield t) as [|x l].
    + cbn [app]. unfold begins in *. destruct (flat_map yield ch) as [|x l]; cbn [forallb first_mask]; rewrite I1; [exact IHs|].
      intros m. rewrite mem_lor, IHs. apply orb_true_r.
    + cbn [app begins first_mask]. intros m. destruct (nullable n); [rewrite mem_lor, I1; reflexivity|exact I1].
Qed.
Lemma no_spine t n : wf t -> sym_of t = - nt_no n -> spine n = false -> ends_expr n = false -> forall x k, req t x k.
Proof.
  intros Hw Hs H1 H2 x k. destruct (sym_nt _ n Hw Hs) as (r & ch & -> & <- & _). unfold req. rewrite H1. congruence.
Qed.

Lemma req_spine t n x k : wf t -> sym_of t = - nt_no n -> spine n = true -> t_left (lev_of x) t = true ->
  (x = 12 -> t_noassign t = true /\ (is_path t = true -> k <> k_eq)) -> t_right (ptok k) t = true -> req t x k.
Proof.
  intros Hw Hs Hn H1 H2 H3. destruct (sym_nt _ n Hw Hs) as (r & ch & -> & <- & _). unfold req. rewrite Hn. auto.
Qed.

Theorem tight_ok t : wf t -> tight t = true -> forall x k, tokno k -> req t x k -> ok x k t = true.
Proof.
  induction t as [tk|r ch IH] using tree_ind2; intros Hw Ht x k Hk Hq; [reflexivity|].
  inversion Hw as [|r0 ch0 Hr Hsy Hf]; subst. cbn [tight] in Ht. apply andb_true_iff in Ht as [Hlo Ht].
  rewrite ok_node. apply andb_true_iff. split.
  { unfold perm. destruct (is_bin r) eqn:Eb.
    - destruct (bin_rhs r Eb) as (c & Er & _). unfold req in Hq. rewrite spine_lhs in Hq by auto. destruct Hq as (Q1 & _ & Q3).
      apply (f_equal (@length Z)) in Hsy as Hl. rewrite Er, !map_length in Hl. destruct ch as [|a [|b [|e [|? ?]]]]; try discriminate Hl.
      cbn [t_left t_right] in Q1, Q3. rewrite Eb in Q1, Q3. apply andb_true_iff in Q1 as [Q1 _], Q3 as [Q3 _]. rewrite Q1, Q3. reflexivity.
    - destruct (r =? 79) eqn:E79.
      + apply Z.eqb_eq in E79. subst r. unfold req in Hq. rewrite spine_lhs in Hq by auto. destruct Hq as (_ & _ & Q3).
        apply (f_equal (@length Z)) in Hsy as Hl. rewrite !map_length in Hl. cbn in Hl. destruct ch as [|a [|b [|? ?]]]; try discriminate Hl.
        cbn [t_right] in Q3. apply andb_true_iff in Q3 as [Q3 _]. exact Q3.
      + destruct (r =? 83) eqn:E83; [|reflexivity]. apply Z.eqb_eq in E83. subst r. unfold req in Hq. rewrite spine_lhs in Hq by auto 10.
        destruct Hq as (_ & Q2 & _). destruct (x =? 12) eqn:Ex; [|reflexivity]. apply Z.eqb_eq in Ex. destruct (Q2 Ex) as [_ Q]. cbn [is_path] in Q.
        destruct (k =? k_eq) eqn:Ek; [|reflexivity]. apply Z.eqb_eq in Ek. destruct (Q eq_refl Ek). }
  assert (Hq' : spine (lhs r) = false -> ends_expr (lhs r) = true -> ptok k = 0) by (unfold req in Hq; intros E; rewrite E in Hq; exact Hq).
  assert (Hgen : forall c d ch, Forall (fun t => wf t -> tight t = true -> forall x k, tokno k -> req t x k -> ok x k t = true) (c :: ch) -> Forall wf (c :: ch) ->
    forallb tight (c :: ch) = true -> map sym_of (c :: ch) = map sym_no (skipn (Z.to_nat d) (rhs r)) -> 0 <= d ->
    special r d = false -> req c (pass r d x) (head k (flat_map yield ch))).
  { clear Hq IH Hf Ht Hsy Hlo Hw ch. intros c d ch IH Hf Ht Hsy Hd Hsp.
    destruct (skipn (Z.to_nat d) (rhs r)) as [|y syms] eqn:Es; [discriminate Hsy|]. cbn [map] in Hsy. injection Hsy as Hy Hsy.
    assert (Hn : nth_error (rhs r) (Z.to_nat d) = Some y /\ skipn (Z.to_nat (d + 1)) (rhs r) = syms /\ (Z.to_nat d < length (rhs r))%nat).
    { clear -Es Hd. replace (Z.to_nat (d + 1)) with (S (Z.to_nat d)) by lia. revert Es. generalize (Z.to_nat d). generalize (rhs r).
      intros l n. revert l. induction n as [|n IHn]; intros [|z l] E; try discriminate E; cbn in *.
      - injection E as -> ->. repeat split; lia.
      - apply IHn in E. intuition lia. }
    destruct Hn as (Hn & Hsk & Hlen). inversion Hf as [|? ? F1 F2]; subst.
    pose proof positions_checked as HP. rewrite forallb_forall in HP. assert (Hin : In r prods) by (apply in_seqZ; unfold prodno, n_prods in *; lia).
    pose proof rhs_short as HL. rewrite forallb_forall in HL. specialize (HL r Hin). cbv beta in HL.
    specialize (HP r Hin). rewrite forallb_forall in HP. specialize (HP d (in_seqZ 0 12 d ltac:(lia))).
    unfold pos_ok in HP. rewrite Hn, Hsp in HP. destruct y as [c'|n].
    { destruct c as [|r2 ch2]; [exact I|]. exfalso. cbn [sym_of sym_no] in Hy. pose proof (nt_no_pos (lhs r2)). pose proof (tokno_of_range c') as [Hc _]. unfold tokno in Hc. lia. }
    destruct (spine n || ends_expr n) eqn:En.
    2: { apply orb_false_iff in En as [E1 E2]. eapply no_spine; eauto. }
    cbv zeta in HP. rewrite !andb_true_iff in HP. destruct HP as ((P1 & P2) & P3).
    assert (Hpass : pass r d x = 0).
    { destruct (is_bin r) eqn:Eb.
      - unfold special in Hsp. rewrite Eb in Hsp. unfold pass. rewrite Eb. destruct (d =? 1) eqn:E1; [|discriminate Hsp].
        apply Z.eqb_eq in E1. subst d. reflexivity.
      - destruct (r =? 79) eqn:E7.
        + exfalso. apply Z.eqb_eq in E7. subst r. assert (d = 0 \/ d = 1) as [->| ->] by (change (length (rhs 79)) with 2%nat in Hlen; lia); [discriminate Hn|discriminate Hsp].
        + cbn [orb] in P3. apply Z.eqb_eq in P3. unfold pass in *. rewrite Eb, E7 in *. exact P3. }
    rewrite Hpass. apply req_0. destruct (flat_map yield ch) as [|z l] eqn:Ey.
    - cbn [head]. rewrite (forest_nullable _ ch F2 Hsy Ey) in P2. cbn [negb orb] in P2. apply andb_true_iff in P2 as [P2 P4].
      apply Hq'; [|exact P2]. destruct (spine (lhs r)); [discriminate P4|reflexivity].
    - rewrite <- Ey. assert (Hb : mem (head k (flat_map yield ch)) (first_mask (skipn (Z.to_nat (d + 1)) (rhs r)) 0) = true \/ flat_map yield ch = []).
      { left. rewrite Ey. cbn [head].
        pose proof (forest_begin _ ch F2 Hsy) as HB2. rewrite Ey in HB2. apply HB2. }
      rewrite Ey in Hb. destruct Hb as [Hb|Hb]; [|discriminate Hb]. cbn [head] in *.
      pose proof (forall_toknos _ P1 _ (proj1 (tokno_of_range (kind_of z)))) as P5. cbv beta in P5. rewrite Ey in *. cbn [head]. rewrite Hb in P5. cbn [negb orb] in P5. lia. }
  assert (Hhead : forall ch, tokno (head k (flat_map yield ch))).
  { intros ch'. destruct (flat_map yield ch'); [exact Hk|apply tokno_of_range]. }
  assert (Hsuf : forall ch d, Forall (fun t => wf t -> tight t = true -> forall x k, tokno k -> req t x k -> ok x k t = true) ch -> Forall wf ch ->
    forallb tight ch = true -> map sym_of ch = map sym_no (skipn (Z.to_nat d) (rhs r)) -> 0 <= d ->
    (forall c e ch1 ch2, ch = ch1 ++ c :: ch2 -> e = d + Z.of_nat (length ch1) -> special r e = true -> req c (pass r e x) (head k (flat_map yield ch2))) ->
    oks r x k d ch = true).
  { clear Hq IH Hf Ht Hsy Hlo Hw ch. induction ch as [|c ch IHc]; intros d IH Hf Ht Hsy Hd Hsp; [reflexivity|].
    cbn [oks]. apply andb_true_iff. split.
    - pose proof (Forall_inv IH) as I1. apply I1; [exact (Forall_inv Hf)|cbn [forallb] in Ht; apply andb_true_iff in Ht; tauto|apply Hhead|].
      destruct (special r d) eqn:E; [apply (Hsp c d [] ch eq_refl); [cbn; lia|exact E]|apply Hgen; assumption].
    - apply IHc; [exact (Forall_inv_tail IH)|exact (Forall_inv_tail Hf)|cbn [forallb] in Ht; apply andb_true_iff in Ht; tauto| |lia|].
      + replace (Z.to_nat (d + 1)) with (S (Z.to_nat d)) by lia. clear -Hsy. revert Hsy. generalize (Z.to_nat d), (rhs r). intros n l. revert l.
        induction n as [|n IHn]; intros [|z l] E; cbn [skipn] in *; try discriminate E.
        * cbn [map] in E. injection E as _ E. exact E.
        * exact (IHn _ E).
      + intros c' e ch1 ch2 -> -> He. apply (Hsp c' _ (c :: ch1) ch2 eq_refl); [cbn [length]; lia|exact He]. }
  apply Hsuf; auto; [lia|]. clear Hsuf Hgen. intros c e ch1 ch2 -> -> He.
  assert (Hl : length (ch1 ++ c :: ch2) = length (rhs r)).
  { apply (f_equal (@length Z)) in Hsy. rewrite !map_length in Hsy. exact Hsy. }
  unfold special in He. rewrite Z.add_0_l in *. destruct (is_bin r) eqn:Eb.
  - destruct (bin_rhs r Eb) as (c0 & Er & El & Eo & Ep & Eq). rewrite Er in *.
    unfold req in Hq. rewrite spine_lhs in Hq by auto. destruct Hq as (Q1 & Q2 & Q3). pose proof (lev_range r Eb) as Hv.
    destruct ch1 as [|a [|b [|b' ch1]]]; cbn [app length map] in *.
    + destruct ch2 as [|b [|e [|? ?]]]; try discriminate Hl. cbn [map] in Hsy. injection Hsy as S1 S2 S3.
      destruct b as [kb|rb cb]; [|exfalso; cbn [sym_of sym_no] in S2; pose proof (nt_no_pos (lhs rb)); pose proof (tokno_of_range c0) as [Hc _]; unfold tokno in Hc; lia].
      cbn [sym_of sym_no] in S2. cbn [flat_map yield app head]. rewrite S2, <- Eo. unfold pass. rewrite Eb. cbn [Z.of_nat Z.eqb].
      inversion Hf as [|? ? F1 _]; subst. destruct (sym_nt _ n_expr F1 S1) as (r2 & c2 & -> & Hl2 & _).
      unfold req. rewrite Hl2. change (spine n_expr) with true. cbn iota. rewrite Ep.
      cbn [t_left t_local t_noassign] in *. rewrite Eb in *. apply andb_true_iff in Q1 as [_ Q1], Hlo as [Hlo _].
      split; [exact Q1|]. split; [|exact Hlo]. intros Hx. destruct (Q2 Hx) as [Q2a Q2b]. apply andb_true_iff in Q2a as [Q2a Q2c].
      split; [exact Q2c|]. intros Hp Hk2. apply Eq in Hk2. subst r. rewrite Hp in Q2a. discriminate Q2a.
    + cbn in He. exfalso. destruct ((r =? 79) || (r =? 90) || (r =? 91) || (r =? 64) || (r =? 99) || (r =? 45)) eqn:E6; [unfold is_bin in Eb; lia|].
      rewrite !orb_false_iff in E6. destruct E6 as (((((E1 & E2) & E3) & E4) & E5) & E6). rewrite E1, E2, E3, E4, E5, E6 in He. discriminate He.
    + destruct ch2 as [|? ?]; [|discriminate Hl]. cbn [map] in Hsy. injection Hsy as S1 S2 S3. cbn [flat_map head length].
      unfold pass. rewrite Eb. cbn [Z.of_nat Z.eqb Pos.of_succ_nat Pos.succ Pos.eqb].
      inversion Hf as [|? ? _ F2]; subst. inversion F2 as [|? ? _ F3]; subst. inversion F3 as [|? ? F4 _]; subst.
      destruct (sym_nt _ n_expr F4 S3) as (r2 & c2 & -> & Hl2 & _). unfold req. rewrite Hl2. change (spine n_expr) with true. cbn iota.
      cbn [t_right t_local] in *. rewrite Eb in *. apply andb_true_iff in Q3 as [_ Q3], Hlo as [_ Hlo].
      split; [|split; [lia|exact Q3]]. unfold lev_of. replace (lev r =? 12) with false by lia. exact Hlo.
    + exfalso. destruct ch1; discriminate Hl.
  - cbn [andb orb] in He. rewrite !orb_true_iff, !andb_true_iff, negb_true_iff, !Z.eqb_eq, Z.eqb_neq in He.
    destruct He as [[[[[[E E1]|[E E1]]|[E E1]]|E]|[E E1]]|E]; subst r.
    + (* 79 *) destruct ch1 as [|a [|? ?]]; cbn [length] in E1; try lia. cbn [app] in *. destruct ch2; [|discriminate Hl].
      unfold req in Hq. rewrite spine_lhs in Hq by auto. destruct Hq as (_ & _ & Q3). cbn [t_right] in Q3. apply andb_true_iff in Q3 as [_ Q3].
      apply (req_spine _ n_expr); auto; [exact (Forall_inv (Forall_inv_tail Hf))|cbn [map] in Hsy; injection Hsy as _ S; exact S| discriminate].
    + (* 90 *) destruct ch1 as [|a [|? ?]]; cbn [length] in E1; try lia. cbn [app] in *. destruct ch2; [|discriminate Hl].
      unfold req in Hq. rewrite spine_lhs in Hq by auto. destruct Hq as (_ & _ & Q3). cbn [t_right] in Q3. apply andb_true_iff in Q3 as [_ Q3].
      apply (req_spine _ n_expr); auto; [exact (Forall_inv (Forall_inv_tail Hf))|cbn [map] in Hsy; injection Hsy as _ S; exact S| discriminate].
    + (* 91 *) destruct ch1 as [|a [|? ?]]; cbn [length] in E1; try lia. cbn [app] in *. destruct ch2; [|discriminate Hl].
      unfold req in Hq. rewrite spine_lhs in Hq by auto. destruct Hq as (_ & _ & Q3). cbn [t_right] in Q3. apply andb_true_iff in Q3 as [_ Q3].
      apply (req_spine _ n_expr); auto; [exact (Forall_inv (Forall_inv_tail Hf))|cbn [map] in Hsy; injection Hsy as _ S; exact S| discriminate].
    + (* 64 *) destruct ch1 as [|a ch1]; [|destruct ch1; discriminate Hl]. cbn [app] in *. destruct ch2; [|discriminate Hl].
      unfold req in Hq. rewrite spine_lhs in Hq by auto 10. destruct Hq as (_ & _ & Q3). cbn [t_right] in Q3.
      apply (req_spine _ n_simple_expr); auto; [exact (Forall_inv Hf)|cbn [map] in Hsy; injection Hsy as S; exact S|apply t_left_0|discriminate].
    + (* 99 *) unfold req in Hq. rewrite spine_lhs in Hq by auto 10. destruct Hq as (_ & _ & Q3).
      destruct ch1 as [|a [|b [|? ch1]]]; cbn [length app] in *; try lia.
      * destruct ch2 as [|b [|e [|? ?]]]; try discriminate Hl. cbn [map] in Hsy. injection Hsy as S1 S2 S3.
        destruct b as [kb|rb cb]; [|exfalso; cbn [sym_of sym_no] in S2; pose proof (nt_no_pos (lhs rb)); pose proof (tokno_of_range tEQUAL) as [Hc _]; unfold tokno in Hc; lia].
        cbn [sym_of sym_no] in S2. cbn [flat_map yield app head]. rewrite S2.
        apply (req_spine _ n_declarations_method_param); auto; try solve [exact (Forall_inv Hf)|apply t_left_0|discriminate].
      * destruct ch2 as [|? ?]; [|discriminate Hl]. cbn [map] in Hsy. injection Hsy as S1 S2 S3.
        apply (req_spine _ n_simple_expr); auto; solve [exact (Forall_inv (Forall_inv_tail (Forall_inv_tail Hf)))|apply t_left_0|discriminate].
      * destruct ch1; discriminate Hl.
    + (* 45 *) destruct ch1 as [|a ch1]; [|destruct ch1; discriminate Hl]. cbn [app] in *. destruct ch2; [|discriminate Hl].
      specialize (Hq' eq_refl eq_refl).
      apply (req_spine _ n_expr); auto; [exact (Forall_inv Hf)|cbn [map] in Hsy; injection Hsy as S; exact S|apply t_left_0| |cbn [flat_map head]; rewrite Hq'; apply t_right_0].
      intros _. split; [exact Hlo|]. cbn [flat_map head]. intros _ E. rewrite E, ptok_eq in Hq'. discriminate Hq'.
Qed.

Corollary tight_accepted t : wf t -> sym_of t = - nt_no n_module -> tight t = true -> maccepts (yield t) t.
Proof.
  intros Hw Hs Ht. apply complete; [exact Hw|exact Hs|]. apply tight_ok; auto; [unfold tokno, n_tokens; lia|].
  destruct (sym_nt _ n_module Hw Hs) as (r & ch & -> & Hl & _). unfold req. rewrite Hl. intros _. apply ptok_end.
Qed.

(** * Tokens read and trees built *)
Lemma mstep_yield st inp st' inp' : mwf st -> mstep st inp = MNext st' inp' ->
  flat_map yield (map snd (rev st')) ++ inp' = flat_map yield (map snd (rev st)) ++ inp.
Proof.
  intros Hw H. pose proof (mwf_state _ Hw) as Hs. unfold mstep in H. destruct (action_of (top st) (la inp)) as [q|r| |] eqn:E; try discriminate H.
  - destruct inp as [|x inp]; [discriminate H|]. injection H as <- <-. cbn [rev]. rewrite map_app, flat_map_app. cbn [map flat_map snd yield]. rewrite app_nil_r, <- app_assoc. reflexivity.
  - pose proof (reduce_split st r Hw (action_reduce _ _ _ Hs (la_tokno inp) E)) as R. cbv zeta in R. destruct R as (R1 & _).
    injection H as <- <-. cbn [rev]. rewrite map_app, flat_map_app. cbn [map flat_map snd yield]. rewrite app_nil_r.
    rewrite <- (firstn_skipn (length (rhs r)) st) at 3. rewrite rev_app_distr, map_app, flat_map_app, !map_rev. reflexivity.
  - destruct st as [|[s t] [|? ?]]; discriminate H.
Qed.
Lemma msteps_mwf st inp st' inp' : msteps st inp st' inp' -> Forall tk_wf inp -> mwf st -> mwf st' /\ Forall tk_wf inp' /\
  flat_map yield (map snd (rev st')) ++ inp' = flat_map yield (map snd (rev st)) ++ inp.
Proof.
  induction 1 as [|st inp st1 inp1 st2 inp2 E H IH]; intros Hi Hw; [auto|].
  destruct (mwf_step _ _ _ _ Hw Hi E) as [W1 W2]. destruct (IH W2 W1) as (A & B & C). split; [exact A|]. split; [exact B|].
  rewrite C. apply mstep_yield; assumption.
Qed.
Lemma lexes_wf code t raw : (tk_off t <= length code)%nat -> lexes code t raw -> Forall tk_wf (tks raw).
Proof.
  intros Ho H. induction H as [t t' E|t k t' l E Hk H IH]; [constructor|].
  assert (Hne : code <> []).
  { intros ->. unfold Next in E. cbn in Ho. replace (tk_off t) with 0%nat in E by lia. destruct (tk_prevDot t); vm_compute in E; injection E as E _; subst k; apply Hk; reflexivity. }
  destruct (Lex (NewAST code) t) as [[c t2] a2] eqn:EL.
  destruct (Lex_spec (NewAST code) t c t2 a2 Ho EL) as (_ & L2 & L3). cbn [NewAST a_code] in L3.
  destruct L3 as [(L3 & L4 & L5 & _)|[(_ & _ & [[L5 _]|[L5 _]])|(_ & _ & k2 & e & L5 & _)]]; [|congruence|rewrite E in L5; congruence|rewrite E in L5; congruence].
  rewrite E in L5. injection L5 as -> ->. constructor; [apply (payload_kinds c t2 L3 L4)|]. apply IH. apply L2.
Qed.
Lemma tokens_wf code inp : tokens code inp -> Forall tk_wf inp.
Proof. intros (raw & H & ->). apply (lexes_wf code zero_token raw); [cbn; lia|exact H]. Qed.
Lemma end_token : forallb (fun c => negb (tokno_of c =? 1)) kinds = true. Proof. vm_compute. reflexivity. Qed.
Lemma accept_1 : forallb (fun s => forallb (fun k => match action_of s k with Accept => k =? 1 | _ => true end) toknos) states = true.
Proof. vm_compute. reflexivity. Qed.
Lemma mwf_nil : mwf [].
Proof. split; [apply path_0|constructor]. Qed.
Theorem maccepts_yield inp t : Forall tk_wf inp -> maccepts inp t -> yield t = inp.
Proof.
  intros Hi (st' & inp' & H & E). destruct (msteps_mwf _ _ _ _ H Hi mwf_nil) as (W & Wi & Y).
  unfold mstep in E. destruct (action_of (top st') (la inp')) eqn:Ea; try discriminate E; [destruct inp'; discriminate E|].
  pose proof (forall_toknos _ (forall_states _ accept_1 _ (mwf_state _ W)) _ (la_tokno inp')) as H1. cbv beta in H1. rewrite Ea in H1.
  destruct inp' as [|x inp'].
  - destruct st' as [|[s u] [|? ?]]; try discriminate E. injection E as ->. cbn in Y. rewrite !app_nil_r in Y. exact Y.
  - exfalso. pose proof (Forall_inv Wi) as [Wx _]. pose proof end_token as ET. rewrite forallb_forall in ET. specialize (ET _ Wx). cbn [la] in H1. lia.
Qed.
