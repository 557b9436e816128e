(** Whatever the machine has read can be continued to a complete text: the LR(0) items
    of ViableData.v, checked by computation, name the continuation. *)
From Verif Require Import Bytes Utf8 Float64 GoTime Ast Lexer LexFacts LexSpec LexProofs Tables Parser Grammar Tok CertData Cert Driver DriverInv Trees Machine
  Levels Bind Items Complete ViableData.
Open Scope Z_scope.

(** * Short words *)
Definition is_sign (c : Z) : bool := (c =? 43) || (c =? 45).
Definition best (n : nonterm) : Z := nonterm_at shortest n 0.
Fixpoint word_of (f : nat) (n : nonterm) : list Z :=
  match f with
  | O => []
  | S f => flat_map (fun x => match x with T c => [c] | N m => word_of f m end) (rhs (best n))
  end.
(** [word_ok f n]: the word is complete and has no sign. *)
Fixpoint word_ok (f : nat) (n : nonterm) : bool :=
  match f with
  | O => false
  | S f => (1 <=? best n) && (best n <=? n_prods) && (nt_no (lhs (best n)) =? nt_no n) &&
      forallb (fun x => match x with T c => negb (is_sign c) | N m => word_ok f m end) (rhs (best n))
  end.
Definition unsigned_word (w : list Z) : Prop := forallb (fun c => negb (is_sign c)) w = true.
Lemma unsigned_app u v : unsigned_word u -> unsigned_word v -> unsigned_word (u ++ v).
Proof. unfold unsigned_word. intros H1 H2. rewrite forallb_app, H1, H2. reflexivity. Qed.
Lemma word_sound f : forall n, word_ok f n = true -> derives n (word_of f n) /\ unsigned_word (word_of f n).
Proof.
  induction f as [|f IH]; intros n H; [discriminate H|]. cbn [word_ok word_of] in *.
  rewrite !andb_true_iff in H. destruct H as (((H1 & H2) & H3) & H4).
  assert (Hp : prodno (best n)) by (unfold prodno; lia).
  assert (En : lhs (best n) = n) by (apply nt_no_inj; lia).
  assert (G : derives_all (rhs (best n)) (flat_map (fun x => match x with T c => [c] | N m => word_of f m end) (rhs (best n))) /\
              unsigned_word (flat_map (fun x => match x with T c => [c] | N m => word_of f m end) (rhs (best n)))).
  { induction (rhs (best n)) as [|x l IHl]; [split; [constructor|reflexivity]|]. cbn [forallb flat_map] in *.
    apply andb_true_iff in H4 as [H4 H5]. destruct (IHl H5) as [G1 G2]. destruct x as [c|m].
    - split; [cbn [app]; constructor; exact G1|]. apply unsigned_app; [|exact G2]. unfold unsigned_word. cbn. rewrite H4. reflexivity.
    - destruct (IH m H4) as [K1 K2]. split; [constructor; assumption|apply unsigned_app; assumption]. }
  destruct G as [G1 G2]. split; [|exact G2]. apply dv_prod with (rhs (best n)); [|exact G1].
  pose proof (prod_in _ Hp) as Hi. rewrite En in Hi. exact Hi.
Qed.
Lemma words_checked : forallb (word_ok 12) nonterms = true.
Proof. vm_compute. reflexivity. Qed.
Lemma nonterms_all n : In n nonterms.
Proof. destruct n; cbn; tauto. Qed.
Lemma short n : exists w, derives n w /\ unsigned_word w.
Proof. exists (word_of 12 n). apply word_sound. pose proof words_checked as H. rewrite forallb_forall in H. apply H, nonterms_all. Qed.
Definition free (l : list sym) : bool := forallb (fun x => match x with T c => negb (is_sign c) | N _ => true end) l.
Lemma shorts l : free l = true -> exists w, derives_all l w /\ unsigned_word w.
Proof.
  induction l as [|[c|n] l IH]; intros H; [exists []; split; [constructor|reflexivity]| |]; cbn [free forallb] in H; apply andb_true_iff in H as [H1 H2]; destruct (IH H2) as (w & G1 & G2).
  - exists (c :: w). split; [constructor; exact G1|]. unfold unsigned_word in *. cbn [forallb]. rewrite H1, G2. reflexivity.
  - destruct (short n) as (u & K1 & K2). exists (u ++ w). split; [constructor; assumption|apply unsigned_app; assumption].
Qed.

(** * The items *)
Definition mid (s : Z) : list (Z * Z) := nth (Z.to_nat s) mids [].
Definition pick (s : Z) : Z * Z := nth (Z.to_nat s) picks (0, 0).
Definition start (s : Z) : list (Z * (Z * Z)) := nth (Z.to_nat s) starts [].
Definition pmem (i : Z * Z) (l : list (Z * Z)) : bool := existsb (fun j => (fst i =? fst j) && (snd i =? snd j)) l.
Lemma pmem_in i l : pmem i l = true -> In i l.
Proof.
  unfold pmem. rewrite existsb_exists. intros ((a & b) & H1 & H2). destruct i as [c d]. cbn in H2. assert (c = a /\ d = b) as [-> ->] by lia. exact H1.
Qed.
Definition nth_sym (r d : Z) : Z := nth (Z.to_nat d) (map sym_no (rhs r)) 0.
(** An item: with the dot at the beginning its nonterminal may begin here; otherwise the
    symbol before the dot leads into the state, and the item with the dot before it
    belongs to every state below. *)
Definition mid_ok (s : Z) (i : Z * Z) : bool :=
  let '(r, d) := i in
  (1 <=? r) && (r <=? n_prods) && (0 <=? d) && (d <=? Z.of_nat (length (rhs r))) &&
  if d =? 0 then zmem (nt_no (lhs r)) (map fst (start s))
  else (nth_sym r (d - 1) =? chk s) && forallb (fun p => pmem (r, d - 1) (mid p)) (pred s).
Fixpoint start_ok (s : Z) (l : list (Z * (Z * Z))) : bool :=
  match l with
  | [] => true
  | (A, (r, d)) :: l =>
    ((s =? 0) && (A =? nt_no n_module) ||
     pmem (r, d) (mid s) && (nth_sym r d =? - A) && (d <? Z.of_nat (length (rhs r))) && free (skipn (S (Z.to_nat d)) (rhs r)) &&
     ((0 <? d) || zmem (nt_no (lhs r)) (map fst l))) && start_ok s l
  end.
Definition pick_ok (s : Z) : bool :=
  (s =? 1) || (let '(r, d) := pick s in pmem (r, d) (mid s) && free (skipn (Z.to_nat d) (rhs r))).
Lemma viable_checked : forallb (fun s => forallb (mid_ok s) (mid s) && start_ok s (start s) && pick_ok s) states = true.
Proof. vm_compute. reflexivity. Qed.
Lemma checked_state s : state s -> (forall i, In i (mid s) -> mid_ok s i = true) /\ start_ok s (start s) = true /\ pick_ok s = true.
Proof.
  intros H. pose proof (forall_states _ viable_checked s H) as G. cbv beta in G. rewrite !andb_true_iff, forallb_forall in G. tauto.
Qed.
Lemma mid_bottom : forallb (fun i => snd i =? 0) (mid 0) = true.
Proof. vm_compute. reflexivity. Qed.

(** The word of a piece of the stack. *)
Definition read (st : frames) : list Z := map kind_of (flat_map yield (map snd (rev st))).
Lemma read_app st1 st2 : read (st1 ++ st2) = read st2 ++ read st1.
Proof. unfold read. rewrite rev_app_distr, map_app, flat_map_app, map_app. reflexivity. Qed.
Lemma forest_derives r ch : prodno r -> Forall wf ch -> forall w, incl w (rhs r) -> map sym_of ch = map sym_no w -> derives_all w (map kind_of (flat_map yield ch)).
Proof.
  intros Hr. induction 1 as [|t ch Ht Hf IH]; intros [|x w] Hi Hs; try discriminate Hs; [constructor|].
  cbn [map] in Hs. injection Hs as Hx Hs. cbn [flat_map]. rewrite map_app.
  assert (Hrest : derives_all w (map kind_of (flat_map yield ch))) by (apply IH; [intros y Hy; apply Hi; right; exact Hy|exact Hs]).
  destruct x as [c|m].
  - destruct (sym_tok _ c Ht) as (k & -> & <- & _); [|exact Hx|].
    { eapply rhs_terminals; [exact Hr|]. apply Hi. left. reflexivity. }
    cbn [yield map app]. constructor. exact Hrest.
  - constructor; [|exact Hrest]. apply wf_derives; assumption.
Qed.
Lemma derives_all_app a : forall u b v, derives_all a u -> derives_all b v -> derives_all (a ++ b) (u ++ v).
Proof.
  induction a as [|x a IH]; intros u b v H1 H2; inversion H1; subst; cbn [app]; [exact H2| |].
  - constructor. auto.
  - rewrite <- app_assoc. constructor; auto.
Qed.

Lemma mid_back d : forall r st, mwf st -> In (r, Z.of_nat d) (mid (top st)) ->
  exists st1 st2, st = st1 ++ st2 /\ length st1 = d /\ mwf st2 /\ prodno r /\ (d <= length (rhs r))%nat /\
    derives_all (firstn d (rhs r)) (read st1) /\ In (nt_no (lhs r)) (map fst (start (top st2))).
Proof.
  assert (G : forall d r st, mwf st -> In (r, Z.of_nat d) (mid (top st)) ->
    exists st1 st2, st = st1 ++ st2 /\ length st1 = d /\ mwf st2 /\ prodno r /\ (d <= length (rhs r))%nat /\
    map sym_of (map snd (rev st1)) = map sym_no (firstn d (rhs r)) /\ Forall wf (map snd (rev st1)) /\ In (nt_no (lhs r)) (map fst (start (top st2)))).
  { clear d. induction d as [|d IH]; intros r st Hw Hi; pose proof (mwf_state _ Hw) as Hs; destruct (checked_state _ Hs) as (C & _); pose proof (C _ Hi) as M;
      cbn [mid_ok] in M; rewrite !andb_true_iff in M; destruct M as ((((M1 & M2) & M3) & M4) & M5).
    - apply Z.leb_le in M4. change (Z.of_nat 0 =? 0) with true in M5. cbn [orb] in M5. apply zmem_in in M5. exists [], st. unfold prodno. cbn [app length firstn rev map].
      repeat (split; [solve [reflexivity|assumption|lia|constructor]|]). exact M5.
    - apply Z.leb_le in M4. destruct (Z.of_nat (S d) =? 0) eqn:E0; [discriminate E0|]. apply andb_true_iff in M5 as [M5 M6].
      destruct st as [|[s t] st].
      { exfalso. pose proof mid_bottom as B. rewrite forallb_forall in B. specialize (B _ Hi). cbv beta in B. cbn [snd] in B. congruence. }
      destruct (mwf_cons _ _ _ Hw) as (W1 & W2 & W3 & W4). cbn [top fst] in *.
      rewrite forallb_forall in M6. specialize (M6 _ W4). apply pmem_in in M6. replace (Z.of_nat (S d) - 1) with (Z.of_nat d) in * by lia.
      destruct (IH r st W1 M6) as (st1 & st2 & E1 & E2 & E3 & E4 & E5 & E6 & E7 & E8).
      exists ((s, t) :: st1), st2. split; [rewrite E1; reflexivity|]. split; [cbn; lia|]. split; [exact E3|]. split; [exact E4|]. split; [lia|].
      cbn [rev]. rewrite !map_app. cbn [map snd]. split; [|split; [apply Forall_app; split; [exact E7|constructor; [exact W2|constructor]]|exact E8]].
      rewrite E6. assert (Hd : (d < length (rhs r))%nat) by lia. clear -Hd M5 W3. unfold nth_sym in M5. rewrite Nat2Z.id in M5.
      rewrite <- W3. apply Z.eqb_eq in M5. rewrite <- M5. clear -Hd. revert d Hd. induction (rhs r) as [|x l IH]; intros d Hd; [cbn in Hd; lia|].
      destruct d as [|d]; [reflexivity|]. cbn [firstn map app nth length] in *. f_equal. apply IH. lia. }
  intros r st Hw Hi. destruct (G _ _ _ Hw Hi) as (st1 & st2 & E1 & E2 & E3 & E4 & E5 & E6 & E7 & E8). exists st1, st2.
  repeat (split; [assumption|]). split; [|exact E8]. apply (forest_derives r); [exact E4|exact E7| |exact E6].
  intros x Hx. rewrite <- (firstn_skipn d (rhs r)). apply in_or_app. left. exact Hx.
Qed.

(** [inside u n]: a word of [n] behind [u] can be continued to a whole text, without signs. *)
Definition inside (u : list Z) (n : nonterm) : Prop :=
  exists z, unsigned_word z /\ forall w, derives n w -> derives n_module (u ++ w ++ z).
Lemma nth_split_sym r d : (d < length (rhs r))%nat -> rhs r = firstn d (rhs r) ++ nth d (rhs r) (N n_module) :: skipn (S d) (rhs r) /\
  nth_sym r (Z.of_nat d) = sym_no (nth d (rhs r) (N n_module)).
Proof.
  unfold nth_sym. rewrite Nat2Z.id. revert d. induction (rhs r) as [|x l IH]; intros d Hd; [cbn in Hd; lia|].
  destruct d as [|d]; [split; reflexivity|]. cbn [length] in Hd. destruct (IH d) as [H1 H2]; [lia|].
  cbn [firstn nth skipn app map]. split; [f_equal; exact H1|exact H2].
Qed.
Lemma sym_no_N x n : sym_no x = - nt_no n -> x = N n.
Proof.
  destruct x as [c|m]; cbn [sym_no]; intros H.
  - exfalso. pose proof (nt_no_pos n). destruct (tokno_of_range c) as [T _]. unfold tokno in T. lia.
  - f_equal. apply nt_no_inj. lia.
Qed.
Lemma start_inside k : forall st, (length st < k)%nat -> mwf st -> forall n, In (nt_no n) (map fst (start (top st))) -> inside (read st) n.
Proof.
  induction k as [|k IH]; intros st Hk Hw; [lia|]. destruct (checked_state _ (mwf_state _ Hw)) as (_ & Hc & _).
  assert (Hstart : forall l, start_ok (top st) l = true -> forall n, In (nt_no n) (map fst l) -> inside (read st) n); [|intros n; apply Hstart, Hc].
  induction l as [|[A [r d]] l IHl]; intros Hl n Hn; [destruct Hn|]. cbn [start_ok] in Hl. apply andb_true_iff in Hl as [Hl Hl2].
  cbn [map fst] in Hn. destruct Hn as [Hn|Hn]; [|apply IHl; assumption].
  apply orb_true_iff in Hl as [Hl|Hl].
  - apply andb_true_iff in Hl as [Hl1 Hl3].
    assert (E : st = []).
    { destruct st as [|[s t] st]; [reflexivity|]. exfalso. cbn [top fst] in Hl1. destruct (mwf_cons _ _ _ Hw) as (_ & _ & _ & W). replace s with 0 in W by lia. rewrite pred_0 in W. destruct W. }
    subst st. assert (n = n_module) as -> by (apply nt_no_inj; lia). exists []. split; [reflexivity|]. intros w Hd. cbn. rewrite app_nil_r. exact Hd.
  - rewrite !andb_true_iff in Hl. destruct Hl as ((((H1 & H2) & H3) & H4) & H5). apply pmem_in in H1.
    assert (Hd0 : 0 <= d).
    { destruct (checked_state _ (mwf_state _ Hw)) as (Cm & _). specialize (Cm _ H1). cbn [mid_ok] in Cm. rewrite !andb_true_iff in Cm. lia. }
    rewrite <- (Z2Nat.id d) in H1, H2, H3 by exact Hd0. set (dn := Z.to_nat d) in *.
    destruct (mid_back _ _ _ Hw H1) as (st1 & st2 & E1 & E2 & E3 & E4 & E5 & E6 & E7).
    destruct (nth_split_sym r dn) as [S1 S2]; [lia|]. rewrite S2 in H2. assert (Ex : nth dn (rhs r) (N n_module) = N n) by (apply sym_no_N; lia).
    rewrite Ex in S1. destruct (shorts _ H4) as (v & V1 & V2).
    assert (Hin : inside (read st2) (lhs r)).
    { destruct dn as [|d'] eqn:Ed.
      - destruct st1; [|discriminate E2]. cbn [app] in E1. subst st2. apply IHl; [exact Hl2|]. apply orb_true_iff in H5 as [H5|H5]; [lia|]. apply zmem_in. exact H5.
      - apply IH; [|exact E3|exact E7]. rewrite E1, app_length in Hk. lia. }
    destruct Hin as (z & Z1 & Z2). exists (v ++ z). split; [apply unsigned_app; assumption|]. intros w Hwd.
    rewrite E1, read_app.
    replace ((read st2 ++ read st1) ++ w ++ v ++ z) with (read st2 ++ (read st1 ++ w ++ v) ++ z) by (rewrite !app_assoc; reflexivity).
    apply Z2. apply dv_prod with (rhs r); [apply prod_in, E4|]. rewrite S1. apply derives_all_app; [exact E6|]. constructor; assumption.
Qed.

(** * Everything the machine has read can be continued *)
Theorem viable st : mwf st -> exists z, unsigned_word z /\ derives n_module (read st ++ z).
Proof.
  intros Hw. destruct (checked_state _ (mwf_state _ Hw)) as (Cm & _ & Hp). unfold pick_ok in Hp. apply orb_true_iff in Hp as [Hp|Hp].
  - destruct st as [|[s t] st]; [discriminate Hp|]. cbn [top fst] in Hp. assert (s = 1) as -> by lia. destruct (mwf_cons _ _ _ Hw) as (W1 & W2 & W3 & W4).
    change (pred 1) with [0] in W4. destruct W4 as [W4|[]]. assert (E : st = []).
    { destruct st as [|[s' t'] st]; [reflexivity|]. exfalso. cbn [top fst] in W4. destruct (mwf_cons _ _ _ W1) as (_ & _ & _ & W). subst s'. rewrite pred_0 in W. destruct W. }
    subst st. exists []. split; [reflexivity|]. rewrite app_nil_r. unfold read. cbn [rev app map flat_map snd]. rewrite app_nil_r.
    apply wf_derives; [exact W2|]. rewrite <- W3. reflexivity.
  - destruct (pick (top st)) as [r d]. apply andb_true_iff in Hp as [H1 H2]. apply pmem_in in H1.
    assert (Hd0 : 0 <= d). { specialize (Cm _ H1). cbn [mid_ok] in Cm. rewrite !andb_true_iff in Cm. lia. }
    rewrite <- (Z2Nat.id d) in H1 by exact Hd0. set (dn := Z.to_nat d) in *.
    destruct (mid_back _ _ _ Hw H1) as (st1 & st2 & E1 & E2 & E3 & E4 & E5 & E6 & E7).
    destruct (shorts _ H2) as (v & V1 & V2). destruct (start_inside (S (length st2)) st2 (le_n _) E3 _ E7) as (z & Z1 & Z2).
    exists (v ++ z). split; [apply unsigned_app; assumption|]. rewrite E1, read_app.
    replace ((read st2 ++ read st1) ++ v ++ z) with (read st2 ++ (read st1 ++ v) ++ z) by (rewrite !app_assoc; reflexivity).
    apply Z2. apply dv_prod with (rhs r); [apply prod_in, E4|]. rewrite <- (firstn_skipn dn (rhs r)). apply derives_all_app; assumption.
Qed.
