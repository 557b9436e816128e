(** The driver on two texts with the same tokens and faults: both runs go in step (C67). *)
From Verif Require Import Bytes Utf8 Float64 GoTime Ast Lexer LexFacts Utf8Facts LexSpec LexProofs LexTrivia LexTokens LexReject NumSpec NumTokens Tables Parser Grammar Tok CertData Cert Driver DriverInv Trees Machine
  Levels Bind Items Complete TightOk ViableData Viable Blame Told Writes Lexical Scanned Where Placed Alike Lockstep Faults FaultFacts Reached Same Pieces.
Open Scope Z_scope.

(** * Reading behind a fault *)
Lemma gap_trivia t : line_gap t -> trivia t.
Proof.
  intros [H|(b & l & w & H1 & H2 & H3 & ->)]; [apply LexStrings.blanks_trivia, H|]. apply LexStrings.trivia_app; [apply LexStrings.blanks_trivia, H1|].
  apply tr_comment; assumption.
Qed.
Lemma gap_end u t rest : u = t ++ rest -> line_gap t \/ (rest = [] /\ last_trivia u) -> trivia_end u = trivia_end rest.
Proof. intros E [H|[-> H]]; [rewrite E; apply trivia_end_trivia, gap_trivia, H|apply trivia_end_last, H]. Qed.
Lemma next_unknown_at pd w0 x c : trivia w0 -> first_char x c -> ~ LexSpec.token_start c ->
  next pd (w0 ++ x) = (LexRes c (encode c) (Some (LSyntax (encode c))), adv x, false).
Proof.
  intros H0 [Hx Hc] Hn.
  assert (Hcur : cur x = c) by (destruct x; [congruence | exact Hc]).
  assert (Hc0 : 0 <= c) by (rewrite <- Hc; apply decode_nonneg).
  assert (N1 : isLetter c = false).
  { apply not_true_is_false. intros E. apply Hn. left. apply isLetter_spec, E. }
  assert (N2 : isDigit c = false).
  { apply not_true_is_false. intros E. apply Hn. right. left. apply isDigit_spec, E. }
  assert (N3 : isSpace c = false).
  { apply not_true_is_false. intros E. apply Hn. do 4 right. apply isSpace_spec, E. }
  assert (N4 : ~ In c (map b2z (B "./;(),-+*?[]:%='<>&~#"))) by (intros E; apply Hn; right; right; left; exact E).
  assert (N5 : c <> 34) by (intros E; apply Hn; do 3 right; left; exact E).
  vm_compute in N4.
  assert (N6 : c <> 46 /\ c <> 47 /\ c <> 59 /\ c <> 40 /\ c <> 41 /\ c <> 44 /\ c <> 45 /\ c <> 43 /\ c <> 42 /\ c <> 63 /\
     c <> 91 /\ c <> 93 /\ c <> 58 /\ c <> 37 /\ c <> 61 /\ c <> 39 /\ c <> 60 /\ c <> 62 /\ c <> 38 /\ c <> 126 /\ c <> 35).
  { lia. }
  unfold next. fold (trivia_end (w0 ++ x)).
  rewrite trivia_end_start by (rewrite ?Hcur; try exact H0; try exact N3; lia). cbv zeta. rewrite Hcur, N1, N2.
  replace (c =? cDot) with false by (unfold cDot; lia).
  replace (c =? cApos) with false by (unfold cApos; lia).
  replace (punct c) with false by (unfold punct; lia).
  replace (c =? 61) with false by lia.
  replace (c =? cQuote) with false by (unfold cQuote; lia).
  replace (c =? 60) with false by lia. replace (c =? 62) with false by lia.
  replace (c =? 38) with false by lia. replace (c =? 126) with false by lia.
  replace (c =? EOF) with false by (unfold EOF; lia). reflexivity.
Qed.
(** Where the scanner goes on is where the fault says, up to trivia. *)
Lemma fault_rest pd w x e rest r s' pd' : trivia w -> fault x e rest -> next pd (w ++ x) = (r, s', pd') -> trivia_end s' = trivia_end rest.
Proof.
  intros Hw H HN. destruct H as [en s Hq H|en s u t rest Hq H Hu Et Ht|s v rest Hs Hd|s v rest Hs Hd Hn|n rest c Hn Hd Hc Hl|n rest Hn Hd Hb Hr|v rest Hv Hr Hd|x c k Hx Hc Hn].
  - pose proof (next_quoted pd w en s LEof [] Hq Hw (opens_eof en s Hq H)) as E. rewrite E in HN. injection HN as _ <- _. reflexivity.
  - pose proof (next_quoted pd w en s LEol _ Hq Hw (opens_eol en s u Hq H Hu)) as E. rewrite E in HN. injection HN as _ <- _.
    destruct (eol_rest u) as (t' & T1 & T2). rewrite <- (gap_end _ _ _ T1 T2). apply (gap_end _ _ _ Et Ht).
  - pose proof (next_date pd w s v rest Hw Hs) as E. rewrite Hd in E. rewrite E in HN. injection HN as _ <- _. reflexivity.
  - pose proof (next_date pd w s v rest Hw Hs) as E. destruct (digits_of v) as [|d0 ds] eqn:Ed; [congruence|]. rewrite E in HN. injection HN as _ <- _. reflexivity.
  - apply number_or_dot in Hn. destruct n as [|b n]; [destruct Hd as (d & [Hd _] & _); congruence|].
    destruct Hd as (d & [_ Hd] & Hdd). inversion Hn as [|? ? Hb Hn1]; subst. unfold digit_char in Hdd.
    assert (Hb2 : b2z b < 128) by lia. assert (Hc1 : 48 <= b2z b <= 57).
    { assert (cur (b :: n) = b2z b) by (apply cur_ascii, Hb2). unfold cur in H. lia. }
    assert (Hcr : cur rest = c) by (apply cur_first; [|exact Hc]; destruct Hc as [_ Hc]; rewrite <- Hc; apply decode_nonneg).
    apply isLetter_spec in Hl.
    assert (Hr : isDigit (cur rest) || (cur rest =? cDot) = false) by (rewrite Hcr; apply letter_not_digit, Hl).
    pose proof (next_number pd w b n rest Hw Hc1 Hn1 Hr) as E. rewrite Hcr, Hl in E. cbn [app] in HN. rewrite E in HN. injection HN as _ <- _. reflexivity.
  - apply number_or_dot in Hn. destruct n as [|b n]; [destruct Hd as (d & [Hd _] & _); congruence|].
    destruct Hd as (d & [_ Hd] & Hdd). inversion Hn as [|? ? Hb2 Hn1]; subst. unfold digit_char in Hdd.
    assert (Hb3 : b2z b < 128) by lia. assert (Hc1 : 48 <= b2z b <= 57).
    { assert (cur (b :: n) = b2z b) by (apply cur_ascii, Hb3). unfold cur in H. lia. }
    apply num_end_cur in Hr as [R1 R2]. pose proof (next_number pd w b n rest Hw Hc1 Hn1 R1) as E. rewrite R2 in E. cbn [app] in HN. rewrite E in HN. injection HN as _ <- _. reflexivity.
  - pose proof (next_directive pd w v rest Hw Hv Hr) as E. destruct (directive_lookup v Hv) as [[(d & D1 & D2) F]|[ND F]]; [exfalso; apply (Hd d D1 D2)|].
    rewrite F in E. rewrite E in HN. injection HN as _ <- _. reflexivity.
  - assert (E : next pd (w ++ x) = (LexRes c (encode c) (Some (LSyntax (encode c))), adv x, false)) by (apply next_unknown_at; [exact Hw|split; [exact Hx|rewrite Hc; reflexivity]|exact Hn]). rewrite E in HN. injection HN as _ <- _.
    unfold adv. rewrite Hc. reflexivity.
Qed.

(** * Pieces *)
Lemma pieces_end dot s s' l : pieces_of dot s l -> trivia_end s = trivia_end s' -> pieces_of dot s' l.
Proof.
  assert (G : forall w x s', trivia w -> x <> [] -> trivia_end x = x -> trivia_end (w ++ x) = trivia_end s' -> exists w', trivia w' /\ s' = w' ++ x).
  { intros w x s0 Hw Hx Ex E. rewrite trivia_end_trivia, Ex in E by exact Hw. destruct (trivia_end_split s0) as (w' & W1 & W2); [congruence|]. exists w'. rewrite E. auto. }
  intros H E. destruct H as [dot w H|dot w x k rest l Hw Hx H|dot w x e rest l Hw Hx H].
  - apply po_end, trivia_end_nil. rewrite <- E. apply trivia_end_last, H.
  - destruct (G w x s' Hw) as (w' & W & ->); [|apply (token_start _ _ _ _ Hx)|exact E|eapply po_token; eassumption].
    intros ->. destruct (one_next dot [] [] k rest tr_nil Hx) as (r & N1 & _ & N3 & _). cbn [app] in N1. rewrite next_nil in N1 by reflexivity. injection N1 as <- _ _. apply N3. reflexivity.
  - destruct (G w x s' Hw) as (w' & W & ->); [|apply (fault_start _ _ _ Hx)|exact E|eapply po_fault; eassumption].
    intros ->. destruct (fault_next dot [] [] e rest tr_nil Hx) as (r & s0 & N1 & N2). cbn [app] in N1. rewrite next_nil in N1 by reflexivity. injection N1 as <- _. discriminate N2.
Qed.
Lemma fault_shorter x e rest : fault x e rest -> (length (trivia_end rest) < length x)%nat.
Proof.
  intros H. destruct (fault_next false [] x e rest tr_nil H) as (r & s' & N1 & N2). pose proof (fault_rest _ _ _ _ _ _ _ _ tr_nil H N1) as T.
  cbn [app] in N1. destruct (next_progress _ _ _ _ _ N1) as [_ [(_ & _ & Z & T2)|P]].
  - rewrite next_nil in N1 by exact T2. injection N1 as <- _. discriminate N2.
  - rewrite <- T. pose proof (suffix_length _ _ (suffix_trans _ _ _ (suffix_skipRegions (skipComment (skipSpace s'))) (suffix_trans _ _ _ (suffix_skipComment (skipSpace s')) (suffix_skipSpace s')))) as L.
    unfold trivia_end. lia.
Qed.
Lemma trivia_end_twice s : trivia_end (trivia_end s) = trivia_end s.
Proof.
  destruct (split_text s) as [->|(w & x & -> & Hw & _ & Hx)]; [reflexivity|]. rewrite (trivia_end_trivia w x) by exact Hw. rewrite Hx. exact Hx.
Qed.
(** Every text is a sequence of pieces. *)
Lemma pieces_total (s : bytes) : forall dot, exists l, pieces_of dot s l.
Proof.
  induction s as [s IH] using bytes_ind. intros dot. destruct (token_or_fault dot s) as [H|(w & x & -> & Hw & [(k & rest & Hx & Hl)|(e & rest & Hx)])].
  - exists []. apply po_end, H.
  - destruct (IH rest Hl (behind dot k)) as (l & H). exists (inl k :: l). eapply po_token; eassumption.
  - destruct (IH (trivia_end rest)) with (dot := false) as (l & H).
    { pose proof (fault_shorter _ _ _ Hx). rewrite app_length. lia. }
    exists (inr e :: l). eapply po_fault; [exact Hw|exact Hx|]. eapply pieces_end; [exact H|]. apply trivia_end_twice.
Qed.

(** * Two runs in step *)
Definition at_piece (c : bytes) (pre : list piece) (k : tk) (t : token) : Prop :=
  exists t0 z, reading_to c pre (tk_prevDot t0) (rest_of c t0) /\ Next c t0 = (z, t, None) /\ z <> EOF /\ tk_of z t = k.
Section Texts.
Context (c1 c2 : bytes) (all : list piece).
Definition TR (t1 t2 : token) : Prop :=
  exists pre post, all = pre ++ post /\ reading_to c1 pre (tk_prevDot t1) (rest_of c1 t1) /\ reading_to c2 pre (tk_prevDot t2) (rest_of c2 t2) /\
    pieces_of (tk_prevDot t1) (rest_of c1 t1) post /\ pieces_of (tk_prevDot t2) (rest_of c2 t2) post.
Definition pair_of (t1 t2 : token) : Prop := exists pre k post, all = pre ++ inl k :: post /\ at_piece c1 pre k t1 /\ at_piece c2 pre k t2.
End Texts.

(** One call of the scanner. *)
Definition came (c : bytes) (pre : list piece) (t : token) (p : option piece) (post : list piece) (k : Z) (u : token) (e : option lexerr) : Prop :=
  match p with
  | None => e = None /\ k = EOF /\ reading_to c pre (tk_prevDot u) (rest_of c u) /\ pieces_of (tk_prevDot u) (rest_of c u) []
  | Some (inl x) => e = None /\ k <> EOF /\ tk_of k u = x /\ In k kinds /\ tok_value_ok k u /\ reading_to c (pre ++ [inl x]) (tk_prevDot u) (rest_of c u) /\
      pieces_of (tk_prevDot u) (rest_of c u) post
  | Some (inr x) => e = Some x /\ reading_to c (pre ++ [inr x]) (tk_prevDot u) (rest_of c u) /\ pieces_of (tk_prevDot u) (rest_of c u) post
  end.
Lemma Next_piece c t pre post k u e : reading_to c pre (tk_prevDot t) (rest_of c t) -> pieces_of (tk_prevDot t) (rest_of c t) post -> Next c t = (k, u, e) ->
  came c pre t (hd_error post) (tl post) k u e.
Proof.
  intros HR HP HN. destruct (Next_nerr _ _ _ _ _ HN) as (r & N1 & N2 & N3). inversion HP as [dot w Hw E1 E2 E3|dot w x y rest l Hw Hx H E1 E2 E3|dot w x y rest l Hw Hx H E1 E2 E3]; subst post; cbn [hd_error tl came].
  - pose proof (trivia_end_last _ Hw) as T. rewrite next_nil in N1 by exact T. injection N1 as <- <- <-. split; [rewrite N2; reflexivity|]. split; [rewrite N3; reflexivity|].
    split; [eapply rt_end; [exact HR|exact Hw]|]. apply po_end, lt_trivia, tr_nil.
  - destruct (one_next _ _ _ _ _ Hw Hx) as (r2 & M1 & M2 & M3 & M4). rewrite <- E2, M1 in N1. injection N1 as -> <- <-.
    assert (e = None) as -> by (rewrite N2; eapply nerr_token; eassumption). rewrite N3. split; [reflexivity|]. split; [exact M3|].
    destruct (Next_res _ _ _ _ HN) as (r3 & s' & pd' & O1 & O2 & O3 & O4 & O5 & O6). rewrite <- E2, M1 in O1. injection O1 as <- _ _.
    split; [rewrite <- N3; congruence|]. destruct (Next_kinds _ _ _ _ HN) as [K|[K1 K2]]; [congruence|]. rewrite <- N3. split; [exact K1|]. split; [exact K2|].
    split; [|exact H]. eapply rt_token; [rewrite E2; exact HR|exact Hw|exact Hx].
  - destruct (fault_next (tk_prevDot t) w x y rest Hw Hx) as (r2 & s2 & M1 & M2). rewrite E2, N1 in M1. injection M1 as <- <- M3. rewrite N2, M2. split; [reflexivity|].
    rewrite <- E2 in N1. pose proof (fault_rest _ _ _ _ _ _ _ _ Hw Hx N1) as T. rewrite M3.
    split; [|eapply pieces_end; [exact H|symmetry; exact T]].
    rewrite M2 in N2. destruct (next_fault _ _ _ _ _ _ N1 M2) as (w3 & x3 & F1 & F2 & F3 & _). eapply rt_fault; [|exact F2|exact F3]. rewrite <- F1, E2. exact HR.
Qed.

(** The runs from cell to cell: [P] says which tokens correspond, [TR] which places of the scanner. *)
Section Core.
Context (c1 c2 : bytes) (P TR : token -> token -> Prop).
(** Symbols whose cells hold the text (the value) of a token that actions read. *)
Definition text_syms : list Z := map tokno_of (lit_kinds ++ [59; 58]) ++ map (fun n => - nt_no n) [n_separator; n_semicolon; n_colon].
Definition value_syms : list Z := map tokno_of value_kinds.
Record cell (x y : slot) : Prop := {
  ce_strip : strip x = strip y;
  ce_lit : In (chk (yys x)) text_syms -> tk_lit (v_token x) = tk_lit (v_token y);
  ce_value : In (chk (yys x)) value_syms -> tk_value (v_token x) = tk_value (v_token y) }.
Record PR (p1 p2 : pst) : Prop := {
  pr_inv1 : inv p1;
  pr_inv2 : inv p2;
  pr_stk : Forall2 cell (p_stk p1) (p_stk p2);
  pr_above : map strip (p_above p1) = map strip (p_above p2);
  pr_state : p_state p1 = p_state p2;
  pr_char : p_char p1 = p_char p2;
  pr_tok : p_tok p1 = p_tok p2;
  pr_scan : TR (v_token (p_lval p1)) (v_token (p_lval p2));
  pr_look : 0 <= p_char p1 -> tk_of (p_char p1) (v_token (p_lval p1)) = tk_of (p_char p1) (v_token (p_lval p2));
  pr_ast : AR P c1 c2 (p_ast p1) (p_ast p2) }.

Lemma cells_strip l k : Forall2 cell l k -> map strip l = map strip k.
Proof. induction 1 as [|x y l k H _ IH]; [reflexivity|]. cbn [map]. rewrite IH, (ce_strip _ _ H). reflexivity. Qed.
Lemma cells_nth l : forall k i, Forall2 cell l k -> (i < length l)%nat -> cell (nth i l zero_slot) (nth i k zero_slot).
Proof.
  induction l as [|x l IH]; intros k i H Hi; [cbn in Hi; lia|]. inversion H as [|? y ? k' Hx Hl]; subst. destruct i as [|i]; cbn [nth]; [exact Hx|]. apply IH; [exact Hl|cbn in Hi; lia].
Qed.
Lemma cells_split (l1 : list slot) : forall l2 k1 k2, Forall2 cell (l1 ++ l2) (k1 ++ k2) -> length l1 = length k1 -> Forall2 cell l1 k1 /\ Forall2 cell l2 k2.
Proof.
  induction l1 as [|x l1 IH]; intros l2 [|y k1] k2 H Hl; try discriminate Hl; [auto|]. cbn [app] in H. inversion H; subst. destruct (IH l2 k1 k2) as [A B]; auto.
Qed.
Lemma cells_rev (l : list slot) : forall k, Forall2 cell l k -> Forall2 cell (rev l) (rev k).
Proof. induction l as [|x l IH]; intros k H; inversion H; subst; cbn [rev]; [constructor|]. apply Forall2_app; [apply IH; assumption|]. constructor; [assumption|constructor]. Qed.

(** Where the actions read texts and values. *)
Lemma lit_place_syms : forallb (fun x => existsb (Z.eqb (nth (snd x - 1) (map sym_no (rhs (fst x))) 0)) text_syms) lit_places = true.
Proof. vm_compute. reflexivity. Qed.
Lemma value_place_syms : forallb (fun x => existsb (Z.eqb (nth (snd x - 1) (map sym_no (rhs (fst x))) 0)) value_syms) value_places = true.
Proof. vm_compute. reflexivity. Qed.
Lemma in_syms x l : existsb (Z.eqb x) l = true -> In x l.
Proof. rewrite existsb_exists. intros (y & H & E). apply Z.eqb_eq in E. subst y. exact H. Qed.
(** The rules for these nonterminals copy their only symbol. *)
Lemma text_rule r d v a : prodno r -> In (- nt_no (lhs r)) text_syms -> act r d v a = Ok (set_token v (v_token (d 1%nat)), a) /\ (exists x, rhs r = [x] /\ In (sym_no x) text_syms).
Proof.
  intros Hr H. assert (G : existsb (Z.eqb (- nt_no (lhs r))) text_syms = true) by (apply existsb_exists; exists (- nt_no (lhs r)); split; [exact H|apply Z.eqb_refl]). clear H. revert G.
  all_prods r Hr; intros G; vm_compute in G; try discriminate G; (split; [reflexivity|eexists; split; [reflexivity|apply in_syms; vm_compute; reflexivity]]).
Qed.
Lemma value_rule r : prodno r -> ~ In (- nt_no (lhs r)) value_syms.
Proof.
  intros Hr H. assert (G : existsb (Z.eqb (- nt_no (lhs r))) value_syms = true) by (apply existsb_exists; exists (- nt_no (lhs r)); split; [exact H|apply Z.eqb_refl]). clear H. revert G.
  all_prods r Hr; intros G; vm_compute in G; discriminate G.
Qed.
Lemma nth_map_chk (l : list slot) i : (i < length l)%nat -> chk (yys (nth i l zero_slot)) = nth i (map (fun c => chk (yys c)) l) 0.
Proof. revert i. induction l as [|x l IH]; intros [|i] H; cbn [length nth map] in *; first [lia|reflexivity|apply IH; lia]. Qed.

Definition SRP := Lockstep.SR (fun p q => (inv p -> inv q -> PR p q)) (AR P c1 c2).
Lemma reduce_pr p q r : PR p q -> reduce_ok (p_state p) r = true -> SRP (reduce p r) (reduce q r).
Proof.
  intros H Hr. pose proof (pr_inv1 _ _ H) as I1. pose proof (pr_inv2 _ _ H) as I2. pose proof (pr_state _ _ H) as Hs.
  destruct (i_top _ I1) as [k1 T1]. destruct (i_top _ I2) as [k2 T2]. pose proof (i_path _ I1) as Q1. pose proof (i_path _ I2) as Q2. rewrite T1 in Q1. rewrite T2 in Q2.
  destruct (reduce_eq p r _ _ T1 Q1 Hr) as (pop1 & base1 & rest1 & q1 & E1 & M1 & G1 & G2 & _ & _ & _ & Hprod & _ & ->).
  rewrite Hs in Hr. destruct (reduce_eq q r _ _ T2 Q2 Hr) as (pop2 & base2 & rest2 & q2 & E2 & M2 & G3 & _ & _ & _ & _ & _ & _ & ->).
  cbv zeta.
  assert (Hlen1 : length pop1 = length (rhs r)) by (apply (f_equal (@length Z)) in M1; rewrite !map_length, rev_length in M1; exact M1).
  assert (Hlen2 : length pop2 = length (rhs r)) by (apply (f_equal (@length Z)) in M2; rewrite !map_length, rev_length in M2; exact M2).
  pose proof (pr_stk _ _ H) as Hk. rewrite E1, E2 in Hk. destruct (cells_split _ _ _ _ Hk ltac:(congruence)) as [Kp Kr]. pose proof (cells_rev _ _ Kp) as Kv.
  assert (Kabove : map strip (rev pop1 ++ p_above p) = map strip (rev pop2 ++ p_above q)) by (rewrite !map_app, (cells_strip _ _ Kv), (pr_above _ _ H); reflexivity).
  assert (Kyys : yys base1 = yys base2) by (inversion Kr as [|? ? ? ? Kb _]; subst; exact (f_equal yys (ce_strip _ _ Kb))). assert (q2 = q1) as -> by congruence.
  assert (Hcell : forall i, (i < length (rhs r))%nat -> cell (nth i (rev pop1 ++ p_above p) zero_slot) (nth i (rev pop2 ++ p_above q) zero_slot) /\
    chk (yys (nth i (rev pop1 ++ p_above p) zero_slot)) = nth i (map sym_no (rhs r)) 0).
  { intros i Hi. rewrite !app_nth1 by (rewrite rev_length; lia). split; [apply cells_nth; [exact Kv|rewrite rev_length; lia]|]. rewrite nth_map_chk by (rewrite rev_length; lia). rewrite M1. reflexivity. }
  rewrite !hd_nth.
  pose proof (act_alike P c1 c2 r (fun i => nth (i - 1) (rev pop1 ++ p_above p) zero_slot) (fun i => nth (i - 1) (rev pop2 ++ p_above q) zero_slot)
    (p_ast p) (p_ast q) Hprod (fun i => nth_strip _ _ _ Kabove)) as X. cbv beta in X.
  specialize (X ltac:(intros i Hi; destruct (Hcell (i - 1)%nat) as [C1 C2]; [pose proof (places_in_rhs _ _ (or_introl Hi)); lia|]; apply (ce_lit _ _ C1); rewrite C2;
    pose proof lit_place_syms as L; rewrite forallb_forall in L; exact (in_syms _ _ (L _ (place_in _ _ _ Hi))))).
  specialize (X ltac:(intros i Hi; destruct (Hcell (i - 1)%nat) as [C1 C2]; [pose proof (places_in_rhs _ _ (or_intror Hi)); lia|]; apply (ce_value _ _ C1); rewrite C2;
    pose proof value_place_syms as L; rewrite forallb_forall in L; exact (in_syms _ _ (L _ (place_in _ _ _ Hi)))) (pr_ast _ _ H)).
  set (A1 := fun i => nth (i - 1) (rev pop1 ++ p_above p) zero_slot) in *. set (A2 := fun i => nth (i - 1) (rev pop2 ++ p_above q) zero_slot) in *.
  assert (Y : forall v1 b1 v2 b2, act r A1 (A1 1%nat) (p_ast p) = Ok (v1, b1) -> act r A2 (A2 1%nat) (p_ast q) = Ok (v2, b2) -> In (- nt_no (lhs r)) text_syms -> tk_lit (v_token v1) = tk_lit (v_token v2)).
  { intros v1 b1 v2 b2 Y1 Y2 Hin. destruct (text_rule r A1 (A1 1%nat) (p_ast p) Hprod Hin) as (Z1 & x & Z2 & Z3). destruct (text_rule r A2 (A2 1%nat) (p_ast q) Hprod Hin) as (Z4 & _).
    rewrite Y1 in Z1. rewrite Y2 in Z4. injection Z1 as -> _. injection Z4 as -> _. destruct (Hcell 0%nat) as [C1 C2]; [rewrite Z2; cbn; lia|].
    cbn [set_token v_token]. apply (ce_lit _ _ C1). change (A1 1%nat) with (nth 0 (rev pop1 ++ p_above p) zero_slot). rewrite C2, Z2. exact Z3. }
  change (nth (1 - 1) (rev pop1 ++ p_above p) zero_slot) with (A1 1%nat) in *. change (nth (1 - 1) (rev pop2 ++ p_above q) zero_slot) with (A2 1%nat) in *.
  destruct (act r A1 (A1 1%nat) (p_ast p)) as [[v1 b1]|x] eqn:Y1, (act r A2 (A2 1%nat) (p_ast q)) as [[v2 b2]|y] eqn:Y2; cbn [RR] in X; try contradiction; cbn [sbind]; [|exact X].
  destruct X as [X1 X2]. cbn [fst snd] in X1, X2. specialize (Y _ _ _ _ eq_refl eq_refl). intros J1 J2. destruct H.
  unfold push in *. constructor; cbn [p_stk p_above p_state p_lval p_char p_tok p_ast]; auto.
  - constructor; [|exact Kr]. constructor; cbn [set_yys yys v_token].
    + rewrite !strip_yys, X1. reflexivity.
    + rewrite G2. exact Y.
    + rewrite G2. intros Hv. destruct (value_rule r Hprod Hv).
  - transitivity (tl (map strip (rev pop1 ++ p_above p))); [destruct (rev pop1 ++ p_above p); reflexivity|]. rewrite Kabove. destruct (rev pop2 ++ p_above q); reflexivity.
Qed.

(** A token that is pushed. *)
Lemma sym_kinds (l : list Z) k : forallb (fun c => forallb (fun k => negb (tokno_of k =? tokno_of c) || (k =? c)) kinds) l = true ->
  In k kinds -> In (tokno_of k) (map tokno_of l) -> In k l.
Proof.
  intros H Hk Hin. apply in_map_iff in Hin as (c & E & Hc). rewrite forallb_forall in H. specialize (H _ Hc). rewrite forallb_forall in H. specialize (H _ Hk).
  rewrite E, Z.eqb_refl in H. cbn [negb orb] in H. apply Z.eqb_eq in H. subst k. exact Hc.
Qed.
Lemma shift_cell p q st : PR p q -> 0 <= p_char p -> chk st = p_tok p -> cell (set_yys (p_lval p) st) (set_yys (p_lval q) st).
Proof.
  intros H Hc Hst. destruct (i_look _ (pr_inv1 _ _ H)) as [?|(J1 & J2 & V1)]; [lia|]. destruct (i_look _ (pr_inv2 _ _ H)) as [L|(_ & _ & V2)]; [rewrite <- (pr_char _ _ H) in L; lia|].
  rewrite <- (pr_char _ _ H) in V2. pose proof (pr_look _ _ H Hc) as E. pose proof (payload_kinds _ _ J1 V1) as R1. pose proof (payload_kinds _ _ J1 V2) as R2. rewrite <- E in R2.
  pose proof (tk_of_kind _ _ J1 V1) as Ek.
  constructor; cbn [set_yys yys v_token].
  - rewrite !strip_yys, (i_lval _ (pr_inv1 _ _ H)), (i_lval _ (pr_inv2 _ _ H)). reflexivity.
  - rewrite Hst, J2. intros Hin. unfold text_syms in Hin. apply in_app_or in Hin. destruct Hin as [Hin|Hin].
    + apply sym_kinds in Hin; [|vm_compute; reflexivity|exact J1]. apply in_app_or in Hin. destruct Hin as [Hin|Hin].
      * eapply rel_lit; [exact R1|exact R2|rewrite Ek; exact Hin].
      * destruct V1 as (_ & A1 & A2 & _), V2 as (_ & A3 & A4 & _). destruct Hin as [Hin|[Hin|[]]]; symmetry in Hin; [rewrite (A2 Hin), (A4 Hin)|rewrite (A1 Hin), (A3 Hin)]; reflexivity.
    + exfalso. assert (G : forallb (fun k => forallb (fun n => negb (tokno_of k =? - nt_no n)) [n_separator; n_semicolon; n_colon]) kinds = true) by (vm_compute; reflexivity).
      rewrite forallb_forall in G. specialize (G _ J1). rewrite forallb_forall in G. apply in_map_iff in Hin as (n & E1 & E2). specialize (G _ E2). rewrite E1, Z.eqb_refl in G. discriminate G.
  - rewrite Hst, J2. intros Hin. apply sym_kinds in Hin; [|vm_compute; reflexivity|exact J1]. eapply rel_value; [exact R1|exact R2|rewrite Ek; exact Hin].
Qed.

Lemma shift_looked p st : inv p -> shift_of (p_state p) (p_tok (look1 p)) = Some st -> 0 <= p_char (look p) /\ chk st = p_tok (look p).
Proof.
  intros Hi Eq. destruct (inv_states p Hi) as [Hs _]. destruct (look1_inv p Hi) as (A1 & _). pose proof (shift_flag _ _ _ Eq) as Hf. unfold look1 in *. rewrite Hf in *.
  assert (Hch : 0 <= p_char (look p)).
  { destruct (Z.lt_ge_cases (p_char (look p)) 0) as [Hlt|]; [|assumption]. exfalso.
    destruct (look_inv p Hi) as (_ & _ & _ & _ & L5). rewrite (L5 Hlt), no_end_shift in Eq by exact Hs. discriminate. }
  split; [exact Hch|]. destruct (i_look _ A1) as [?|(_ & Htok & _)]; [lia|].
  destruct (checked _ Hs) as (_ & _ & HC). destruct (HC (p_tok (look p))) as (Hshift & _); [rewrite Htok; apply tokno_of_range|].
  unfold shift_ok in Hshift. rewrite Eq in Hshift. rewrite !andb_true_iff in Hshift. lia.
Qed.
Lemma reduce_checked p r : inv p -> default (p_state p) (p_tok (look2 p)) = Reduce r -> reduce_ok (p_state p) r = true.
Proof.
  intros Hi Ed. destruct (inv_states p Hi) as [Hs Hst]. destruct (look2_inv p Hi) as (B1 & B2 & B3 & B4 & B5 & B6 & B7).
  destruct (checked _ Hs) as (_ & _ & HC). destruct (Z.eq_dec (at_ yyDef (p_state p)) (-2)) as [E|E].
  - destruct (HC (p_tok (look2 p))) as (_ & Hd & _).
    { destruct (inv_tokno _ B1) as [Hn|Hn]; [rewrite (B7 E Hn); unfold tokno, n_tokens; lia | exact Hn]. }
    unfold default_ok in Hd. rewrite Ed in Hd. exact Hd.
  - destruct (HC 1) as (_ & Hd & _); [unfold tokno, n_tokens; lia|]. unfold default_ok in Hd.
    replace (default (p_state p) 1) with (Reduce r) in Hd; [exact Hd|]. rewrite <- Ed. unfold default.
    apply Z.eqb_neq in E. rewrite E. reflexivity.
Qed.
Lemma step_core p q : PR p q -> (shift_of (p_state p) (p_tok (look1 p)) <> None -> PR (look p) (look q)) -> PR (look1 p) (look1 q) -> PR (look2 p) (look2 q) -> Lockstep.SR PR (AR P c1 c2) (step p) (step q).
Proof.
  intros H HL0 HL1 HL2. pose proof (pr_inv1 _ _ H) as I1. pose proof (pr_inv2 _ _ H) as I2. destruct (inv_states _ I1) as [Hs1 Hst1]. destruct (inv_states _ I2) as [Hs2 Hst2].
  pose proof (step_inv _ I1) as S1. pose proof (step_inv _ I2) as S2.
  assert (W : SRP (step p) (step q)).
  2: { destruct (step p), (step q); cbn [Lockstep.SR SRP] in *; try contradiction; auto. apply W; [apply S1|apply S2]. }
  clear S1 S2. rewrite (step_eq p Hs1 Hst1 (inv_tokno _ I1)), (step_eq q Hs2 Hst2 (inv_tokno _ I2)), <- (pr_state _ _ H), <- (pr_tok _ _ HL1), <- (pr_tok _ _ HL2).
  destruct (shift_of (p_state p) (p_tok (look1 p))) as [st|] eqn:Eq.
  - intros J1 J2. specialize (HL0 ltac:(discriminate)). pose proof HL0 as HL. destruct (shift_looked p st I1 Eq) as [L1 L2]. pose proof (shift_cell _ _ st HL L1 L2) as HC. destruct HL.
    constructor; cbn [shift push p_stk p_above p_state p_lval p_char p_tok p_ast] in *; try assumption; try reflexivity; [constructor; assumption| |lia].
    transitivity (tl (map strip (p_above (look p)))); [destruct (p_above (look p)); reflexivity|]. rewrite pr_above0. destruct (p_above (look q)); reflexivity.
  - pose proof HL2 as HL. destruct (default (p_state p) (p_tok (look2 p))) as [x|r| |] eqn:Ed; cbn [do_default].
    1, 4: unfold fail; pose proof (Error_alike _ _ _ _ _ MSyntax MSyntax (pr_ast _ _ HL) eq_refl) as X; destruct (Error (p_ast (look2 p)) MSyntax), (Error (p_ast (look2 q)) MSyntax);
      cbn [RR] in X; try contradiction; cbn [sbind Lockstep.SR SRP]; auto.
    2: { split; [reflexivity|]. exact (pr_ast _ _ HL). }
    apply reduce_pr; [exact HL|]. destruct (look2_inv p I1) as (_ & _ & _ & -> & _). eapply reduce_checked; eassumption.
Qed.
End Core.

Section Texts.
Context (c1 c2 : bytes) (all : list piece) (Hne1 : c1 <> []) (Hne2 : c2 <> []).
Let P := pair_of c1 c2 all.
Let TR := TR c1 c2 all.
Lemma Lex_pieces a1 a2 t1 t2 k1 u1 b1 k2 u2 b2 : AR P c1 c2 a1 a2 -> TR t1 t2 -> Lex a1 t1 = (k1, u1, b1) -> Lex a2 t2 = (k2, u2, b2) ->
  AR P c1 c2 b1 b2 /\ TR u1 u2 /\ k1 = k2 /\ (k1 <> EOF -> tk_of k1 u1 = tk_of k2 u2 /\ In k1 kinds).
Proof.
  intros HA (pre & post & Ea & R1 & R2 & P1 & P2). unfold Lex. rewrite (ar_code1 _ _ _ _ _ HA), (ar_code2 _ _ _ _ _ HA).
  replace (match c1 with [] => (EOF, t1, a1) | _ :: _ => let '(tok, t', e) := Next c1 t1 in match e with Some e0 => (EOF, t', set_err a1 (ELex e0)) | None => if tok =? EOF then (EOF, t', a1) else (tok, t', set_cur a1 t') end end)
    with (let '(tok, t', e) := Next c1 t1 in match e with Some e0 => (EOF, t', set_err a1 (ELex e0)) | None => if tok =? EOF then (EOF, t', a1) else (tok, t', set_cur a1 t') end) by (destruct c1; [congruence|reflexivity]).
  replace (match c2 with [] => (EOF, t2, a2) | _ :: _ => let '(tok, t', e) := Next c2 t2 in match e with Some e0 => (EOF, t', set_err a2 (ELex e0)) | None => if tok =? EOF then (EOF, t', a2) else (tok, t', set_cur a2 t') end end)
    with (let '(tok, t', e) := Next c2 t2 in match e with Some e0 => (EOF, t', set_err a2 (ELex e0)) | None => if tok =? EOF then (EOF, t', a2) else (tok, t', set_cur a2 t') end) by (destruct c2; [congruence|reflexivity]).
  destruct (Next c1 t1) as [[z1 v1] e1] eqn:N1, (Next c2 t2) as [[z2 v2] e2] eqn:N2.
  pose proof (Next_piece _ _ _ _ _ _ _ R1 P1 N1) as C1. pose proof (Next_piece _ _ _ _ _ _ _ R2 P2 N2) as C2.
  destruct post as [|[x|x] post]; cbn [hd_error tl came] in C1, C2.
  - destruct C1 as (-> & -> & A1 & A2), C2 as (-> & -> & A3 & A4). rewrite Z.eqb_refl. intros [= <- <- <-] [= <- <- <-]. split; [exact HA|]. split; [exists pre, []; auto|]. split; [reflexivity|]. congruence.
  - destruct C1 as (-> & K1 & X1 & I1 & V1 & A1 & A2), C2 as (-> & K2 & X2 & I2 & V2 & A3 & A4). replace (z1 =? EOF) with false by (symmetry; apply Z.eqb_neq; exact K1). replace (z2 =? EOF) with false by (symmetry; apply Z.eqb_neq; exact K2).
    intros [= <- <- <-] [= <- <- <-].
    assert (E : z1 = z2) by (rewrite <- (tk_of_kind _ _ I1 V1), <- (tk_of_kind _ _ I2 V2); congruence).
    split; [|split; [exists (pre ++ [inl x]), post; split; [rewrite <- app_assoc; exact Ea|auto]|split; [exact E|intros _; split; [congruence|exact I1]]]].
    destruct HA, V1 as [V1 _], V2 as [V2 _]. constructor; cbn [set_cur a_code a_module a_isLoop a_isTry a_isFunction a_cur a_err]; auto; [congruence|].
    intros _. exists pre, x, post. split; [exact Ea|]. split; [exists t1, z1|exists t2, z2]; auto.
  - destruct C1 as (-> & A1 & A2), C2 as (-> & A3 & A4). intros [= <- <- <-] [= <- <- <-].
    split; [|split; [exists (pre ++ [inr x]), post; split; [rewrite <- app_assoc; exact Ea|auto]|split; [reflexivity|congruence]]].
    destruct HA. constructor; cbn [set_err a_code a_module a_isLoop a_isTry a_isFunction a_cur a_err]; auto. right. left. exists x. auto.
Qed.

Let PR := PR c1 c2 P TR.
Lemma look_pr p q : PR p q -> PR (look p) (look q).
Proof.
  intros H. destruct (look_inv _ (pr_inv1 _ _ _ _ _ _ H)) as [I1 _]. destruct (look_inv _ (pr_inv2 _ _ _ _ _ _ H)) as [I2 _]. revert I1 I2.
  unfold look. rewrite <- (pr_char _ _ _ _ _ _ H). destruct (p_char p <? 0); [|intros _ _; exact H].
  destruct (Lex (p_ast p) (v_token (p_lval p))) as [[k1 u1] b1] eqn:E1, (Lex (p_ast q) (v_token (p_lval q))) as [[k2 u2] b2] eqn:E2.
  destruct (Lex_pieces _ _ _ _ _ _ _ _ _ _ (pr_ast _ _ _ _ _ _ H) (pr_scan _ _ _ _ _ _ H) E1 E2) as (HA & HT & <- & HK). intros I1 I2. destruct H.
  constructor; cbn [p_stk p_above p_state p_lval p_char p_tok p_ast set_token v_token]; auto. intros Hk. apply HK. unfold EOF. lia.
Qed.
Lemma look1_pr p q : PR p q -> PR (look1 p) (look1 q).
Proof. intros H. unfold look1. rewrite <- (pr_state _ _ _ _ _ _ H). destruct (_ <=? _); [exact H|apply look_pr, H]. Qed.
Lemma look2_pr p q : PR p q -> PR (look2 p) (look2 q).
Proof. intros H. pose proof (look1_pr _ _ H) as H1. unfold look2. rewrite <- (pr_state _ _ _ _ _ _ H). destruct (_ =? -2); [apply look_pr|]; exact H1. Qed.

Lemma step_pr p q : PR p q -> Lockstep.SR PR (AR P c1 c2) (step p) (step q).
Proof. intros H. apply step_core; [exact H|intros _; apply look_pr, H|apply look1_pr, H|apply look2_pr, H]. Qed.
Lemma run_pr f : forall p q, PR p q ->
  match run f p, run f q with
  | None, None => True
  | Some x, Some y => RR (fun u v => fst u = fst v /\ AR P c1 c2 (snd u) (snd v)) x y
  | _, _ => False
  end.
Proof.
  induction f as [|f IH]; intros p q H; cbn [run]; [exact I|]. pose proof (step_pr _ _ H) as X.
  destruct (step p), (step q); cbn [Lockstep.SR] in X; try contradiction; [apply IH, X|exact X|exact X].
Qed.
Lemma init_pr : pieces_of false c1 all -> pieces_of false c2 all -> PR (init_pst (NewAST c1)) (init_pst (NewAST c2)).
Proof.
  intros H1 H2. constructor; try reflexivity; try apply init_inv.
  - constructor; [|constructor]. constructor; reflexivity.
  - exists [], all. split; [reflexivity|]. split; [apply rt_start|]. split; [apply rt_start|]. auto.
  - constructor; try reflexivity; [discriminate|]. left. auto.
Qed.
Theorem parse_pieces : blank c1 = false -> blank c2 = false -> pieces_of false c1 all -> pieces_of false c2 all ->
  match parse c1, parse c2 with
  | Some (Ok (a1, e1)), Some (Ok (a2, e2)) => a_module a1 = a_module a2 /\ err_rel P c1 c2 e1 e2
  | Some (Panic p), Some (Panic q) => p = q
  | _, _ => False
  end.
Proof.
  intros B1 B2 X1 X2. pose proof (init_pr X1 X2) as HA.
  set (f := Nat.max (parse_fuel c1) (parse_fuel c2)).
  assert (Q : exists x, run (parse_fuel c1) (init_pst (NewAST c1)) = Some x).
  { destruct (run_result _ (init_inv (NewAST c1))) as (n & p' & _ & _ & _ & R4 & R). rewrite R by (rewrite init_potential; unfold parse_fuel; cbn [NewAST a_code]; lia).
    destruct (step p'); [contradiction| |]; cbn [outcome]; eauto. }
  pose proof (run_pr f _ _ HA) as R.
  unfold parse, Parse. cbn [NewAST a_code]. rewrite B1, B2. fold (NewAST c1) (NewAST c2).
  pose proof (run_enough (NewAST c1) f) as R1. pose proof (run_enough (NewAST c2) f) as R2. cbn [NewAST a_code] in R1, R2. fold (NewAST c1) in R1. fold (NewAST c2) in R2. subst f.
  rewrite R1 in Q |- * by lia. rewrite R2 by lia. destruct Q as (x & Q). rewrite Q in *.
  destruct (run _ (init_pst (NewAST c2))) as [y|]; [|contradiction].
  destruct x as [[n1 u1]|], y as [[n2 u2]|]; cbn [RR] in R; try contradiction; [|exact R].
  destruct R as [_ R]. cbn [fst snd] in R. destruct R. auto.
Qed.
End Texts.
