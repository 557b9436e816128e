(** The lines written by Parse: the driver. *)
From Verif Require Import Bytes Utf8 UnicodeTables Float64 GoTime Ast Lexer LexFacts LexSpec LexProofs LexTrivia LexTokens LexReject Tables Parser Grammar CertData Cert
  Driver DriverInv Loud LoudFacts Scanned FaultFacts.
Open Scope Z_scope.

Lemma n_default_eq p : state (p_state p) -> n_default p = if at_ yyDef (p_state p) =? -2 then n_ensure p else 0%nat.
Proof. intros Hs. unfold n_default. rewrite def_tab by exact Hs. reflexivity. Qed.
Lemma n_step_eq p : state (p_state p) ->
  n_step p = ((if (at_ yyPact (p_state p) <=? yyFlag)%Z then 0 else n_ensure p) +
    match shift_of (p_state p) (p_tok (look1 p)) with
    | Some _ => 0
    | None => if (at_ yyDef (p_state p) =? -2)%Z then n_ensure (look1 p) else 0
    end)%nat.
Proof.
  intros Hs. unfold n_step. rewrite pact_tab by exact Hs. unfold shift_of, look1. destruct (at_ yyPact (p_state p) <=? yyFlag) eqn:E1.
  { rewrite n_default_eq by exact Hs. reflexivity. }
  rewrite ensure_look. destruct (look_stk p) as (L1 & L2 & L3). f_equal. cbv zeta.
  assert (Hd : n_default (look p) = if at_ yyDef (p_state p) =? -2 then n_ensure (look p) else 0%nat) by (rewrite n_default_eq; rewrite L3; auto).
  destruct ((at_ yyPact (p_state p) + p_tok (look p) <? 0) || (yyLast <=? at_ yyPact (p_state p) + p_tok (look p))) eqn:E2; [exact Hd|].
  rewrite act_tab by lia. rewrite chk_tab by apply act_range. destruct (chk _ =? p_tok (look p)); [reflexivity|exact Hd].
Qed.

(** What is known after [tot] lines. *)
Definition rest_p (p : pst) : bytes := rest_of (a_code (p_ast p)) (v_token (p_lval p)).
Record told (code : bytes) (p : pst) (tot : nat) : Prop := {
  q_code : a_code (p_ast p) = code;
  q_pass : exists l, passes code l (rest_p p);
  q_none : ~ In 65533 (runes code) -> tot = 0%nat;
  q_some : a_err (p_ast p) = None -> tally0 code (rest_p p) tot }.
Lemma next_end pd s0 r s' pd' : next pd s0 = (r, s', pd') -> lr_err r = None -> lr_tok r = EOF -> s' = [].
Proof.
  intros E He Hk. destruct (list_eq_dec Byte.byte_eq_dec s' []) as [|Hn]; [assumption|]. exfalso.
  revert E. unfold next. set (s := skipRegions _). clearbody s. intros E.
  assert (K : forall w t, assoc w keywords = Some t -> t <> EOF).
  { intros w t H ->. apply assoc_in in H. cbn in H. unfold EOF in H. intuition discriminate. }
  assert (D : forall w t, assoc w directives = Some t -> t <> EOF).
  { intros w t H ->. apply assoc_in in H. cbn in H. unfold EOF in H. intuition discriminate. }
  destruct (isLetter (cur s)). { destruct (scanIdentifier s). destruct pd; [|destruct (assoc _ _) eqn:Ea]; injection E as <- _ _; try discriminate Hk. exact (K _ _ Ea Hk). }
  destruct (cur s =? cDot) eqn:E1. { injection E as <- _ _. cbn in Hk. rewrite Hk in E1. discriminate E1. }
  destruct (isDigit (cur s)). { destruct (scanNumber s) as [[?|?] ?]; injection E as <- _ _; discriminate. }
  destruct (cur s =? cApos). { destruct (scanString (cur s) s) as [[lit|?] ?]; [destruct (extractDigits lit)|]; injection E as <- _ _; discriminate. }
  destruct (punct (cur s)) eqn:E2. { injection E as <- _ _. cbn in Hk. rewrite Hk in E2. discriminate E2. }
  destruct (cur s =? 61). { injection E as <- _ _. discriminate. }
  destruct (cur s =? cQuote). { destruct (scanString (cur s) s) as [[lit|?] ?]; injection E as <- _ _; discriminate. }
  destruct (cur s =? 60) eqn:E3. { destruct (nextLet s =? 62); [|destruct (nextLet s =? 61)]; injection E as <- _ _; try discriminate. cbn in Hk. rewrite Hk in E3. discriminate E3. }
  destruct (cur s =? 62) eqn:E4. { destruct (nextLet s =? 61); injection E as <- _ _; try discriminate. cbn in Hk. rewrite Hk in E4. discriminate E4. }
  destruct (cur s =? 38). { destruct (scanIdentifier (adv s)). destruct (assoc _ directives) eqn:Ea; injection E as <- _ _; [exact (D _ _ Ea Hk)|discriminate He]. }
  destruct (cur s =? 126). { destruct (scanIdentifier (adv s)). injection E as <- _ _. discriminate. }
  destruct (cur s =? EOF) eqn:E5; [|injection E as <- _ _; discriminate He]. apply Z.eqb_eq, cur_EOF in E5. subst s. injection E as _ <- _. apply Hn. reflexivity.
Qed.
Lemma look_told code p tot : code <> [] -> inv p -> told code p tot -> told code (look p) (tot + n_ensure p) /\
  (p_char (look p) < 0 -> a_err (p_ast (look p)) = None -> rest_p (look p) = []).
Proof.
  intros Hne Hi [Q1 (l & Q2) Q3 Q4]. unfold look, n_ensure. destruct (p_char p <? 0) eqn:Ec.
  2: { rewrite Nat.add_0_r. split; [constructor; eauto|]. intros H. lia. }
  unfold n_Lex, rest_p in *. rewrite Q1 in *. destruct (Lex (p_ast p) (v_token (p_lval p))) as [[c t'] a'] eqn:EL.
  set (t := v_token (p_lval p)) in *. unfold Lex in EL. rewrite Q1 in EL. destruct code as [|b0 code0]; [congruence|]. set (code := b0 :: code0) in *. clearbody code.
  destruct (Next code t) as [[k t2] e] eqn:EN. destruct (Next_nerr _ _ _ _ _ EN) as (r & R1 & R2 & R3).
  assert (t2 = t') as -> by (destruct e; [|destruct (k =? EOF)]; congruence).
  assert (Ha : a_code a' = code) by (destruct e; [|destruct (k =? EOF)]; injection EL as _ <-; exact Q1).
  fold (rest_of code t) in *. cbn [p_ast p_lval p_char v_token set_token]. rewrite Ha. split; [constructor; cbn [p_ast p_lval v_token set_token]|].
  - exact Ha.
  - unfold rest_p. cbn [p_ast p_lval v_token set_token]. rewrite Ha. destruct (next_passes _ _ _ _ _ R1) as [l' Hl']. exists (l ++ l'). eapply passes_app; eassumption.
  - intros Hn. rewrite (Q3 Hn). apply next_silent. intros X. apply Hn. rewrite (passes_runes _ _ _ Q2). apply in_app_iff. right. exact X.
  - intros He. unfold rest_p. cbn [p_ast p_lval v_token set_token]. rewrite Ha. destruct e as [e|]; [injection EL as _ <-; discriminate He|].
    assert (Hp : a_err (p_ast p) = None) by (destruct (k =? EOF); injection EL as _ <-; exact He).
    destruct (Next_res _ _ _ _ EN) as (r' & s' & pd' & S1 & S2 & _ & _ & S3 & _). rewrite R1 in S1. injection S1 as <- S4 _.
    destruct (next_tally _ _ _ _ _ R1 S2) as [T1 T2]. eapply tally0_trans; [apply Q4, Hp|exact T1|exact T2].
  - intros Hc He. destruct e as [e|]; [injection EL as _ <-; discriminate He|].
    destruct (Next_res _ _ _ _ EN) as (r' & s' & pd' & S1 & S2 & S3 & _). rewrite R1 in S1. injection S1 as <- S4 _.
    apply (next_end _ _ _ _ _ R1 S2). rewrite <- R3. destruct (k =? EOF) eqn:Ek; [apply Z.eqb_eq, Ek|]. injection EL as <- _. exfalso.
    destruct (Next_kinds _ _ _ _ EN) as [X|[X _]]; [rewrite X in Ek; discriminate Ek|]. apply kinds_pos in X. lia.
Qed.
Lemma reduce_keep p r p' : reduce p r = Next_ p' -> p_lval p' = p_lval p.
Proof.
  unfold reduce, sbind. intros H.
  repeat match type of H with
  | match ?x with _ => _ end = _ => destruct x; try discriminate H
  | (let '(_, _) := ?x in _) = _ => destruct x
  end; injection H as <-; reflexivity.
Qed.
Lemma accept_end s k : state s -> tokno k -> default s k = Accept -> k = 1.
Proof.
  intros Hs Hk. assert (E : forallb (fun s => forallb (fun k => match default s k with Accept => k =? 1 | _ => true end) toknos) states = true) by (vm_compute; reflexivity).
  pose proof (forall_states _ E s Hs) as H. cbv beta in H. rewrite forallb_forall in H. specialize (H k). intros D. rewrite D in H. apply Z.eqb_eq, H.
  apply in_seqZ. unfold tokno in Hk. lia.
Qed.
Lemma default_prod s k r : state s -> tokno k \/ at_ yyDef s <> -2 -> default s k = Reduce r -> prodno r.
Proof.
  intros Hs Hk D. destruct (checked _ Hs) as (_ & _ & HC).
  assert (R : reduce_ok s r = true).
  { destruct Hk as [Hk|Hk].
    - destruct (HC k Hk) as (_ & Hd & _). unfold default_ok in Hd. rewrite D in Hd. exact Hd.
    - destruct (HC 1) as (_ & Hd & _); [unfold tokno, n_tokens; lia|]. unfold default_ok in Hd.
      replace (default s 1) with (Reduce r) in Hd; [exact Hd|]. rewrite <- D. unfold default. apply Z.eqb_neq in Hk. rewrite Hk. reflexivity. }
  unfold reduce_ok in R. rewrite !andb_true_iff in R. unfold prodno. lia.
Qed.
Lemma told_mono code p tot p' : told code p tot -> p_lval p' = p_lval p -> a_code (p_ast p') = a_code (p_ast p) ->
  (a_err (p_ast p) <> None -> a_err (p_ast p') <> None) -> told code p' tot.
Proof.
  intros [Q1 Q2 Q3 Q4] H1 H2 H3. unfold rest_p in *. constructor; unfold rest_p; rewrite ?H1, ?H2; auto. intros He. apply Q4. destruct (a_err (p_ast p)); [|reflexivity]. exfalso. apply H3; [discriminate|exact He].
Qed.
Lemma run_told code : code <> [] -> forall f p tot, inv p -> told code p tot ->
  (~ In 65533 (runes code) -> (tot + n_run f p)%nat = 0%nat) /\
  (forall x a, run f p = Some (Ok (x, a)) -> a_err a = None -> (tot + n_run f p)%nat = heard (runes code)).
Proof.
  intros Hne. induction f as [|f IH]; intros p tot Hi Q.
  { split; [|discriminate]. intros Hn. cbn [n_run]. rewrite (q_none _ _ _ Q Hn). reflexivity. }
  destruct (inv_states p Hi) as [Hs Hst]. cbn [n_run run]. pose proof (step_inv p Hi) as Hok. rewrite (n_step_eq p Hs).
  rewrite step_eq in * by (auto using inv_tokno).
  assert (Q1 : told code (look1 p) (tot + (if at_ yyPact (p_state p) <=? yyFlag then 0%nat else n_ensure p))).
  { unfold look1. destruct (_ <=? _); [rewrite Nat.add_0_r; exact Q|apply look_told; assumption]. }
  set (n1 := if at_ yyPact (p_state p) <=? yyFlag then 0%nat else n_ensure p) in *. clearbody n1.
  destruct (look1_inv p Hi) as (A1 & A2 & A3 & A4 & A5 & A6).
  destruct (shift_of (p_state p) (p_tok (look1 p))) as [q|] eqn:Eq.
  - destruct Hok as (H1 & _ & H3 & H4). rewrite Nat.add_0_r, Nat.add_assoc. apply IH; [exact H1|].
    assert (look1 p = look p) as EL by (unfold look1; rewrite (shift_flag _ _ _ Eq); reflexivity). rewrite EL in *.
    apply (told_mono code (look p)); [exact Q1|reflexivity|reflexivity|auto].
  - destruct (look2_inv p Hi) as (B1 & B2 & B3 & B4 & B5 & B6 & B7).
    assert (Q2 : told code (look2 p) (tot + n1 + (if at_ yyDef (p_state p) =? -2 then n_ensure (look1 p) else 0%nat)) /\
      (at_ yyDef (p_state p) = -2 -> p_char (look2 p) < 0 -> a_err (p_ast (look2 p)) = None -> rest_p (look2 p) = [])).
    { unfold look2. destruct (_ =? -2) eqn:E; [destruct (look_told code (look1 p) _ Hne A1 Q1) as [X Y]; split; [exact X|intros _; exact Y]|].
      rewrite Nat.add_0_r. split; [exact Q1|]. intros H. lia. }
    set (n2 := if at_ yyDef (p_state p) =? -2 then n_ensure (look1 p) else 0%nat) in *. clearbody n2. destruct Q2 as [Q2 Q3].
    destruct (default (p_state p) (p_tok (look2 p))) as [q|r| |] eqn:Ed; cbn [do_default] in *.
    + exfalso. unfold default in Ed. destruct (_ =? -2); [destruct (exca_find _ _) as [x|]; [destruct (exca_scan _ _) as [y|]|]|];
      repeat match type of Ed with context [if ?b then _ else _] => destruct b end; discriminate.
    + destruct (reduce (look2 p) r) as [p'|x a|y] eqn:Er.
      * destruct Hok as (H1 & _ & H3 & H4). rewrite !Nat.add_assoc. apply IH; [exact H1|].
        apply (told_mono code (look2 p)); [exact Q2|eapply reduce_keep, Er|congruence|].
        revert Er. unfold reduce, sbind. intros Er He.
        repeat match type of Er with
        | match ?x with _ => _ end = _ => destruct x eqn:?; try discriminate Er
        | (let '(_, _) := ?x in _) = _ => destruct x eqn:?
        end; injection Er as <-. cbn [p_ast push].
        assert (Hr : prodno r).
        { apply (default_prod (p_state p) (p_tok (look2 p))); [exact Hs| |exact Ed]. destruct (Z.eq_dec (at_ yyDef (p_state p)) (-2)) as [E|E]; [|right; exact E].
          left. destruct (inv_tokno _ B1) as [Hn|Hn]; [rewrite (B7 E Hn); unfold tokno, n_tokens; lia|exact Hn]. }
        match goal with H : act _ _ _ _ = Ok _ |- _ => destruct (act_input _ _ _ _ _ _ Hr H) as (_ & _ & X); apply X, He end.
      * exfalso. revert Er. unfold reduce, sbind. intros Er.
        repeat match type of Er with
        | match ?x with _ => _ end = _ => destruct x; try discriminate Er
        | (let '(_, _) := ?x in _) = _ => destruct x
        end.
      * rewrite Nat.add_0_r, Nat.add_assoc. split; [apply (q_none _ _ _ Q2)|discriminate].
    + rewrite Nat.add_0_r, Nat.add_assoc. split; [apply (q_none _ _ _ Q2)|]. intros x a [= <- <-] He.
      assert (Hd : at_ yyDef (p_state p) = -2).
      { unfold default in Ed. destruct (_ =? -2) eqn:E; [lia|]. destruct (_ =? 0); discriminate Ed. }
      assert (Hc : p_char (look2 p) < 0).
      { destruct (i_look _ B1) as [X|(X1 & X2 & _)]; [exact X|]. exfalso. assert (T : p_tok (look2 p) = 1).
        { apply (accept_end (p_state p)); [exact Hs| |exact Ed]. rewrite X2. apply tokno_of_range. }
        rewrite X2 in T. apply tokno_end in T. apply kinds_pos in X1. lia. }
      destruct (q_some _ _ _ Q2 He) as (l & m & X1 & ->). rewrite (Q3 Hd Hc He) in *. rewrite (passes_runes _ _ _ X1). rewrite app_nil_r. change (say []) with 0%nat. lia.
    + unfold fail, sbind in *. destruct (Error (p_ast (look2 p)) MSyntax) as [a2|q] eqn:Ee; rewrite Nat.add_0_r, Nat.add_assoc; (split; [apply (q_none _ _ _ Q2)|]); [|discriminate].
      intros x a [= <- <-] He. destruct Hok as (_ & _ & H). exfalso. apply H; [discriminate|exact He].
Qed.
