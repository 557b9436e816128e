(** Every error that Parse returns, for every text, is about a token or a fault that
    reading the text gets to. *)
From Verif Require Import Bytes Utf8 Float64 GoTime Ast Lexer LexFacts Utf8Facts LexSpec LexProofs LexTrivia LexTokens LexReject NumSpec NumTokens Tables Parser Grammar Tok CertData Cert Driver DriverInv Trees Machine
  Levels Bind Items Complete TightOk ViableData Viable Blame Writes Lexical Scanned Where Placed Faults FaultFacts.
Open Scope Z_scope.

(** * Scanner states *)
Inductive reached (code : bytes) : token -> Prop :=
| re_zero : reached code zero_token
| re_next t k t' e : reached code t -> Next code t = (k, t', e) -> reached code t'.
Definition read_tok (code : bytes) (t : token) : Prop := exists t0 k, reached code t0 /\ Next code t0 = (k, t, None) /\ k <> EOF.

Lemma reached_reading code t : reached code t -> reading code (tk_prevDot t) (rest_of code t).
Proof.
  induction 1 as [|t k t' e H IH E]; [apply rg_start|]. destruct e as [e|].
  - destruct (Next_fault _ _ _ _ _ E) as (w & x & Ex & Hw & Hx & ->). rewrite Ex in IH. eapply rg_fault; eassumption.
  - destruct (Next_res _ _ _ _ E) as (r & s' & pd' & N1 & N2 & N3 & N4 & N5 & N6). rewrite N4, N5. destruct (Z.eq_dec k EOF) as [Ek|Ek].
    + rewrite N3 in Ek. pose proof (next_eof _ _ _ _ _ N1 Ek N2) as T. rewrite next_nil in N1 by exact T. injection N1 as _ <- <-.
      eapply rg_end; [exact IH|]. apply trivia_end_nil, T.
    + rewrite N3 in Ek. destruct (next_one _ _ _ _ _ _ N1 N2 Ek N6) as (w & x & Ex & Hw & Hx & ->). rewrite Ex in IH. eapply rg_token; eassumption.
Qed.
Lemma rest_suffix code t : exists u, code = u ++ rest_of code t.
Proof. exists (firstn (tk_off t) code). unfold rest_of. rewrite firstn_skipn. reflexivity. Qed.
Lemma token_place code t m line col lit : read_tok code t -> loc code t m = EParse m line col lit -> exists k before y rest,
  read_token code k before y rest /\ shown k y lit /\
  (exists c, place (before ++ y) line c /\ col = c - Z.of_nat (length (runes lit))) /\ (plain k = true -> place before line col).
Proof.
  intros (t1 & c & H & S2 & S3) E. apply reached_reading in H.
  destruct (Next_res _ _ _ _ S2) as (r & s' & pd' & N1 & N2 & N3 & N4 & N5 & N6).
  destruct (Next_fields _ _ _ _ _ S2) as (r2 & s2 & pd2 & F1 & F2 & F3). rewrite N1 in F1. injection F1 as <- <- <-.
  pose proof S3 as S4. rewrite N3 in S4.
  destruct (next_one _ _ _ _ _ _ N1 N2 S4 N6) as (w & x & Ex & Hw & Hx & Hp). rewrite Ex in N1. destruct (one_lit _ _ _ _ _ _ _ Hw Hx N1) as (y & -> & L1 & L2).
  destruct (rest_suffix code t1) as (u & Eu). rewrite Ex in H, Eu. rewrite app_assoc in Eu. set (k := tk_of c t) in *. clearbody k.
  exists k, (u ++ w), y, s'. split; [exists (tk_prevDot t1), w; auto|].
  unfold loc in E. injection E as <- <- <-. rewrite F3, F2. pose proof (position_place code (u ++ w) y s' Eu) as P.
  cbn [GetPosition p_line p_col] in P. unfold GetPosition in P |- *. cbn [p_line p_col] in P |- *. split; [exact L1|]. split; [eexists; split; [exact P|ring]|]. intros Hpl. specialize (L2 Hpl).
  assert (El : lr_lit r = y) by (destruct k; try discriminate Hpl; exact L1). rewrite El. destruct L2 as (rs & -> & R1 & R2 & R3).
  rewrite runes_string by exact R2. pose proof (place_before _ _ _ _ R2 R1 (lf_string _ R2 R3) P) as Q.
  match goal with Q : place _ _ ?a |- place _ _ ?b => replace b with a by ring end. exact Q.
Qed.
Lemma fault_place code t k t' e : reached code t -> Next code t = (k, t', Some e) -> exists before x, read_fault code e before x.
Proof.
  intros H E. apply reached_reading in H. destruct (Next_fault _ _ _ _ _ E) as (w & x & Ex & Hw & Hx & _). destruct (rest_suffix code t) as (u & Eu). rewrite Ex in H, Eu.
  exists (u ++ w), x, (tk_prevDot t), w, (rest_of code t'). rewrite <- app_assoc. auto.
Qed.

(** * The driver *)
Definition err_ok (code : bytes) (e : option perr) : Prop :=
  match e with
  | None => True
  | Some e => (exists x t k t', e = ELex x /\ reached code t /\ Next code t = (k, t', Some x)) \/ (exists m t, e = loc code t m /\ read_tok code t)
  end.
Record rinv (code : bytes) (p : pst) : Prop := {
  r_code : a_code (p_ast p) = code;
  r_lval : reached code (v_token (p_lval p));
  r_cur : tk_ast (a_cur (p_ast p)) = true -> read_tok code (a_cur (p_ast p));
  r_err : err_ok code (a_err (p_ast p)) }.
Lemma look_r code p : rinv code p -> rinv code (look p).
Proof.
  intros [H1 H2 H3 H4]. unfold look. destruct (p_char p <? 0); [|constructor; assumption].
  unfold Lex. destruct (a_code (p_ast p)) as [|b c0] eqn:Ec.
  { constructor; cbn [p_ast p_lval set_token v_token]; try assumption. congruence. }
  rewrite H1. destruct (Next code (v_token (p_lval p))) as [[k u] [e|]] eqn:EN.
  - constructor; cbn [p_ast p_lval set_token v_token set_err a_code a_cur a_err].
    + congruence.
    + eapply re_next; eassumption.
    + exact H3.
    + left. exists e, (v_token (p_lval p)), k, u. auto.
  - destruct (k =? EOF) eqn:Ek; constructor; cbn [p_ast p_lval set_token v_token set_cur a_code a_cur a_err]; try congruence; try assumption; try (eapply re_next; eassumption).
    intros _. exists (v_token (p_lval p)), k. apply Z.eqb_neq in Ek. auto.
Qed.
Lemma look1_r code p : rinv code p -> rinv code (look1 p).
Proof. intros H. unfold look1. destruct (_ <=? _); [exact H|apply look_r, H]. Qed.
Lemma look2_r code p : rinv code p -> rinv code (look2 p).
Proof. intros H. unfold look2. destruct (_ =? _); [apply look_r|]; apply look1_r, H. Qed.
Lemma default_reduce p r : inv p -> default (p_state p) (p_tok (look2 p)) = Reduce r -> prodno r.
Proof.
  intros Hi Ed. destruct (inv_states p Hi) as [Hs Hst]. destruct (look2_inv p Hi) as (B1 & B2 & B3 & B4 & B5 & B6 & B7).
  assert (R : reduce_ok (p_state p) r = true).
  { destruct (checked _ Hs) as (_ & _ & HC). destruct (Z.eq_dec (at_ yyDef (p_state p)) (-2)) as [E|E].
    - destruct (HC (p_tok (look2 p))) as (_ & Hd & _).
      { destruct (inv_tokno _ B1) as [Hn|Hn]; [rewrite (B7 E Hn); unfold tokno, n_tokens; lia | exact Hn]. }
      unfold default_ok in Hd. rewrite Ed in Hd. exact Hd.
    - destruct (HC 1) as (_ & Hd & _); [unfold tokno, n_tokens; lia|]. unfold default_ok in Hd.
      replace (default (p_state p) 1) with (Reduce r) in Hd; [exact Hd|]. rewrite <- Ed. unfold default.
      apply Z.eqb_neq in E. rewrite E. reflexivity. }
  unfold reduce_ok in R. rewrite !andb_true_iff in R. unfold prodno. lia.
Qed.
Lemma reduce_r code p r p' : prodno r -> rinv code p -> reduce p r = Next_ p' -> rinv code p'.
Proof.
  intros Hr [H1 H2 H3 H4]. unfold reduce. destruct (tab yyR2 r) as [n|]; [|discriminate]. cbn [sbind].
  destruct (pop _ _ _) as [[stk' above']|]; [|discriminate]. destruct stk' as [|base stk']; [discriminate|].
  destruct (tab yyR1 r) as [r1|]; [|discriminate]. cbn [sbind]. destruct (goto_ _ _) as [q|]; [|discriminate]. cbn [sbind].
  destruct (act r _ _ _) as [[v' a']|] eqn:EA; [|discriminate]. cbn [sbind]. intros [= <-].
  destruct (act_input _ _ _ _ _ _ Hr EA) as (I1 & I2 & _). constructor; cbn [push p_ast p_lval].
  - congruence.
  - exact H2.
  - rewrite I2. exact H3.
  - destruct (act_step _ _ _ _ _ _ Hr EA) as [S1|(m & [M1 M2] & M3)]; [rewrite S1; exact H4|]. rewrite M3, H1. right. exists m, (a_cur (p_ast p)). auto.
Qed.
Lemma reduce_goes p r : match reduce p r with Done _ _ => False | _ => True end.
Proof.
  unfold reduce. destruct (tab yyR2 r) as [n|]; [|exact I]. cbn [sbind].
  destruct (pop _ _ _) as [[stk' above']|]; [|exact I]. destruct stk' as [|base stk']; [exact I|].
  destruct (tab yyR1 r) as [r1|]; [|exact I]. cbn [sbind]. destruct (goto_ _ _) as [q|]; [|exact I]. cbn [sbind].
  destruct (act r _ _ _) as [[v' a']|]; exact I.
Qed.
Lemma step_r code p : inv p -> rinv code p ->
  match step p with Next_ p' => rinv code p' | Done _ a => err_ok code (a_err a) | Crash _ => True end.
Proof.
  intros Hi H. destruct (inv_states p Hi) as [Hs Hst]. rewrite step_eq by (auto using inv_tokno).
  destruct (shift_of _ _) as [q|] eqn:Eq.
  - destruct (look_r _ _ H) as [H1 H2 H3 H4]. constructor; cbn [shift push p_ast p_lval]; assumption.
  - pose proof (look2_r _ _ H) as H'. destruct (default _ _) as [q|r| |] eqn:Ed; cbn [do_default].
    2: { pose proof (reduce_goes (look2 p) r) as G. destruct (reduce (look2 p) r) as [p'| |] eqn:Er; [|contradiction|exact I].
         eapply reduce_r; [eapply default_reduce; eassumption|exact H'|exact Er]. }
    2: apply H'.
    all: unfold fail; destruct (Error _ _) as [a'|] eqn:Ee; cbn [sbind]; [|exact I];
      apply Error_loc in Ee as [-> Ht]; cbn [a_err set_err]; rewrite (r_code _ _ H'); right; exists MSyntax, (a_cur (p_ast (look2 p))); split; [reflexivity|apply (r_cur _ _ H'), Ht].
Qed.
Lemma steps_r code n p p' : steps n p p' -> inv p -> rinv code p -> inv p' /\ rinv code p'.
Proof.
  induction 1 as [p|n p p1 p2 E H IH]; intros Hi Hr; [auto|]. pose proof (step_r code p Hi Hr) as S. rewrite E in S.
  pose proof (step_inv p Hi) as Si. rewrite E in Si. apply IH; [apply Si|exact S].
Qed.
Theorem parse_errors code a' e : parse code = Some (Ok (a', e)) -> err_ok code e.
Proof.
  unfold parse, Parse. cbn [NewAST a_code]. destruct (blank code) eqn:Hb; [intros [= <- <-]; exact I|].
  destruct (run_result _ (init_inv (NewAST code))) as (n & p' & R1 & R2 & R3 & R4 & R5).
  rewrite R5 by (rewrite init_potential; unfold parse_fuel; cbn [NewAST a_code]; lia).
  assert (R0 : rinv code (init_pst (NewAST code))).
  { constructor; [reflexivity|apply re_zero| |exact I]. intros Ha. discriminate Ha. }
  destruct (steps_r code _ _ _ R1 (init_inv _) R0) as [_ R]. pose proof (step_r code p' R3 R) as S.
  destruct (step p'); cbn [outcome]; [contradiction| |discriminate]. intros [= <- <-]. exact S.
Qed.
