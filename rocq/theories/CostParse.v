(** Looking at the text: the driver. *)
From Verif Require Import Bytes Utf8 UnicodeTables Float64 GoTime Ast Lexer LexFacts LexSpec LexProofs LexTrivia LexTokens LexReject Tables Parser Grammar CertData Cert
  Driver DriverInv LoudFacts LoudParse Scanned FaultFacts Cost CostFacts.
Open Scope Z_scope.

Lemma c_default_eq p : state (p_state p) -> c_default p = if at_ yyDef (p_state p) =? -2 then c_ensure p else 0%nat.
Proof. intros Hs. unfold c_default. rewrite def_tab by exact Hs. reflexivity. Qed.
Lemma c_step_eq p : state (p_state p) ->
  c_step p = ((if (at_ yyPact (p_state p) <=? yyFlag)%Z then 0 else c_ensure p) +
    match shift_of (p_state p) (p_tok (look1 p)) with
    | Some _ => 0
    | None => if (at_ yyDef (p_state p) =? -2)%Z then c_ensure (look1 p) else 0
    end)%nat.
Proof.
  intros Hs. unfold c_step. rewrite pact_tab by exact Hs. unfold shift_of, look1. destruct (at_ yyPact (p_state p) <=? yyFlag) eqn:E1.
  { rewrite c_default_eq by exact Hs. reflexivity. }
  rewrite ensure_look. destruct (look_stk p) as (L1 & L2 & L3). f_equal. cbv zeta.
  assert (Hd : c_default (look p) = if at_ yyDef (p_state p) =? -2 then c_ensure (look p) else 0%nat) by (rewrite c_default_eq; rewrite L3; auto).
  destruct ((at_ yyPact (p_state p) + p_tok (look p) <? 0) || (yyLast <=? at_ yyPact (p_state p) + p_tok (look p))) eqn:E2; [exact Hd|].
  rewrite act_tab by lia. rewrite chk_tab by apply act_range. destruct (chk _ =? p_tok (look p)); [reflexivity|exact Hd].
Qed.

(** What is left to pay for a text. *)
Definition price (s : bytes) : Z := 21 * Z.of_nat (length s) - 2 * Z.of_nat (wordlen s).
Lemma price_nonneg s : 0 <= price s. Proof. pose proof (wordlen_le s). unfold price. lia. Qed.
Lemma price_le s : price s <= 21 * Z.of_nat (length s). Proof. unfold price. lia. Qed.
Lemma look_price p : Z.of_nat (c_ensure p) + price (rest_p (look p)) <= price (rest_p p) + 7.
Proof.
  unfold look, c_ensure. destruct (p_char p <? 0); [|lia]. unfold c_Lex, rest_p.
  destruct (Lex (p_ast p) (v_token (p_lval p))) as [[c t'] a'] eqn:EL. unfold Lex in EL. destruct (a_code (p_ast p)) as [|b0 code0] eqn:Ec.
  { injection EL as <- <- <-. cbn [p_ast p_lval v_token set_token]. rewrite Ec. lia. }
  rewrite <- Ec in *. set (code := a_code (p_ast p)) in *. destruct (Next code (v_token (p_lval p))) as [[k t2] e] eqn:EN. destruct (Next_nerr _ _ _ _ _ EN) as (r & R1 & _).
  assert (t2 = t') as -> by (destruct e; [|destruct (k =? EOF)]; congruence).
  assert (Ha : a_code a' = code) by (destruct e; [|destruct (k =? EOF)]; injection EL as _ <-; reflexivity).
  cbn [p_ast p_lval v_token set_token]. rewrite Ha. fold (rest_of code (v_token (p_lval p))). pose proof (next_paid _ _ _ _ _ R1). unfold price. lia.
Qed.
Lemma step_price p : inv p -> match step p with
  | Next_ p' => Z.of_nat (c_step p) + price (rest_p p') <= price (rest_p p) + 14
  | _ => Z.of_nat (c_step p) <= price (rest_p p) + 14
  end.
Proof.
  intros Hi. destruct (inv_states p Hi) as [Hs Hst]. rewrite (c_step_eq p Hs). rewrite step_eq by (auto using inv_tokno).
  assert (Q1 : Z.of_nat (if at_ yyPact (p_state p) <=? yyFlag then 0%nat else c_ensure p) + price (rest_p (look1 p)) <= price (rest_p p) + 7).
  { unfold look1. destruct (_ <=? _); [lia|apply look_price]. }
  set (n1 := if at_ yyPact (p_state p) <=? yyFlag then 0%nat else c_ensure p) in *. clearbody n1.
  destruct (shift_of (p_state p) (p_tok (look1 p))) as [q|] eqn:Eq.
  - assert (look1 p = look p) as EL by (unfold look1; rewrite (shift_flag _ _ _ Eq); reflexivity). rewrite EL in *.
    change (rest_p (shift (look p) q)) with (rest_p (look p)). lia.
  - assert (Q2 : Z.of_nat (if at_ yyDef (p_state p) =? -2 then c_ensure (look1 p) else 0%nat) + price (rest_p (look2 p)) <= price (rest_p (look1 p)) + 7).
    { unfold look2. destruct (_ =? -2); [apply look_price|lia]. }
    set (n2 := if at_ yyDef (p_state p) =? -2 then c_ensure (look1 p) else 0%nat) in *. clearbody n2.
    pose proof (price_nonneg (rest_p (look2 p))). pose proof (step_inv p Hi) as Hok. rewrite step_eq in Hok by (auto using inv_tokno). rewrite Eq in Hok.
    destruct (look2_inv p Hi) as (_ & _ & _ & _ & B5 & _).
    destruct (do_default (look2 p) (default (p_state p) (p_tok (look2 p)))) as [p'|x a|q] eqn:Ed; [|lia|lia].
    assert (rest_p p' = rest_p (look2 p)) as ->; [|lia]. destruct Hok as (_ & _ & H3 & _). unfold rest_p. rewrite H3, B5. f_equal. f_equal.
    destruct (default (p_state p) (p_tok (look2 p))) as [z|r| |]; cbn [do_default] in Ed.
    + unfold fail, sbind in Ed. destruct (Error _ _); discriminate Ed.
    + eapply reduce_keep, Ed.
    + discriminate Ed.
    + unfold fail, sbind in Ed. destruct (Error _ _); discriminate Ed.
Qed.
Lemma run_price f : forall p, inv p -> Z.of_nat (c_run f p) <= price (rest_p p) + 14 * (potential p + 1).
Proof.
  induction f as [|f IH]; intros p Hi; cbn [c_run].
  { pose proof (price_nonneg (rest_p p)). pose proof (potential_nonneg p). lia. }
  pose proof (step_price p Hi) as H. pose proof (step_inv p Hi) as Hok. pose proof (potential_nonneg p).
  destruct (step p) as [p'|x a|q]; [|lia|lia]. destruct Hok as (H1 & H2 & _). specialize (IH p' H1). lia.
Qed.
