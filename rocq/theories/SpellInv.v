(** The leaves of parsed trees are texts of the source: names are words, strings bodies of
    literals, numbers finite floats, dates calendar dates. *)
From Verif Require Import Bytes Utf8 UnicodeTables Float64 GoTime Ast Lexer LexFacts Utf8Facts LexSpec LexProofs LexTrivia
  LexTokens LexStrings NumSpec NumProofs NumTokens Tok Syntax Tables Parser Grammar CertData Cert Driver DriverInv Trees CellInv StmtInd Printer PrintInv
  Properties_Literals Writes PrintToks.
Open Scope Z_scope.

(** * Tokens *)
Lemma scan_ident_chars n : forall s, Forall word_char (fst (scan_ident_fuel n s)).
Proof.
  induction n as [|n IH]; intros s; cbn [scan_ident_fuel]; [constructor|].
  destruct (isLetter (cur s) || isDigit (cur s)) eqn:E; [|constructor]. specialize (IH (adv s)).
  destruct (scan_ident_fuel n (adv s)) as [r s']. constructor; [|exact IH]. apply orb_true_iff in E as [E|E]; [left; apply isLetter_spec, E | right; apply isDigit_spec, E].
Qed.
Lemma scanIdentifier_chars s : chars_b (fst (scanIdentifier s)) = true.
Proof.
  unfold scanIdentifier. pose proof (scan_ident_chars (length s) s) as H. destruct (scan_ident_fuel (length s) s) as [r s'].
  cbn [fst] in *. apply chars_b_chars, H.
Qed.
Lemma scanIdentifier_word s : isLetter (cur s) = true -> wordb (fst (scanIdentifier s)) = true.
Proof.
  intros Hl. unfold scanIdentifier. destruct s as [|b s]; [discriminate|]. cbn [length scan_ident_fuel]. rewrite Hl. cbn [orb].
  pose proof (scan_ident_chars (length s) (adv (b :: s))) as H. destruct (scan_ident_fuel (length s) (adv (b :: s))) as [r s']. cbn [fst] in *.
  apply wordb_word. exists (cur (b :: s)), r. split; [reflexivity|]. split; [apply isLetter_spec, Hl|exact H].
Qed.

Definition words : list Z := tIdent :: map snd keywords.
Definition tok_text (k : Z) (lit : bytes) : Prop :=
  (In k words -> wordb lit = true) /\ (k = tDirective -> dirb lit = true) /\ (k = tGoToLabel -> chars_b lit = true) /\
  (k = tString -> string_text lit) /\ (k = tDate -> exists ds, digits ds /\ ds <> [] /\ lit = digit_text ds).
Lemma tok_other k lit : existsb (Z.eqb k) (tDirective :: tGoToLabel :: tString :: tDate :: words) = false -> tok_text k lit.
Proof.
  intros H. assert (X : forall z, In z (tDirective :: tGoToLabel :: tString :: tDate :: words) -> k <> z).
  { intros z Hz ->. assert (E : existsb (Z.eqb z) (tDirective :: tGoToLabel :: tString :: tDate :: words) = true); [|congruence].
    apply existsb_exists. exists z. split; [exact Hz|apply Z.eqb_refl]. }
  split; [|repeat split; intros E; exfalso; revert E; apply X; cbn; auto 10]. intros E. exfalso. apply (X k); [|reflexivity]. right. right. right. right. exact E.
Qed.
Lemma tok_word k lit : In k words -> wordb lit = true -> tok_text k lit.
Proof.
  intros Hk Hl. split; [auto|].
  assert (X : forall z, existsb (Z.eqb z) words = false -> k = z -> False).
  { intros z E ->. assert (E2 : existsb (Z.eqb z) words = true); [|congruence]. apply existsb_exists. exists z. split; [exact Hk|apply Z.eqb_refl]. }
  repeat split; intros E; exfalso; revert E; apply X; vm_compute; reflexivity.
Qed.
Lemma next_text pd s r s' pd' : next pd s = (r, s', pd') -> lr_err r = None -> tok_text (lr_tok r) (lr_lit r).
Proof.
  intros H He. pose proof (next_tString pd s r s' pd' H) as HS. unfold next in H. set (x := skipRegions _) in H. clearbody x.
  destruct (isLetter (cur x)) eqn:El.
  { pose proof (scanIdentifier_word x El) as Hw. destruct (scanIdentifier x) as [lit s1]. cbn [fst] in Hw.
    destruct (if pd then None else assoc (fastToLower lit) keywords) as [t|] eqn:E; injection H as <- <- <-; cbn [lr_tok lr_lit].
    - destruct pd; [discriminate|]. apply tok_word; [|exact Hw]. right. eapply assoc_kinds, E.
    - apply tok_word; [left; reflexivity|exact Hw]. }
  destruct (cur x =? cDot) eqn:E0.
  { injection H as <- <- <-. apply Z.eqb_eq in E0. cbn [lr_tok]. rewrite E0. apply tok_other. vm_compute. reflexivity. }
  destruct (isDigit (cur x)).
  { destruct (scanNumber x) as [[lit|e] s1]; injection H as <- <- <-; [|discriminate He]. apply tok_other. vm_compute. reflexivity. }
  destruct (cur x =? cApos) eqn:Ea.
  { apply Z.eqb_eq in Ea. rewrite Ea in H. destruct (scanString cApos x) as [[lit|e] s1] eqn:Es; [|injection H as <- <- <-; discriminate He].
    apply scanString_iff in Es as (v & Hs & ->); [|right; reflexivity].
    rewrite extractDigits_runes in H by (eapply str_text_valid; exact Hs).
    destruct (digit_text (digits_of v)) as [|b d] eqn:Ed; injection H as <- <- <-; [discriminate He|]. cbn [lr_tok lr_lit].
    split; [intros Hk; exfalso; revert Hk; vm_compute; intuition discriminate|]. split; [discriminate|]. split; [discriminate|]. split; [discriminate|]. intros _.
    exists (digits_of v). split; [apply digits_of_digits|]. split; [|congruence]. intros E. rewrite E in Ed. discriminate. }
  destruct (punct (cur x)) eqn:E1.
  { injection H as <- <- <-. cbn [lr_tok lr_lit]. unfold punct in E1. rewrite !orb_true_iff, !Z.eqb_eq in E1. apply tok_other.
    repeat (destruct E1 as [E1|E1]; [|rewrite E1; vm_compute; reflexivity]). rewrite E1. vm_compute. reflexivity. }
  destruct (cur x =? 61). { injection H as <- <- <-. apply tok_other. vm_compute. reflexivity. }
  destruct (cur x =? cQuote).
  { destruct (scanString (cur x) x) as [[lit|e] s1]; injection H as <- <- <-; [|discriminate He]. cbn [lr_tok lr_lit] in *.
    split; [intros Hk; exfalso; revert Hk; vm_compute; intuition discriminate|]. split; [discriminate|]. split; [discriminate|]. split; [|discriminate]. intros _. apply HS; reflexivity. }
  clear HS.
  destruct (cur x =? 60) eqn:E2.
  { apply Z.eqb_eq in E2.
    destruct (nextLet x =? 62); [injection H as <- <- <-; apply tok_other; vm_compute; reflexivity|].
    destruct (nextLet x =? 61); injection H as <- <- <-; cbn [lr_tok]; rewrite ?E2; apply tok_other; vm_compute; reflexivity. }
  destruct (cur x =? 62) eqn:E3.
  { apply Z.eqb_eq in E3. destruct (nextLet x =? 61); injection H as <- <- <-; cbn [lr_tok]; rewrite ?E3; apply tok_other; vm_compute; reflexivity. }
  destruct (cur x =? 38).
  { pose proof (scanIdentifier_chars (adv x)) as Hc. destruct (scanIdentifier (adv x)) as [lit s1]. cbn [fst] in Hc.
    destruct (assoc (fastToLower (B "&" ++ lit)) directives) as [t|] eqn:E; injection H as <- <- <-; [|discriminate He]. cbn [lr_tok lr_lit].
    assert (t = tDirective) as ->. { apply assoc_kinds in E. cbn in E. intuition. }
    split; [intros Hk; exfalso; revert Hk; vm_compute; intuition discriminate|]. split; [|repeat split; discriminate]. intros _.
    change (B "&" ++ lit) with (x26 :: lit) in *. unfold dirb. rewrite Hc, E. reflexivity. }
  destruct (cur x =? 126).
  { pose proof (scanIdentifier_chars (adv x)) as Hc. destruct (scanIdentifier (adv x)) as [lit s1]. cbn [fst] in Hc. injection H as <- <- <-. cbn [lr_tok lr_lit].
    split; [intros Hk; exfalso; revert Hk; vm_compute; intuition discriminate|]. split; [discriminate|]. split; [auto|]. split; discriminate. }
  destruct (cur x =? EOF); injection H as <- <- <-; [apply tok_other; vm_compute; reflexivity|discriminate He].
Qed.

Lemma leaf_built s : parts s = [] -> local s -> built s.
Proof. intros E H. constructor; [exact H|]. rewrite E. constructor. Qed.
Lemma dec_val_nonneg l : forallb is_digit_byte l = true -> 0 <= dec_val l.
Proof.
  unfold dec_val. assert (X : forall a, 0 <= a -> forallb is_digit_byte l = true -> 0 <= fold_left (fun a b => 10 * a + digit_val b) l a); [|apply X; lia].
  induction l as [|b l IH]; intros a Ha H; [exact Ha|]. cbn [forallb fold_left] in *. apply andb_true_iff in H as [H1 H2]. apply IH; [|exact H2].
  unfold is_digit_byte in H1. unfold digit_val. lia.
Qed.
Lemma parse_float_f64 s f : parse_float s = Some f -> is_f64 f.
Proof.
  unfold parse_float. destruct (split_dot s) as [ip [fr|]].
  - destruct (_ && _) eqn:E; [|discriminate]. rewrite !andb_true_iff in E. destruct E as ((E1 & E2) & _). intros H.
    apply to_f64_nearest in H; [apply H| |apply Z.pow_pos_nonneg; lia]. apply dec_val_nonneg. rewrite forallb_app, E1, E2. reflexivity.
  - destruct (_ && _) eqn:E; [|discriminate]. rewrite !andb_true_iff in E. destruct E as (E1 & _). intros H.
    apply to_f64_nearest in H; [apply H| |lia]. apply dec_val_nonneg, E1.
Qed.
Lemma zero_date : calendar_date zero_time.
Proof. apply calendar_spec. vm_compute. intuition discriminate. Qed.
Lemma date_calendar ds d : date_digits ds d -> calendar_date d.
Proof. intros H. inversion H; subst; try assumption. exact zero_date. Qed.

Definition tok_ok (k : Z) (t : token) : Prop :=
  (In k words -> wordb (tk_lit t) = true) /\ (k = tDirective -> dirb (tk_lit t) = true) /\ (k = tGoToLabel -> chars_b (tk_lit t) = true) /\
  (In k [tString; tNumber; tDate; tTrue; tFalse] -> built (tk_value t)).
Lemma Next_ok code t k t' : Next code t = (k, t', None) -> tok_ok k t'.
Proof.
  unfold Next. destruct (next (tk_prevDot t) (skipn (tk_off t) code)) as [[r s'] pd'] eqn:En. pose proof (next_text _ _ _ _ _ En) as HT.
  assert (HE : forall e, lr_err r = Some e -> lr_tok r = EOF \/ lr_lit r = encode (lr_tok r)) by (intros e; apply (next_error_lit _ _ _ _ _ _ En)).
  intros H.
  assert (lr_err r = None /\ k = lr_tok r /\ tk_lit t' = lr_lit r /\
    (k = tNumber -> exists f, parse_float (lr_lit r) = Some f /\ tk_value t' = SNum f) /\ (k = tString -> tk_value t' = SStr (lr_lit r)) /\
    (k = tDate -> exists d, tk_value t' = STime d /\ (d = zero_time \/ parse_date (lr_lit r) = Some d)) /\
    (k = tTrue \/ k = tFalse -> exists b, tk_value t' = SBool b)) as (K1 & K2 & K3 & K4 & K5 & K6 & K7).
  { destruct (lr_tok r =? tNumber) eqn:E1.
    { apply Z.eqb_eq in E1. destruct (parse_float (lr_lit r)) as [f|] eqn:Ef; [|discriminate]. injection H as <- <-. cbn [tk_lit tk_value]. rewrite E1.
      split. { destruct (lr_err r) as [e|]; [|reflexivity]. exfalso. destruct (HE e eq_refl) as [X|X]; [rewrite E1 in X; discriminate|]. rewrite X, E1 in Ef. vm_compute in Ef. discriminate. }
      split; [reflexivity|]. split; [reflexivity|]. split; [eauto|]. split; [discriminate|]. split; [discriminate|]. intros [X|X]; discriminate X. }
    apply Z.eqb_neq in E1. destruct (lr_tok r =? tString) eqn:E2.
    { apply Z.eqb_eq in E2. injection H as <- <- He. cbn [tk_lit tk_value]. rewrite E2. split; [exact He|]. split; [reflexivity|]. split; [reflexivity|].
      split; [discriminate|]. split; [reflexivity|]. split; [discriminate|]. intros [X|X]; discriminate X. }
    apply Z.eqb_neq in E2. destruct (lr_tok r =? tDate) eqn:E3.
    { apply Z.eqb_eq in E3. destruct (forallb _ _) eqn:Ez.
      - injection H as <- <- He. cbn [tk_lit tk_value]. rewrite E3. split; [exact He|]. split; [reflexivity|]. split; [reflexivity|].
        split; [discriminate|]. split; [discriminate|]. split; [eauto|]. intros [X|X]; discriminate X.
      - destruct (parse_date (lr_lit r)) as [d|] eqn:Ed; [|discriminate]. injection H as <- <-. cbn [tk_lit tk_value]. rewrite E3.
        split. { destruct (lr_err r) as [e|]; [|reflexivity]. exfalso. destruct (HE e eq_refl) as [X|X]; [rewrite E3 in X; discriminate|]. rewrite X, E3 in Ed. vm_compute in Ed. discriminate. }
        split; [reflexivity|]. split; [reflexivity|]. split; [discriminate|]. split; [discriminate|]. split; [eauto|]. intros [X|X]; discriminate X. }
    apply Z.eqb_neq in E3.
    destruct (lr_tok r =? tUndefind) eqn:E4.
    { apply Z.eqb_eq in E4. injection H as <- <- He. cbn [tk_lit tk_value]. rewrite E4. split; [exact He|]. split; [reflexivity|]. split; [reflexivity|].
      split; [discriminate|]. split; [discriminate|]. split; [discriminate|]. intros [X|X]; discriminate X. }
    destruct (lr_tok r =? tTrue) eqn:E5.
    { apply Z.eqb_eq in E5. injection H as <- <- He. cbn [tk_lit tk_value]. rewrite E5. split; [exact He|]. split; [reflexivity|]. split; [reflexivity|].
      split; [discriminate|]. split; [discriminate|]. split; [discriminate|]. eauto. }
    apply Z.eqb_neq in E5. destruct (lr_tok r =? tFalse) eqn:E6.
    { apply Z.eqb_eq in E6. injection H as <- <- He. cbn [tk_lit tk_value]. rewrite E6. split; [exact He|]. split; [reflexivity|]. split; [reflexivity|].
      split; [discriminate|]. split; [discriminate|]. split; [discriminate|]. eauto. }
    apply Z.eqb_neq in E6. injection H as <- <- He. cbn [tk_lit tk_value]. split; [exact He|]. split; [reflexivity|]. split; [reflexivity|].
    split; [contradiction|]. split; [contradiction|]. split; [contradiction|]. intros [X|X]; contradiction. }
  subst k. destruct (HT K1) as (T1 & T2 & T3 & T4 & T5). unfold tok_ok. rewrite K3. split; [exact T1|]. split; [exact T2|]. split; [exact T3|].
  intros [Hk|[Hk|[Hk|[Hk|[Hk|[]]]]]]; symmetry in Hk.
  - rewrite K5 by exact Hk. apply leaf_built; [reflexivity|]. apply T4, Hk.
  - destruct (K4 Hk) as (f & Hf & ->). apply leaf_built; [reflexivity|]. apply parse_float_f64 in Hf. cbn [local]. destruct f as [n m e]. destruct Hf as [Hn Hf]. cbn in Hn. subst n. split; [reflexivity|exact Hf].
  - destruct (K6 Hk) as (d & -> & Hd). apply leaf_built; [reflexivity|]. cbn [local]. destruct Hd as [->|Hd]; [apply zero_date|].
    destruct (T5 Hk) as (ds & D1 & D2 & D3). rewrite D3 in Hd. apply parse_date_sound in Hd; [|exact D1|exact D2]. eapply date_calendar, Hd.
  - destruct (K7 (or_introl Hk)) as (b & ->). apply leaf_built; [reflexivity|exact I].
  - destruct (K7 (or_intror Hk)) as (b & ->). apply leaf_built; [reflexivity|exact I].
Qed.

(** * Cells *)
Definition builts (b : slice) : Prop := Forall built (elems b).
Lemma builts_app b l : builts b -> Forall built l -> builts (gappend b l).
Proof. intros H1 H2. unfold gappend. destruct l; [exact H1|]. unfold builts. cbn [elems]. apply Forall_app. auto. Qed.
Lemma nil_built : built SNil. Proof. apply leaf_built; [reflexivity|exact I]. Qed.
Lemma undef_built : built SUndef. Proof. apply leaf_built; [reflexivity|exact I]. Qed.
Lemma minus_built s : built s -> built (unaryMinus s).
Proof. intros H. pose proof (built_inv _ H) as [H1 H2]. destruct s; cbn [unaryMinus]; try exact H; constructor; assumption || constructor. Qed.
Lemma not_built s : built s -> built (not_ s).
Proof. intros H. pose proof (built_inv _ H) as [H1 H2]. destruct s; cbn [not_]; try exact H; constructor; assumption || constructor. Qed.
Lemma word_text n : wordb n = true -> string_text n.
Proof.
  intros H. apply wordb_spec in H as (w & Hw & ->). exists w. split; [|reflexivity].
  assert (Hf : Forall word_char w). { destruct Hw as (c & w' & -> & Hc & Hw'). constructor; [left; exact Hc|exact Hw']. }
  clear Hw. induction Hf as [|c w Hc Hf IH]; [constructor|]. apply sb_char; [|intros ->|intros ->|exact IH].
  - destruct Hc as [Hc|Hc]; [apply letter_valid, isLetter_spec, Hc|]. unfold digit_char in Hc. unfold valid_rune. lia.
  - destruct Hc as [Hc|Hc]; [apply isLetter_spec in Hc; vm_compute in Hc; discriminate|unfold digit_char in Hc; lia].
  - destruct Hc as [Hc|Hc]; [apply isLetter_spec in Hc; vm_compute in Hc; discriminate|unfold digit_char in Hc; lia].
Qed.
Lemma label_built l : (forall n, l = Some n -> chars_b n = true) -> built (label_stmt l).
Proof. destruct l as [n|]; intros H; [apply leaf_built; [reflexivity|apply H; reflexivity]|apply nil_built]. Qed.

Definition param_ok (p : param) : Prop := built (fst (fst p)) /\ wordb (snd (fst p)) = true.
Definition label_ok (l : option bytes) : Prop := match l with Some n => chars_b n = true | None => True end.
Definition dirtok_ok (t : option token) : Prop := match t with Some t => dirb (tk_lit t) = true | None => True end.
Record sound (c : slot) : Prop := {
  s_if : built (v_stmt_if c);
  s_elseif : builts (v_opt_elseif_list c);
  s_else : builts (v_opt_else c);
  s_stmt : built (v_stmt c);
  s_loop : built (v_stmt_loop c);
  s_func : built (v_funcProc c);
  s_body : builts (v_body c);
  s_opt_body : builts (v_opt_body c);
  s_params : Forall param_ok (v_params c);
  s_param : built (fst (fst (v_param c)));
  s_exprs : builts (fst (v_exprs c));
  s_dir : dirtok_ok (v_opt_directive c);
  s_ids : Forall (fun t => wordb (tk_lit t) = true) (v_identifiers c);
  s_gvars : Forall gvar_ok (v_global_variables c);
  s_label : label_ok (v_goToLabel c) }.
Definition shaped (k : Z) (c : slot) : Prop :=
  (forall ch, In ch terminals -> k = tokno_of ch -> tok_ok ch (v_token c)) /\
  (k = - nt_no n_identifier -> identish (v_stmt c) = true) /\
  (k = - nt_no n_through_dot -> pathish (v_stmt c) = true) /\
  (k = - nt_no n_declarations_method_param -> wordb (snd (fst (v_param c))) = true).
Definition sound_module (m : module) : Prop := Forall gvar_ok (elems (m_gvars m)) /\ Forall built (elems (m_body m)).

Lemma sound_zero : sound zero_slot.
Proof. constructor; try (apply nil_built); try constructor. Qed.

Lemma gvars_sound vs : forall a a', append_gvars vs a = Ok a' -> Forall gvar_ok vs -> Forall gvar_ok (elems (m_gvars (a_module a))) -> Forall gvar_ok (elems (m_gvars (a_module a'))).
Proof.
  induction vs as [|v vs IH]; cbn [append_gvars]; intros a a' H Hv Ha; [injection H as <-; exact Ha|].
  apply Forall_cons_iff in Hv as [Hv Hvs]. destruct (append_gvar v a) as [a1|] eqn:E; [|discriminate]. cbn [bind] in H.
  apply (IH _ _ H Hvs). clear IH H. unfold append_gvar in E. cbv zeta in E.
  repeat match type of E with context [if ?b then _ else _] => destruct b end;
  try (apply Error_inv in E as [e ->]; exact Ha); injection E as <-; cbn [a_module set_module m_gvars elems]; apply Forall_app; auto.
Qed.

Lemma ident_path s : identish s = true -> pathish s = true.
Proof. destruct s; auto. Qed.
Lemma label_built' l : label_ok l -> built (label_stmt l).
Proof. intros H. apply label_built. intros n ->. exact H. Qed.
Lemma func_built ty dir name ps ex vars b : ty <> PFUndefined -> dirtok_ok dir -> wordb name = true -> Forall param_ok ps -> builts b ->
  built (createFunctionOrProcedure ty dir name ps ex vars b).
Proof.
  intros H1 H2 H3 H4 H5. unfold createFunctionOrProcedure. constructor; cbn [local parts].
  - split; [exact H3|]. split; [destruct dir; [right; exact H2|left; reflexivity]|]. split; [exact H1|]. eapply Forall_impl; [|exact H4]. intros p [_ Hp]. exact Hp.
  - apply Forall_app. split; [exact H5|]. apply Forall_map. eapply Forall_impl; [|exact H4]. intros p [Hp _]. exact Hp.
Qed.
Lemma mod_app b l : Forall built (elems b) -> Forall built l -> Forall built (elems (gappend b l)).
Proof. intros H1 H2. apply (builts_app b l); assumption. Qed.

Ltac tok_at Ht :=
  match goal with
  | |- wordb (lit_of (_ ?n)) = true => let i := eval cbv in (Nat.pred n) in apply (proj1 (Ht i _ eq_refl)); vm_compute; tauto
  | |- wordb (tk_lit (v_token (_ ?n))) = true => let i := eval cbv in (Nat.pred n) in apply (proj1 (Ht i _ eq_refl)); vm_compute; tauto
  | |- dirb (tk_lit (v_token (_ ?n))) = true => let i := eval cbv in (Nat.pred n) in apply (proj1 (proj2 (Ht i _ eq_refl))); reflexivity
  | |- chars_b (lit_of (_ ?n)) = true => let i := eval cbv in (Nat.pred n) in apply (proj1 (proj2 (proj2 (Ht i _ eq_refl)))); reflexivity
  | |- built (tk_value (v_token (_ ?n))) => let i := eval cbv in (Nat.pred n) in apply (proj2 (proj2 (proj2 (Ht i _ eq_refl)))); vm_compute; tauto
  end.
Ltac built_step Ht :=
  first [ apply nil_built | apply undef_built | assumption | tok_at Ht | apply minus_built | apply not_built | apply label_built' | apply func_built; [discriminate| | | |]
        | apply builts_app
        | match goal with H : forall i : nat, _ |- _ => solve [apply H] end
        | apply built_intro; [|cbn [parts]]
        | apply Forall_nil | apply Forall_cons | apply Forall_app; split
        | match goal with |- builts (Some _) => unfold builts; cbn [elems] | |- builts None => apply Forall_nil end
        | match goal with |- local _ => cbn [local] end
        | match goal with
          | |- True => exact I
          | |- _ <> OpUndefined => discriminate
          | |- PFFunction <> PFUndefined => discriminate
          | |- PFProcedure <> PFUndefined => discriminate
          | |- exists e, Some [_] = Some [e] => eexists; reflexivity
          | |- is_nil SNil = true \/ _ => left; reflexivity
          | |- is_nil _ = true \/ _ => right; eexists; split; [reflexivity|]
          | |- [] = [] \/ _ => left; reflexivity
          | |- lit_of _ = [] \/ _ => right
          | |- string_text _ => apply word_text
          | |- _ /\ _ => split
          | |- built (label_stmt _) => apply label_built
          end
        | match goal with H : forall i, nth_error _ i = Some (N n_identifier) -> _ |- identish (v_stmt (_ ?n)) = true => let i := eval cbv in (Nat.pred n) in apply (H i); reflexivity end
        | match goal with H : forall i, nth_error _ i = Some (N n_through_dot) -> _ |- pathish (v_stmt (_ ?n)) = true => let i := eval cbv in (Nat.pred n) in apply (H i); reflexivity end
        | match goal with H : forall i, nth_error _ i = Some (N n_declarations_method_param) -> _ |- wordb (snd (fst (v_param (_ ?n)))) = true => let i := eval cbv in (Nat.pred n) in apply (H i); reflexivity end ].
Lemma act_sound r d v a v' a' : prodno r -> act r d v a = Ok (v', a') ->
  (forall i, sound (d i)) -> v = d 1%nat -> sound_module (a_module a) ->
  (forall i y, nth_error (rhs r) i = Some y -> shaped (sym_no y) (d (S i))) ->
  sound v' /\ sound_module (a_module a') /\
  (lhs r = n_identifier -> identish (v_stmt v') = true) /\
  (lhs r = n_through_dot -> pathish (v_stmt v') = true) /\
  (lhs r = n_declarations_method_param -> wordb (snd (fst (v_param v'))) = true).
Proof.
  intros Hr H Hd Hv1 Ha HL. assert (Hv : sound v) by (subst v; apply Hd).
  assert (Ht : forall i ch, nth_error (rhs r) i = Some (T ch) -> tok_ok ch (v_token (d (S i)))).
  { intros i ch E. apply (proj1 (HL i _ E)); [|reflexivity]. eapply rhs_terminals; [exact Hr|eapply nth_error_In, E]. }
  assert (Hid : forall i, nth_error (rhs r) i = Some (N n_identifier) -> identish (v_stmt (d (S i))) = true) by (intros i E; apply (HL i _ E); reflexivity).
  assert (Hdot : forall i, nth_error (rhs r) i = Some (N n_through_dot) -> pathish (v_stmt (d (S i))) = true) by (intros i E; apply (HL i _ E); reflexivity).
  assert (Hpar : forall i, nth_error (rhs r) i = Some (N n_declarations_method_param) -> wordb (snd (fst (v_param (d (S i))))) = true) by (intros i E; apply (HL i _ E); reflexivity).
  clear HL. revert H. pose proof Hv as [V1 V2 V3 V4 V5 V6 V7 V8 V9 V10 V11 V12 V13 V14 V15].
  pose proof (fun i => s_if _ (Hd i)) as D1. pose proof (fun i => s_elseif _ (Hd i)) as D2.
  pose proof (fun i => s_else _ (Hd i)) as D3. pose proof (fun i => s_stmt _ (Hd i)) as D4.
  pose proof (fun i => s_loop _ (Hd i)) as D5. pose proof (fun i => s_func _ (Hd i)) as D6.
  pose proof (fun i => s_body _ (Hd i)) as D7. pose proof (fun i => s_opt_body _ (Hd i)) as D8.
  pose proof (fun i => s_params _ (Hd i)) as D9. pose proof (fun i => s_param _ (Hd i)) as D10.
  pose proof (fun i => s_exprs _ (Hd i)) as D11. pose proof (fun i => s_dir _ (Hd i)) as D12.
  pose proof (fun i => s_ids _ (Hd i)) as D13. pose proof (fun i => s_gvars _ (Hd i)) as D14. pose proof (fun i => s_label _ (Hd i)) as D15.
  all_prods r Hr; cbn [act]; intros H;
  try (injection H as <- <-; split; [constructor; cbn [set_yys set_token set_stmt_if set_opt_elseif_list set_opt_else set_stmt set_stmt_loop set_funcProc set_body set_opt_body set_params set_param set_exprs set_opt_export set_opt_directive set_explicit_variables set_global_variables set_opt_explicit_variables set_identifiers set_goToLabel binop
     v_token v_stmt_if v_opt_elseif_list v_opt_else v_stmt v_stmt_loop v_funcProc v_body v_opt_body v_params v_param v_exprs v_opt_directive v_identifiers v_global_variables v_goToLabel fst snd map dirtok_ok label_ok];
     solve [repeat built_step Ht]
    | split; [exact Ha|]; repeat split; intros E; try discriminate E; clear E; cbn [v_stmt set_stmt v_param set_param fst snd]; solve [reflexivity | tok_at Ht] ]).
  (* 2, 3 *)
  1,2: injection H as <- <-; split; [exact Hv|]; (split; [|repeat split; intros E; discriminate E]); destruct Ha as [Ha1 Ha2]; (split; [exact Ha1|]);
       cbn [a_module set_module m_body]; apply mod_app; [exact Ha2 | solve [apply D7 | apply D8]].
  (* 6 *)
  1: destruct (append_gvars _ a) as [a1|] eqn:E; [|discriminate]; injection H as <- <-; split; [exact Hv|]; (split; [|repeat split; intros E0; discriminate E0]);
     destruct Ha as [Ha1 Ha2]; split; [eapply gvars_sound; [exact E|apply D14|exact Ha1]|rewrite (append_gvars_body _ _ _ E); exact Ha2].
  (* 7 *)
  1: { unfold append_func in H. destruct (_ && _).
    - err_inv H. injection H as <- <-. split; [exact Hv|]. split; [exact Ha|]. repeat split; intros E; discriminate E.
    - injection H as <- <-. split; [exact Hv|]. split; [|repeat split; intros E; discriminate E]. destruct Ha as [Ha1 Ha2]. split; [exact Ha1|].
      apply (mod_app (m_body (a_module a)) [v_funcProc (d 1%nat)]); [exact Ha2|]. constructor; [apply D6 | constructor]. }
  (* 12 *)
  1: { injection H as <- <-. split; [constructor; auto|split; [exact Ha|repeat split; intros E; discriminate E]].
    cbn [v_global_variables set_global_variables]. apply Forall_map. eapply Forall_impl; [|apply (D13 3%nat)]. intros t Hw. split; [exact Hw|]. cbn [gv_dir].
    specialize (D12 1%nat). destruct (v_opt_directive (d 1%nat)); [right; exact D12|left; reflexivity]. }
  (* 19 *)
  1: { cbv zeta in H.
    assert (Hx : exists e, (v', a') = (if is_nil (v_stmt (d 3%nat)) then v else set_body v (gappend (v_body v) [v_stmt (d 3%nat)]), a) \/
       (v', a') = (if is_nil (v_stmt (d 3%nat)) then v else set_body v (gappend (v_body v) [v_stmt (d 3%nat)]), set_err a e)).
    { destruct (_ && _) in H.
      - err_inv H. injection H as <- <-. eexists. right. reflexivity.
      - cbn [bind] in H. injection H as <- <-. exists (ELex (LSyntax [])). left. reflexivity. }
    assert (Hg : sound (if is_nil (v_stmt (d 3%nat)) then v else set_body v (gappend (v_body v) [v_stmt (d 3%nat)]))).
    { destruct (is_nil _); [exact Hv|]. constructor; auto. cbn [v_body set_body]. apply builts_app; [exact V7|].
      constructor; [apply D4 | constructor]. }
    destruct Hx as [e [Hx|Hx]]; injection Hx as -> ->; (split; [exact Hg | split; [exact Ha|repeat split; intros E; discriminate E]]). }
  (* 26, 27 *)
  1,2: match type of H with context [appendVars ?x ?y] => destruct (appendVars x y) as [[m [n|]]|]; cbn [bind] in H; [| |discriminate] end;
       [ err_inv H |]; injection H as <- <-; (split; [constructor; auto | split; [exact Ha|repeat split; intros E; discriminate E]]).
  (* 49-52 *)
  1,2,3,4: check_inv H; injection H as <- <-; (split; [constructor; auto; cbn [v_stmt set_stmt]; repeat built_step Ht | split; [exact Ha|repeat split; intros E; discriminate E]]).
  (* 53 *)
  1: { injection H as <- <-. split; [constructor; auto; apply D4|]. split; [exact Ha|]. repeat split; intros E; try discriminate E. cbn [v_stmt set_stmt]. apply ident_path, (Hid 0%nat eq_refl). }
  (* 99 *)
  1: { specialize (Hpar 0%nat eq_refl). rewrite <- Hv1 in Hpar. destruct (v_param v) as [[x n] b]. injection H as <- <-. split; [constructor; auto|].
    - cbn [v_param set_param fst]. destruct (is_nil _); [apply undef_built | apply D4].
    - split; [exact Ha|]. repeat split; intros E; try discriminate E. exact Hpar. }
  (* 101, 102 *)
  1: injection H as <- <-; split; [constructor; auto|split; [exact Ha|repeat split; intros E; discriminate E]];
     cbn [v_params set_params]; constructor; [split; [apply D10|exact (Hpar 0%nat eq_refl)]|constructor].
  1: injection H as <- <-; split; [constructor; auto|split; [exact Ha|repeat split; intros E; discriminate E]];
     cbn [v_params set_params]; apply Forall_app; split; [apply D9|]; constructor; [split; [apply D10|exact (Hpar 2%nat eq_refl)]|constructor].
Qed.

Lemma sound_keeps : keeps sound shaped sound_module.
Proof.
  constructor.
  - exact sound_zero.
  - intros c q []; constructor; assumption.
  - intros c code k t' e Hc H. destruct Hc; constructor; assumption.
  - split; [|repeat split; intros E; vm_compute in E; discriminate E]. intros ch Hch E. exfalso. pose proof (tokno_of_range ch) as [Hr _]. rewrite <- E in Hr.
    unfold tokno in Hr. vm_compute in Hr. destruct Hr as [Hr _]. apply Hr. reflexivity.
  - intros k c Hk (code & t & Hn) Hc. pose proof (tokno_of_range k) as [Hr _]. unfold tokno in Hr.
    split; [|repeat split; intros E; exfalso; unfold nt_no in E; lia].
    intros ch Hch E. apply (tokno_of_kinds _ _ Hk Hch) in E. subst ch. eapply Next_ok, Hn.
  - intros k c q H. exact H.
  - intros r d v a v' a' Hr H Hd Hv Ha HL. destruct (act_sound _ _ _ _ _ _ Hr H Hd Hv Ha HL) as (G1 & G2 & G3 & G4 & G5).
    split; [exact G1|]. split; [exact G2|]. split.
    + intros ch _ E. exfalso. pose proof (tokno_of_range ch) as [Hc _]. pose proof (nt_no_pos (lhs r)). unfold tokno in Hc. lia.
    + split; [intros E; apply G3, nt_no_inj; lia|]. split; [intros E; apply G4, nt_no_inj; lia|]. intros E; apply G5, nt_no_inj; lia.
Qed.
(** The leaves of every tree that Parse returns can be written down. *)
Theorem history_built a : history a -> sound_module (a_module a).
Proof. apply (history_keeps _ _ _ _ sound_keeps). split; constructor. Qed.
