(** The driver of y.go: what one step does, and invariants of all runs. *)
From Verif Require Import Bytes Utf8 Float64 GoTime Ast Lexer LexFacts LexSpec LexProofs Tables Parser Grammar CertData Cert.

(** * Lookahead *)
(** The state after making sure that a lookahead token is present. *)
Definition look (p : pst) : pst :=
  if p_char p <? 0 then
    let '(c, t', a') := Lex (p_ast p) (v_token (p_lval p)) in
    Pst (p_stk p) (p_above p) (p_state p) (set_token (p_lval p) t') c (tokno_of c) a'
  else p.
Lemma ensure_look p : ensure p = Ok (look p).
Proof.
  unfold ensure, look. destruct (p_char p <? 0); [|reflexivity].
  destruct (Lex (p_ast p) (v_token (p_lval p))) as [[c t'] a'].
  destruct (tokno_of_range c) as [_ ->]. reflexivity.
Qed.
Lemma look_stk p : p_stk (look p) = p_stk p /\ p_above (look p) = p_above p /\ p_state (look p) = p_state p.
Proof.
  unfold look. destruct (p_char p <? 0); [|auto].
  destruct (Lex (p_ast p) (v_token (p_lval p))) as [[c t'] a']. auto.
Qed.

(** * One step *)
Definition fail (a : astnode) : sres := a' <<- Error a MSyntax; Done 1 a'.
Definition shift (p : pst) (q : Z) : pst :=
  push (Pst (p_stk p) (p_above p) (p_state p) (p_lval p) (-1) (-1) (p_ast p)) (p_lval p) q.

Definition look1 (p : pst) : pst := if at_ yyPact (p_state p) <=? yyFlag then p else look p.
Definition look2 (p : pst) : pst := if at_ yyDef (p_state p) =? -2 then look (look1 p) else look1 p.

Definition do_default (p : pst) (d : action) : sres :=
  match d with
  | Accept => Done 0 (p_ast p)
  | Reduce r => reduce p r
  | Fail | Shift _ => fail (p_ast p)
  end.

Lemma no_error_shift stk : Forall (fun c => state (yys c)) stk -> find_error stk = Ok None.
Proof.
  induction 1 as [|c stk Hc _ IH]; [reflexivity|]. cbn [find_error].
  destruct (checked _ Hc) as (_ & Hs & _). unfold shift_of in Hs.
  rewrite pact_tab by exact Hc. cbn [bind].
  destruct ((0 <=? at_ yyPact (yys c) + yyErrCode) && (at_ yyPact (yys c) + yyErrCode <? yyLast)) eqn:E; [|exact IH].
  rewrite andb_true_iff in E. rewrite act_tab by lia. cbn [bind]. rewrite chk_tab by apply act_range. cbn [bind].
  destruct (at_ yyPact (yys c) <=? yyFlag) eqn:E1. { unfold yyFlag, yyErrCode in *. lia. }
  destruct ((at_ yyPact (yys c) + yyErrCode <? 0) || (yyLast <=? at_ yyPact (yys c) + yyErrCode)) eqn:E2; [lia|].
  destruct (chk (at_ yyAct (at_ yyPact (yys c) + yyErrCode)) =? yyErrCode); [discriminate | exact IH].
Qed.

Lemma yydefault_eq p : state (p_state p) -> Forall (fun c => state (yys c)) (p_stk p) ->
  (p_char p < 0 \/ tokno (p_tok p)) ->
  yydefault p = let p2 := if at_ yyDef (p_state p) =? -2 then look p else p in
                do_default p2 (default (p_state p) (p_tok p2)).
Proof.
  intros Hs Hst Hk. unfold yydefault. rewrite def_tab by exact Hs. cbn [sbind].
  destruct (checked _ Hs) as (Hd & _ & Hc).
  destruct (at_ yyDef (p_state p) =? -2) eqn:E.
  - cbv zeta. rewrite ensure_look. cbn [sbind].
    destruct (look_stk p) as (L1 & L2 & L3). rewrite L3.
    assert (Hk2 : tokno (p_tok (look p))).
    { unfold look. destruct (p_char p <? 0) eqn:E2.
      - destruct (Lex (p_ast p) (v_token (p_lval p))) as [[c t'] a']. apply tokno_of_range.
      - destruct Hk as [Hk|Hk]; [lia | exact Hk]. }
    destruct (Hc _ Hk2) as (_ & _ & Hdef). unfold defined in Hdef. unfold default. rewrite E in *.
    cbn [negb orb] in Hdef. destruct (exca_find yyExca (p_state p)) as [l|]; [|discriminate].
    destruct (exca_scan l (p_tok (look p))) as [y|]; [|discriminate]. cbn [sbind].
    destruct (y <? 0) eqn:Ey; cbn [andb do_default]; [reflexivity|].
    destruct (y =? 0) eqn:Ey0; [|reflexivity]. cbn [do_default]. unfold fail, sbind.
    destruct (Error (p_ast (look p)) MSyntax) as [a|q]; [|reflexivity].
    rewrite L1, no_error_shift by exact Hst. reflexivity.
  - cbn [sbind andb]. unfold default. rewrite E. destruct (at_ yyDef (p_state p) =? 0) eqn:E0; [|reflexivity].
    cbn [do_default]. unfold fail, sbind. destruct (Error (p_ast p) MSyntax) as [a|q]; [|reflexivity].
    rewrite no_error_shift by exact Hst. reflexivity.
Qed.

Lemma look_tokno p : (p_char p < 0 \/ tokno (p_tok p)) -> tokno (p_tok (look p)).
Proof.
  intros Hk. unfold look. destruct (p_char p <? 0) eqn:E2.
  - destruct (Lex (p_ast p) (v_token (p_lval p))) as [[c t'] a']. apply tokno_of_range.
  - destruct Hk as [Hk|Hk]; [lia | exact Hk].
Qed.

Lemma step_eq p : state (p_state p) -> Forall (fun c => state (yys c)) (p_stk p) ->
  (p_char p < 0 \/ tokno (p_tok p)) ->
  step p = match shift_of (p_state p) (p_tok (look1 p)) with
           | Some q => Next_ (shift (look p) q)
           | None => do_default (look2 p) (default (p_state p) (p_tok (look2 p)))
           end.
Proof.
  intros Hs Hst Hk. unfold step. rewrite pact_tab by exact Hs. cbn [sbind].
  unfold shift_of, look2, look1. destruct (at_ yyPact (p_state p) <=? yyFlag) eqn:E1.
  { rewrite yydefault_eq by assumption. reflexivity. }
  rewrite ensure_look. cbn [sbind]. destruct (look_stk p) as (L1 & L2 & L3).
  pose proof (look_tokno p Hk) as Hk2.
  assert (Hdef : yydefault (look p) =
    do_default (if at_ yyDef (p_state p) =? -2 then look (look p) else look p)
      (default (p_state p) (p_tok (if at_ yyDef (p_state p) =? -2 then look (look p) else look p)))).
  { rewrite yydefault_eq; rewrite ?L1, ?L3; auto. }
  destruct ((at_ yyPact (p_state p) + p_tok (look p) <? 0) || (yyLast <=? at_ yyPact (p_state p) + p_tok (look p))) eqn:E2;
    [exact Hdef|].
  rewrite act_tab by lia. cbn [sbind]. rewrite chk_tab by apply act_range. cbn [sbind].
  destruct (chk _ =? p_tok (look p)); [reflexivity | exact Hdef].
Qed.

(** * Popping *)
Lemma pop_app n a b above : length a = n -> pop n (a ++ b) above = Some (b, rev a ++ above).
Proof.
  revert a above. induction n as [|n IH]; intros [|x a] above H; try discriminate H; [reflexivity|].
  cbn [app pop]. rewrite IH by (simpl in H; lia). cbn [rev]. rewrite <- app_assoc. reflexivity.
Qed.

Lemma in_union q s cur : In q cur -> In s (pred q) -> In s (union cur).
Proof. intros H1 H2. unfold union. apply nodup_In, in_flat_map. eauto. Qed.

Lemma pred_0 : pred 0 = []. Proof. reflexivity. Qed.
Lemma path_bottom l : path (0 :: l) -> l = [].
Proof. intros H. inversion H as [|q s l' H1 H2]; [reflexivity|]. subst. destruct H1. Qed.

Lemma back_sound xs : forall cur bs q l, back cur xs = Some bs -> path (q :: l) -> In q cur ->
  ~ In (-1000) xs -> exists popped b rest, q :: l = popped ++ b :: rest /\
    map chk popped = xs /\ In b bs /\ path (b :: rest).
Proof.
  induction xs as [|x xs IH]; cbn [back]; intros cur bs q l H Hp Hq Hn.
  - injection H as <-. exists [], q, l. auto.
  - destruct (forallb (fun c => chk c =? x) cur) eqn:E; [|discriminate H].
    rewrite forallb_forall in E. specialize (E q Hq). apply Z.eqb_eq in E.
    inversion Hp as [|q' s l' Hs Hp2]; subst.
    + exfalso. apply Hn. left. exact bottom_label.
    + destruct (IH _ _ _ _ H Hp2 (in_union _ _ _ Hq Hs)) as (po & b & rest & E1 & E2 & E3 & E4).
      { intros Hi. apply Hn. right. exact Hi. }
      exists (q :: po), b, rest. cbn [app map]. rewrite E1, E2. auto.
Qed.

Lemma rhs_syms r : ~ In (-1000) (rev (map sym_no (rhs r))).
Proof.
  rewrite <- in_rev. unfold rhs, prod.
  destruct (nth_in_or_default (Z.to_nat (r - 1)) productions (n_module, [])) as [H| ->]; [|simpl; tauto].
  assert (E : forallb (fun p => negb (zmem (-1000) (map sym_no (snd p)))) productions = true) by (vm_compute; reflexivity).
  rewrite forallb_forall in E. specialize (E _ H). cbv beta in E. intros Hi. apply (proj2 (zmem_in _ _)) in Hi. rewrite Hi in E.
  discriminate E.
Qed.

Lemma path_state s l : path (s :: l) -> state s.
Proof.
  intros H. inversion H; subst; [unfold state, n_states; lia|].
  destruct (Z.lt_ge_cases s 0) as [Hb|Hb].
  - unfold pred in H2. replace (Z.to_nat s) with 0%nat in H2 by lia. destruct H2.
  - destruct (Z.lt_ge_cases s n_states) as [Hb2|Hb2]; [split; assumption|].
    unfold pred in H2. rewrite nth_overflow in H2; [destruct H2|].
    change (length preds) with 212%nat. unfold n_states in Hb2. lia.
Qed.
Lemma path_states l : path l -> Forall state l.
Proof.
  induction 1 as [|q s l Hs Hp IH]; [constructor; [unfold state, n_states; lia | constructor]|].
  constructor; [|exact IH]. eapply path_state. constructor; eassumption.
Qed.

(** A reduction in a well-formed stack. *)
Lemma reduce_eq p r s l : map yys (p_stk p) = s :: l -> path (s :: l) -> reduce_ok s r = true ->
  exists popped base rest q, p_stk p = popped ++ base :: rest /\
    map (fun c => chk (yys c)) (rev popped) = map sym_no (rhs r) /\
    q = goto (yys base) (nt_no (lhs r)) /\ chk q = - nt_no (lhs r) /\
    In (yys base) (pred q) /\ state q /\ path (map yys (base :: rest)) /\ prodno r /\
    height q + 1 <= height s + weights (map sym_no (rhs r)) /\
    reduce p r =
      let above := rev popped ++ p_above p in
      va <<- act r (fun i => nth (i - 1) above zero_slot) (hd zero_slot above) (p_ast p);
      let '(v', a') := va in
      Next_ (push (Pst (base :: rest) above (p_state p) (p_lval p) (p_char p) (p_tok p) a') v' q).
Proof.
  intros Hst Hp Hr. unfold reduce_ok in Hr. rewrite !andb_true_iff in Hr. destruct Hr as ((H1 & H2) & H3).
  destruct (back [s] (rev (map sym_no (rhs r)))) as [bs|] eqn:Eb; [|discriminate].
  destruct (back_sound _ _ _ _ _ Eb Hp (or_introl eq_refl) (rhs_syms r)) as (po & b & rest & E1 & E2 & E3 & E4).
  rewrite forallb_forall in H3. specialize (H3 b E3). cbv zeta in H3.
  rewrite !andb_true_iff in H3. destruct H3 as ((H3 & H4) & H5).
  unfold edge_ok in H3. rewrite !andb_true_iff in H3. destruct H3 as (H3 & H6). apply zmem_in in H6.
  rewrite <- Hst in E1. apply map_eq_app in E1. destruct E1 as (popped & st2 & E1 & Ep & Er).
  apply map_eq_cons in Er. destruct Er as (base & rest' & -> & Eb2 & Er2).
  assert (Hr : prodno r) by (unfold prodno; lia).
  destruct (prods_ok r Hr) as [R1 R2].
  exists popped, base, rest', (goto b (nt_no (lhs r))).
  split; [exact E1|]. split. { rewrite map_rev, <- map_map, Ep, E2. apply rev_involutive. }
  split; [congruence|]. split; [lia|]. split; [congruence|]. split; [unfold state; lia|].
  split. { cbn [map]. rewrite Eb2, Er2. exact E4. }
  split; [exact Hr|]. split; [lia|].
  unfold reduce.
  rewrite tab_at by (change (Z.of_nat (length yyR2)) with 113; unfold prodno, n_prods in Hr; lia). cbn [sbind].
  rewrite E1, pop_app; cycle 1.
  { rewrite R2, Nat2Z.id. apply (f_equal (@length Z)) in E2, Ep.
    rewrite rev_length, !map_length in E2. rewrite map_length in Ep. congruence. }
  rewrite tab_at by (change (Z.of_nat (length yyR1)) with 113; unfold prodno, n_prods in Hr; lia). cbn [sbind].
  rewrite R1. rewrite goto_goto; cycle 1.
  { rewrite Eb2. exact (path_state _ _ E4). }
  { destruct (lhs r); simpl; lia. }
  cbn [sbind]. rewrite Eb2. reflexivity.
Qed.


(** * The scanner under the driver *)
(** All token codes that the scanner returns without an error. *)
Definition kinds : list Z :=
  [ tDirective; tIdent; tProcedure; tVar; tEndProcedure; tIf; tThen; tElseIf; tElse; tEndIf; tFor;
    tEach; tIn; tTo; tLoop; tEndLoop; tBreak; tNot; tValueParam; tWhile; tGoToLabel; tContinue;
    tTry; tCatch; tEndTry; tNumber; tString; tNew; tFunction; tEndFunction; tReturn; tThrow;
    tNeEQ; tEQUAL; tLE; tGE; tOR; tAnd; tTrue; tFalse; tUndefind; tExport; tDate; tGoTo; tExecute;
    46; 47; 59; 40; 41; 44; 45; 43; 42; 63; 91; 93; 58; 37; 60; 62 ].

Lemma assoc_kinds (m : list (bytes * Z)) l k : assoc l m = Some k -> In k (map snd m).
Proof.
  induction m as [|[a b] m IH]; simpl; [discriminate|]. destruct (beqb l a); [intros [= ->]; auto | auto].
Qed.
Lemma in_keywords l k : assoc l keywords = Some k -> In k kinds.
Proof. intros H. apply assoc_kinds in H. unfold kinds. simpl in H |- *. intuition. Qed.
Lemma in_directives l k : assoc l directives = Some k -> In k kinds.
Proof. intros H. apply assoc_kinds in H. unfold kinds. simpl in H |- *. intuition. Qed.

Lemma next_kinds pd s r s' pd' : next pd s = (r, s', pd') -> lr_err r = None ->
  lr_tok r = EOF \/ (In (lr_tok r) kinds /\
    (lr_tok r = 58 -> lr_lit r = B ":") /\ (lr_tok r = 59 -> lr_lit r = B ";")).
Proof.
  unfold next. set (x := skipRegions _). intros H He.
  assert (K : forall k, In k kinds -> k <> 58 -> k <> 59 -> lr_tok r = k ->
     lr_tok r = EOF \/ (In (lr_tok r) kinds /\
    (lr_tok r = 58 -> lr_lit r = B ":") /\ (lr_tok r = 59 -> lr_lit r = B ";"))).
  { intros k H1 H2 H3 H4. right. rewrite H4. split; [exact H1|]. split; intros; congruence. }
  destruct (isLetter (cur x)).
  { destruct (scanIdentifier x) as [lit s1].
    destruct (if pd then None else assoc (fastToLower lit) keywords) as [t|] eqn:E; injection H as <- <- <-.
    - destruct pd; [discriminate|]. apply (K t); [exact (in_keywords _ _ E) | | | reflexivity];
      intros ->; apply assoc_kinds in E; vm_compute in E; intuition discriminate.
    - apply (K tIdent); [unfold kinds; simpl; tauto | discriminate | discriminate | reflexivity]. }
  destruct (cur x =? cDot) eqn:E0.
  { injection H as <- <- <-. apply Z.eqb_eq in E0. apply (K 46); [unfold kinds; simpl; tauto | lia | lia |]. exact E0. }
  destruct (isDigit (cur x)).
  { destruct (scanNumber x) as [[lit|e] s1]; injection H as <- <- <-; [|discriminate He].
    apply (K tNumber); [unfold kinds; simpl; tauto | discriminate | discriminate | reflexivity]. }
  destruct (cur x =? cApos).
  { destruct (scanString (cur x) x) as [[lit|e] s1]; [|injection H as <- <- <-; discriminate He].
    destruct (extractDigits lit) as [|b d]; injection H as <- <- <-; [discriminate He|].
    apply (K tDate); [unfold kinds; simpl; tauto | discriminate | discriminate | reflexivity]. }
  destruct (punct (cur x)) eqn:E1.
  { injection H as <- <- <-. right. cbn [lr_tok lr_lit]. split; [|split].
    - unfold punct in E1. rewrite !orb_true_iff, !Z.eqb_eq in E1. unfold kinds.
      repeat (destruct E1 as [E1|E1]; [|rewrite E1; simpl; tauto]). rewrite E1. simpl. tauto.
    - intros ->. reflexivity.
    - intros ->. reflexivity. }
  destruct (cur x =? 61). { injection H as <- <- <-. apply (K tEQUAL); [unfold kinds; simpl; tauto | discriminate | discriminate | reflexivity]. }
  destruct (cur x =? cQuote).
  { destruct (scanString (cur x) x) as [[lit|e] s1]; injection H as <- <- <-; [|discriminate He].
    apply (K tString); [unfold kinds; simpl; tauto | discriminate | discriminate | reflexivity]. }
  destruct (cur x =? 60) eqn:E2.
  { apply Z.eqb_eq in E2.
    destruct (nextLet x =? 62); [injection H as <- <- <-; apply (K tNeEQ); [unfold kinds; simpl; tauto | discriminate | discriminate | reflexivity]|].
    destruct (nextLet x =? 61); injection H as <- <- <-.
    - apply (K tLE); [unfold kinds; simpl; tauto | discriminate | discriminate | reflexivity].
    - apply (K 60); [unfold kinds; simpl; tauto | lia | lia | exact E2]. }
  destruct (cur x =? 62) eqn:E3.
  { apply Z.eqb_eq in E3. destruct (nextLet x =? 61); injection H as <- <- <-.
    - apply (K tGE); [unfold kinds; simpl; tauto | discriminate | discriminate | reflexivity].
    - apply (K 62); [unfold kinds; simpl; tauto | lia | lia | exact E3]. }
  destruct (cur x =? 38).
  { destruct (scanIdentifier (adv x)) as [lit s1].
    destruct (assoc (fastToLower (B "&" ++ lit)) directives) as [t|] eqn:E; injection H as <- <- <-; [|discriminate He].
    apply (K t); [exact (in_directives _ _ E) | | | reflexivity];
      intros ->; apply assoc_kinds in E; vm_compute in E; intuition discriminate. }
  destruct (cur x =? 126).
  { destruct (scanIdentifier (adv x)) as [lit s1]. injection H as <- <- <-.
    apply (K tGoToLabel); [unfold kinds; simpl; tauto | discriminate | discriminate | reflexivity]. }
  destruct (cur x =? EOF) eqn:E4; injection H as <- <- <-; [left; reflexivity | discriminate He].
Qed.

(** What the driver relies on about the value of a token. *)
Definition tok_value_ok (k : Z) (t : token) : Prop :=
  tk_ast t = true /\
  (k = 58 -> tk_lit t = B ":") /\ (k = 59 -> tk_lit t = B ";") /\
  (k = tString -> tk_value t = SStr (tk_lit t)) /\
  (k = tNumber -> exists f, tk_value t = SNum f) /\
  (k = tDate -> exists d, tk_value t = STime d) /\
  (k = tTrue -> tk_value t = SBool true) /\ (k = tFalse -> tk_value t = SBool false).

Lemma next_error_lit pd s r s' pd' e : next pd s = (r, s', pd') -> lr_err r = Some e ->
  lr_tok r = EOF \/ lr_lit r = encode (lr_tok r).
Proof.
  unfold next. set (x := skipRegions _). intros H He.
  repeat match type of H with
  | (if ?b then _ else _) = _ => destruct b
  | match ?b with _ => _ end = _ => destruct b
  end; injection H as <- <- <-; cbn [lr_tok lr_lit lr_err] in *; solve [discriminate He | auto].
Qed.

Lemma Next_kinds code t k t' : Next code t = (k, t', None) ->
  k = EOF \/ (In k kinds /\ tok_value_ok k t').
Proof.
  unfold Next. destruct (next (tk_prevDot t) (skipn (tk_off t) code)) as [[r s'] pd'] eqn:En.
  pose proof (next_kinds _ _ _ _ _ En) as HK.
  assert (HE : forall e, lr_err r = Some e -> lr_tok r = tNumber -> lr_lit r = encode tNumber).
  { intros e H1 H2. destruct (next_error_lit _ _ _ _ _ _ En H1) as [H3|H3]; [rewrite H2 in H3; discriminate | congruence]. }
  assert (HD : forall e, lr_err r = Some e -> lr_tok r = tDate -> lr_lit r = encode tDate).
  { intros e H1 H2. destruct (next_error_lit _ _ _ _ _ _ En H1) as [H3|H3]; [rewrite H2 in H3; discriminate | congruence]. }
  assert (HN : forall f, lr_tok r = tNumber -> parse_float (lr_lit r) = Some f -> lr_err r = None).
  { intros f H1 H2. destruct (lr_err r) as [e|]; [|reflexivity]. rewrite (HE e eq_refl H1) in H2. vm_compute in H2. discriminate. }
  assert (HT : lr_tok r = tDate -> (forallb (fun b => b2z b =? 48) (lr_lit r) = true \/ exists d, parse_date (lr_lit r) = Some d) -> lr_err r = None).
  { intros H1 H2. destruct (lr_err r) as [e|]; [|reflexivity]. rewrite (HD e eq_refl H1) in H2.
    destruct H2 as [H2|[d H2]]; vm_compute in H2; discriminate. }
  assert (Hgoal : lr_err r = None -> forall v, tok_value_ok (lr_tok r) (Token true v (lr_lit r) (length code - length s') pd') ->
     lr_tok r = EOF \/ In (lr_tok r) kinds /\ tok_value_ok (lr_tok r) (Token true v (lr_lit r) (length code - length s') pd')).
  { intros H1 v H2. destruct (HK H1) as [H3|(H3 & _)]; auto. }
  assert (Hlit : lr_err r = None -> (lr_tok r = 58 -> lr_lit r = B ":") /\ (lr_tok r = 59 -> lr_lit r = B ";")).
  { intros H1. destruct (HK H1) as [H3|(_ & H3)]; [rewrite H3; split; discriminate | exact H3]. }
  destruct (lr_tok r =? tNumber) eqn:E1.
  { apply Z.eqb_eq in E1. destruct (parse_float (lr_lit r)) as [f|] eqn:Ef; intros [= <- <-].
    pose proof (HN f E1 eq_refl) as He. apply Hgoal; [exact He|]. destruct (Hlit He) as [L1 L2].
    unfold tok_value_ok. cbn [tk_ast tk_lit tk_value].
    repeat apply conj; try assumption; try reflexivity; try (rewrite E1; intros X; discriminate X). intros _. exists f. reflexivity. }
  apply Z.eqb_neq in E1. destruct (lr_tok r =? tString) eqn:E2.
  { apply Z.eqb_eq in E2. intros [= <- <- He]. apply Hgoal; [exact He|]. destruct (Hlit He) as [L1 L2].
    unfold tok_value_ok. cbn [tk_ast tk_lit tk_value].
    repeat apply conj; try assumption; try reflexivity; try (rewrite E2; intros X; discriminate X); try (intros X; reflexivity); contradiction. }
  apply Z.eqb_neq in E2. destruct (lr_tok r =? tDate) eqn:E3.
  { apply Z.eqb_eq in E3.
    assert (HH : forall d, lr_err r = None -> lr_tok r = EOF \/ In (lr_tok r) kinds /\ tok_value_ok (lr_tok r) (Token true (STime d) (lr_lit r) (length code - length s') pd')).
    { intros d He. apply Hgoal; [exact He|]. destruct (Hlit He) as [L1 L2].
      unfold tok_value_ok. cbn [tk_ast tk_lit tk_value].
      repeat apply conj; try assumption; try reflexivity; try (rewrite E3; intros X; discriminate X). intros _. exists d. reflexivity. }
    destruct (forallb _ _) eqn:Ez; [intros [= <- <- He]; apply HH; exact He|].
    destruct (parse_date (lr_lit r)) as [d|] eqn:Ed; intros [= <- <-]. apply HH. apply HT; [exact E3|]. right. eexists. eassumption || reflexivity. }
  apply Z.eqb_neq in E3.
  assert (HH : forall v, lr_err r = None -> (lr_tok r = tTrue -> v = SBool true) -> (lr_tok r = tFalse -> v = SBool false) ->
     lr_tok r = EOF \/ In (lr_tok r) kinds /\ tok_value_ok (lr_tok r) (Token true v (lr_lit r) (length code - length s') pd')).
  { intros v He Hv1 Hv2. apply Hgoal; [exact He|]. destruct (Hlit He) as [L1 L2].
      unfold tok_value_ok. cbn [tk_ast tk_lit tk_value].
      repeat apply conj; try assumption; try reflexivity; contradiction. }
  destruct (lr_tok r =? tUndefind) eqn:E4.
  { apply Z.eqb_eq in E4. intros [= <- <- He]. apply HH; [exact He| |]; rewrite E4; discriminate. }
  destruct (lr_tok r =? tTrue) eqn:E5.
  { apply Z.eqb_eq in E5. intros [= <- <- He]. apply HH; [exact He| |]; rewrite E5; [reflexivity | discriminate]. }
  destruct (lr_tok r =? tFalse) eqn:E6.
  { apply Z.eqb_eq in E6. intros [= <- <- He]. apply HH; [exact He| |]; rewrite E6; [discriminate | reflexivity]. }
  apply Z.eqb_neq in E5, E6. intros [= <- <- He]. apply HH; [exact He| |]; contradiction.
Qed.

Lemma kinds_pos k : In k kinds -> 0 < k.
Proof.
  intros H. assert (E : forallb (fun k => 0 <? k) kinds = true) by (vm_compute; reflexivity).
  rewrite forallb_forall in E. apply E in H. lia.
Qed.

(** One call of Lex. *)
Lemma Lex_spec a t c t' a' : (tk_off t <= length (a_code a))%nat -> Lex a t = (c, t', a') ->
  a_code a' = a_code a /\ (tk_off t <= tk_off t' <= length (a_code a))%nat /\
  ((* a token *)
   (In c kinds /\ tok_value_ok c t' /\ Next (a_code a) t = (c, t', None) /\
    a' = set_cur a t' /\ (tk_off t < tk_off t')%nat)
   \/ (* the end *)
   (c = EOF /\ a' = a /\ (a_code a = [] /\ t' = t \/ Next (a_code a) t = (EOF, t', None) /\ a_code a <> []))
   \/ (* a lexical error *)
   (c = EOF /\ a_code a <> [] /\ exists k e, Next (a_code a) t = (k, t', Some e) /\ a' = set_err a (ELex e) /\ (tk_off t < tk_off t')%nat)).
Proof.
  intros Ht. unfold Lex. destruct (a_code a) as [|b0 code0] eqn:Ec.
  { intros [= <- <- <-]. rewrite Ec. split; [reflexivity|]. split; [simpl in *; lia|]. right. left. auto. }
  rewrite <- Ec in *. assert (Hne : a_code a <> []) by (rewrite Ec; discriminate). clear Ec b0 code0.
  destruct (Next (a_code a) t) as [[k u] e] eqn:EN.
  destruct (Next_progress _ _ Ht _ _ _ EN) as (_ & Hoff & Hp).
  destruct e as [e|].
  { intros [= <- <- <-]. split; [reflexivity|]. split; [exact Hoff|]. right. right.
    split; [reflexivity|]. split; [exact Hne|]. exists k, e. split; [reflexivity|]. split; [reflexivity|].
    destruct Hp as [(_ & Hp & _)|Hp]; [discriminate | exact Hp]. }
  destruct (k =? EOF) eqn:Ek.
  { apply Z.eqb_eq in Ek. subst k. intros [= <- <- <-]. split; [reflexivity|]. split; [exact Hoff|].
    right. left. auto. }
  apply Z.eqb_neq in Ek. intros [= <- <- <-]. split; [reflexivity|]. split; [exact Hoff|]. left.
  destruct (Next_kinds _ _ _ _ EN) as [H|[H1 H2]]; [contradiction|].
  split; [exact H1|]. split; [exact H2|]. split; [reflexivity|]. split; [reflexivity|].
  destruct Hp as [(Hp & _)|Hp]; [contradiction | exact Hp].
Qed.
