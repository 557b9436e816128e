(** Invariants of all runs of the driver: no index out of range, termination,
    errors stick, and the only possible panic. *)
From Verif Require Import Bytes Utf8 Float64 GoTime Ast Lexer LexFacts LexSpec LexProofs Tables Parser Grammar CertData Cert Driver.

(** * Semantic actions *)
(** Case analysis on the production number. *)
Ltac all_prods r H :=
  let Hin := fresh in
  assert (Hin : In r (seqZ 1 112)) by (apply in_seqZ; unfold prodno, n_prods in H; lia);
  vm_compute in Hin;
  repeat (destruct Hin as [<-|Hin]; [|]); [..|destruct Hin].

Lemma Error_ok a m : tk_ast (a_cur a) = true -> exists e, Error a m = Ok (set_err a e).
Proof. intros H. unfold Error. rewrite H. eauto. Qed.
Lemma Error_inv a m a' : Error a m = Ok a' -> exists e, a' = set_err a e.
Proof. unfold Error. destruct (tk_ast (a_cur a)); [|discriminate]. intros [= <-]. eauto. Qed.

(** [a'] differs from [a] only by what the actions of the grammar may change; an
    error is never removed. *)
Definition same_input (a a' : astnode) : Prop :=
  a_code a' = a_code a /\ a_cur a' = a_cur a /\ (a_err a <> None -> a_err a' <> None).
Lemma same_input_refl a : same_input a a. Proof. repeat split; auto. Qed.
Lemma same_input_trans a b c : same_input a b -> same_input b c -> same_input a c.
Proof. intros (A1 & A2 & A3) (B1 & B2 & B3). repeat split; try congruence. auto. Qed.
Lemma same_input_err a e : same_input a (set_err a e).
Proof. repeat split; auto. intros _. discriminate. Qed.

Lemma append_gvar_input v a a' : append_gvar v a = Ok a' -> same_input a a'.
Proof.
  unfold append_gvar. destruct (negb _).
  { intros H. apply Error_inv in H as [e ->]. apply same_input_err. }
  destruct (mem _ _).
  { intros H. apply Error_inv in H as [e ->]. repeat split; auto. intros _. discriminate. }
  intros [= <-]. repeat split; auto.
Qed.
Lemma append_gvars_input vs : forall a a', append_gvars vs a = Ok a' -> same_input a a'.
Proof.
  induction vs as [|v vs IH]; cbn [append_gvars]; intros a a' H; [injection H as <-; apply same_input_refl|].
  destruct (append_gvar v a) as [a1|q] eqn:E; [|discriminate]. cbn [bind] in H.
  eapply same_input_trans; [eapply append_gvar_input; exact E | eauto].
Qed.

Ltac error_case :=
  match goal with |- context [Error ?a ?m] => let E := fresh in let e := fresh in
    destruct (Error a m) as [|] eqn:E; [|discriminate]; apply Error_inv in E as [e ->];
    cbn [bind]; intros [= <- <-]; apply same_input_err end.
Ltac vars_case :=
  match goal with |- context [appendVars ?x ?y] => destruct (appendVars x y) as [[m [n|]]|]; cbn [bind]; [| |discriminate] end;
    [ error_case | intros [= <- <-]; apply same_input_refl ].
Ltac check_case :=
  unfold checkLoopOperator, checkThrowParam, checkReturnParam;
  match goal with |- context [if ?c then _ else _] => destruct c end;
    [ error_case | cbn [bind]; intros [= <- <-]; apply same_input_refl ].

Lemma act_input r d v a v' a' : prodno r -> act r d v a = Ok (v', a') -> same_input a a'.
Proof.
  intros Hr. all_prods r Hr; cbn [act];
  try (intros [= <- <-]; apply same_input_refl);
  try (intros [= <- <-]; repeat split; solve [auto]).
  (* 6: append_gvars *)
  1: { destruct (append_gvars _ a) as [a1|] eqn:E; [|discriminate]. cbn [bind]. intros [= <- <-]. eapply append_gvars_input; exact E. }
  (* 7 *)
  1: { unfold append_func. destruct (_ && _).
    - destruct (Error a MFuncPlace) as [a1|] eqn:E; [|discriminate]. apply Error_inv in E as [e ->]. cbn [bind]. intros [= <- <-]. apply same_input_err.
    - cbn [bind]. intros [= <- <-]. repeat split; auto. }
  (* 19 *)
  1: { cbv zeta. destruct (_ && _).
    - destruct (Error a MSemicolon) as [a1|] eqn:E; [|discriminate]. apply Error_inv in E as [e ->]. cbn [bind]. intros [= <- <-]. apply same_input_err.
    - cbn [bind]. intros [= <- <-]. apply same_input_refl. }
  (* 26, 27 *)
  1: vars_case. 1: vars_case.
  (* 49, 50, 51, 52 *)
  1: check_case. 1: check_case. 1: check_case. 1: check_case.
  (* 99 *)
  1: { destruct (v_param v) as [[x n] b]. intros [= <- <-]. apply same_input_refl. }
Qed.

Lemma appendVars_some ids : forall l q, appendVars (Some l) ids <> Panic q.
Proof.
  induction ids as [|v ids IH]; intros l q; cbn [appendVars]; [discriminate|].
  destruct (mem v (elems (Some l))); [discriminate | apply IH].
Qed.
Lemma appendVars_none ids q : appendVars None ids = Panic q -> q = PNilMap.
Proof. destruct ids as [|v ids]; cbn [appendVars]; [discriminate|]. simpl. intros [= <-]. reflexivity. Qed.

Lemma appendVars_keeps ids : forall l, appendVars (Some l) ids <> Ok (None, None).
Proof.
  induction ids as [|x ids IH]; intros l; cbn [appendVars]; [discriminate|].
  destruct (mem x (elems (Some l))); [discriminate | apply IH].
Qed.

Lemma append_gvars_ok vs : forall a, tk_ast (a_cur a) = true -> exists a', append_gvars vs a = Ok a'.
Proof.
  induction vs as [|v vs IH]; intros a H; cbn [append_gvars]; [eauto|].
  assert (E : exists a1, append_gvar v a = Ok a1).
  { unfold append_gvar. destruct (negb _); [destruct (Error_ok a MGlobalPlace H) as [e ->]; eauto|].
    destruct (mem _ _); [|eauto]. 
    match goal with |- context [Error ?x ?y] => destruct (Error_ok x y H) as [e ->]; eauto end. }
  destruct E as [a1 E]. rewrite E. cbn [bind]. apply IH.
  destruct (append_gvar_input _ _ _ E) as (_ & -> & _). exact H.
Qed.

(** After the first token only production 27 can panic, when the map of the
    variables declared before is nil. *)
Ltac check_panic Ha :=
  unfold checkLoopOperator, checkThrowParam, checkReturnParam;
  match goal with |- context [if ?c then _ else _] => destruct c end;
  [match goal with |- context [Error ?a ?m] => let e := fresh in destruct (Error_ok a m Ha) as [e ->] end|]; discriminate.
Lemma act_panic r d v a q : prodno r -> tk_ast (a_cur a) = true -> act r d v a = Panic q ->
  q = PNilMap /\ r = 27 /\ v_explicit_variables (d 1%nat) = None.
Proof.
  intros Hr Ha. all_prods r Hr; cbn [act]; try discriminate.
  1: { destruct (append_gvars_ok (v_global_variables (d 1%nat)) a Ha) as [a1 ->]. discriminate. }
  1: { unfold append_func. destruct (_ && _); [destruct (Error_ok a MFuncPlace Ha) as [e ->]|]; discriminate. }
  1: { cbv zeta. destruct (_ && _); [destruct (Error_ok a MSemicolon Ha) as [e ->]|]; discriminate. }
  1: { destruct (appendVars (Some []) _) as [[m [n|]]|] eqn:E; cbn [bind].
       - destruct (Error_ok a (MVarDup n) Ha) as [e ->]. discriminate.
       - discriminate.
       - destruct (appendVars_some _ _ _ E). }
  1: { destruct (v_explicit_variables (d 1%nat)) as [l|] eqn:E0;
       destruct (appendVars _ (map tk_lit (v_identifiers (d 3%nat)))) as [[m [n|]]|] eqn:E; cbn [bind];
       try (destruct (Error_ok a (MVarDup n) Ha) as [e ->]); try discriminate.
       - destruct (appendVars_some _ _ _ E).
       - apply appendVars_none in E. intros [= <-]. auto. }
  1: check_panic Ha. 1: check_panic Ha. 1: check_panic Ha. 1: check_panic Ha.
  1: { destruct (v_param v) as [[x n] b]. discriminate. }
Qed.

(** A nil map of declared variables comes with a recorded error. *)
Lemma act_vars r d v a v' a' : prodno r -> act r d v a = Ok (v', a') -> lhs r = n_explicit_variables ->
  (r = 27 -> v_explicit_variables (d 1%nat) = None -> a_err a <> None) ->
  v_explicit_variables v' = None -> a_err a' <> None.
Proof.
  intros Hr. all_prods r Hr; try (intros _ H; discriminate H); cbn [act].
  - destruct (appendVars (Some []) _) as [[m [n|]]|] eqn:E; cbn [bind]; [| |discriminate].
    + destruct (Error a (MVarDup n)) as [a1|] eqn:E2; [|discriminate]. apply Error_inv in E2 as [e ->].
      cbn [bind]. intros [= <- <-] _ _ _. discriminate.
    + intros [= <- <-] _ _. cbn [v_explicit_variables set_explicit_variables]. intros ->. destruct (appendVars_keeps _ _ E).
  - destruct (appendVars _ (map tk_lit (v_identifiers (d 3%nat)))) as [[m [n|]]|] eqn:E; cbn [bind]; [| |discriminate].
    + destruct (Error a (MVarDup n)) as [a1|] eqn:E2; [|discriminate]. apply Error_inv in E2 as [e ->].
      cbn [bind]. intros [= <- <-] _ _ _. discriminate.
    + intros [= <- <-] _ H. cbn [v_explicit_variables set_explicit_variables]. intros ->. apply H; [reflexivity|]. revert E.
      destruct (v_explicit_variables (d 1%nat)) as [l0|]; [|reflexivity]. intros E. destruct (appendVars_keeps _ _ E).
Qed.

(** * The invariant *)
Definition fresh (p : pst) : Prop :=
  p_char p < 0 /\ (map yys (p_stk p) = [0] \/ map yys (p_stk p) = [1; 0]).
Definition vars_ok (a : astnode) (c : slot) : Prop :=
  chk (yys c) = - nt_no n_explicit_variables -> v_explicit_variables c = None -> a_err a <> None.
Record inv (p : pst) : Prop := {
  i_path : path (map yys (p_stk p));
  i_top : exists l, map yys (p_stk p) = p_state p :: l;
  i_look : p_char p < 0 \/ (In (p_char p) kinds /\ p_tok p = tokno_of (p_char p) /\
                            tok_value_ok (p_char p) (v_token (p_lval p)));
  i_off : (tk_off (v_token (p_lval p)) <= length (a_code (p_ast p)))%nat;
  i_lval : p_lval p = set_token zero_slot (v_token (p_lval p));
  i_cur : tk_ast (a_cur (p_ast p)) = true \/ fresh p;
  i_vars : Forall (vars_ok (p_ast p)) (p_stk p) }.

(** What is still to be read, in bytes; a token read but not yet shifted counts for one. *)
Definition todo (p : pst) : Z :=
  Z.of_nat (length (a_code (p_ast p)) - tk_off (v_token (p_lval p))) + (if p_char p <? 0 then 0 else 1).
Definition potential (p : pst) : Z :=
  10 * todo p + weights (map (fun c => chk (yys c)) (p_stk p)) + height (p_state p).

Lemma height_nonneg s : 0 <= height s.
Proof.
  unfold height, at_. destruct (nth_in_or_default (Z.to_nat s) heights 0) as [H| ->]; [|lia].
  assert (E : forallb (Z.leb 0) heights = true) by (vm_compute; reflexivity).
  rewrite forallb_forall in E. apply E in H. lia.
Qed.
Lemma weights_nonneg l : 0 <= weights l.
Proof. induction l as [|x l IH]; cbn [weights]; [lia|]. unfold weight. destruct (0 <? x); lia. Qed.
Lemma weights_app a b : weights (a ++ b) = weights a + weights b.
Proof. induction a as [|x a IH]; cbn [app weights]; lia. Qed.
Lemma weights_rev a : weights (rev a) = weights a.
Proof. induction a as [|x a IH]; cbn [rev weights]; [lia|]. rewrite weights_app. cbn [weights]. lia. Qed.
Lemma potential_nonneg p : 0 <= potential p.
Proof.
  unfold potential, todo. pose proof (height_nonneg (p_state p)).
  pose proof (weights_nonneg (map (fun c => chk (yys c)) (p_stk p))). destruct (p_char p <? 0); lia.
Qed.

Lemma vars_ok_mono a a' l : (a_err a <> None -> a_err a' <> None) -> Forall (vars_ok a) l -> Forall (vars_ok a') l.
Proof. intros H. apply Forall_impl. unfold vars_ok. auto. Qed.

Lemma look_inv p : inv p ->
  inv (look p) /\ potential (look p) <= potential p /\
  a_code (p_ast (look p)) = a_code (p_ast p) /\ (a_err (p_ast p) <> None -> a_err (p_ast (look p)) <> None) /\
  (p_char (look p) < 0 -> p_tok (look p) = 1).
Proof.
  intros [Hp Ht Hl Ho Hv Hc Hx]. unfold look. destruct (p_char p <? 0) eqn:E.
  2: { split; [constructor; assumption|]. split; [lia|]. split; [reflexivity|]. split; [auto|]. intros. lia. }
  destruct (Lex (p_ast p) (v_token (p_lval p))) as [[c t'] a'] eqn:EL.
  destruct (Lex_spec _ _ _ _ _ Ho EL) as (L1 & L2 & L3).
  assert (Hlv : set_token (p_lval p) t' = set_token zero_slot (v_token (set_token (p_lval p) t'))).
  { rewrite Hv. reflexivity. }
  assert (Herr : a_err (p_ast p) <> None -> a_err a' <> None).
  { destruct L3 as [(_ & _ & _ & -> & _)|[(_ & -> & _)|(_ & _ & k & e & _ & -> & _)]]; auto. intros _. discriminate. }
  unfold potential, todo. cbn [p_stk p_above p_state p_lval p_char p_tok p_ast v_token set_token].
  rewrite L1, E. split; [|split; [|split; [|split]]].
  - constructor; cbn [p_stk p_above p_state p_lval p_char p_tok p_ast v_token set_token]; auto.
    + destruct L3 as [(K1 & K2 & _)|[(-> & _)|(-> & _)]]; [right; auto | left; unfold EOF; lia | left; unfold EOF; lia].
    + rewrite L1. apply L2.
    + destruct L3 as [(K1 & K2 & _ & -> & _)|L3]; [left; apply K2|].
      assert (c = EOF /\ a_cur a' = a_cur (p_ast p)) as [-> ->].
      { destruct L3 as [(-> & -> & _)|(-> & _ & k & e & _ & -> & _)]; auto. }
      destruct Hc as [Hc|[_ Hc]]; [left; exact Hc | right; split; [cbn; unfold EOF; lia | exact Hc]].
    + eapply vars_ok_mono; eauto.
  - destruct L3 as [(K1 & _ & _ & _ & K3)|[(-> & _)|(-> & _)]]; change (EOF <? 0) with true; cbv iota; [|lia|lia].
    apply kinds_pos in K1. destruct (c <? 0) eqn:E2; lia.
  - reflexivity.
  - exact Herr.
  - intros H. destruct L3 as [(K1 & _)|[(-> & _)|(-> & _)]]; [apply kinds_pos in K1; lia | reflexivity | reflexivity].
Qed.

Lemma inv_states p : inv p -> state (p_state p) /\ Forall (fun c => state (yys c)) (p_stk p).
Proof.
  intros [Hp (l & Ht) _ _ _ _ _]. rewrite Ht in Hp. split; [eapply path_state; exact Hp|].
  rewrite <- Ht in Hp. apply path_states in Hp. rewrite Forall_map in Hp. exact Hp.
Qed.
Lemma inv_tokno p : inv p -> p_char p < 0 \/ tokno (p_tok p).
Proof. intros H. destruct (i_look p H) as [H1|(_ & -> & _)]; [auto | right; apply tokno_of_range]. Qed.

Lemma no_end_shift s : state s -> shift_of s 1 = None.
Proof.
  intros Hs. assert (E : forallb (fun s => match shift_of s 1 with Some _ => false | None => true end) states = true)
    by (vm_compute; reflexivity).
  pose proof (forall_states _ E s Hs) as H. cbv beta in H. destruct (shift_of s 1); [discriminate | reflexivity].
Qed.
Lemma shift_flag s k q : shift_of s k = Some q -> at_ yyPact s <=? yyFlag = false.
Proof. unfold shift_of. destruct (at_ yyPact s <=? yyFlag); [discriminate | reflexivity]. Qed.

(** A state that will be reached from [p] or is reported by the end of the run. *)
Definition step_ok (p : pst) (r : sres) : Prop :=
  match r with
  | Next_ p' => inv p' /\ potential p' < potential p /\
                a_code (p_ast p') = a_code (p_ast p) /\ (a_err (p_ast p) <> None -> a_err (p_ast p') <> None)
  | Done x a => a_code a = a_code (p_ast p) /\ (a_err (p_ast p) <> None -> a_err a <> None) /\
                (x <> 0 -> a_err a <> None)
  | Crash q => q = PNilMap /\ exists c, In c (p_stk p) /\ chk (yys c) = - nt_no n_explicit_variables /\
                v_explicit_variables c = None
  end.

Lemma shift_inv p q : inv p -> 0 <= p_char p -> shift_of (p_state p) (p_tok p) = Some q -> step_ok p (Next_ (shift p q)).
Proof.
  intros Hi Hch Hq. destruct (inv_states p Hi) as [Hs Hst]. destruct Hi as [Hp (l & Ht) Hl Ho Hv Hc Hx].
  destruct Hl as [Hl|(Hk & Htok & Hval)]; [lia|].
  destruct (checked _ Hs) as (_ & _ & HC). destruct (HC (p_tok p)) as (Hshift & _); [rewrite Htok; apply tokno_of_range|].
  unfold shift_ok in Hshift. rewrite Hq in Hshift. unfold edge_ok in Hshift. rewrite !andb_true_iff in Hshift.
  destruct Hshift as ((((_ & _) & He) & Hchk) & Hh). apply zmem_in in He.
  unfold step_ok, shift, push. cbn [p_stk p_above p_state p_lval p_char p_tok p_ast].
  split; [|split; [|split; [reflexivity|auto]]].
  - constructor; cbn [p_stk p_above p_state p_lval p_char p_tok p_ast map].
    + change (yys (set_yys (p_lval p) q)) with q. rewrite Ht. constructor; [exact He|]. rewrite <- Ht. exact Hp.
    + exists (map yys (p_stk p)). reflexivity.
    + left. lia.
    + exact Ho.
    + exact Hv.
    + left. destruct Hc as [Hc|[Hc _]]; [exact Hc | lia].
    + constructor; [|exact Hx]. unfold vars_ok. change (yys (set_yys (p_lval p) q)) with q. intros H. exfalso.
      pose proof (tokno_of_range (p_char p)) as [Hr _]. rewrite <- Htok in Hr. unfold tokno in Hr. cbn [nt_no] in H. lia.
  - unfold potential, todo. cbn [p_stk p_above p_state p_lval p_char p_tok p_ast map weights].
    change (chk (yys (set_yys (p_lval p) q))) with (chk q). apply Z.eqb_eq in Hchk. rewrite Hchk.
    change (-1 <? 0) with true. destruct (p_char p <? 0) eqn:E; [lia|]. lia.
Qed.

Lemma fresh_default : default 0 1 = Reduce 1 /\ default 1 1 = Accept /\ at_ yyDef 0 = -2 /\ at_ yyDef 1 = -2 /\
  goto 0 (nt_no n_module) = 1.
Proof. vm_compute. auto 10. Qed.

Lemma reduce_inv p r : inv p -> reduce_ok (p_state p) r = true ->
  (tk_ast (a_cur (p_ast p)) = true \/ r = 1) -> step_ok p (reduce p r).
Proof.
  intros Hi Hr Hcur. destruct (inv_states p Hi) as [Hs Hst]. destruct Hi as [Hp (l & Ht) Hl Ho Hv Hc Hx].
  pose proof Hp as Hp'. rewrite Ht in Hp'.
  destruct (reduce_eq p r _ _ Ht Hp' Hr) as (popped & base & rest & q & E1 & E2 & Eq & Eq2 & Hpred & Hq & Hpath & Hprod & Hh & ->).
  cbv zeta. set (above := rev popped ++ p_above p).
  destruct (act r (fun i => nth (i - 1) above zero_slot) (hd zero_slot above) (p_ast p)) as [[v' a']|x] eqn:EA.
  - cbn [sbind]. destruct (act_input _ _ _ _ _ _ Hprod EA) as (I1 & I2 & I3).
    unfold step_ok, push. cbn [p_stk p_above p_state p_lval p_char p_tok p_ast].
    split; [|split; [|split; [exact I1|exact I3]]].
    + constructor; cbn [p_stk p_above p_state p_lval p_char p_tok p_ast map].
      * change (yys (set_yys v' q)) with q. constructor; [exact Hpred|exact Hpath].
      * exists (map yys (base :: rest)). reflexivity.
      * exact Hl.
      * rewrite I1. exact Ho.
      * exact Hv.
      * rewrite I2. destruct Hc as [Hc|Hf]; [left; exact Hc|].
        destruct Hcur as [Hcur|Hcur]; [left; exact Hcur|]. right. destruct Hf as [Hf1 Hf2]. split; [exact Hf1|].
        right. cbn [map p_stk]. change (yys (set_yys v' q)) with q. subst r. apply (f_equal (@length Z)) in E2.
        cbn [map p_stk]. rewrite !map_length, rev_length in E2. change (length (rhs 1)) with 0%nat in E2.
        destruct popped; [|discriminate]. cbn [app] in E1. rewrite E1 in Hf2. cbn [map] in Hf2.
        destruct Hf2 as [Hf2|Hf2].
        -- injection Hf2 as Hb Hrest. rewrite Hb, Hrest. rewrite Eq, Hb. reflexivity.
        -- (* production 1 is not reduced in state 1 *)
           exfalso. rewrite E1 in Ht. cbn [map] in Ht. rewrite Hf2 in Ht. injection Ht as Ht1 _.
           rewrite <- Ht1 in Hr. vm_compute in Hr. discriminate.
      * rewrite E1 in Hx. apply Forall_app in Hx. destruct Hx as [Hx1 Hx2].
        constructor; [|eapply vars_ok_mono; [exact I3 | exact Hx2]].
        unfold vars_ok. change (yys (set_yys v' q)) with q. rewrite Eq2. intros Hn.
        assert (Hlhs : lhs r = n_explicit_variables) by (apply nt_no_inj; lia).
        change (v_explicit_variables (set_yys v' q)) with (v_explicit_variables v').
        apply (act_vars _ _ _ _ _ _ Hprod EA Hlhs). intros -> Hnone.
        change (1 - 1)%nat with 0%nat in Hnone. change (map sym_no (rhs 27)) with [-24; 10; -25; -30] in E2.
        destruct (rev popped) as [|c0 l0] eqn:Erev; [discriminate|].
        cbn [map] in E2. injection E2 as E2 _. subst above. cbn [app nth] in Hnone.
        assert (Hin : In c0 popped) by (apply in_rev; rewrite Erev; left; reflexivity).
        rewrite Forall_forall in Hx1. apply (Hx1 _ Hin); assumption.
    + unfold potential, todo. cbn [p_stk p_above p_state p_lval p_char p_tok p_ast map weights].
      rewrite I1. change (chk (yys (set_yys v' q))) with (chk q). rewrite Eq2, E1.
      rewrite map_app, weights_app. cbn [map weights].
      assert (Ew : weights (map (fun c => chk (yys c)) popped) = weights (map sym_no (rhs r))).
      { rewrite <- E2, map_rev, weights_rev. reflexivity. }
      rewrite Ew. assert (weight (- nt_no (lhs r)) = 0) as -> by (unfold weight; destruct (lhs r); reflexivity). lia.
  - cbn [sbind step_ok].
    assert (Hcur2 : tk_ast (a_cur (p_ast p)) = true).
    { destruct Hcur as [H| ->]; [exact H|]. cbn [act] in EA. discriminate. }
    destruct (act_panic _ _ _ _ _ Hprod Hcur2 EA) as (-> & -> & Hnone). split; [reflexivity|].
    change (1 - 1)%nat with 0%nat in Hnone. change (map sym_no (rhs 27)) with [-24; 10; -25; -30] in E2.
    destruct (rev popped) as [|c0 l0] eqn:Erev; [discriminate|].
    cbn [map] in E2. injection E2 as E2 _. subst above. cbn [app nth] in Hnone.
    assert (Hin : In c0 (p_stk p)) by (rewrite E1; apply in_or_app; left; apply in_rev; rewrite Erev; left; reflexivity).
    exists c0. auto.
Qed.

Lemma look1_inv p : inv p ->
  inv (look1 p) /\ potential (look1 p) <= potential p /\ p_stk (look1 p) = p_stk p /\ p_state (look1 p) = p_state p /\
  a_code (p_ast (look1 p)) = a_code (p_ast p) /\ (a_err (p_ast p) <> None -> a_err (p_ast (look1 p)) <> None).
Proof.
  intros H. unfold look1. destruct (_ <=? _).
  - split; [exact H|]. split; [lia|]. auto.
  - destruct (look_inv p H) as (L1 & L2 & L3 & L4 & L5). destruct (look_stk p) as (K1 & K2 & K3). auto 10.
Qed.
Lemma look2_inv p : inv p ->
  inv (look2 p) /\ potential (look2 p) <= potential p /\ p_stk (look2 p) = p_stk p /\ p_state (look2 p) = p_state p /\
  a_code (p_ast (look2 p)) = a_code (p_ast p) /\ (a_err (p_ast p) <> None -> a_err (p_ast (look2 p)) <> None) /\
  (at_ yyDef (p_state p) = -2 -> p_char (look2 p) < 0 -> p_tok (look2 p) = 1).
Proof.
  intros H. unfold look2. destruct (look1_inv p H) as (A1 & A2 & A3 & A4 & A5 & A6).
  destruct (_ =? -2) eqn:E.
  - destruct (look_inv _ A1) as (L1 & L2 & L3 & L4 & L5). destruct (look_stk (look1 p)) as (K1 & K2 & K3).
    rewrite K1, K3, L3. split; [exact L1|]. split; [lia|]. auto 10.
  - split; [exact A1|]. split; [lia|]. repeat (split; [assumption|]). intros H2. lia.
Qed.

Lemma step_inv p : inv p -> step_ok p (step p).
Proof.
  intros Hi. destruct (inv_states p Hi) as [Hs Hst].
  rewrite step_eq by (auto using inv_tokno).
  destruct (look1_inv p Hi) as (A1 & A2 & A3 & A4 & A5 & A6).
  destruct (shift_of (p_state p) (p_tok (look1 p))) as [q|] eqn:Eq.
  - pose proof (shift_flag _ _ _ Eq) as Hf. unfold look1 in *. rewrite Hf in *.
    assert (Hch : 0 <= p_char (look p)).
    { destruct (Z.lt_ge_cases (p_char (look p)) 0) as [Hlt|]; [|assumption]. exfalso.
      destruct (look_inv p Hi) as (_ & _ & _ & _ & L5). rewrite (L5 Hlt), no_end_shift in Eq by exact Hs. discriminate. }
    rewrite <- A4 in Eq. pose proof (shift_inv _ _ A1 Hch Eq) as (B1 & B2 & B3 & B4).
    cbn [step_ok]. split; [exact B1|]. split; [lia|]. split; [congruence | auto].
  - destruct (look2_inv p Hi) as (B1 & B2 & B3 & B4 & B5 & B6 & B7).
    assert (Hcur : tk_ast (a_cur (p_ast (look2 p))) = true \/ 
       ((p_state p = 0 /\ default (p_state p) (p_tok (look2 p)) = Reduce 1) \/ 
        (p_state p = 1 /\ default (p_state p) (p_tok (look2 p)) = Accept))).
    { destruct (i_cur _ B1) as [Hc|[Hc1 Hc2]]; [left; exact Hc|]. right.
      destruct (i_top p Hi) as [l Hl]. rewrite B3, Hl in Hc2.
      destruct fresh_default as (F1 & F2 & F3 & F4 & _).
      destruct Hc2 as [Hc2|Hc2]; injection Hc2 as Hc2 _; rewrite Hc2 in *.
      - left. rewrite B7 by assumption. auto.
      - right. rewrite B7 by assumption. auto. }
    destruct (default (p_state p) (p_tok (look2 p))) as [q|r| |] eqn:Ed; cbn [do_default].
    + exfalso. unfold default in Ed. destruct (_ =? -2); [destruct (exca_find _ _) as [x|]; [destruct (exca_scan _ _) as [y|]|]|];
      repeat match type of Ed with context [if ?b then _ else _] => destruct b end; discriminate.
    + assert (Hr : reduce_ok (p_state (look2 p)) r = true).
      { rewrite B4. destruct (checked _ Hs) as (_ & _ & HC).
        destruct (Z.eq_dec (at_ yyDef (p_state p)) (-2)) as [E|E].
        - destruct (HC (p_tok (look2 p))) as (_ & Hd & _).
          { destruct (inv_tokno _ B1) as [Hn|Hn]; [rewrite (B7 E Hn); unfold tokno, n_tokens; lia | exact Hn]. }
          unfold default_ok in Hd. rewrite Ed in Hd. exact Hd.
        - destruct (HC 1) as (_ & Hd & _); [unfold tokno, n_tokens; lia|]. unfold default_ok in Hd.
          replace (default (p_state p) 1) with (Reduce r) in Hd; [exact Hd|]. rewrite <- Ed. unfold default.
          apply Z.eqb_neq in E. rewrite E. reflexivity. }
      assert (Hc2 : tk_ast (a_cur (p_ast (look2 p))) = true \/ r = 1).
      { destruct Hcur as [Hc|[[_ Hc]|[_ Hc]]]; [auto | right; congruence | discriminate]. }
      pose proof (reduce_inv _ _ B1 Hr Hc2) as H. unfold step_ok in *.
      destruct (reduce (look2 p) r) as [p'|x a|y].
      * destruct H as (C1 & C2 & C3 & C4). split; [exact C1|]. split; [lia|]. split; [congruence|auto].
      * destruct H as (C1 & C2 & C3). split; [congruence|]. auto.
      * rewrite B3 in H. exact H.
    + cbn [step_ok]. split; [exact B5|]. split; [exact B6|]. intros H. contradiction.
    + destruct Hcur as [Hc|[[_ Hc]|[_ Hc]]]; [|discriminate|discriminate].
      unfold fail. destruct (Error_ok _ MSyntax Hc) as [e ->]. cbn [sbind step_ok].
      split; [exact B5|]. split; intros; discriminate.
Qed.

(** * Runs *)
Inductive steps : nat -> pst -> pst -> Prop :=
| steps_0 p : steps 0 p p
| steps_S n p p1 p2 : step p = Next_ p1 -> steps n p1 p2 -> steps (S n) p p2.

Lemma init_inv a : inv (init_pst a).
Proof.
  constructor; cbn [init_pst p_stk p_above p_state p_lval p_char p_tok p_ast map].
  - constructor.
  - exists []. reflexivity.
  - left. lia.
  - cbn. lia.
  - reflexivity.
  - right. split; [cbn; lia | left; reflexivity].
  - constructor; [|constructor]. unfold vars_ok. intros H. discriminate H.
Qed.

Lemma steps_inv n p p' : steps n p p' -> inv p -> inv p' /\ Z.of_nat n + potential p' <= potential p /\
  a_code (p_ast p') = a_code (p_ast p) /\ (a_err (p_ast p) <> None -> a_err (p_ast p') <> None).
Proof.
  induction 1 as [p|n p p1 p2 E H IH]; intros Hi; [split; [exact Hi|]; split; [lia|auto]|].
  pose proof (step_inv p Hi) as Hs. rewrite E in Hs. destruct Hs as (H1 & H2 & H3 & H4).
  destruct (IH H1) as (I1 & I2 & I3 & I4). split; [exact I1|]. split; [lia|]. split; [congruence | auto].
Qed.

(** Every run ends, after at most [potential p] shifts and reductions. *)
Lemma run_ends p : inv p -> exists n p', steps n p p' /\ Z.of_nat n <= potential p /\ inv p' /\
  match step p' with Next_ _ => False | _ => True end.
Proof.
  intros Hi. remember (Z.to_nat (potential p)) as m eqn:Em.
  assert (Hm : potential p <= Z.of_nat m) by (pose proof (potential_nonneg p); lia). clear Em.
  revert p Hi Hm. induction m as [|m IH]; intros p Hi Hm; pose proof (potential_nonneg p) as Hn;
  destruct (step p) as [p1|x a|q] eqn:E;
  try (exists 0%nat, p; split; [constructor|]; split; [lia|]; split; [exact Hi|]; rewrite E; exact I);
  pose proof (step_inv p Hi) as Hs; rewrite E in Hs; destruct Hs as (H1 & H2 & H3 & H4);
  pose proof (potential_nonneg p1) as Hn1; [lia|].
  destruct (IH p1 H1 ltac:(lia)) as (n & p' & K1 & K2 & K3 & K4).
  exists (S n), p'. split; [econstructor; eauto|]. split; [lia|]. auto.
Qed.

Lemma run_steps n p p' : steps n p p' -> forall f, run (n + f) p = run f p'.
Proof. induction 1 as [p|n p p1 p2 E H IH]; intros f; [reflexivity|]. cbn [Nat.add run]. rewrite E. apply IH. Qed.

Definition outcome (r : sres) : option (res (Z * astnode)) :=
  match r with Next_ _ => None | Done x a => Some (Ok (x, a)) | Crash q => Some (Panic q) end.

Lemma run_result p : inv p -> exists n p', steps n p p' /\ Z.of_nat n <= potential p /\ inv p' /\
  (match step p' with Next_ _ => False | _ => True end) /\
  forall f, potential p < Z.of_nat f -> run f p = outcome (step p').
Proof.
  intros Hi. destruct (run_ends p Hi) as (n & p' & H1 & H2 & H3 & H4). exists n, p'.
  repeat (split; [assumption|]). intros f Hf. replace f with (n + S (f - n - 1))%nat by lia.
  rewrite (run_steps _ _ _ H1). cbn [run]. unfold outcome. destruct (step p'); [contradiction | reflexivity | reflexivity].
Qed.

Lemma init_potential a : potential (init_pst a) = 10 * Z.of_nat (length (a_code a)) + 1.
Proof.
  unfold potential, todo, init_pst. cbn [p_stk p_above p_state p_lval p_char p_tok p_ast map].
  change (tk_off (v_token zero_slot)) with 0%nat. change (-1 <? 0) with true.
  change (height 0) with 1. change (weights [chk (yys (set_yys zero_slot 0))]) with 0. lia.
Qed.
