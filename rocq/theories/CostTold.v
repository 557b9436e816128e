(** The messages of a run: none without an error, and how many there can be. *)
From Verif Require Import Bytes Utf8 Float64 GoTime Ast Lexer LexFacts LexSpec LexProofs Tables Parser Grammar Tok CertData Cert Driver DriverInv Trees Machine
  Levels Bind Items Complete TightOk ViableData Viable Blame Told Syntax Rules RulesFacts CstTrees CstEval CstModule Past Spot Cost.
From Verif Require Import Syntax Tok.
Open Scope Z_scope.

(** * One step *)
Definition e_do (p : pst) (d : action) : list nat :=
  match d with
  | Accept => []
  | Reduce r => prefixes p (m_reduce p r)
  | Fail | Shift _ => prefixes p 1
  end.
Lemma e_default_eq p : state (p_state p) -> (p_char p < 0 \/ tokno (p_tok p)) ->
  e_default p = let p2 := if at_ yyDef (p_state p) =? -2 then look p else p in e_do p2 (default (p_state p) (p_tok p2)).
Proof.
  intros Hs Hk. unfold e_default. rewrite def_tab by exact Hs.
  destruct (checked _ Hs) as (Hd & _ & Hc).
  destruct (at_ yyDef (p_state p) =? -2) eqn:E.
  - cbv zeta. rewrite ensure_look. destruct (look_stk p) as (L1 & L2 & L3). rewrite L3.
    pose proof (look_tokno p Hk) as Hk2.
    destruct (Hc _ Hk2) as (_ & _ & Hdef). unfold defined in Hdef. unfold default. rewrite E in *.
    cbn [negb orb] in Hdef. destruct (exca_find yyExca (p_state p)) as [l|]; [|discriminate].
    destruct (exca_scan l (p_tok (look p))) as [y|]; [|discriminate].
    destruct (y <? 0) eqn:Ey; cbn [andb e_do]; [reflexivity|].
    destruct (y =? 0) eqn:Ey0; reflexivity.
  - cbn [andb]. unfold default. rewrite E. destruct (at_ yyDef (p_state p) =? 0) eqn:E0; reflexivity.
Qed.
Lemma e_step_eq p : state (p_state p) -> (p_char p < 0 \/ tokno (p_tok p)) ->
  e_step p = match shift_of (p_state p) (p_tok (look1 p)) with
             | Some _ => []
             | None => e_do (look2 p) (default (p_state p) (p_tok (look2 p)))
             end.
Proof.
  intros Hs Hk. unfold e_step. rewrite pact_tab by exact Hs.
  unfold shift_of, look2, look1. destruct (at_ yyPact (p_state p) <=? yyFlag) eqn:E1.
  { rewrite e_default_eq by assumption. reflexivity. }
  rewrite ensure_look. destruct (look_stk p) as (L1 & L2 & L3). cbv zeta.
  pose proof (look_tokno p Hk) as Hk2.
  assert (Hdef : e_default (look p) =
    e_do (if at_ yyDef (p_state p) =? -2 then look (look p) else look p)
      (default (p_state p) (p_tok (if at_ yyDef (p_state p) =? -2 then look (look p) else look p)))).
  { rewrite e_default_eq; rewrite ?L3; auto. }
  destruct ((at_ yyPact (p_state p) + p_tok (look p) <? 0) || (yyLast <=? at_ yyPact (p_state p) + p_tok (look p))) eqn:E2;
    [exact Hdef|].
  rewrite act_tab by lia. rewrite chk_tab by apply act_range.
  destruct (chk _ =? p_tok (look p)); [reflexivity | exact Hdef].
Qed.

(** * A message leaves an error, and no message leaves none *)
Definition tells (n : nat) (a a' : astnode) : Prop :=
  (n = 0%nat /\ a_err a' = a_err a) \/ ((0 < n)%nat /\ a_err a' <> None).
Lemma tells_1 a m a' : Error a m = Ok a' -> tells 1 a a'.
Proof. intros H. apply Error_loc in H as [-> _]. right. split; [lia|discriminate]. Qed.
Lemma tells_0 a : tells 0 a a. Proof. left. auto. Qed.
Lemma gvar_tells v a a' : append_gvar v a = Ok a' -> tells (m_gvar v a) a a'.
Proof.
  unfold append_gvar, m_gvar. destruct (negb _); [apply tells_1|]. destruct (Parser.mem _ _).
  - intros H. apply Error_loc in H as [-> _]. right. split; [lia|discriminate].
  - intros [= <-]. left. auto.
Qed.
Lemma gvars_tells vs : forall a a', append_gvars vs a = Ok a' -> tells (m_gvars vs a) a a'.
Proof.
  induction vs as [|v vs IH]; cbn [append_gvars m_gvars]; intros a a' H; [injection H as <-; apply tells_0|].
  apply bind_ok in H as (b & H1 & H2). rewrite H1. pose proof (gvar_tells _ _ _ H1) as T1. pose proof (IH _ _ H2) as T2.
  destruct T2 as [[-> T2]|[T2 T3]].
  - rewrite Nat.add_0_r. unfold tells in *. rewrite T2. exact T1.
  - right. split; [lia|exact T3].
Qed.
Lemma act_tells r d v a v' a' : prodno r -> act r d v a = Ok (v', a') -> tells (m_act r d a) a a'.
Proof.
  intros Hr. all_prods r Hr; cbn [act m_act]; try (intros [= <- <-]; first [apply tells_0|left; split; reflexivity]).
  1: { destruct (append_gvars _ a) as [a1|] eqn:E; [|discriminate]. cbn [bind]. intros [= <- <-]. eapply gvars_tells; exact E. }
  1: { unfold append_func. cbv zeta. destruct (_ && _).
       - destruct (Error _ _) eqn:E; [|discriminate]. cbn [bind]. intros [= <- <-]. eapply tells_1, E.
       - cbn [bind]. intros [= <- <-]. left. auto. }
  1: { cbv zeta. destruct (_ && _).
       - destruct (Error _ _) eqn:E; [|discriminate]. cbn [bind]. intros [= <- <-]. eapply tells_1, E.
       - cbn [bind]. intros [= <- <-]. left. auto. }
  1,2: destruct (appendVars _ _) as [[m [n|]]|]; cbn [bind]; [| |discriminate];
       [destruct (Error _ _) eqn:E; [|discriminate]; cbn [bind]; intros [= <- <-]; eapply tells_1, E|intros [= <- <-]; apply tells_0].
  1,2,3,4: unfold checkLoopOperator, checkThrowParam, checkReturnParam; match goal with |- context [if ?c then _ else _] => destruct c end;
       [destruct (Error _ _) eqn:E; [|discriminate]; cbn [bind]; intros [= <- <-]; eapply tells_1, E|cbn [bind]; intros [= <- <-]; apply tells_0].
  1: { destruct (v_param v) as [[x n] b]. intros [= <- <-]. apply tells_0. }
Qed.
Lemma reduce_tells p r p' : prodno r -> reduce p r = Next_ p' -> tells (m_reduce p r) (p_ast p) (p_ast p').
Proof.
  intros Hr. unfold reduce, m_reduce. destruct (tab yyR2 r) as [n|]; [|discriminate]. cbn [sbind].
  destruct (pop _ _ _) as [[stk' above']|]; [|discriminate]. destruct stk' as [|base stk']; [discriminate|].
  destruct (tab yyR1 r) as [r1|]; [|discriminate]. cbn [sbind]. destruct (goto_ _ _) as [q|]; [|discriminate]. cbn [sbind].
  destruct (act r _ _ _) as [[v' a']|] eqn:EA; [|discriminate]. cbn [sbind]. intros [= <-]. cbn [push p_ast].
  eapply act_tells; eassumption.
Qed.
(** The tokens only look: an error they leave is of the scanner. *)
Definition only_lex (a a' : astnode) : Prop := a_err a' = a_err a \/ exists e, a_err a' = Some (ELex e).
Lemma only_refl a : only_lex a a. Proof. left. reflexivity. Qed.
Lemma only_trans a b c : only_lex a b -> only_lex b c -> only_lex a c.
Proof. intros H1 [H2|H2]; [|right; exact H2]. unfold only_lex. rewrite H2. exact H1. Qed.
Lemma look_only p : only_lex (p_ast p) (p_ast (look p)).
Proof.
  unfold look. destruct (p_char p <? 0); [|apply only_refl]. destruct (Lex _ _) as [[c t'] a'] eqn:EL. cbn [p_ast].
  unfold Lex in EL. destruct (a_code (p_ast p)); [injection EL as <- <- <-; apply only_refl|].
  destruct (Next _ _) as [[k t2] [e|]]; [injection EL as <- <- <-; right; eexists; reflexivity|].
  destruct (k =? EOF); injection EL as <- <- <-; left; reflexivity.
Qed.
Lemma look1_only p : only_lex (p_ast p) (p_ast (look1 p)).
Proof. unfold look1. destruct (_ <=? _); [apply only_refl|apply look_only]. Qed.
Lemma look2_only p : only_lex (p_ast p) (p_ast (look2 p)).
Proof. unfold look2. destruct (_ =? -2); [eapply only_trans; [apply look1_only|apply look_only]|apply look1_only]. Qed.
Lemma prefixes_nil p n : prefixes p n = [] -> n = 0%nat. Proof. destruct n; [reflexivity|discriminate]. Qed.
(** What a step says and what it leaves. *)
Definition step_tells (e : list nat) (a a' : astnode) : Prop :=
  (a_err a' = None -> e = [] /\ a_err a = None) /\ (e = [] -> only_lex a a').
Lemma fail_tells p b a' x : only_lex b (p_ast p) -> fail (p_ast p) = Done x a' -> step_tells (prefixes p 1) b a'.
Proof.
  intros Ho. unfold fail. destruct (Error (p_ast p) MSyntax) as [a1|] eqn:E; [|discriminate]. cbn [sbind]. intros [= _ <-]. apply Error_loc in E as [-> _].
  split; discriminate.
Qed.
Lemma step_says p : inv p -> match step p with
  | Next_ p' => step_tells (e_step p) (p_ast p) (p_ast p')
  | Done _ a => step_tells (e_step p) (p_ast p) a
  | Crash _ => True
  end.
Proof.
  intros Hi. destruct (inv_states p Hi) as [Hs Hst]. rewrite (e_step_eq p Hs) by (auto using inv_tokno). pose proof (step_inv p Hi) as Hok. rewrite step_eq in * by (auto using inv_tokno).
  pose proof (look2_only p) as Q2. destruct (look2_inv p Hi) as (B1 & _ & _ & _ & _ & B6 & _).
  destruct (shift_of (p_state p) (p_tok (look1 p))) as [q|] eqn:Eq.
  - destruct Hok as (_ & _ & _ & Hok). split.
    + intros Hn. split; [reflexivity|]. destruct (a_err (p_ast p)) eqn:E; [|reflexivity]. exfalso. apply Hok; [discriminate|exact Hn].
    + intros _. apply look_only.
  - destruct (default (p_state p) (p_tok (look2 p))) as [z|r| |] eqn:Ed; cbn [do_default e_do] in *.
    + destruct (fail (p_ast (look2 p))) as [p'|x a'|] eqn:Ef; [|eapply fail_tells; eassumption|exact I]. unfold fail, sbind in Ef. destruct (Error _ _); discriminate Ef.
    + pose proof (Reached.reduce_goes (look2 p) r) as G. destruct (reduce (look2 p) r) as [p'|x a'|] eqn:Er; [|contradiction|exact I].
      pose proof (reduce_tells _ _ _ (Reached.default_reduce _ _ Hi Ed) Er) as T. destruct Hok as (_ & _ & _ & Hok). split.
      * intros Hn. split; [|destruct (a_err (p_ast p)) eqn:E; [exfalso; apply Hok; [discriminate|exact Hn]|reflexivity]].
        destruct T as [[-> _]|[_ T]]; [reflexivity|contradiction].
      * intros Hn. apply prefixes_nil in Hn. destruct T as [[_ T]|[T _]]; [|lia]. unfold only_lex. rewrite T. exact Q2.
    + split; [|auto]. intros Hn. split; [reflexivity|]. destruct Hok as (_ & Hok & _). destruct (a_err (p_ast p)) eqn:E; [|reflexivity]. exfalso. apply Hok; [discriminate|exact Hn].
    + destruct (fail (p_ast (look2 p))) as [p'|x a'|] eqn:Ef; [|eapply fail_tells; eassumption|exact I]. unfold fail, sbind in Ef. destruct (Error _ _); discriminate Ef.
Qed.
Lemma run_says f : forall p x a, inv p -> run f p = Some (Ok (x, a)) -> step_tells (e_run f p) (p_ast p) a.
Proof.
  induction f as [|f IH]; intros p x a Hi H; cbn [run e_run] in *; [discriminate H|].
  pose proof (step_says p Hi) as T. pose proof (step_inv p Hi) as Hok. destruct (step p) as [p'|y b|q]; [| |discriminate H].
  - destruct Hok as (H1 & _). destruct (IH _ _ _ H1 H) as [I1 I2]. destruct T as [T1 T2]. split.
    + intros Hn. destruct (I1 Hn) as [-> Hn1]. destruct (T1 Hn1) as [-> Hn2]. auto.
    + intros He. apply app_eq_nil in He as [He1 He2]. eapply only_trans; [apply T2, He1|apply I2, He2].
  - injection H as <- <-. rewrite app_nil_r. exact T.
Qed.
