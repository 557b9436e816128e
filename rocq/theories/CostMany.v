(** One declaration that names the same variable many times: a message for every name but
    the first, each of them at the end of the text. *)
From Verif Require Import Bytes Utf8 Float64 GoTime Ast Lexer LexFacts LexSpec LexProofs LexTrivia LexTokens Tables Parser Grammar Tok CertData Cert Driver DriverInv Trees Machine
  Levels Bind Items Complete TightOk ViableData Viable Blame Told Syntax Rules RulesFacts CstTrees CstEval CstModule Lexical Scanned Past Spot Cost CostTold CostCount.
From Verif Require Import Syntax Tok.
Open Scope Z_scope.

(** The text: Перем a,a,...,a; with [n] names behind the first. *)
Fixpoint more (n : nat) : bytes := match n with O => B ";" | S n' => B ",a" ++ more n' end.
Definition many (n : nat) : bytes := B "Перем a" ++ more n.
Lemma many_length n : length (many n) = (13 + 2 * n)%nat.
Proof. unfold many. rewrite app_length. change (length (B "Перем a")) with 12%nat. assert (length (more n) = 1 + 2 * n)%nat; [|lia]. induction n as [|n IH]; [reflexivity|]. cbn [more]. rewrite app_length, IH. change (length (B ",a")) with 2%nat. lia. Qed.
Fixpoint more_toks (n : nat) : list tk := match n with O => [K 59] | S n' => K 44 :: KId (B "a") :: more_toks n' end.
Definition many_toks (n : nat) : list tk := K tVar :: KId (B "a") :: more_toks n.

(** * Its tokens *)
Lemma more_ends n : word_ends (more n).
Proof.
  intros c H. assert (A : c = 44 \/ c = 59) by (destruct n; cbn [more] in H; [right; apply (first_char_ascii ";"%byte [] c eq_refl) in H|left; apply (first_char_ascii ","%byte (B "a" ++ more n) c eq_refl) in H]; exact H).
  intros W. assert (F : isLetter c || isDigit c = true) by (pose proof (proj1 (Forall_word [c]) (Forall_cons c W (Forall_nil _))) as F; inversion F; assumption).
  destruct A as [-> | ->]; vm_compute in F; discriminate F.
Qed.
Lemma is_word_of c w : isLetter c = true -> forallb (fun c => isLetter c || isDigit c) w = true -> is_word (c :: w).
Proof.
  intros H1 H2. exists c, w. split; [reflexivity|]. split.
  - apply isLetter_spec, H1.
  - apply Forall_word, Forall_forall. rewrite forallb_forall in H2. exact H2.
Qed.
Lemma token_a n : one_token false (B "a" ++ more n) (KId (B "a")) (more n).
Proof.
  assert (Hw : is_word [97]) by (apply is_word_of; vm_compute; reflexivity).
  destruct (word_token_total false [97] Hw) as [k Hk]. destruct (word_token_kind _ _ _ Hw Hk) as [_ E]. vm_compute in E. injection E as <-.
  exact (ot_word false [97] _ (more n) Hw (more_ends n) Hk).
Qed.
Lemma token_var x : word_ends x -> one_token false (B "Перем" ++ x) (K tVar) x.
Proof.
  intros Hx. set (w := runes (B "Перем")). assert (Hw : is_word w) by (apply is_word_of; vm_compute; reflexivity).
  destruct (word_token_total false w Hw) as [k Hk]. destruct (word_token_kind _ _ _ Hw Hk) as [_ E]. vm_compute in E. injection E as <-.
  exact (ot_word false w _ x Hw Hx Hk).
Qed.
Lemma more_text n : text_of false (more n) (more_toks n).
Proof.
  induction n as [|n IH]; cbn [more more_toks].
  - apply (to_token false [] (B ";") (K 59) [] []); [constructor|apply (ot_mark false ";"%byte []); cbn; tauto|]. apply to_end. constructor. constructor.
  - apply (to_token false [] (B ",a" ++ more n) (K 44) (B "a" ++ more n)); [constructor|apply (ot_mark false ","%byte (B "a" ++ more n)); cbn; tauto|].
    apply (to_token _ [] (B "a" ++ more n) (KId (B "a")) (more n)); [constructor|apply token_a|exact IH].
Qed.
Lemma many_text n : text_of false (many n) (many_toks n).
Proof.
  unfold many, many_toks. change (B "Перем a" ++ more n) with ([] ++ B "Перем" ++ B " " ++ B "a" ++ more n).
  apply to_token with (rest := B " " ++ B "a" ++ more n); [constructor|apply token_var|].
  - intros c H. apply (first_char_ascii " "%byte (B "a" ++ more n) c eq_refl) in H. change (b2z " ") with 32 in H. subst c. intros W.
    assert (F : isLetter 32 || isDigit 32 = true) by (pose proof (proj1 (Forall_word [32]) (Forall_cons 32 W (Forall_nil _))) as F; inversion F; assumption). vm_compute in F. discriminate F.
  - apply (to_token _ (B " ") (B "a" ++ more n) (KId (B "a")) (more n)); [|apply token_a|apply more_text].
    constructor; [left; reflexivity|constructor].
Qed.

(** * The machine on it *)
Definition no_crash (st : frames) : bool := match st with (_, Node 27 (_ :: _)) :: _ => false | _ => true end.
Inductive goes : frames -> list tk -> frames -> list tk -> Prop :=
| go_refl st inp : goes st inp st inp
| go_step st inp st1 inp1 st2 inp2 : mstep st inp = MNext st1 inp1 -> no_crash st1 = true -> goes st1 inp1 st2 inp2 -> goes st inp st2 inp2.
Lemma goes_trans st inp st1 inp1 st2 inp2 : goes st inp st1 inp1 -> goes st1 inp1 st2 inp2 -> goes st inp st2 inp2.
Proof. induction 1; [auto|]. intros H2. econstructor; [eassumption|assumption|auto]. Qed.
Ltac going := repeat first [apply go_refl | eapply go_step; [reflexivity|reflexivity|]].
Definition base : frames := [(83, lf tVar); (29, Node 8 [])].
Lemma goes_start inp : goes [] (K tVar :: KId (B "a") :: inp) ((122, t_names (Name (B "a"))) :: base) inp.
Proof. unfold base. do 4 (eapply go_step; [reflexivity|reflexivity|]). apply go_refl. Qed.
Lemma goes_more l inp : goes ((122, t_names l) :: base) (K 44 :: KId (B "a") :: inp) ((122, t_names (Names l (B "a"))) :: base) inp.
Proof. unfold base. do 4 (eapply go_step; [reflexivity|reflexivity|]). apply go_refl. Qed.
Definition decl (l : names) : tree := Node 12 [Node 8 []; lf tVar; t_names l; Node 10 []; semi].
Lemma goes_end l : goes ((122, t_names l) :: base) [K 59] [(16, decl l)] [].
Proof. unfold base. do 4 (eapply go_step; [reflexivity|reflexivity|]). apply go_refl. Qed.
Fixpoint named (l : names) (n : nat) : names := match n with O => l | S n' => named (Names l (B "a")) n' end.
Lemma goes_rest n : forall l, goes ((122, t_names l) :: base) (more_toks n) [(16, decl (named l n))] [].
Proof. induction n as [|n IH]; intros l; cbn [more_toks named]; [apply goes_end|]. eapply goes_trans; [apply goes_more|apply IH]. Qed.
Lemma goes_many n : goes [] (many_toks n) [(16, decl (named (Name (B "a")) n))] [].
Proof. eapply goes_trans; [apply goes_start|apply goes_rest]. Qed.
Lemma named_list n : forall l, name_list (named l n) = name_list l ++ repeat (B "a") n.
Proof. induction n as [|n IH]; intros l; cbn [named repeat]; [rewrite app_nil_r; reflexivity|]. rewrite IH. cbn [name_list]. rewrite <- app_assoc. reflexivity. Qed.

(** * The driver follows *)
Lemma goes_drives st inp st' inp' : goes st inp st' inp' -> forall a raw vs a0 l t p, inp = tks raw -> sim a st raw vs a0 l t p -> cur_at t p -> no_syntax p ->
  exists k p' raw' vs' a0' l' t', steps k p p' /\ inp' = tks raw' /\ sim a st' raw' vs' a0' l' t' p' /\ cur_at t' p' /\ no_syntax p'.
Proof.
  induction 1 as [st inp|st inp st1 inp1 st2 inp2 E C H IH]; intros a raw vs a0 l t p -> HS Hc Hn.
  - exists 0%nat, p, raw, vs, a0, l, t. split; [constructor|]. auto.
  - pose proof (step_sim _ _ _ _ _ _ _ _ HS) as F. rewrite E in F. destruct F as [(p1 & raw1 & vs1 & a1 & l1 & t1 & F1 & <- & F3)|(_ & s & X & ts & c & b1 & b2 & rest & -> & _)].
    2: { discriminate C. }
    destruct (cur_step _ _ _ _ _ _ _ _ _ _ _ _ _ _ _ HS Hc Hn F1 E F3) as [C1 N1].
    destruct (IH _ _ _ _ _ _ _ eq_refl F3 C1 N1) as (k & p' & raw' & vs' & a0' & l' & t' & G1 & G2).
    exists (S k), p', raw', vs', a0', l', t'. split; [econstructor; eassumption|exact G2].
Qed.

(** * The messages *)
Lemma m_gvars_same vs : forall a x, tk_ast (a_cur a) = true -> Forall (fun v => gv_name v = x) vs ->
  Parser.mem x (map gv_name (elems (Ast.m_gvars (a_module a)))) = true -> m_gvars vs a = length vs.
Proof.
  induction vs as [|v vs IH]; intros a x Ha Hv Hm; cbn [m_gvars length]; [reflexivity|]. inversion Hv as [|? ? V1 V2]; subst.
  unfold m_gvar, append_gvar. cbv zeta. rewrite Hm. destruct (negb _).
  - destruct (Error_ok a MGlobalPlace Ha) as [e E]. rewrite E. rewrite (IH _ (gv_name v)); [reflexivity|exact Ha|exact V2|exact Hm].
  - match goal with |- context [Error ?b ?m] => destruct (Error_ok b m Ha) as [e E] end. rewrite E. rewrite (IH _ (gv_name v)); [reflexivity|exact Ha|exact V2|exact Hm].
Qed.
Lemma m_gvars_first vs a x : tk_ast (a_cur a) = true -> Forall (fun v => gv_name v = x) vs -> elems (m_body (a_module a)) = [] -> (length vs - 1 <= m_gvars vs a)%nat.
Proof.
  destruct vs as [|v vs]; intros Ha Hv Hb; cbn [m_gvars length]; [lia|]. inversion Hv as [|? ? V1 V2]; subst.
  unfold m_gvar, append_gvar. cbv zeta. rewrite Hb. cbn [length Nat.eqb negb]. destruct (Parser.mem _ _) eqn:Em.
  - match goal with |- context [Error ?b ?m] => destruct (Error_ok b m Ha) as [e E] end. rewrite E. rewrite (m_gvars_same _ _ (gv_name v)); [lia|exact Ha|exact V2|exact Em].
  - rewrite (m_gvars_same _ _ (gv_name v)); [lia|exact Ha|exact V2|]. cbn [set_module a_module Ast.m_gvars elems].
    rewrite map_app. unfold Parser.mem. rewrite existsb_app. cbn [map existsb]. rewrite beqb_refl. apply orb_true_r.
Qed.
Lemma steps_fuel k p p' : steps k p p' -> inv p -> inv p' /\ Z.of_nat k + potential p' <= potential p.
Proof.
  induction 1 as [p|k p p1 p2 E H IH]; intros Hi; [split; [exact Hi|lia]|]. pose proof (step_inv p Hi) as Hok. rewrite E in Hok. destruct Hok as (O1 & O2 & _).
  destruct (IH O1). split; [assumption|lia].
Qed.
Lemma e_run_steps k p p' : steps k p p' -> forall f, exists e, e_run (k + S f) p = e ++ e_step p' ++ match step p' with Next_ q => e_run f q | _ => [] end.
Proof.
  induction 1 as [p|k p p1 p2 E H IH]; intros f.
  - exists []. reflexivity.
  - destruct (IH f) as [e He]. exists (e_step p ++ e). cbn [plus e_run]. rewrite E, He, app_assoc. reflexivity.
Qed.
Lemma reads_size code l t : reads code zero_token l t -> (length l <= tk_off t <= length code)%nat.
Proof.
  remember zero_token as z. induction 1 as [t|t l t1 k t2 H IH E Ek]; subst; [cbn; lia|]. specialize (IH eq_refl). rewrite app_length. cbn [length].
  destruct (Next_progress code t1 ltac:(lia) _ _ _ E) as (_ & P1 & P2). destruct P2 as [[P2 _]|P2]; [contradiction|lia].
Qed.
Definition total (l : list nat) : nat := fold_right Nat.add 0%nat l.
Lemma total_app l1 l2 : total (l1 ++ l2) = (total l1 + total l2)%nat.
Proof. induction l1 as [|x l IH]; [reflexivity|]. unfold total in *. cbn [app fold_right]. rewrite IH. lia. Qed.
Lemma total_repeat x n : total (repeat x n) = (n * x)%nat.
Proof. induction n as [|n IH]; [reflexivity|]. unfold total in *. cbn [repeat fold_right]. rewrite IH. lia. Qed.
Lemma decl_ev l v a a' : ev (decl l) v a a' -> same_ctx a a' /\ map gv_name (v_global_variables v) = name_list l.
Proof.
  intros C. unfold decl in C. unf. repeat ev1. match goal with H : ev (t_names _) _ _ _ |- _ => apply eval_names in H as [H En] end. acts. slots.
  split; [repeat match goal with H : same_ctx _ _ |- _ => destruct H as (?&?&?&?&?&?) end; repeat split; congruence|].
  rewrite map_map. match type of En with ?x = _ => change (x = name_list l) end. exact En.
Qed.
Lemma more_toks_length n : length (more_toks n) = (2 * n + 1)%nat.
Proof. induction n as [|n IH]; [reflexivity|]. cbn [more_toks length]. lia. Qed.
Lemma named_yield n : forall l, length (yield (t_names (named l n))) = (length (yield (t_names l)) + 2 * n)%nat.
Proof. induction n as [|n IH]; intros l; cbn [named]; [lia|]. rewrite IH. cbn [t_names yield flat_map comma pct]. rewrite !app_length. cbn [length flat_map yield app]. lia. Qed.
Lemma many_messages n : (n * (2 * n + 3) <= total (e_parse (many n)))%nat.
Proof.
  set (code := many n). destruct (proj2 (tokens_text code (many_toks n)) (many_text n)) as (raw & HL & HR).
  set (a := NewAST code). pose proof (init_sim a raw HL) as HS.
  assert (Hc : cur_at zero_token (init_pst a)) by reflexivity. assert (Hn : no_syntax (init_pst a)) by (intros ? ? ?; discriminate).
  destruct (goes_drives _ _ _ _ (goes_many n) a raw _ _ _ _ _ HR HS Hc Hn) as (k & p & raw' & vs & a0 & l & t & G1 & G2 & G3 & G4 & _).
  destruct (steps_fuel _ _ _ G1 (init_inv a)) as [Hi Hf]. rewrite init_potential in Hf. pose proof (potential_nonneg p) as Hp0. change (a_code a) with code in Hf.
  assert (Hb : blank code = false) by reflexivity.
  unfold e_parse. rewrite Hb. fold a. replace (parse_fuel code) with (k + S (parse_fuel code - k - 1))%nat by (unfold parse_fuel; lia).
  destruct (e_run_steps _ _ _ G1 (parse_fuel code - k - 1)) as [e ->]. rewrite !total_app.
  enough (n * (2 * n + 3) <= total (e_step p))%nat by lia.
  pose proof (sim_top _ _ _ _ _ _ _ _ G3) as Ht. cbn [top fst] in Ht.
  pose proof (s_tinv _ _ _ _ _ _ _ _ G3) as T. pose proof (s_states _ _ _ _ _ _ _ _ G3) as V. cbn [rev map app fst snd] in T, V.
  destruct vs as [|v [|? ?]]; try discriminate V. injection V as V.
  destruct (inv_states p Hi) as [Hs Hst]. rewrite (e_step_eq p Hs) by (auto using inv_tokno).
  assert (L2 : look2 p = p) by (unfold look2, look1; rewrite Ht; reflexivity). rewrite L2.
  replace (shift_of (p_state p) (p_tok (look1 p))) with (@None Z) by (unfold shift_of; rewrite Ht; reflexivity).
  replace (default (p_state p) (p_tok p)) with (Reduce 6) by (rewrite Ht; reflexivity). cbn [e_do].
  assert (Em : m_reduce p 6 = m_gvars (v_global_variables v) (p_ast p)).
  { unfold m_reduce. rewrite (t_stk _ _ _ _ _ _ _ T). reflexivity. }
  unfold prefixes. rewrite Em, total_repeat.
  pose proof (t_ev _ _ _ _ _ _ _ T) as HE. pose proof (t_ctx _ _ _ _ _ _ _ T) as HX.
  apply evs_cons_inv in HE as (v1 & vs1 & b1 & Ev & HE & HE1). injection Ev as <- <-. apply evs_nil_inv in HE1 as [_ ->].
  apply decl_ev in HE as [HE Eg]. rewrite named_list in Eg. cbn [name_list app] in Eg. set (gs := v_global_variables v) in *.
  assert (Lg : length gs = S n) by (apply (f_equal (@length _)) in Eg; rewrite map_length in Eg; cbn [length] in Eg; rewrite repeat_length in Eg; exact Eg).
  assert (Fg : Forall (fun v => gv_name v = B "a") gs).
  { assert (F : Forall (fun x => x = B "a") (map gv_name gs)) by (rewrite Eg; constructor; [reflexivity|]; apply Forall_forall; intros x Hx; apply repeat_spec in Hx; exact Hx). rewrite Forall_map in F. exact F. }
  assert (Ha : tk_ast (a_cur (p_ast p)) = true).
  { destruct (i_cur p Hi) as [H|[_ H]]; [exact H|]. rewrite (t_stk _ _ _ _ _ _ _ T) in H. cbn [rev app map] in H. destruct H as [H|H]; [discriminate H|injection H as H; congruence]. }
  assert (Hbody : elems (m_body (a_module (p_ast p))) = []).
  { destruct (same_ctx_trans _ _ _ HX HE) as (_ & _ & HM & _). rewrite HM. reflexivity. }
  pose proof (m_gvars_first gs (p_ast p) (B "a") Ha Fg Hbody) as M. rewrite Lg in M.
  assert (O : (2 * n + 3 <= tk_off (a_cur (p_ast p)))%nat).
  { pose proof (t_reads _ _ _ _ _ _ _ T) as R. pose proof (reads_size _ _ _ R) as RS.
    assert (Ll : length l = (2 * n + 3)%nat).
    { pose proof (t_yield _ _ _ _ _ _ _ T) as Y. apply (f_equal (@length tk)) in Y. unfold tks in Y. rewrite map_length in Y. rewrite <- Y.
      cbn [flat_map decl yield]. rewrite !app_length, named_yield. cbn. lia. }
    unfold cur_at in G4. rewrite G4. destruct (p_char p <? 0) eqn:Ec; [lia|].
    destruct (t_look _ _ _ _ _ _ _ T) as [[X1 X2]|[_ X]]; [lia|]. destruct (Next_progress (a_code a) t ltac:(lia) _ _ _ X) as (_ & P1 & _). lia. }
  nia.
Qed.
