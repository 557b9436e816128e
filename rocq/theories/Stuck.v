(** Where the machine is stuck no sentence goes on. *)
From Verif Require Import Bytes Utf8 Float64 GoTime Ast Lexer LexFacts LexSpec LexProofs Tables Parser Grammar Tok CertData Cert Driver DriverInv Trees
  Syntax Rules Declared RulesFacts CleanFacts DeclaredFacts CstTrees CstEval CstModule CstInj CstWf Machine
  Levels Bind BindCst Items Complete TightOk Regroup Legal Accept ViableData Viable.
Open Scope Z_scope.

(** * A token of each kind *)
Definition canon (c : Z) : tk :=
  if c =? tIdent then KId [] else if c =? tExecute then KExec [] else if c =? tDirective then KDir [] else if c =? tGoToLabel then KLabel []
  else if c =? tString then KStr [] else if c =? tNumber then KNum (F64 false 0 0) else if c =? tDate then KDate zero_time else K c.
Lemma canon_kind c : kind_of (canon c) = c.
Proof. unfold canon. repeat match goal with |- context [?x =? ?y] => destruct (Z.eqb_spec x y); [subst; reflexivity|] end. reflexivity. Qed.
Lemma canon_wf c : In c kinds -> tk_wf (canon c).
Proof.
  intros H. unfold tk_wf. rewrite canon_kind. split; [exact H|]. unfold canon.
  repeat match goal with |- context [?x =? ?y] => destruct (Z.eqb_spec x y); [exact I|] end.
  unfold payload. cbn [In]. intuition congruence.
Qed.
Lemma canon_kinds w : map kind_of (map canon w) = w.
Proof. rewrite map_map. rewrite <- (map_id w) at 2. apply map_ext. intros c. apply canon_kind. Qed.

Lemma terminals_kinds : forallb (fun p => forallb (fun x => match x with T c => existsb (Z.eqb c) kinds | N _ => true end) (snd p)) productions = true.
Proof. vm_compute. reflexivity. Qed.
Lemma derives_kinds n w : derives n w -> Forall (fun c => In c kinds) w.
Proof.
  revert n w. apply (derives_mind (fun _ w _ => Forall (fun c => In c kinds) w)
    (fun rhs w _ => forallb (fun x => match x with T c => existsb (Z.eqb c) kinds | N _ => true end) rhs = true -> Forall (fun c => In c kinds) w)).
  - intros n r w Hi _ IH. apply IH. pose proof terminals_kinds as H. rewrite forallb_forall in H. exact (H _ Hi).
  - constructor.
  - intros c r w _ IH H. cbn [forallb] in H. apply andb_true_iff in H as [H1 H2]. constructor; [|auto].
    apply existsb_exists in H1 as (x & Hx & E). apply Z.eqb_eq in E as ->. exact Hx.
  - intros n r u w _ IH1 _ IH2 H. cbn [forallb] in H. apply Forall_app. auto.
Qed.

(** * The rule about signs *)
Lemma unsigned_kinds l : forall l' h, map kind_of l = map kind_of l' -> unsigned_toks h l = unsigned_toks h l'.
Proof.
  induction l as [|t l IH]; intros [|t' l'] h H; try discriminate H; [reflexivity|]. cbn [map] in H. injection H as E H.
  cbn [unsigned_toks]. rewrite E. repeat match goal with |- context [if ?c then _ else _] => destruct c end; auto.
Qed.
Lemma unsigned_tail r : forall h, unsigned_word (map kind_of r) -> unsigned_toks h r = true.
Proof.
  unfold unsigned_word. induction r as [|t r IH]; intros h H; [reflexivity|]. cbn [map forallb unsigned_toks] in *. apply andb_true_iff in H as [H1 H2].
  unfold is_sign in H1. apply negb_true_iff in H1. rewrite H1, andb_false_r. repeat match goal with |- context [if ?c then _ else _] => destruct c end; auto.
Qed.
Lemma unsigned_more l r : forall h, unsigned_word (map kind_of r) -> unsigned_toks h l = true -> unsigned_toks h (l ++ r) = true.
Proof.
  induction l as [|t l IH]; intros h Hr H; cbn [app]; [apply unsigned_tail, Hr|]. cbn [unsigned_toks] in *.
  repeat match goal with |- context [if ?c then _ else _] => destruct c end; auto.
Qed.

(** * Runs look one token ahead *)
Lemma mstep_shorter st inp st' inp' : mstep st inp = MNext st' inp' -> (length inp' <= length inp)%nat.
Proof.
  unfold mstep. destruct (action_of _ _); [destruct inp; [discriminate|]| |destruct st as [|[? ?] [|? ?]]; discriminate|discriminate]; intros [= _ <-]; cbn; lia.
Qed.
Lemma msteps_shorter st inp st' inp' : msteps st inp st' inp' -> (length inp' <= length inp)%nat.
Proof. induction 1 as [|? ? ? ? ? ? E H IH]; [lia|]. apply mstep_shorter in E. lia. Qed.
Lemma msteps_ahead k v w st inp st' inp' : msteps st inp st' inp' -> forall u, inp = u ++ k :: v -> inp' = k :: v ->
  msteps st (u ++ k :: w) st' (k :: w).
Proof.
  induction 1 as [st inp|st inp st1 inp1 st2 inp2 E H IH]; intros u E1 E2; subst.
  - assert (u = []) as ->; [|constructor]. apply (f_equal (@length tk)) in E2. rewrite app_length in E2. destruct u; [reflexivity|cbn in E2; lia].
  - pose proof (msteps_shorter _ _ _ _ H) as L. unfold mstep in E.
    assert (EL : la (u ++ k :: v) = la (u ++ k :: w)) by (destruct u; reflexivity).
    destruct (action_of (top st) (la (u ++ k :: v))) as [q|r| |] eqn:EA.
    + destruct u as [|x u]; cbn [app] in E; injection E as <- <-; [cbn in L; lia|]. econstructor; [|apply IH; reflexivity].
      unfold mstep. rewrite <- EL, EA. reflexivity.
    + injection E as <- <-. econstructor; [|apply IH; reflexivity]. unfold mstep. rewrite <- EL, EA. reflexivity.
    + destruct st as [|[? ?] [|? ?]]; discriminate E.
    + discriminate E.
Qed.
Lemma mfail_ahead k v w st : mstep st (k :: v) = MFail -> mstep st (k :: w) = MFail.
Proof. unfold mstep. cbn [la]. destruct (action_of _ _); try discriminate; auto. Qed.

(** * Sentences are accepted *)
Lemma sentence_accepted l : derives n_module (map kind_of l) -> unsigned_toks false l = true -> Forall tk_wf l -> exists t, maccepts l t.
Proof.
  intros Hd Hu Hw. destruct (derives_program l Hd Hw) as (p & Hp & <-). pose proof (unsigned_program _ Hp Hu) as Hb.
  rewrite <- regroup_program_toks. rewrite <- regroup_program_defaults in Hp. apply regroup_program_bound in Hb.
  destruct (good_program _ Hp) as [W S]. rewrite <- (tight_program _ Hp) in Hb. pose proof (tight_accepted _ W S Hb) as A. rewrite (yield_program _ Hp) in A. eauto.
Qed.
Lemma stuck inp st inp' t : msteps [] inp st inp' -> mstep st inp' = MFail -> ~ maccepts inp t.
Proof.
  intros H E (s & i & H' & E').
  assert (N : forall x y, mstep s i <> MNext x y) by (rewrite E'; discriminate).
  pose proof (msteps_det _ _ _ _ H _ _ H' N) as H2. inversion H2 as [|? ? ? ? ? ? E2]; subst; rewrite E in *; discriminate.
Qed.
(** A stuck machine: no sentence without signed default values begins with what has
    been read and the next token. *)
Theorem no_further u k v st r : Forall tk_wf (u ++ [k]) -> msteps [] (u ++ k :: v) st (k :: v) -> mstep st (k :: v) = MFail ->
  derives n_module (map kind_of (u ++ k :: r)) -> unsigned_toks false (u ++ k :: r) = true -> False.
Proof.
  intros Hw Hm Hf Hd Hu. set (r' := map canon (map kind_of r)).
  assert (Ek : map kind_of (u ++ k :: r) = map kind_of (u ++ k :: r')) by (rewrite !map_app; cbn [map]; unfold r'; rewrite canon_kinds; reflexivity).
  rewrite (unsigned_kinds _ _ _ Ek) in Hu. pose proof (derives_kinds _ _ Hd) as HK. rewrite Ek in Hd.
  destruct (sentence_accepted _ Hd Hu) as (t & Ht).
  - apply Forall_app in Hw as [W1 W2]. apply Forall_app. split; [exact W1|]. constructor; [inversion W2; assumption|].
    rewrite map_app in HK. apply Forall_app in HK as [_ HK]. cbn [map] in HK. inversion HK as [|? ? _ HK']. subst. unfold r'. clear - HK'.
    induction r as [|x r IH]; [constructor|]. cbn [map] in *. inversion HK'; subst. constructor; [apply canon_wf; assumption|auto].
  - exact (stuck _ _ _ _ (msteps_ahead k v r' _ _ _ _ Hm u eq_refl eq_refl) (mfail_ahead _ _ _ _ Hf) Ht).
Qed.
