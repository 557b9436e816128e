(** Proofs for C64: putting statements into a text keeps the rules, and its tree is the
    tree with the statements put at the same place. *)
From Verif Require Import Bytes Utf8 Float64 GoTime Ast Lexer LexFacts LexSpec LexProofs Tables Parser Grammar Tok CertData Cert
  Driver DriverInv Trees Properties_Parser Syntax Rules Declared RulesFacts CleanFacts DeclaredFacts Order OrderFacts CstTrees CstEval CstModule Properties_Tree
  Machine Levels Bind BindCst Items Complete TightOk CstInj CstWf Regroup Properties_Signs Properties_Bind Legal Panics Accept Properties_Legal Fill.
From Coq Require Import Lia.
Open Scope nat_scope.

Scheme inb_mind := Induction for in_block Sort Prop
with ins_mind := Induction for in_stmt Sort Prop
with ine_mind := Induction for in_elseifs Sort Prop.
Combined Scheme in_all from inb_mind, ins_mind, ine_mind.

Lemma mean_seq b c : mean_block (seq b c) = mean_block b ++ mean_block c.
Proof. induction c; cbn [seq mean_block]; rewrite ?app_nil_r; auto. rewrite IHc, app_assoc. reflexivity. Qed.
Lemma toks_seq b c : toks_block (seq b c) = toks_block b ++ Pct ";" :: toks_block c.
Proof. induction c; cbn [seq toks_block]; auto; rewrite IHc, <- app_assoc; reflexivity. Qed.
Lemma seq_not_nil b c : seq b c <> BNil. Proof. destruct c; discriminate. Qed.
Lemma count_mean b : count b = length (mean_block b).
Proof. induction b; cbn [count mean_block]; rewrite ?app_length; cbn [length]; lia. Qed.
Lemma clean_mean b : clean_block b = true -> b <> BNil -> mean_block b <> [].
Proof.
  induction b; cbn [clean_block mean_block]; intros H Hn; try congruence.
  - destruct b; [discriminate|..]; apply IHb; congruence.
  - destruct (mean_block b); discriminate.
Qed.

(** * The rules *)
Section Rules.
Context (B : block) (HB : B <> BNil).
Lemma in_not_nil p b b' : in_block B p b b' -> b' <> BNil.
Proof. destruct 1; try congruence; apply seq_not_nil. Qed.
Lemma while_seq b c : while_block (seq b c) = while_block b || while_block c.
Proof. induction c; cbn [seq while_block]; rewrite ?orb_false_r; auto. rewrite IHc, orb_assoc. reflexivity. Qed.
Lemma while_in :
  (forall p b b' (H : in_block B p b b'), while_block b = true -> while_block b' = true) /\
  (forall d p b b' (H : in_stmt B d p b b'), while_stmt b = true -> while_stmt b' = true) /\
  (forall d p b b' (H : in_elseifs B d p b b'), while_elseifs b = true -> while_elseifs b' = true).
Proof.
  apply in_all; intros; cbn [while_block while_stmt while_elseifs while_else] in *; rewrite ?while_seq; rewrite ?orb_true_iff in *; intuition discriminate.
Qed.
(** A weaker bound allows more. *)
Lemma loose_mono : (forall s l l', (l = true -> l' = true) -> loose_stmt l s = true -> loose_stmt l' s = true) /\
  (forall s l l', (l = true -> l' = true) -> loose_block l s = true -> loose_block l' s = true) /\
  (forall s l l', (l = true -> l' = true) -> loose_elseifs l s = true -> loose_elseifs l' s = true) /\
  (forall s l l', (l = true -> l' = true) -> loose_else l s = true -> loose_else l' s = true).
Proof.
  apply stmt_all; intros; cbn [loose_stmt loose_block loose_elseifs loose_else] in *; rewrite ?andb_true_iff in *; auto;
  repeat match goal with H : _ /\ _ |- _ => destruct H end; repeat split; eauto;
  match goal with IH : forall l l', _ -> ?f l ?s = true -> _, H : ?f ?l0 ?s = true |- ?f _ ?s = true => refine (IH _ _ _ H) end; rewrite ?orb_true_iff; tauto.
Qed.
Lemma loose_more b (l l' : bool) : (l = true -> l' = true) -> loose_block l b = true -> loose_block l' b = true.
Proof. apply loose_mono. Qed.
Lemma loose_seq l b c : loose_block l b = true -> loose_block l c = true -> loose_block l (seq b c) = true.
Proof.
  intros Hb. induction c; cbn [seq loose_block]; rewrite ?andb_true_iff; intros H; auto.
  - split; [exact Hb|]. refine (proj1 loose_mono _ _ _ _ H). intros ->. reflexivity.
  - destruct H as [H1 H2]. split; [auto|]. refine (proj1 loose_mono _ _ _ _ H2). rewrite while_seq, !orb_true_iff. tauto.
Qed.
Lemma loose_in : loose_block false B = true ->
  (forall p b b' (H : in_block B p b b'), forall l, loose_block l b = true -> loose_block l b' = true) /\
  (forall d p b b' (H : in_stmt B d p b b'), forall l, loose_stmt l b = true -> loose_stmt l b' = true) /\
  (forall d p b b' (H : in_elseifs B d p b b'), forall l, loose_elseifs l b = true -> loose_elseifs l b' = true).
Proof.
  intros L. assert (L' : forall l, loose_block l B = true) by (intros l; apply (loose_more _ false); [discriminate|exact L]).
  pose proof while_in as (W1 & W2 & W3).
  apply in_all; intros; cbn [loose_block loose_stmt loose_elseifs loose_else] in *; rewrite ?andb_true_iff in *;
  repeat match goal with H : _ /\ _ |- _ => destruct H end; repeat split; auto using loose_seq.
  - refine (proj1 loose_mono _ _ _ _ H). intros ->. reflexivity.
  - refine (proj1 loose_mono _ _ _ _ H1). rewrite !orb_true_iff. intuition eauto.
  - refine (proj1 (proj2 (proj2 loose_mono)) _ _ _ _ H2). rewrite !orb_true_iff. intuition eauto.
  - refine (proj2 (proj2 (proj2 loose_mono)) _ _ _ _ H1). rewrite !orb_true_iff. intuition eauto.
  - refine (proj2 (proj2 (proj2 loose_mono)) _ _ _ _ H1). rewrite !orb_true_iff. intuition eauto.
  - refine (proj1 (proj2 loose_mono) _ _ _ _ H1). rewrite !orb_true_iff. intuition eauto.
  - refine (proj1 (proj2 (proj2 loose_mono)) _ _ _ _ H1). rewrite !orb_true_iff. intuition eauto.
Qed.
Lemma throws_mono : (forall s, throws_stmt false s = true -> throws_stmt true s = true) /\ (forall s, throws_block false s = true -> throws_block true s = true) /\
  (forall s, throws_elseifs false s = true -> throws_elseifs true s = true) /\ (forall s, throws_else false s = true -> throws_else true s = true).
Proof. apply stmt_all; intros; cbn [throws_stmt throws_block throws_elseifs throws_else] in *; rewrite ?andb_true_iff in *; intuition; destruct o; auto. Qed.
Lemma throws_seq h b c : throws_block h b = true -> throws_block h c = true -> throws_block h (seq b c) = true.
Proof. intros Hb. induction c; cbn [seq throws_block]; rewrite ?andb_true_iff; intuition. Qed.
Lemma throws_in : throws_block false B = true ->
  (forall p b b' (H : in_block B p b b'), forall l, throws_block l b = true -> throws_block l b' = true) /\
  (forall d p b b' (H : in_stmt B d p b b'), forall l, throws_stmt l b = true -> throws_stmt l b' = true) /\
  (forall d p b b' (H : in_elseifs B d p b b'), forall l, throws_elseifs l b = true -> throws_elseifs l b' = true).
Proof.
  intros L. assert (L' : forall l, throws_block l B = true) by (intros []; [apply throws_mono|]; exact L).
  apply in_all; intros; cbn [throws_block throws_stmt throws_elseifs throws_else] in *; rewrite ?andb_true_iff in *; intuition auto using throws_seq.
Qed.
Lemma returns_mono : (forall s, returns_stmt false s = true -> returns_stmt true s = true) /\ (forall s, returns_block false s = true -> returns_block true s = true) /\
  (forall s, returns_elseifs false s = true -> returns_elseifs true s = true) /\ (forall s, returns_else false s = true -> returns_else true s = true).
Proof. apply stmt_all; intros; cbn [returns_stmt returns_block returns_elseifs returns_else] in *; rewrite ?andb_true_iff in *; intuition; destruct o; auto. Qed.
Lemma returns_seq h b c : returns_block h b = true -> returns_block h c = true -> returns_block h (seq b c) = true.
Proof. intros Hb. induction c; cbn [seq returns_block]; rewrite ?andb_true_iff; intuition. Qed.
Lemma returns_in : returns_block false B = true ->
  (forall p b b' (H : in_block B p b b'), forall l, returns_block l b = true -> returns_block l b' = true) /\
  (forall d p b b' (H : in_stmt B d p b b'), forall l, returns_stmt l b = true -> returns_stmt l b' = true) /\
  (forall d p b b' (H : in_elseifs B d p b b'), forall l, returns_elseifs l b = true -> returns_elseifs l b' = true).
Proof.
  intros L. assert (L' : forall l, returns_block l B = true) by (intros []; [apply returns_mono|]; exact L).
  apply in_all; intros; cbn [returns_block returns_stmt returns_elseifs returns_else] in *; rewrite ?andb_true_iff in *; intuition auto using returns_seq.
Qed.
Lemma clean_skip b x : clean_block (BSkip b x) = true <-> b <> BNil /\ clean_block b = true.
Proof. cbn [clean_block]. destruct b; intuition congruence. Qed.
Lemma clean_snoc b x s : clean_block (BSnoc b x s) = true <-> b <> BNil /\ clean_block b = true /\ clean_stmt s = true.
Proof. cbn [clean_block]. destruct b; rewrite ?andb_true_iff; intuition congruence. Qed.
Lemma clean_seq b c : b <> BNil -> clean_block b = true -> clean_block c = true -> clean_block (seq b c) = true.
Proof.
  intros Hn Hb. induction c; cbn [seq]; rewrite ?clean_skip, ?clean_snoc; intuition auto; try (eapply seq_not_nil; eassumption).
Qed.
Lemma clean_in : clean_block B = true ->
  (forall p b b' (H : in_block B p b b'), clean_block b = true -> clean_block b' = true) /\
  (forall d p b b' (H : in_stmt B d p b b'), clean_stmt b = true -> clean_stmt b' = true) /\
  (forall d p b b' (H : in_elseifs B d p b b'), clean_elseifs b = true -> clean_elseifs b' = true).
Proof.
  intros L. apply in_all; intros; rewrite ?clean_skip, ?clean_snoc in *; try (cbn [clean_block clean_stmt clean_elseifs clean_else] in *; rewrite ?andb_true_iff in *);
    intuition auto using clean_seq; eapply in_not_nil; eassumption.
Qed.
Lemma last_app (l m : list stmt) d : m <> [] -> last (l ++ m) d = last m d.
Proof.
  intros Hm. induction l as [|z l IH]; [reflexivity|]. cbn [app last]. rewrite IH. destruct (l ++ m) eqn:E; [|reflexivity].
  apply app_eq_nil in E as [_ E]. contradiction.
Qed.
Lemma colon_last x (l m : list stmt) : m <> [] -> colon_ok x (l ++ m) = colon_ok x m.
Proof.
  intros Hm. destruct x; [reflexivity|]. unfold colon_ok. pose proof (last_app l m SNil Hm) as H. destruct m as [|y m]; [contradiction|].
  destruct (l ++ y :: m) eqn:E; [destruct l; discriminate|]. rewrite H. reflexivity.
Qed.
Lemma colons_seq b c : clean_block c = true -> colons_block b = true -> colons_block c = true -> colons_block (seq b c) = true.
Proof.
  intros Hc Hb. revert Hc. induction c; cbn [seq colons_block]; rewrite ?clean_skip, ?clean_snoc, ?andb_true_iff; intros Hc H; auto.
  - destruct Hc, H. rewrite mean_seq, colon_last by (apply clean_mean; assumption). auto.
  - destruct Hc as (? & ? & ?), H as [[? ?] ?]. rewrite mean_seq, colon_last by (apply clean_mean; assumption). auto.
Qed.
Lemma colons_in : clean_block B = true -> colons_block B = true ->
  (forall p b b' (H : in_block B p b b'), colons_block b = true -> colons_block b' = true) /\
  (forall d p b b' (H : in_stmt B d p b b'), colons_stmt b = true -> colons_stmt b' = true) /\
  (forall d p b b' (H : in_elseifs B d p b b'), colons_elseifs b = true -> colons_elseifs b' = true).
Proof.
  intros K L. apply in_all; intros; cbn [colons_block colons_stmt colons_elseifs colons_else] in *; rewrite ?andb_true_iff in *;
    intuition auto using colons_seq.
Qed.

(** ** Whole programs *)
Inductive swapped : cfunc -> cfunc -> Prop := Swapped p d g n ps x v b b' : in_block B p b b' -> swapped (CFunc d g n ps x v b) (CFunc d g n ps x v b').
Lemma in_items_funcs p l l' : in_items B p l l' -> item_gvars l' = item_gvars l /\ layout_ok l' = layout_ok l /\
  exists u f f' v, item_funcs l = u ++ f :: v /\ item_funcs l' = u ++ f' :: v /\ swapped f f'.
Proof.
  induction 1 as [p l d g n ps x v b b' H|p l l' i H (I1 & I2 & u & f & f' & v & I3 & I4 & I5)]; cbn [item_gvars item_funcs layout_ok].
  - split; [reflexivity|]. split; [reflexivity|]. exists (item_funcs l), (CFunc d g n ps x v b), (CFunc d g n ps x v b'), []. repeat split. econstructor. exact H.
  - destruct i as [dd nn xx|ff]; rewrite I1, I2; (split; [reflexivity|]); (split; [|]).
    + rewrite I3, I4. destruct u; reflexivity.
    + exists u, f, f', v. auto.
    + reflexivity.
    + exists u, f, f', (v ++ [ff]). rewrite I3, I4, <- !app_assoc. auto.
Qed.
Lemma each_in_program (P : cfunc -> bool) (Q : block -> bool) p q q' :
  (forall f f', swapped f f' -> P f = true -> P f' = true) -> (forall p b b', in_block B p b b' -> Q b = true -> Q b' = true) ->
  in_program B p q q' -> each_body P Q q = true -> each_body P Q q' = true.
Proof.
  intros H1 H2 H. destruct H as [p l l' b H|p l b b' H]; unfold each_body; cbn [pr_items pr_body]; rewrite !andb_true_iff; intros [A1 A2]; (split; [|eauto]); [|assumption].
  destruct (in_items_funcs _ _ _ H) as (_ & _ & u & f & f' & v & E1 & E2 & E3). rewrite E1 in A1. rewrite E2. rewrite forallb_app in *. cbn [forallb] in *.
  rewrite !andb_true_iff in *. intuition eauto.
Qed.
Lemma while_funcs_app u v : while_funcs (u ++ v) = while_funcs u || while_funcs v.
Proof. induction u as [|f u IH]; [reflexivity|]. cbn [app while_funcs]. rewrite IH, orb_assoc. reflexivity. Qed.
Lemma loose_funcs_app u : forall w v, loose_funcs w (u ++ v) = loose_funcs w u && loose_funcs (w || while_funcs u) v.
Proof. induction u as [|f u IH]; intros w v; cbn [app loose_funcs while_funcs]; [rewrite orb_false_r; reflexivity|]. rewrite IH, andb_assoc, orb_assoc. reflexivity. Qed.
Lemma loose_funcs_more l : forall w w' : bool, (w = true -> w' = true) -> loose_funcs w l = true -> loose_funcs w' l = true.
Proof.
  induction l as [|f l IH]; intros w w' H; [auto|]. cbn [loose_funcs]. rewrite !andb_true_iff. intros [A1 A2]. split; [exact (loose_more _ _ _ H A1)|].
  refine (IH _ _ _ A2). rewrite !orb_true_iff. tauto.
Qed.
Lemma loose_in_program p q q' : loose_block false B = true -> in_program B p q q' -> loose_ok q = true -> loose_ok q' = true.
Proof.
  intros L H. pose proof (proj1 (loose_in L)) as LI. destruct H as [p l l' b H|p l b b' H]; unfold loose_ok; cbn [pr_items pr_body]; rewrite !andb_true_iff; intros [A1 A2]; [|eauto].
  destruct (in_items_funcs _ _ _ H) as (_ & _ & u & f & f' & v & E1 & E2 & E3). rewrite E1 in *. rewrite E2. clear E1 E2 H.
  rewrite loose_funcs_app, while_funcs_app in *. cbn [loose_funcs while_funcs] in *. rewrite !andb_true_iff in *. destruct A1 as (B1 & B2 & B3).
  destruct E3 as [p0 d g n ps x vs c c' H]. cbn [cf_body] in *. pose proof (proj1 while_in _ _ _ H) as W. repeat split; eauto.
  - refine (loose_funcs_more _ _ _ _ B3). rewrite !orb_true_iff. tauto.
  - refine (loose_more _ _ _ _ A2). rewrite !orb_true_iff. tauto.
Qed.
Definition fit (b : block) : Prop :=
  clean_block b = true /\ colons_block b = true /\ loose_block false b = true /\ throws_block false b = true /\ returns_block false b = true.
Definition obeys (p : program) : Prop :=
  clean p = true /\ colons_ok p = true /\ loose_ok p = true /\ throws_ok p = true /\ returns_ok p = true /\ vars_once p /\ layout_ok (pr_items p) = true /\
  defaults_ok p = true /\ defaults_bound p = true.
Lemma obeys_in p q q' : fit B -> in_program B p q q' -> obeys q -> obeys q'.
Proof.
  intros (L1 & L2 & L3 & L4 & L5) H (A1 & A2 & A3 & A4 & A5 & A6 & A7 & A8 & A9).
  assert (G : item_gvars (pr_items q') = item_gvars (pr_items q) /\ layout_ok (pr_items q') = layout_ok (pr_items q)
    /\ forall P : cfunc -> Prop, (forall f f', swapped f f' -> P f -> P f') -> Forall P (item_funcs (pr_items q)) -> Forall P (item_funcs (pr_items q'))).
  { destruct H as [p l l' b H|p l b b' H]; cbn [pr_items]; [|auto]. destruct (in_items_funcs _ _ _ H) as (G1 & G2 & u & f & f' & v & E1 & E2 & E3).
    repeat split; auto. intros P HP. rewrite E1, E2, !Forall_app. intros [F1 F2]. inversion F2; subst. split; [assumption|]. constructor; eauto. }
  destruct G as (G1 & G2 & G3). repeat split.
  - revert A1. refine (each_in_program _ _ _ _ _ _ _ H); [intros f f' []; cbn [cf_body]|intros]; eapply clean_in; eauto.
  - revert A2. refine (each_in_program _ _ _ _ _ _ _ H); [intros f f' []; cbn [cf_body]|intros]; eapply colons_in; eauto.
  - exact (loose_in_program _ _ _ L3 H A3).
  - revert A4. refine (each_in_program _ _ _ _ _ _ _ H); [intros f f' []; cbn [cf_body]|intros]; eapply throws_in; eauto.
  - revert A5. refine (each_in_program _ _ _ _ _ _ _ H); [intros f f' []; cbn [cf_body cf_function]|intros]; eapply returns_in; eauto.
  - refine (G3 _ _ (proj1 A6)). intros f f' []. auto.
  - rewrite G1. apply A6.
  - congruence.
  - unfold defaults_ok in *. rewrite forallb_forall in *. apply Forall_forall. refine (G3 _ _ _); [intros f f' []; auto|]. apply Forall_forall, A8.
  - unfold defaults_bound in *. rewrite forallb_forall in *. apply Forall_forall. refine (G3 _ _ _); [intros f f' []; auto|]. apply Forall_forall, A9.
Qed.
End Rules.

(** * Grouping *)
Lemma regroup_seq b c : regroup_block (seq b c) = seq (regroup_block b) (regroup_block c).
Proof. induction c; cbn [seq regroup_block]; congruence. Qed.
Lemma regroup_nil b : regroup_block b = BNil -> b = BNil. Proof. destruct b; cbn; congruence. Qed.
Lemma regroup_count b : count (regroup_block b) = count b.
Proof. induction b; cbn [regroup_block count]; congruence. Qed.
Lemma regroup_in B :
  (forall p b b' (H : in_block B p b b'), in_block (regroup_block B) p (regroup_block b) (regroup_block b')) /\
  (forall d p b b' (H : in_stmt B d p b b'), in_stmt (regroup_block B) d p (regroup_stmt b) (regroup_stmt b')) /\
  (forall d p b b' (H : in_elseifs B d p b b'), in_elseifs (regroup_block B) d p (regroup_elseifs b) (regroup_elseifs b')).
Proof.
  apply in_all; intros; cbn [regroup_block regroup_stmt regroup_elseifs regroup_else]; rewrite ?regroup_seq; try rewrite <- (regroup_count b);
  constructor; rewrite ?colon_regroup; auto; intros E; apply regroup_nil in E; auto.
Qed.
Lemma regroup_in_items B p l l' : in_items B p l l' -> in_items (regroup_block B) p (regroup_items l) (regroup_items l').
Proof.
  induction 1; cbn [regroup_items]; [|constructor; assumption]. unfold regroup_func. cbn [cf_dir cf_function cf_name cf_params cf_export cf_vars cf_body].
  replace (length (item_funcs l)) with (length (item_funcs (regroup_items l))) by (rewrite regroup_funcs; apply map_length). constructor. apply regroup_in. assumption.
Qed.
Lemma regroup_in_program B p q q' : in_program B p q q' -> in_program (regroup_block B) p (regroup_program q) (regroup_program q').
Proof.
  destruct 1; unfold regroup_program; cbn [pr_items pr_body]; [constructor; apply regroup_in_items; assumption|].
  replace (length (item_funcs l)) with (length (item_funcs (regroup_items l))) by (rewrite regroup_funcs; apply map_length). constructor. apply regroup_in. assumption.
Qed.

(** * The tree *)
Lemma elems_of l : elems (slice_of l) = l. Proof. destruct l; reflexivity. Qed.
Lemma slice_some l : l <> [] -> slice_of l = Some l. Proof. destruct l; [congruence|reflexivity]. Qed.
Lemma at_here {A} (f : A -> A) u x v : at_nth (length u) f (u ++ x :: v) = u ++ f x :: v.
Proof. unfold at_nth. rewrite firstn_app, skipn_app, firstn_all, skipn_all, Nat.sub_diag. cbn [firstn skipn app]. rewrite app_nil_r. reflexivity. Qed.
Lemma at_left {A} (f : A -> A) n u v : n < length u -> at_nth n f (u ++ v) = at_nth n f u ++ v.
Proof.
  intros H. unfold at_nth. rewrite firstn_app, skipn_app. replace (n - length u) with 0 by lia. cbn [firstn skipn]. rewrite app_nil_r, <- app_assoc. f_equal.
  destruct (skipn n u) eqn:E; [|reflexivity]. apply (f_equal (@length A)) in E. rewrite skipn_length in E. cbn in E. lia.
Qed.
Lemma at_right {A} (f : A -> A) n u v : at_nth (length u + n) f (u ++ v) = u ++ at_nth n f v.
Proof. unfold at_nth. rewrite firstn_app_2, skipn_app, skipn_all2 by lia. replace (length u + n - length u) with n by lia. rewrite <- app_assoc. reflexivity. Qed.
Definition within (p : spot) (n : nat) : Prop := match p with Here k => k <= n | Inside k _ _ => k < n end.
Lemma put_elems ss p l : ss <> [] \/ l <> [] -> within p (length l) -> exists r, put ss p (slice_of l) = slice_of r /\ put ss p (slice_of l) = Some r.
Proof.
  intros H W. destruct p; cbn [put within] in *; rewrite elems_of; eexists; split; try reflexivity; symmetry; apply slice_some.
  - destruct H; [destruct (firstn n l); [destruct ss; [congruence|]|]; discriminate|]. intros E. apply app_eq_nil in E as [E1 E2]. apply app_eq_nil in E2 as [_ E2].
    apply H. rewrite <- (firstn_skipn n l), E1, E2. reflexivity.
  - unfold at_nth. intros E. apply app_eq_nil in E as [E1 E2]. destruct (skipn n l) eqn:E; [|discriminate]. apply (f_equal (@length stmt)) in E. rewrite skipn_length in E. cbn in E. lia.
Qed.
Lemma put_right ss p l x : within p (length l) -> put ss p (slice_of (l ++ x)) = Some (elems (put ss p (slice_of l)) ++ x).
Proof.
  destruct p; cbn [put within]; rewrite !elems_of; cbn [elems]; intros H.
  - rewrite firstn_app, skipn_app. replace (n - length l) with 0 by lia. cbn [firstn skipn]. rewrite app_nil_r, <- !app_assoc. reflexivity.
  - rewrite at_left by exact H. reflexivity.
Qed.
Lemma put_left ss p u l : put ss (shift (length u) p) (slice_of (u ++ l)) = Some (u ++ elems (put ss p (slice_of l))).
Proof.
  destruct p; cbn [put shift]; rewrite !elems_of; cbn [elems].
  - rewrite firstn_app_2, skipn_app, skipn_all2 by lia. replace (length u + n - length u) with n by lia. rewrite <- !app_assoc. reflexivity.
  - rewrite at_right. reflexivity.
Qed.
Section Tree.
Context (B : block) (HB : mean_block B <> []).
Let ss := mean_block B.
Lemma in_within : (forall p b b' (H : in_block B p b b'), within p (length (mean_block b))) /\ (forall d p b b', in_stmt B d p b b' -> True) /\
  (forall k p b b' (H : in_elseifs B k p b b'), k < length (mean_elseifs b)).
Proof.
  apply in_all; intros; cbn [within mean_block mean_elseifs length]; rewrite ?count_mean, ?app_length; cbn [length]; try lia; auto.
  - destruct p; cbn [within] in *; lia.
Qed.
Lemma mean_in :
  (forall p b b' (H : in_block B p b b'), slice_of (mean_block b') = put ss p (slice_of (mean_block b))) /\
  (forall d p b b' (H : in_stmt B d p b b'), mean_stmt b' = through d (put ss p) (mean_stmt b)) /\
  (forall k p b b' (H : in_elseifs B k p b b'), mean_elseifs b' = at_nth k (fun s => match s with SIf c b e l => SIf c (put ss p b) e l | _ => s end) (mean_elseifs b)).
Proof.
  pose proof in_within as (W & _ & We).
  apply in_all; intros; cbn [mean_block mean_stmt mean_elseifs mean_else through].
  - cbn [slice_of put elems firstn skipn app]. rewrite app_nil_r. apply slice_some, HB.
  - rewrite mean_seq, count_mean. cbn [put]. rewrite elems_of, firstn_all, skipn_all, app_nil_r. apply slice_some. intros E. apply app_eq_nil in E as [_ E]. auto.
  - rewrite mean_seq, count_mean. cbn [put]. rewrite elems_of, firstn_all, skipn_all, app_nil_r. apply slice_some. intros E. apply app_eq_nil in E as [_ E]. auto.
  - cbn [put elems slice_of firstn skipn app]. apply slice_some. intros E. apply app_eq_nil in E as [_ E]. discriminate.
  - cbn [slice_of put elems]. unfold at_nth. cbn [firstn skipn app]. rewrite H. reflexivity.
  - assumption.
  - rewrite put_right, <- H by eauto. rewrite elems_of. apply slice_some. intros E. apply app_eq_nil in E as [_ E]. discriminate.
  - cbn [put]. rewrite elems_of, count_mean, at_here, H. apply slice_some. intros E. apply app_eq_nil in E as [_ E]. discriminate.
  - rewrite H. reflexivity.
  - specialize (We _ _ _ _ i). f_equal. f_equal. rewrite H. clear H. rewrite rev_length. set (l0 := mean_elseifs l) in *.
    destruct (nth_split l0 SNil We) as (u & v & E & Hk). rewrite E. rewrite <- Hk at 1. rewrite at_here. rewrite app_length. cbn [length].
    replace (length u + S (length v) - 1 - k) with (length (rev v)) by (rewrite rev_length; lia).
    rewrite !rev_app_distr. cbn [rev]. rewrite <- !app_assoc. cbn [app]. rewrite at_here. reflexivity.
  - rewrite H. reflexivity.
  - rewrite H. reflexivity.
  - rewrite H. reflexivity.
  - rewrite H. reflexivity.
  - rewrite H. reflexivity.
  - rewrite H. reflexivity.
  - unfold at_nth. cbn [firstn skipn app]. rewrite H. reflexivity.
  - rewrite H. unfold at_nth. cbn [firstn skipn app]. reflexivity.
Qed.
Lemma mean_in_items p l l' : in_items B p l l' -> within p (length (item_funcs l)) /\
  Some (map mean_func (item_funcs l')) = put ss p (slice_of (map mean_func (item_funcs l))).
Proof.
  induction 1 as [p l d g n ps x v b b' H|p l l' i H [I1 I2]]; cbn [item_funcs].
  - split; [rewrite app_length; cbn; lia|]. rewrite !map_app. cbn [map put]. rewrite elems_of. rewrite <- (map_length mean_func (item_funcs l)), at_here. do 3 f_equal.
    unfold mean_func, mean_func_with. cbn [through cf_vars cf_name cf_dir cf_params cf_function cf_export cf_body]. rewrite (proj1 mean_in _ _ _ H). reflexivity.
  - destruct i as [|f]; [auto|]. rewrite app_length. split; [destruct p; cbn [within length] in *; lia|]. rewrite !map_app.
    rewrite put_right by (rewrite map_length; exact I1). rewrite <- I2. reflexivity.
Qed.
Lemma mean_in_program p q q' : in_program B p q q' -> mean_program q' = put_module ss p (mean_program q).
Proof.
  intros H. assert (G : item_gvars (pr_items q') = item_gvars (pr_items q)).
  { destruct H as [p l l' b H|]; [apply (in_items_funcs _ _ _ _ H)|reflexivity]. }
  unfold mean_program, put_module. cbn [m_name m_gvars m_body]. rewrite G. f_equal. clear G.
  destruct H as [p l l' b H|p l b b' H]; cbn [pr_items pr_body].
  - destruct (mean_in_items _ _ _ H) as [W E]. rewrite put_right by (rewrite map_length; exact W). rewrite <- E. cbn [elems]. apply slice_some.
    destruct (in_items_funcs _ _ _ _ H) as (_ & _ & u & f & f' & v & _ & E2 & _). rewrite E2, map_app. cbn [map]. destruct (map mean_func u); discriminate.
  - rewrite <- (map_length mean_func). rewrite put_left, <- (proj1 mean_in _ _ _ H), elems_of. apply slice_some.
    intros E. apply app_eq_nil in E as [_ E]. pose proof (proj1 mean_in _ _ _ H) as M. rewrite E in M. destruct p; discriminate.
Qed.
End Tree.

(** * Taking statements out *)
Section Out.
Context (B : block).
Lemma throws_seq_left h b c : throws_block h (seq b c) = true -> throws_block h b = true.
Proof. induction c; cbn [seq throws_block]; rewrite ?andb_true_iff; tauto. Qed.
Lemma throws_out :
  (forall p b b' (H : in_block B p b b'), forall l, throws_block l b' = true -> throws_block l b = true) /\
  (forall d p b b' (H : in_stmt B d p b b'), forall l, throws_stmt l b' = true -> throws_stmt l b = true) /\
  (forall d p b b' (H : in_elseifs B d p b b'), forall l, throws_elseifs l b' = true -> throws_elseifs l b = true).
Proof.
  apply in_all; intros; cbn [throws_block throws_stmt throws_elseifs throws_else] in *; rewrite ?andb_true_iff in *; intuition eauto using throws_seq_left.
Qed.
Lemma returns_seq_left h b c : returns_block h (seq b c) = true -> returns_block h b = true.
Proof. induction c; cbn [seq returns_block]; rewrite ?andb_true_iff; tauto. Qed.
Lemma returns_out :
  (forall p b b' (H : in_block B p b b'), forall l, returns_block l b' = true -> returns_block l b = true) /\
  (forall d p b b' (H : in_stmt B d p b b'), forall l, returns_stmt l b' = true -> returns_stmt l b = true) /\
  (forall d p b b' (H : in_elseifs B d p b b'), forall l, returns_elseifs l b' = true -> returns_elseifs l b = true).
Proof.
  apply in_all; intros; cbn [returns_block returns_stmt returns_elseifs returns_else] in *; rewrite ?andb_true_iff in *; intuition eauto using returns_seq_left.
Qed.
Lemma each_out_program (P : cfunc -> bool) (Q : block -> bool) p q q' :
  (forall f f', swapped B f f' -> P f' = true -> P f = true) -> (forall p b b', in_block B p b b' -> Q b' = true -> Q b = true) ->
  in_program B p q q' -> each_body P Q q' = true -> each_body P Q q = true.
Proof.
  intros H1 H2 H. destruct H as [p l l' b H|p l b b' H]; unfold each_body; cbn [pr_items pr_body]; rewrite !andb_true_iff; intros [A1 A2]; (split; [|eauto]); [|assumption].
  destruct (in_items_funcs _ _ _ _ H) as (_ & _ & u & f & f' & v & E1 & E2 & E3). rewrite E2 in A1. rewrite E1. rewrite forallb_app in *. cbn [forallb] in *.
  rewrite !andb_true_iff in *. intuition eauto.
Qed.
Lemma obeys_out p q q' : in_program B p q q' -> clean q = true -> colons_ok q = true -> breaks_ok q = true ->
  throws_ok q' = true -> returns_ok q' = true -> vars_once q' -> layout_ok (pr_items q') = true -> defaults_ok q = true -> defaults_bound q = true -> obeys q.
Proof.
  intros H A1 A2 A3 A4 A5 A6 A7 A8 A9.
  assert (G : item_gvars (pr_items q') = item_gvars (pr_items q) /\ layout_ok (pr_items q') = layout_ok (pr_items q)
    /\ forall P : cfunc -> Prop, (forall f f', swapped B f f' -> P f' -> P f) -> Forall P (item_funcs (pr_items q')) -> Forall P (item_funcs (pr_items q))).
  { destruct H as [p l l' b H|p l b b' H]; cbn [pr_items]; [|auto]. destruct (in_items_funcs _ _ _ _ H) as (G1 & G2 & u & f & f' & v & E1 & E2 & E3).
    repeat split; auto. intros P HP. rewrite E1, E2, !Forall_app. intros [F1 F2]. inversion F2; subst. split; [assumption|]. constructor; eauto. }
  destruct G as (G1 & G2 & G3). unfold obeys. split; [exact A1|]. split; [exact A2|]. split; [exact (breaks_loose _ A3)|]. repeat split.
  - revert A4. refine (each_out_program _ _ _ _ _ _ _ H); [intros f f' []; cbn [cf_body]|intros]; eapply throws_out; eauto.
  - revert A5. refine (each_out_program _ _ _ _ _ _ _ H); [intros f f' []; cbn [cf_body cf_function]|intros]; eapply returns_out; eauto.
  - refine (G3 _ _ (proj1 A6)). intros f f' []. auto.
  - rewrite <- G1. apply A6.
  - congruence.
  - exact A8.
  - exact A9.
Qed.
End Out.
