(** The properties of the parser that concern all texts: termination, panics,
    accepted texts, errors (C13, C14, C15, C17). Specifications: Grammar.v, Tok.v,
    LexSpec.v; proofs: Driver*.v, Trees.v. *)
From Verif Require Import Bytes Utf8 Float64 GoTime Ast Lexer LexFacts LexSpec LexProofs Tables Parser Grammar Tok CertData Cert
  Driver DriverInv Trees.
Open Scope Z_scope.

(** Only white space in the sense of Go's unicode.IsSpace. *)
Definition white (r : Z) : Prop :=
  9 <= r <= 13 \/ In r [32; 133; 160; 5760; 8232; 8233; 8239; 8287; 12288] \/ 8192 <= r <= 8202.
Definition all_white (s : bytes) : Prop := Forall white (runes s).
Lemma blank_white s : blank s = true <-> all_white s.
Proof.
  unfold blank, all_white. rewrite forallb_forall, Forall_forall. unfold unicode_is_space, white. cbn [In].
  split; intros H x Hx; specialize (H x Hx); rewrite !orb_true_iff, !andb_true_iff in *; lia.
Qed.
Lemma blank_not_white s : ~ all_white s -> blank s = false.
Proof. intros H. destruct (blank s) eqn:E; [|reflexivity]. destruct H. apply blank_white, E. Qed.

(** * C13 Parse terminates in linearly many steps *)
(** Any node (fresh or used before): the driver stops by itself after at most
    [10 * length + 1] shifts and reductions, and the fuel of the model is enough. *)
Theorem C13_linear : forall a, exists n p,
  steps n (init_pst a) p /\ (Z.of_nat n <= 10 * Z.of_nat (length (a_code a)) + 1) /\
  (forall p', step p <> Next_ p') /\
  (blank (a_code a) = false -> forall f, (n < f)%nat -> run f (init_pst a) = outcome (step p)).
Proof.
  intros a. destruct (run_result _ (init_inv a)) as (n & p & H1 & H2 & H3 & H4 & H5). exists n, p.
  split; [exact H1|]. split; [rewrite init_potential in H2; exact H2|]. split.
  - intros p' E. rewrite E in H4. exact H4.
  - intros _ f Hf. replace f with (n + S (f - n - 1))%nat by lia.
    rewrite (run_steps _ _ _ H1). cbn [run]. unfold outcome. destruct (step p); [contradiction | reflexivity | reflexivity].
Qed.
Theorem C13_returns : forall a, Parse a <> None.
Proof.
  intros a. unfold Parse. destruct (blank (a_code a)); [discriminate|].
  destruct (run_result _ (init_inv a)) as (n & p & H1 & H2 & H3 & H4 & H5).
  rewrite H5 by (rewrite init_potential; unfold parse_fuel; lia). destruct (step p) as [|x a2|q]; [contradiction| |]; discriminate.
Qed.
Example C13_example : exists a e, parse (B "a = 1 + 2; b(a, 3);") = Some (Ok (a, e)) /\
  exists p, steps 5 (init_pst (NewAST (B "a = 1;"))) p.
Proof. eexists. eexists. split; [vm_compute; reflexivity|]. eexists. repeat (econstructor; [vm_compute; reflexivity|]). constructor. Qed.

(** * C14 Parse never panics *)
(** What holds: the only possible panic is the write to a nil map in the second
    Перем list of a procedure, after an error was recorded (the duplicate name in
    the first list).  Missing for the full claim: that write itself, see below. *)
Theorem C14_panics_partial : forall a q, Parse a = Some (Panic q) ->
  q = PNilMap /\ exists n p, steps n (init_pst a) p /\ step p = Crash PNilMap /\ a_err (p_ast p) <> None.
Proof.
  intros a q. unfold Parse. destruct (blank (a_code a)); [discriminate|].
  destruct (run_result _ (init_inv a)) as (n & p & H1 & H2 & H3 & H4 & H5).
  rewrite H5 by (rewrite init_potential; unfold parse_fuel; lia).
  pose proof (step_inv p H3) as Hs. destruct (step p) as [|x a2|q'] eqn:E; [contradiction|discriminate|].
  cbn [outcome]. intros [= ->]. destruct Hs as (-> & c & C1 & C2 & C3). split; [reflexivity|].
  exists n, p. split; [exact H1|]. split; [exact E|].
  pose proof (i_vars p H3) as Hv. rewrite Forall_forall in Hv. exact (Hv c C1 C2 C3).
Qed.
(** In every reachable state of every run no table and no stack index is out of
    range and no nil pointer is dereferenced. *)
Theorem C14_states_partial : forall a n p q, steps n (init_pst a) p -> step p = Crash q -> q = PNilMap.
Proof.
  intros a n p q H E. destruct (steps_inv _ _ _ H (init_inv a)) as (Hi & _).
  pose proof (step_inv p Hi) as Hs. rewrite E in Hs. apply Hs.
Qed.
Definition C14_statement : Prop := forall code q, parse code <> Some (Panic q).
Theorem C14_refuted : ~ C14_statement.
Proof.
  intros H. apply (H (B "Процедура П() Перем А, А; Перем Б; КонецПроцедуры") PNilMap). vm_compute. reflexivity.
Qed.
Example C14_example : exists a e, parse (B "Процедура П() Перем А, А; КонецПроцедуры") = Some (Ok (a, Some e)).
Proof. eexists. eexists. vm_compute. reflexivity. Qed.

(** * C15 Accepted texts belong to the grammar *)
Theorem C15_accepted : forall code a', parse code = Some (Ok (a', None)) -> ~ all_white code ->
  exists l, tokens code l /\ derives n_module (map kind_of l).
Proof.
  intros code a' H Hw. destruct (Parse_tree (NewAST code) a' H (blank_not_white _ Hw)) as (T & v & l & W & S & _ & <- & Ht).
  exists (yield T). split; [exact Ht|]. apply wf_derives; assumption.
Qed.
(** The scanner is deterministic, so a text with a lexical error is never accepted. *)
Lemma lexes_no_error code t l : lexes code t l -> lex_error code t -> False.
Proof.
  induction 1 as [t t' E|t k t' l E Hk H IH]; intros He; inversion He as [? (k2 & t2 & e & E2)|? k2 t2 E2 Hk2 He2]; subst.
  - congruence.
  - rewrite E in E2. injection E2 as <- _. contradiction.
  - congruence.
  - rewrite E in E2. injection E2 as <- <-. auto.
Qed.
Theorem C15_lexical_error : forall code a' e, lex_error code zero_token -> ~ all_white code ->
  parse code = Some (Ok (a', e)) -> e <> None.
Proof.
  intros code a' e He Hw H ->. destruct (C15_accepted _ _ H Hw) as (l & (raw & Hl & _) & _). exact (lexes_no_error _ _ _ Hl He).
Qed.
Example C15_example : exists a', parse (B "Если а Тогда б(); КонецЕсли;") = Some (Ok (a', None)) /\ ~ all_white (B "Если а Тогда б(); КонецЕсли;").
Proof.
  eexists. split; [vm_compute; reflexivity|]. intros H. apply blank_white in H. vm_compute in H. discriminate.
Qed.
Example C15_lexical_example : lex_error (B "а = 1; $") zero_token.
Proof.
  do 4 (eapply le_later; [vm_compute; reflexivity | discriminate |]).
  apply le_here. eexists. eexists. eexists. vm_compute. reflexivity.
Qed.
(** Why white space is excluded: such a text is accepted without being read, even
    if it contains spaces unknown to the scanner (here a no-break space). *)
Theorem C15_white_refuted : exists code a', parse code = Some (Ok (a', None)) /\ lex_error code zero_token.
Proof.
  exists [xc2; xa0]. eexists. split; [vm_compute; reflexivity|]. apply le_here. eexists. eexists. eexists. vm_compute. reflexivity.
Qed.

(** * C17 Errors stick *)
Theorem C17_sticky : forall a n p a' e, ~ all_white (a_code a) ->
  steps n (init_pst a) p -> a_err (p_ast p) <> None -> Parse a = Some (Ok (a', e)) -> e <> None.
Proof.
  intros a n p a' e Hw H1 He HP.
  destruct (run_result _ (init_inv a)) as (m & p2 & K1 & K2 & K3 & K4 & K5).
  destruct (steps_inv _ _ _ H1 (init_inv a)) as (Hi & _).
  destruct (run_result _ Hi) as (m2 & p3 & L1 & L2 & L3 & L4 & L5).
  assert (E : run (S (n + m2 + m)) (init_pst a) = outcome (step p3)).
  { replace (S (n + m2 + m)) with (n + (m2 + S m))%nat by lia.
    rewrite (run_steps _ _ _ H1), (run_steps _ _ _ L1). cbn [run]. unfold outcome. destruct (step p3); [contradiction | reflexivity | reflexivity]. }
  assert (E2 : run (S (n + m2 + m)) (init_pst a) = outcome (step p2)).
  { replace (S (n + m2 + m)) with (m + S (n + m2))%nat by lia. rewrite (run_steps _ _ _ K1). cbn [run]. unfold outcome. destruct (step p2); [contradiction | reflexivity | reflexivity]. }
  unfold Parse in HP. rewrite (blank_not_white _ Hw) in HP.
  rewrite K5 in HP by (rewrite init_potential; unfold parse_fuel; lia).
  rewrite <- E2, E in HP.
  destruct (steps_inv _ _ _ L1 Hi) as (_ & _ & _ & S4). pose proof (step_inv p3 L3) as Hs.
  destruct (step p3) as [|x a2|q]; [discriminate| |discriminate]. cbn [outcome] in HP. injection HP as <- <-.
  destruct Hs as (_ & Hs & _). apply Hs, S4, He.
Qed.
(** A run that stops with code 1 (syntax error) also returns an error. *)
Theorem C17_failed_run : forall a a' e p n x, ~ all_white (a_code a) -> steps n (init_pst a) p -> step p = Done x a' -> x <> 0 ->
  Parse a = Some (Ok (a', e)) -> e <> None.
Proof.
  intros a a' e p n x Hw H1 Hd Hx HP. destruct (steps_inv _ _ _ H1 (init_inv a)) as (Hi & _).
  pose proof (step_inv p Hi) as Hs. rewrite Hd in Hs. destruct Hs as (_ & _ & Hs).
  unfold Parse in HP. rewrite (blank_not_white _ Hw) in HP.
  destruct (run _ _) as [[[y a2]|]|]; try discriminate. injection HP as -> <-. apply Hs, Hx.
Qed.
(** A node that already carries an error keeps it. *)
Theorem C17_old_error : forall a a' e, a_err a <> None -> ~ all_white (a_code a) ->
  Parse a = Some (Ok (a', e)) -> e <> None.
Proof. intros a a' e He Hw H. exact (C17_sticky a 0 (init_pst a) a' e Hw (steps_0 _) He H). Qed.
Example C17_example : exists n p, steps n (init_pst (NewAST (B "Прервать; а = 1;"))) p /\ a_err (p_ast p) <> None /\
  exists a' e, parse (B "Прервать; а = 1;") = Some (Ok (a', Some e)).
Proof.
  exists 3%nat. eexists. split; [repeat (econstructor; [vm_compute; reflexivity|]); constructor|].
  split; [discriminate|]. eexists. eexists. vm_compute. reflexivity.
Qed.

Print Assumptions C13_linear.
Print Assumptions C13_returns.
Print Assumptions C14_panics_partial.
Print Assumptions C14_states_partial.
Print Assumptions C14_refuted.
Print Assumptions C15_accepted.
Print Assumptions C15_lexical_error.
Print Assumptions C15_white_refuted.
Print Assumptions C17_sticky.
Print Assumptions C17_failed_run.
Print Assumptions C17_old_error.
