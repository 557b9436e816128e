(** Operators are grouped by the declared precedences (C24). Specification: Levels.v
    (the table and when a program obeys it); proofs: Machine.v, Bind.v, Items.v,
    Complete.v, TightOk.v, CstInj.v, CstWf.v, Regroup.v. *)
From Verif Require Import Bytes Utf8 Float64 GoTime Ast Lexer LexFacts LexSpec LexProofs Tables Parser Grammar Tok CertData Cert
  Driver DriverInv Trees Properties_Parser Syntax Rules RulesFacts CleanFacts Order OrderFacts CstTrees CstEval CstModule Properties_Tree
  Machine Levels Bind BindCst Items Complete TightOk CstInj CstWf Regroup.
Open Scope Z_scope.

(** What an accepted text is: the tokens of a program grouped by the table. *)
Lemma bound_of code m : accepted code m -> exists p, tokens code (toks_program p) /\
  defaults_ok p = true /\ bound_program p = true /\ (clean p = true -> colons_ok p = true /\ m = mean_program p).
Proof.
  intros (Hw & a' & H & <-). pose proof (blank_not_white _ Hw) as Hb.
  destruct (Parse_accepted (NewAST code) a' H Hb) as (inp & T & v & a1 & Ht & Ha & W & S & Hs & He).
  pose proof (tokens_wf _ _ Ht) as Hin. pose proof (maccepts_yield _ _ Hin Ha) as Hy.
  pose proof (accepted_tight _ _ Hin Ha) as Hti.
  destruct (wf_program _ W S) as (p & Hd & ->). exists p.
  rewrite (yield_program p Hd) in Hy. rewrite (tight_program p Hd) in Hti. subst inp.
  split; [exact Ht|]. split; [exact Hd|]. split; [exact Hti|].
  assert (Herr : a_err a' = None) by (apply (Parse_err _ _ _ H), Hb).
  apply (eval_program p v a1 a' Hd); [|exact He|exact Herr].
  destruct Hs as (_ & _ & S3 & S4 & S5 & S6). unfold fresh. rewrite S3, S4, S5, S6. repeat split.
Qed.

Lemma bound_unique p p' : defaults_ok p = true -> defaults_ok p' = true -> bound_program p = true -> bound_program p' = true ->
  toks_program p = toks_program p' -> p = p'.
Proof.
  intros Hd Hd' Hb Hb' Ht. apply program_inj; [exact Hd|exact Hd'|].
  destruct (good_program p Hd) as [W S], (good_program p' Hd') as [W' S'].
  rewrite <- (tight_program p Hd) in Hb. rewrite <- (tight_program p' Hd') in Hb'.
  pose proof (tight_accepted _ W S Hb) as A. pose proof (tight_accepted _ W' S' Hb') as A'.
  rewrite (yield_program p Hd) in A. rewrite (yield_program p' Hd') in A'. rewrite <- Ht in A'.
  exact (maccepts_det _ _ _ A A').
Qed.

(** * C24 *)
(** The text is the token sequence of a program that obeys the table, and the tree is the
    tree of that program (blocks starting with a separator: see C16). *)
Theorem C24_grouping : forall code m l, accepted code m -> tokens code l ->
  exists p, l = toks_program p /\ defaults_ok p = true /\ bound_program p = true /\ (clean_toks Begin l = true -> m = mean_program p).
Proof.
  intros code m l H Hl. destruct (bound_of _ _ H) as (p & H1 & H2 & H3 & H4). exists p.
  rewrite (tokens_det _ _ _ Hl H1), clean_program. repeat split; try assumption. intros Hc. apply H4, Hc.
Qed.
(** The table leaves no choice: two programs that obey it and have the same tokens are equal. *)
Theorem C24_unique : forall p p', defaults_ok p = true -> defaults_ok p' = true -> bound_program p = true -> bound_program p' = true ->
  toks_program p = toks_program p' -> p = p'.
Proof. exact bound_unique. Qed.
(** So whenever the tokens of an accepted text are those of a program obeying the table,
    the tree is the tree of that program. *)
Theorem C24_tree : forall code m p, accepted code m -> tokens code (toks_program p) -> defaults_ok p = true -> bound_program p = true ->
  clean p = true -> m = mean_program p.
Proof.
  intros code m p H Ht Hd Hb Hc. destruct (bound_of _ _ H) as (q & H1 & H2 & H3 & H4).
  assert (E : p = q) by (apply bound_unique; auto; exact (tokens_det _ _ _ Ht H1)). subst q. apply H4, Hc.
Qed.
(** Operand/operator sequences of any length: every expression has exactly one regrouping
    (same tokens) that obeys the table. *)
Theorem C24_expr_exists : forall e, exists e', toks_expr e' = toks_expr e /\ bound e' = true.
Proof. intros e. exists (regroup e). split; [apply regroup_toks|apply regroup_bound]. Qed.
Theorem C24_expr_unique : forall e e', bound e = true -> bound e' = true -> toks_expr e = toks_expr e' -> e = e'.
Proof.
  intros e e' H H' Ht.
  assert (E : Program INil (BOne (CReturn (OSome e))) = Program INil (BOne (CReturn (OSome e')))).
  { apply bound_unique; try reflexivity; [exact H|exact H'|]. unfold toks_program. cbn. rewrite Ht. reflexivity. }
  injection E. auto.
Qed.
(** Reading the table: [x], [y], [z] are operands without an operator on their own level. *)
Definition operand (e : expr) : bool := match e with EBin _ _ _ | ENot _ | ENeg _ | EPos _ => false | _ => true end.
Lemma operand_left n e : operand e = true -> left_above n e = true. Proof. destruct e; try reflexivity; discriminate. Qed.
Lemma operand_right n e : operand e = true -> right_above n e = true. Proof. destruct e; try reflexivity; discriminate. Qed.
Theorem C24_two_operators : forall o1 o2 x y z, operand x = true -> operand y = true -> operand z = true ->
  bound x = true -> bound y = true -> bound z = true ->
  bound (EBin o2 (EBin o1 x y) z) = (level o2 <=? level o1) /\ bound (EBin o1 x (EBin o2 y z)) = (level o1 <? level o2).
Proof.
  intros o1 o2 x y z Hx Hy Hz Bx By Bz. cbn [bound left_above right_above].
  rewrite !Bx, !By, !Bz, !(operand_left _ y), !(operand_left _ z), !(operand_right _ x), !(operand_right _ y) by assumption.
  rewrite !andb_true_r. auto.
Qed.
(** A chain of operators of one level groups to the left, whatever its length. *)
Definition chain (x : expr) (l : list (bop * expr)) : expr := fold_left (fun e p => EBin (fst p) e (snd p)) l x.
Lemma chain_right n l : forall x, Forall (fun p => level (fst p) = n /\ operand (snd p) = true /\ bound (snd p) = true) l ->
  right_above n x = true -> right_above n (chain x l) = true.
Proof.
  induction l as [|[o y] l IH]; intros x H Hx; [exact Hx|]. inversion H as [|? ? (E & Hy & _) Hl]; subst. cbn [chain fold_left]. apply (IH _ Hl).
  cbn [fst snd right_above] in *. rewrite Z.leb_refl, (operand_right _ _ Hy). reflexivity.
Qed.
Theorem C24_left_associative : forall n l x, operand x = true -> bound x = true ->
  Forall (fun p => level (fst p) = n /\ operand (snd p) = true /\ bound (snd p) = true) l -> bound (chain x l) = true.
Proof.
  intros n l x Hx Bx H. assert (Rx : right_above n x = true) by (apply operand_right, Hx). clear Hx. revert x Bx Rx.
  induction H as [|[o y] l (E & Hy & By) Hl IH]; intros x Bx Rx; [exact Bx|]. cbn [chain fold_left fst snd] in *. apply IH.
  - cbn [bound]. rewrite E, Rx, Bx, By, (operand_left _ _ Hy). reflexivity.
  - cbn [right_above]. rewrite E, Z.leb_refl, (operand_right _ _ Hy). reflexivity.
Qed.
(** A sign takes the operand alone; НЕ takes the operators from [=] on. *)
Theorem C24_prefixes : forall o x y, operand x = true -> operand y = true -> bound x = true -> bound y = true ->
  bound (EBin o (ENeg x) y) = true /\ bound (ENeg (EBin o x y)) = false /\
  bound (EBin o (ENot x) y) = (level o <? level BEq) /\ bound (ENot (EBin o x y)) = (level BGe <? level o).
Proof.
  intros o x y Hx Hy Bx By. cbn [bound left_above right_above].
  rewrite !Bx, !By, !(operand_left _ x), !(operand_left _ y), !(operand_right _ x) by assumption.
  destruct o; vm_compute; auto.
Qed.

Definition id (n : bytes) : expr := EPath (PId (IVar n)).
Definition assign (n : bytes) (e : expr) : program := Program INil (BSkip (BOne (CAssign (PId (IVar n)) e)) Semi).
Definition bind_text : bytes := B "х = НЕ а + б * -в - г <> д И НЕ е > ж ИЛИ з = к;".
Definition bind_program : program := assign (B "х")
  (EBin BOr
    (EBin BAnd
      (EBin BNe (ENot (EBin BMinus (EBin BPlus (id (B "а")) (EBin BMul (id (B "б")) (ENeg (id (B "в"))))) (id (B "г")))) (id (B "д")))
      (ENot (EBin BGt (id (B "е")) (id (B "ж")))))
    (EBin BEq (id (B "з")) (id (B "к")))).
Example C24_example : accepted bind_text (tree_of bind_text) /\ tokens bind_text (toks_program bind_program) /\
  defaults_ok bind_program = true /\ bound_program bind_program = true /\ clean bind_program = true /\ tree_of bind_text = mean_program bind_program.
Proof.
  assert (A : accepted bind_text (tree_of bind_text)) by accepted.
  assert (Tk : tokens bind_text (toks_program bind_program)).
  { replace (toks_program bind_program) with (toks_of bind_text) by (vm_compute; reflexivity). tokenized. }
  repeat (split; [first [assumption | vm_compute; reflexivity]|]). apply (C24_tree _ _ _ A Tk); vm_compute; reflexivity.
Qed.
(** The other groupings of the same tokens are not obeyed: the table is not trivial. *)
Example C24_example_other : let e := EBin BMul (EBin BPlus (id (B "а")) (id (B "б"))) (id (B "в")) in
  bound e = false /\ regroup e = EBin BPlus (id (B "а")) (EBin BMul (id (B "б")) (id (B "в"))) /\ toks_expr (regroup e) = toks_expr e.
Proof. vm_compute. auto. Qed.
Example C24_example_chain : chain (id (B "а")) [(BMinus, id (B "б")); (BPlus, id (B "в"))] = EBin BPlus (EBin BMinus (id (B "а")) (id (B "б"))) (id (B "в")) /\
  Forall (fun p => level (fst p) = 9 /\ operand (snd p) = true /\ bound (snd p) = true) [(BMinus, id (B "б")); (BPlus, id (B "в"))].
Proof. split; [reflexivity|]. repeat constructor. Qed.

Print Assumptions C24_grouping.
Print Assumptions C24_unique.
Print Assumptions C24_tree.
Print Assumptions C24_expr_exists.
Print Assumptions C24_expr_unique.
Print Assumptions C24_two_operators.
Print Assumptions C24_left_associative.
Print Assumptions C24_prefixes.
