(** A fault behind a complete program (C74).  Specification: Pieces.v, Faults.v, Lexical.v; proofs: PrimRun.v. *)
From Verif Require Import Bytes Utf8 Float64 GoTime Ast Lexer LexFacts Utf8Facts LexSpec LexProofs LexTrivia NumSpec Tables Parser Grammar Tok CertData Cert
  Driver DriverInv Trees Properties_Parser Syntax Rules Declared RulesFacts CleanFacts DeclaredFacts Order OrderFacts CstTrees CstEval CstModule Properties_Tree
  Machine BackModule Lexical Scanned Blame Told Where Placed Printer Alike Lockstep Same Properties_Signs Properties_Bind Properties_Legal
  Faults FaultFacts Reached Properties_Faults Pieces PiecesRun Properties_Pieces Properties_Scan BeyondRun PrimRun.
From Verif Require Import Lexical Where Tok.
Open Scope Z_scope.

Lemma text_pieces code toks : text_of false code toks -> pieces_of false code (map (@Datatypes.inl tk lexerr) toks).
Proof. intros H. destruct (C67_pieces code) as (l & L1 & _ & L2). apply L2 in H. subst l. exact L1. Qed.

(** * C74 A fault behind a complete program is the error, and the tree is that of the program *)
Lemma told_nth k : forall es, es <> [] -> told es (S k) = Some (ELex (nth (Nat.min k (length es - 1)) es LEof)).
Proof.
  unfold told. induction k as [|k IH]; intros [|x es] H; try congruence; [reflexivity|]. destruct es as [|y es]; [reflexivity|].
  change (firstn (S (S k)) (x :: y :: es)) with (x :: firstn (S k) (y :: es)). cbn [rev]. specialize (IH (y :: es) ltac:(discriminate)). destruct (rev (firstn (S k) (y :: es))) as [|z l]; [discriminate IH|]. cbn [app]. rewrite IH.
  cbn [length]. rewrite !Nat.sub_succ, !Nat.sub_0_r. reflexivity.
Qed.
(** Any number of faults behind the program.  Which of them is the error depends only on the
    program: there is a number [k] so that it is the fault with [k] others before it, or the
    last if there are fewer.  If there are so many, it does not matter what follows them. *)
Theorem C74_which : forall code1 toks m, accepted code1 m -> text_of false code1 toks ->
  exists k, forall code2 es rest, pieces_of false code2 (map (@Datatypes.inl tk lexerr) toks ++ map (@Datatypes.inr tk lexerr) es ++ rest) ->
  (rest = [] /\ es <> []) \/ (k < length es)%nat -> ~ all_white code2 ->
  exists a, parse code2 = Some (Ok (a, Some (ELex (nth (Nat.min k (length es - 1)) es LEof)))) /\ a_module a = m.
Proof.
  intros c1 toks m (W1 & a & Ha & <-) Ht. exists (Nat.pred (count (parse_fuel c1) (init_pst (NewAST c1)))). intros c2 es rest Hp Hr W2. rewrite <- blank_white in W1, W2.
  assert (B1 : blank c1 = false) by (destruct (blank c1); congruence). assert (B2 : blank c2 = false) by (destruct (blank c2); congruence).
  assert (N1 : c1 <> []) by (intros ->; discriminate B1). assert (N2 : c2 <> []) by (intros ->; discriminate B2).
  assert (Hes : es <> []) by (destruct Hr as [[_ Hr]|Hr]; [exact Hr|intros ->; cbn in Hr; lia]).
  assert (HF : far es rest (count (parse_fuel c1) (init_pst (NewAST c1)))) by (destruct Hr as [[Hr _]|Hr]; [left; exact Hr|right; lia]).
  destruct (parse_fault c1 c2 toks es rest LEof N1 N2 a (text_pieces _ _ Ht) Hp B1 B2 Ha HF) as (b & Hb & M). destruct (count _ _) as [|k].
  - exfalso. destruct (C45_accepted c2 (a_module b)) as (p & Hq & _).
    { split; [rewrite <- blank_white; congruence|]. exists b. split; [exact Hb|reflexivity]. }
    pose proof (pieces_det _ _ _ Hp _ (text_pieces _ _ Hq)) as E. destruct es as [|e es]; [congruence|].
    assert (H : In (Datatypes.inr e) (map (@Datatypes.inl tk lexerr) (toks_program p))) by (rewrite <- E; apply in_or_app; right; left; reflexivity).
    apply in_map_iff in H as (k & H & _). discriminate H.
  - rewrite told_nth in Hb by exact Hes. cbn [Nat.pred]. eauto.
Qed.
(** So the error is one of the faults. *)
Theorem C74_faults : forall code1 code2 toks es m, accepted code1 m -> text_of false code1 toks ->
  pieces_of false code2 (map (@Datatypes.inl tk lexerr) toks ++ map (@Datatypes.inr tk lexerr) es) -> es <> [] -> ~ all_white code2 ->
  exists a e, parse code2 = Some (Ok (a, Some (ELex e))) /\ In e es /\ a_module a = m.
Proof.
  intros c1 c2 toks es m A Ht Hp Hes W. destruct (C74_which c1 toks m A Ht) as (k & H). destruct (H c2 es [] ltac:(rewrite app_nil_r; exact Hp) (or_introl (conj eq_refl Hes)) W) as (a & H1 & H2).
  eexists a, _. split; [exact H1|]. split; [|exact H2]. apply nth_In. destruct es as [|x es]; [congruence|]. cbn [length]. lia.
Qed.
(** One fault: it is the error. *)
Theorem C74_fault : forall code1 code2 toks e m, accepted code1 m -> text_of false code1 toks ->
  pieces_of false code2 (map (@Datatypes.inl tk lexerr) toks ++ [inr e]) -> ~ all_white code2 ->
  exists a, parse code2 = Some (Ok (a, Some (ELex e))) /\ a_module a = m.
Proof.
  intros c1 c2 toks e m A Ht Hp W. destruct (C74_faults c1 c2 toks [e] m A Ht Hp ltac:(discriminate) W) as (a & x & H & [<-|[]] & M). eauto.
Qed.
(** With more faults behind the program it need not be the first that is told. *)
Theorem C74_two_refuted : ~ forall code1 code2 toks e l m, accepted code1 m -> text_of false code1 toks ->
  pieces_of false code2 (map (@Datatypes.inl tk lexerr) toks ++ inr e :: l) -> ~ all_white code2 ->
  exists a, parse code2 = Some (Ok (a, Some (ELex e))) /\ a_module a = m.
Proof.
  intros H. destruct (pieces_at 20 (B "а = 1;") zero_token) as [l1|] eqn:E1; [|vm_compute in E1; discriminate].
  destruct (pieces_at 20 (B "а = 1; $ @") zero_token) as [l2|] eqn:E2; [|vm_compute in E2; discriminate].
  pose proof (pieces_at_sound _ _ _ _ E1) as P1. pose proof (pieces_at_sound _ _ _ _ E2) as P2. destruct (C67_pieces (B "а = 1;")) as (l & L1 & L2 & L3). pose proof (L2 _ P1) as ->.
  set (toks := flat_map (fun x : piece => match x with Datatypes.inl k => [k] | Datatypes.inr _ => [] end) l). assert (El : l = map (@Datatypes.inl tk lexerr) toks) by (vm_compute in E1; injection E1 as <-; reflexivity).
  assert (X : l2 = l ++ [Datatypes.inr (LSyntax (B "$")); Datatypes.inr (LSyntax (B "@"))]) by (vm_compute in E1, E2; injection E1 as <-; injection E2 as <-; reflexivity).
  assert (A : exists m, accepted (B "а = 1;") m) by (eexists; split; [not_white|]; eexists; split; [vm_compute; reflexivity|reflexivity]). destruct A as (m & A).
  rewrite X, El in P2. destruct (H (B "а = 1;") (B "а = 1; $ @") toks _ _ m A (proj2 (L3 toks) El) P2 ltac:(not_white)) as (a & Ha & _).
  assert (Y : exists a, parse (B "а = 1; $ @") = Some (Ok (a, Some (ELex (LSyntax (B "@")))))) by (eexists; vm_compute; reflexivity). destruct Y as (a' & Y). rewrite Y in Ha. injection Ha as _ Ha. vm_compute in Ha. discriminate Ha.
Qed.

(** Behind an assignment it is the third; what follows, a procedure without end, is not read. *)
Example C74_example_which : let c := B "а = 1; $ @ ^ { Процедура П(" in
  (exists l, pieces_of false c l /\ length l = 11%nat) /\
  exists a a', parse c = Some (Ok (a, Some (ELex (LSyntax (B "^"))))) /\ parse (B "а = 1;") = Some (Ok (a', None)) /\ a_module a = a_module a'.
Proof.
  cbv zeta. split.
  - destruct (pieces_at 20 (B "а = 1; $ @ ^ { Процедура П(") zero_token) as [l|] eqn:E; [|vm_compute in E; discriminate]. exists l. split; [exact (pieces_at_sound _ _ _ _ E)|]. vm_compute in E. injection E as <-. reflexivity.
  - do 2 eexists. split; [vm_compute; reflexivity|]. split; [vm_compute; reflexivity|]. reflexivity.
Qed.
(** Examples: an unknown character and a date that does not end behind programs. *)
Definition bad_end (good bad : bytes) (e : lexerr) : Prop :=
  exists toks m, accepted good m /\ text_of false good toks /\ pieces_of false bad (map (@Datatypes.inl tk lexerr) toks ++ [inr e]) /\ ~ all_white bad /\
  exists a, parse bad = Some (Ok (a, Some (ELex e))) /\ a_module a = m.
Ltac bad_end g b :=
  destruct (pieces_at 30 g zero_token) as [l1|] eqn:E1; [|vm_compute in E1; discriminate]; destruct (pieces_at 30 b zero_token) as [l2|] eqn:E2; [|vm_compute in E2; discriminate];
  pose proof (pieces_at_sound _ _ _ _ E1) as P1; pose proof (pieces_at_sound _ _ _ _ E2) as P2; destruct (C67_pieces g) as (l & L1 & L2 & L3); pose proof (L2 _ P1) as ->;
  set (toks := flat_map (fun x : piece => match x with Datatypes.inl k => [k] | Datatypes.inr _ => [] end) l);
  assert (El : l = map (@Datatypes.inl tk lexerr) toks) by (vm_compute in E1; injection E1 as <-; reflexivity);
  eexists toks, _; split; [split; [not_white|]; eexists; split; [vm_compute; reflexivity|reflexivity]|]; split; [exact (proj2 (L3 toks) El)|]; rewrite <- El;
  split; [match goal with |- pieces_of _ _ ?x => replace x with l2; [exact P2|] end; vm_compute in E1, E2; injection E1 as <-; injection E2 as <-; reflexivity|];
  split; [not_white|]; eexists; split; [vm_compute; reflexivity|reflexivity].
Example C74_example : bad_end (B "а = 1;") (B "а = 1; $ // к") (LSyntax (B "$")).
Proof. bad_end (B "а = 1;") (B "а = 1; $ // к"). Qed.
Example C74_example_date : bad_end (B "Процедура П() КонецПроцедуры") (B "Процедура П ( )
КонецПроцедуры 'x") LEof.
Proof. bad_end (B "Процедура П() КонецПроцедуры") (B "Процедура П ( )
КонецПроцедуры 'x"). Qed.

(** The number [k] is not the same for all programs: the second behind a condition, the fifth
    behind a call, the sixth behind three negations. *)
Example C74_example_number :
  (exists a, parse (B "Если а Тогда КонецЕсли $ @ ^ { } \") = Some (Ok (a, Some (ELex (LSyntax (B "@")))))) /\
  (exists a, parse (B "Ф() $ @ ^ { } \") = Some (Ok (a, Some (ELex (LSyntax (B "}")))))) /\
  (exists a, parse (B "а = Не Не Не 1 $ @ ^ { } \") = Some (Ok (a, Some (ELex (LSyntax (B "\")))))).
Proof. repeat split; eexists; vm_compute; reflexivity. Qed.

Print Assumptions C74_which.
Print Assumptions C74_faults.
Print Assumptions C74_fault.
Print Assumptions C74_two_refuted.
Print Assumptions C74_example.
