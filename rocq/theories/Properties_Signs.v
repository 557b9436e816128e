(** НЕ and unary minus in the tree (C25).  Specification: Syntax.v (what the tree of an
    accepted text records, C16). *)
From Verif Require Import Bytes Utf8 Float64 GoTime Ast Lexer LexFacts LexSpec LexProofs Tables Parser Grammar Tok Syntax CertData Cert
  Driver DriverInv Trees Properties_Parser Properties_Tree.
Open Scope Z_scope.

(** * Kinds of operands *)
Inductive okind :=
| ONumber | OBoolean
| OOperation      (* a binary operation *)
| OList           (* expressions in parentheses *)
| OName | OAccess (* a.b *) | OCall
| ORest.          (* strings, dates, Неопределено, labels, Новый, ?(), a[i], Перейти *)
Definition path_kind (p : Syntax.path) : okind :=
  match p with
  | PId (IVar _) => OName
  | PId (IIndex _ _) => ORest
  | PId _ => OCall
  | PDot _ _ => OAccess
  end.
(** The operand behind all signs. *)
Fixpoint operand (e : expr) : okind :=
  match e with
  | ENum _ => ONumber
  | ETrue | EFalse => OBoolean
  | EBin _ _ _ => OOperation
  | EParen _ => OList
  | EPath p => path_kind p
  | ENeg e | EPos e | ENot e => operand e
  | _ => ORest
  end.
Definition markable_not (k : okind) : bool := match k with OOperation | OList | OName | OAccess | OCall => true | _ => false end.
Definition markable_minus (k : okind) : bool := match k with OOperation | OName | OAccess => true | _ => false end.
(** There is a НЕ, a minus, among the signs in front of the operand. *)
Fixpoint has_not (e : expr) : bool := match e with ENot _ => true | ENeg e | EPos e => has_not e | _ => false end.
Fixpoint has_minus (e : expr) : bool := match e with ENeg _ => true | ENot e | EPos e => has_minus e | _ => false end.

(** What the tree shows of an operand and its signs. *)
Lemma shape e : match operand e with
  | ONumber => exists f, mean_expr e = SNum f
  | OBoolean => exists b, mean_expr e = SBool b
  | OOperation => exists o l r, mean_expr e = SExp o l r (Flags (has_minus e) false (has_not e))
  | OList => exists l, mean_expr e = SExprs l (Flags false false (has_not e))
  | OName => exists n, mean_expr e = SVar n (Flags (has_minus e) false (has_not e))
  | OAccess => exists u c, mean_expr e = SChain u c (Flags (has_minus e) false (has_not e))
  | OCall => exists n l g, mean_expr e = SMethod n l g (Flags false false (has_not e))
  | ORest => mark_not (mean_expr e) = mean_expr e /\ mark_minus (mean_expr e) = mean_expr e
  end.
Proof.
  induction e; cbn [operand has_not has_minus mean_expr]; try (split; reflexivity); try solve [eexists; reflexivity | do 3 eexists; reflexivity].
  1: { destruct (operand e); try solve [destruct IHe as (x & E); rewrite E; eexists; reflexivity];
       try solve [destruct IHe as (x & y & E); rewrite E; eexists; eexists; reflexivity];
       try solve [destruct IHe as (x & y & z & E); rewrite E; eexists; eexists; eexists; reflexivity].
       destruct IHe as [E1 E2]. rewrite E2. auto. }
  1: exact IHe.
  1: { destruct (operand e); try solve [destruct IHe as (x & E); rewrite E; eexists; reflexivity];
       try solve [destruct IHe as (x & y & E); rewrite E; eexists; eexists; reflexivity];
       try solve [destruct IHe as (x & y & z & E); rewrite E; eexists; eexists; eexists; reflexivity].
       destruct IHe as [E1 E2]. rewrite E1. auto. }
  - destruct c; split; reflexivity.
  - destruct p as [[]|]; cbn [path_kind mean_path mean_ident]; try (split; reflexivity); try solve [eexists; reflexivity | do 2 eexists; reflexivity | do 3 eexists; reflexivity].
Qed.

(** * C25 *)
(** Exactly when the tree distinguishes an expression from its negation ... *)
Theorem C25_not_partial : forall e, mean_expr (ENot e) <> mean_expr e <->
  operand e = OBoolean \/ (markable_not (operand e) = true /\ has_not e = false).
Proof.
  intros e. pose proof (shape e) as H. cbn [mean_expr]. split.
  - intros Hn. destruct (operand e); cbn [markable_not]; auto;
    repeat match type of H with ex _ => destruct H as [? H] end; rewrite ?H in Hn; cbn [mark_not fl_minus fl_plus fl_not] in Hn;
    try solve [congruence | destruct (has_not e); [congruence | auto]].
    destruct H as [H _]. congruence.
  - intros Hk. destruct (operand e); cbn [markable_not] in Hk; try (destruct Hk as [Hk|[Hk Hm]]; try discriminate Hk);
    repeat match type of H with ex _ => destruct H as [? H] end; rewrite H; cbn [mark_not fl_minus fl_plus fl_not]; try rewrite Hm; try discriminate.
    match goal with |- SBool (negb ?b) <> _ => destruct b; discriminate end.
Qed.
(** ... and from its unary minus. *)
Theorem C25_minus_partial : forall e, mean_expr (ENeg e) <> mean_expr e <->
  operand e = ONumber \/ (markable_minus (operand e) = true /\ has_minus e = false).
Proof.
  intros e. pose proof (shape e) as H. cbn [mean_expr]. split.
  - intros Hn. destruct (operand e); cbn [markable_minus]; auto;
    repeat match type of H with ex _ => destruct H as [? H] end; rewrite ?H in Hn; cbn [mark_minus fl_minus fl_plus fl_not] in Hn;
    try solve [congruence | destruct (has_minus e); [congruence | auto]].
    destruct H as [_ H]. congruence.
  - intros Hk. destruct (operand e); cbn [markable_minus] in Hk; try (destruct Hk as [Hk|[Hk Hm]]; try discriminate Hk);
    repeat match type of H with ex _ => destruct H as [? H] end; rewrite H; cbn [mark_minus fl_minus fl_plus fl_not]; try rewrite Hm; try discriminate.
    match goal with |- SNum (f64_opp ?f) <> _ => destruct f as [[] ? ?]; discriminate end.
Qed.
(** НЕ and minus are kept apart where both are recorded. *)
Theorem C25_not_minus : forall e, markable_minus (operand e) = true -> has_not e = false ->
  mean_expr (ENot e) <> mean_expr (ENeg e).
Proof.
  intros e Hm Hn. pose proof (shape e) as H. cbn [mean_expr]. destruct (operand e); try discriminate Hm;
  repeat match type of H with ex _ => destruct H as [? H] end; rewrite H; cbn; rewrite Hn; discriminate.
Qed.
(** Signs do not change anything else: the tree of an operand without its marks is recovered. *)
Definition unmark (s : stmt) : stmt :=
  match s with
  | SExp o l r _ => SExp o l r no_flags
  | SExprs l _ => SExprs l no_flags
  | SVar n _ => SVar n no_flags
  | SChain u c _ => SChain u c no_flags
  | SMethod n l g _ => SMethod n l g no_flags
  | SBool _ => SBool true
  | SNum f => SNum (F64 false (f_man f) (f_exp f))
  | _ => s
  end.
Theorem C25_operand : forall e, unmark (mean_expr (ENot e)) = unmark (mean_expr e) /\ unmark (mean_expr (ENeg e)) = unmark (mean_expr e).
Proof. intros e. cbn [mean_expr]. split; destruct (mean_expr e); reflexivity. Qed.
Example C25_example :
  operand (EPath (PId (IVar (B "а")))) = OName /\ has_not (ENeg (EPath (PId (IVar (B "а"))))) = false /\
  accepted (B "а = НЕ б;") (tree_of (B "а = НЕ б;")) /\ accepted (B "а = б;") (tree_of (B "а = б;")) /\
  accepted (B "а = -б;") (tree_of (B "а = -б;")) /\
  tree_of (B "а = НЕ б;") <> tree_of (B "а = б;") /\ tree_of (B "а = -б;") <> tree_of (B "а = б;") /\
  tree_of (B "а = НЕ -б;") <> tree_of (B "а = -б;").
Proof.
  split; [reflexivity|]. split; [reflexivity|]. do 3 (split; [accepted|]).
  assert (X : forall m1 m2, m1 <> m2 -> tree_of (B "а = НЕ б;") = m1 -> tree_of (B "а = б;") = m2 -> tree_of (B "а = НЕ б;") <> tree_of (B "а = б;")) by congruence.
  repeat split.
  - eapply X; [|vm_compute; reflexivity|vm_compute; reflexivity]. discriminate.
  - assert (Y : forall m1 m2, m1 <> m2 -> tree_of (B "а = -б;") = m1 -> tree_of (B "а = б;") = m2 -> tree_of (B "а = -б;") <> tree_of (B "а = б;")) by congruence.
    eapply Y; [|vm_compute; reflexivity|vm_compute; reflexivity]. discriminate.
  - assert (Y : forall m1 m2, m1 <> m2 -> tree_of (B "а = НЕ -б;") = m1 -> tree_of (B "а = -б;") = m2 -> tree_of (B "а = НЕ -б;") <> tree_of (B "а = -б;")) by congruence.
    eapply Y; [|vm_compute; reflexivity|vm_compute; reflexivity]. discriminate.
Qed.

(** The full claim, for operands that stand alone on the right of an assignment. *)
Definition atom (e : expr) : bool :=
  match e with EBin _ _ _ | EGoto _ | ENeg _ | EPos _ => false | _ => true end.
Definition C25_statement : Prop := forall v e c1 m1 c2 m2 c3 m3, atom e = true ->
  accepted c1 m1 -> tokens c1 (KId v :: K tEQUAL :: toks_expr e ++ [Pct ";"]) ->
  accepted c2 m2 -> tokens c2 (KId v :: K tEQUAL :: K tNot :: toks_expr e ++ [Pct ";"]) ->
  accepted c3 m3 -> tokens c3 (KId v :: K tEQUAL :: Pct "-" :: toks_expr e ++ [Pct ";"]) ->
  m1 <> m2 /\ (match e with ENot _ => True | _ => m1 <> m3 end).
(** Double negation is the same as a single one; the minus before a call is lost, so is НЕ
    before a string, a number, Новый, ... *)
Theorem C25_not_not_refuted : ~ C25_statement.
Proof.
  intros H. destruct (H (B "а") (ENot (EPath (PId (IVar (B "б"))))) (B "а = НЕ б;") (tree_of (B "а = НЕ б;"))
     (B "а = НЕ НЕ б;") (tree_of (B "а = НЕ НЕ б;")) (B "а = -НЕ б;") (tree_of (B "а = -НЕ б;")) eq_refl) as [E _];
  try solve [accepted | tokenized]. apply E. vm_compute. reflexivity.
Qed.
Theorem C25_minus_call_refuted : accepted (B "а = -Ф();") (tree_of (B "а = Ф();")) /\ accepted (B "а = Ф();") (tree_of (B "а = Ф();")).
Proof.
  split; [|accepted]. replace (tree_of (B "а = Ф();")) with (tree_of (B "а = -Ф();")) by (vm_compute; reflexivity). accepted.
Qed.
Theorem C25_minus_parens_refuted : accepted (B "а = -(б);") (tree_of (B "а = (б);")) /\ accepted (B "а = (б);") (tree_of (B "а = (б);")).
Proof.
  split; [|accepted]. replace (tree_of (B "а = (б);")) with (tree_of (B "а = -(б);")) by (vm_compute; reflexivity). accepted.
Qed.
Theorem C25_not_item_refuted : accepted (B "а = НЕ б[1];") (tree_of (B "а = б[1];")) /\ accepted (B "а = б[1];") (tree_of (B "а = б[1];")).
Proof.
  split; [|accepted]. replace (tree_of (B "а = б[1];")) with (tree_of (B "а = НЕ б[1];")) by (vm_compute; reflexivity). accepted.
Qed.

Print Assumptions C25_not_partial. Print Assumptions C25_minus_partial. Print Assumptions C25_not_minus. Print Assumptions C25_operand.
Print Assumptions C25_not_not_refuted. Print Assumptions C25_minus_call_refuted. Print Assumptions C25_minus_parens_refuted. Print Assumptions C25_not_item_refuted.
