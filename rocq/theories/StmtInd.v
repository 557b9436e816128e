(** Induction over trees: every statement from its direct parts. *)
From Verif Require Import Bytes Float64 GoTime Ast.

Definition parts (s : stmt) : list stmt :=
  match s with
  | SMethod _ ps _ _ => elems ps
  | SItem x y => [x; y]
  | SChain x y _ => [x; y]
  | SNew _ ps _ => elems ps
  | STern x y z => [x; y; z]
  | SExp _ x y _ => [x; y]
  | SExprs ps _ => elems ps
  | SAssign x ps _ => x :: elems ps
  | SIf x b e c => x :: elems b ++ elems e ++ elems c
  | STry b c => elems b ++ elems c
  | SThrow x | SReturn x => [x]
  | SLoop x y z w b => x :: y :: z :: w :: elems b
  | SFunc _ _ _ b ps _ _ => elems b ++ map (fun p => fst (fst p)) ps
  | _ => []
  end.
Theorem stmt_parts_ind (P : stmt -> Prop) : (forall s, (forall x, In x (parts s) -> P x) -> P s) -> forall s, P s.
Proof.
  intros H. fix IH 1.
  assert (A : forall o : list stmt, Forall P o) by (induction o as [|y l IHl]; constructor; [apply IH|exact IHl]).
  assert (B : forall o : option (list stmt), Forall P (elems o)) by (intros [l|]; [apply A|constructor]).
  assert (C : forall o : list (stmt * bytes * bool), Forall P (map (fun p => fst (fst p)) o))
    by (induction o as [|[[y b] c] l IHl]; constructor; [apply IH|exact IHl]).
  clear A. intros s. apply H, Forall_forall. destruct s; cbn [parts]; repeat (apply Forall_app; split); auto; repeat constructor; auto;
  repeat (apply Forall_app; split); auto.
Qed.
