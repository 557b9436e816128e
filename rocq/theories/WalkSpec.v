(** Slots of a tree, independently of the order in which anything visits them. *)
From Verif Require Import Bytes Float64 GoTime Ast.

(** The fields of ast_struct.go that hold statements. *)
Inductive field :=
| FCond | FThen | FElse | FElseIf               (* IfStatement *)
| FTryBody | FCatch                             (* TryStatement *)
| FLoopBody | FFor | FTo | FIn | FWhile         (* LoopStatement *)
| FFuncBody | FDefault                          (* FunctionOrProcedure, ParamStatement *)
| FArg                                          (* MethodStatement *)
| FLeft | FRight                                (* ExpStatement *)
| FTernCond | FTernTrue | FTernFalse            (* TernaryStatement *)
| FReturn | FThrow                              (* ReturnStatement, ThrowStatement *)
| FUnit | FCall                                 (* CallChainStatement *)
| FNewArg                                       (* NewObjectStatement *)
| FItem | FObject                               (* ItemStatement *)
| FExprs                                        (* ExprStatements *)
| FVar | FAssigned.                             (* AssignmentStatement *)
Notation key := (field * nat)%type.

(** The statements in a field of a statement (one, unless the field is a list). *)
Definition field_of (f : field) (s : stmt) : list stmt :=
  match f, s with
  | FCond, SIf e _ _ _ => [e] | FThen, SIf _ b _ _ => elems b | FElseIf, SIf _ _ b _ => elems b | FElse, SIf _ _ _ b => elems b
  | FTryBody, STry b _ => elems b | FCatch, STry _ b => elems b
  | FLoopBody, SLoop _ _ _ _ b => elems b | FFor, SLoop e _ _ _ _ => [e] | FTo, SLoop _ e _ _ _ => [e]
  | FIn, SLoop _ _ e _ _ => [e] | FWhile, SLoop _ _ _ e _ => [e]
  | FFuncBody, SFunc _ _ _ b _ _ _ => elems b | FDefault, SFunc _ _ _ _ ps _ _ => map (fun p => fst (fst p)) ps
  | FArg, SMethod _ b _ _ => elems b
  | FLeft, SExp _ l _ _ => [l] | FRight, SExp _ _ r _ => [r]
  | FTernCond, STern e _ _ => [e] | FTernTrue, STern _ e _ => [e] | FTernFalse, STern _ _ e => [e]
  | FReturn, SReturn e => [e] | FThrow, SThrow e => [e]
  | FUnit, SChain e _ _ => [e] | FCall, SChain _ e _ => [e]
  | FNewArg, SNew _ b _ => elems b
  | FItem, SItem e _ => [e] | FObject, SItem _ e => [e]
  | FExprs, SExprs b _ => elems b
  | FVar, SAssign e _ _ => [e] | FAssigned, SAssign _ b _ => elems b
  | _, _ => []
  end.

(** A slot inside a statement is given by the fields and indices leading to it. *)
Notation path := (list key).
Fixpoint at_path (s : stmt) (p : path) : option stmt :=
  match p with
  | [] => Some s
  | (f, i) :: p' => match nth_error (field_of f s) i with Some c => at_path c p' | None => None end
  end.
(** A slot of a module: the number of the statement of Body, then as above. *)
Definition slot_at (m : module) (p : nat * path) : option stmt :=
  match nth_error (elems (m_body m)) (fst p) with Some s => at_path s (snd p) | None => None end.

(** Replacing the statement in a slot. *)
Fixpoint replace_nth (i : nat) (x : stmt) (l : list stmt) : list stmt :=
  match l, i with
  | [], _ => []
  | _ :: l', O => x :: l'
  | y :: l', S i' => y :: replace_nth i' x l'
  end.
Definition in_slice (b : slice) (i : nat) (x : stmt) : slice := option_map (replace_nth i x) b.
Definition put (k : key) (x : stmt) (s : stmt) : stmt :=
  let i := snd k in
  match fst k, s with
  | FCond, SIf e b c d => SIf x b c d | FThen, SIf e b c d => SIf e (in_slice b i x) c d
  | FElseIf, SIf e b c d => SIf e b (in_slice c i x) d | FElse, SIf e b c d => SIf e b c (in_slice d i x)
  | FTryBody, STry b c => STry (in_slice b i x) c | FCatch, STry b c => STry b (in_slice c i x)
  | FLoopBody, SLoop f t n w b => SLoop f t n w (in_slice b i x)
  | FFor, SLoop f t n w b => SLoop x t n w b | FTo, SLoop f t n w b => SLoop f x n w b
  | FIn, SLoop f t n w b => SLoop f t x w b | FWhile, SLoop f t n w b => SLoop f t n x b
  | FFuncBody, SFunc v n d b ps ty ex => SFunc v n d (in_slice b i x) ps ty ex
  | FArg, SMethod n b pfl fl => SMethod n (in_slice b i x) pfl fl
  | FLeft, SExp o l r fl => SExp o x r fl | FRight, SExp o l r fl => SExp o l x fl
  | FTernCond, STern e t f => STern x t f | FTernTrue, STern e t f => STern e x f | FTernFalse, STern e t f => STern e t x
  | FReturn, SReturn _ => SReturn x | FThrow, SThrow _ => SThrow x
  | FUnit, SChain u c fl => SChain x c fl | FCall, SChain u c fl => SChain u x fl
  | FNewArg, SNew n b fl => SNew n (in_slice b i x) fl
  | FItem, SItem a o => SItem x o | FObject, SItem a o => SItem a x
  | FExprs, SExprs b fl => SExprs (in_slice b i x) fl
  | FVar, SAssign v b fl => SAssign x b fl | FAssigned, SAssign v b fl => SAssign v (in_slice b i x) fl
  | _, _ => s
  end.
Fixpoint put_path (p : path) (x : stmt) (s : stmt) : stmt :=
  match p with
  | [] => x
  | (f, i) :: p' => match nth_error (field_of f s) i with Some c => put (f, i) (put_path p' x c) s | None => s end
  end.
Definition put_slot (p : nat * path) (x : stmt) (m : module) : module :=
  match nth_error (elems (m_body m)) (fst p) with
  | Some s => Module (m_name m) (m_gvars m) (in_slice (m_body m) (fst p) (put_path (snd p) x s))
  | None => m
  end.

(** The fields Walk descends into. *)
Definition walked (f : field) : bool :=
  match f with
  | FCond | FThen | FElse | FElseIf | FTryBody | FCatch | FLoopBody | FFuncBody | FArg | FLeft | FRight
  | FTernCond | FTernTrue | FTernFalse | FReturn => true
  | _ => false
  end.
Definition reached (m : module) (p : nat * path) : Prop :=
  slot_at m p <> None /\ forallb (fun k => walked (fst k)) (snd p) = true.

(** [p] comes before [q] in [l]. *)
Definition before {A} (l : list A) (p q : A) : Prop := exists x y z, l = x ++ p :: y ++ q :: z.
(** The block a slot belongs to: its path without the last index, and that index. *)
Definition sibling (p q : nat * path) : Prop :=
  (snd p = [] /\ snd q = [] /\ fst p < fst q)%nat \/
  (fst p = fst q /\ exists b f i j, snd p = b ++ [(f, i)] /\ snd q = b ++ [(f, j)] /\ (i < j)%nat).
(** [q] lies inside [p]. *)
Definition inside (p q : nat * path) : Prop := fst p = fst q /\ exists k r, snd q = snd p ++ k :: r.

(** What the callback should be told about a slot: the statement (or Body) around it, ... *)
Definition up (p : path) : path := removelast p.
(** ... and the innermost procedure or function on the way to it, itself included. *)
Fixpoint function_of (s : stmt) (p : path) : option stmt :=
  let here := match s with SFunc _ _ _ _ _ _ _ => Some s | _ => None end in
  match p with
  | [] => here
  | (f, i) :: p' =>
    match nth_error (field_of f s) i with
    | Some c => match function_of c p' with Some r => Some r | None => here end
    | None => here
    end
  end.
Definition function_at (m : module) (p : nat * path) : option stmt :=
  match nth_error (elems (m_body m)) (fst p) with Some s => function_of s (snd p) | None => None end.

(** The fields that are slices; the others hold one statement. *)
Definition is_list (f : field) : bool :=
  match f with
  | FThen | FElse | FElseIf | FTryBody | FCatch | FLoopBody | FFuncBody | FArg | FNewArg | FExprs | FAssigned => true
  | _ => false
  end.
(** Slots of slices. *)
Fixpoint in_list (p : path) : bool :=
  match p with
  | [] => true
  | [(f, _)] => is_list f
  | _ :: p' => in_list p'
  end.
