(** Visiting slots one by one and storing what the visitor writes. *)
From Verif Require Import Bytes Float64 GoTime Ast Walk WalkSpec.

Section Visit.
Context {St : Type}.
Context (cb : option stmt -> parent -> stmt -> St -> stmt * option stmt * St).

(** What is in a slot after a visit: [n] is the statement with what has been written into it,
    [a] what has been assigned to the slot, if anything; assignments last in lists only. *)
Definition left_in (list_slot : bool) (n : stmt) (a : option stmt) : stmt :=
  match a with Some x => if list_slot then x else n | None => n end.

(** The procedure or function of the module that has the slot inside. *)
Definition around (m : module) (p : nat * path) : option stmt :=
  match nth_error (elems (m_body m)) (fst p) with
  | Some (SFunc vs n d b ps ty ex) => Some (SFunc vs n d b ps ty ex)
  | _ => None
  end.
(** One visit.  [last] is the last procedure or function of the module visited so far. *)
Definition visit (x : module * option stmt * St) (p : nat * path) : module * option stmt * St :=
  let '(m, last, st) := x in
  match slot_at m p with
  | None => x
  | Some s =>
    let root := match around m p with Some f => Some f | None => last end in
    let par := match snd p with
               | [] => PRoot (m_body m)
               | _ => match slot_at m (fst p, up (snd p)) with Some q => PStmt q | None => PRoot (m_body m) end
               end in
    let '(n, a, st') := cb root par s st in
    (put_slot p (left_in (in_list (snd p)) n a) m,
     match snd p, s with [], SFunc _ _ _ _ _ _ _ => Some n | _, _ => last end, st')
  end.
Definition visits (ps : list (nat * path)) (m : module) (st : St) : module * St :=
  let '(m', _, st') := fold_left visit ps (m, None, st) in (m', st').
End Visit.

(** The statements that Go holds by pointer. *)
Definition pointed (s : stmt) : bool :=
  match s with
  | SIf _ _ _ _ | SLoop _ _ _ _ _ | SFunc _ _ _ _ _ _ _ | SExp _ _ _ _ | SReturn _ | SLabel _ => true
  | _ => false
  end.

(** A statement without what is in its fields: only how many statements there are. *)
Definition blanks (b : slice) : slice := option_map (map (fun _ => SNil)) b.
Definition own (s : stmt) : stmt :=
  match s with
  | SMethod n ps pfl fl => SMethod n (blanks ps) pfl fl
  | SItem _ _ => SItem SNil SNil
  | SChain _ _ fl => SChain SNil SNil fl
  | SNew n ps pfl => SNew n (blanks ps) pfl
  | STern _ _ _ => STern SNil SNil SNil
  | SExp o _ _ fl => SExp o SNil SNil fl
  | SExprs ps fl => SExprs (blanks ps) fl
  | SAssign _ ps pfl => SAssign SNil (blanks ps) pfl
  | SIf _ b e c => SIf SNil (blanks b) (blanks e) (blanks c)
  | STry b c => STry (blanks b) (blanks c)
  | SThrow _ => SThrow SNil
  | SReturn _ => SReturn SNil
  | SLoop _ _ _ _ b => SLoop SNil SNil SNil SNil (blanks b)
  | SFunc vs n d b ps ty ex => SFunc vs n d (blanks b) (map (fun p => (SNil, snd (fst p), snd p)) ps) ty ex
  | _ => s
  end.
(** A change of a statement that concerns neither what is in its fields nor depends on it. *)
Definition local (f : stmt -> stmt) : Prop :=
  (forall s k, field_of k (f s) = field_of k s) /\ (forall s t, own s = own t -> own (f s) = own (f t)).
