(** Tree traversal with callbacks that also write through the pointers they are handed,
    ast_struct.go:283-289 and 333-366. *)
From Verif Require Import Bytes Float64 GoTime Ast Walk.

Section WalkEdit.
(** State of the callback (whatever its closure has captured). *)
Context {St : Type}.
(** [cb root parent stm st]: the callback.  Its result: what the statement it was given looks
    like afterwards, for it may have written into the node behind a pointer (IfStatement,
    LoopStatement, FunctionOrProcedure, ExpStatement, ReturnStatement, GoToLabelStatement) or
    into the elements of the slices of a statement held by value; the value it has assigned
    to [*stm], if it has; its new state.  [root] and [parent] are given as they are at the time
    of the call, with everything written so far.  Not modelled: writing into [root] and
    [parent] themselves, and nodes that are shared by several places. *)
Context (cb : option stmt -> parent -> stmt -> St -> stmt * option stmt * St).

(** walkHelper, ast_struct.go:333-366, for one item: the node with everything written into it and
    below it, the value left in its slot, and the state.
    [rk x] and [pk x]: the procedure and the statement around the slot, were [x] in the slot.
    A slice literal such as [Statements{v.Expression}] is a temporary: what the
    callback leaves in its slot is dropped, what it writes into the node is kept. *)
Fixpoint walk1 (rk : stmt -> option stmt) (pk : stmt -> parent) (item : stmt) (st : St) {struct item}
  : (stmt * stmt * St) :=
  let walk_list := fix walk_list (rk : list stmt -> option stmt) (pk : list stmt -> parent) (done l : list stmt) (st : St)
    {struct l} : list stmt * St :=
    match l with
    | [] => (done, st)
    | x :: l' =>
      let '(n, v, st1) := walk1 (fun y => rk (done ++ y :: l')) (fun y => pk (done ++ y :: l')) x st in
      let rk' := match x with SFunc _ _ _ _ _ _ _ => fun _ => Some n | _ => rk end in
      walk_list rk' pk (done ++ [v]) l' st1
    end in
  (* [parent = v] (:348), and the argument [v] of the call for the body (:347) *)
  let rk := match item with SFunc _ _ _ _ _ _ _ => Some | _ => rk end in
  let slice_ (k : slice -> stmt) (b : slice) (st : St) : slice * St :=
    match b with
    | None => (None, st)
    | Some l => let '(l', st') := walk_list (fun l => rk (k (Some l))) (fun l => PStmt (k (Some l))) [] l st in (Some l', st')
    end in
  let temp (k : stmt -> stmt) (s : stmt) (st : St) : stmt * St :=
    let '(s', _, st') := walk1 (fun y => rk (k y)) (fun y => PStmt (k y)) s st in (s', st') in
  let '(item', st') :=
    match item with
    | SIf e tb eib eb =>
      let '(e', st) := temp (fun x => SIf x tb eib eb) e st in
      let '(tb', st) := slice_ (fun b => SIf e' b eib eb) tb st in
      let '(eb', st) := slice_ (fun b => SIf e' tb' eib b) eb st in
      let '(eib', st) := slice_ (fun b => SIf e' tb' b eb') eib st in
      (SIf e' tb' eib' eb', st)
    | STry b c =>
      let '(b', st) := slice_ (fun x => STry x c) b st in
      let '(c', st) := slice_ (fun x => STry b' x) c st in
      (STry b' c', st)
    | SLoop f t i w b =>
      let '(b', st) := slice_ (fun x => SLoop f t i w x) b st in
      (SLoop f t i w b', st)
    | SFunc vs n d b ps ty ex =>
      let '(b', st) := slice_ (fun x => SFunc vs n d x ps ty ex) b st in
      (SFunc vs n d b' ps ty ex, st)
    | SMethod n ps pfl fl =>
      let '(ps', st) := slice_ (fun x => SMethod n x pfl fl) ps st in
      (SMethod n ps' pfl fl, st)
    | SExp o l r fl =>
      let '(r', st) := temp (fun x => SExp o l x fl) r st in
      let '(l', st) := temp (fun x => SExp o x r' fl) l st in
      (SExp o l' r' fl, st)
    | STern e t f =>
      let '(e', st) := temp (fun x => STern x t f) e st in
      let '(t', st) := temp (fun x => STern e' x f) t st in
      let '(f', st) := temp (fun x => STern e' t' x) f st in
      (STern e' t' f', st)
    | SReturn p =>
      let '(p', st) := temp SReturn p st in
      (SReturn p', st)
    | _ => (item, st)
    end in
  let '(n, a, st'') := cb (rk item') (pk item') item' st' in
  (n, match a with Some x => x | None => n end, st'').

(** walkHelper on the slice [done ++ l], of which [done] has been visited. *)
Fixpoint walk_list (rk : list stmt -> option stmt) (pk : list stmt -> parent) (done l : list stmt) (st : St)
  : list stmt * St :=
  match l with
  | [] => (done, st)
  | x :: l' =>
    let '(n, v, st1) := walk1 (fun y => rk (done ++ y :: l')) (fun y => pk (done ++ y :: l')) x st in
    let rk' := match x with SFunc _ _ _ _ _ _ _ => fun _ => Some n | _ => rk end in
    walk_list rk' pk (done ++ [v]) l' st1
  end.

(** ModuleStatement.Walk, ast_struct.go:283-285, through StatementWalk, :287-289. *)
Definition WalkEdit (m : module) (st : St) : module * St :=
  match m_body m with
  | None => (m, st)
  | Some l => let '(l', st') := walk_list (fun _ => None) (fun l => PRoot (Some l)) [] l st in
              (Module (m_name m) (m_gvars m) (Some l'), st')
  end.
End WalkEdit.
