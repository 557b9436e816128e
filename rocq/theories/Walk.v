(** Tree traversal, ast_struct.go:283-289 and 333-366. *)
From Verif Require Import Bytes Float64 GoTime Ast.

(** The second argument of the callback: the enclosing statement, or (at the
    top level of [Walk]) the list of module statements itself. *)
Inductive parent := PRoot (b : slice) | PStmt (s : stmt).

Section Walk.
(** State of the callback (whatever its closure has captured). *)
Context {St : Type}.
(** [cb root parent stm st]: the callback.  Its result is the value it leaves in
    the variable [*stm] (the same as before if it does not assign) and its new
    state.  Not modelled: assignments through the parentStm pointer (a local
    copy, ast_struct.go:333), and mutation of nodes through the pointers stored
    in the tree.  [parent] and [root] are given as they were when the walk
    entered them. *)
Context (cb : option stmt -> parent -> stmt -> St -> stmt * St).

(** walkHelper, ast_struct.go:333-366, for one item: the item with the changes
    made below it, the value left in the slot by the callback, the new value of
    [parent] for the items that follow, and the state.
    A slice literal such as [Statements{v.Expression}] is a temporary: what the
    callback leaves in its slot is dropped, the changes below it are kept. *)
Fixpoint walk1 (root : option stmt) (par : parent) (item : stmt) (st : St) {struct item}
  : (stmt * stmt * option stmt * St) :=
  let walk_list := fix walk_list (root : option stmt) (par : parent) (l : list stmt) (st : St)
    {struct l} : list stmt * St :=
    match l with
    | [] => ([], st)
    | x :: l' =>
      let '(_, x', root', st1) := walk1 root par x st in
      let '(r, st2) := walk_list root' par l' st1 in
      (x' :: r, st2)
    end in
  let slice_ (b : option (list stmt)) (p : parent) (st : St) : option (list stmt) * St :=
    match b with
    | None => (None, st)
    | Some l => let '(l', st') := walk_list root p l st in (Some l', st')
    end in
  let temp (s : stmt) (p : parent) (st : St) : stmt * St :=
    let '(s', _, _, st') := walk1 root p s st in (s', st') in
  let me := PStmt item in
  let '(item', root', st') :=
    match item with
    | SIf e tb eib eb =>
      let '(e', st) := temp e me st in
      let '(tb', st) := slice_ tb me st in
      let '(eb', st) := slice_ eb me st in
      let '(eib', st) := slice_ eib me st in
      (SIf e' tb' eib' eb', root, st)
    | STry b c =>
      let '(b', st) := slice_ b me st in
      let '(c', st) := slice_ c me st in
      (STry b' c', root, st)
    | SLoop f t i w b =>
      let '(b', st) := slice_ b me st in
      (SLoop f t i w b', root, st)
    | SFunc vs n d b ps ty ex =>
      let '(b', st) :=
        match b with
        | None => (None, st)
        | Some l => let '(l', st') := walk_list (Some item) me l st in (Some l', st')
        end in
      (SFunc vs n d b' ps ty ex, Some item, st)
    | SMethod n ps pfl fl =>
      let '(ps', st) := slice_ ps me st in
      (SMethod n ps' pfl fl, root, st)
    | SExp o l r fl =>
      let '(r', st) := temp r me st in
      let '(l', st) := temp l me st in
      (SExp o l' r' fl, root, st)
    | STern e t f =>
      let '(e', st) := temp e me st in
      let '(t', st) := temp t me st in
      let '(f', st) := temp f me st in
      (STern e' t' f', root, st)
    | SReturn p =>
      let '(p', st) := temp p me st in
      (SReturn p', root, st)
    | _ => (item, root, st)
    end in
  let '(x, st'') := cb root' par item' st' in
  (item', x, root', st'').

(** walkHelper on a slice. *)
Fixpoint walk_list (root : option stmt) (par : parent) (l : list stmt) (st : St)
  : list stmt * St :=
  match l with
  | [] => ([], st)
  | x :: l' =>
    let '(_, x', root', st1) := walk1 root par x st in
    let '(r, st2) := walk_list root' par l' st1 in
    (x' :: r, st2)
  end.

(** StatementWalk, ast_struct.go:287-289, on the slice [l]. *)
Definition StatementWalk (par : parent) (l : list stmt) (st : St) : list stmt * St :=
  walk_list None par l st.

(** ModuleStatement.Walk, ast_struct.go:283-285. *)
Definition Walk (m : module) (st : St) : module * St :=
  match m_body m with
  | None => (m, st)
  | Some l => let '(l', st') := StatementWalk (PRoot (m_body m)) l st in
              (Module (m_name m) (m_gvars m) (Some l'), st')
  end.
End Walk.

(** Recording callback: appends (root, parent, statement) and changes nothing. *)
Definition event := (option stmt * parent * stmt)%type.
Definition record_cb (r : option stmt) (p : parent) (s : stmt) (st : list event)
  : stmt * list event := (s, st ++ [(r, p, s)]).
Definition events (m : module) : list event := snd (Walk record_cb m []).
