(** AstNode.JSON, ast.go:49-51: json.Marshal(&ast.ModuleStatement).

    The result is modelled as a JSON value (order of object members included),
    not as text; the text encoding/json writes for it is in JsonText.v.  Strings are given as the text that JSON
    readers get back: encoding/json writes U+FFFD for every byte that is not part
    of valid UTF-8.  Numbers are the float64 before formatting. *)
From Verif Require Import Bytes Utf8 Float64 GoTime Ast.

Inductive json :=
| JNull
| JBool (b : bool)
| JNum (f : f64)
| JInt (z : Z)
| JStr (s : bytes)
| JArr (l : list json)
| JObj (l : list (bytes * json)).

(** Numbers of the iota constants, ast_struct.go:9-30. *)
Definition op_num (o : op) : Z :=
  match o with
  | OpUndefined => 0 | OpPlus => 1 | OpMinus => 2 | OpMul => 3 | OpDiv => 4 | OpEq => 5
  | OpGt => 6 | OpLt => 7 | OpNe => 8 | OpLe => 9 | OpGe => 10 | OpMod => 11
  | OpOr => 12 | OpAnd => 13
  end.
Definition pf_num (t : pftype) : Z :=
  match t with PFUndefined => 0 | PFProcedure => 1 | PFFunction => 2 end.

(** Byte-wise order of Go strings; encoding/json sorts map keys with it. *)
Fixpoint bytes_leb (a b : bytes) : bool :=
  match a, b with
  | [], _ => true
  | _, [] => false
  | x :: a', y :: b' =>
    if b2z x <? b2z y then true else if b2z y <? b2z x then false else bytes_leb a' b'
  end.
Fixpoint insert_by {A} (key : A -> bytes) (x : A) (l : list A) : list A :=
  match l with
  | [] => [x]
  | y :: l' => if bytes_leb (key x) (key y) then x :: l else y :: insert_by key x l'
  end.
Definition sort_by {A} (key : A -> bytes) (l : list A) : list A :=
  fold_right (insert_by key) [] l.

(** The text of a Go string in JSON. *)
Definition jtext (s : bytes) : bytes := string_of_runes (runes s).
(** time.Time is written as an RFC 3339 string (Time.MarshalJSON); no fraction of a
    second and UTC, the only case here. *)
Definition rfc3339 (t : gotime) : bytes :=
  pad 4 (t_year t) ++ B "-" ++ pad 2 (t_month t) ++ B "-" ++ pad 2 (t_day t) ++ B "T" ++
  pad 2 (t_hour t) ++ B ":" ++ pad 2 (t_min t) ++ B ":" ++ pad 2 (t_sec t) ++ B "Z".

(** VarStatement: the flags are unexported fields, hence absent. *)
Definition jvar (n : bytes) : json := JObj [(B "Name", JStr (jtext n))].

(** Members with the option "omitempty" are left out for nil interfaces,
    false and empty maps (ast_struct.go:65, 85, 87, 154-157). *)
Definition omit_nil (k : bytes) (s : stmt) (j : json) : list (bytes * json) :=
  if is_nil s then [] else [(k, j)].

Fixpoint to_json (s : stmt) : json :=
  let arr (b : option (list stmt)) : json :=
    match b with None => JNull | Some l => JArr (map to_json l) end in
  let exprs (b : option (list stmt)) : json := JObj [(B "Statements", arr b)] in
  match s with
  | SNil => JNull
  | SStr w => JStr (jtext w)
  | SNum f => JNum f
  | SBool b => JBool b
  | STime t => JStr (rfc3339 t)
  | SUndef | SBreak | SContinue => JObj []
  | SVar n _ => jvar n
  | SMethod n ps _ _ => JObj [(B "Name", JStr (jtext n)); (B "Param", exprs ps)]
  | SItem i o => JObj [(B "Item", to_json i); (B "Object", to_json o)]
  | SChain u c _ => JObj [(B "Unit", to_json u); (B "Call", to_json c)]
  | SNew c ps _ => JObj [(B "Constructor", JStr (jtext c)); (B "Param", exprs ps)]
  | STern e t f => JObj [(B "Expression", to_json e); (B "TrueBlock", to_json t);
                         (B "ElseBlock", to_json f)]
  | SExp o l r _ => JObj [(B "Left", to_json l); (B "Right", to_json r);
                          (B "Operation", JInt (op_num o))]
  | SExprs ps _ => exprs ps
  | SAssign v ps _ => JObj [(B "Var", to_json v); (B "Expr", exprs ps)]
  | SIf e tb eib eb => JObj [(B "Expression", to_json e); (B "TrueBlock", arr tb);
                             (B "IfElseBlock", arr eib); (B "ElseBlock", arr eb)]
  | STry b c => JObj [(B "Body", arr b); (B "Catch", arr c)]
  | SThrow p | SReturn p => JObj [(B "Param", to_json p)]
  | SLoop f t i w b => JObj (omit_nil (B "For") f (to_json f) ++ omit_nil (B "To") t (to_json t) ++
                             omit_nil (B "In") i (to_json i) ++
                             omit_nil (B "WhileExpr") w (to_json w) ++ [(B "Body", arr b)])
  | SGoTo None => JObj [(B "Label", JNull)]
  | SGoTo (Some n) => JObj [(B "Label", JObj [(B "Name", JStr (jtext n))])]
  | SLabel n => JObj [(B "Name", JStr (jtext n))]
  | SFunc vs n d b ps ty ex =>
    JObj [(B "ExplicitVariables",
           match vs with
           | None => JNull
           | Some l => JObj (map (fun k => (jtext k, jvar k)) (sort_by (fun k => k) l))
           end);
          (B "Name", JStr (jtext n)); (B "Directive", JStr (jtext d)); (B "Body", arr b);
          (B "Params", JArr (map (fun p => match p with (def, name, isval) =>
             JObj (omit_nil (B "Default") def (to_json def) ++ [(B "Name", JStr (jtext name))] ++
                   (if isval : bool then [(B "IsValue", JBool true)] else [])) end) ps));
          (B "Type", JInt (pf_num ty)); (B "Export", JBool ex)]
  end.

Definition gvar_json (v : gvar) : json :=
  JObj [(B "Directive", JStr (jtext (gv_dir v))); (B "Var", jvar (gv_name v));
        (B "Export", JBool (gv_export v))].

Definition JSON (m : module) : json :=
  JObj ([(B "Name", JStr (jtext (m_name m)))] ++
        (match elems (m_gvars m) with
         | [] => []
         | g => [(B "GlobalVariables",
                  JObj (map (fun v => (jtext (gv_name v), gvar_json v)) (sort_by gv_name g)))]
         end) ++
        [(B "Body", match m_body m with None => JNull | Some l => JArr (map to_json l) end)]).
