(** The bytes of AstNode.JSON as a function of the tree (ast.go:49-51), with the Go strings as they are in the tree.
    Json.v gives the value a reader gets, JsonText.v the texts such a value can have; here is the one text that is
    written.  The formatting of a float64 stays a parameter. *)
From Verif Require Import Bytes Utf8 Float64 GoTime Ast Json ErrText JsonText.

(** The value handed to the writer: as [to_json], the strings not yet made valid UTF-8 (ast_struct.go:33-200; the keys
    of a map sorted by their bytes, encoding/json/encode.go, mapEncoder). *)
Definition raw_var (n : bytes) : json := JObj [(B "Name", JStr n)].
Fixpoint raw_value (s : stmt) : json :=
  let list_of (b : option (list stmt)) : json := match b with None => JNull | Some l => JArr (map raw_value l) end in
  let exprs (b : option (list stmt)) : json := JObj [(B "Statements", list_of b)] in
  match s with
  | SNil => JNull
  | SStr w => JStr w
  | SNum f => JNum f
  | SBool b => JBool b
  | STime t => JStr (rfc3339 t)
  | SUndef | SBreak | SContinue => JObj []
  | SVar n _ => raw_var n
  | SMethod n ps _ _ => JObj [(B "Name", JStr n); (B "Param", exprs ps)]
  | SItem i o => JObj [(B "Item", raw_value i); (B "Object", raw_value o)]
  | SChain u c _ => JObj [(B "Unit", raw_value u); (B "Call", raw_value c)]
  | SNew c ps _ => JObj [(B "Constructor", JStr c); (B "Param", exprs ps)]
  | STern e t f => JObj [(B "Expression", raw_value e); (B "TrueBlock", raw_value t); (B "ElseBlock", raw_value f)]
  | SExp o l r _ => JObj [(B "Left", raw_value l); (B "Right", raw_value r); (B "Operation", JInt (op_num o))]
  | SExprs ps _ => exprs ps
  | SAssign v ps _ => JObj [(B "Var", raw_value v); (B "Expr", exprs ps)]
  | SIf e tb eib eb => JObj [(B "Expression", raw_value e); (B "TrueBlock", list_of tb); (B "IfElseBlock", list_of eib); (B "ElseBlock", list_of eb)]
  | STry b c => JObj [(B "Body", list_of b); (B "Catch", list_of c)]
  | SThrow p | SReturn p => JObj [(B "Param", raw_value p)]
  | SLoop f t i w b => JObj (omit_nil (B "For") f (raw_value f) ++ omit_nil (B "To") t (raw_value t) ++ omit_nil (B "In") i (raw_value i) ++
                             omit_nil (B "WhileExpr") w (raw_value w) ++ [(B "Body", list_of b)])
  | SGoTo None => JObj [(B "Label", JNull)]
  | SGoTo (Some n) => JObj [(B "Label", JObj [(B "Name", JStr n)])]
  | SLabel n => JObj [(B "Name", JStr n)]
  | SFunc vs n d b ps ty ex =>
    JObj [(B "ExplicitVariables", match vs with None => JNull | Some l => JObj (map (fun k => (k, raw_var k)) (sort_by (fun k => k) l)) end);
          (B "Name", JStr n); (B "Directive", JStr d); (B "Body", list_of b);
          (B "Params", JArr (map (fun p => match p with (def, name, isval) =>
             JObj (omit_nil (B "Default") def (raw_value def) ++ [(B "Name", JStr name)] ++ (if isval : bool then [(B "IsValue", JBool true)] else [])) end) ps));
          (B "Type", JInt (pf_num ty)); (B "Export", JBool ex)]
  end.
Definition raw_gvar (v : gvar) : json := JObj [(B "Directive", JStr (gv_dir v)); (B "Var", raw_var (gv_name v)); (B "Export", JBool (gv_export v))].
Definition raw_tree (m : module) : json :=
  JObj ([(B "Name", JStr (m_name m))] ++
        (match elems (m_gvars m) with
         | [] => []
         | g => [(B "GlobalVariables", JObj (map (fun v => (gv_name v, raw_gvar v)) (sort_by gv_name g)))]
         end) ++
        [(B "Body", match m_body m with None => JNull | Some l => JArr (map raw_value l) end)]).

(** The writer (encoding/json/encode.go: structEncoder, mapEncoder, sliceEncoder and the encoders of single values). *)
Section Numbers.
Context (nf : f64 -> bytes).
Fixpoint json_write (j : json) : bytes :=
  match j with
  | JNull => B "null"
  | JBool b => B (if b then "true" else "false")
  | JNum f => nf f
  | JInt z => int_text z
  | JStr s => json_string s
  | JArr l => B "[" ++ (fix go l := match l with [] => [] | [x] => json_write x | x :: l' => json_write x ++ B "," ++ go l' end) l ++ B "]"
  | JObj l => B "{" ++ (fix go l := match l with
                                    | [] => []
                                    | [(k, x)] => json_string k ++ B ":" ++ json_write x
                                    | (k, x) :: l' => json_string k ++ B ":" ++ json_write x ++ B "," ++ go l'
                                    end) l ++ B "}"
  end.
Definition JSON_bytes (m : module) : bytes := json_write (raw_tree m).
End Numbers.
