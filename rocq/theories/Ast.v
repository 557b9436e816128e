(** The tree types of ast/ast_struct.go. *)
From Verif Require Import Bytes Float64 GoTime.

(** addStatementField, ast_struct.go:90-94. *)
Record flags := Flags { fl_minus : bool; fl_plus : bool; fl_not : bool }.
Definition no_flags : flags := Flags false false false.

(** OperationType, ast_struct.go:15-30. *)
Inductive op :=
| OpUndefined | OpPlus | OpMinus | OpMul | OpDiv | OpEq | OpGt | OpLt
| OpNe | OpLe | OpGe | OpMod | OpOr | OpAnd.

(** StatementType, ast_struct.go:9-13. *)
Inductive pftype := PFUndefined | PFProcedure | PFFunction.

(** The dynamic values a Go [Statement] (= interface{}, ast_struct.go:44) can
    hold.  [SNil] is the nil interface.  Go slices are [option (list _)]:
    [None] is the nil slice, [Some []] the empty non-nil one.
    Pointer types (ExpStatement, IfStatement, LoopStatement, ReturnStatement,
    GoToLabelStatement, FunctionOrProcedure) are represented by the value
    pointed to; a nil pointer of these types never reaches a tree (the parser
    allocates them, y.go), except [GoToStatement.Label] kept as an option.
    [ExprStatements] (ast_struct.go:52-55) is a slice plus flags and is inlined
    in its owners. Maps from names to [VarStatement{Name}] (ast.go:149-158)
    are lists of the keys in insertion order; [None] is the nil map. *)
Inductive stmt : Type :=
| SNil
| SStr (s : bytes)                                  (* string *)
| SNum (f : f64)                                    (* float64 *)
| SBool (b : bool)                                  (* bool *)
| STime (t : gotime)                                (* time.Time *)
| SUndef                                            (* UndefinedStatement :124 *)
| SVar (name : bytes) (fl : flags)                  (* VarStatement :69 *)
| SMethod (name : bytes) (ps : option (list stmt)) (pfl fl : flags) (* MethodStatement :141 *)
| SItem (item obj : stmt)                           (* ItemStatement :167 *)
| SChain (unit call : stmt) (fl : flags)            (* CallChainStatement :135 *)
| SNew (constr : bytes) (ps : option (list stmt)) (pfl : flags) (* NewObjectStatement :130 *)
| STern (e t f : stmt)                              (* TernaryStatement :161 *)
| SExp (o : op) (l r : stmt) (fl : flags)           (* *ExpStatement :96 *)
| SExprs (ps : option (list stmt)) (fl : flags)     (* ExprStatements :52 *)
| SAssign (v : stmt) (ps : option (list stmt)) (pfl : flags) (* AssignmentStatement :47 *)
| SIf (e : stmt) (tb eib eb : option (list stmt))   (* *IfStatement :108 (TrueBlock, IfElseBlock, ElseBlock) *)
| STry (body catch : option (list stmt))            (* TryStatement :115 *)
| SThrow (p : stmt)                                 (* ThrowStatement :120 *)
| SReturn (p : stmt)                                (* *ReturnStatement :126 *)
| SBreak                                            (* BreakStatement :147 *)
| SContinue                                         (* ContinueStatement :150 *)
| SLoop (sfor sto sin swhile : stmt) (body : option (list stmt)) (* *LoopStatement :153 *)
| SGoTo (label : option bytes)                      (* GoToStatement :172 *)
| SLabel (name : bytes)                             (* *GoToLabelStatement :176 *)
| SFunc (vars : option (list bytes)) (name directive : bytes)
        (body : option (list stmt)) (params : list (stmt * bytes * bool))
        (ty : pftype) (export : bool).              (* *FunctionOrProcedure :74 *)

Definition slice := option (list stmt).

(** Elements of a slice ([range s]); a nil slice has none. *)
Definition elems {A} (s : option (list A)) : list A :=
  match s with Some l => l | None => [] end.

(** [append(s, l...)]: appending nothing leaves a nil slice nil. *)
Definition gappend {A} (s : option (list A)) (l : list A) : option (list A) :=
  match l with [] => s | _ => Some (elems s ++ l) end.

(** ParamStatement, ast_struct.go:84-88: (Default, Name, IsValue). *)
Definition param := (stmt * bytes * bool)%type.

(** GlobalVariables, ast_struct.go:57-61; [Var] is [VarStatement{Name}]. *)
Record gvar := GVar { gv_dir : bytes; gv_name : bytes; gv_export : bool }.

(** ModuleStatement, ast_struct.go:63-67. The map is keyed by variable name
    (ast_struct.go:306); kept in insertion order, [None] = nil map. *)
Record module := Module { m_name : bytes; m_gvars : option (list gvar); m_body : slice }.

Definition is_nil (s : stmt) : bool := match s with SNil => true | _ => false end.
