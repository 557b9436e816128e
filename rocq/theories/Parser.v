(** The parser: ast/ast.go, ModuleStatement.Append (ast_struct.go:291-327) and
    the generated driver with its semantic actions (ast/y.go). *)
From Verif Require Import Bytes Utf8 UnicodeTables Float64 GoTime Ast Lexer Tables.

(** Go run-time panics that the modelled code can raise. *)
Inductive panic :=
| PIndex       (* index out of range in a table *)
| PStack       (* index out of range in the parse stack *)
| PNilDeref    (* nil interface / pointer dereference *)
| PNilMap.     (* assignment to entry in nil map *)

Inductive res (A : Type) := Ok (a : A) | Panic (p : panic).
Arguments Ok {A} a. Arguments Panic {A} p.

Definition bind {A C} (r : res A) (f : A -> res C) : res C :=
  match r with Ok a => f a | Panic p => Panic p end.
Notation "x <- e ; f" := (bind e (fun x => f)) (at level 61, e at next level, right associativity).

(** Error texts passed to [yylex.Error]. *)
Inductive emsg :=
| MSyntax                      (* "syntax error", y.go:453 *)
| MSemicolon                   (* "semicolon (;) is expected", grammar.y:154 *)
| MLoopOp (lit : bytes)        (* ast.go:85 *)
| MThrow (lit : bytes)         (* ast.go:93 *)
| MReturn                      (* ast.go:107 *)
| MVarDup (name : bytes)       (* ast.go:152 *)
| MGlobalDup (name : bytes)    (* ast_struct.go:304 *)
| MGlobalPlace                 (* ast_struct.go:295 *)
| MFuncPlace.                  (* ast_struct.go:318 *)

(** Values of [ast.err]: either the wrapped scanner error (ast.go:60) or the
    formatted error of [AstNode.Error] (ast.go:79), kept structured. *)
Inductive perr :=
| ELex (e : lexerr)
| EParse (m : emsg) (line col : Z) (lit : bytes).

(** AstNode, ast.go:15-24.  [isLoop]/[isTry] are atomic.Int32 counters, kept as
    unbounded integers (an overflow needs 2^31 loops in one text). The unused
    [mode] field is dropped. *)
Record astnode := AstNode {
  a_err : option perr;
  a_code : bytes;
  a_module : module;
  a_cur : token;
  a_isLoop : Z;
  a_isTry : Z;
  a_isFunction : bool }.

Definition zero_module : module := Module [] None None.
(** NewAST, ast.go:31-35. *)
Definition NewAST (code : bytes) : astnode :=
  AstNode None code zero_module zero_token 0 0 false.

Definition set_err (a : astnode) (e : perr) : astnode :=
  AstNode (Some e) (a_code a) (a_module a) (a_cur a) (a_isLoop a) (a_isTry a) (a_isFunction a).
Definition set_module (a : astnode) (m : module) : astnode :=
  AstNode (a_err a) (a_code a) m (a_cur a) (a_isLoop a) (a_isTry a) (a_isFunction a).
Definition set_cur (a : astnode) (t : token) : astnode :=
  AstNode (a_err a) (a_code a) (a_module a) t (a_isLoop a) (a_isTry a) (a_isFunction a).
Definition add_loop (a : astnode) (n : Z) : astnode :=
  AstNode (a_err a) (a_code a) (a_module a) (a_cur a) (a_isLoop a + n) (a_isTry a) (a_isFunction a).
Definition add_try (a : astnode) (n : Z) : astnode :=
  AstNode (a_err a) (a_code a) (a_module a) (a_cur a) (a_isLoop a) (a_isTry a + n) (a_isFunction a).
Definition set_function (a : astnode) (b : bool) : astnode :=
  AstNode (a_err a) (a_code a) (a_module a) (a_cur a) (a_isLoop a) (a_isTry a) b.

(** Lex, ast.go:53-69. *)
Definition Lex (a : astnode) (t : token) : Z * token * astnode :=
  match a_code a with
  | [] => (EOF, t, a)
  | _ =>
    let '(tok, t', e) := Next (a_code a) t in
    match e with
    | Some e => (EOF, t', set_err a (ELex e))
    | None => if tok =? EOF then (EOF, t', a) else (tok, t', set_cur a t')
    end
  end.

(** Error, ast.go:75-80. [GetPosition] dereferences [currentToken.ast], which is
    nil as long as no token has been delivered. *)
Definition Error (a : astnode) (m : emsg) : res astnode :=
  let t := a_cur a in
  if tk_ast t then
    let p := GetPosition (a_code a) (tk_off t) in
    Ok (set_err a (EParse m (p_line p)
          (p_col p - (Z.of_nat (length (runes (tk_lit t))) + 1)) (tk_lit t)))
  else Panic PNilDeref.

(** ast.go:82-88. *)
Definition checkLoopOperator (t : token) (a : astnode) : res astnode :=
  if a_isLoop a =? 0 then Error a (MLoopOp (tk_lit t)) else Ok a.
(** ast.go:90-96. *)
Definition checkThrowParam (t : token) (p : stmt) (a : astnode) : res astnode :=
  if (a_isTry a =? 0) && is_nil p then Error a (MThrow (tk_lit t)) else Ok a.
(** ast.go:104-110. *)
Definition checkReturnParam (p : stmt) (a : astnode) : res astnode :=
  if negb (a_isFunction a) && negb (is_nil p) then Error a MReturn else Ok a.

(** createFunctionOrProcedure, ast.go:132-147. [directive] and [export] are
    token pointers into the parse stack; the cells they point to are not
    overwritten while the pointers are live (they belong to cells still on the
    stack), so the tokens themselves are kept. *)
Definition createFunctionOrProcedure (ty : pftype) (directive : option token) (name : bytes)
  (params : list param) (export : option token) (vars : option (list bytes)) (body : slice) : stmt :=
  SFunc vars name (match directive with Some t => tk_lit t | None => [] end)
        body params ty (is_some export).

Definition mem (k : bytes) (l : list bytes) : bool := existsb (beqb k) l.

(** appendVarStatements, ast.go:149-158: the map after the call, and the
    duplicate name if there is one.  The map argument is mutated in place. *)
Fixpoint appendVars (m : option (list bytes)) (ids : list bytes)
  : res (option (list bytes) * option bytes) :=
  match ids with
  | [] => Ok (m, None)
  | v :: ids' =>
    if mem v (elems m) then Ok (m, Some v)
    else match m with
         | None => Panic PNilMap
         | Some l => appendVars (Some (l ++ [v])) ids'
         end
  end.

(** unaryMinus, ast.go:160-177; UnaryMinus methods ast_struct.go:196, 211, 221. *)
Definition unaryMinus (v : stmt) : stmt :=
  match v with
  | SNum f => SNum (f64_opp f)
  | SExp o l r fl => SExp o l r (Flags true (fl_plus fl) (fl_not fl))
  | SVar n fl => SVar n (Flags true (fl_plus fl) (fl_not fl))
  | SChain u c fl => SChain u c (Flags true (fl_plus fl) (fl_not fl))
  | v => v
  end.
(** not, ast.go:179-188; Not methods ast_struct.go:201, 206, 216, 226, 237. *)
Definition not_ (v : stmt) : stmt :=
  match v with
  | SBool b => SBool (negb b)
  | SExp o l r fl => SExp o l r (Flags (fl_minus fl) (fl_plus fl) true)
  | SExprs ps fl => SExprs ps (Flags (fl_minus fl) (fl_plus fl) true)
  | SVar n fl => SVar n (Flags (fl_minus fl) (fl_plus fl) true)
  | SChain u c fl => SChain u c (Flags (fl_minus fl) (fl_plus fl) true)
  | SMethod n ps pfl fl => SMethod n ps pfl (Flags (fl_minus fl) (fl_plus fl) true)
  | v => v
  end.

(** ModuleStatement.Append, ast_struct.go:291-327. *)
Definition append_gvar (v : gvar) (a : astnode) : res astnode :=
  let m := a_module a in
  if negb (Nat.eqb (length (elems (m_body m))) 0) then Error a MGlobalPlace
  else
    let g := elems (m_gvars m) in
    if mem (gv_name v) (map gv_name g) then
      (* the map is created before the test, :299-301 *)
      Error (set_module a (Module (m_name m) (Some g) (m_body m))) (MGlobalDup (gv_name v))
    else Ok (set_module a (Module (m_name m) (Some (g ++ [v])) (m_body m))).

Fixpoint append_gvars (vs : list gvar) (a : astnode) : res astnode :=
  match vs with
  | [] => Ok a
  | v :: vs' => a' <- append_gvar v a; append_gvars vs' a'
  end.

Definition append_stmts (b : slice) (a : astnode) : res astnode :=
  let m := a_module a in
  Ok (set_module a (Module (m_name m) (m_gvars m) (gappend (m_body m) (elems b)))).

Definition is_func (s : stmt) : bool :=
  match s with SFunc _ _ _ _ _ _ _ => true | _ => false end.

Definition append_func (f : stmt) (a : astnode) : res astnode :=
  let m := a_module a in
  let l := elems (m_body m) in
  if negb (Nat.eqb (length l) 0) && negb (is_func (last l SNil)) then Error a MFuncPlace
  else Ok (set_module a (Module (m_name m) (m_gvars m) (gappend (m_body m) [f]))).

(** yySymType, y.go:12-34. [stmt_if], [stmt_loop], [funcProc] are pointers to
    nodes and stored as the node ([SNil] = nil pointer); [opt_goToLabel] is
    never used. *)
Record slot := Slot {
  yys : Z;
  v_token : token;
  v_stmt_if : stmt;
  v_opt_elseif_list : slice;
  v_opt_else : slice;
  v_stmt : stmt;
  v_stmt_loop : stmt;
  v_funcProc : stmt;
  v_body : slice;
  v_opt_body : slice;
  v_params : list param;
  v_param : param;
  v_exprs : slice * flags;
  v_opt_export : option token;
  v_opt_directive : option token;
  v_explicit_variables : option (list bytes);
  v_global_variables : list gvar;
  v_opt_explicit_variables : option (list bytes);
  v_identifiers : list token;
  v_goToLabel : option bytes }.

(** The zero yySymType. *)
Definition zero_slot : slot :=
  Slot 0 zero_token SNil None None SNil SNil SNil None None [] (SNil, [], false)
       (None, no_flags) None None None [] None [] None.

(** Field updates of yyVAL. *)
Definition set_yys (v : slot) x := Slot x (v_token v) (v_stmt_if v) (v_opt_elseif_list v) (v_opt_else v) (v_stmt v) (v_stmt_loop v) (v_funcProc v) (v_body v) (v_opt_body v) (v_params v) (v_param v) (v_exprs v) (v_opt_export v) (v_opt_directive v) (v_explicit_variables v) (v_global_variables v) (v_opt_explicit_variables v) (v_identifiers v) (v_goToLabel v).
Definition set_token (v : slot) x := Slot (yys v) x (v_stmt_if v) (v_opt_elseif_list v) (v_opt_else v) (v_stmt v) (v_stmt_loop v) (v_funcProc v) (v_body v) (v_opt_body v) (v_params v) (v_param v) (v_exprs v) (v_opt_export v) (v_opt_directive v) (v_explicit_variables v) (v_global_variables v) (v_opt_explicit_variables v) (v_identifiers v) (v_goToLabel v).
Definition set_stmt_if (v : slot) x := Slot (yys v) (v_token v) x (v_opt_elseif_list v) (v_opt_else v) (v_stmt v) (v_stmt_loop v) (v_funcProc v) (v_body v) (v_opt_body v) (v_params v) (v_param v) (v_exprs v) (v_opt_export v) (v_opt_directive v) (v_explicit_variables v) (v_global_variables v) (v_opt_explicit_variables v) (v_identifiers v) (v_goToLabel v).
Definition set_opt_elseif_list (v : slot) x := Slot (yys v) (v_token v) (v_stmt_if v) x (v_opt_else v) (v_stmt v) (v_stmt_loop v) (v_funcProc v) (v_body v) (v_opt_body v) (v_params v) (v_param v) (v_exprs v) (v_opt_export v) (v_opt_directive v) (v_explicit_variables v) (v_global_variables v) (v_opt_explicit_variables v) (v_identifiers v) (v_goToLabel v).
Definition set_opt_else (v : slot) x := Slot (yys v) (v_token v) (v_stmt_if v) (v_opt_elseif_list v) x (v_stmt v) (v_stmt_loop v) (v_funcProc v) (v_body v) (v_opt_body v) (v_params v) (v_param v) (v_exprs v) (v_opt_export v) (v_opt_directive v) (v_explicit_variables v) (v_global_variables v) (v_opt_explicit_variables v) (v_identifiers v) (v_goToLabel v).
Definition set_stmt (v : slot) x := Slot (yys v) (v_token v) (v_stmt_if v) (v_opt_elseif_list v) (v_opt_else v) x (v_stmt_loop v) (v_funcProc v) (v_body v) (v_opt_body v) (v_params v) (v_param v) (v_exprs v) (v_opt_export v) (v_opt_directive v) (v_explicit_variables v) (v_global_variables v) (v_opt_explicit_variables v) (v_identifiers v) (v_goToLabel v).
Definition set_stmt_loop (v : slot) x := Slot (yys v) (v_token v) (v_stmt_if v) (v_opt_elseif_list v) (v_opt_else v) (v_stmt v) x (v_funcProc v) (v_body v) (v_opt_body v) (v_params v) (v_param v) (v_exprs v) (v_opt_export v) (v_opt_directive v) (v_explicit_variables v) (v_global_variables v) (v_opt_explicit_variables v) (v_identifiers v) (v_goToLabel v).
Definition set_funcProc (v : slot) x := Slot (yys v) (v_token v) (v_stmt_if v) (v_opt_elseif_list v) (v_opt_else v) (v_stmt v) (v_stmt_loop v) x (v_body v) (v_opt_body v) (v_params v) (v_param v) (v_exprs v) (v_opt_export v) (v_opt_directive v) (v_explicit_variables v) (v_global_variables v) (v_opt_explicit_variables v) (v_identifiers v) (v_goToLabel v).
Definition set_body (v : slot) x := Slot (yys v) (v_token v) (v_stmt_if v) (v_opt_elseif_list v) (v_opt_else v) (v_stmt v) (v_stmt_loop v) (v_funcProc v) x (v_opt_body v) (v_params v) (v_param v) (v_exprs v) (v_opt_export v) (v_opt_directive v) (v_explicit_variables v) (v_global_variables v) (v_opt_explicit_variables v) (v_identifiers v) (v_goToLabel v).
Definition set_opt_body (v : slot) x := Slot (yys v) (v_token v) (v_stmt_if v) (v_opt_elseif_list v) (v_opt_else v) (v_stmt v) (v_stmt_loop v) (v_funcProc v) (v_body v) x (v_params v) (v_param v) (v_exprs v) (v_opt_export v) (v_opt_directive v) (v_explicit_variables v) (v_global_variables v) (v_opt_explicit_variables v) (v_identifiers v) (v_goToLabel v).
Definition set_params (v : slot) x := Slot (yys v) (v_token v) (v_stmt_if v) (v_opt_elseif_list v) (v_opt_else v) (v_stmt v) (v_stmt_loop v) (v_funcProc v) (v_body v) (v_opt_body v) x (v_param v) (v_exprs v) (v_opt_export v) (v_opt_directive v) (v_explicit_variables v) (v_global_variables v) (v_opt_explicit_variables v) (v_identifiers v) (v_goToLabel v).
Definition set_param (v : slot) x := Slot (yys v) (v_token v) (v_stmt_if v) (v_opt_elseif_list v) (v_opt_else v) (v_stmt v) (v_stmt_loop v) (v_funcProc v) (v_body v) (v_opt_body v) (v_params v) x (v_exprs v) (v_opt_export v) (v_opt_directive v) (v_explicit_variables v) (v_global_variables v) (v_opt_explicit_variables v) (v_identifiers v) (v_goToLabel v).
Definition set_exprs (v : slot) x := Slot (yys v) (v_token v) (v_stmt_if v) (v_opt_elseif_list v) (v_opt_else v) (v_stmt v) (v_stmt_loop v) (v_funcProc v) (v_body v) (v_opt_body v) (v_params v) (v_param v) x (v_opt_export v) (v_opt_directive v) (v_explicit_variables v) (v_global_variables v) (v_opt_explicit_variables v) (v_identifiers v) (v_goToLabel v).
Definition set_opt_export (v : slot) x := Slot (yys v) (v_token v) (v_stmt_if v) (v_opt_elseif_list v) (v_opt_else v) (v_stmt v) (v_stmt_loop v) (v_funcProc v) (v_body v) (v_opt_body v) (v_params v) (v_param v) (v_exprs v) x (v_opt_directive v) (v_explicit_variables v) (v_global_variables v) (v_opt_explicit_variables v) (v_identifiers v) (v_goToLabel v).
Definition set_opt_directive (v : slot) x := Slot (yys v) (v_token v) (v_stmt_if v) (v_opt_elseif_list v) (v_opt_else v) (v_stmt v) (v_stmt_loop v) (v_funcProc v) (v_body v) (v_opt_body v) (v_params v) (v_param v) (v_exprs v) (v_opt_export v) x (v_explicit_variables v) (v_global_variables v) (v_opt_explicit_variables v) (v_identifiers v) (v_goToLabel v).
Definition set_explicit_variables (v : slot) x := Slot (yys v) (v_token v) (v_stmt_if v) (v_opt_elseif_list v) (v_opt_else v) (v_stmt v) (v_stmt_loop v) (v_funcProc v) (v_body v) (v_opt_body v) (v_params v) (v_param v) (v_exprs v) (v_opt_export v) (v_opt_directive v) x (v_global_variables v) (v_opt_explicit_variables v) (v_identifiers v) (v_goToLabel v).
Definition set_global_variables (v : slot) x := Slot (yys v) (v_token v) (v_stmt_if v) (v_opt_elseif_list v) (v_opt_else v) (v_stmt v) (v_stmt_loop v) (v_funcProc v) (v_body v) (v_opt_body v) (v_params v) (v_param v) (v_exprs v) (v_opt_export v) (v_opt_directive v) (v_explicit_variables v) x (v_opt_explicit_variables v) (v_identifiers v) (v_goToLabel v).
Definition set_opt_explicit_variables (v : slot) x := Slot (yys v) (v_token v) (v_stmt_if v) (v_opt_elseif_list v) (v_opt_else v) (v_stmt v) (v_stmt_loop v) (v_funcProc v) (v_body v) (v_opt_body v) (v_params v) (v_param v) (v_exprs v) (v_opt_export v) (v_opt_directive v) (v_explicit_variables v) (v_global_variables v) x (v_identifiers v) (v_goToLabel v).
Definition set_identifiers (v : slot) x := Slot (yys v) (v_token v) (v_stmt_if v) (v_opt_elseif_list v) (v_opt_else v) (v_stmt v) (v_stmt_loop v) (v_funcProc v) (v_body v) (v_opt_body v) (v_params v) (v_param v) (v_exprs v) (v_opt_export v) (v_opt_directive v) (v_explicit_variables v) (v_global_variables v) (v_opt_explicit_variables v) x (v_goToLabel v).
Definition set_goToLabel (v : slot) x := Slot (yys v) (v_token v) (v_stmt_if v) (v_opt_elseif_list v) (v_opt_else v) (v_stmt v) (v_stmt_loop v) (v_funcProc v) (v_body v) (v_opt_body v) (v_params v) (v_param v) (v_exprs v) (v_opt_export v) (v_opt_directive v) (v_explicit_variables v) (v_global_variables v) (v_opt_explicit_variables v) (v_identifiers v) x.

Definition lit_of (v : slot) : bytes := tk_lit (v_token v).
Definition is_label (s : stmt) : bool := match s with SLabel _ => true | _ => false end.
(** A nil [*GoToLabelStatement] stored into an interface would be a typed nil;
    it never is ([goToLabel] is allocated by rule 106 just before). *)
Definition label_stmt (l : option bytes) : stmt :=
  match l with Some n => SLabel n | None => SNil end.

Definition binop (o : op) (d1 d3 : slot) (v : slot) : slot :=
  set_stmt v (SExp o (v_stmt d1) (v_stmt d3) no_flags).

(** The semantic actions, y.go:726-1449, by rule number (the rules of
    grammar.y in order, mid-rule actions included).  [d i] is yyDollar[i],
    [v] is yyVAL preset to the stack cell that becomes the result's cell
    (y.go:711). *)
Definition act (r : Z) (d : nat -> slot) (v : slot) (a : astnode) : res (slot * astnode) :=
  let ok v' := Ok (v', a) in
  match r with
  (* module *)
  | 1 => ok v
  | 2 => a' <- append_stmts (v_body (d 1%nat)) a; Ok (v, a')
  | 3 => a' <- append_stmts (v_opt_body (d 2%nat)) a; Ok (v, a')
  (* main *)
  | 6 => a' <- append_gvars (v_global_variables (d 1%nat)) a; Ok (v, a')
  | 7 => a' <- append_func (v_funcProc (d 1%nat)) a; Ok (v, a')
  (* opt_directive, opt_export *)
  | 8 => ok (set_opt_directive v None)
  | 9 => ok (set_opt_directive v (Some (v_token (d 1%nat))))
  | 10 => ok (set_opt_export v None)
  | 11 => ok (set_opt_export v (Some (v_token (d 1%nat))))
  (* global_variables *)
  | 12 => ok (set_global_variables v
            (map (fun t => GVar (match v_opt_directive (d 1%nat) with Some t => tk_lit t | None => [] end)
                                (tk_lit t) (is_some (v_opt_export (d 4%nat))))
                 (v_identifiers (d 3%nat))))
  (* funcProc *)
  | 13 => Ok (v, set_function a true)
  | 14 => Ok (set_funcProc v (createFunctionOrProcedure PFFunction (v_opt_directive (d 1%nat))
                (lit_of (d 3%nat)) (v_params (d 5%nat)) (v_opt_export (d 7%nat))
                (v_opt_explicit_variables (d 9%nat)) (v_opt_body (d 10%nat))),
              set_function a false)
  | 15 => ok (set_funcProc v (createFunctionOrProcedure PFProcedure (v_opt_directive (d 1%nat))
                (lit_of (d 3%nat)) (v_params (d 5%nat)) (v_opt_export (d 7%nat))
                (v_opt_explicit_variables (d 8%nat)) (v_opt_body (d 9%nat))))
  (* opt_body, body *)
  | 16 => ok (set_opt_body v None)
  | 17 => ok (set_opt_body v (v_body (d 1%nat)))
  | 18 => ok (set_body v (Some [v_stmt (d 1%nat)]))
  | 19 =>
    a' <- (let b := elems (v_opt_body (d 1%nat)) in
           if beqb (lit_of (d 2%nat)) (B ":") && negb (Nat.eqb (length b) 0)
              && negb (is_label (last b SNil))
           then Error a MSemicolon else Ok a);
    Ok (if is_nil (v_stmt (d 3%nat)) then v
        else set_body v (gappend (v_body v) [v_stmt (d 3%nat)]), a')
  (* opt_stmt, separator *)
  | 20 => ok (set_stmt v SNil)
  | 21 => ok (set_stmt v (v_stmt (d 1%nat)))
  | 22 | 23 => ok (set_token v (v_token (d 1%nat)))
  (* opt_explicit_variables, explicit_variables *)
  | 24 => ok (set_opt_explicit_variables v (Some []))
  | 25 => ok (set_opt_explicit_variables v (v_explicit_variables (d 1%nat)))
  | 26 =>
    r <- appendVars (Some []) (map tk_lit (v_identifiers (d 2%nat)));
    match r with
    | (_, Some n) => a' <- Error a (MVarDup n); Ok (v, a')
    | (m, None) => ok (set_explicit_variables v m)
    end
  | 27 =>
    r <- appendVars (v_explicit_variables (d 1%nat)) (map tk_lit (v_identifiers (d 3%nat)));
    match r with
    | (m, Some n) => a' <- Error a (MVarDup n);
                     Ok (set_explicit_variables v m, a')  (* the map of $$ = $1 was mutated *)
    | (m, None) => ok (set_explicit_variables v m)
    end
  (* stmt_if, opt_elseif_list, opt_else *)
  | 28 => ok (set_stmt_if v (SIf (v_stmt (d 2%nat)) (v_opt_body (d 4%nat))
                                 (v_opt_elseif_list (d 5%nat)) (v_opt_else (d 6%nat))))
  | 29 => ok (set_opt_elseif_list v (Some []))
  | 30 => ok (set_opt_elseif_list v
            (gappend (v_opt_elseif_list (d 5%nat))
                     [SIf (v_stmt (d 2%nat)) (v_opt_body (d 4%nat)) None None]))
  | 31 => ok (set_opt_else v None)
  | 32 => ok (set_opt_else v (v_opt_body (d 2%nat)))
  (* ternary *)
  | 33 => ok (set_stmt v (STern (v_stmt (d 3%nat)) (v_stmt (d 5%nat)) (v_stmt (d 7%nat))))
  (* stmt_loop *)
  | 34 => Ok (v, add_loop a 1)
  | 35 => Ok (set_stmt_loop v (SLoop (SStr (lit_of (d 3%nat))) SNil (v_stmt (d 5%nat)) SNil
                                     (v_opt_body (d 8%nat))), add_loop a (-1))
  | 36 => Ok (v, add_loop a 1)
  | 37 => Ok (set_stmt_loop v (SLoop (v_stmt (d 2%nat)) (v_stmt (d 4%nat)) SNil SNil
                                     (v_opt_body (d 7%nat))), add_loop a (-1))
  | 38 => Ok (v, add_loop a 1)
  | 39 => ok (set_stmt_loop v (SLoop SNil SNil SNil (v_stmt (d 2%nat)) (v_opt_body (d 5%nat))))
  (* loopExp *)
  | 40 | 41 | 43 => ok (set_stmt v (v_stmt (d 1%nat)))
  | 42 => ok (set_stmt v (v_stmt (d 2%nat)))
  (* stmt *)
  | 44 => ok (set_stmt v (SAssign (v_stmt (d 1%nat)) (Some [v_stmt (d 3%nat)]) no_flags))
  | 45 => ok (set_stmt v (v_stmt (d 1%nat)))
  | 46 => ok (set_stmt v (v_stmt_if (d 1%nat)))
  | 47 => ok (set_stmt v (v_stmt_loop (d 1%nat)))
  | 48 => ok (set_stmt v (v_stmt (d 1%nat)))
  | 49 => a' <- checkLoopOperator (v_token (d 1%nat)) a; Ok (set_stmt v SContinue, a')
  | 50 => a' <- checkLoopOperator (v_token (d 1%nat)) a; Ok (set_stmt v SBreak, a')
  | 51 => a' <- checkThrowParam (v_token (d 1%nat)) (v_stmt (d 2%nat)) a;
          Ok (set_stmt v (SThrow (v_stmt (d 2%nat))), a')
  | 52 => a' <- checkReturnParam (v_stmt (d 2%nat)) a;
          Ok (set_stmt v (SReturn (v_stmt (d 2%nat))), a')
  (* through_dot *)
  | 53 => ok (set_stmt v (v_stmt (d 1%nat)))
  | 54 => ok (set_stmt v (SChain (v_stmt (d 3%nat)) (v_stmt (d 1%nat)) no_flags))
  (* identifier *)
  | 55 => ok (set_stmt v (SVar (lit_of (d 1%nat)) no_flags))
  | 56 => ok (set_stmt v (SMethod (lit_of (d 1%nat)) (fst (v_exprs (d 3%nat))) (snd (v_exprs (d 3%nat))) no_flags))
  | 57 => ok (set_stmt v (SItem (v_stmt (d 3%nat)) (v_stmt (d 1%nat))))
  | 58 => ok (set_stmt v (SMethod (lit_of (d 1%nat)) (Some [v_stmt (d 2%nat)]) no_flags no_flags))
  | 59 => ok (set_stmt v (SMethod (lit_of (d 1%nat)) (Some [v_stmt (d 3%nat)]) no_flags no_flags))
  (* execute_param *)
  | 60 => ok (set_stmt v (tk_value (v_token (d 1%nat))))
  | 61 => ok (set_stmt v (SVar (lit_of (d 1%nat)) no_flags))
  (* stmt_tryCatch *)
  | 62 => Ok (v, add_try a 1)
  | 63 => Ok (set_stmt v (STry (v_opt_body (d 2%nat)) (v_opt_body (d 5%nat))), add_try a (-1))
  (* expr *)
  | 64 => ok (set_stmt v (v_stmt (d 1%nat)))
  | 65 => ok (set_stmt v (SExprs (fst (v_exprs (d 2%nat))) (snd (v_exprs (d 2%nat)))))
  | 66 => ok (binop OpPlus (d 1%nat) (d 3%nat) v)
  | 67 => ok (binop OpMinus (d 1%nat) (d 3%nat) v)
  | 68 => ok (binop OpMul (d 1%nat) (d 3%nat) v)
  | 69 => ok (binop OpDiv (d 1%nat) (d 3%nat) v)
  | 70 => ok (binop OpMod (d 1%nat) (d 3%nat) v)
  | 71 => ok (binop OpGt (d 1%nat) (d 3%nat) v)
  | 72 => ok (binop OpLt (d 1%nat) (d 3%nat) v)
  | 73 => ok (binop OpEq (d 1%nat) (d 3%nat) v)
  | 74 => ok (binop OpOr (d 1%nat) (d 3%nat) v)
  | 75 => ok (binop OpAnd (d 1%nat) (d 3%nat) v)
  | 76 => ok (binop OpNe (d 1%nat) (d 3%nat) v)
  | 77 => ok (binop OpLe (d 1%nat) (d 3%nat) v)
  | 78 => ok (binop OpGe (d 1%nat) (d 3%nat) v)
  | 79 => ok (set_stmt v (not_ (v_stmt (d 2%nat))))
  | 80 => ok (set_stmt v (v_stmt (d 1%nat)))
  | 81 => ok (set_stmt v (SGoTo (v_goToLabel (d 2%nat))))
  | 82 => ok (set_stmt v (v_stmt (d 1%nat)))
  | 83 => ok (set_stmt v (v_stmt (d 1%nat)))
  (* opt_expr, exprs *)
  | 84 => ok (set_stmt v SNil)
  | 85 => ok (set_stmt v (v_stmt (d 1%nat)))
  | 86 => ok (set_exprs v (Some [v_stmt (d 1%nat)], no_flags))
  | 87 => ok (set_exprs v (gappend (fst (v_exprs v)) [v_stmt (d 3%nat)], snd (v_exprs v)))
  (* simple_expr *)
  | 88 | 89 | 92 | 93 | 94 => ok (set_stmt v (tk_value (v_token (d 1%nat))))
  | 90 => ok (set_stmt v (unaryMinus (v_stmt (d 2%nat))))
  | 91 => ok (set_stmt v (v_stmt (d 2%nat)))
  | 95 => ok (set_stmt v SUndef)
  | 96 => ok (set_stmt v (label_stmt (v_goToLabel (d 1%nat))))
  (* declarations_method_param(s): Fill ast_struct.go:180, DefaultValue :186 *)
  | 97 => ok (set_param v (SNil, lit_of (d 1%nat), false))
  | 98 => ok (set_param v (SNil, lit_of (d 2%nat), true))
  | 99 => let '(_, n, b) := v_param v in
          let x := v_stmt (d 3%nat) in
          ok (set_param v (if is_nil x then SUndef else x, n, b))
  | 100 => ok (set_params v [])
  | 101 => ok (set_params v [v_param (d 1%nat)])
  | 102 => ok (set_params v (v_params (d 1%nat) ++ [v_param (d 3%nat)]))
  (* new_object *)
  | 103 => ok (set_stmt v (SNew (lit_of (d 2%nat)) None no_flags))
  | 104 => ok (set_stmt v (SNew (lit_of (d 2%nat)) (fst (v_exprs (d 4%nat))) (snd (v_exprs (d 4%nat)))))
  | 105 => ok (set_stmt v (SNew [] (fst (v_exprs (d 3%nat))) (snd (v_exprs (d 3%nat)))))
  (* goToLabel, identifiers *)
  | 106 => ok (set_goToLabel v (Some (lit_of (d 1%nat))))
  | 107 => ok (set_identifiers v [v_token (d 1%nat)])
  | 108 => ok (set_identifiers v (v_identifiers v ++ [v_token (d 3%nat)]))
  (* semicolon, colon, comma *)
  | 109 | 110 | 111 => ok (set_token v (v_token (d 1%nat)))
  (* 4, 5 (main_items) and 112 (dot) have no action *)
  | _ => ok v
  end.

(** Indexing of a table; Go panics outside the range. *)
Definition tab (l : list Z) (i : Z) : res Z :=
  if i <? 0 then Panic PIndex
  else match nth_error l (Z.to_nat i) with Some z => Ok z | None => Panic PIndex end.

(** yylex1, y.go:514-546: translation of the character code returned by Lex
    into the internal token number. *)
Definition tok_of_char (char : Z) : res Z :=
  t <- (if char <=? 0 then tab yyTok1 0
        else if char <? Z.of_nat (length yyTok1) then tab yyTok1 char
        else if (yyPrivate <=? char) && (char <? yyPrivate + Z.of_nat (length yyTok2))
        then tab yyTok2 (char - yyPrivate)
        else Ok 0 (* yyTok3 holds only the terminator 0 *));
  if t =? 0 then tab yyTok2 1 else Ok t.

(** State of [yyParserImpl.Parse] (y.go:552) at label yynewstate.
    The array yyS is split at yyp: [p_stk] holds yyS[yyp], yyS[yyp-1], ...,
    yyS[0] and [p_above] holds yyS[yyp+1], yyS[yyp+2], ... -- cells that were
    popped keep their old contents and are read again by empty reductions
    (yyVAL = yyS[yyp+1], y.go:711).  Cells beyond [p_above] are zero; growing
    the array (y.go:586-590, 706-710) copies it and adds zero cells, so it does
    not change this picture.  [p_tok] is yytoken, [p_char] is yyrcvr.char,
    [p_lval] is yyrcvr.lval. Nerrs and Errflag: see [step]. *)
Record pst := Pst {
  p_stk : list slot;
  p_above : list slot;
  p_state : Z;
  p_lval : slot;
  p_char : Z;
  p_tok : Z;
  p_ast : astnode }.

Inductive sres :=
| Next_ (p : pst)
| Done (ret : Z) (a : astnode)      (* ret0 / ret1 *)
| Crash (q : panic).

Definition sbind {A} (r : res A) (f : A -> sres) : sres :=
  match r with Ok x => f x | Panic q => Crash q end.
Notation "x <<- e ; f" := (sbind e (fun x => f)) (at level 61, e at next level, right associativity).

(** yystack, y.go:579-592. *)
Definition push (p : pst) (v : slot) (st : Z) : pst :=
  Pst (set_yys v st :: p_stk p) (tl (p_above p)) st (p_lval p) (p_char p) (p_tok p) (p_ast p).

(** Reading the lookahead if there is none (y.go:599-601, 622-624).  A character
    code below 0 means "no lookahead": since Lex reports the end of the text (and
    every scanner error) as -1, the scanner is called again each time. *)
Definition ensure (p : pst) : res pst :=
  if p_char p <? 0 then
    let '(c, t', a') := Lex (p_ast p) (v_token (p_lval p)) in
    k <- tok_of_char c;
    Ok (Pst (p_stk p) (p_above p) (p_state p) (set_token (p_lval p) t') c k a')
  else Ok p.

(** [yyp -= n]: the popped cells stay in the array. *)
Fixpoint pop (n : nat) (stk above : list slot) : option (list slot * list slot) :=
  match n with
  | O => Some (stk, above)
  | S n' => match stk with
            | [] => None
            | c :: stk' => pop n' stk' (c :: above)
            end
  end.

(** goto table lookup, y.go:713-724. *)
Definition goto_ (st r1 : Z) : res Z :=
  g <- tab yyPgo r1;
  let j := g + st + 1 in
  if yyLast <=? j then tab yyAct g
  else s <- tab yyAct j;
       c <- tab yyChk s;
       if c =? - r1 then Ok s else tab yyAct g.

(** Reduction by production r, y.go:697-1451. *)
Definition reduce (p : pst) (r : Z) : sres :=
  n <<- tab yyR2 r;
  match pop (Z.to_nat n) (p_stk p) (p_above p) with
  | None => Crash PStack
  | Some (stk', above') =>
    match stk' with
    | [] => Crash PStack
    | base :: _ =>
      r1 <<- tab yyR1 r;
      st <<- goto_ (yys base) r1;
      let v := hd zero_slot above' in
      va <<- act r (fun i => nth (i - 1) above' zero_slot) v (p_ast p);
      let '(v', a') := va in
      Next_ (push (Pst stk' above' (p_state p) (p_lval p) (p_char p) (p_tok p) a') v' st)
    end
  end.

(** Exception table lookup, y.go:627-640. *)
Fixpoint exca_find (l : list Z) (st : Z) : option (list Z) :=
  match l with
  | x :: y :: l' => if (x =? -1) && (y =? st) then Some l' else exca_find l' st
  | _ => None
  end.
Fixpoint exca_scan (l : list Z) (tok : Z) : option Z :=
  match l with
  | x :: y :: l' => if (x <? 0) || (x =? tok) then Some y else exca_scan l' tok
  | _ => None
  end.

(** Error recovery, y.go:645-690, with Errflag = 0: report, then pop the stack
    looking for a state that shifts the token "error".  [None] = none found. *)
Fixpoint find_error (stk : list slot) : res (option unit) :=
  match stk with
  | [] => Ok None
  | c :: stk' =>
    n <- tab yyPact (yys c);
    let k := n + yyErrCode in
    if (0 <=? k) && (k <? yyLast) then
      s <- tab yyAct k;
      ch <- tab yyChk s;
      if ch =? yyErrCode then Ok (Some tt) else find_error stk'
    else find_error stk'
  end.

(** One pass from label yynewstate to the next (y.go:594-1451).  Errflag stays 0:
    it is only changed after a successful shift of "error", for which no state
    exists (theorem [no_error_shift]); that branch is therefore given as a crash. *)
Definition yydefault (p : pst) : sres :=
  d <<- tab yyDef (p_state p);
  p1 <<- (if d =? -2 then ensure p else Ok p);
  d1 <<- (if d =? -2 then
            match exca_find yyExca (p_state p1) with
            | None => Panic PIndex
            | Some l => match exca_scan l (p_tok p1) with
                        | None => Panic PIndex
                        | Some y => Ok y
                        end
            end
          else Ok d);
  if (d =? -2) && (d1 <? 0) then Done 0 (p_ast p1)
  else if d1 =? 0 then
    a <<- Error (p_ast p1) MSyntax;
    e <<- find_error (p_stk p1);
    match e with
    | None => Done 1 a
    | Some _ => Crash PIndex
    end
  else reduce p1 d1.

Definition step (p : pst) : sres :=
  n <<- tab yyPact (p_state p);
  if n <=? yyFlag then yydefault p
  else
    p1 <<- ensure p;
    let k := n + p_tok p1 in
    if (k <? 0) || (yyLast <=? k) then yydefault p1
    else
      s <<- tab yyAct k;
      c <<- tab yyChk s;
      if c =? p_tok p1 then
        (* valid shift, y.go:607-616 *)
        Next_ (push (Pst (p_stk p1) (p_above p1) (p_state p1) (p_lval p1) (-1) (-1) (p_ast p1))
                    (p_lval p1) s)
      else yydefault p1.

(** Iteration; [None] = fuel exhausted (excluded by theorem [run_terminates]). *)
Fixpoint run (fuel : nat) (p : pst) : option (res (Z * astnode)) :=
  match fuel with
  | O => None
  | S f => match step p with
           | Next_ p' => run f p'
           | Done r a => Some (Ok (r, a))
           | Crash q => Some (Panic q)
           end
  end.

(** Start of [yyParserImpl.Parse]: push state 0 with a zero value. *)
Definition init_pst (a : astnode) : pst :=
  Pst [set_yys zero_slot 0] [] 0 zero_slot (-1) (-1) a.

Definition parse_fuel (code : bytes) : nat := (40 * length code + 40)%nat.

(** unicode.IsSpace, as used by strings.TrimSpace (ast.go:38). *)
Definition unicode_is_space (r : Z) : bool :=
  ((9 <=? r) && (r <=? 13)) || (r =? 32) || (r =? 133) || (r =? 160) || (r =? 5760)
  || ((8192 <=? r) && (r <=? 8202)) || (r =? 8232) || (r =? 8233) || (r =? 8239)
  || (r =? 8287) || (r =? 12288).
(** [len(strings.TrimSpace(s)) == 0]. *)
Definition blank (s : bytes) : bool := forallb unicode_is_space (runes s).

(** Parse, ast.go:37-47: the node after the call and the returned error.
    ([errors.Wrap] on line 44 has no effect, its result is dropped.)
    [None] = fuel exhausted. *)
Definition Parse (a : astnode) : option (res (astnode * option perr)) :=
  if blank (a_code a) then Some (Ok (a, None))
  else match run (parse_fuel (a_code a)) (init_pst a) with
       | None => None
       | Some (Panic q) => Some (Panic q)
       | Some (Ok (_, a')) => Some (Ok (a', a_err a'))
       end.

(** NewAST(code).Parse(). *)
Definition parse (code : bytes) : option (res (astnode * option perr)) := Parse (NewAST code).
