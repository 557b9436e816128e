(** The pretty printer, ast/ast_print.go. *)
From Verif Require Import Bytes Float64 GoTime Ast.

(** OperationType.String, ast_struct.go:249-280. *)
Definition op_str (o : op) : bytes :=
  match o with
  | OpUndefined => []
  | OpPlus => B "+" | OpMinus => B "-" | OpMul => B "*" | OpDiv => B "/"
  | OpEq => B "=" | OpGt => B ">" | OpLt => B "<" | OpNe => B "<>"
  | OpLe => B "<=" | OpGe => B ">=" | OpMod => B "%"
  | OpOr => B "ИЛИ" | OpAnd => B "И"
  end.

(** strings.Join. *)
Fixpoint join (sep : bytes) (l : list bytes) : bytes :=
  match l with
  | [] => []
  | [x] => x
  | x :: l' => x ++ sep ++ join sep l'
  end.

Definition s_not : bytes := B "Не ".
Definition not_str (b : bool) : bytes := if b then s_not else [].
Definition dquote : bytes := [x22].

(** Which of the three mutually recursive printers is running:
    [MV] printVarStatement (ast_print.go:152-188), [ME level] printExpression
    (:332-390), [MC] printCallChainStatement (:392-403). *)
Inductive pmode := MV | ME (level : nat) | MC.

(** One function for the three, because they call each other on the same
    argument (printExpression's default case is printVarStatement and vice
    versa); the equations [printVarStatement_eq] etc. in PrinterFacts.v restate
    the Go functions. *)
Fixpoint pr (m : pmode) (s : stmt) {struct s} : bytes :=
  match s with
  | SNil | SIf _ _ _ _ | STry _ _ | SThrow _ | SReturn _ | SBreak | SContinue
  | SLoop _ _ _ _ _ | SGoTo _ | SLabel _ | SFunc _ _ _ _ _ _ _ => []
  | SNum f => match m with MC => [] | _ => format_0f f end
  | SStr w => match m with MC => [] | _ => dquote ++ w ++ dquote end
  | SBool b => match m with MC => [] | _ => if b then B "Истина" else B "Ложь" end
  | STime t => match m with MC => [] | _ => B "'" ++ format_time t ++ B "'" end
  | SUndef => match m with MC => [] | _ => B "Неопределено" end
  | SChain u c fl =>
    (match m with MC => [] | _ => not_str (fl_not fl) end) ++
    (match c with SNil => [] | _ => pr MC c ++ B "." ++ pr MV u end)
  | SMethod n ps _ fl =>
    not_str (fl_not fl) ++ n ++ B "(" ++
    join (B ", ") (match ps with Some l => map (pr MV) l | None => [] end) ++ B ")"
  | SVar n fl =>
    match m with
    | ME _ => not_str (fl_not fl) ++ (if fl_minus fl then B "-" else []) ++ n
    | _ => n
    end
  | SItem i o => pr MV o ++ B "[" ++ pr (ME 0) i ++ B "]"
  | STern e t f =>
    match m with
    | MC => []
    | _ => B "?(" ++ pr (ME 0) e ++ B ", " ++ pr (ME 0) t ++ B ", " ++ pr (ME 0) f ++ B ")"
    end
  | SNew c ps _ =>
    match m with
    | MC => []
    | _ => B "Новый " ++ c ++ B "(" ++
           join (B ", ") (match ps with Some l => map (pr MV) l | None => [] end) ++ B ")"
    end
  | SAssign v ps fl =>
    match m with
    | MC => []
    | _ => pr MV v ++ B " = " ++
           (* printExpression(val.Expr, 0) on the embedded ExprStatements *)
           ((if fl_not fl then s_not ++ B "(" else []) ++
            concat (match ps with Some l => map (pr (ME 0)) l | None => [] end) ++
            (if fl_not fl then B ")" else []))
    end
  | SExprs ps fl =>
    match m with
    | MC => []
    | _ =>
      let lv := match m with ME (S l) => S (S l) | _ => O end in
      (if fl_not fl then s_not ++ B "(" else []) ++
      concat (match ps with Some l => map (pr (ME lv)) l | None => [] end) ++
      (if fl_not fl then B ")" else [])
    end
  | SExp o l r fl =>
    match m with
    | MC => []
    | _ =>
      let lv := match m with ME l => l | _ => O end in
      let outer := Nat.ltb 0 lv in
      let inner := fl_minus fl || fl_not fl in
      (if outer then B "(" else []) ++ not_str (fl_not fl) ++
      (if fl_minus fl then B "-" else []) ++ (if inner then B "(" else []) ++
      pr (ME (S lv)) l ++ B " " ++ op_str o ++ B " " ++ pr (ME (S lv)) r ++
      (if inner then B ")" else []) ++ (if outer then B ")" else [])
    end
  end.

Definition printVarStatement (s : stmt) : bytes := pr MV s.
Definition printExpression (s : stmt) (level : nat) : bytes := pr (ME level) s.
Definition printCallChainStatement (s : stmt) : bytes := pr MC s.
(** printParams, ast_print.go:190-197. *)
Definition printParams (ps : slice) : bytes := join (B ", ") (map printVarStatement (elems ps)).

(** PrintConf, ast_print.go:9-13. *)
Record conf := Conf { margin : Z; oneLine : bool }.

(** strings.Repeat(" ", n): panics on a negative count ([None]). *)
Definition spaces (n : Z) : option bytes :=
  if n <? 0 then None else Some (repeat x20 (Z.to_nat n)).
(** newLine, ast_print.go:449-455. *)
Definition newLine (c : conf) (n : nat) : bytes := if oneLine c then [] else repeat x0a n.

Definition obind {A C} (r : option A) (f : A -> option C) : option C :=
  match r with Some a => f a | None => None end.
Notation "x <~ e ; f" := (obind e (fun x => f)) (at level 61, e at next level, right associativity).

(** Concatenation of the results for a list ([None] = some call panicked). *)
Fixpoint oconcat (l : list (option bytes)) : option bytes :=
  match l with
  | [] => Some []
  | x :: l' => a <~ x; r <~ oconcat l'; Some (a ++ r)
  end.

(** printBodyItem (ast_print.go:212-271) with printBody (:199-210),
    printIfStatement (:273-302), printLoopStatement (:304-330),
    printTryStatement (:405-428), printGoTo (:430-447). *)
Fixpoint printBodyItem (c : conf) (depth : nat) (item : stmt) {struct item} : option bytes :=
  let nl := newLine c in
  let body (d : nat) (b : option (list stmt)) : option bytes :=
    r <~ oconcat (match b with
                  | Some l => map (fun i => r <~ printBodyItem c d i; Some (nl 1%nat ++ r)) l
                  | None => []
                  end);
    Some (r ++ nl 1%nat) in
  sp <~ spaces (margin c * Z.of_nat depth);
  r <~ match item with
  | SIf e tb eib eb =>
    t <~ body (S depth) tb;
    ei <~ oconcat (match eib with
                   | Some l => map (fun i => match i with
                       | SIf e' tb' _ _ =>
                         r <~ body (S depth) tb';
                         Some (sp ++ B "ИначеЕсли " ++ printExpression e' 0 ++ B " Тогда " ++ r)
                       | _ => None   (* item.( *IfStatement) panics *)
                       end) l
                   | None => []
                   end);
    el <~ match eb with
          | None => Some []
          | Some _ => r <~ body (S depth) eb; Some (sp ++ B "Иначе " ++ r)
          end;
    Some (B "Если " ++ printExpression e 0 ++ B " Тогда " ++ t ++ ei ++ el ++ sp ++ B "КонецЕсли"
          ++ B ";" ++ nl 1%nat)
  | SExp _ _ _ _ => Some (printExpression item 0 ++ B ";")
  | SLoop sfor sto sin swhile b =>
    let h1 := if is_nil swhile then B "Для "
              else B "Пока " ++ printExpression swhile 0 ++ B " Цикл " in
    h2 <~ (if is_nil sin then Some []
           else match sfor with
                | SStr n => Some (B "Каждого " ++ n ++ B " Из " ++ printExpression sin 0 ++ B " Цикл ")
                | _ => None  (* loop.For.(string) panics *)
                end);
    let h3 := if is_nil sto then []
              else printExpression sfor 0 ++ B " По " ++ printExpression sto 0 ++ B " Цикл " in
    r <~ body (S depth) b;
    Some (h1 ++ h2 ++ h3 ++ r ++ sp ++ B "КонецЦикла" ++ B ";" ++ nl 1%nat)
  | SBreak => Some (B "Прервать;")
  | SContinue => Some (B "Продолжить;")
  | SChain _ _ _ => Some (printCallChainStatement item ++ B ";")
  | STry b ca =>
    r1 <~ match b with Some _ => body (S depth) b | None => Some (nl 1%nat) end;
    r2 <~ match ca with Some _ => body (S depth) ca | None => Some (nl 1%nat) end;
    Some (B "Попытка" ++ r1 ++ sp ++ B "Исключение" ++ r2 ++ sp ++ B "КонецПопытки"
          ++ B ";" ++ nl 1%nat)
  | SThrow p =>
    Some (B "ВызватьИсключение" ++
          (match p with
           | SNil => []
           | SExprs ps _ => B "(" ++ printParams ps ++ B ")"
           | _ => B "(" ++ printParams (Some [p]) ++ B ")"
           end) ++ B ";")
  | SReturn p =>
    Some (B "Возврат" ++
          (match p with SNil => [] | _ => B " " ++ printExpression p 0 end) ++ B ";")
  | SGoTo l =>
    match l with
    | None => None  (* nil pointer dereference *)
    | Some n => Some (B "Перейти " ++ B "~" ++ n ++ B ";" ++ nl 1%nat)
    end
  | SLabel n => Some (B "~" ++ n ++ B ":" ++ nl 1%nat)
  | _ => Some (printVarStatement item ++ B ";")
  end;
  Some (sp ++ r).

(** printBody, ast_print.go:199-210. *)
Definition printBody (c : conf) (depth : nat) (b : slice) : option bytes :=
  r <~ oconcat (map (fun i => r <~ printBodyItem c depth i; Some (newLine c 1 ++ r)) (elems b));
  Some (r ++ newLine c 1).

(** printGlobalVariables, ast_print.go:76-97. *)
Definition printGlobalVariable (v : gvar) : bytes :=
  (match gv_dir v with [] => [] | d => [x0a] ++ d ++ [x0a] end) ++
  B "Перем " ++ gv_name v ++ (if gv_export v then B " Экспорт " else []) ++ B ";".

(** ast_print.go:113-124. *)
Definition printParam (p : param) : bytes :=
  let '(def, name, isval) := p in
  (if isval then B "Знач " else []) ++ name ++
  (match printVarStatement def with [] => [] | t => B " = " ++ t end).

(** printFunctionOrProcedure, ast_print.go:99-150. *)
Definition printFunctionOrProcedure (c : conf) (f : stmt) : option bytes :=
  match f with
  | SFunc _ name dir body params ty export =>
    b <~ printBody c 1 body;
    Some ((match dir with [] => [] | d => [x0a] ++ d ++ [x0a] end) ++
          (match ty with PFFunction => B "Функция" | PFProcedure => B "Процедура" | _ => [] end) ++
          B " " ++ name ++ B "(" ++ join (B ", ") (map printParam params) ++ B ")" ++ B " " ++
          (if export then B "Экспорт " else []) ++ newLine c 1 ++ b ++
          (match ty with
           | PFFunction => newLine c 2 ++ B "КонецФункции "
           | PFProcedure => newLine c 2 ++ B "КонецПроцедуры "
           | _ => []
           end))
  | _ => Some []
  end.

(** Print / print, ast_print.go:24-31, 51-74.  [order] is the order in which the
    run of [range] enumerates the map of global variables: any permutation of
    its entries, different from run to run. *)
Definition Print (order : list gvar) (c : conf) (m : module) : option bytes :=
  match elems (m_body m) with
  | [] => Some []
  | l =>
    r <~ oconcat (map (fun n => match n with
           | SFunc _ _ _ _ _ _ _ => r <~ printFunctionOrProcedure c n; Some (r ++ newLine c 3)
           | _ => r <~ printBodyItem c 0 n; Some (newLine c 1 ++ r)
           end) l);
    Some (concat (map (fun v => printGlobalVariable v ++ newLine c 1) order) ++ r)
  end.

(** PrintStatementWithConf, ast_print.go:41-48. *)
Definition PrintStatementWithConf (s : stmt) (c : conf) : option bytes :=
  if is_nil s then Some [] else printBodyItem c 0 s.
(** PrintStatement, ast_print.go:33-39. *)
Definition PrintStatement (s : stmt) : option bytes := PrintStatementWithConf s (Conf 4 false).
