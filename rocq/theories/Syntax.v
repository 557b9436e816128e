(** Programs as written: the abstract form of a source text, its tokens, the
    tree it stands for and the rules it has to obey.  Specification (C16, C18-C25,
    C31, C39); nothing here refers to the parser.

    A source text is a [program]; [toks_program] writes it down, [mean_program]
    is the module tree it stands for (types of ast/ast_struct.go, Ast.v). *)
From Verif Require Import Bytes Float64 GoTime Ast Lexer Tok.

(** * Expressions *)
Inductive bop := BPlus | BMinus | BMul | BDiv | BMod | BGt | BLt | BEq | BOr | BAnd | BNe | BLe | BGe.

Inductive expr :=
| EStr (s : bytes) | ENum (f : f64) | EDate (d : gotime) | ETrue | EFalse | EUndef
| ELabel (n : bytes)                       (* ~n *)
| ENeg (e : expr) | EPos (e : expr)        (* -e  +e *)
| ENot (e : expr)                          (* НЕ e *)
| EBin (o : bop) (l r : expr)
| EParen (l : args)                        (* (e, ..., e) *)
| ENew (c : newexp)
| EGoto (n : bytes)                        (* Перейти ~n *)
| ETern (c t f : expr)                     (* ?(c, t, f) *)
| EPath (p : path)
with path :=                               (* i.i.i *)
| PId (i : ident)
| PDot (p : path) (i : ident)
with ident :=
| IVar (n : bytes)
| ICall (n : bytes) (l : args)             (* n(e, ..., e) *)
| IIndex (i : ident) (e : expr)            (* i[e] *)
| IExecStr (w s : bytes)                   (* Выполнить "s"; [w] is the spelling of the word *)
| IExecVar (w n : bytes)
| IExec (w : bytes) (e : expr)             (* Выполнить(e) *)
with newexp :=
| NewName (n : bytes)                      (* Новый n *)
| NewCall (n : bytes) (l : args)           (* Новый n(e, ..., e) *)
| NewArgs (l : args)                       (* Новый(e, ..., e) *)
with args :=                               (* one or more, each may be left out *)
| AOne (o : oexpr)
| AMore (l : args) (o : oexpr)
with oexpr := ONone | OSome (e : expr).

Definition bop_tok (o : bop) : Z :=
  match o with
  | BPlus => 43 | BMinus => 45 | BMul => 42 | BDiv => 47 | BMod => 37 | BGt => 62 | BLt => 60
  | BEq => tEQUAL | BOr => tOR | BAnd => tAnd | BNe => tNeEQ | BLe => tLE | BGe => tGE
  end.
Definition bop_op (o : bop) : op :=
  match o with
  | BPlus => OpPlus | BMinus => OpMinus | BMul => OpMul | BDiv => OpDiv | BMod => OpMod | BGt => OpGt | BLt => OpLt
  | BEq => OpEq | BOr => OpOr | BAnd => OpAnd | BNe => OpNe | BLe => OpLe | BGe => OpGe
  end.

(** Punctuation. *)
Definition Pct (s : lit) : tk := K (match unlit s with b :: _ => b2z b | [] => 0 end).
Arguments Pct s%lit_scope.

Fixpoint toks_expr (e : expr) : list tk :=
  match e with
  | EStr s => [KStr s] | ENum f => [KNum f] | EDate d => [KDate d]
  | ETrue => [K tTrue] | EFalse => [K tFalse] | EUndef => [K tUndefind]
  | ELabel n => [KLabel n]
  | ENeg e => Pct "-" :: toks_expr e
  | EPos e => Pct "+" :: toks_expr e
  | ENot e => K tNot :: toks_expr e
  | EBin o l r => toks_expr l ++ K (bop_tok o) :: toks_expr r
  | EParen l => Pct "(" :: toks_args l ++ [Pct ")"]
  | ENew c => toks_new c
  | EGoto n => [K tGoTo; KLabel n]
  | ETern c t f => Pct "?" :: Pct "(" :: toks_expr c ++ Pct "," :: toks_expr t ++ Pct "," :: toks_expr f ++ [Pct ")"]
  | EPath p => toks_path p
  end
with toks_path (p : path) : list tk :=
  match p with
  | PId i => toks_ident i
  | PDot p i => toks_path p ++ Pct "." :: toks_ident i
  end
with toks_ident (i : ident) : list tk :=
  match i with
  | IVar n => [KId n]
  | ICall n l => KId n :: Pct "(" :: toks_args l ++ [Pct ")"]
  | IIndex i e => toks_ident i ++ Pct "[" :: toks_expr e ++ [Pct "]"]
  | IExecStr w s => [KExec w; KStr s]
  | IExecVar w n => [KExec w; KId n]
  | IExec w e => KExec w :: Pct "(" :: toks_expr e ++ [Pct ")"]
  end
with toks_new (c : newexp) : list tk :=
  match c with
  | NewName n => [K tNew; KId n]
  | NewCall n l => K tNew :: KId n :: Pct "(" :: toks_args l ++ [Pct ")"]
  | NewArgs l => K tNew :: Pct "(" :: toks_args l ++ [Pct ")"]
  end
with toks_args (l : args) : list tk :=
  match l with
  | AOne o => toks_oexpr o
  | AMore l o => toks_args l ++ Pct "," :: toks_oexpr o
  end
with toks_oexpr (o : oexpr) : list tk :=
  match o with ONone => [] | OSome e => toks_expr e end.

(** What the tree records of НЕ and of a unary minus: a mark on the operand
    where the operand has a place for it, the value itself for booleans and
    numbers, nothing otherwise. *)
Definition mark_not (s : stmt) : stmt :=
  match s with
  | SBool b => SBool (negb b)
  | SExp o l r f => SExp o l r (Flags (fl_minus f) (fl_plus f) true)
  | SExprs l f => SExprs l (Flags (fl_minus f) (fl_plus f) true)
  | SVar n f => SVar n (Flags (fl_minus f) (fl_plus f) true)
  | SChain u c f => SChain u c (Flags (fl_minus f) (fl_plus f) true)
  | SMethod n l g f => SMethod n l g (Flags (fl_minus f) (fl_plus f) true)
  | _ => s
  end.
Definition mark_minus (s : stmt) : stmt :=
  match s with
  | SNum f => SNum (f64_opp f)
  | SExp o l r f => SExp o l r (Flags true (fl_plus f) (fl_not f))
  | SVar n f => SVar n (Flags true (fl_plus f) (fl_not f))
  | SChain u c f => SChain u c (Flags true (fl_plus f) (fl_not f))
  | _ => s
  end.

Fixpoint mean_expr (e : expr) : stmt :=
  match e with
  | EStr s => SStr s | ENum f => SNum f | EDate d => STime d
  | ETrue => SBool true | EFalse => SBool false | EUndef => SUndef
  | ELabel n => SLabel n
  | ENeg e => mark_minus (mean_expr e)
  | EPos e => mean_expr e
  | ENot e => mark_not (mean_expr e)
  | EBin o l r => SExp (bop_op o) (mean_expr l) (mean_expr r) no_flags
  | EParen l => SExprs (Some (mean_args l)) no_flags
  | ENew c => mean_new c
  | EGoto n => SGoTo (Some n)
  | ETern c t f => STern (mean_expr c) (mean_expr t) (mean_expr f)
  | EPath p => mean_path p
  end
with mean_path (p : path) : stmt :=
  match p with
  | PId i => mean_ident i
  | PDot p i => SChain (mean_ident i) (mean_path p) no_flags
  end
with mean_ident (i : ident) : stmt :=
  match i with
  | IVar n => SVar n no_flags
  | ICall n l => SMethod n (Some (mean_args l)) no_flags no_flags
  | IIndex i e => SItem (mean_expr e) (mean_ident i)
  | IExecStr w s => SMethod w (Some [SStr s]) no_flags no_flags
  | IExecVar w n => SMethod w (Some [SVar n no_flags]) no_flags no_flags
  | IExec w e => SMethod w (Some [mean_expr e]) no_flags no_flags
  end
with mean_new (c : newexp) : stmt :=
  match c with
  | NewName n => SNew n None no_flags
  | NewCall n l => SNew n (Some (mean_args l)) no_flags
  | NewArgs l => SNew [] (Some (mean_args l)) no_flags
  end
with mean_args (l : args) : list stmt :=
  match l with
  | AOne o => [mean_oexpr o]
  | AMore l o => mean_args l ++ [mean_oexpr o]
  end
with mean_oexpr (o : oexpr) : stmt :=
  match o with ONone => SNil | OSome e => mean_expr e end.

(** Expressions allowed as default values: literals, labels and signed expressions. *)
Definition simple (e : expr) : bool :=
  match e with
  | EStr _ | ENum _ | EDate _ | ETrue | EFalse | EUndef | ELabel _ | ENeg _ | EPos _ => true
  | _ => false
  end.

(** * Statements *)
Inductive sep := Semi | Colon.
Inductive loopexp :=                       (* the collection of Для Каждого *)
| LPath (p : path) | LNew (c : newexp) | LParNew (c : newexp) | LTern (c t f : expr).

Inductive cstmt :=
| CAssign (p : path) (e : expr)
| CExpr (e : expr)
| CIf (e : expr) (b : block) (l : elseifs) (c : celse)
| CForEach (v : bytes) (l : loopexp) (b : block)
| CFor (e1 e2 : expr) (b : block)
| CWhile (e : expr) (b : block)
| CTry (b c : block)
| CContinue
| CBreak
| CThrow (o : oexpr)
| CReturn (o : oexpr)
with block :=                              (* statements separated by ; or : -- some may be left out *)
| BNil
| BOne (s : cstmt)
| BSkip (b : block) (x : sep)
| BSnoc (b : block) (x : sep) (s : cstmt)
with elseifs :=                            (* in source order *)
| EINil
| EICons (e : expr) (b : block) (l : elseifs)
with celse := NoElse | Else (b : block).

Definition toks_sep (x : sep) : tk := match x with Semi => Pct ";" | Colon => Pct ":" end.
Definition toks_loopexp (l : loopexp) : list tk :=
  match l with
  | LPath p => toks_path p
  | LNew c => toks_new c
  | LParNew c => Pct "(" :: toks_new c ++ [Pct ")"]
  | LTern c t f => toks_expr (ETern c t f)
  end.
Fixpoint toks_stmt (s : cstmt) : list tk :=
  match s with
  | CAssign p e => toks_path p ++ K tEQUAL :: toks_expr e
  | CExpr e => toks_expr e
  | CIf e b l c => K tIf :: toks_expr e ++ K tThen :: toks_block b ++ toks_elseifs l ++ toks_else c ++ [K tEndIf]
  | CForEach v l b => K tFor :: K tEach :: KId v :: K tIn :: toks_loopexp l ++ K tLoop :: toks_block b ++ [K tEndLoop]
  | CFor e1 e2 b => K tFor :: toks_expr e1 ++ K tTo :: toks_expr e2 ++ K tLoop :: toks_block b ++ [K tEndLoop]
  | CWhile e b => K tWhile :: toks_expr e ++ K tLoop :: toks_block b ++ [K tEndLoop]
  | CTry b c => K tTry :: toks_block b ++ K tCatch :: toks_block c ++ [K tEndTry]
  | CContinue => [K tContinue]
  | CBreak => [K tBreak]
  | CThrow o => K tThrow :: toks_oexpr o
  | CReturn o => K tReturn :: toks_oexpr o
  end
with toks_block (b : block) : list tk :=
  match b with
  | BNil => []
  | BOne s => toks_stmt s
  | BSkip b x => toks_block b ++ [toks_sep x]
  | BSnoc b x s => toks_block b ++ toks_sep x :: toks_stmt s
  end
with toks_elseifs (l : elseifs) : list tk :=
  match l with
  | EINil => []
  | EICons e b l => K tElseIf :: toks_expr e ++ K tThen :: toks_block b ++ toks_elseifs l
  end
with toks_else (c : celse) : list tk :=
  match c with NoElse => [] | Else b => K tElse :: toks_block b end.

Definition mean_loopexp (l : loopexp) : stmt :=
  match l with
  | LPath p => mean_path p
  | LNew c | LParNew c => mean_new c
  | LTern c t f => STern (mean_expr c) (mean_expr t) (mean_expr f)
  end.
(** A block without statements is a nil slice. *)
Definition slice_of (l : list stmt) : slice := match l with [] => None | _ => Some l end.
(** The ElseIf branches come out of the grammar in reverse order (C23). *)
Fixpoint mean_stmt (s : cstmt) : stmt :=
  match s with
  | CAssign p e => SAssign (mean_path p) (Some [mean_expr e]) no_flags
  | CExpr e => mean_expr e
  | CIf e b l c => SIf (mean_expr e) (slice_of (mean_block b)) (Some (rev (mean_elseifs l))) (mean_else c)
  | CForEach v l b => SLoop (SStr v) SNil (mean_loopexp l) SNil (slice_of (mean_block b))
  | CFor e1 e2 b => SLoop (mean_expr e1) (mean_expr e2) SNil SNil (slice_of (mean_block b))
  | CWhile e b => SLoop SNil SNil SNil (mean_expr e) (slice_of (mean_block b))
  | CTry b c => STry (slice_of (mean_block b)) (slice_of (mean_block c))
  | CContinue => SContinue
  | CBreak => SBreak
  | CThrow o => SThrow (mean_oexpr o)
  | CReturn o => SReturn (mean_oexpr o)
  end
with mean_block (b : block) : list stmt :=
  match b with
  | BNil => []
  | BOne s => [mean_stmt s]
  | BSkip b _ => mean_block b
  | BSnoc b _ s => mean_block b ++ [mean_stmt s]
  end
with mean_elseifs (l : elseifs) : list stmt :=
  match l with
  | EINil => []
  | EICons e b l => SIf (mean_expr e) (slice_of (mean_block b)) None None :: mean_elseifs l
  end
with mean_else (c : celse) : slice :=
  match c with NoElse => None | Else b => slice_of (mean_block b) end.

(** * Modules *)
Inductive names := Name (n : bytes) | Names (l : names) (n : bytes).      (* n, ..., n *)
Fixpoint name_list (l : names) : list bytes :=
  match l with Name n => [n] | Names l n => name_list l ++ [n] end.
Fixpoint toks_names (l : names) : list tk :=
  match l with Name n => [KId n] | Names l n => toks_names l ++ [Pct ","; KId n] end.

Inductive cparam :=
| Par (n : bytes)
| ParVal (n : bytes)                                   (* Знач n *)
| ParDef (p : cparam) (e : expr).                      (* p = e, with [simple e] *)
Inductive cparams := PNil | POne (p : cparam) | PSnoc (l : cparams) (p : cparam).
Inductive cvars := VNil | VSnoc (v : cvars) (l : names). (* Перем n, ..., n; *)

Record cfunc := CFunc {
  cf_dir : option bytes; cf_function : bool; cf_name : bytes; cf_params : cparams;
  cf_export : bool; cf_vars : cvars; cf_body : block }.
Inductive item :=
| IVars (dir : option bytes) (l : names) (export : bool)
| IFunc (f : cfunc).
Inductive items := INil | ISnoc (l : items) (i : item).
Record program := Program { pr_items : items; pr_body : block }.

Fixpoint toks_param (p : cparam) : list tk :=
  match p with
  | Par n => [KId n]
  | ParVal n => [K tValueParam; KId n]
  | ParDef p e => toks_param p ++ K tEQUAL :: toks_expr e
  end.
Fixpoint toks_params (l : cparams) : list tk :=
  match l with PNil => [] | POne p => toks_param p | PSnoc l p => toks_params l ++ Pct "," :: toks_param p end.
Fixpoint toks_vars (v : cvars) : list tk :=
  match v with VNil => [] | VSnoc v l => toks_vars v ++ K tVar :: toks_names l ++ [Pct ";"] end.
Definition toks_dir (d : option bytes) : list tk := match d with Some n => [KDir n] | None => [] end.
Definition toks_export (b : bool) : list tk := if b then [K tExport] else [].
Definition toks_func (f : cfunc) : list tk :=
  toks_dir (cf_dir f) ++ K (if cf_function f then tFunction else tProcedure) :: KId (cf_name f) :: Pct "(" ::
  toks_params (cf_params f) ++ Pct ")" :: toks_export (cf_export f) ++ toks_vars (cf_vars f) ++ toks_block (cf_body f) ++
  [K (if cf_function f then tEndFunction else tEndProcedure)].
Definition toks_item (i : item) : list tk :=
  match i with
  | IVars d l x => toks_dir d ++ K tVar :: toks_names l ++ toks_export x ++ [Pct ";"]
  | IFunc f => toks_func f
  end.
Fixpoint toks_items (l : items) : list tk :=
  match l with INil => [] | ISnoc l i => toks_items l ++ toks_item i end.
Definition toks_program (p : program) : list tk := toks_items (pr_items p) ++ toks_block (pr_body p).

(** The last default value counts. *)
Fixpoint mean_param (p : cparam) : param :=
  match p with
  | Par n => (SNil, n, false)
  | ParVal n => (SNil, n, true)
  | ParDef p e => let '(_, n, b) := mean_param p in (mean_expr e, n, b)
  end.
Fixpoint mean_params (l : cparams) : list param :=
  match l with PNil => [] | POne p => [mean_param p] | PSnoc l p => mean_params l ++ [mean_param p] end.
Fixpoint mean_vars (v : cvars) : list bytes :=
  match v with VNil => [] | VSnoc v l => mean_vars v ++ name_list l end.
Definition mean_func_with (body : slice) (f : cfunc) : stmt :=
  SFunc (Some (mean_vars (cf_vars f))) (cf_name f) (match cf_dir f with Some n => n | None => [] end)
        body (mean_params (cf_params f)) (if cf_function f then PFFunction else PFProcedure) (cf_export f).
Definition mean_func (f : cfunc) : stmt := mean_func_with (slice_of (mean_block (cf_body f))) f.
Definition mean_gvars (d : option bytes) (l : names) (x : bool) : list gvar :=
  map (fun n => GVar (match d with Some n => n | None => [] end) n x) (name_list l).
Fixpoint item_gvars (l : items) : list gvar :=
  match l with INil => [] | ISnoc l (IVars d n x) => item_gvars l ++ mean_gvars d n x | ISnoc l (IFunc _) => item_gvars l end.
Fixpoint item_funcs (l : items) : list cfunc :=
  match l with INil => [] | ISnoc l (IVars _ _ _) => item_funcs l | ISnoc l (IFunc f) => item_funcs l ++ [f] end.
Definition mean_program (p : program) : module :=
  Module [] (match item_gvars (pr_items p) with [] => None | l => Some l end)
         (slice_of (map mean_func (item_funcs (pr_items p)) ++ mean_block (pr_body p))).

(** * Rules *)
(** Прервать and Продолжить only inside loops ([l]: inside a loop). *)
Fixpoint breaks_stmt (l : bool) (s : cstmt) : bool :=
  match s with
  | CContinue | CBreak => l
  | CIf _ b e c => breaks_block l b && breaks_elseifs l e && breaks_else l c
  | CForEach _ _ b | CFor _ _ b | CWhile _ b => breaks_block true b
  | CTry b c => breaks_block l b && breaks_block l c
  | _ => true
  end
with breaks_block (l : bool) (b : block) : bool :=
  match b with
  | BNil => true
  | BOne s => breaks_stmt l s
  | BSkip b _ => breaks_block l b
  | BSnoc b _ s => breaks_block l b && breaks_stmt l s
  end
with breaks_elseifs (l : bool) (e : elseifs) : bool :=
  match e with EINil => true | EICons _ b e => breaks_block l b && breaks_elseifs l e end
with breaks_else (l : bool) (c : celse) : bool :=
  match c with NoElse => true | Else b => breaks_block l b end.

(** Contains a Пока loop. *)
Fixpoint while_stmt (s : cstmt) : bool :=
  match s with
  | CIf _ b e c => while_block b || while_elseifs e || while_else c
  | CForEach _ _ b | CFor _ _ b => while_block b
  | CWhile _ _ => true
  | CTry b c => while_block b || while_block c
  | _ => false
  end
with while_block (b : block) : bool :=
  match b with
  | BNil => false
  | BOne s => while_stmt s
  | BSkip b _ => while_block b
  | BSnoc b _ s => while_block b || while_stmt s
  end
with while_elseifs (e : elseifs) : bool :=
  match e with EINil => false | EICons _ b e => while_block b || while_elseifs e end
with while_else (c : celse) : bool :=
  match c with NoElse => false | Else b => while_block b end.

(** The weaker rule that is really enforced: inside a loop or anywhere after the
    beginning of a Пока loop ([l]: inside a loop or after such a beginning). *)
Fixpoint loose_stmt (l : bool) (s : cstmt) : bool :=
  match s with
  | CContinue | CBreak => l
  | CIf _ b e c => loose_block l b && loose_elseifs (l || while_block b) e &&
                   loose_else (l || while_block b || while_elseifs e) c
  | CForEach _ _ b | CFor _ _ b | CWhile _ b => loose_block true b
  | CTry b c => loose_block l b && loose_block (l || while_block b) c
  | _ => true
  end
with loose_block (l : bool) (b : block) : bool :=
  match b with
  | BNil => true
  | BOne s => loose_stmt l s
  | BSkip b _ => loose_block l b
  | BSnoc b _ s => loose_block l b && loose_stmt (l || while_block b) s
  end
with loose_elseifs (l : bool) (e : elseifs) : bool :=
  match e with EINil => true | EICons _ b e => loose_block l b && loose_elseifs (l || while_block b) e end
with loose_else (l : bool) (c : celse) : bool :=
  match c with NoElse => true | Else b => loose_block l b end.

(** ВызватьИсключение without a value only in handlers ([h]: inside a handler). *)
Fixpoint throws_stmt (h : bool) (s : cstmt) : bool :=
  match s with
  | CThrow ONone => h
  | CIf _ b e c => throws_block h b && throws_elseifs h e && throws_else h c
  | CForEach _ _ b | CFor _ _ b | CWhile _ b => throws_block h b
  | CTry b c => throws_block h b && throws_block true c
  | _ => true
  end
with throws_block (h : bool) (b : block) : bool :=
  match b with
  | BNil => true
  | BOne s => throws_stmt h s
  | BSkip b _ => throws_block h b
  | BSnoc b _ s => throws_block h b && throws_stmt h s
  end
with throws_elseifs (h : bool) (e : elseifs) : bool :=
  match e with EINil => true | EICons _ b e => throws_block h b && throws_elseifs h e end
with throws_else (h : bool) (c : celse) : bool :=
  match c with NoElse => true | Else b => throws_block h b end.

(** Возврат with a value only in functions ([f]: inside a function). *)
Fixpoint returns_stmt (f : bool) (s : cstmt) : bool :=
  match s with
  | CReturn (OSome _) => f
  | CIf _ b e c => returns_block f b && returns_elseifs f e && returns_else f c
  | CForEach _ _ b | CFor _ _ b | CWhile _ b => returns_block f b
  | CTry b c => returns_block f b && returns_block f c
  | _ => true
  end
with returns_block (f : bool) (b : block) : bool :=
  match b with
  | BNil => true
  | BOne s => returns_stmt f s
  | BSkip b _ => returns_block f b
  | BSnoc b _ s => returns_block f b && returns_stmt f s
  end
with returns_elseifs (f : bool) (e : elseifs) : bool :=
  match e with EINil => true | EICons _ b e => returns_block f b && returns_elseifs f e end
with returns_else (f : bool) (c : celse) : bool :=
  match c with NoElse => true | Else b => returns_block f b end.

(** A colon only after a label or at the beginning of a block. *)
Definition colon_ok (x : sep) (before : list stmt) : bool :=
  match x, before with
  | Semi, _ | Colon, [] => true
  | Colon, _ => match last before SNil with SLabel _ => true | _ => false end
  end.
Fixpoint colons_stmt (s : cstmt) : bool :=
  match s with
  | CIf _ b e c => colons_block b && colons_elseifs e && colons_else c
  | CForEach _ _ b | CFor _ _ b | CWhile _ b => colons_block b
  | CTry b c => colons_block b && colons_block c
  | _ => true
  end
with colons_block (b : block) : bool :=
  match b with
  | BNil => true
  | BOne s => colons_stmt s
  | BSkip b x => colons_block b && colon_ok x (mean_block b)
  | BSnoc b x s => colons_block b && colon_ok x (mean_block b) && colons_stmt s
  end
with colons_elseifs (e : elseifs) : bool :=
  match e with EINil => true | EICons _ b e => colons_block b && colons_elseifs e end
with colons_else (c : celse) : bool :=
  match c with NoElse => true | Else b => colons_block b end.

(** No block starts with a separator. *)
Fixpoint starts_sep (b : block) : bool :=
  match b with
  | BNil | BOne _ => false
  | BSkip BNil _ | BSnoc BNil _ _ => true
  | BSkip b _ | BSnoc b _ _ => starts_sep b
  end.
Fixpoint clean_stmt (s : cstmt) : bool :=
  match s with
  | CIf _ b e c => clean_block b && clean_elseifs e && clean_else c
  | CForEach _ _ b | CFor _ _ b | CWhile _ b => clean_block b
  | CTry b c => clean_block b && clean_block c
  | _ => true
  end
with clean_block (b : block) : bool :=
  match b with
  | BNil => true
  | BOne s => clean_stmt s
  | BSkip b x => match b with BNil => false | _ => clean_block b end
  | BSnoc b x s => match b with BNil => false | _ => clean_block b && clean_stmt s end
  end
with clean_elseifs (e : elseifs) : bool :=
  match e with EINil => true | EICons _ b e => clean_block b && clean_elseifs e end
with clean_else (c : celse) : bool :=
  match c with NoElse => true | Else b => clean_block b end.

(** ** Whole programs *)
Fixpoint simple_param (p : cparam) : bool :=
  match p with Par _ | ParVal _ => true | ParDef p e => simple_param p && simple e end.
Fixpoint simple_params (l : cparams) : bool :=
  match l with
  | PNil => true
  | POne p => simple_param p
  | PSnoc l p => simple_params l && simple_param p
  end.
(** Default values are literals, labels or signed expressions. *)
Definition defaults_ok (p : program) : bool :=
  forallb (fun f => simple_params (cf_params f)) (item_funcs (pr_items p)).

Definition each_body (P : cfunc -> bool) (Q : block -> bool) (p : program) : bool :=
  forallb P (item_funcs (pr_items p)) && Q (pr_body p).
Definition breaks_ok : program -> bool := each_body (fun f => breaks_block false (cf_body f)) (breaks_block false).
Definition throws_ok : program -> bool := each_body (fun f => throws_block false (cf_body f)) (throws_block false).
Definition returns_ok : program -> bool := each_body (fun f => returns_block (cf_function f) (cf_body f)) (returns_block false).
Definition colons_ok : program -> bool := each_body (fun f => colons_block (cf_body f)) colons_block.
Definition clean : program -> bool := each_body (fun f => clean_block (cf_body f)) clean_block.
(** As [loose_block], through the procedures and functions of the module in order. *)
Fixpoint while_funcs (l : list cfunc) : bool :=
  match l with [] => false | f :: l => while_block (cf_body f) || while_funcs l end.
Fixpoint loose_funcs (w : bool) (l : list cfunc) : bool :=
  match l with [] => true | f :: l => loose_block w (cf_body f) && loose_funcs (w || while_block (cf_body f)) l end.
Definition loose_ok (p : program) : bool :=
  loose_funcs false (item_funcs (pr_items p)) && loose_block (while_funcs (item_funcs (pr_items p))) (pr_body p).
Definition no_while (p : program) : bool :=
  negb (while_funcs (item_funcs (pr_items p))) && negb (while_block (pr_body p)).

(** Declared once. *)
Definition vars_once (p : program) : Prop :=
  Forall (fun f => NoDup (mean_vars (cf_vars f))) (item_funcs (pr_items p)) /\
  NoDup (map gv_name (item_gvars (pr_items p))).
(** No declaration of global variables after a procedure or function. *)
Fixpoint layout_ok (l : items) : bool :=
  match l with
  | INil => true
  | ISnoc l (IVars _ _ _) => layout_ok l && match item_funcs l with [] => true | _ => false end
  | ISnoc l (IFunc _) => layout_ok l
  end.
