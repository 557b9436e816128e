(** The shape of the trees a client of the parser has to handle: which kinds of nodes
    stand in which fields, with which marks, and how their leaves look.  It follows the
    types of ast_struct.go and says what their interface{} fields hold.  Specification. *)
From Verif Require Import Bytes Utf8 Float64 GoTime Ast LexSpec NumSpec.

(** A name: a letter followed by letters and digits, in UTF-8. *)
Definition name (n : bytes) : Prop := exists w, is_word w /\ n = string_of_runes w.
(** The name of a label: letters and digits, perhaps none. *)
Definition label_name (n : bytes) : Prop := exists w, Forall word_char w /\ n = string_of_runes w.
(** A directive as written, with its &, or none. *)
Definition directive (d : bytes) : Prop :=
  d = [] \/ exists w x, d = B "&" ++ string_of_runes w /\ In x directive_words /\ same_word w (runes x).
(** The value of a string literal. *)
Definition string_value (s : bytes) : Prop := exists v, str_body v /\ s = string_of_runes v.
(** A finite float64 of either sign. *)
Definition number (f : f64) : Prop := is_f64 (F64 false (f_man f) (f_exp f)).

(** * Expressions *)
(** [expr]: a value.  [part]: one element of a dotted name; [path]: a dotted name.  They
    carry no marks inside an expression; marks are on the outermost node. *)
Inductive expr : stmt -> Prop :=
| ex_string s : string_value s -> expr (SStr s)
| ex_number f : number f -> expr (SNum f)
| ex_bool b : expr (SBool b)
| ex_date t : calendar_date t -> expr (STime t)
| ex_undefined : expr SUndef
| ex_var n minus neg : name n -> expr (SVar n (Flags minus false neg))
| ex_call n l neg : name n -> l <> [] -> Forall (fun x => x = SNil \/ expr x) l ->
    expr (SMethod n (Some l) no_flags (Flags false false neg))
| ex_item i o : expr i -> part o -> expr (SItem i o)
| ex_chain u c minus neg : part u -> path c -> expr (SChain u c (Flags minus false neg))
| ex_new n : name n -> expr (SNew n None no_flags)
| ex_new_call n l : n = [] \/ name n -> l <> [] -> Forall (fun x => x = SNil \/ expr x) l ->
    expr (SNew n (Some l) no_flags)
| ex_ternary e t f : expr e -> expr t -> expr f -> expr (STern e t f)
| ex_operation o l r minus neg : o <> OpUndefined -> expr l -> expr r -> expr (SExp o l r (Flags minus false neg))
| ex_group l neg : l <> [] -> Forall (fun x => x = SNil \/ expr x) l -> expr (SExprs (Some l) (Flags false false neg))
| ex_goto n : label_name n -> expr (SGoTo (Some n))
| ex_label n : label_name n -> expr (SLabel n)
with part : stmt -> Prop :=
| pt_var n : name n -> part (SVar n no_flags)
| pt_call n l : name n -> l <> [] -> Forall (fun x => x = SNil \/ expr x) l ->
    part (SMethod n (Some l) no_flags no_flags)
| pt_item i o : expr i -> part o -> part (SItem i o)
with path : stmt -> Prop :=
| pa_part s : part s -> path s
| pa_chain u c : part u -> path c -> path (SChain u c no_flags).

(** What a for-each loop runs over. *)
Definition iterable (s : stmt) : Prop :=
  expr s /\ match s with
            | SVar _ fl | SMethod _ _ _ fl | SChain _ _ fl => fl = no_flags
            | SItem _ _ | SNew _ _ _ | STern _ _ _ => True
            | _ => False
            end.

(** * Statements *)
(** [branch]: an element of IfElseBlock. *)
Inductive statement : stmt -> Prop :=
| st_expr e : expr e -> statement e
| st_assign v e : path v -> expr e -> statement (SAssign v (Some [e]) no_flags)
| st_if e b l c : expr e -> Forall statement (elems b) -> Forall branch (elems l) -> Forall statement (elems c) ->
    statement (SIf e b l c)
| st_for_each w i b : name w -> iterable i -> Forall statement (elems b) -> statement (SLoop (SStr w) SNil i SNil b)
| st_for e t b : expr e -> expr t -> Forall statement (elems b) -> statement (SLoop e t SNil SNil b)
| st_while e b : expr e -> Forall statement (elems b) -> statement (SLoop SNil SNil SNil e b)
| st_try b c : Forall statement (elems b) -> Forall statement (elems c) -> statement (STry b c)
| st_throw e : e = SNil \/ expr e -> statement (SThrow e)
| st_return e : e = SNil \/ expr e -> statement (SReturn e)
| st_break : statement SBreak
| st_continue : statement SContinue
with branch : stmt -> Prop :=
| br_else_if e b : expr e -> Forall statement (elems b) -> branch (SIf e b None None).

(** * Procedures, functions, modules *)
Definition parameter (p : param) : Prop :=
  match p with (default, n, _) => (default = SNil \/ expr default) /\ name n end.
(** The keys of the map of local variables. *)
Definition variables (l : list bytes) : Prop := NoDup l /\ Forall name l.
Inductive procedure : stmt -> Prop :=
| proc_intro vars n d b ps ty ex : variables (elems vars) -> name n -> directive d -> Forall statement (elems b) ->
    Forall parameter ps -> ty <> PFUndefined -> procedure (SFunc vars n d b ps ty ex).

(** Procedures and functions come first. *)
Definition shape (m : module) : Prop :=
  m_name m = [] /\
  NoDup (map gv_name (elems (m_gvars m))) /\
  Forall (fun g => name (gv_name g) /\ directive (gv_dir g)) (elems (m_gvars m)) /\
  exists fs ss, elems (m_body m) = fs ++ ss /\ Forall procedure fs /\ Forall statement ss.
