(** The parse tree of a program, and: every parse tree is the tree of a program. *)
From Verif Require Import Bytes Utf8 Float64 GoTime Ast Lexer LexFacts LexSpec LexProofs Tables Parser Grammar Tok CertData Cert Driver DriverInv Trees Syntax.

Definition lf (c : Z) : tree := Leaf (K c).
Definition pct (s : lit) : tree := Leaf (Pct s).
Arguments pct s%lit_scope.
Definition comma : tree := Node 111 [pct ","].
Definition semi : tree := Node 109 [pct ";"].
Definition label (n : bytes) : tree := Node 106 [Leaf (KLabel n)].

Definition bop_rule (o : bop) : Z :=
  match o with
  | BPlus => 66 | BMinus => 67 | BMul => 68 | BDiv => 69 | BMod => 70 | BGt => 71 | BLt => 72
  | BEq => 73 | BOr => 74 | BAnd => 75 | BNe => 76 | BLe => 77 | BGe => 78
  end.

Fixpoint t_expr (e : expr) : tree :=
  match e with
  | EStr s => Node 64 [Node 88 [Leaf (KStr s)]]
  | ENum f => Node 64 [Node 89 [Leaf (KNum f)]]
  | ENeg e => Node 64 [Node 90 [pct "-"; t_expr e]]
  | EPos e => Node 64 [Node 91 [pct "+"; t_expr e]]
  | ETrue => Node 64 [Node 92 [lf tTrue]]
  | EFalse => Node 64 [Node 93 [lf tFalse]]
  | EDate d => Node 64 [Node 94 [Leaf (KDate d)]]
  | EUndef => Node 64 [Node 95 [lf tUndefind]]
  | ELabel n => Node 64 [Node 96 [label n]]
  | EParen l => Node 65 [pct "("; t_args l; pct ")"]
  | EBin o l r => Node (bop_rule o) [t_expr l; lf (bop_tok o); t_expr r]
  | ENot e => Node 79 [lf tNot; t_expr e]
  | ENew c => Node 80 [t_new c]
  | EGoto n => Node 81 [lf tGoTo; label n]
  | ETern c t f => Node 82 [Node 33 [pct "?"; pct "("; t_expr c; comma; t_expr t; comma; t_expr f; pct ")"]]
  | EPath p => Node 83 [t_path p]
  end
with t_path (p : path) : tree :=
  match p with
  | PId i => Node 53 [t_ident i]
  | PDot p i => Node 54 [t_path p; Node 112 [pct "."]; t_ident i]
  end
with t_ident (i : ident) : tree :=
  match i with
  | IVar n => Node 55 [Leaf (KId n)]
  | ICall n l => Node 56 [Leaf (KId n); pct "("; t_args l; pct ")"]
  | IIndex i e => Node 57 [t_ident i; pct "["; t_expr e; pct "]"]
  | IExecStr w s => Node 58 [Leaf (KExec w); Node 60 [Leaf (KStr s)]]
  | IExecVar w n => Node 58 [Leaf (KExec w); Node 61 [Leaf (KId n)]]
  | IExec w e => Node 59 [Leaf (KExec w); pct "("; t_expr e; pct ")"]
  end
with t_new (c : newexp) : tree :=
  match c with
  | NewName n => Node 103 [lf tNew; Leaf (KId n)]
  | NewCall n l => Node 104 [lf tNew; Leaf (KId n); pct "("; t_args l; pct ")"]
  | NewArgs l => Node 105 [lf tNew; pct "("; t_args l; pct ")"]
  end
with t_args (l : args) : tree :=
  match l with
  | AOne o => Node 86 [t_oexpr o]
  | AMore l o => Node 87 [t_args l; comma; t_oexpr o]
  end
with t_oexpr (o : oexpr) : tree :=
  match o with ONone => Node 84 [] | OSome e => Node 85 [t_expr e] end.

(** The child of a one-child node. *)
Definition child (t : tree) : tree := match t with Node _ [x] => x | _ => t end.
Definition t_simple (e : expr) : tree := child (t_expr e).
Definition t_tern (c t f : expr) : tree := child (t_expr (ETern c t f)).

Definition t_sep (x : sep) : tree :=
  match x with Semi => Node 22 [semi] | Colon => Node 23 [Node 110 [pct ":"]] end.
Definition t_loopexp (l : loopexp) : tree :=
  match l with
  | LPath p => Node 40 [t_path p]
  | LNew c => Node 41 [t_new c]
  | LParNew c => Node 42 [pct "("; t_new c; pct ")"]
  | LTern c t f => Node 43 [t_tern c t f]
  end.

Fixpoint t_stmt (s : cstmt) : tree :=
  match s with
  | CAssign p e => Node 44 [t_path p; lf tEQUAL; t_expr e]
  | CExpr e => Node 45 [t_expr e]
  | CIf e b l c => Node 46 [Node 28 [lf tIf; t_expr e; lf tThen; t_block b; t_elseifs l; t_else c; lf tEndIf]]
  | CForEach v l b => Node 47 [Node 35 [lf tFor; lf tEach; Leaf (KId v); lf tIn; t_loopexp l; lf tLoop; Node 34 []; t_block b; lf tEndLoop]]
  | CFor e1 e2 b => Node 47 [Node 37 [lf tFor; t_expr e1; lf tTo; t_expr e2; lf tLoop; Node 36 []; t_block b; lf tEndLoop]]
  | CWhile e b => Node 47 [Node 39 [lf tWhile; t_expr e; lf tLoop; Node 38 []; t_block b; lf tEndLoop]]
  | CTry b c => Node 48 [Node 63 [lf tTry; t_block b; lf tCatch; Node 62 []; t_block c; lf tEndTry]]
  | CContinue => Node 49 [lf tContinue]
  | CBreak => Node 50 [lf tBreak]
  | CThrow o => Node 51 [lf tThrow; t_oexpr o]
  | CReturn o => Node 52 [lf tReturn; t_oexpr o]
  end
with t_block (b : block) : tree :=
  match b with
  | BNil => Node 16 []
  | BOne s => Node 17 [Node 18 [t_stmt s]]
  | BSkip b x => Node 17 [Node 19 [t_block b; t_sep x; Node 20 []]]
  | BSnoc b x s => Node 17 [Node 19 [t_block b; t_sep x; Node 21 [t_stmt s]]]
  end
with t_elseifs (l : elseifs) : tree :=
  match l with
  | EINil => Node 29 []
  | EICons e b l => Node 30 [lf tElseIf; t_expr e; lf tThen; t_block b; t_elseifs l]
  end
with t_else (c : celse) : tree :=
  match c with NoElse => Node 31 [] | Else b => Node 32 [lf tElse; t_block b] end.

Fixpoint t_names (l : names) : tree :=
  match l with
  | Name n => Node 107 [Leaf (KId n)]
  | Names l n => Node 108 [t_names l; comma; Leaf (KId n)]
  end.
Fixpoint t_param (p : cparam) : tree :=
  match p with
  | Par n => Node 97 [Leaf (KId n)]
  | ParVal n => Node 98 [lf tValueParam; Leaf (KId n)]
  | ParDef p e => Node 99 [t_param p; lf tEQUAL; t_simple e]
  end.
Fixpoint t_params (l : cparams) : tree :=
  match l with
  | PNil => Node 100 []
  | POne p => Node 101 [t_param p]
  | PSnoc l p => Node 102 [t_params l; comma; t_param p]
  end.
Fixpoint t_vars (v : cvars) : tree :=
  match v with
  | VNil => Node 24 []
  | VSnoc VNil l => Node 25 [Node 26 [lf tVar; t_names l; semi]]
  | VSnoc v l => Node 25 [Node 27 [child (t_vars v); lf tVar; t_names l; semi]]
  end.
Definition t_dir (d : option bytes) : tree := match d with None => Node 8 [] | Some n => Node 9 [Leaf (KDir n)] end.
Definition t_export (b : bool) : tree := if b then Node 11 [lf tExport] else Node 10 [].
Definition t_func (f : cfunc) : tree :=
  if cf_function f then
    Node 14 [t_dir (cf_dir f); lf tFunction; Leaf (KId (cf_name f)); pct "("; t_params (cf_params f); pct ")";
             t_export (cf_export f); Node 13 []; t_vars (cf_vars f); t_block (cf_body f); lf tEndFunction]
  else
    Node 15 [t_dir (cf_dir f); lf tProcedure; Leaf (KId (cf_name f)); pct "("; t_params (cf_params f); pct ")";
             t_export (cf_export f); t_vars (cf_vars f); t_block (cf_body f); lf tEndProcedure].
Definition t_item (i : item) : tree :=
  match i with
  | IVars d l x => Node 6 [Node 12 [t_dir d; lf tVar; t_names l; t_export x; semi]]
  | IFunc f => Node 7 [t_func f]
  end.
Fixpoint t_items (l : items) : tree :=
  match l with
  | INil => Node 4 []                     (* not a tree of the grammar *)
  | ISnoc INil i => Node 4 [t_item i]
  | ISnoc l i => Node 5 [t_items l; t_item i]
  end.
Definition t_program (p : program) : tree :=
  match pr_items p, pr_body p with
  | INil, BNil => Node 1 []
  | INil, b => Node 2 [child (t_block b)]
  | l, b => Node 3 [t_items l; t_block b]
  end.

(** * Every tree is the tree of a program *)
Definition repr (n : nonterm) (t : tree) : Prop :=
  match n with
  | n_body => exists b, b <> BNil /\ t = child (t_block b)
  | n_opt_body => exists b, t = t_block b
  | n_stmt => exists s, t = t_stmt s
  | n_stmt_loop => exists s, Node 47 [t] = t_stmt s
  | n_stmt_if => exists s, Node 46 [t] = t_stmt s
  | n_stmt_tryCatch => exists s, Node 48 [t] = t_stmt s
  | n_funcProc => exists f, simple_params (cf_params f) = true /\ t = t_func f
  | n_opt_elseif_list => exists l, t = t_elseifs l
  | n_opt_else => exists c, t = t_else c
  | n_opt_stmt => t = Node 20 [] \/ exists s, t = Node 21 [t_stmt s]
  | n_exprs => exists l, t = t_args l
  | n_expr => exists e, t = t_expr e
  | n_opt_export => exists b, t = t_export b
  | n_opt_directive => exists d, t = t_dir d
  | n_simple_expr => exists e, simple e = true /\ t = t_simple e
  | n_declarations_method_params => exists l, simple_params l = true /\ t = t_params l
  | n_declarations_method_param => exists p, simple_param p = true /\ t = t_param p
  | n_opt_expr => exists o, t = t_oexpr o
  | n_execute_param => (exists s, t = Node 60 [Leaf (KStr s)]) \/ (exists n, t = Node 61 [Leaf (KId n)])
  | n_through_dot => exists p, t = t_path p
  | n_loopExp => exists l, t = t_loopexp l
  | n_new_object => exists c, t = t_new c
  | n_ternary => exists c x f, t = t_tern c x f
  | n_opt_explicit_variables => exists v, t = t_vars v
  | n_explicit_variables => exists v, v <> VNil /\ t = child (t_vars v)
  | n_identifiers => exists l, t = t_names l
  | n_identifier => exists i, t = t_ident i
  | n_goToLabel => exists n, t = label n
  | n_separator => exists x, t = t_sep x
  | n_semicolon => t = semi
  | n_colon => t = Node 110 [pct ":"]
  | n_global_variables => exists d l x, Node 6 [t] = t_item (IVars d l x)
  | n_comma => t = comma
  | n_module => exists p, defaults_ok p = true /\ t = t_program p
  | n_main_items => exists l, l <> INil /\ forallb (fun f => simple_params (cf_params f)) (item_funcs l) = true /\ t = t_items l
  | n_main => exists i, match i with IFunc f => simple_params (cf_params f) = true | _ => True end /\ t = t_item i
  | n_mid_function => t = Node 13 []
  | n_mid_for_each => t = Node 34 []
  | n_mid_for => t = Node 36 []
  | n_mid_while => t = Node 38 []
  | n_dot => t = Node 112 [pct "."]
  | n_mid_catch => t = Node 62 []
  end.

Lemma leaf_payload k : tk_wf k ->
  (kind_of k = tIdent -> exists n, k = KId n) /\ (kind_of k = tExecute -> exists n, k = KExec n) /\
  (kind_of k = tDirective -> exists n, k = KDir n) /\ (kind_of k = tGoToLabel -> exists n, k = KLabel n) /\
  (kind_of k = tString -> exists n, k = KStr n) /\ (kind_of k = tNumber -> exists n, k = KNum n) /\
  (kind_of k = tDate -> exists n, k = KDate n) /\ (~ In (kind_of k) payload -> k = K (kind_of k)).
Proof.
  intros [_ H]. destruct k as [c|x|x|x|x|x|x|x]; cbn [kind_of];
  repeat apply conj; intros E; try discriminate E; try solve [eexists; reflexivity]; try reflexivity;
  try (exfalso; apply H; rewrite E; unfold payload; cbn; tauto); exfalso; apply E; unfold payload; cbn; tauto.
Qed.

Definition sym_repr (x : sym) (t : tree) : Prop :=
  match x with
  | N n => repr n t
  | T c => exists k, t = Leaf k /\ kind_of k = c /\ tk_wf k
  end.

(** One level: if the children are represented, so is the node. *)
Definition closed (r : Z) : Prop :=
  forall ch, Forall2 sym_repr (rhs r) ch -> repr (lhs r) (Node r ch).

Lemma f2_cons {A B} (R : A -> B -> Prop) x l l' : Forall2 R (x :: l) l' -> exists y l2, l' = y :: l2 /\ R x y /\ Forall2 R l l2.
Proof. inversion 1; subst; eauto. Qed.
Lemma f2_nil {A B} (R : A -> B -> Prop) l' : Forall2 R [] l' -> l' = [].
Proof. inversion 1. reflexivity. Qed.
Ltac kids :=
  repeat match goal with
  | H : Forall2 _ (_ :: _) _ |- _ => apply f2_cons in H; destruct H as (? & ? & -> & ? & H)
  | H : Forall2 _ [] _ |- _ => apply f2_nil in H; subst
  end.
Ltac leaf_of k H E :=
  first
  [ destruct (proj1 (leaf_payload k H) E) as [? ->]
  | destruct (proj1 (proj2 (leaf_payload k H)) E) as [? ->]
  | destruct (proj1 (proj2 (proj2 (leaf_payload k H))) E) as [? ->]
  | destruct (proj1 (proj2 (proj2 (proj2 (leaf_payload k H)))) E) as [? ->]
  | destruct (proj1 (proj2 (proj2 (proj2 (proj2 (leaf_payload k H))))) E) as [? ->]
  | destruct (proj1 (proj2 (proj2 (proj2 (proj2 (proj2 (leaf_payload k H)))))) E) as [? ->]
  | destruct (proj1 (proj2 (proj2 (proj2 (proj2 (proj2 (proj2 (leaf_payload k H))))))) E) as [? ->]
  | let Q := fresh in
    assert (Q : k = K (kind_of k)) by (apply leaf_payload; [exact H | rewrite E; vm_compute; intuition discriminate]);
    rewrite E in Q; subst k ]; clear H; try clear E.
Ltac leaves :=
  repeat match goal with
  | H : sym_repr (T _) _ |- _ => cbn [sym_repr] in H; let k := fresh "k" in let E := fresh "E" in let W := fresh "W" in
      destruct H as (k & -> & E & W); leaf_of k W E
  | H : sym_repr (N _) _ |- _ => cbn [sym_repr repr] in H
  end.
Ltac unpack :=
  repeat match goal with
  | H : exists _, _ |- _ => destruct H
  | H : _ /\ _ |- _ => destruct H
  | H : _ \/ _ |- _ => destruct H
  | H : ?x = _ |- _ => is_var x; subst x
  end.
Ltac start r :=
  let ch := fresh "ch" in let H := fresh "H" in
  intros ch H;
  let w := eval vm_compute in (rhs r) in change (rhs r) with w in H;
  let n := eval vm_compute in (lhs r) in change (lhs r) with n; cbn [repr];
  kids; leaves; unpack.

Lemma all_closed r : prodno r -> closed r.
Proof.
  intros Hr. unfold closed. all_prods r Hr; match goal with |- forall _, Forall2 _ (rhs ?r) _ -> _ => start r end.
  all: try reflexivity.
  all: try match goal with
  | |- exists e, Node 66 [t_expr ?a; _; t_expr ?b] = _ => exists (EBin BPlus a b); reflexivity
  | |- exists e, Node 67 [t_expr ?a; _; t_expr ?b] = _ => exists (EBin BMinus a b); reflexivity
  | |- exists e, Node 68 [t_expr ?a; _; t_expr ?b] = _ => exists (EBin BMul a b); reflexivity
  | |- exists e, Node 69 [t_expr ?a; _; t_expr ?b] = _ => exists (EBin BDiv a b); reflexivity
  | |- exists e, Node 70 [t_expr ?a; _; t_expr ?b] = _ => exists (EBin BMod a b); reflexivity
  | |- exists e, Node 71 [t_expr ?a; _; t_expr ?b] = _ => exists (EBin BGt a b); reflexivity
  | |- exists e, Node 72 [t_expr ?a; _; t_expr ?b] = _ => exists (EBin BLt a b); reflexivity
  | |- exists e, Node 73 [t_expr ?a; _; t_expr ?b] = _ => exists (EBin BEq a b); reflexivity
  | |- exists e, Node 74 [t_expr ?a; _; t_expr ?b] = _ => exists (EBin BOr a b); reflexivity
  | |- exists e, Node 75 [t_expr ?a; _; t_expr ?b] = _ => exists (EBin BAnd a b); reflexivity
  | |- exists e, Node 76 [t_expr ?a; _; t_expr ?b] = _ => exists (EBin BNe a b); reflexivity
  | |- exists e, Node 77 [t_expr ?a; _; t_expr ?b] = _ => exists (EBin BLe a b); reflexivity
  | |- exists e, Node 78 [t_expr ?a; _; t_expr ?b] = _ => exists (EBin BGe a b); reflexivity
  | |- exists e, Node 65 [_; t_args ?l; _] = _ => exists (EParen l); reflexivity
  | |- exists e, Node 79 [_; t_expr ?a] = _ => exists (ENot a); reflexivity
  | |- exists e, Node 80 [t_new ?c] = _ => exists (ENew c); reflexivity
  | |- exists e, Node 81 [_; label ?c] = _ => exists (EGoto c); reflexivity
  | |- exists e, Node 82 [t_tern ?a ?b ?c] = _ => exists (ETern a b c); reflexivity
  | |- exists e, Node 83 [t_path ?c] = _ => exists (EPath c); reflexivity
  | |- exists o, Node 84 [] = _ => exists ONone; reflexivity
  | |- exists o, Node 85 [t_expr ?e] = _ => exists (OSome e); reflexivity
  | |- exists o, Node 86 [t_oexpr ?e] = _ => exists (AOne e); reflexivity
  | |- exists o, Node 87 [t_args ?l; _; t_oexpr ?e] = _ => exists (AMore l e); reflexivity
  | |- exists e, simple e = true /\ Node 88 [Leaf (KStr ?s)] = _ => exists (EStr s); split; reflexivity
  | |- exists e, simple e = true /\ Node 89 [Leaf (KNum ?s)] = _ => exists (ENum s); split; reflexivity
  | |- exists e, simple e = true /\ Node 90 [_; t_expr ?s] = _ => exists (ENeg s); split; reflexivity
  | |- exists e, simple e = true /\ Node 91 [_; t_expr ?s] = _ => exists (EPos s); split; reflexivity
  | |- exists e, simple e = true /\ Node 92 _ = _ => exists ETrue; split; reflexivity
  | |- exists e, simple e = true /\ Node 93 _ = _ => exists EFalse; split; reflexivity
  | |- exists e, simple e = true /\ Node 94 [Leaf (KDate ?s)] = _ => exists (EDate s); split; reflexivity
  | |- exists e, simple e = true /\ Node 95 _ = _ => exists EUndef; split; reflexivity
  | |- exists e, simple e = true /\ Node 96 [label ?s] = _ => exists (ELabel s); split; reflexivity
  | |- exists e, Node 103 [_; Leaf (KId ?n)] = _ => exists (NewName n); reflexivity
  | |- exists e, Node 104 [_; Leaf (KId ?n); _; t_args ?l; _] = _ => exists (NewCall n l); reflexivity
  | |- exists e, Node 105 [_; _; t_args ?l; _] = _ => exists (NewArgs l); reflexivity
  | |- exists e, Node 106 [Leaf (KLabel ?n)] = _ => exists n; reflexivity
  | |- exists e, Node 107 [Leaf (KId ?n)] = _ => exists (Name n); reflexivity
  | |- exists e, Node 108 [t_names ?l; _; Leaf (KId ?n)] = _ => exists (Names l n); reflexivity
  | |- exists e, Node 53 [t_ident ?i] = _ => exists (PId i); reflexivity
  | |- exists e, Node 54 [t_path ?p; _; t_ident ?i] = _ => exists (PDot p i); reflexivity
  | |- exists e, Node 55 [Leaf (KId ?n)] = _ => exists (IVar n); reflexivity
  | |- exists e, Node 56 [Leaf (KId ?n); _; t_args ?l; _] = _ => exists (ICall n l); reflexivity
  | |- exists e, Node 57 [t_ident ?i; _; t_expr ?l; _] = _ => exists (IIndex i l); reflexivity
  | |- exists e, Node 58 [Leaf (KExec ?w); Node 60 [Leaf (KStr ?s)]] = _ => exists (IExecStr w s); reflexivity
  | |- exists e, Node 58 [Leaf (KExec ?w); Node 61 [Leaf (KId ?s)]] = _ => exists (IExecVar w s); reflexivity
  | |- exists e, Node 59 [Leaf (KExec ?w); _; t_expr ?e; _] = _ => exists (IExec w e); reflexivity
  | |- (exists s, Node 60 _ = _) \/ _ => left; eexists; reflexivity
  | |- _ \/ (exists s, Node 61 _ = _) => right; eexists; reflexivity
  | |- exists c x f, Node 33 [_; _; t_expr ?a; _; t_expr ?b; _; t_expr ?d; _] = _ => exists a, b, d; reflexivity
  | |- exists l, Node 40 [t_path ?p] = _ => exists (LPath p); reflexivity
  | |- exists l, Node 41 [t_new ?p] = _ => exists (LNew p); reflexivity
  | |- exists l, Node 42 [_; t_new ?p; _] = _ => exists (LParNew p); reflexivity
  | |- exists l, Node 43 [t_tern ?a ?b ?c] = _ => exists (LTern a b c); reflexivity
  | |- exists s, Node 44 [t_path ?p; _; t_expr ?e] = _ => exists (CAssign p e); reflexivity
  | |- exists s, Node 45 [t_expr ?e] = _ => exists (CExpr e); reflexivity
  | |- exists s, Node 49 _ = _ => exists CContinue; reflexivity
  | |- exists s, Node 50 _ = _ => exists CBreak; reflexivity
  | |- exists s, Node 51 [_; t_oexpr ?e] = _ => exists (CThrow e); reflexivity
  | |- exists s, Node 52 [_; t_oexpr ?e] = _ => exists (CReturn e); reflexivity
  | |- exists s, Node 46 [Node 28 [_; t_expr ?e; _; t_block ?b; t_elseifs ?l; t_else ?c; _]] = _ => exists (CIf e b l c); reflexivity
  | |- exists s, Node 47 [Node 35 [_; _; Leaf (KId ?v); _; t_loopexp ?l; _; _; t_block ?b; _]] = _ => exists (CForEach v l b); reflexivity
  | |- exists s, Node 47 [Node 37 [_; t_expr ?e; _; t_expr ?f; _; _; t_block ?b; _]] = _ => exists (CFor e f b); reflexivity
  | |- exists s, Node 47 [Node 39 [_; t_expr ?e; _; _; t_block ?b; _]] = _ => exists (CWhile e b); reflexivity
  | |- exists s, Node 48 [Node 63 [_; t_block ?b; _; _; t_block ?c; _]] = _ => exists (CTry b c); reflexivity
  | |- exists c, Node 29 _ = _ => exists EINil; reflexivity
  | |- exists c, Node 30 [_; t_expr ?e; _; t_block ?b; t_elseifs ?l] = _ => exists (EICons e b l); reflexivity
  | |- exists c, Node 31 _ = _ => exists NoElse; reflexivity
  | |- exists c, Node 32 [_; t_block ?b] = _ => exists (Else b); reflexivity
  | |- exists b, Node 16 _ = _ => exists BNil; reflexivity
  | |- exists b, b <> BNil /\ Node 18 [t_stmt ?s] = _ => exists (BOne s); split; [discriminate | reflexivity]
  | |- exists b, b <> BNil /\ Node 19 [t_block ?b; t_sep ?x; Node 20 _] = _ => exists (BSkip b x); split; [discriminate | reflexivity]
  | |- exists b, b <> BNil /\ Node 19 [t_block ?b; t_sep ?x; Node 21 [t_stmt ?s]] = _ => exists (BSnoc b x s); split; [discriminate | reflexivity]
  | |- Node 20 _ = _ \/ _ => left; reflexivity
  | |- Node 21 _ = _ \/ _ => right; eexists; reflexivity
  | |- exists x, Node 22 _ = _ => exists Semi; reflexivity
  | |- exists x, Node 23 _ = _ => exists Colon; reflexivity
  | |- exists x, Node 8 _ = _ => exists None; reflexivity
  | |- exists x, Node 9 [Leaf (KDir ?n)] = _ => exists (Some n); reflexivity
  | |- exists x, Node 10 _ = _ => exists false; reflexivity
  | |- exists x, Node 11 _ = _ => exists true; reflexivity
  | |- exists x, Node 24 _ = _ => exists VNil; reflexivity
  | |- exists v, v <> VNil /\ Node 26 [_; t_names ?l; _] = _ => exists (VSnoc VNil l); split; [discriminate | reflexivity]
  | |- exists x, simple_param x = true /\ Node 97 [Leaf (KId ?n)] = _ => exists (Par n); split; reflexivity
  | |- exists x, simple_param x = true /\ Node 98 [_; Leaf (KId ?n)] = _ => exists (ParVal n); split; reflexivity
  | H : simple_param ?p = true, H2 : simple ?e = true |- exists x, simple_param x = true /\ Node 99 [t_param ?p; _; t_simple ?e] = _ =>
      exists (ParDef p e); split; [cbn [simple_param]; rewrite H, H2; reflexivity | reflexivity]
  | |- exists x, simple_params x = true /\ Node 100 _ = _ => exists PNil; split; reflexivity
  | H : simple_param ?p = true |- exists x, simple_params x = true /\ Node 101 [t_param ?p] = _ =>
      exists (POne p); split; [exact H | reflexivity]
  | H : simple_param ?p = true, H2 : simple_params ?l = true |- exists x, simple_params x = true /\ Node 102 [t_params ?l; _; t_param ?p] = _ =>
      exists (PSnoc l p); split; [cbn [simple_params]; rewrite H, H2; reflexivity | reflexivity]
  | |- exists d l x, Node 6 [Node 12 [t_dir ?d; _; t_names ?l; t_export ?x; _]] = _ => exists d, l, x; reflexivity
  | H : simple_params ?l = true |- exists f, _ /\ Node 14 [t_dir ?d; _; Leaf (KId ?n); _; t_params ?l; _; t_export ?x; _; t_vars ?v; t_block ?b; _] = _ =>
      exists (CFunc d true n l x v b); split; [exact H | reflexivity]
  | H : simple_params ?l = true |- exists f, _ /\ Node 15 [t_dir ?d; _; Leaf (KId ?n); _; t_params ?l; _; t_export ?x; t_vars ?v; t_block ?b; _] = _ =>
      exists (CFunc d false n l x v b); split; [exact H | reflexivity]
  end.
  - exists (Program INil BNil). split; reflexivity.
  - exists (Program INil x0). split; [reflexivity|]. destruct x0; [contradiction| | |]; reflexivity.
  - exists (Program x2 x0). split; [assumption|]. destruct x2; [contradiction|]. reflexivity.
  - exists (ISnoc INil x0). split; [discriminate|]. split; [|reflexivity]. destruct x0; [reflexivity|]. cbn. match goal with H : simple_params _ = true |- _ => rewrite H end. reflexivity.
  - exists (ISnoc x2 x0). split; [discriminate|]. split; [|destruct x2; [contradiction|]; reflexivity].
    destruct x0; cbn [item_funcs]; [assumption|]. rewrite forallb_app. cbn. match goal with H : simple_params _ = true, H2 : forallb _ _ = true |- _ => rewrite H, H2 end. reflexivity.
  - match goal with H : Node 6 _ = t_item (IVars ?d ?l ?x) |- _ => exists (IVars d l x); split; [exact I | exact H] end.
  - exists (IFunc x0). split; [assumption|reflexivity].
  - exists x0. destruct x0; [contradiction| | |]; reflexivity.
  - exists x0. destruct x0 as [|[|] ?]; [contradiction| |]; reflexivity.
  - exists (VSnoc x3 x1). split; [discriminate|]. destruct x3; [contradiction|]. reflexivity.
  - match goal with H : Node _ [_] = t_stmt ?s |- _ => exists s; exact H end.
  - match goal with H : Node _ [_] = t_stmt ?s |- _ => exists s; exact H end.
  - match goal with H : Node _ [_] = t_stmt ?s |- _ => exists s; exact H end.
  - exists x0. destruct x0; try discriminate; reflexivity.
Qed.

Lemma wf_repr t : wf t -> forall n, sym_of t = - nt_no n -> repr n t.
Proof.
  induction t as [k|r ch IH] using tree_ind2; intros Hw n Hn.
  - exfalso. destruct (sym_nt _ n Hw Hn) as (r & ch & E & _). discriminate.
  - inversion Hw as [|r0 ch0 Hr Hs Hf]; subst. cbn [sym_of] in Hn. assert (lhs r = n) as <- by (apply nt_no_inj; lia).
    apply (all_closed r Hr). clear Hw Hn.
    assert (Hgen : forall w, (forall x, In x w -> In x (rhs r)) -> map sym_of ch = map sym_no w -> Forall2 sym_repr w ch);
      [|apply Hgen; auto]. clear Hs.
    induction ch as [|t ch IHch]; intros [|x w] Hsub Hs; try discriminate Hs; [constructor|].
    cbn [map] in Hs. injection Hs as Hx Hs. inversion IH as [|? ? IH1 IH2]; subst. inversion Hf as [|? ? F1 F2]; subst.
    constructor; [|apply IHch; auto; intros y Hy; apply Hsub; right; exact Hy].
    destruct x as [c|m]; cbn [sym_repr].
    + apply sym_tok; [exact F1| |exact Hx]. eapply rhs_terminals; [exact Hr|]. apply Hsub. left. reflexivity.
    + apply IH1; assumption.
Qed.
Lemma wf_program t : wf t -> sym_of t = - nt_no n_module -> exists p, defaults_ok p = true /\ t = t_program p.
Proof. intros Hw Hn. exact (wf_repr t Hw n_module Hn). Qed.
