(** Changing the names and the literals of a text (C59).  Specification: what happens to the
    tokens and to the tree; nothing here refers to the parser or to the syntax of Syntax.v. *)
From Verif Require Import Bytes Float64 GoTime Ast Lexer Tok.

(** New names for identifiers (and for the word Выполнить, which the tree keeps as the name
    of a method), labels and directives; new values for strings, numbers and dates. *)
Record ren := Ren {
  r_name : bytes -> bytes; r_label : bytes -> bytes; r_dir : bytes -> bytes;
  r_str : bytes -> bytes; r_num : f64 -> f64; r_date : gotime -> gotime }.

Definition ren_tk (r : ren) (t : tk) : tk :=
  match t with
  | K c => K c
  | KId n => KId (r_name r n)
  | KExec n => KExec (r_name r n)
  | KDir n => KDir (r_dir r n)
  | KLabel n => KLabel (r_label r n)
  | KStr s => KStr (r_str r s)
  | KNum f => KNum (r_num r f)
  | KDate d => KDate (r_date r d)
  end.

(** The same in a tree.  The variable of Для Каждого is kept as a string. *)
Fixpoint ren_stmt (r : ren) (s : stmt) : stmt :=
  let all := option_map (map (ren_stmt r)) in
  match s with
  | SNil | SBool _ | SUndef | SBreak | SContinue => s
  | SStr s => SStr (r_str r s)
  | SNum f => SNum (r_num r f)
  | STime d => STime (r_date r d)
  | SVar n f => SVar (r_name r n) f
  | SMethod n ps g f => SMethod (r_name r n) (all ps) g f
  | SItem x o => SItem (ren_stmt r x) (ren_stmt r o)
  | SChain u c f => SChain (ren_stmt r u) (ren_stmt r c) f
  | SNew n ps f => SNew (r_name r n) (all ps) f
  | STern x y z => STern (ren_stmt r x) (ren_stmt r y) (ren_stmt r z)
  | SExp o x y f => SExp o (ren_stmt r x) (ren_stmt r y) f
  | SExprs ps f => SExprs (all ps) f
  | SAssign x ps f => SAssign (ren_stmt r x) (all ps) f
  | SIf x b e c => SIf (ren_stmt r x) (all b) (all e) (all c)
  | STry b c => STry (all b) (all c)
  | SThrow x => SThrow (ren_stmt r x)
  | SReturn x => SReturn (ren_stmt r x)
  | SLoop f t i w b =>
    SLoop (match i, f with SNil, _ => ren_stmt r f | _, SStr v => SStr (r_name r v) | _, _ => ren_stmt r f end)
          (ren_stmt r t) (ren_stmt r i) (ren_stmt r w) (all b)
  | SGoTo o => SGoTo (option_map (r_label r) o)
  | SLabel n => SLabel (r_label r n)
  | SFunc vs n d b ps ty x =>
    SFunc (option_map (map (r_name r)) vs) (r_name r n) (r_dir r d) (all b)
          (map (fun p => (ren_stmt r (fst (fst p)), r_name r (snd (fst p)), snd p)) ps) ty x
  end.
Definition ren_gvar (r : ren) (g : gvar) : gvar :=
  GVar (r_dir r (gv_dir g)) (r_name r (gv_name g)) (gv_export g).
Definition ren_module (r : ren) (m : module) : module :=
  Module (m_name m) (option_map (map (ren_gvar r)) (m_gvars m)) (option_map (map (ren_stmt r)) (m_body m)).

(** Where there is no name there is none afterwards, different names of the text stay
    different, and the opposite of a number becomes the opposite of its new value. *)
Record proper (r : ren) (l : list tk) : Prop := {
  pr_no_name : r_name r [] = [];
  pr_no_dir : r_dir r [] = [];
  pr_apart : forall n n', In (KId n) l -> In (KId n') l -> r_name r n = r_name r n' -> n = n';
  pr_opp : forall f, r_num r (f64_opp f) = f64_opp (r_num r f) }.
