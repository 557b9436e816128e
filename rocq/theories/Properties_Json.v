(** What the JSON output tells about a module (C40). *)
From Coq Require Import Permutation.
From Verif Require Import Bytes Utf8 Float64 GoTime Ast Lexer Tables Parser Json StmtInd CellInv Properties_Tree.
Open Scope Z_scope.

(** * What is lost *)
(** A tree with everything replaced that JSON does not show: the marks for minus and
    НЕ, the difference between Неопределено, Прервать and Продолжить, between
    ВызватьИсключение and Возврат, between a variable and a label, between a date and
    the string that shows it, the order of map members, and bytes that are not UTF-8. *)
Fixpoint erase (s : stmt) : stmt :=
  let sl (b : option (list stmt)) := match b with Some l => Some (map erase l) | None => None end in
  match s with
  | SNil => SNil
  | SStr w => SStr (jtext w)
  | SNum f => SNum f
  | SBool b => SBool b
  | STime t => SStr (rfc3339 t)
  | SUndef | SBreak | SContinue => SUndef
  | SVar n _ => SVar (jtext n) no_flags
  | SMethod n ps _ _ => SMethod (jtext n) (sl ps) no_flags no_flags
  | SItem i o => SItem (erase i) (erase o)
  | SChain u c _ => SChain (erase u) (erase c) no_flags
  | SNew c ps _ => SNew (jtext c) (sl ps) no_flags
  | STern e t f => STern (erase e) (erase t) (erase f)
  | SExp o l r _ => SExp o (erase l) (erase r) no_flags
  | SExprs ps _ => SExprs (sl ps) no_flags
  | SAssign v ps _ => SAssign (erase v) (sl ps) no_flags
  | SIf e tb eib eb => SIf (erase e) (sl tb) (sl eib) (sl eb)
  | STry b c => STry (sl b) (sl c)
  | SThrow p | SReturn p => SReturn (erase p)
  | SLoop f t i w b => SLoop (erase f) (erase t) (erase i) (erase w) (sl b)
  | SGoTo None => SGoTo None
  | SGoTo (Some n) => SGoTo (Some (jtext n))
  | SLabel n => SVar (jtext n) no_flags
  | SFunc vs n d b ps ty ex =>
    SFunc (match vs with Some l => Some (map jtext (sort_by (fun k => k) l)) | None => None end)
          (jtext n) (jtext d) (sl b) (map (fun p => match p with (def, name, v) => (erase def, jtext name, v) end) ps) ty ex
  end.
Definition erase_list (b : slice) : slice := match b with Some l => Some (map erase l) | None => None end.
Definition erase_gvar (v : gvar) : gvar := GVar (jtext (gv_dir v)) (jtext (gv_name v)) (gv_export v).
Definition erase_module (m : module) : module := Module (jtext (m_name m))
         (match elems (m_gvars m) with [] => None | g => Some (map erase_gvar (sort_by gv_name g)) end)
         (erase_list (m_body m)).

(** * Reading it back *)
Notation prm := (stmt * bytes * bool)%type.
Record val := Val { as_stmt : stmt; as_list : slice; as_exprs : slice; as_text : bytes; as_bool : bool; as_int : Z;
  as_params : list prm; as_param : prm; as_keys : option (list bytes); as_label : option bytes;
  as_gvars : list gvar; as_gvar : gvar; as_var : bytes }.
Definition no_prm : prm := (SNil, [], false).
Definition no_val : val := Val SNil None None [] false 0 [] no_prm None None [] (GVar [] [] false) [].
Definition int_op (z : Z) : op :=
  match z with
  | 1 => OpPlus | 2 => OpMinus | 3 => OpMul | 4 => OpDiv | 5 => OpEq | 6 => OpGt | 7 => OpLt
  | 8 => OpNe | 9 => OpLe | 10 => OpGe | 11 => OpMod | 12 => OpOr | 13 => OpAnd | _ => OpUndefined
  end.
Definition int_pf (z : Z) : pftype := match z with 1 => PFProcedure | 2 => PFFunction | _ => PFUndefined end.
Definition members := list (bytes * val).
Fixpoint has (k : bytes) (l : members) : bool := match l with [] => false | (k', _) :: l' => beqb k k' || has k l' end.
Fixpoint get (k : bytes) (l : members) : val := match l with [] => no_val | (k', v) :: l' => if beqb k k' then v else get k l' end.
Definition obj_stmt (l : members) : stmt :=
  let st k := as_stmt (get k l) in let ls k := as_list (get k l) in let ex k := as_exprs (get k l) in let tx k := as_text (get k l) in
  match l with
  | [] => SUndef
  | _ =>
    if has (B "Operation") l then SExp (int_op (as_int (get (B "Operation") l))) (st (B "Left")) (st (B "Right")) no_flags
    else if has (B "Params") l then
      SFunc (as_keys (get (B "ExplicitVariables") l)) (tx (B "Name")) (tx (B "Directive")) (ls (B "Body")) (as_params (get (B "Params") l))
            (int_pf (as_int (get (B "Type") l))) (as_bool (get (B "Export") l))
    else if has (B "Catch") l then STry (ls (B "Body")) (ls (B "Catch"))
    else if has (B "IfElseBlock") l then SIf (st (B "Expression")) (ls (B "TrueBlock")) (ls (B "IfElseBlock")) (ls (B "ElseBlock"))
    else if has (B "Unit") l then SChain (st (B "Unit")) (st (B "Call")) no_flags
    else if has (B "Item") l then SItem (st (B "Item")) (st (B "Object"))
    else if has (B "Constructor") l then SNew (tx (B "Constructor")) (ex (B "Param")) no_flags
    else if has (B "Statements") l then SExprs (ls (B "Statements")) no_flags
    else if has (B "Var") l then SAssign (st (B "Var")) (ex (B "Expr")) no_flags
    else if has (B "Label") l then SGoTo (as_label (get (B "Label") l))
    else if has (B "Body") l then SLoop (st (B "For")) (st (B "To")) (st (B "In")) (st (B "WhileExpr")) (ls (B "Body"))
    else if has (B "Expression") l then STern (st (B "Expression")) (st (B "TrueBlock")) (st (B "ElseBlock"))
    else if has (B "Param") l then
      (if has (B "Name") l then SMethod (tx (B "Name")) (ex (B "Param")) no_flags no_flags else SReturn (st (B "Param")))
    else SVar (tx (B "Name")) no_flags
  end.
Fixpoint of_json (j : json) : val :=
  match j with
  | JNull => no_val
  | JBool b => Val (SBool b) None None [] b 0 [] no_prm None None [] (GVar [] [] false) []
  | JNum f => Val (SNum f) None None [] false 0 [] no_prm None None [] (GVar [] [] false) []
  | JInt z => Val SNil None None [] false z [] no_prm None None [] (GVar [] [] false) []
  | JStr s => Val (SStr s) None None s false 0 [] no_prm None None [] (GVar [] [] false) []
  | JArr l => let vs := map of_json l in Val SNil (Some (map as_stmt vs)) None [] false 0 (map as_param vs) no_prm None None [] (GVar [] [] false) []
  | JObj l =>
    let ms := map (fun kv => match kv with (k, v) => (k, of_json v) end) l in
    Val (obj_stmt ms) None (as_list (get (B "Statements") ms)) [] false 0 []
        (as_stmt (get (B "Default") ms), as_text (get (B "Name") ms), as_bool (get (B "IsValue") ms))
        (Some (map fst ms)) (Some (as_text (get (B "Name") ms)))
        (map (fun kv => as_gvar (snd kv)) ms)
        (GVar (as_text (get (B "Directive") ms)) (as_var (get (B "Var") ms)) (as_bool (get (B "Export") ms)))
        (as_text (get (B "Name") ms))
  end.
Definition read_module (j : json) : module :=
  match j with
  | JObj l =>
    let ms := map (fun kv => match kv with (k, v) => (k, of_json v) end) l in
    {| m_name := as_text (get (B "Name") ms);
       m_gvars := if has (B "GlobalVariables") ms then Some (as_gvars (get (B "GlobalVariables") ms)) else None;
       m_body := as_list (get (B "Body") ms) |}
  | _ => Module [] None None
  end.

Lemma int_op_num o : int_op (op_num o) = o. Proof. destruct o; reflexivity. Qed.
Lemma int_pf_num t : int_pf (pf_num t) = t. Proof. destruct t; reflexivity. Qed.

Definition arr (b : slice) : json := match b with None => JNull | Some l => JArr (map to_json l) end.
Lemma arr_read b : (forall x, In x (elems b) -> as_stmt (of_json (to_json x)) = erase x) -> as_list (of_json (arr b)) = erase_list b.
Proof.
  intros H. destruct b as [l|]; [|reflexivity]. cbn [arr of_json as_list erase_list elems] in *. f_equal. rewrite !map_map.
  apply map_ext_in. exact H.
Qed.
Lemma sl_fold b : (match b with Some l => Some (map erase l) | None => None end) = erase_list b. Proof. reflexivity. Qed.
Lemma arr_fold b : (match b with None => JNull | Some l => JArr (map to_json l) end) = arr b. Proof. reflexivity. Qed.

Definition mem (l : list (bytes * json)) : members := map (fun kv => match kv with (k, v) => (k, of_json v) end) l.
Lemma obj_read l : as_stmt (of_json (JObj l)) = obj_stmt (mem l). Proof. reflexivity. Qed.
Lemma exprs_read b : as_exprs (of_json (JObj [(B "Statements", arr b)])) = as_list (of_json (arr b)). Proof. reflexivity. Qed.
Lemma text_read w : as_text (of_json (JStr w)) = w. Proof. reflexivity. Qed.
Lemma member k v l : mem ((k, v) :: l) = (k, of_json v) :: mem l. Proof. reflexivity. Qed.
Lemma no_member : mem [] = []. Proof. reflexivity. Qed.

Lemma o_var a : obj_stmt [(B "Name", a)] = SVar (as_text a) no_flags. Proof. reflexivity. Qed.
Lemma o_method a b : obj_stmt [(B "Name", a); (B "Param", b)] = SMethod (as_text a) (as_exprs b) no_flags no_flags. Proof. reflexivity. Qed.
Lemma o_item a b : obj_stmt [(B "Item", a); (B "Object", b)] = SItem (as_stmt a) (as_stmt b). Proof. reflexivity. Qed.
Lemma o_chain a b : obj_stmt [(B "Unit", a); (B "Call", b)] = SChain (as_stmt a) (as_stmt b) no_flags. Proof. reflexivity. Qed.
Lemma o_new a b : obj_stmt [(B "Constructor", a); (B "Param", b)] = SNew (as_text a) (as_exprs b) no_flags. Proof. reflexivity. Qed.
Lemma o_tern a b c : obj_stmt [(B "Expression", a); (B "TrueBlock", b); (B "ElseBlock", c)] = STern (as_stmt a) (as_stmt b) (as_stmt c). Proof. reflexivity. Qed.
Lemma o_exp a b c : obj_stmt [(B "Left", a); (B "Right", b); (B "Operation", c)] = SExp (int_op (as_int c)) (as_stmt a) (as_stmt b) no_flags. Proof. reflexivity. Qed.
Lemma o_exprs a : obj_stmt [(B "Statements", a)] = SExprs (as_list a) no_flags. Proof. reflexivity. Qed.
Lemma o_assign a b : obj_stmt [(B "Var", a); (B "Expr", b)] = SAssign (as_stmt a) (as_exprs b) no_flags. Proof. reflexivity. Qed.
Lemma o_if a b c d : obj_stmt [(B "Expression", a); (B "TrueBlock", b); (B "IfElseBlock", c); (B "ElseBlock", d)] = SIf (as_stmt a) (as_list b) (as_list c) (as_list d). Proof. reflexivity. Qed.
Lemma o_try a b : obj_stmt [(B "Body", a); (B "Catch", b)] = STry (as_list a) (as_list b). Proof. reflexivity. Qed.
Lemma o_return a : obj_stmt [(B "Param", a)] = SReturn (as_stmt a). Proof. reflexivity. Qed.
Lemma o_goto a : obj_stmt [(B "Label", a)] = SGoTo (as_label a). Proof. reflexivity. Qed.
Lemma o_func a b c d e f g : obj_stmt [(B "ExplicitVariables", a); (B "Name", b); (B "Directive", c); (B "Body", d); (B "Params", e); (B "Type", f); (B "Export", g)] =
  SFunc (as_keys a) (as_text b) (as_text c) (as_list d) (as_params e) (int_pf (as_int f)) (as_bool g). Proof. reflexivity. Qed.
Definition opt_member (k : bytes) (s : stmt) (v : val) : members := if is_nil s then [] else [(k, v)].
Lemma omit_member k s j l : mem (omit_nil k s j ++ l) = opt_member k s (of_json j) ++ mem l.
Proof. unfold omit_nil, opt_member. destruct (is_nil s); reflexivity. Qed.
Lemma o_loop f t i w a b c d e : (is_nil f = true -> as_stmt a = SNil) -> (is_nil t = true -> as_stmt b = SNil) -> (is_nil i = true -> as_stmt c = SNil) -> (is_nil w = true -> as_stmt d = SNil) ->
  obj_stmt (opt_member (B "For") f a ++ opt_member (B "To") t b ++ opt_member (B "In") i c ++ opt_member (B "WhileExpr") w d ++ [(B "Body", e)]) =
  SLoop (as_stmt a) (as_stmt b) (as_stmt c) (as_stmt d) (as_list e).
Proof.
  intros H1 H2 H3 H4. unfold opt_member.
  destruct (is_nil f); [rewrite H1 by reflexivity|clear H1]; (destruct (is_nil t); [rewrite H2 by reflexivity|clear H2]);
  (destruct (is_nil i); [rewrite H3 by reflexivity|clear H3]); (destruct (is_nil w); [rewrite H4 by reflexivity|clear H4]); reflexivity.
Qed.
Lemma nil_read x : is_nil x = true -> as_stmt (of_json (to_json x)) = SNil.
Proof. destruct x; try discriminate. reflexivity. Qed.

Definition param_json (p : prm) : json := match p with (def, name, isval) =>
  JObj (omit_nil (B "Default") def (to_json def) ++ [(B "Name", JStr (jtext name))] ++ (if isval : bool then [(B "IsValue", JBool true)] else [])) end.
Lemma param_read def name v : as_stmt (of_json (to_json def)) = erase def ->
  as_param (of_json (param_json (def, name, v))) = (erase def, jtext name, v).
Proof.
  intros H. unfold param_json. change (as_param (of_json (JObj ?l))) with
    (as_stmt (get (B "Default") (mem l)), as_text (get (B "Name") (mem l)), as_bool (get (B "IsValue") (mem l))).
  rewrite omit_member. unfold opt_member. destruct (is_nil def) eqn:E.
  - destruct def; try discriminate. destruct v; reflexivity.
  - rewrite <- H. destruct v; reflexivity.
Qed.
Lemma params_read ps : (forall p, In p ps -> as_stmt (of_json (to_json (fst (fst p)))) = erase (fst (fst p))) ->
  as_params (of_json (JArr (map param_json ps))) = map (fun p => match p with (def, name, v) => (erase def, jtext name, v) end) ps.
Proof.
  intros H. cbn [of_json as_params]. rewrite !map_map. apply map_ext_in. intros [[def name] v] Hp. apply param_read. exact (H _ Hp).
Qed.
Lemma keys_read (l : list bytes) : as_keys (of_json (JObj (map (fun k => (jtext k, jvar k)) l))) = Some (map jtext l).
Proof. cbn [of_json as_keys]. rewrite !map_map. reflexivity. Qed.

Lemma of_to s : as_stmt (of_json (to_json s)) = erase s.
Proof.
  induction s as [s IH] using stmt_parts_ind.
  assert (HL : forall b, (forall x, In x (elems b) -> In x (parts s)) -> as_list (of_json (arr b)) = erase_list b).
  { intros b Hb. apply arr_read. intros x Hx. apply IH, Hb, Hx. }
  destruct s; try reflexivity; cbn [to_json erase]; rewrite ?sl_fold, ?arr_fold;
  rewrite ?obj_read, ?omit_member, ?member, ?no_member;
  rewrite ?o_var, ?o_method, ?o_item, ?o_chain, ?o_new, ?o_tern, ?o_exp, ?o_exprs, ?o_assign, ?o_if, ?o_try, ?o_return, ?o_goto, ?o_func;
  rewrite ?exprs_read, ?text_read.
  all: try (rewrite ?IH by (cbn [parts In]; auto 10); rewrite ?HL by (intros x Hx; cbn [parts In]; rewrite ?in_app_iff; auto 10); rewrite ?int_op_num; reflexivity).
  - cbn [of_json as_int]. rewrite int_op_num, !IH by (cbn [parts In]; auto). reflexivity.
  - rewrite o_loop by (apply nil_read). rewrite !IH by (cbn [parts In]; auto 10). rewrite HL; [reflexivity|]. intros x Hx. cbn [parts In]. auto 10.
  - destruct label; reflexivity.
  - assert (EP : as_params (of_json (JArr (map param_json params))) = map (fun p => match p with (def, name0, v) => (erase def, jtext name0, v) end) params).
    { apply params_read. intros p Hp. apply IH. cbn [parts]. apply in_app_iff. right. apply in_map_iff. exists p. auto. }
    unfold param_json in EP. rewrite EP, HL by (intros x Hx; cbn [parts]; rewrite in_app_iff; auto).
    f_equal; [|apply int_pf_num]. destruct vars as [l|]; [apply keys_read | reflexivity].
Qed.

Lemma read1 n jb : read_module (JObj [(B "Name", JStr n); (B "Body", jb)]) = {| m_name := n; m_gvars := None; m_body := as_list (of_json jb) |}.
Proof. reflexivity. Qed.
Lemma read2 n jg jb : read_module (JObj [(B "Name", JStr n); (B "GlobalVariables", jg); (B "Body", jb)]) =
  {| m_name := n; m_gvars := Some (as_gvars (of_json jg)); m_body := as_list (of_json jb) |}.
Proof. reflexivity. Qed.
Lemma module_read m : read_module (JSON m) = erase_module m.
Proof.
  destruct m as [n g b]. unfold JSON, erase_module. cbn [m_name m_gvars m_body]. rewrite arr_fold.
  assert (HB : as_list (of_json (arr b)) = erase_list b) by (apply arr_read; intros x _; apply of_to).
  destruct (elems g) as [|v l] eqn:Eg.
  - cbn [app]. rewrite read1, HB. reflexivity.
  - remember (sort_by gv_name (v :: l)) as ord. cbn [app]. rewrite read2, HB. do 2 f_equal.
    cbn [of_json as_gvars]. rewrite !map_map. reflexivity.
Qed.

(** The other way round: what is left determines the JSON. *)
Fixpoint raw_json (s : stmt) : json :=
  let arr (b : option (list stmt)) : json := match b with None => JNull | Some l => JArr (map raw_json l) end in
  let exprs (b : option (list stmt)) : json := JObj [(B "Statements", arr b)] in
  match s with
  | SNil | STime _ => JNull
  | SStr w => JStr w
  | SNum f => JNum f
  | SBool b => JBool b
  | SUndef | SBreak | SContinue => JObj []
  | SVar n _ | SLabel n => JObj [(B "Name", JStr n)]
  | SMethod n ps _ _ => JObj [(B "Name", JStr n); (B "Param", exprs ps)]
  | SItem i o => JObj [(B "Item", raw_json i); (B "Object", raw_json o)]
  | SChain u c _ => JObj [(B "Unit", raw_json u); (B "Call", raw_json c)]
  | SNew c ps _ => JObj [(B "Constructor", JStr c); (B "Param", exprs ps)]
  | STern e t f => JObj [(B "Expression", raw_json e); (B "TrueBlock", raw_json t); (B "ElseBlock", raw_json f)]
  | SExp o l r _ => JObj [(B "Left", raw_json l); (B "Right", raw_json r); (B "Operation", JInt (op_num o))]
  | SExprs ps _ => exprs ps
  | SAssign v ps _ => JObj [(B "Var", raw_json v); (B "Expr", exprs ps)]
  | SIf e tb eib eb => JObj [(B "Expression", raw_json e); (B "TrueBlock", arr tb); (B "IfElseBlock", arr eib); (B "ElseBlock", arr eb)]
  | STry b c => JObj [(B "Body", arr b); (B "Catch", arr c)]
  | SThrow p | SReturn p => JObj [(B "Param", raw_json p)]
  | SLoop f t i w b => JObj (omit_nil (B "For") f (raw_json f) ++ omit_nil (B "To") t (raw_json t) ++
      omit_nil (B "In") i (raw_json i) ++ omit_nil (B "WhileExpr") w (raw_json w) ++ [(B "Body", arr b)])
  | SGoTo None => JObj [(B "Label", JNull)]
  | SGoTo (Some n) => JObj [(B "Label", JObj [(B "Name", JStr n)])]
  | SFunc vs n d b ps ty ex =>
    JObj [(B "ExplicitVariables", match vs with None => JNull | Some l => JObj (map (fun k => (k, JObj [(B "Name", JStr k)])) l) end);
          (B "Name", JStr n); (B "Directive", JStr d); (B "Body", arr b);
          (B "Params", JArr (map (fun p => match p with (def, name, isval) =>
             JObj (omit_nil (B "Default") def (raw_json def) ++ [(B "Name", JStr name)] ++ (if isval : bool then [(B "IsValue", JBool true)] else [])) end) ps));
          (B "Type", JInt (pf_num ty)); (B "Export", JBool ex)]
  end.
Lemma nil_erase s : is_nil (erase s) = is_nil s. Proof. destruct s; try reflexivity. destruct label; reflexivity. Qed.
Lemma raw_erase s : raw_json (erase s) = to_json s.
Proof.
  induction s as [s IH] using stmt_parts_ind.
  assert (HL : forall b, (forall x, In x (elems b) -> In x (parts s)) ->
    match (match b with Some l => Some (map erase l) | None => None end) with None => JNull | Some l => JArr (map raw_json l) end =
    match b with None => JNull | Some l => JArr (map to_json l) end).
  { intros [l|] Hb; [|reflexivity]. f_equal. rewrite map_map. apply map_ext_in. intros x Hx. apply IH, Hb, Hx. }
  destruct s; try reflexivity; cbn [to_json erase raw_json];
  try (rewrite ?HL by (intros x Hx; cbn [parts In]; rewrite ?in_app_iff; auto 10); rewrite ?nil_erase, ?IH by (cbn [parts In]; auto 10); reflexivity).
  - rewrite HL by (intros x Hx; cbn [parts In]; auto 10). unfold omit_nil. rewrite !nil_erase, !IH by (cbn [parts In]; auto 10). reflexivity.
  - destruct label; reflexivity.
  - rewrite HL by (intros x Hx; cbn [parts]; rewrite in_app_iff; auto). f_equal. f_equal; [|do 3 f_equal; f_equal].
    + f_equal. destruct vars as [l|]; [|reflexivity]. rewrite map_map. reflexivity.
    + do 2 f_equal. rewrite map_map. apply map_ext_in. intros [[d2 n2] v2] Hp. unfold omit_nil. rewrite nil_erase, IH; [reflexivity|].
      cbn [parts]. apply in_app_iff. right. apply in_map_iff. exists (d2, n2, v2). auto.
Qed.
Definition raw_module (m : module) : json :=
  JObj ([(B "Name", JStr (m_name m))] ++
        (match m_gvars m with
         | None => []
         | Some g => [(B "GlobalVariables", JObj (map (fun v => (gv_name v, JObj [(B "Directive", JStr (gv_dir v)); (B "Var", JObj [(B "Name", JStr (gv_name v))]);
             (B "Export", JBool (gv_export v))])) g))]
         end) ++
        [(B "Body", match m_body m with None => JNull | Some l => JArr (map raw_json l) end)]).
Lemma raw_erase_module m : raw_module (erase_module m) = JSON m.
Proof.
  unfold raw_module, JSON, erase_module. cbn [m_name m_gvars m_body]. do 2 f_equal. f_equal.
  - destruct (elems (m_gvars m)) as [|v l]; [reflexivity|]. rewrite map_map. reflexivity.
  - do 2 f_equal. unfold erase_list. destruct (m_body m) as [l|]; [|reflexivity]. f_equal. rewrite map_map. apply map_ext_in. intros x _. apply raw_erase.
Qed.

(** * C40 JSON does not identify different programs *)
Definition C40_statement : Prop := forall c1 m1 c2 m2, accepted c1 m1 -> accepted c2 m2 -> JSON m1 = JSON m2 -> m1 = m2.
(** Equal JSON means equal trees up to what [erase] forgets, for all trees. *)
Theorem C40_injective_partial : forall m1 m2, JSON m1 = JSON m2 -> erase_module m1 = erase_module m2.
Proof. intros m1 m2 H. rewrite <- !module_read, H. reflexivity. Qed.
(** And no less: [erase] forgets exactly what JSON does not show. *)
Theorem C40_exactly : forall m1 m2, JSON m1 = JSON m2 <-> erase_module m1 = erase_module m2.
Proof. intros m1 m2. split; [apply C40_injective_partial|]. intros H. rewrite <- !raw_erase_module, H. reflexivity. Qed.
(** What is not in JSON, in accepted texts: *)
Definition same_json (c1 c2 : bytes) : Prop := accepted c1 (tree_of c1) /\ accepted c2 (tree_of c2) /\
  JSON (tree_of c1) = JSON (tree_of c2) /\ tree_of c1 <> tree_of c2.
Ltac same := split; [accepted|]; split; [accepted|]; split; [vm_compute; reflexivity | vm_compute; discriminate].
(** break and continue; negation; minus; a date and a string; Возврат and ВызватьИсключение; a label and a name. *)
Theorem C40_break_refuted : same_json (B "Для Каждого а Из б Цикл Прервать; КонецЦикла") (B "Для Каждого а Из б Цикл Продолжить; КонецЦикла").
Proof. same. Qed.
Theorem C40_not_refuted : same_json (B "а = НЕ б;") (B "а = б;").
Proof. same. Qed.
Theorem C40_minus_refuted : same_json (B "а = -б;") (B "а = б;").
Proof. same. Qed.
Theorem C40_date_refuted : same_json (B "а = '20240229';") (B "а = ""2024-02-29T00:00:00Z"";").
Proof. same. Qed.
Theorem C40_throw_refuted : same_json (B "Функция Ф() Возврат 1; КонецФункции") (B "Функция Ф() ВызватьИсключение 1; КонецФункции").
Proof. same. Qed.
Theorem C40_statement_refuted : ~ C40_statement.
Proof.
  intros H. destruct C40_not_refuted as (A1 & A2 & A3 & A4). exact (A4 (H _ _ _ _ A1 A2 A3)).
Qed.
(** Different operators, literals, names and shapes are told apart. *)
Example C40_example : JSON (tree_of (B "а = б + в * 2;")) <> JSON (tree_of (B "а = (б + в) * 2;")) /\
  erase_module (tree_of (B "Процедура П() Перем я, б; КонецПроцедуры")) = erase_module (tree_of (B "Процедура П() Перем б, я; КонецПроцедуры")).
Proof. split; [vm_compute; discriminate | vm_compute; reflexivity]. Qed.

Print Assumptions C40_injective_partial.
Print Assumptions C40_exactly. Print Assumptions C40_break_refuted. Print Assumptions C40_not_refuted. Print Assumptions C40_minus_refuted.
Print Assumptions C40_date_refuted. Print Assumptions C40_throw_refuted. Print Assumptions C40_statement_refuted.
