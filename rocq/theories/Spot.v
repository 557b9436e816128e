(** Which statement a rule message is about: the counters of open loops, handlers and
    functions never fall behind the markers on the parser's stack. *)
From Verif Require Import Bytes Utf8 Float64 GoTime Ast Lexer LexFacts LexSpec LexProofs Tables Parser Grammar Tok CertData Cert Driver DriverInv Trees Machine
  Levels Bind Items Complete TightOk ViableData Viable Blame Told Syntax Rules RulesFacts CstTrees CstEval CstModule Broken Cause Panics Lexical Scanned Where Placed Faults FaultFacts Alike Reached Skip BrokenFacts Past Culprit.
From Verif Require Import Syntax Tok.
Open Scope Z_scope.

Lemma balance_app o c u v : balance o c (u ++ v) = balance o c u + balance o c v.
Proof. induction u as [|t u IH]; cbn [app balance]; [reflexivity|]. rewrite IH. lia. Qed.

(** * Every nonterminal closes what it opens *)
Definition sym_bal (o c : Z) (x : Z) : Z := if x =? tokno_of o then 1 else if x =? tokno_of c then -1 else 0.
Fixpoint sum_bal (o c : Z) (l : list Z) : Z := match l with [] => 0 | x :: l => sym_bal o c x + sum_bal o c l end.
Definition pairs : list (Z * Z) := [(tLoop, tEndLoop); (tCatch, tEndTry); (tFunction, tEndFunction)].
Definition prod_nos : list Z := map Z.of_nat (seq 1 112).
Lemma forall_prods (f : Z -> bool) : forallb f prod_nos = true -> forall r, prodno r -> f r = true.
Proof.
  intros H r Hr. rewrite forallb_forall in H. apply H. unfold prod_nos. rewrite <- (Z2Nat.id r) by (unfold prodno in Hr; lia).
  apply in_map, in_seq. unfold prodno, n_prods in Hr. lia.
Qed.
Lemma pairs_checked : forallb (fun oc => forallb (fun r => sum_bal (fst oc) (snd oc) (map sym_no (rhs r)) =? 0) prod_nos &&
  forallb (fun k => Z.eqb (if k =? fst oc then 1 else if k =? snd oc then -1 else 0) (sym_bal (fst oc) (snd oc) (tokno_of k))) kinds &&
  (2 <=? tokno_of (fst oc)) && (2 <=? tokno_of (snd oc))) pairs = true.
Proof. vm_compute. reflexivity. Qed.
Lemma pair_ok o c : In (o, c) pairs -> (forall r, prodno r -> sum_bal o c (map sym_no (rhs r)) = 0) /\
  (forall k, In k kinds -> (if k =? o then 1 else if k =? c then -1 else 0) = sym_bal o c (tokno_of k)) /\ 2 <= tokno_of o /\ 2 <= tokno_of c.
Proof.
  intros H. pose proof pairs_checked as P. rewrite forallb_forall in P. specialize (P _ H). cbn [fst snd] in P. rewrite !andb_true_iff in P. destruct P as (((P1 & P2) & P3) & P4).
  split; [intros r Hr; apply (forall_prods _ P1) in Hr; cbv beta in Hr; lia|]. split; [|lia].
  intros k Hk. rewrite forallb_forall in P2. specialize (P2 _ Hk). lia.
Qed.
Lemma nt_pos n : 1 <= nt_no n. Proof. destruct n; vm_compute; discriminate. Qed.
Lemma tree_bal o c : In (o, c) pairs -> forall t, wf t -> balance o c (yield t) = sym_bal o c (sym_of t).
Proof.
  intros Hp. destruct (pair_ok o c Hp) as (P1 & P2 & P3 & P4). induction t as [k|r ch IH] using tree_ind2; intros Hw; inversion Hw; subst.
  - cbn [yield balance sym_of]. match goal with H : tk_wf _ |- _ => destruct H as [H _]; rewrite <- (P2 _ H) end. lia.
  - cbn [yield sym_of]. match goal with H : prodno r |- _ => pose proof (P1 r H) as S end.
    match goal with H : map sym_of ch = _ |- _ => rewrite <- H in S end. pose proof (nt_pos (lhs r)).
    replace (sym_bal o c (- nt_no (lhs r))) with 0 by (unfold sym_bal; destruct (- nt_no (lhs r) =? tokno_of o) eqn:E1; [lia|]; destruct (- nt_no (lhs r) =? tokno_of c) eqn:E2; lia).
    rewrite <- S. match goal with H : Forall wf ch |- _ => revert H IH end. clear. induction ch as [|t ch G]; intros F I; [reflexivity|]. inversion F; subst. inversion I; subst.
    cbn [flat_map map sum_bal]. rewrite balance_app, G by assumption. f_equal. auto.
Qed.
Definition read' (st : frames) : list tk := flat_map yield (map snd (rev st)).
Lemma read_cons s t st : read' ((s, t) :: st) = read' st ++ yield t.
Proof. unfold read'. cbn [rev]. rewrite map_app, flat_map_app. cbn. rewrite app_nil_r. reflexivity. Qed.

(** * Markers on the stack *)
Definition marks (mk : list Z) (st : frames) : Z := Z.of_nat (length (filter (fun f => zmem (sym_of (snd f)) mk) st)).
Definition headers (o : Z) (mk : list Z) : list Z :=
  let step l := nodup Z.eq_dec (l ++ filter (fun s => negb (zmem (chk s) mk) && existsb (fun b => zmem b l) (pred s)) states) in
  Nat.iter 30 step (filter (fun s => chk s =? tokno_of o) states).
Definition header_ok (o : Z) (mk hdr : list Z) : bool :=
  forallb (fun s => forallb (fun b => if chk s =? tokno_of o then negb (zmem b hdr) && zmem s hdr
    else zmem (chk s) mk || implb (zmem b hdr) (zmem s hdr)) (pred s)) states.
Definition loop_marks : list Z := map (fun n => - nt_no n) [n_mid_for_each; n_mid_for; n_mid_while].
Definition catch_marks : list Z := [- nt_no n_mid_catch].
Definition func_marks : list Z := [- nt_no n_mid_function].
Definition loop_hdr : list Z := Eval vm_compute in headers tLoop loop_marks.
Definition catch_hdr : list Z := Eval vm_compute in headers tCatch catch_marks.
Definition func_hdr : list Z := Eval vm_compute in headers tFunction func_marks.
Lemma headers_checked : header_ok tLoop loop_marks loop_hdr && header_ok tCatch catch_marks catch_hdr && header_ok tFunction func_marks func_hdr = true.
Proof. vm_compute. reflexivity. Qed.
Lemma stack_bal o c mk hdr : In (o, c) pairs -> header_ok o mk hdr = true -> forall st, mwf st ->
  balance o c (read' st) <= marks mk st + (if zmem (top st) hdr then 1 else 0).
Proof.
  intros Hp Hh. destruct (pair_ok o c Hp) as (P1 & P2 & P3 & P4). induction st as [|[s u] st IH]; intros Hw.
  { unfold marks. cbn. destruct (zmem _ _); lia. }
  pose proof (mwf_state _ Hw) as Hs. cbn [top fst] in Hs. apply mwf_cons in Hw as (Hw & W & E & Hin). specialize (IH Hw).
  pose proof (forall_states _ Hh s Hs) as C. cbv beta in C. rewrite forallb_forall in C. specialize (C _ Hin). cbv beta in C. rewrite E in C.
  rewrite read_cons, balance_app, (tree_bal o c Hp _ W). unfold marks in *. cbn [filter snd top fst] in *. unfold sym_bal.
  destruct (sym_of u =? tokno_of o) eqn:E1.
  - apply andb_true_iff in C as [C1 C2]. apply negb_true_iff in C1. rewrite C1 in IH. rewrite C2. destruct (zmem (sym_of u) mk); cbn [length]; lia.
  - destruct (zmem (sym_of u) mk); cbn [length orb] in *.
    + destruct (zmem (top st) hdr), (zmem s hdr), (sym_of u =? tokno_of c); lia.
    + destruct (zmem (top st) hdr), (zmem s hdr), (sym_of u =? tokno_of c); cbn in C; try discriminate C; lia.
Qed.

(** At most one function is open. *)
Definition inside : list Z := Eval vm_compute in
  let step l := nodup Z.eq_dec (l ++ filter (fun s => existsb (fun b => zmem b l) (pred s)) states) in
  Nat.iter 60 step (filter (fun s => zmem (chk s) func_marks) states).
Definition inside_ok : bool :=
  forallb (fun s => forallb (fun b => if zmem (chk s) func_marks then negb (zmem b inside) && zmem s inside else implb (zmem b inside) (zmem s inside)) (pred s)) states.
Lemma inside_checked : inside_ok = true.
Proof. vm_compute. reflexivity. Qed.
Lemma one_function st : mwf st -> marks func_marks st <= if zmem (top st) inside then 1 else 0.
Proof.
  induction st as [|[s u] st IH]; intros Hw; [vm_compute; discriminate|].
  pose proof (mwf_state _ Hw) as Hs. cbn [top fst] in Hs. apply mwf_cons in Hw as (Hw & W & E & Hin). specialize (IH Hw).
  pose proof (forall_states _ inside_checked s Hs) as C. cbv beta in C. rewrite forallb_forall in C. specialize (C _ Hin). cbv beta in C. rewrite E in C.
  unfold marks in *. cbn [filter snd top fst] in *. destruct (zmem (sym_of u) func_marks); cbn [length].
  - apply andb_true_iff in C as [C1 C2]. apply negb_true_iff in C1. rewrite C1 in IH. rewrite C2. lia.
  - destruct (zmem (top st) inside), (zmem s inside); cbn in C; try discriminate C; lia.
Qed.

(** * What the actions do to the counters *)
Definition d_loop (r : Z) : Z := match r with 34 | 36 | 38 => 1 | 35 | 37 => -1 | _ => 0 end.
Definition d_try (r : Z) : Z := match r with 62 => 1 | 63 => -1 | _ => 0 end.
Definition flags_by (r : Z) (a a' : astnode) : Prop :=
  a_isLoop a' = a_isLoop a + d_loop r /\ a_isTry a' = a_isTry a + d_try r /\
  a_isFunction a' = match r with 13 => true | 14 => false | _ => a_isFunction a end.
Definition same_flags (a a' : astnode) : Prop := a_isLoop a' = a_isLoop a /\ a_isTry a' = a_isTry a /\ a_isFunction a' = a_isFunction a.
Lemma Error_flags a m a' : Error a m = Ok a' -> same_flags a a'.
Proof. intros H. apply Error_loc in H as [-> _]. repeat split. Qed.
Lemma gvars_flags vs : forall a a', append_gvars vs a = Ok a' -> same_flags a a'.
Proof.
  induction vs as [|v vs IH]; cbn [append_gvars]; intros a a' H; [injection H as <-; repeat split|].
  apply bind_ok in H as (b & H1 & H2). apply IH in H2 as (I1 & I2 & I3).
  assert (G : same_flags a b).
  { unfold append_gvar in H1. destruct (negb _); [eapply Error_flags; exact H1|]. destruct (Parser.mem _ _).
    - apply Error_flags in H1. exact H1.
    - injection H1 as <-. repeat split. }
  destruct G as (G1 & G2 & G3). repeat split; congruence.
Qed.
Lemma act_flags r d v a v' a' : prodno r -> act r d v a = Ok (v', a') -> flags_by r a a'.
Proof.
  assert (S : forall r b, same_flags a b -> d_loop r = 0 -> d_try r = 0 -> match r with 13 | 14 => False | _ => True end -> flags_by r a b).
  { intros r0 b (S1 & S2 & S3) E1 E2 E3. unfold flags_by. rewrite E1, E2, S1, S2, S3. split; [lia|]. split; [lia|].
    destruct r0 as [|p|p]; try reflexivity. do 4 (destruct p as [p|p|]; try reflexivity; try contradiction). }
  intros Hr. all_prods r Hr; cbn [act]; try (intros [= <- <-]; unfold flags_by; cbn; repeat split; try reflexivity; lia).
  1: { intros H. apply bind_ok in H as (b & H & E). injection E as <- <-. apply S; try reflexivity. eapply gvars_flags; exact H. }
  1: { intros H. apply bind_ok in H as (b & H & E). injection E as <- <-. apply S; try reflexivity. unfold append_func in H. destruct (_ && _); [eapply Error_flags; exact H|injection H as <-; repeat split]. }
  1: { intros H. apply bind_ok in H as (b & H & E). injection E as <- <-. apply S; try reflexivity. cbv zeta in H. destruct (_ && _); [eapply Error_flags; exact H|injection H as <-; repeat split]. }
  1, 2: intros H; apply bind_ok in H as ([m [n|]] & H & E); [apply bind_ok in E as (b & E1 & E); injection E as <- <-; apply S; try reflexivity; eapply Error_flags; exact E1|injection E as <- <-; apply S; try reflexivity; repeat split].
  1-4: intros H; apply bind_ok in H as (b & H & E); injection E as <- <-; apply S; try reflexivity; unfold checkLoopOperator, checkThrowParam, checkReturnParam in H;
    match type of H with (if ?c then _ else _) = _ => destruct c end; [eapply Error_flags; exact H|injection H as <-; repeat split].
  destruct (v_param v) as [[x n] b]. intros [= <- <-]. apply S; try reflexivity. repeat split.
Qed.

(** * Labels *)
Lemma ends_lab l : ends_with_label l -> lab_after false false l = true.
Proof.
  intros (u & n & -> & H). rewrite lab_app. cbn [lab_after kind_of]. change (tGoToLabel =? tGoToLabel) with true. cbn [andb]. apply negb_true_iff.
  destruct u as [|x u] using rev_ind; [reflexivity|]. clear IHu. specialize (H _ _ eq_refl). assert (G : forall v, val_after v (u ++ [x]) = before_value (kind_of x)) by (induction u as [|y u IH]; intros v; [reflexivity|apply IH; destruct u; reflexivity]).
  rewrite G. exact H.
Qed.
Lemma lab_stmt s : forall lab val, lab_after lab val (toks_stmt s) = true -> exists n, s = CExpr (ELabel n).
Proof.
  destruct s; cbn [toks_stmt]; intros lab val H; try discriminate H.
  - rewrite lab_app in H. change (before_value (kind_of (K tEQUAL))) with true in H. rewrite lab_value in H. discriminate H.
  - apply lab_expr in H as (n & ->). eauto.
  - revert H. rewrite !app_comm_cons, !app_assoc. match goal with |- context [?l ++ [K tEndIf]] => idtac end. repeat (rewrite ?app_comm_cons, ?app_assoc). rewrite lab_last by discriminate. discriminate.
  - revert H. repeat (rewrite ?app_comm_cons, ?app_assoc). rewrite lab_last by discriminate. discriminate.
  - revert H. repeat (rewrite ?app_comm_cons, ?app_assoc). rewrite lab_last by discriminate. discriminate.
  - revert H. repeat (rewrite ?app_comm_cons, ?app_assoc). rewrite lab_last by discriminate. discriminate.
  - revert H. repeat (rewrite ?app_comm_cons, ?app_assoc). rewrite lab_last by discriminate. discriminate.
  - destruct o; [discriminate H|]. cbn [toks_oexpr lab_after] in H. change (before_value (kind_of (K tThrow))) with true in H. rewrite lab_value in H. discriminate H.
  - destruct o; [discriminate H|]. cbn [toks_oexpr lab_after] in H. change (before_value (kind_of (K tReturn))) with true in H. rewrite lab_value in H. discriminate H.
Qed.
Lemma lab_tail P l : l <> [] -> lab_after false false (P ++ l) = true -> exists lab val, lab_after lab val l = true.
Proof. intros H. destruct l as [|t l]; [contradiction|]. rewrite lab_app. intros E. exists false, (val_after false P). exact E. Qed.
Lemma label_last B v a b pre : ev (t_block B) v a b -> ends_with_label (pre ++ toks_block B) -> elems (v_opt_body v) = [] \/ is_label (last (elems (v_opt_body v)) SNil) = true.
Proof.
  intros H L. apply ends_lab in L.
  assert (G : forall n s v a b, s = CExpr (ELabel n) -> ev (t_stmt s) v a b -> v_stmt v = SLabel n).
  { clear. intros n s v a b -> H. cbn [t_stmt] in H. set (e := ELabel n) in H. assert (Ee : mean_expr e = SLabel n) by reflexivity. clearbody e. repeat ev1. 
    match goal with H : ev (t_expr e) _ _ _ |- _ => apply eval_expr in H as [_ H] end. acts. slots. congruence. }
  assert (stmt_not_nil : forall s, toks_stmt s <> []).
  { clear. intros s E. destruct s; cbn [toks_stmt] in E; try discriminate.
    - apply app_eq_nil in E as [_ E]. discriminate.
    - pose proof (proj1 begins_all e) as X. rewrite E in X. discriminate X. }
  destruct B as [|s|B x|B x s]; cbn [t_block] in H.
  - left. repeat ev1. acts. slots. reflexivity.
  - right. cbn [toks_block] in L. apply lab_tail in L as (lab & val & L); [|apply stmt_not_nil]. apply lab_stmt in L as (n & E). cbn [child] in H. repeat ev1.
    match goal with H : ev (t_stmt s) _ _ _ |- _ => apply (G n _ _ _ _ E) in H as E1 end. acts. slots. rewrite E1. reflexivity.
  - exfalso. cbn [toks_block] in L. apply lab_tail in L as (lab & val & L); [|destruct (toks_block B); discriminate]. revert L. rewrite lab_app. destruct x; discriminate.
  - right. cbn [toks_block] in L. apply lab_tail in L as (lab & val & L); [|destruct (toks_block B); discriminate]. rewrite lab_app in L.
    apply lab_stmt in L as (n & E). cbn [child] in H.
    set (u := t_block B) in H. set (w := t_sep x) in H. clearbody u w. repeat ev1.
    match goal with H : ev (t_stmt s) _ _ _ |- _ => apply (G n _ _ _ _ E) in H as E1 end.
    match goal with H : act 19 _ _ _ = _ |- _ => cbn [act nth Nat.sub] in H; apply bind_ok in H as (? & _ & H) end. acts. slots. rewrite E1. cbn [is_nil].
    cbn [set_body v_body elems]. rewrite last_last. reflexivity.
Qed.

(** * The culprit of an action *)
Definition is_culprit (a : astnode) (m : emsg) (w : list tk) : Prop :=
  exists pre0 c, w = pre0 ++ c /\ forall pre,
    (a_isLoop a = 0 -> balance tLoop tEndLoop pre <= 0) -> (a_isTry a = 0 -> balance tCatch tEndTry pre <= 0) ->
    (a_isFunction a = false -> balance tFunction tEndFunction pre <= 0) ->
    (forall n, In n (map gv_name (elems (m_gvars (a_module a)))) -> declares n pre) -> (m = MGlobalPlace -> elems (m_body (a_module a)) <> [] -> has_func pre) -> culprit m (pre ++ pre0) c.
Definition checking : list Z := [6; 19; 26; 27; 49; 50; 51; 52].
Definition blames (r : Z) (ds : list slot) (m : emsg) : Prop :=
  In r checking /\ match m with MLoopOp w => (r = 49 \/ r = 50) /\ w = tk_lit (v_token (nth 0 ds zero_slot)) | _ => True end.
Definition act_blame (r : Z) (ch : list tree) (ds : list slot) (a a' : astnode) : Prop :=
  a_err a' = a_err a \/ exists m, a_err a' = Some (loc (a_code a) (a_cur a) m) /\ tk_ast (a_cur a) = true /\
    (m = MFuncPlace \/ is_culprit a m (flat_map yield ch) /\ blames r ds m).
Lemma mem_in k l : Parser.mem k l = true -> In k l.
Proof. unfold Parser.mem. rewrite existsb_exists. intros (x & H & E). apply beqb_eq in E. subst. exact H. Qed.
Definition again {A : Type} (n : A) (l : list A) : Prop := exists u v w, l = u ++ n :: v ++ n :: w.
Lemma appendVars_in ids : forall m m' n, appendVars m ids = Ok (m', Some n) -> In n ids /\ (In n (elems m) \/ again n ids).
Proof.
  induction ids as [|v ids IH]; intros m m' n H; cbn [appendVars] in H; [discriminate|]. destruct (Parser.mem v (elems m)) eqn:E.
  - injection H as _ <-. split; [left; reflexivity|]. left. apply mem_in. exact E.
  - destruct m as [m|]; [|discriminate]. destruct (IH _ _ _ H) as [H1 [H2|(u & x & w & ->)]].
    + split; [right; exact H1|]. cbn [elems] in *. apply in_app_or in H2 as [H2|[->|[]]]; [left; exact H2|]. right.
      apply in_split in H1 as (u & w & ->). exists [], u, w. reflexivity.
    + split; [right; exact H1|]. right. exists (v :: u), x, w. reflexivity.
Qed.
Lemma appendVars_names ids : forall m m' r, appendVars m ids = Ok (m', r) -> incl (elems m') (elems m ++ ids).
Proof.
  induction ids as [|v ids IH]; intros m m' r H; cbn [appendVars] in H; [injection H as <- <-; apply incl_appl, incl_refl|].
  destruct (Parser.mem v (elems m)); [injection H as <- <-; apply incl_appl, incl_refl|]. destruct m as [m|]; [|discriminate].
  apply IH in H. intros x Hx. apply H in Hx. cbn [elems] in *. rewrite !in_app_iff in *. cbn [In] in *. tauto.
Qed.
Lemma names_in l n : In n (name_list l) -> In (KId n) (toks_names l).
Proof.
  induction l as [x|l IH x]; cbn [name_list toks_names]; [intros [->|[]]; left; reflexivity|]. intros H. apply in_or_app.
  apply in_app_or in H as [H|[->|[]]]; [left; auto|right; right; left; reflexivity].
Qed.
Lemma again_app {A : Type} (n : A) l1 l2 : again n (l1 ++ l2) -> again n l1 \/ again n l2 \/ In n l1 /\ In n l2.
Proof.
  intros (u & v & w & E). revert u E. induction l1 as [|x l1 IH]; intros u E; [right; left; exists u, v, w; exact E|].
  destruct u as [|y u]; cbn [app] in E; injection E as -> E.
  - assert (In n (l1 ++ l2)) as H by (rewrite E; apply in_or_app; right; left; reflexivity). apply in_app_or in H as [H|H]; [left|right; right; split; [left; reflexivity|exact H]].
    apply in_split in H as (u & w' & ->). exists [], u, w'. reflexivity.
  - destruct (IH _ E) as [(u' & v' & w' & ->)|[H|[H1 H2]]]; [left; exists (y :: u'), v', w'; reflexivity|right; left; exact H|right; right; split; [right; exact H1|exact H2]].
Qed.
Lemma twice_l {A : Type} (n : A) u v : twice n u -> twice n (u ++ v).
Proof. intros (a & b & c & ->). exists a, b, (c ++ v). rewrite <- !app_assoc. cbn [app]. rewrite <- app_assoc. reflexivity. Qed.
Lemma twice_r {A : Type} (n : A) u v : twice n v -> twice n (u ++ v).
Proof. intros (a & b & c & ->). exists (u ++ a), b, c. rewrite <- app_assoc. reflexivity. Qed.
Lemma twice_both {A : Type} (n : A) u v : In n u -> In n v -> twice n (u ++ v).
Proof.
  intros Hu Hv. apply in_split in Hu as (u1 & u2 & ->). apply in_split in Hv as (v1 & v2 & ->). exists u1, (u2 ++ v1), v2. rewrite <- !app_assoc. cbn [app]. reflexivity.
Qed.
Lemma names_twice l n : again n (name_list l) -> twice (KId n) (toks_names l).
Proof.
  induction l as [x|l IH x]; cbn [name_list toks_names]; intros H.
  - destruct H as (u & v & w & E). destruct u as [|? [|]]; destruct v; discriminate E.
  - apply again_app in H as [H|[H|[H1 H2]]]; [apply twice_l; auto| |].
    + destruct H as (u & v & w & E). destruct u as [|? [|]]; destruct v; discriminate E.
    + destruct H2 as [->|[]]. apply twice_both; [apply names_in, H1|right; left; reflexivity].
Qed.
(** The map of a row of Перем lists has no other names than those. *)
Lemma evars_names x : x <> VNil -> forall v a a', ev (child (t_vars x)) v a a' -> forall n, In n (elems (v_explicit_variables v)) -> In (KId n) (toks_vars x).
Proof.
  induction x as [|x IH l]; intros Hx v a a' H n Hn; [contradiction|]. cbn [toks_vars]. apply in_or_app. destruct x as [|x0 l0].
  - right. right. cbn [t_vars child] in *. unf. repeat ev1.
    match goal with H : ev (t_names l) _ _ _ |- _ => apply eval_names in H as [H E] end.
    match goal with H : act 26 _ _ _ = _ |- _ => cbn [act nth Nat.sub] in H; rename H into HA end. acts. slots. rewrite E in HA.
    apply bind_ok in HA as ([m r] & HA & HB). apply appendVars_names in HA. cbn [elems app] in HA. apply in_or_app. left. apply names_in.
    destruct r as [r|]; [apply bind_ok in HB as (y & _ & HB)|]; injection HB as <- <-; [destruct Hn|]. apply HA, Hn.
  - assert (E0 : child (t_vars (VSnoc (VSnoc x0 l0) l)) = Node 27 [child (t_vars (VSnoc x0 l0)); lf tVar; t_names l; semi]) by reflexivity.
    rewrite E0 in H. clear E0. set (y := VSnoc x0 l0) in *. set (u := child (t_vars y)) in *. clearbody u. assert (Hy : y <> VNil) by discriminate. clearbody y. unf. repeat ev1.
    match goal with H : ev (t_names l) _ _ _ |- _ => apply eval_names in H as [H E] end.
    match goal with H : act 27 _ _ _ = _ |- _ => cbn [act nth Nat.sub] in H; rename H into HA end. acts. slots. rewrite E in HA.
    apply bind_ok in HA as ([m r] & HA & HB). apply appendVars_names in HA.
    assert (Hm : In n (elems m)) by (destruct r as [r|]; [apply bind_ok in HB as (z & _ & HB)|]; injection HB as <- <-; exact Hn).
    apply HA, in_app_or in Hm as [Hm|Hm]; [left; eapply IH; eassumption|right; right; apply in_or_app; left; apply names_in, Hm].
Qed.
Lemma gvars_blame vs : forall a a', append_gvars vs a = Ok a' -> a_err a' = a_err a \/ exists m, a_err a' = Some (loc (a_code a) (a_cur a) m) /\ tk_ast (a_cur a) = true /\
  (m = MGlobalPlace /\ elems (m_body (a_module a)) <> [] \/ exists n, m = MGlobalDup n /\ In n (map gv_name vs) /\ (In n (map gv_name (elems (m_gvars (a_module a)))) \/ again n (map gv_name vs))).
Proof.
  induction vs as [|v vs IH]; cbn [append_gvars]; intros a a' H; [injection H as <-; auto|].
  apply bind_ok in H as (b & H1 & H2). pose proof (append_gvar_input _ _ _ H1) as (I1 & I2 & _). apply IH in H2 as [H2|(m & M1 & M2 & M3)].
  - rewrite H2. unfold append_gvar in H1. destruct (negb _) eqn:En.
    + apply Error_loc in H1 as [-> Ht]. right. exists MGlobalPlace. split; [reflexivity|]. split; [exact Ht|]. left. split; [reflexivity|]. intros E0. rewrite E0 in En. discriminate En.
    + destruct (Parser.mem _ _) eqn:E.
      * apply Error_loc in H1 as [-> Ht]. right. exists (MGlobalDup (gv_name v)). split; [reflexivity|]. split; [exact Ht|]. right. eexists. split; [reflexivity|]. split; [left; reflexivity|]. left. apply mem_in, E.
      * injection H1 as <-. left. reflexivity.
  - right. rewrite I1, I2 in M1. rewrite I2 in M2. exists m. split; [exact M1|]. split; [exact M2|]. assert (Eb : m_body (a_module b) = m_body (a_module a)) by (unfold append_gvar in H1; destruct (negb _); [apply Error_loc in H1 as [-> _]; reflexivity|]; destruct (Parser.mem _ _); [apply Error_loc in H1 as [-> _]; reflexivity|injection H1 as <-; reflexivity]). rewrite Eb in M3. destruct M3 as [M3|(n & M3 & M4 & M5)]; [auto|]. right. exists n. split; [exact M3|]. split; [right; exact M4|].
    destruct M5 as [M5|(u & x & w & E)]; [|right; exists (gv_name v :: u), x, w; cbn [map]; rewrite E; reflexivity].
    assert (G : In n (map gv_name (elems (m_gvars (a_module a)))) \/ n = gv_name v).
    { unfold append_gvar in H1. destruct (negb _); [apply Error_loc in H1 as [-> _]; left; exact M5|]. destruct (Parser.mem _ _).
      - apply Error_loc in H1 as [-> _]. left. exact M5.
      - injection H1 as <-. cbn [set_module a_module m_gvars elems] in M5. rewrite map_app in M5. apply in_app_or in M5 as [M5|[M5|[]]]; auto. }
    destruct G as [G|G]; [left; exact G|right]. subst n. apply in_split in M4 as (u & w & E). exists [], u, w. cbn [map app]. rewrite E. reflexivity.
Qed.
Lemma gvars_names vs : forall a a', append_gvars vs a = Ok a' -> incl (map gv_name (elems (m_gvars (a_module a')))) (map gv_name (elems (m_gvars (a_module a))) ++ map gv_name vs).
Proof.
  induction vs as [|v vs IH]; cbn [append_gvars]; intros a a' H; [injection H as <-; apply incl_appl, incl_refl|].
  apply bind_ok in H as (b & H1 & H2). apply IH in H2. intros x Hx. apply H2, in_app_or in Hx as [Hx|Hx]; [|apply in_or_app; right; right; exact Hx].
  unfold append_gvar in H1. apply in_or_app. destruct (negb _); [apply Error_loc in H1 as [-> _]; left; exact Hx|]. destruct (Parser.mem _ _).
  - apply Error_loc in H1 as [-> _]. left. exact Hx.
  - injection H1 as <-. cbn [set_module a_module m_gvars elems] in Hx. rewrite map_app in Hx. apply in_app_or in Hx as [Hx|[Hx|[]]]; [left; exact Hx|right; left; exact Hx].
Qed.
Ltac cells H := repeat match type of H with
  | evs (_ :: _) _ _ _ => let E := fresh "C" in apply evs_cons_inv in H as (? & ? & ? & -> & E & H)
  | evs [] _ _ _ => apply evs_nil_inv in H as [-> ->]
  end.
Ltac own H := apply Error_loc in H as [-> ?]; right; eexists; split; [reflexivity|]; split; [assumption|].
Ltac repr_of W r := let R := fresh "R" in pose proof (wf_repr _ W (lhs r) eq_refl) as R; change (lhs r) with ltac:(let x := eval vm_compute in (lhs r) in exact x) in R; cbn [repr] in R.
Lemma act_blames r ch ds b b' a v0 v' a' : wf (Node r ch) -> evs ch ds b b' -> act r (fun i => nth (i - 1) ds zero_slot) v0 a = Ok (v', a') -> act_blame r ch ds a a'.
Proof.
  intros W HE. inversion W as [|r' ch' Hr HS HF]; subst. unfold act_blame.
  revert HE W HS HF. all_prods r Hr; intros HE W HS HF; cbn [act]; try (intros [= <- <-]; left; reflexivity).
  - (* 6 *) intros H. apply bind_ok in H as (x & H & E). injection E as <- <-. repr_of W 6. destruct R as (i & _ & R). destruct i as [d l e|]; [|discriminate R]. cbn [t_item] in R. injection R as ->.
    pose proof (Forall_inv HF) as W1.
    cells HE. apply gvars_blame in H as [H|(m & M1 & M2 & M3)]; [left; exact H|right]. exists m. split; [exact M1|]. split; [exact M2|]. right.
    assert (D : derives n_global_variables (map kind_of (yield (Node 12 [t_dir d; lf tVar; t_names l; t_export e; semi])))) by (apply wf_derives; [exact W1|reflexivity]).
    split; [|split; [cbn; tauto|destruct M3 as [[-> _]|(n & -> & _)]; exact I]]. exists [], (yield (Node 12 [t_dir d; lf tVar; t_names l; t_export e; semi])). split; [cbn [flat_map app]; rewrite app_nil_r; reflexivity|]. intros pre _ _ _ Hg Hb.
    destruct M3 as [[-> M3]|(n & -> & M3 & M4)]; cbn [culprit]; (split; [exact D|]); rewrite app_nil_r; [exact (Hb eq_refl M3)|].
    assert (En : map gv_name (v_global_variables (nth 0 [x0] zero_slot)) = name_list l).
    { cbn [nth]. clear - C. unf. repeat ev1. match goal with H : ev (t_names _) _ _ _ |- _ => apply eval_names in H as [H En] end. acts. slots.
      rewrite map_map. match type of En with ?x = _ => change (x = name_list l) end. exact En. }
    cbn [nth Nat.sub] in M3, M4, En. rewrite En in M3, M4.
    change (yield (Node 12 [t_dir d; lf tVar; t_names l; t_export e; semi])) with (yield (t_dir d) ++ [K tVar] ++ yield (t_names l) ++ yield (t_export e) ++ yield semi ++ []).
    rewrite yield_names. destruct M4 as [M4|M4]; [right|left; apply twice_r, twice_r, twice_l, names_twice, M4]. split; [|apply Hg, M4].
    apply names_in in M3. rewrite !in_app_iff. tauto.
  - (* 7 *) intros H. apply bind_ok in H as (x & H & E). injection E as <- <-. unfold append_func in H. destruct (_ && _); [own H; left; reflexivity|injection H as <-; left; reflexivity].
  - (* 19 *) intros H. apply bind_ok in H as (x & H & E). injection E as <- <-. cbv zeta in H. destruct (_ && _) eqn:E0; [|injection H as <-; left; reflexivity]. own H. right. split; [|split; [cbn; tauto|exact I]].
    apply andb_true_iff in E0 as [E0 E2]. apply andb_true_iff in E0 as [E0 E1].
    assert (R : exists B x0 S, ch = [t_block B; t_sep x0; S] /\ derives n_opt_stmt (map kind_of (yield S))).
    { destruct ch as [|c1 [|c2 [|c3 [|c4 ch]]]]; try discriminate HS. injection HS as S1 S2 S3. inversion HF as [|? ? F1 F']; subst. inversion F' as [|? ? F2 F'']; subst. inversion F'' as [|? ? F3 _]; subst.
      destruct (wf_repr _ F1 n_opt_body S1) as (B & ->). destruct (wf_repr _ F2 n_separator S2) as (x0 & ->). exists B, x0, c3. split; [reflexivity|]. apply wf_derives; assumption. }
    destruct R as (B & x0 & S & -> & D). cells HE. cbn [nth Nat.sub] in E0, E1, E2. destruct x0.
    { exfalso. cbn [t_sep] in C0. unf. repeat ev1. acts. slots. match goal with H : tok_rel _ _ |- _ => apply rel_semi in H; rename H into T end.
      unfold lit_of in E0. cbn [v_token set_yys set_token] in E0. rewrite T in E0. vm_compute in E0. discriminate E0. }
    exists (yield (t_block B)), (K 58 :: yield S). split; [cbn [flat_map t_sep yield app]; rewrite !app_nil_r; reflexivity|]. intros pre _ _ _ _ _. cbn [culprit]. split; [exists (yield S); auto|]. rewrite yield_block. intros L.
    destruct (label_last _ _ _ _ _ C L) as [L'|L']; rewrite L' in *; [discriminate E1|discriminate E2].
  - (* 26 *) intros H. apply bind_ok in H as ([m [n|]] & H & E); [|injection E as <- <-; left; reflexivity]. apply bind_ok in E as (x & E & E2). injection E2 as <- <-. own E. right. split; [|split; [cbn; tauto|exact I]].
    repr_of W 26. destruct R as (w & Hw & R). destruct w as [|[|w0 l0] l]; [contradiction| |discriminate R]. cbn [t_vars child] in R. injection R as ->.
    inversion HF as [|? ? _ F']; subst. pose proof (Forall_inv F') as W2. assert (D : derives n_identifiers (map kind_of (yield (t_names l)))) by (apply wf_derives; [exact W2|destruct l; reflexivity]).
    cells HE. cbn [nth Nat.sub] in H. apply eval_names in C0 as [_ En]. rewrite En in H. apply appendVars_in in H as [H [[]|H']]. rewrite yield_names in D.
    exists [], (K tVar :: toks_names l ++ [K 59]). split; [cbn [flat_map yield lf app semi]; rewrite yield_names; reflexivity|]. intros pre _ _ _ _ _. cbn [culprit]. exists (toks_names l). split; [reflexivity|]. split; [exact D|]. left. apply names_twice, H'.
  - (* 27 *) intros H. apply bind_ok in H as ([m [n|]] & H & E); [|injection E as <- <-; left; reflexivity]. apply bind_ok in E as (x & E & E2). injection E2 as <- <-. own E. right. split; [|split; [cbn; tauto|exact I]].
    repr_of W 27. destruct R as (w & Hw & R). destruct w as [|[|w0 l0] l]; [contradiction|discriminate R|].
    change (child (t_vars (VSnoc (VSnoc w0 l0) l))) with (Node 27 [child (t_vars (VSnoc w0 l0)); lf tVar; t_names l; semi]) in R.
    assert (Eu : yield (child (t_vars (VSnoc w0 l0))) = toks_vars (VSnoc w0 l0)).
    { rewrite <- yield_vars, (t_vars_25' (VSnoc w0 l0)) by discriminate. cbn [yield flat_map child]. rewrite app_nil_r. reflexivity. }
    pose proof (evars_names (VSnoc w0 l0) ltac:(discriminate)) as Hv. rewrite <- Eu in Hv. clear Eu.
    set (u := child (t_vars (VSnoc w0 l0))) in R, Hv. clearbody u. injection R as ->.
    pose proof (Forall_inv HF) as W0. assert (D0 : derives n_explicit_variables (map kind_of (yield u))) by (apply wf_derives; [exact W0|injection HS as HS; exact HS]).
    inversion HF as [|? ? _ F']; subst. inversion F' as [|? ? _ F'']; subst. pose proof (Forall_inv F'') as W2. assert (D : derives n_identifiers (map kind_of (yield (t_names l)))) by (apply wf_derives; [exact W2|destruct l; reflexivity]).
    cells HE. cbn [nth Nat.sub] in H. apply eval_names in C1 as [_ En]. rewrite En in H. apply appendVars_in in H as [H H']. apply names_in in H. rewrite yield_names in D.
    exists (yield u), (K tVar :: toks_names l ++ [K 59]). split; [cbn [flat_map yield lf app semi]; rewrite yield_names; reflexivity|]. intros pre _ _ _ _ _. cbn [culprit]. exists (toks_names l). split; [reflexivity|]. split; [exact D|].
    destruct H' as [H'|H']; [right|left; apply names_twice, H']. split; [exact H|]. exists pre, (yield u). split; [reflexivity|]. split; [exact D0|]. eapply Hv; eassumption.
  - (* 49 *) intros H. apply bind_ok in H as (x & H & E). injection E as <- <-. unfold checkLoopOperator in H. destruct (a_isLoop a =? 0) eqn:E0; [|injection H as <-; left; reflexivity]. own H. right. split; [|split; [cbn; tauto|split; [left; reflexivity|reflexivity]]].
    repr_of W 49. destruct R as (s & R). destruct s; try discriminate R; try (injection R as ->; fail). cbn [t_stmt] in R. injection R as ->.
    exists [], [K tContinue]. split; [reflexivity|]. intros pre P _ _ _ _. cbn [culprit]. rewrite app_nil_r. split; [auto|apply P; lia].
  - (* 50 *) intros H. apply bind_ok in H as (x & H & E). injection E as <- <-. unfold checkLoopOperator in H. destruct (a_isLoop a =? 0) eqn:E0; [|injection H as <-; left; reflexivity]. own H. right. split; [|split; [cbn; tauto|split; [right; reflexivity|reflexivity]]].
    repr_of W 50. destruct R as (s & R). destruct s; try discriminate R; try (injection R as ->; fail). cbn [t_stmt] in R. injection R as ->.
    exists [], [K tBreak]. split; [reflexivity|]. intros pre P _ _ _ _. cbn [culprit]. rewrite app_nil_r. split; [auto|apply P; lia].
  - (* 51 *) intros H. apply bind_ok in H as (x & H & E). injection E as <- <-. unfold checkThrowParam in H. destruct (_ && _) eqn:E0; [|injection H as <-; left; reflexivity]. own H. right. split; [|split; [cbn; tauto|exact I]].
    repr_of W 51. destruct R as (s & R). destruct s; try discriminate R. cbn [t_stmt] in R. injection R as ->. cells HE. cbn [nth Nat.sub] in E0. apply eval_oexpr in C0 as [_ En]. rewrite En, mean_oexpr_nil in E0.
    apply andb_true_iff in E0 as [E0 E1]. destruct o; [|discriminate E1].
    exists [], [K tThrow]. split; [reflexivity|]. intros pre _ P _ _ _. cbn [culprit]. rewrite app_nil_r. split; [reflexivity|apply P; lia].
  - (* 52 *) intros H. apply bind_ok in H as (x & H & E). injection E as <- <-. unfold checkReturnParam in H. destruct (_ && _) eqn:E0; [|injection H as <-; left; reflexivity]. own H. right. split; [|split; [cbn; tauto|exact I]].
    repr_of W 52. destruct R as (s & R). destruct s; try discriminate R. cbn [t_stmt] in R. injection R as ->. cells HE. cbn [nth Nat.sub] in E0. apply eval_oexpr in C0 as [_ En]. rewrite En, mean_oexpr_nil in E0.
    apply andb_true_iff in E0 as [E0 E1]. destruct o as [|e]; [discriminate E1|].
    inversion HF as [|? ? _ F']; subst. pose proof (Forall_inv F') as W2. cbn [t_oexpr] in W2. inversion W2 as [|? ? _ S3 W3]; subst. pose proof (Forall_inv W3) as W4. injection S3 as S3.
    assert (D : derives n_expr (map kind_of (yield (t_expr e)))) by (apply wf_derives; [exact W4|exact S3]).
    exists [], (K tReturn :: yield (t_expr e)). split; [cbn [flat_map yield lf app t_oexpr]; rewrite !app_nil_r; reflexivity|]. intros pre _ _ P _ _. cbn [culprit]. rewrite app_nil_r. exists (yield (t_expr e)). split; [reflexivity|]. split; [exact D|apply P; destruct (a_isFunction a); [discriminate|reflexivity]].
  - (* 97.. *) destruct (v_param v0) as [[x n] y]. intros [= <- <-]. left. reflexivity.
Qed.

(** Only production 6 declares module variables. *)
Lemma act_gvars r ch ds b b' a v0 v' a' : wf (Node r ch) -> evs ch ds b b' -> act r (fun i => nth (i - 1) ds zero_slot) v0 a = Ok (v', a') ->
  forall n, In n (map gv_name (elems (m_gvars (a_module a')))) -> In n (map gv_name (elems (m_gvars (a_module a)))) \/ r = 6 /\ declares n (flat_map yield ch).
Proof.
  intros W HE. inversion W as [|r' ch' Hr HS HF]; subst.
  assert (Err : forall m b, Error a m = Ok b -> forall n, In n (map gv_name (elems (m_gvars (a_module b)))) -> In n (map gv_name (elems (m_gvars (a_module a)))) \/ r = 6 /\ declares n (flat_map yield ch))
    by (intros m c E n Hn; apply Error_loc in E as [-> _]; left; exact Hn).
  revert HE W HS HF. all_prods r Hr; intros HE W HS HF; cbn [act]; try (intros [= <- <-]; cbn; auto; fail).
  - (* 6 *) intros H. apply bind_ok in H as (x & H & E). injection E as <- <-. repr_of W 6. destruct R as (i & _ & R). destruct i as [d l e|]; [|discriminate R]. cbn [t_item] in R. injection R as ->.
    pose proof (Forall_inv HF) as W1.
    cells HE. intros n Hn. apply (gvars_names _ _ _ H), in_app_or in Hn as [Hn|Hn]; [left; exact Hn|right; split; [reflexivity|]].
    assert (D : derives n_global_variables (map kind_of (yield (Node 12 [t_dir d; lf tVar; t_names l; t_export e; semi])))) by (apply wf_derives; [exact W1|reflexivity]).
    assert (En : map gv_name (v_global_variables (nth 0 [x0] zero_slot)) = name_list l).
    { cbn [nth]. clear - C. unf. repeat ev1. match goal with H : ev (t_names _) _ _ _ |- _ => apply eval_names in H as [H En] end. acts. slots.
      rewrite map_map. match type of En with ?x = _ => change (x = name_list l) end. exact En. }
    cbn [nth Nat.sub] in Hn, En. rewrite En in Hn. exists [], (yield (Node 12 [t_dir d; lf tVar; t_names l; t_export e; semi])), [].
    split; [reflexivity|]. split; [exact D|]. apply names_in in Hn.
    change (In (KId n) (yield (t_dir d) ++ [K tVar] ++ yield (t_names l) ++ yield (t_export e) ++ yield semi ++ [])). rewrite yield_names, !in_app_iff. tauto.
  - intros H. apply bind_ok in H as (x & H & E). injection E as <- <-. unfold append_func in H. destruct (_ && _); [eapply Err; exact H|injection H as <-; cbn; auto].
  - intros H. apply bind_ok in H as (x & H & E). injection E as <- <-. cbv zeta in H. destruct (_ && _); [eapply Err; exact H|injection H as <-; cbn; auto].
  - intros H. apply bind_ok in H as ([m [n|]] & H & E); [|injection E as <- <-; auto]. apply bind_ok in E as (x & E & E2). injection E2 as <- <-. eapply Err; exact E.
  - intros H. apply bind_ok in H as ([m [n|]] & H & E); [|injection E as <- <-; auto]. apply bind_ok in E as (x & E & E2). injection E2 as <- <-. eapply Err; exact E.
  - intros H. apply bind_ok in H as (x & H & E). injection E as <- <-. unfold checkLoopOperator in H. destruct (_ =? _); [eapply Err; exact H|injection H as <-; auto].
  - intros H. apply bind_ok in H as (x & H & E). injection E as <- <-. unfold checkLoopOperator in H. destruct (_ =? _); [eapply Err; exact H|injection H as <-; auto].
  - intros H. apply bind_ok in H as (x & H & E). injection E as <- <-. unfold checkThrowParam in H. destruct (_ && _); [eapply Err; exact H|injection H as <-; auto].
  - intros H. apply bind_ok in H as (x & H & E). injection E as <- <-. unfold checkReturnParam in H. destruct (_ && _); [eapply Err; exact H|injection H as <-; auto].
  - destruct (v_param v0) as [[x n] y]. intros [= <- <-]. auto.
Qed.
Lemma declares_app n u v : declares n u -> declares n (u ++ v).
Proof. intros (a & d & b & -> & H). exists a, d, (b ++ v). rewrite <- !app_assoc. auto. Qed.
Lemma declares_back n u v : declares n v -> declares n (u ++ v).
Proof. intros (a & d & b & -> & H). exists (u ++ a), d, b. rewrite <- !app_assoc. auto. Qed.

(** Module variables are declared below a node of the items of the module. *)
Definition item_syms : list Z := map (fun n => - nt_no n) [n_main; n_main_items; n_module].
Definition below (Q : list tk -> Prop) (st : frames) : Prop := exists st1 f st2, st = st1 ++ f :: st2 /\ zmem (sym_of (snd f)) item_syms = true /\ Q (read' (f :: st2)).
Lemma items_checked : forallb (fun r => implb (existsb (fun x => zmem x item_syms) (map sym_no (rhs r))) (zmem (- nt_no (lhs r)) item_syms && negb (zmem r checking))) prod_nos = true.
Proof. vm_compute. reflexivity. Qed.
Lemma below_read (Q : list tk -> Prop) st : (forall u v, Q u -> Q (u ++ v)) -> below Q st -> Q (read' st).
Proof.
  intros HQ (st1 & f & st2 & -> & _ & H). unfold read' in *. rewrite rev_app_distr, map_app, flat_map_app. apply HQ, H.
Qed.
Lemma below_cons Q f st : below Q st -> below Q (f :: st).
Proof. intros (st1 & f' & st2 & -> & H). exists (f :: st1), f', st2. split; [reflexivity|exact H]. Qed.
Lemma below_split Q A Bs r : below Q (A ++ Bs) -> prodno r -> map sym_of (map snd (rev A)) = map sym_no (rhs r) ->
  below Q Bs \/ (zmem (- nt_no (lhs r)) item_syms = true /\ zmem r checking = false).
Proof.
  intros (st1 & f & st2 & E & Hf & H) Hr HS. revert E. destruct (Nat.le_gt_cases (length A) (length st1)) as [L|L]; intros E.
  - left. exists (skipn (length A) st1), f, st2. split; [|auto]. rewrite <- (firstn_skipn (length A) st1), <- app_assoc in E.
    apply app_inj_length in E as [_ E]; [exact E|]. rewrite firstn_length_le by exact L. reflexivity.
  - right. assert (Hin : In f A).
    { rewrite <- (firstn_skipn (length st1) A), <- app_assoc in E. apply app_inj_length in E as [_ E]; [|rewrite firstn_length_le by lia; reflexivity].
      rewrite <- (firstn_skipn (length st1) A). apply in_or_app. right. destruct (skipn (length st1) A) as [|f' A'] eqn:Es.
      - exfalso. apply (f_equal (@length (Z * tree))) in Es. rewrite skipn_length in Es. cbn [length] in Es. lia.
      - injection E as -> _. left. reflexivity. }
    pose proof (forall_prods _ items_checked r Hr) as C. cbv beta in C.
    assert (X : existsb (fun x => zmem x item_syms) (map sym_no (rhs r)) = true).
    { apply existsb_exists. exists (sym_of (snd f)). split; [|exact Hf]. rewrite <- HS. apply in_map, in_map. apply in_rev in Hin. exact Hin. }
    rewrite X in C. cbn [implb] in C. apply andb_true_iff in C as [C1 C2]. apply negb_true_iff in C2. auto.
Qed.
Lemma func_app u v : has_func u -> has_func (u ++ v).
Proof. intros (a & d & b & -> & H). exists a, d, (b ++ v). rewrite <- !app_assoc. auto. Qed.
Lemma func_back u v : has_func v -> has_func (u ++ v).
Proof. intros (a & d & b & -> & H). exists (u ++ a), d, b. rewrite <- !app_assoc. auto. Qed.
(** Nothing is stacked on a whole module. *)
Definition module_sym : Z := - nt_no n_module.
Lemma module_checked : forallb (fun s => forallb (fun b => negb (chk b =? module_sym)) (pred s) && implb (chk s =? module_sym) (forallb (fun r => negb (reduce_ok s r)) checking)) states = true.
Proof. vm_compute. reflexivity. Qed.
Lemma module_top st : mwf st -> Exists (fun f => sym_of (snd f) = module_sym) st -> chk (top st) = module_sym.
Proof.
  induction st as [|[s u] st IH]; intros Hw H; [inversion H|]. pose proof (mwf_state _ Hw) as Hs. cbn [top fst] in *. apply mwf_cons in Hw as (Hw & W & E & Hin).
  inversion H as [? ? E1|? ? H1]; subst; [cbn [snd] in E1; congruence|]. specialize (IH Hw H1). exfalso.
  pose proof (forall_states _ module_checked s Hs) as C. cbv beta in C. apply andb_true_iff in C as [C _]. rewrite forallb_forall in C. specialize (C _ Hin). cbv beta in C. rewrite IH in C. discriminate C.
Qed.
(** Which productions add to the body of the module. *)
Lemma act_body r ch ds b b' a v0 v' a' : wf (Node r ch) -> evs ch ds b b' -> act r (fun i => nth (i - 1) ds zero_slot) v0 a = Ok (v', a') ->
  m_body (a_module a') = m_body (a_module a) \/ - nt_no (lhs r) = module_sym \/ r = 7 /\ has_func (flat_map yield ch).
Proof.
  intros W HE. inversion W as [|r' ch' Hr HS HF]; subst.
  assert (Err : forall m b, Error a m = Ok b -> m_body (a_module b) = m_body (a_module a)) by (intros m c E; apply Error_loc in E as [-> _]; reflexivity).
  revert HE W HS HF. all_prods r Hr; intros HE W HS HF; cbn [act]; try (intros [= <- <-]; left; reflexivity).
  - intros _. right. left. reflexivity.
  - intros _. right. left. reflexivity.
  - intros H. apply bind_ok in H as (x & H & E). injection E as <- <-. left. revert H. generalize (v_global_variables (nth (1 - 1) ds zero_slot)). intros vs. clear - Err.
    revert a Err x. induction vs as [|v vs IH]; intros a Err x; cbn [append_gvars]; [intros [= <-]; reflexivity|]. intros H. apply bind_ok in H as (y & H1 & H2).
    assert (Ey : m_body (a_module y) = m_body (a_module a)) by (unfold append_gvar in H1; destruct (negb _); [eauto|]; destruct (Parser.mem _ _); [apply Error_loc in H1 as [-> _]; reflexivity|injection H1 as <-; reflexivity]).
    rewrite <- Ey. apply (IH y); [|exact H2]. intros m c E. apply Error_loc in E as [-> _]. reflexivity.
  - intros _. right. right. split; [reflexivity|]. destruct ch as [|c [|c' ch]]; try discriminate HS. injection HS as HS. exists [], (yield c), []. split; [cbn [flat_map app]; rewrite !app_nil_r; reflexivity|].
    apply wf_derives; [exact (Forall_inv HF)|exact HS].
  - intros H. apply bind_ok in H as (x & H & E). injection E as <- <-. cbv zeta in H. left. destruct (_ && _); [eapply Err; exact H|injection H as <-; reflexivity].
  - intros H. apply bind_ok in H as ([m [n|]] & H & E); [|injection E as <- <-; auto]. apply bind_ok in E as (x & E & E2). injection E2 as <- <-. left. eapply Err; exact E.
  - intros H. apply bind_ok in H as ([m [n|]] & H & E); [|injection E as <- <-; auto]. apply bind_ok in E as (x & E & E2). injection E2 as <- <-. left. eapply Err; exact E.
  - intros H. apply bind_ok in H as (x & H & E). injection E as <- <-. left. unfold checkLoopOperator in H. destruct (_ =? _); [eapply Err; exact H|injection H as <-; auto].
  - intros H. apply bind_ok in H as (x & H & E). injection E as <- <-. left. unfold checkLoopOperator in H. destruct (_ =? _); [eapply Err; exact H|injection H as <-; auto].
  - intros H. apply bind_ok in H as (x & H & E). injection E as <- <-. left. unfold checkThrowParam in H. destruct (_ && _); [eapply Err; exact H|injection H as <-; auto].
  - intros H. apply bind_ok in H as (x & H & E). injection E as <- <-. left. unfold checkReturnParam in H. destruct (_ && _); [eapply Err; exact H|injection H as <-; auto].
  - destruct (v_param v0) as [[x n] y]. intros [= <- <-]. auto.
Qed.
Lemma no_module : forallb (fun r => negb (zmem module_sym (map sym_no (rhs r)))) prod_nos = true. Proof. vm_compute. reflexivity. Qed.
Lemma six_checked : zmem (- nt_no (lhs 6)) item_syms = true. Proof. reflexivity. Qed.

(** * The invariant *)
Definition rhs_marks (mk : list Z) (r : Z) : Z := Z.of_nat (length (filter (fun x => zmem x mk) (map sym_no (rhs r)))).
Definition lhs_mark (mk : list Z) (r : Z) : Z := if zmem (- nt_no (lhs r)) mk then 1 else 0.
Lemma marks_checked : forallb (fun r => (lhs_mark loop_marks r - rhs_marks loop_marks r <=? d_loop r) &&
  (lhs_mark catch_marks r - rhs_marks catch_marks r <=? d_try r) &&
  (match r with 13 => true | 14 => rhs_marks func_marks r =? 1 | _ => (lhs_mark func_marks r <=? 0) end)) prod_nos = true.
Proof. vm_compute. reflexivity. Qed.
Lemma marks_app mk u v : marks mk (u ++ v) = marks mk u + marks mk v.
Proof. unfold marks. rewrite filter_app, app_length. lia. Qed.
Lemma marks_pos mk u : 0 <= marks mk u. Proof. unfold marks. lia. Qed.
Lemma marks_rhs mk r A : map sym_of (map snd (rev A)) = map sym_no (rhs r) -> marks mk A = rhs_marks mk r.
Proof.
  intros H. unfold marks, rhs_marks. rewrite <- H. rewrite map_map. f_equal. rewrite <- (rev_length (filter _ A)).
  assert (G : forall (f : Z * tree -> bool) (l : frames), length (filter f (rev l)) = length (filter f l)).
  { intros f l. induction l as [|x l IH]; [reflexivity|]. cbn [rev]. rewrite filter_app, app_length, IH. cbn. destruct (f x); cbn; lia. }
  rewrite rev_length, <- (G _ A). clear. induction (rev A) as [|x l IH]; [reflexivity|]. cbn [map filter]. destruct (zmem (sym_of (snd x)) mk); cbn [length]; congruence.
Qed.
Definition blind (s : Z) : bool := (at_ yyPact s <=? yyFlag) && negb (at_ yyDef s =? -2).
Lemma blind_look p : blind (p_state p) = true -> look2 p = p.
Proof.
  unfold blind. intros H. apply andb_true_iff in H as [H1 H2]. unfold look2, look1. rewrite H1. destruct (at_ yyDef (p_state p) =? -2); [discriminate H2|reflexivity].
Qed.
Lemma spots_checked : forallb (fun s => implb (reduce_ok s 49 || reduce_ok s 50) (blind s) &&
  forallb (fun r => implb (reduce_ok s r) (negb (zmem s loop_hdr) && negb (zmem s catch_hdr) && negb (zmem s func_hdr))) checking) states = true.
Proof. vm_compute. reflexivity. Qed.
Lemma tree_closed r ch : wf (Node r ch) -> forall o c, In (o, c) pairs -> balance o c (flat_map yield ch) = 0.
Proof.
  intros W o c Hp. change (flat_map yield ch) with (yield (Node r ch)). rewrite (tree_bal _ _ Hp _ W). destruct (pair_ok o c Hp) as (_ & _ & P3 & P4). cbn [sym_of]. pose proof (nt_pos (lhs r)).
  unfold sym_bal. destruct (- nt_no (lhs r) =? tokno_of o) eqn:E1; [lia|]. destruct (- nt_no (lhs r) =? tokno_of c) eqn:E2; lia.
Qed.

(** The token of an error, and what it is about. *)
Definition spotted (code : bytes) (e : option perr) : Prop := forall m line col lit, e = Some (EParse m line col lit) ->
  exists l0 k t u, passes code (l0 ++ [(k, t)]) u /\ EParse m line col lit = loc code t m /\
    (m = MFuncPlace \/ exists pre c, culprit m pre c /\ shown_at m pre c (tks l0) (tk_of k t) /\ match m with MLoopOp w => w = tk_lit t | _ => True end).
(** The current token is the last one that was read. *)
Definition current (l : list (Z * token)) (p : pst) : Prop :=
  if p_char p <? 0 then tk_ast (a_cur (p_ast p)) = true -> exists l0 k, l = l0 ++ [(k, a_cur (p_ast p))] else a_cur (p_ast p) = v_token (p_lval p).
Definition fresh_top (st : frames) (vs : list slot) (p : pst) : Prop :=
  match st with (_, Leaf _) :: _ => p_char p < 0 /\ a_cur (p_ast p) = v_token (last vs zero_slot) | _ => True end.
Record watch (code : bytes) (st : frames) (vs : list slot) (a0 g : astnode) (l : list (Z * token)) (t : token) (p : pst) : Prop := {
  w_g : ginv (NewAST code) (map snd (rev st)) vs a0 g l t p;
  w_states : map yys vs = map fst (rev st);
  w_loop : marks loop_marks st <= a_isLoop (p_ast p);
  w_try : marks catch_marks st <= a_isTry (p_ast p);
  w_fun : marks func_marks st <= if a_isFunction (p_ast p) then 1 else 0;
  w_vars : forall n, In n (map gv_name (elems (m_gvars (a_module (p_ast p))))) -> below (declares n) st;
  w_body : elems (m_body (a_module (p_ast p))) <> [] -> below has_func st \/ Exists (fun f => sym_of (snd f) = module_sym) st;
  w_cur : current l p;
  w_err : spotted code (a_err (p_ast p)) }.
Lemma ginv_mwf a st vs a0 g l t p : inv p -> ginv a (map snd (rev st)) vs a0 g l t p -> map yys vs = map fst (rev st) -> mwf st.
Proof.
  intros Hi T V. split.
  - pose proof (i_path p Hi) as P. rewrite (g_stk _ _ _ _ _ _ _ _ T), map_app, map_rev, V, <- map_rev, rev_involutive in P. exact P.
  - pose proof (g_wf _ _ _ _ _ _ _ _ T) as W. pose proof (g_sym _ _ _ _ _ _ _ _ T) as S.
    assert (S' : map sym_of (map snd (rev st)) = map chk (map fst (rev st))) by (rewrite S, <- V, map_map; reflexivity).
    clear - W S'. apply Forall_rev in W. rewrite <- map_rev, rev_involutive in W. rewrite !map_map in S'.
    assert (S2 : map (fun x => sym_of (snd x)) st = map (fun x => chk (fst x)) st) by (apply (f_equal (@rev Z)) in S'; rewrite <- !map_rev, rev_involutive in S'; exact S').
    clear S'. induction st as [|[s u] st IH]; constructor.
    + cbn in *. inversion W; subst. injection S2 as E _. auto.
    + apply IH; [inversion W; assumption|injection S2 as _ E; exact E].
Qed.
Lemma ginv_top a st vs a0 g l t p : inv p -> ginv a (map snd (rev st)) vs a0 g l t p -> map yys vs = map fst (rev st) -> p_state p = top st.
Proof.
  intros Hi T V. destruct (i_top p Hi) as [l0 Ht]. rewrite (g_stk _ _ _ _ _ _ _ _ T), map_app, map_rev, V, <- map_rev, rev_involutive in Ht.
  destruct st as [|[s u] st]; cbn in Ht; injection Ht as Ht _; symmetry; exact Ht.
Qed.
Lemma look_watch code st vs a0 g l t p : inv p -> watch code st vs a0 g l t p -> exists a0' g' t', watch code st vs a0' g' l t' (look p).
Proof.
  intros Hi [W1 W2 W3 W4 W5 W6 W9 W7 W8]. destruct (look_ginv _ _ _ _ _ _ _ _ Hi W1) as (a1 & g1 & t1 & H1). exists a1, g1, t1.
  unfold look in H1 |- *. destruct (p_char p <? 0) eqn:E; [|constructor; auto]. unfold current in W7. rewrite E in W7.
  destruct (Lex (p_ast p) (v_token (p_lval p))) as [[c t'] a'] eqn:EL.
  destruct (Lex_spec _ _ _ _ _ (i_off p Hi) EL) as (_ & _ & [(K1 & _ & _ & -> & _)|[(-> & -> & _)|(-> & _ & k & e & _ & -> & _)]]).
  - apply kinds_pos in K1. constructor; auto. unfold current. cbn [p_char p_ast p_lval set_token v_token]. destruct (c <? 0) eqn:E0; [lia|reflexivity].
  - constructor; auto.
  - constructor; auto. intros m line col lit E2. discriminate E2.
Qed.
Lemma look1_watch code st vs a0 g l t p : inv p -> watch code st vs a0 g l t p -> exists a0' g' t', watch code st vs a0' g' l t' (look1 p).
Proof. intros Hi HT. unfold look1. destruct (_ <=? _); [eauto|]. eapply look_watch; eassumption. Qed.
Lemma look2_watch code st vs a0 g l t p : inv p -> watch code st vs a0 g l t p -> exists a0' g' t', watch code st vs a0' g' l t' (look2 p).
Proof.
  intros Hi HT. destruct (look1_inv p Hi) as (A1 & _). destruct (look1_watch _ _ _ _ _ _ _ _ Hi HT) as (a1 & g1 & t1 & H1).
  unfold look2. destruct (_ =? -2); [eapply look_watch; eassumption|eauto].
Qed.
Lemma passes_look code l t p : (p_char p < 0 /\ v_token (p_lval p) = t) \/ (In (p_char p) kinds /\ Next code t = (p_char p, v_token (p_lval p), None)) ->
  passes code l t -> 0 <= p_char p -> passes code (l ++ [(p_char p, v_token (p_lval p))]) (v_token (p_lval p)).
Proof. intros [[H _]|[H1 H2]] HP Hc; [lia|]. econstructor; [exact HP|exact H2|apply kinds_not_EOF, H1]. Qed.
Lemma shift_watch code st vs a0 g l t p q : inv p -> watch code st vs a0 g l t p -> 0 <= p_char p -> shift_of (p_state p) (p_tok p) = Some q ->
  exists st' vs' l' t', watch code st' vs' a0 g l' t' (shift p q) /\ fresh_top st' vs' (shift p q).
Proof.
  intros Hi [W1 W2 W3 W4 W5 W6 W9 W7 W8] Hc Hq. pose proof (shift_ginv _ _ _ _ _ _ _ _ _ Hi W1 Hc Hq) as HG.
  set (x := tk_of (p_char p) (v_token (p_lval p))) in *.
  exists ((q, Leaf x) :: st), (vs ++ [set_yys (p_lval p) q]), (l ++ [(p_char p, v_token (p_lval p))]), (v_token (p_lval p)).
  assert (N : forall mk, (forall z, In z mk -> z < 0) -> marks mk ((q, Leaf x) :: st) = marks mk st).
  { intros mk Hneg. unfold marks. cbn [filter snd]. destruct (zmem (sym_of (Leaf x)) mk) eqn:E; [|reflexivity]. exfalso. apply zmem_in, Hneg in E. cbn [sym_of] in E.
    pose proof (tokno_of_range (kind_of x)) as R. unfold tokno in R. lia. }
  unfold current in W7. destruct (p_char p <? 0) eqn:E0; [lia|].
  split.
  - constructor; cbn [shift push p_ast p_char].
    + cbn [rev]. rewrite map_app. exact HG.
    + cbn [rev]. rewrite !map_app, W2. reflexivity.
    + rewrite N by (intros z Hz; vm_compute in Hz; lia). exact W3.
    + rewrite N by (intros z Hz; vm_compute in Hz; lia). exact W4.
    + rewrite N by (intros z Hz; vm_compute in Hz; lia). exact W5.
    + intros n Hn. apply below_cons. auto.
    + intros Hn. destruct (W9 Hn) as [X|X]; [left; apply below_cons, X|right; right; exact X].
    + unfold current. cbn [shift push p_ast p_char]. intros _. rewrite W7. eauto.
    + exact W8.
  - cbn [fresh_top shift push p_char p_ast]. rewrite last_last. split; [lia|]. rewrite W7. reflexivity.
Qed.
Lemma reduce_watch code st vs a0 g l t p r p' : inv p -> watch code st vs a0 g l t p -> reduce_ok (p_state p) r = true -> inv p' -> reduce p r = Next_ p' ->
  (r = 49 \/ r = 50 -> fresh_top st vs p) ->
  exists st' vs' g', watch code st' vs' a0 g' l t p' /\ fresh_top st' vs' p'.
Proof.
  intros Hi [W1 W2 W3 W4 W5 W6 W9 W7 W8] R Hi' Hred Hf. pose proof (reduce_ginv _ _ _ _ _ _ _ _ r Hi W1 R) as HR. rewrite Hred in HR.
  destruct HR as (ts1 & ts2 & vs1 & ds & b & v0 & v' & q & g' & Ets & -> & HW & HE & HA & Ec & El & HG).
  pose proof (ginv_mwf _ _ _ _ _ _ _ _ Hi W1 W2) as Hmw. pose proof (ginv_top _ _ _ _ _ _ _ _ Hi W1 W2) as Htop.
  assert (Hr : prodno r) by (inversion HW; assumption).
  (* the frames *)
  assert (exists A Bs, st = A ++ Bs /\ map snd (rev A) = ts2 /\ map snd (rev Bs) = ts1 /\ map yys vs1 = map fst (rev Bs)) as (A & Bs & Est & EA & EB & EV).
  { apply map_eq_app in Ets as (l1 & l2 & E & E1 & E2). exists (rev l2), (rev l1). rewrite !rev_involutive. split; [rewrite <- rev_app_distr, <- E, rev_involutive; reflexivity|].
    split; [exact E2|]. split; [exact E1|]. rewrite E, !map_app in W2.
    pose proof (evs_length _ _ _ _ HE) as L. apply (f_equal (@length Z)) in W2 as L2. rewrite !app_length, !map_length in L2. rewrite <- E2, map_length in L.
    apply app_inj_length in W2 as [W2 _]; [exact W2|]. rewrite !map_length. lia. }
  exists ((q, Node r ts2) :: Bs), (vs1 ++ [set_yys v' q]), g'. split; [|exact I].
  destruct (act_flags _ _ _ _ _ _ Hr HA) as (G1 & G2 & G3). destruct (act_input _ _ _ _ _ _ Hr HA) as (I1 & I2 & _).
  pose proof (forall_prods _ marks_checked r Hr) as Ck. cbv beta in Ck. rewrite !andb_true_iff in Ck. destruct Ck as ((Ck1 & Ck2) & Ck3).
  assert (HS : map sym_of (map snd (rev A)) = map sym_no (rhs r)) by (rewrite EA; inversion HW; assumption).
  assert (M : forall mk, marks mk st = rhs_marks mk r + marks mk Bs).
  { intros mk. rewrite <- (marks_rhs mk r A HS), <- marks_app, <- Est. reflexivity. }
  assert (M' : forall mk s u, marks mk ((s, Node r u) :: Bs) = lhs_mark mk r + marks mk Bs).
  { intros mk s u. unfold marks, lhs_mark. cbn [filter snd sym_of]. destruct (zmem _ mk); cbn [length]; lia. }
  assert (Hst' : map yys (vs1 ++ [set_yys v' q]) = map fst (rev ((q, Node r ts2) :: Bs))) by (cbn [rev]; rewrite !map_app, EV; reflexivity).
  assert (HG' : ginv (NewAST code) (map snd (rev ((q, Node r ts2) :: Bs))) (vs1 ++ [set_yys v' q]) a0 g' l t p') by (cbn [rev]; rewrite map_app, EB; exact HG).
  pose proof (ginv_mwf _ _ _ _ _ _ _ _ Hi' HG' Hst') as Hmw'.
  assert (Rd : read' st = read' Bs ++ flat_map yield ts2) by (unfold read'; rewrite Est, rev_app_distr, map_app, flat_map_app, EA; reflexivity).
  pose proof (marks_pos func_marks Bs) as Mp.
  constructor; try assumption.
  - rewrite M', G1. rewrite M in W3. lia.
  - rewrite M', G2. rewrite M in W4. lia.
  - pose proof (one_function _ Hmw') as One. rewrite M' in One |- *. rewrite G3. rewrite M in W5.
    assert (C : r = 13 \/ r = 14 \/ (match r with 13 => true | 14 => false | _ => a_isFunction (p_ast p) end = a_isFunction (p_ast p) /\ (lhs_mark func_marks r <=? 0) = true)).
    { destruct (Z.eq_dec r 13) as [->|N13]; [auto|]. destruct (Z.eq_dec r 14) as [->|N14]; [auto|]. right. right. clear - Ck3 N13 N14.
      destruct r as [|z|z]; auto. do 4 (destruct z as [z|z|]; auto; try congruence). }
    destruct C as [-> | [-> | [-> C]]].
    + destruct (zmem _ inside) in One; lia.
    + cbn in Ck3 |- *. change (lhs_mark func_marks 14) with 0. change (rhs_marks func_marks 14) with 1 in W5. destruct (a_isFunction (p_ast p)); lia.
    + assert (0 <= rhs_marks func_marks r) by (unfold rhs_marks; lia). destruct (a_isFunction (p_ast p)); lia.
  - intros n Hn. assert (D : zmem (- nt_no (lhs r)) item_syms = true -> declares n (read' st) -> below (declares n) ((q, Node r ts2) :: Bs)).
    { intros Hz Hd. exists [], (q, Node r ts2), Bs. split; [reflexivity|]. split; [exact Hz|]. rewrite read_cons. cbn [yield]. rewrite Rd in Hd. exact Hd. }
    destruct (act_gvars _ _ _ _ _ _ _ _ _ HW HE HA n Hn) as [Hn'|[-> Hn']].
    + pose proof (W6 _ Hn') as X. pose proof (below_read _ _ (declares_app n) X) as Y. rewrite Est in X. destruct (below_split _ _ _ _ X Hr HS) as [Z|[Z _]]; [apply below_cons, Z|apply D; assumption].
    + apply D; [reflexivity|]. rewrite Rd. apply declares_back, Hn'.
  - intros Hn. destruct (act_body _ _ _ _ _ _ _ _ _ HW HE HA) as [Eb|[Eb|[-> Hb]]].
    + rewrite Eb in Hn. destruct (W9 Hn) as [X|X].
      * left. pose proof (below_read _ _ func_app X) as Y. rewrite Est in X. destruct (below_split _ _ _ _ X Hr HS) as [Z|[Z _]]; [apply below_cons, Z|].
        exists [], (q, Node r ts2), Bs. split; [reflexivity|]. split; [exact Z|]. rewrite read_cons. cbn [yield]. rewrite <- Rd. exact Y.
      * right. right. rewrite Est in X. apply Exists_app in X as [X|X]; [exfalso|exact X]. apply Exists_exists in X as (f & Hin & Ef).
        assert (Hi0 : In module_sym (map sym_no (rhs r))) by (rewrite <- HS, <- Ef; apply in_map, in_map, in_rev; rewrite rev_involutive; exact Hin).
        pose proof (forall_prods _ no_module r Hr) as C. cbv beta in C. apply negb_true_iff in C. apply zmem_in in Hi0. congruence.
    + right. left. exact Eb.
    + left. exists [], (q, Node 7 ts2), Bs. split; [reflexivity|]. split; [reflexivity|]. rewrite read_cons. apply func_back, Hb.
  - unfold current in *. rewrite Ec, El, I2. exact W7.
  - pose proof (g_code _ _ _ _ _ _ _ _ W1) as Cc. cbn [NewAST a_code] in Cc.
    destruct (act_blames _ _ _ _ _ _ _ _ _ HW HE HA) as [S1|(m & S1 & S2 & S3)]; [rewrite S1; exact W8|]. rewrite S1, Cc.
    intros m1 line col lit E1. assert (m1 = m) as -> by (unfold loc in E1; congruence).
    pose proof (g_yield _ _ _ _ _ _ _ _ W1) as Y. change (flat_map yield (map snd (rev st))) with (read' st) in Y.
    pose proof (g_reads _ _ _ _ _ _ _ _ W1) as RP. cbn [NewAST a_code] in RP. pose proof (g_look _ _ _ _ _ _ _ _ W1) as LK. cbn [NewAST a_code] in LK.
    assert (Cur : exists l0 k u, passes code (l0 ++ [(k, a_cur (p_ast p))]) u /\
      ((p_char p < 0 /\ tks l0 ++ [tk_of k (a_cur (p_ast p))] = read' st) \/ (0 <= p_char p /\ tks l0 = read' st))).
    { unfold current in W7. destruct (p_char p <? 0) eqn:E0.
      - destruct (W7 S2) as (l0 & k & E). exists l0, k, t. rewrite <- E. split; [exact RP|]. left. split; [lia|]. rewrite Y, E. unfold tks. rewrite map_app. reflexivity.
      - exists l, (p_char p), (v_token (p_lval p)). rewrite W7. split; [apply passes_look with (t := t); [exact LK|exact RP|lia]|]. right. split; [lia|]. symmetry. exact Y. }
    destruct Cur as (l0 & k & u & Q1 & Q2). exists l0, k, (a_cur (p_ast p)), u. split; [exact Q1|]. split; [congruence|].
    destruct S3 as [S3|[S3 S4]]; [left; exact S3|right]. destruct S3 as (pre0 & c & Yc & S3).
    pose proof (forall_states _ spots_checked _ (mwf_state _ Hmw)) as Sp. cbv beta in Sp. rewrite andb_true_iff, forallb_forall in Sp. destruct Sp as (Sp1 & Sp2).
    destruct S4 as [S4 S5]. specialize (Sp2 _ S4). cbv beta in Sp2. rewrite <- Htop, R, Htop in Sp2. cbn [implb] in Sp2. rewrite !andb_true_iff, !negb_true_iff in Sp2. destruct Sp2 as ((Sp2 & Sp3) & Sp4).
    assert (Yst : read' st = (read' Bs ++ pre0) ++ c) by (rewrite Rd, Yc, app_assoc; reflexivity).
    assert (Bal : forall o e, In (o, e) pairs -> balance o e (read' st) = balance o e (read' Bs)).
    { intros o e Hp. rewrite Rd, balance_app, (tree_closed _ _ HW _ _ Hp). lia. }
    exists (read' Bs ++ pre0), c.
    pose proof headers_checked as HC. rewrite !andb_true_iff in HC. destruct HC as ((HC1 & HC2) & HC3).
    assert (BT : forall w, m = MLoopOp w -> p_char p < 0 /\ w = tk_lit (a_cur (p_ast p))).
    { intros w ->. destruct S5 as [S5 ->]. assert (S6 : r = 49 \/ r = 50) by tauto. specialize (Hf S6).
      assert (HA1 : exists s u, A = [(s, u)] /\ exists kk, u = Leaf kk).
      { clear - HS HW S5 EA. subst ts2. destruct A as [|[s u] [|y A']].
        - destruct S5 as [-> | ->]; discriminate HS.
        - exists s, u. split; [reflexivity|]. inversion HW as [|? ? _ _ F]; subst. cbn in F, HS. pose proof (Forall_inv F) as Wu.
          assert (X : exists c, In c terminals /\ sym_of u = sym_no (T c)) by (destruct S5 as [-> | ->]; injection HS as HS; [exists tContinue|exists tBreak]; (split; [cbn; tauto|exact HS])).
          destruct X as (c & Hc & X). destruct (sym_tok _ c Wu Hc X) as (kk & -> & _). eauto.
        - apply (f_equal (@length Z)) in HS. rewrite !map_length, rev_length in HS. cbn [length] in HS. destruct S5 as [-> | ->]; vm_compute in HS; discriminate HS. }
      destruct HA1 as (s & u1 & EA1 & kk & ->). rewrite Est, EA1 in Hf. cbn [app fresh_top] in Hf. destruct Hf as [Hf1 Hf2]. split; [exact Hf1|].
      pose proof (evs_length _ _ _ _ HE) as Ln. rewrite <- EA, EA1 in Ln. destruct ds as [|d [|? ?]]; try discriminate Ln. rewrite last_last in Hf2. cbn [nth]. congruence. }
    split; [|split].
    + apply S3; [| | | |]; try (intros Z0; rewrite <- Bal by (cbn; tauto)).
      * pose proof (stack_bal tLoop tEndLoop _ _ ltac:(cbn; tauto) HC1 _ Hmw) as X. rewrite Sp2 in X. lia.
      * pose proof (stack_bal tCatch tEndTry _ _ ltac:(cbn; tauto) HC2 _ Hmw) as X. rewrite Sp3 in X. lia.
      * pose proof (stack_bal tFunction tEndFunction _ _ ltac:(cbn; tauto) HC3 _ Hmw) as X. rewrite Sp4 in X. rewrite Z0 in W5. lia.
      * intros n Hn. pose proof (W6 _ Hn) as X. rewrite Est in X. destruct (below_split _ _ _ _ X Hr HS) as [Z|[_ Z]]; [apply below_read; [apply declares_app|exact Z]|].
        rewrite (proj2 (zmem_in _ _) S4) in Z. discriminate Z.
      * intros _ Hn. destruct (W9 Hn) as [X|X].
        -- rewrite Est in X. destruct (below_split _ _ _ _ X Hr HS) as [Z|[_ Z]]; [apply below_read; [apply func_app|exact Z]|].
           rewrite (proj2 (zmem_in _ _) S4) in Z. discriminate Z.
        -- exfalso. apply (module_top _ Hmw) in X. pose proof (forall_states _ module_checked _ (mwf_state _ Hmw)) as C. cbv beta in C. apply andb_true_iff in C as [_ C].
           rewrite X in C. change (module_sym =? module_sym) with true in C. cbn [implb] in C. rewrite forallb_forall in C. specialize (C _ S4). cbv beta in C. rewrite <- Htop, R in C. discriminate C.
    + unfold shown_at. rewrite <- Yst. destruct Q2 as [(_ & Q2)|(Q3 & Q2)]; [left; exact Q2|]. right. split; [|exact Q2].
      destruct m; try exact I. destruct (BT _ eq_refl). lia.
    + destruct m; try exact I. apply (BT _ eq_refl).
Qed.

(** * Runs *)
Lemma step_watch code st vs a0 g l t p p' : inv p -> watch code st vs a0 g l t p -> fresh_top st vs p -> step p = Next_ p' ->
  exists st' vs' a0' g' l' t', watch code st' vs' a0' g' l' t' p' /\ fresh_top st' vs' p'.
Proof.
  intros Hi HT Hf Hstep. destruct (inv_states p Hi) as [Hs Hst]. pose proof (step_inv p Hi) as Hn. rewrite Hstep in Hn. destruct Hn as (Hi' & _).
  pose proof (ginv_top _ _ _ _ _ _ _ _ Hi (w_g _ _ _ _ _ _ _ _ HT) (w_states _ _ _ _ _ _ _ _ HT)) as Htop.
  rewrite step_eq in Hstep by (auto using inv_tokno).
  destruct (look1_inv p Hi) as (A1 & A2 & A3 & A4 & A5 & A6).
  destruct (shift_of (p_state p) (p_tok (look1 p))) as [q|] eqn:Eq.
  - pose proof (shift_flag _ _ _ Eq) as Hfl. unfold look1 in *. rewrite Hfl in *.
    assert (Hch : 0 <= p_char (look p)).
    { destruct (Z.lt_ge_cases (p_char (look p)) 0) as [Hlt|]; [|assumption]. exfalso.
      destruct (look_inv p Hi) as (_ & _ & _ & _ & L5). rewrite (L5 Hlt), no_end_shift in Eq by exact Hs. discriminate. }
    rewrite <- A4 in Eq. destruct (look_watch _ _ _ _ _ _ _ _ Hi HT) as (a1 & g1 & t1 & H1).
    destruct (shift_watch _ _ _ _ _ _ _ _ q A1 H1 Hch Eq) as (st' & vs' & l' & t' & H2). injection Hstep as <-. eauto 10.
  - destruct (look2_inv p Hi) as (B1 & B2 & B3 & B4 & B5 & B6 & B7).
    destruct (look2_watch _ _ _ _ _ _ _ _ Hi HT) as (a1 & g1 & t1 & H1).
    destruct (default (p_state p) (p_tok (look2 p))) as [q|r| |] eqn:Ed; cbn [do_default] in *; try discriminate Hstep.
    1, 3: destruct (fail_follows (p_ast (look2 p))) as [[? F]|F]; rewrite F in Hstep; discriminate Hstep.
    pose proof (Trees.default_reduce p r Hi Ed) as R.
    assert (Hf2 : r = 49 \/ r = 50 -> fresh_top st vs (look2 p)).
    { intros Hr. pose proof (forall_states _ spots_checked _ Hs) as Sp. cbv beta in Sp. rewrite andb_true_iff in Sp. destruct Sp as (Sp & _). 
      assert (Es : p_state (look2 p) = p_state p) by exact B4. rewrite Es in R.
      rewrite blind_look; [exact Hf|]. destruct Hr as [-> | ->]; rewrite R in Sp; [exact Sp|rewrite orb_true_r in Sp; exact Sp]. }
    destruct (reduce_watch _ _ _ _ _ _ _ _ r p' B1 H1 R Hi' Hstep Hf2) as (st' & vs' & g' & H2). do 6 eexists. exact H2.
Qed.
Lemma steps_watch n p p' : steps n p p' -> inv p -> forall code st vs a0 g l t, watch code st vs a0 g l t p -> fresh_top st vs p ->
  exists st' vs' a0' g' l' t', watch code st' vs' a0' g' l' t' p' /\ fresh_top st' vs' p'.
Proof.
  induction 1 as [p|n p p1 p2 E H IH]; intros Hi code st vs a0 g l t HT Hf; [eauto 10|].
  pose proof (step_inv p Hi) as Hs. rewrite E in Hs. destruct Hs as (H1 & _).
  destruct (step_watch _ _ _ _ _ _ _ _ _ Hi HT Hf E) as (st' & vs' & a0' & g' & l' & t' & HT' & Hf'). eapply IH; eassumption.
Qed.
Lemma init_watch code : watch code [] [] (NewAST code) (NewAST code) [] zero_token (init_pst (NewAST code)).
Proof.
  constructor; cbn; try lia; try contradiction; auto.
  - apply init_ginv.
  - unfold current. cbn. discriminate.
Qed.
(** The error of a parse that does not end in a syntax error is about its culprit. *)
Theorem spot_of code a' m line col lit : parse code = Some (Ok (a', Some (EParse m line col lit))) -> m <> MSyntax -> spotted code (Some (EParse m line col lit)).
Proof.
  intros HP Hm. unfold parse, Parse in HP. cbn [NewAST a_code] in HP. destruct (blank code) eqn:Hb; [discriminate|].
  destruct (run_result _ (init_inv (NewAST code))) as (n & p' & R1 & R2 & R3 & R4 & R5).
  rewrite R5 in HP by (rewrite init_potential; unfold parse_fuel; cbn [NewAST a_code]; lia).
  destruct (steps_watch _ _ _ R1 (init_inv _) _ _ _ _ _ _ _ (init_watch code) I) as (st & vs & a0 & g & l & t & HT & _).
  destruct (inv_states p' R3) as [Hs Hst]. destruct (look2_watch _ _ _ _ _ _ _ _ R3 HT) as (a1 & g1 & t1 & H1).
  rewrite step_eq in HP by (auto using inv_tokno). destruct (shift_of _ _); [discriminate HP|].
  assert (F : forall b, fail (p_ast (look2 p')) = Done 1 b -> a_err b <> Some (EParse m line col lit)).
  { intros b Ef E. unfold fail in Ef. destruct (Error (p_ast (look2 p')) MSyntax) as [x|] eqn:Ee; [|discriminate Ef]. cbn [sbind] in Ef. injection Ef as <-.
    apply Error_loc in Ee as [-> _]. cbn [a_err set_err] in E. unfold loc in E. congruence. }
  destruct (default _ _) as [q|r| |]; cbn [do_default outcome] in HP.
  - destruct (fail_follows (p_ast (look2 p'))) as [[b Fb]|Fb]; rewrite Fb in HP; [|discriminate HP]. exfalso. eapply F; [exact Fb|]. cbn [outcome] in HP. congruence.
  - pose proof (reduce_goes (look2 p') r) as G. destruct (reduce _ _); [discriminate HP|contradiction|discriminate HP].
  - pose proof (w_err _ _ _ _ _ _ _ _ H1) as X. injection HP as _ HP. rewrite HP in X. exact X.
  - destruct (fail_follows (p_ast (look2 p'))) as [[b Fb]|Fb]; rewrite Fb in HP; [|discriminate HP]. exfalso. eapply F; [exact Fb|]. cbn [outcome] in HP. congruence.
Qed.
