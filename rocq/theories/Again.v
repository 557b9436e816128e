(** What a call of Parse adds to the module depends on the text alone: the sequence of
    declarations, procedures and statements it tries to append. *)
From Verif Require Import Bytes Utf8 Float64 GoTime Ast Lexer LexFacts LexSpec LexProofs Tables Parser Grammar CertData Cert Driver DriverInv CellInv Printer StmtInd PrintInv FlatInv.

(** * Additions to a module *)
Inductive addition :=
| AddVar (v : gvar)
| AddFunc (f : stmt)
| AddStmts (l : list stmt).

Definition last_func (l : list stmt) : bool := match l with [] => true | _ => is_func (last l SNil) end.
(** Declarations come first and once, procedures and functions before statements. *)
Definition allowed (x : addition) (m : module) : bool :=
  match x with
  | AddVar v => match elems (m_body m) with [] => negb (mem (gv_name v) (map gv_name (elems (m_gvars m)))) | _ => false end
  | AddFunc f => last_func (elems (m_body m))
  | AddStmts l => true
  end.
Definition opt_app (b : slice) (l : list stmt) : slice := match l with [] => b | _ => Some (elems b ++ l) end.
(** What is not allowed is left out. *)
Definition add (x : addition) (m : module) : module :=
  match x with
  | AddVar v => match elems (m_body m) with
                | [] => {| m_name := m_name m; m_gvars := Some (if allowed x m then elems (m_gvars m) ++ [v] else elems (m_gvars m)); m_body := m_body m |}
                | _ => m
                end
  | AddFunc f => if allowed x m then {| m_name := m_name m; m_gvars := m_gvars m; m_body := opt_app (m_body m) [f] |} else m
  | AddStmts l => {| m_name := m_name m; m_gvars := m_gvars m; m_body := opt_app (m_body m) l |}
  end.
Fixpoint add_all (xs : list addition) (m : module) : module :=
  match xs with [] => m | x :: xs => add_all xs (add x m) end.
Fixpoint all_allowed (xs : list addition) (m : module) : bool :=
  match xs with [] => true | x :: xs => allowed x m && all_allowed xs (add x m) end.

Lemma add_all_app xs ys : forall m, add_all (xs ++ ys) m = add_all ys (add_all xs m).
Proof. induction xs as [|x xs IH]; intros m; [reflexivity|]. apply IH. Qed.
Lemma all_allowed_app xs ys : forall m, all_allowed (xs ++ ys) m = all_allowed xs m && all_allowed ys (add_all xs m).
Proof. induction xs as [|x xs IH]; intros m; [reflexivity|]. cbn [app all_allowed add_all]. rewrite IH, andb_assoc. reflexivity. Qed.

(** * One run *)
Definition proper (x : addition) : Prop :=
  match x with
  | AddVar _ => True
  | AddFunc f => is_func f = true
  | AddStmts l => Forall (fun s => is_func s = false) l
  end.
(** From [a] to [b] by the additions [xs]; no error only if all were allowed. *)
Definition grows (xs : list addition) (a b : astnode) : Prop :=
  a_code b = a_code a /\ a_module b = add_all xs (a_module a) /\
  (a_err b = None -> a_err a = None /\ all_allowed xs (a_module a) = true).
Lemma grows_refl a : grows [] a a.
Proof. repeat split; auto. Qed.
Lemma grows_same a b : a_code b = a_code a -> a_module b = a_module a -> a_err b = a_err a -> grows [] a b.
Proof. intros H1 H2 H3. repeat split; auto. congruence. Qed.
Lemma grows_err a e : grows [] a (set_err a e).
Proof. repeat split; discriminate. Qed.
Lemma grows_trans xs ys a b c : grows xs a b -> grows ys b c -> grows (xs ++ ys) a c.
Proof.
  intros (A1 & A2 & A3) (B1 & B2 & B3). split; [congruence|]. split; [rewrite add_all_app; congruence|].
  intros H. destruct (B3 H) as [C1 C2]. destruct (A3 C1) as [D1 D2]. split; [exact D1|].
  rewrite all_allowed_app, D2. rewrite A2 in C2. exact C2.
Qed.

(** What a rule adds. *)
Definition adds (r : Z) (d : nat -> slot) : list addition :=
  match r with
  | 2 => [AddStmts (elems (v_body (d 1%nat)))]
  | 3 => [AddStmts (elems (v_opt_body (d 2%nat)))]
  | 6 => map AddVar (v_global_variables (d 1%nat))
  | 7 => [AddFunc (v_funcProc (d 1%nat))]
  | _ => []
  end.

Lemma module_eta m : {| m_name := m_name m; m_gvars := m_gvars m; m_body := m_body m |} = m.
Proof. destruct m; reflexivity. Qed.
Lemma grows_gvar v a b : append_gvar v a = Ok b -> grows [AddVar v] a b.
Proof.
  unfold append_gvar. intros H. unfold grows. cbn [add_all all_allowed add]. rewrite andb_true_r. unfold allowed.
  destruct (elems (m_body (a_module a))) as [|s l] eqn:E; cbn [length Nat.eqb negb] in H.
  - destruct (mem (gv_name v) (map gv_name (elems (m_gvars (a_module a))))) eqn:E2; cbn [negb].
    + apply Error_inv in H as [e ->]. repeat split; discriminate.
    + injection H as <-. repeat split. assumption.
  - apply Error_inv in H as [e ->]. repeat split; discriminate.
Qed.
Lemma grows_gvars vs : forall a b, append_gvars vs a = Ok b -> grows (map AddVar vs) a b.
Proof.
  induction vs as [|v vs IH]; cbn [append_gvars map]; intros a b H; [injection H as <-; apply grows_refl|].
  destruct (append_gvar v a) as [a1|] eqn:E; [|discriminate]. cbn [bind] in H.
  exact (grows_trans [_] _ _ _ _ (grows_gvar _ _ _ E) (IH _ _ H)).
Qed.
Lemma grows_func f a b : append_func f a = Ok b -> grows [AddFunc f] a b.
Proof.
  unfold append_func. intros H. unfold grows. cbn [add_all all_allowed add allowed]. rewrite andb_true_r. unfold last_func.
  destruct (elems (m_body (a_module a))) as [|s l] eqn:E; cbn [length Nat.eqb negb andb] in H.
  - injection H as <-. repeat split. assumption.
  - change (Parser.is_func (last (s :: l) SNil)) with (is_func (last (s :: l) SNil)) in H.
    destruct (is_func (last (s :: l) SNil)) eqn:E2; cbn [negb] in H.
    + injection H as <-. repeat split. assumption.
    + apply Error_inv in H as [e ->]. repeat split; discriminate.
Qed.

Lemma check_grows (f : astnode -> bool) g c e (w u : slot) :
  bind (if f c then Error c g else Ok c) (fun a' => Ok (w, a')) = Ok (u, e) -> u = w /\ grows [] c e.
Proof.
  intros H. destruct (f c).
  - destruct (Error c g) as [c1|] eqn:E; [|discriminate]. apply Error_inv in E as [x ->]. injection H as <- <-. split; [reflexivity | apply grows_err].
  - injection H as <- <-. split; [reflexivity | apply grows_refl].
Qed.
(** The same rule on two nodes: the same value, the same additions. *)
Lemma act_twice r d v a b v1 a1 v2 b1 : prodno r -> act r d v a = Ok (v1, a1) -> act r d v b = Ok (v2, b1) ->
  v1 = v2 /\ grows (adds r d) a a1 /\ grows (adds r d) b b1.
Proof.
  intros Hr. all_prods r Hr; cbn [act adds]; intros H1 H2;
  try (injection H1 as <- <-; injection H2 as <- <-; split; [reflexivity|]; split; solve [apply grows_refl | apply grows_same; reflexivity]).
  (* 2, 3 *)
  1,2: injection H1 as <- <-; injection H2 as <- <-; split; [reflexivity|]; split; (repeat split; assumption).
  (* 6, 7 *)
  1,2: match type of H1 with context [bind ?x _] => destruct x as [x1|] eqn:E1; [|discriminate] end;
       match type of H2 with context [bind ?x _] => destruct x as [x2|] eqn:E2; [|discriminate] end;
       injection H1 as <- <-; injection H2 as <- <-; split; [reflexivity|]; split;
       solve [apply grows_gvars; assumption | apply grows_func; assumption].
  (* 19 *)
  1: { assert (X : forall c e w, bind (if (beqb (lit_of (d 2%nat)) (B ":") && negb (Nat.eqb (length (elems (v_opt_body (d 1%nat)))) 0) && negb (is_label (last (elems (v_opt_body (d 1%nat))) SNil)))%bool then Error c MSemicolon else Ok c)
          (fun a' => Ok (if is_nil (v_stmt (d 3%nat)) then v else set_body v (gappend (v_body v) [v_stmt (d 3%nat)]), a')) = Ok (w, e) ->
          w = (if is_nil (v_stmt (d 3%nat)) then v else set_body v (gappend (v_body v) [v_stmt (d 3%nat)])) /\ grows [] c e).
       { intros c e w H. destruct (_ && _ && _)%bool.
         - destruct (Error c MSemicolon) as [c1|] eqn:E; [|discriminate]. apply Error_inv in E as [x ->]. injection H as <- <-. split; [reflexivity | apply grows_err].
         - injection H as <- <-. split; [reflexivity | apply grows_refl]. }
       destruct (X _ _ _ H1) as [-> G1]. destruct (X _ _ _ H2) as [-> G2]. auto. }
  (* 26, 27 *)
  1,2: match type of H1 with context [appendVars ?x ?y] => destruct (appendVars x y) as [[m [n|]]|]; cbn [bind] in H1, H2; [| |discriminate] end;
       [ destruct (Error a (MVarDup n)) as [x1|] eqn:E1; [|discriminate]; destruct (Error b (MVarDup n)) as [x2|] eqn:E2; [|discriminate];
         apply Error_inv in E1 as [e1 ->]; apply Error_inv in E2 as [e2 ->] |];
       injection H1 as <- <-; injection H2 as <- <-; (split; [reflexivity|]; split; solve [apply grows_err | apply grows_refl]).
  (* 49-52 *)
  1,2: destruct (check_grows (fun c => a_isLoop c =? 0) _ _ _ _ _ H1) as [-> G1]; destruct (check_grows (fun c => a_isLoop c =? 0) _ _ _ _ _ H2) as [-> G2]; auto.
  1: destruct (check_grows (fun c => (a_isTry c =? 0) && is_nil (v_stmt (d 2%nat)))%bool _ _ _ _ _ H1) as [-> G1]; destruct (check_grows (fun c => (a_isTry c =? 0) && is_nil (v_stmt (d 2%nat)))%bool _ _ _ _ _ H2) as [-> G2]; auto.
  1: destruct (check_grows (fun c => negb (a_isFunction c) && negb (is_nil (v_stmt (d 2%nat))))%bool _ _ _ _ _ H1) as [-> G1]; destruct (check_grows (fun c => negb (a_isFunction c) && negb (is_nil (v_stmt (d 2%nat))))%bool _ _ _ _ _ H2) as [-> G2]; auto.
  (* 99 *)
  destruct (v_param v) as [[x n] w]. injection H1 as <- <-. injection H2 as <- <-. auto using grows_refl.
Qed.

(** Cells of kind funcProc hold a procedure or function. *)
Definition holds_func (k : Z) (c : slot) : Prop := k = - nt_no n_funcProc -> is_func (v_funcProc c) = true.
Lemma func_keeps : keeps flat holds_func flat_module.
Proof.
  destruct flat_keeps as [K1 K2 K3 K4 K5 K6 K7]. constructor; auto.
  - intros H. discriminate H.
  - intros k c _ _ _ H. exfalso. pose proof (tokno_of_range k) as [Hk _]. unfold tokno in Hk. unfold nt_no in H. lia.
  - intros r d v a v' a' Hr H Hd Hg Hm _. assert (Hv : flat v) by (subst v; apply Hd). destruct (act_flat _ _ _ _ _ _ Hr H Hd Hv Hm) as [X1 X2].
    split; [exact X1|]. split; [exact X2|]. clear X1 X2 Hd Hv Hg Hm. intros E.
    revert H E. all_prods r Hr; cbn [act]; intros H E; try (exfalso; revert E; vm_compute; discriminate);
    injection H as <- <-; reflexivity.
Qed.

Definition with_ast (p : pst) (b : astnode) : pst :=
  Pst (p_stk p) (p_above p) (p_state p) (p_lval p) (p_char p) (p_tok p) b.

Lemma look_twice p b : a_code b = a_code (p_ast p) -> exists b1, look (with_ast p b) = with_ast (look p) b1 /\
  grows [] b b1 /\ grows [] (p_ast p) (p_ast (look p)).
Proof.
  intros Hc. unfold look. cbn [with_ast p_char p_lval p_ast p_stk p_above p_state p_tok].
  destruct (p_char p <? 0); [|exists b; auto using grows_refl].
  unfold Lex. rewrite Hc. destruct (a_code (p_ast p)) as [|c0 code0] eqn:Ec; [exists b; auto using grows_refl|]. rewrite <- Ec.
  destruct (Next (a_code (p_ast p)) (v_token (p_lval p))) as [[c u] e].
  destruct e as [e|]; [eexists; split; [reflexivity|]; split; apply grows_err|].
  destruct (c =? EOF); eexists; (split; [reflexivity|]; split; solve [apply grows_refl | apply grows_same; reflexivity]).
Qed.
Lemma app_inj_length {A} (a : list A) : forall b c d, length a = length c -> a ++ b = c ++ d -> a = c /\ b = d.
Proof.
  induction a as [|x a IH]; intros b [|y c] d H E; try discriminate H; [auto|]. injection E as -> E.
  destruct (IH b c d) as [-> ->]; auto.
Qed.
Lemma grows0 a b c : grows [] a b -> grows [] b c -> grows [] a c.
Proof. apply (grows_trans [] []). Qed.
Lemma look1_twice p b : a_code b = a_code (p_ast p) -> exists b1, look1 (with_ast p b) = with_ast (look1 p) b1 /\
  grows [] b b1 /\ grows [] (p_ast p) (p_ast (look1 p)).
Proof. intros H. unfold look1. cbn [with_ast p_state]. destruct (_ <=? _); [exists b; auto using grows_refl | apply look_twice; exact H]. Qed.
Lemma look2_twice p b : a_code b = a_code (p_ast p) -> exists b1, look2 (with_ast p b) = with_ast (look2 p) b1 /\
  grows [] b b1 /\ grows [] (p_ast p) (p_ast (look2 p)).
Proof.
  intros H. unfold look2. cbn [with_ast p_state]. destruct (look1_twice p b H) as (b1 & E1 & G1 & G2).
  destruct (_ =? _); [|exists b1; auto]. rewrite E1.
  destruct (look_twice (look1 p) b1) as (b2 & E2 & G3 & G4). { destruct G1, G2. congruence. }
  exists b2. split; [exact E2|]. split; eapply grows0; eassumption.
Qed.

Definition step_twice_spec (a b : astnode) (s1 s2 : sres) : Prop :=
  match s1, s2 with
  | Next_ p1, Next_ q1 => exists xs b1, q1 = with_ast p1 b1 /\ Forall proper xs /\ grows xs a (p_ast p1) /\ grows xs b b1
  | Done _ a1, Done _ b1 => grows [] a a1 /\ grows [] b b1
  | Crash _, _ | _, Crash _ => True
  | _, _ => False
  end.

Lemma proper_adds r d : prodno r -> (forall i, flat (d i)) ->
  (forall i y, nth_error (rhs r) i = Some y -> holds_func (sym_no y) (d (S i))) -> Forall proper (adds r d).
Proof.
  intros Hr Hd HL. assert (P : forall b, plains b -> Forall (fun s => is_func s = false) (elems b)).
  { intros b. apply Forall_impl. intros s Hs. apply (plain_inv s Hs). }
  all_prods r Hr; cbn [adds]; try constructor; try constructor; cbn [proper].
  - apply P, Hd.
  - apply P, Hd.
  - apply Forall_forall. intros x Hx. apply in_map_iff in Hx as (v & <- & _). exact I.
  - apply (HL 0%nat (N n_funcProc)); reflexivity.
Qed.

Lemma reduce_twice p r b : inv p -> cells flat holds_func flat_module p -> reduce_ok (p_state p) r = true -> a_code b = a_code (p_ast p) ->
  step_twice_spec (p_ast p) b (reduce p r) (reduce (with_ast p b) r).
Proof.
  intros Hi [H1 H2 H3 H4 H5] Hr Hc. destruct Hi as [Hp (l & Ht) _ _ _ _ _].
  pose proof Hp as Hp'. rewrite Ht in Hp'.
  destruct (reduce_eq p r _ _ Ht Hp' Hr) as (popped & base & rest & q & E1 & E2 & Eq & Eq2 & Hpred & Hq & Hpath & Hprod & Hh & ->).
  assert (E2' : reduce (with_ast p b) r =
      let above := rev popped ++ p_above p in
      va <<- act r (fun i => nth (i - 1) above zero_slot) (hd zero_slot above) b;
      let '(v', a') := va in
      Next_ (push (Pst (base :: rest) above (p_state p) (p_lval p) (p_char p) (p_tok p) a') v' q)).
  { destruct (reduce_eq (with_ast p b) r _ _ Ht Hp' Hr) as (popped2 & base2 & rest2 & q2 & F1 & F2 & Fq & _ & _ & _ & _ & _ & _ & ->).
    cbn [with_ast p_stk p_above p_state p_lval p_char p_tok p_ast] in *.
    assert (EL : length popped = length popped2).
    { apply (f_equal (@length _)) in E2. apply (f_equal (@length _)) in F2. rewrite !map_length, !rev_length in *. congruence. }
    rewrite E1 in F1. apply (app_inj_length _ _ _ _ EL) in F1 as [-> F1]. injection F1 as -> ->. rewrite Fq, Eq. reflexivity. }
  rewrite E2'. cbv zeta. rewrite E1 in H1, H4. apply Forall_app in H1 as [P1 P2]. apply Forall_app in H4 as [Q1 Q2].
  assert (Ha : Forall flat (rev popped ++ p_above p)).
  { apply Forall_app. split; [|exact H2]. apply Forall_rev. exact P1. }
  remember (rev popped ++ p_above p) as above eqn:Ea.
  pose proof (act_twice r (fun i => nth (i - 1) above zero_slot) (hd zero_slot above) (p_ast p) b) as AT.
  destruct (act r (fun i => nth (i - 1) above zero_slot) (hd zero_slot above) (p_ast p)) as [[v1 a1]|x] eqn:EA1; [|exact I].
  destruct (act r (fun i => nth (i - 1) above zero_slot) (hd zero_slot above) b) as [[v2 b1]|x] eqn:EA2; [|exact I].
  destruct (AT _ _ _ _ Hprod eq_refl eq_refl) as (<- & G1 & G2).
  cbn [sbind step_twice_spec]. exists (adds r (fun i => nth (i - 1) above zero_slot)), b1. split; [reflexivity|].
  split; [|auto]. apply (proper_adds r (fun i => nth (i - 1) above zero_slot) Hprod).
  - intros i. apply nth_cell; [apply flat_zero | exact Ha].
  - intros i y Hy. cbn [Nat.sub]. rewrite Nat.sub_0_r. apply (map_nth_error sym_no) in Hy. rewrite <- E2, nth_error_map in Hy.
    destruct (nth_error (rev popped) i) as [c|] eqn:Ec; [|discriminate]. injection Hy as Hy. rewrite <- Hy.
    assert (En : nth i above zero_slot = c).
    { rewrite Ea, app_nth1 by (apply nth_error_Some; congruence). apply nth_error_nth. exact Ec. }
    rewrite En. apply nth_error_In, in_rev in Ec. rewrite Forall_forall in Q1. exact (Q1 _ Ec).
Qed.

Lemma grows_spec a b a1 b1 s1 s2 : grows [] a a1 -> grows [] b b1 -> step_twice_spec a1 b1 s1 s2 -> step_twice_spec a b s1 s2.
Proof.
  intros G1 G2. destruct s1 as [p1|? c1|], s2 as [p2|? c2|]; cbn [step_twice_spec]; auto.
  - intros (xs & c & H1 & H2 & H3 & H4). exists xs, c. split; [exact H1|]. split; [exact H2|].
    split; [exact (grows_trans [] _ _ _ _ G1 H3) | exact (grows_trans [] _ _ _ _ G2 H4)].
  - intros (H3 & H4). split; eapply grows0; eassumption.
Qed.

Lemma fail_twice a b : step_twice_spec a b (fail a) (fail b).
Proof.
  unfold fail. destruct (Error a MSyntax) as [a1|] eqn:E1; [|exact I].
  destruct (Error b MSyntax) as [b1|] eqn:E2; [|exact I]. apply Error_inv in E1 as [e1 ->]. apply Error_inv in E2 as [e2 ->].
  split; apply grows_err.
Qed.

Lemma step_twice p b : inv p -> cells flat holds_func flat_module p -> a_code b = a_code (p_ast p) ->
  step_twice_spec (p_ast p) b (step p) (step (with_ast p b)).
Proof.
  intros Hi Hcl Hc. destruct (inv_states p Hi) as [Hs Hst].
  rewrite step_eq by (auto using inv_tokno). rewrite (step_eq (with_ast p b)) by (cbn [with_ast p_state p_stk p_char p_tok]; auto using inv_tokno).
  cbn [with_ast p_state]. change (Pst _ _ _ _ _ _ b) with (with_ast p b).
  destruct (look1_inv p Hi) as (A1 & A2 & A3 & A4 & A5 & A6).
  destruct (look1_twice p b Hc) as (b1 & Eb & G1 & G2). rewrite Eb. cbn [with_ast p_tok].
  destruct (shift_of (p_state p) (p_tok (look1 p))) as [q|] eqn:Eq.
  - destruct (look_twice p b Hc) as (b2 & Eb2 & F1 & F2). rewrite Eb2. cbn [step_twice_spec].
    exists [], b2. split; [reflexivity|]. split; [constructor|]. auto.
  - destruct (look2_twice p b Hc) as (b2 & Eb2 & F1 & F2). rewrite Eb2. cbn [with_ast p_tok].
    change (Pst _ _ _ _ _ _ b2) with (with_ast (look2 p) b2).
    eapply grows_spec; [exact F2 | exact F1|].
    destruct (look2_inv p Hi) as (B1 & B2 & B3 & B4 & B5 & B6 & B7). pose proof (look2_cells _ _ _ _ func_keeps Hcl) as Hc2.
    destruct (default (p_state p) (p_tok (look2 p))) as [q|r| |] eqn:Ed; cbn [do_default].
    + apply fail_twice.
    + apply reduce_twice; [exact B1 | exact Hc2| |destruct F1, F2; congruence].
      rewrite B4. destruct (checked _ Hs) as (_ & _ & HC).
      destruct (Z.eq_dec (at_ yyDef (p_state p)) (-2)) as [E|E].
      * destruct (HC (p_tok (look2 p))) as (_ & Hd & _).
        { destruct (inv_tokno _ B1) as [Hn|Hn]; [rewrite (B7 E Hn); unfold tokno, n_tokens; lia | exact Hn]. }
        unfold default_ok in Hd. rewrite Ed in Hd. exact Hd.
      * destruct (HC 1) as (_ & Hd & _); [unfold tokno, n_tokens; lia|]. unfold default_ok in Hd.
        replace (default (p_state p) 1) with (Reduce r) in Hd; [exact Hd|]. rewrite <- Ed. unfold default.
        apply Z.eqb_neq in E. rewrite E. reflexivity.
    + split; apply grows_refl.
    + apply fail_twice.
Qed.

Lemma run_twice n : forall p b x a1 y b1, inv p -> cells flat holds_func flat_module p -> a_code b = a_code (p_ast p) ->
  run n p = Some (Ok (x, a1)) -> run n (with_ast p b) = Some (Ok (y, b1)) ->
  exists xs, Forall proper xs /\ grows xs (p_ast p) a1 /\ grows xs b b1.
Proof.
  induction n as [|n IH]; intros p b x a1 y b1 Hi Hcl Hc; cbn [run]; [discriminate|].
  pose proof (step_twice p b Hi Hcl Hc) as S. pose proof (step_inv p Hi) as SI. pose proof (step_cells _ _ _ p func_keeps Hi Hcl) as SC.
  destruct (step p) as [p1|? c1|]; [| |discriminate]; destruct (step (with_ast p b)) as [q1|? c2|]; try discriminate; cbn [step_twice_spec] in S; try contradiction.
  - destruct S as (xs & b2 & -> & P & G1 & G2). destruct SI as (SI & _). cbn [cells_ok] in SC. intros H1 H2.
    destruct (IH p1 b2 x a1 y b1 SI SC) as (ys & P2 & G3 & G4); [destruct G1, G2; congruence | exact H1 | exact H2|].
    exists (xs ++ ys). split; [apply Forall_app; auto|]. split; eapply grows_trans; eassumption.
  - intros [= <- <-] [= <- <-]. exists []. split; [constructor|]. exact S.
Qed.

(** Parse on a new node and on any other node with the same text. *)
Theorem Parse_twice a b e e' : Parse (NewAST (a_code a)) = Some (Ok (b, e)) -> forall c, Parse a = Some (Ok (c, e')) ->
  exists xs, Forall proper xs /\
    a_module b = add_all xs zero_module /\ (e = None -> all_allowed xs zero_module = true) /\
    a_module c = add_all xs (a_module a) /\ (e' = None -> all_allowed xs (a_module a) = true).
Proof.
  unfold Parse. change (a_code (NewAST (a_code a))) with (a_code a). intros H1 c H2.
  destruct (blank (a_code a)).
  - injection H1 as <- <-. injection H2 as <- <-. exists []. repeat split; constructor.
  - destruct (run (parse_fuel (a_code a)) (init_pst (NewAST (a_code a)))) as [[[x a1]|]|] eqn:E1; try discriminate.
    destruct (run (parse_fuel (a_code a)) (init_pst a)) as [[[y b1]|]|] eqn:E2; try discriminate.
    injection H1 as <- <-. injection H2 as <- <-.
    destruct (run_twice _ (init_pst (NewAST (a_code a))) a _ _ _ _ (init_inv _) (init_cells _ _ _ _ func_keeps (Forall_nil _ : flat_module (a_module (NewAST (a_code a))))) eq_refl E1 E2)
      as (xs & P & (_ & G1 & G2) & (_ & G3 & G4)).
    exists xs. split; [exact P|]. split; [exact G1|]. split; [intros H; apply G2; exact H|]. split; [exact G3|].
    intros H. apply G4. exact H.
Qed.

(** * The additions of a first call, made again *)
Definition funs (xs : list addition) : list stmt := flat_map (fun x => match x with AddFunc f => [f] | _ => [] end) xs.
Definition stms (xs : list addition) : list stmt := flat_map (fun x => match x with AddStmts l => l | _ => [] end) xs.
Definition vars (xs : list addition) : list gvar := flat_map (fun x => match x with AddVar v => [v] | _ => [] end) xs.
Definition nonfunc (s : stmt) : bool := negb (is_func s).

Lemma elems_opt_app b l : elems (opt_app b l) = elems b ++ l.
Proof. destruct l; [rewrite app_nil_r|]; reflexivity. Qed.
Lemma last_func_app l s : s <> [] -> Forall (fun s => is_func s = false) s -> last_func (l ++ s) = false.
Proof.
  intros Hs H. destruct (exists_last Hs) as (s1 & x & ->). apply Forall_app in H as [_ H]. inversion H. subst.
  unfold last_func. destruct (l ++ s1 ++ [x]) as [|y k] eqn:E; [destruct l; destruct s1; discriminate|].
  rewrite <- E, app_assoc, last_last. assumption.
Qed.
Lemma last_func_funcs l : Forall (fun s => is_func s = true) l -> last_func l = true.
Proof.
  intros H. destruct l as [|x l]; [reflexivity|]. unfold last_func.
  destruct (exists_last (l := x :: l) ltac:(discriminate)) as (l1 & y & E). rewrite E in *. apply Forall_app in H as [_ H]. inversion H. subst.
  rewrite last_last. assumption.
Qed.

Lemma first_call xs : forall m F S, Forall proper xs -> all_allowed xs m = true ->
  elems (m_body m) = F ++ S -> Forall (fun s => is_func s = true) F -> Forall (fun s => is_func s = false) S ->
  elems (m_body (add_all xs m)) = F ++ funs xs ++ S ++ stms xs /\
  (S <> [] -> funs xs = []) /\ Forall (fun s => is_func s = true) (funs xs) /\ Forall (fun s => is_func s = false) (stms xs) /\
  elems (m_gvars (add_all xs m)) = elems (m_gvars m) ++ vars xs /\ (vars xs <> [] -> m_gvars (add_all xs m) <> None) /\
  (m_gvars m <> None -> m_gvars (add_all xs m) <> None).
Proof.
  induction xs as [|x xs IH]; intros m F S HP HA E HF HS.
  - cbn. rewrite !app_nil_r. auto 10.
  - inversion_clear HP as [|? ? P1 P2]. cbn [all_allowed] in HA. apply andb_true_iff in HA as [A1 A2]. cbn [add_all].
    destruct x as [v|f|l]; cbn [add] in *.
    + unfold allowed in A1. destruct (elems (m_body m)) as [|s k] eqn:Eb; [|discriminate A1].
      cbn [allowed] in *. rewrite Eb in *. rewrite A1 in *. symmetry in E. apply app_eq_nil in E as [-> ->].
      destruct (IH _ [] [] P2 A2 Eb HF HS) as (I1 & I2 & I3 & I4 & I5 & I6 & I7).
      split; [exact I1|]. split; [auto|]. split; [exact I3|]. split; [exact I4|]. split; [|split].
      * rewrite I5. cbn [m_gvars elems vars flat_map]. rewrite <- app_assoc. reflexivity.
      * intros _. apply I7. discriminate.
      * intros _. apply I7. discriminate.
    + rewrite A1 in *. cbn [allowed] in A1. assert (S = []) as ->.
      { destruct S as [|s S]; [reflexivity|]. rewrite E, last_func_app in A1 by (assumption || discriminate). discriminate. }
      rewrite app_nil_r in E.
      destruct (IH _ (F ++ [f]) [] P2 A2) as (I1 & I2 & I3 & I4 & I5 & I6 & I7).
      { cbn [m_body]. rewrite elems_opt_app, E, app_nil_r. reflexivity. }
      { apply Forall_app. auto. } { constructor. }
      split; [rewrite I1; cbn [funs flat_map app]; rewrite <- app_assoc; reflexivity|].
      split; [congruence|]. split; [constructor; assumption|]. auto.
    + destruct (IH _ F (S ++ l) P2 A2) as (I1 & I2 & I3 & I4 & I5 & I6 & I7).
      { cbn [m_body]. rewrite elems_opt_app, E, <- app_assoc. reflexivity. }
      { exact HF. } { apply Forall_app. auto. }
      split; [rewrite I1; change (stms (AddStmts l :: xs)) with (l ++ stms xs); rewrite !app_assoc; reflexivity|].
      split; [intros H; apply I2; destruct S; [congruence | discriminate]|].
      split; [exact I3|]. split; [apply Forall_app; auto|]. auto.
Qed.

Lemma again_stmts xs : forall m, Forall proper xs -> elems (m_body m) <> [] -> last_func (elems (m_body m)) = false ->
  add_all xs m = {| m_name := m_name m; m_gvars := m_gvars m; m_body := opt_app (m_body m) (stms xs) |} /\
  (all_allowed xs m = true -> vars xs = [] /\ funs xs = []).
Proof.
  induction xs as [|x xs IH]; intros m HP E L; [cbn; rewrite module_eta; auto|].
  inversion_clear HP as [|? ? P1 P2]. cbn [all_allowed add_all]. destruct x as [v|f|l]; cbn [add allowed].
  - case_eq (elems (m_body m)); [congruence|]. intros s k _.
    destruct (IH m P2 E L) as [I1 I2]. split; [exact I1 | discriminate].
  - rewrite L. destruct (IH m P2 E L) as [I1 I2]. split; [exact I1 | discriminate].
  - destruct (IH {| m_name := m_name m; m_gvars := m_gvars m; m_body := opt_app (m_body m) l |} P2) as [I1 I2].
    + cbn [m_body]. rewrite elems_opt_app. destruct (elems (m_body m)); [congruence | discriminate].
    + cbn [m_body]. rewrite elems_opt_app. destruct l; [rewrite app_nil_r; exact L | apply last_func_app; [discriminate | exact P1]].
    + split; [|exact I2]. rewrite I1. cbn [m_name m_gvars m_body]. f_equal.
      change (stms (AddStmts l :: xs)) with (l ++ stms xs). unfold opt_app at 1 3. destruct (stms xs) as [|s k]; [rewrite app_nil_r; reflexivity|].
      rewrite elems_opt_app, <- app_assoc. destruct (l ++ s :: k) eqn:El; [destruct l; discriminate | reflexivity].
Qed.
Lemma again_funcs xs : forall m, Forall proper xs -> elems (m_body m) <> [] -> last_func (elems (m_body m)) = true -> stms xs = [] ->
  add_all xs m = {| m_name := m_name m; m_gvars := m_gvars m; m_body := opt_app (m_body m) (funs xs) |} /\
  (all_allowed xs m = true -> vars xs = []).
Proof.
  induction xs as [|x xs IH]; intros m HP E L HS; [cbn; rewrite module_eta; auto|].
  inversion_clear HP as [|? ? P1 P2]. cbn [all_allowed add_all]. destruct x as [v|f|l]; cbn [add allowed].
  - case_eq (elems (m_body m)); [congruence|]. intros s k _.
    destruct (IH m P2 E L HS) as [I1 I2]. split; [exact I1 | discriminate].
  - rewrite L. destruct (IH {| m_name := m_name m; m_gvars := m_gvars m; m_body := opt_app (m_body m) [f] |} P2) as [I1 I2].
    + cbn [m_body]. rewrite elems_opt_app. destruct (elems (m_body m)); [congruence | discriminate].
    + cbn [m_body]. rewrite elems_opt_app. cbn [proper] in P1. destruct (elems (m_body m)) as [|s k]; [congruence|].
      unfold last_func. cbn [app]. rewrite app_comm_cons, last_last. exact P1.
    + exact HS.
    + split; [|exact I2]. rewrite I1. cbn [m_name m_gvars m_body]. f_equal.
      change (funs (AddFunc f :: xs)) with (f :: funs xs). unfold opt_app. destruct (funs xs) as [|s k]; [reflexivity|].
      cbn [elems]. rewrite <- app_assoc. reflexivity.
  - change (stms (AddStmts l :: xs)) with (l ++ stms xs) in HS. apply app_eq_nil in HS as [-> HS].
    cbn [opt_app]. rewrite module_eta. destruct (IH m P2 E L HS) as [I1 I2]. auto.
Qed.
Lemma mem_names v g : In v g -> mem (gv_name v) (map gv_name g) = true.
Proof.
  intros H. unfold mem. apply existsb_exists. exists (gv_name v). split; [apply in_map; exact H | apply beqb_refl].
Qed.
Lemma again_vars xs : forall m, elems (m_body m) = [] -> stms xs = [] -> funs xs = [] ->
  (vars xs <> [] -> m_gvars m <> None) -> Forall (fun v => In v (elems (m_gvars m))) (vars xs) ->
  add_all xs m = m /\ (all_allowed xs m = true -> vars xs = []).
Proof.
  induction xs as [|x xs IH]; intros m E HS HF HN HV; [cbn; auto|].
  cbn [all_allowed add_all]. destruct x as [v|f|l]; [| discriminate HF |].
  - change (vars (AddVar v :: xs)) with (v :: vars xs) in *. inversion_clear HV as [|? ? V1 V2].
    cbn [add allowed]. rewrite E. rewrite (mem_names _ _ V1). cbn [negb].
    assert (X : {| m_name := m_name m; m_gvars := Some (elems (m_gvars m)); m_body := m_body m |} = m).
    { assert (HN2 : m_gvars m <> None) by (apply HN; discriminate). destruct m as [n [g|] b]; [reflexivity | destruct HN2; reflexivity]. }
    rewrite X. split; [|discriminate]. apply IH; auto. intros _. apply HN. discriminate.
  - change (stms (AddStmts l :: xs)) with (l ++ stms xs) in HS. apply app_eq_nil in HS as [-> HS].
    cbn [add opt_app]. rewrite module_eta. cbn [allowed andb]. apply IH; auto.
Qed.

Lemma filter_all {A} f (l : list A) : Forall (fun x => f x = true) l -> filter f l = l.
Proof. induction 1 as [|x l H _ IH]; [reflexivity|]. cbn. rewrite H, IH. reflexivity. Qed.
Lemma filter_none {A} f (l : list A) : Forall (fun x => f x = false) l -> filter f l = [].
Proof. induction 1 as [|x l H _ IH]; [reflexivity|]. cbn. rewrite H. exact IH. Qed.

Theorem second_call xs : Forall proper xs -> all_allowed xs zero_module = true ->
  let m := add_all xs zero_module in
  let fs := filter is_func (elems (m_body m)) in
  let rest := filter nonfunc (elems (m_body m)) in
  elems (m_body m) = fs ++ rest /\
  m_name (add_all xs m) = m_name m /\ m_gvars (add_all xs m) = m_gvars m /\
  elems (m_body (add_all xs m)) = elems (m_body m) ++ (match rest with [] => fs | _ => rest end) /\
  (elems (m_body m) = [] -> add_all xs m = m) /\
  (all_allowed xs m = true -> elems (m_gvars m) = [] /\ (fs = [] \/ rest = [])).
Proof.
  intros HP HA.
  destruct (first_call xs zero_module [] [] HP HA eq_refl (Forall_nil _) (Forall_nil _)) as (B1 & _ & B3 & B4 & B5 & B6 & B7).
  cbn [app] in B1. cbn [zero_module m_gvars elems app] in B5.
  remember (add_all xs zero_module) as m eqn:Em. clear Em. cbv zeta.
  assert (F1 : filter is_func (elems (m_body m)) = funs xs).
  { rewrite B1, filter_app, (filter_all _ _ B3), (filter_none _ _ B4), app_nil_r. reflexivity. }
  assert (F2 : filter nonfunc (elems (m_body m)) = stms xs).
  { rewrite B1, filter_app. rewrite (filter_none nonfunc (funs xs)), (filter_all nonfunc (stms xs)); [reflexivity| |].
    - revert B4. apply Forall_impl. intros s Hs. unfold nonfunc. rewrite Hs. reflexivity.
    - revert B3. apply Forall_impl. intros s Hs. unfold nonfunc. rewrite Hs. reflexivity. }
  rewrite F1, F2. split; [exact B1|].
  destruct (stms xs) as [|s st] eqn:Es.
  - rewrite app_nil_r in B1. destruct (funs xs) as [|f fs] eqn:Ef.
    + destruct (again_vars xs m B1 Es Ef B6) as [-> H2].
      { rewrite B5. apply Forall_forall. auto. }
      rewrite app_nil_r. do 4 (split; [auto|]). intros H. split; [rewrite B5; auto | auto].
    + destruct (again_funcs xs m HP) as [-> H2]; [rewrite B1; discriminate | rewrite B1; apply last_func_funcs; exact B3 | exact Es|].
      cbn [m_name m_gvars m_body]. rewrite elems_opt_app, Ef. do 3 (split; [auto|]). split; [rewrite B1; discriminate|].
      intros H. split; [rewrite B5; auto | auto].
  - destruct (again_stmts xs m HP) as [-> H2].
    { rewrite B1. destruct (funs xs); discriminate. } { rewrite B1. apply last_func_app; [discriminate | exact B4]. }
    cbn [m_name m_gvars m_body]. rewrite elems_opt_app, Es. do 3 (split; [auto|]). split.
    { rewrite B1. destruct (funs xs); discriminate. }
    intros H. destruct (H2 H). split; [congruence | auto].
Qed.
