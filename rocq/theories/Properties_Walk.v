(** The traversal: order, parents and roots (C35), which calls are seen (C36), what a
    replacement by the callback does (C37).  Specification: WalkSpec.v. *)
From Coq Require Import Permutation.
From Verif Require Import Bytes Utf8 Float64 GoTime Ast Lexer Tables Parser Walk CellInv Properties_Tree StmtInd WalkSpec WalkFacts FlatInv WalkModule.
Open Scope Z_scope.

(** * C35 Walk visits children first, exactly once *)
(** For every tree: there is an enumeration without repetition of exactly the reached
    slots, inner ones before outer ones and blocks in order, such that the calls of the
    callback are for these slots one by one, with the statement found in the slot and
    the statement (or Body) around it. *)
Theorem C35_order : forall m, exists ps,
  NoDup ps /\ (forall p, In p ps <-> reached m p) /\
  (forall p q, In q ps -> inside p q -> before ps q p) /\
  (forall p q, In p ps -> In q ps -> sibling p q -> before ps p q) /\
  Forall2 (fun p e => slot_at m p = Some (snd e) /\
             (snd p = [] -> snd (fst e) = PRoot (m_body m)) /\
             (snd p <> [] -> exists q, slot_at m (fst p, up (snd p)) = Some q /\ snd (fst e) = PStmt q)) ps (events m).
Proof.
  intros m. exists (slots m). split; [apply slots_nodup|]. split; [apply slots_reached|].
  split; [apply slots_inside|]. split; [apply slots_sibling|].
  rewrite events_list. apply forall2_from. intros j x r Hj. rewrite Nat.add_0_l.
  pose proof (describes_all x r (PRoot (m_body m))) as H. unfold slot_at. cbn [fst snd]. rewrite Hj. exact H.
Qed.
(** A callback that assigns nothing leaves the module as it is. *)
Theorem C35_unchanged : forall m, fst (Walk record_cb m []) = m.
Proof. intros m. rewrite Walk_record. reflexivity. Qed.

(** The root argument in parsed modules: the enclosing procedure or function, if there
    is one or none has been visited yet. *)
Definition C35_root_statement : Prop := forall a, history a -> exists ps,
  NoDup ps /\ (forall p, In p ps <-> reached (a_module a) p) /\
  Forall2 (fun p e => fst (fst e) = function_at (a_module a) p) ps (events (a_module a)).
Theorem C35_root_partial : forall a, history a -> exists ps,
  NoDup ps /\ (forall p, In p ps <-> reached (a_module a) p) /\
  Forall2 (fun p e => slot_at (a_module a) p = Some (snd e) /\
    (function_at (a_module a) p <> None \/ (forall s, In s (firstn (fst p) (elems (m_body (a_module a)))) -> is_func s = false) ->
     fst (fst e) = function_at (a_module a) p)) ps (events (a_module a)).
Proof.
  intros a Ha. pose proof (history_flat a Ha) as Hf. set (m := a_module a) in *. exists (slots m). split; [apply slots_nodup|]. split; [apply slots_reached|].
  pose proof (roots_module m Hf) as Hr.
  assert (Hs : Forall2 (fun p e => slot_at m p = Some (snd e)) (slots m) (events m)).
  { rewrite events_list. apply forall2_from. intros j x r Hj. rewrite Nat.add_0_l.
    pose proof (describes_all x r (PRoot (m_body m))) as H. unfold slot_at. cbn [fst snd]. rewrite Hj.
    clear - H. induction H as [|p e ps es [H _]]; constructor; assumption. }
  revert Hs. induction Hr as [|p e ps es Hp Hr IH]; intros Hs; [constructor|]. inversion Hs; subst. constructor; [|auto].
  split; [assumption|]. rewrite Hp. clear IH Hr H4 Hs. rename H2 into Hs. unfold slot_at in Hs. unfold function_at.
  destruct (nth_error (elems (m_body m)) (fst p)) as [s|] eqn:Es; [|discriminate].
  assert (Hsh : shallow s) by (unfold flat_module in Hf; rewrite Forall_forall in Hf; eapply Hf, nth_error_In; exact Es).
  rewrite shallow_function by congruence.
  assert (E : firstn (S (fst p)) (elems (m_body m)) = firstn (fst p) (elems (m_body m)) ++ [s]).
  { clear - Es. revert Es. generalize (elems (m_body m)) (fst p). intros l n. revert l. induction n as [|n IH]; intros [|x l]; cbn; try discriminate.
    - intros [= ->]. reflexivity.
    - intros H. f_equal. exact (IH l H). }
  rewrite E, last_function_snoc. destruct (is_func s); [reflexivity|]. intros [H|H]; [contradiction|].
  unfold last_function. destruct (find is_func (rev (firstn (fst p) (elems (m_body m))))) as [x|] eqn:Ex; [|reflexivity].
  apply find_some in Ex as [E1 E2]. apply in_rev in E1. rewrite (H _ E1) in E2. discriminate.
Qed.
(** After a procedure, the statements of the module itself are reported to be in it. *)
Definition after_parse (code : bytes) : astnode := match Parse (NewAST code) with Some (Ok (a, _)) => a | _ => NewAST code end.
Lemma parse_history code : history (after_parse code).
Proof.
  unfold after_parse. destruct (Parse (NewAST code)) as [[[a e]|]|] eqn:E; try apply history_new.
  eapply history_parse; [apply history_new | exact E].
Qed.
Definition walk_text : bytes := B "Процедура П() Ф(1); КонецПроцедуры
Если Г(2) Тогда Х(); КонецЕсли".
Theorem C35_root_refuted : exists code m e, accepted code m /\ In e (events m) /\
  (exists l, elems (m_body m) = l ++ [snd e]) /\ is_func (snd e) = false /\ fst (fst e) <> None.
Proof.
  exists walk_text, (tree_of walk_text), (last (events (tree_of walk_text)) (None, PRoot None, SNil)). split; [accepted|].
  split; [vm_compute; tauto|]. split; [exists [hd SNil (elems (m_body (tree_of walk_text)))]; vm_compute; reflexivity|].
  split; [vm_compute; reflexivity|]. vm_compute. discriminate.
Qed.
Definition no_root (e : event) : bool := match fst (fst e) with None => true | Some _ => false end.
Lemma walk_text_roots : let m := a_module (after_parse walk_text) in
  In None (map (function_at m) (slots m)) /\ forallb (fun e => negb (no_root e)) (events m) = true.
Proof. vm_compute. tauto. Qed.
Theorem C35_root_statement_refuted : ~ C35_root_statement.
Proof.
  intros H. specialize (H (after_parse walk_text) (parse_history walk_text)). revert H. pose proof walk_text_roots as HW. revert HW. cbv zeta.
  generalize (a_module (after_parse walk_text)). intros m [HI F] (ps & H1 & Hps & H2).
  assert (HP : Permutation ps (slots m)).
  { apply NoDup_Permutation; [exact H1 | apply slots_nodup|]. intros p. rewrite Hps, slots_reached. reflexivity. }
  assert (HM : map (function_at m) ps = map (fun e => fst (fst e)) (events m)).
  { clear - H2. induction H2; cbn [map]; congruence. }
  apply (Permutation_in None (Permutation_map (function_at m) (Permutation_sym HP))) in HI.
  rewrite HM in HI. apply in_map_iff in HI as (e & E1 & E2).
  rewrite forallb_forall in F. specialize (F e E2). unfold no_root in F. rewrite E1 in F. discriminate F.
Qed.
Example C35_example : history (after_parse walk_text) /\ length (events (a_module (after_parse walk_text))) = 8%nat /\
  reached (a_module (after_parse walk_text)) (0%nat, [(FFuncBody, 0%nat); (FArg, 0%nat)]) /\
  function_at (a_module (after_parse walk_text)) (0%nat, [(FFuncBody, 0%nat); (FArg, 0%nat)]) <> None.
Proof.
  split; [apply parse_history|]. split; [vm_compute; reflexivity|]. split; [split|]; vm_compute; congruence.
Qed.

(** * C36 Walk reaches every call *)
(** A call is visited wherever only the fields listed in [walked] lead to it: bodies,
    conditions, arguments, operands, branches of ?() and return values. *)
Definition C36_statement : Prop := forall code m p n ps pfl fl, accepted code m ->
  slot_at m p = Some (SMethod n ps pfl fl) -> exists e, In e (events m) /\ snd e = SMethod n ps pfl fl.
Theorem C36_visited_partial : forall m p s, slot_at m p = Some s -> forallb (fun k => walked (fst k)) (snd p) = true ->
  exists e, In e (events m) /\ snd e = s.
Proof.
  intros m p s Hs Hw. destruct (C35_order m) as (ps & _ & Hin & _ & _ & H2).
  assert (Hp : In p ps) by (apply Hin; split; [congruence | exact Hw]). clear Hin.
  induction H2 as [|p' e ps es (He & _) H2 IH]; [destruct Hp|]. destruct Hp as [->|Hp].
  - exists e. split; [left; reflexivity | congruence].
  - destruct (IH Hp) as (e' & I1 & I2). exists e'. split; [right; exact I1 | exact I2].
Qed.
Definition is_call (s : stmt) : bool := match s with SMethod _ _ _ _ => true | _ => false end.
(** The right-hand side of an assignment is not visited. *)
Definition assign_text : bytes := B "а = Ф();".
Lemma assign_text_calls : forallb (fun e => negb (is_call (snd e))) (events (tree_of assign_text)) = true.
Proof. vm_compute. reflexivity. Qed.
Lemma assign_text_slot : slot_at (tree_of assign_text) (0%nat, [(FAssigned, 0%nat)]) = Some (SMethod (B "Ф") (Some [SNil]) no_flags no_flags).
Proof. vm_compute. reflexivity. Qed.
Theorem C36_refuted : ~ C36_statement.
Proof.
  intros H. assert (A : accepted assign_text (tree_of assign_text)) by accepted.
  destruct (H _ _ _ _ _ _ _ A assign_text_slot) as (e & I1 & I2).
  pose proof assign_text_calls as F. revert F I1. generalize (events (tree_of assign_text)). intros l F I1.
  rewrite forallb_forall in F. specialize (F e I1). rewrite I2 in F. discriminate F.
Qed.
(** Nor are: what is called through a dot, arguments of constructors and indices, the
    headers of loops, thrown values and lists in brackets. *)
Theorem C36_fields : forall f, walked f = false <-> In f [FFor; FTo; FIn; FWhile; FDefault; FThrow; FUnit; FCall; FNewArg; FItem; FObject; FExprs; FVar; FAssigned].
Proof. intros []; cbn; intuition discriminate. Qed.
Theorem C36_not_visited : forall m p, forallb (fun k => walked (fst k)) (snd p) = false ->
  exists ps, (forall q, In q ps <-> reached m q) /\ ~ In p ps /\ length ps = length (events m).
Proof.
  intros m p Hp. destruct (C35_order m) as (ps & _ & Hin & _ & _ & H2). exists ps. split; [exact Hin|]. split.
  - intros H. destruct (proj1 (Hin p) H) as [_ H']. rewrite Hp in H'. discriminate H'.
  - clear - H2. revert H2. generalize (events m). intros l H2. induction H2 as [|p e ps l _ _ IH]; cbn [length]; [reflexivity|]. rewrite IH. reflexivity.
Qed.
Definition calls_text : bytes := B "Функция Ф(а) Если Г(а) Тогда Возврат ?(Г(1), -Г(2), 3 + Г(4)); КонецЕсли; Пока а Цикл Г(Г(5)); КонецЦикла; КонецФункции".
Example C36_example : accepted calls_text (tree_of calls_text) /\
  length (filter (fun e => is_call (snd e)) (events (tree_of calls_text))) = 6%nat.
Proof. split; [accepted | vm_compute; reflexivity]. Qed.

(** * C37 Replacing a statement in the callback takes effect *)
(** The k-th visited slot, for the callback that puts [new] there and changes nothing
    else: the result is the module with [new] in that slot if the slot belongs to a
    list (Body, a block, the arguments of a call); otherwise the module is unchanged. *)
Definition C37_statement : Prop := forall m, exists ps,
  NoDup ps /\ (forall p, In p ps <-> reached m p) /\
  Forall2 (fun p e => slot_at m p = Some (snd e)) ps (events m) /\
  forall k p new, nth_error ps k = Some p -> fst (Walk (replace_cb k new) m 0%nat) = put_slot p new m.
Theorem C37_replace_partial : forall m, exists ps,
  NoDup ps /\ (forall p, In p ps <-> reached m p) /\
  Forall2 (fun p e => slot_at m p = Some (snd e)) ps (events m) /\
  forall k p new, nth_error ps k = Some p ->
    (in_list (snd p) = true -> fst (Walk (replace_cb k new) m 0%nat) = put_slot p new m) /\
    (in_list (snd p) = false -> fst (Walk (replace_cb k new) m 0%nat) = m).
Proof.
  intros m. exists (slots m). split; [apply slots_nodup|]. split; [apply slots_reached|]. split.
  - rewrite events_list. apply forall2_from. intros j x r Hj. rewrite Nat.add_0_l.
    pose proof (describes_all x r (PRoot (m_body m))) as H. unfold slot_at. cbn [fst snd]. rewrite Hj.
    clear - H. induction H as [|p e ps es [H _]]; constructor; assumption.
  - intros k p new Hk. rewrite (Walk_replace m k p new Hk). cbn [fst]. split; intros ->; reflexivity.
Qed.
(** The replacement is where it should be, and nowhere else. *)
Theorem C37_put_there : forall m p new, reached m p -> slot_at (put_slot p new m) p = Some new.
Proof.
  intros m [i p] new [H W]. unfold slot_at, put_slot in *. cbn [fst snd] in *.
  destruct (nth_error (elems (m_body m)) i) as [s|] eqn:E; [|contradiction]. cbn [m_body].
  destruct m as [n g [l|]]; cbn [m_body elems in_slice option_map] in *; [|destruct i; discriminate].
  erewrite nth_error_replace by exact E. apply put_path_there; assumption.
Qed.
Theorem C37_put_elsewhere : forall m p q new, reached m p -> p <> q -> ~ inside p q -> ~ inside q p ->
  slot_at (put_slot p new m) q = slot_at m q.
Proof.
  intros m [i p] [j q] new [H W] N1 N2 N3. unfold slot_at, put_slot, inside in *. cbn [fst snd] in *.
  destruct (nth_error (elems (m_body m)) i) as [s|] eqn:E; [|contradiction].
  destruct m as [n g [l|]]; cbn [m_body elems in_slice option_map] in *; [|destruct i; discriminate].
  destruct (Nat.eq_dec i j) as [<-|Hij]; [|rewrite nth_replace_other by exact Hij; reflexivity].
  erewrite nth_error_replace by exact E. rewrite E. apply put_path_other; [|exact W|exact H].
  destruct (apart_cases p q) as [->|[(a & r & ->)|[(a & r & ->)|Hap]]]; [| | |exact Hap]; exfalso; eauto.
Qed.
(** A condition, an operand or a returned value cannot be replaced. *)
Definition return_text : bytes := B "Возврат Ф();".
Lemma return_text_facts : let m := tree_of return_text in
  slot_at m (0%nat, [(FReturn, 0%nat)]) <> None /\ length (events m) = 3%nat /\
  slot_at (put_slot (0%nat, [(FReturn, 0%nat)]) SNil m) (0%nat, [(FReturn, 0%nat)]) = Some SNil /\
  forallb (fun j => match slot_at (fst (Walk (replace_cb j SNil) m 0%nat)) (0%nat, [(FReturn, 0%nat)]) with Some SNil => false | _ => true end) [0; 1; 2]%nat = true.
Proof. vm_compute. repeat split; discriminate. Qed.
Theorem C37_refuted : ~ C37_statement.
Proof.
  intros H. specialize (H (tree_of return_text)). revert H. pose proof return_text_facts as HF. revert HF. cbv zeta.
  generalize (tree_of return_text). intros m (F1 & F2 & F3 & F4) (ps & _ & Hps & H2 & HR).
  assert (Hp : In (0%nat, [(FReturn, 0%nat)]) ps) by (apply Hps; split; [exact F1 | reflexivity]).
  apply In_nth_error in Hp as [k Hk]. specialize (HR k _ SNil Hk).
  assert (L : length ps = 3%nat) by (rewrite <- F2; clear - H2; revert H2; generalize (events m); intros l H2; induction H2 as [|p e ps l _ _ IH]; cbn [length]; [reflexivity|]; rewrite IH; reflexivity).
  assert (K : (k < 3)%nat) by (rewrite <- L; apply nth_error_Some; congruence).
  rewrite forallb_forall in F4. specialize (F4 k). rewrite HR, F3 in F4.
  assert (In k [0; 1; 2]%nat) by (destruct k as [|[|[|k]]]; cbn; auto; lia). apply F4 in H. discriminate H.
Qed.
(** Arguments, statements of blocks and of Body can be replaced. *)
Definition replace_text : bytes := B "Если а Тогда Ф(1, Г(2)); КонецЕсли".
Example C37_example : accepted replace_text (tree_of replace_text) /\
  reached (tree_of replace_text) (0%nat, [(FThen, 0%nat); (FArg, 1%nat)]) /\ in_list [(FThen, 0%nat); (FArg, 1%nat)] = true /\
  nth_error (slots (tree_of replace_text)) 3 = Some (0%nat, [(FThen, 0%nat); (FArg, 1%nat)]) /\
  slot_at (fst (Walk (replace_cb 3 SNil) (tree_of replace_text) 0%nat)) (0%nat, [(FThen, 0%nat); (FArg, 1%nat)]) = Some SNil.
Proof. split; [accepted|]. split; [split; vm_compute; [discriminate | reflexivity]|]. vm_compute. auto. Qed.

Print Assumptions C35_order.
Print Assumptions C35_unchanged.
Print Assumptions C35_root_partial.
Print Assumptions C35_root_refuted.
Print Assumptions C35_root_statement_refuted.
Print Assumptions C36_visited_partial.
Print Assumptions C36_refuted.
Print Assumptions C36_fields.
Print Assumptions C36_not_visited.
Print Assumptions C37_replace_partial.
Print Assumptions C37_put_there.
Print Assumptions C37_put_elsewhere.
Print Assumptions C37_refuted.
