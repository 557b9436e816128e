(** What holds for all cells of the parse stack, old ones included: the shape of the
    statements that the printer relies on (C27). *)
From Verif Require Import Bytes Utf8 Float64 GoTime Ast Lexer LexFacts LexSpec LexProofs Tables Parser Grammar CertData Cert Driver DriverInv CellInv Printer StmtInd.

(** A statement the printer can print: branches of an If are Ifs, the variable of a
    for-each loop is a string, a goto has a label; no procedure inside. *)
Fixpoint printable (s : stmt) : bool :=
  let all (b : option (list stmt)) := match b with Some l => forallb printable l | None => true end in
  match s with
  | SIf _ tb eib eb => all tb && all eb &&
      match eib with
      | Some l => forallb (fun i => match i with SIf _ tb' _ _ => all tb' | _ => false end) l
      | None => true
      end
  | SLoop f _ i _ b => (is_nil i || match f with SStr _ => true | _ => false end) && all b
  | STry b c => all b && all c
  | SGoTo None => false
  | SFunc _ _ _ _ _ _ _ => false
  | _ => true
  end.
Definition all_printable (b : slice) : bool := forallb printable (elems b).
Definition top_printable (s : stmt) : bool :=
  match s with SFunc _ _ _ b _ _ _ => all_printable b | _ => printable s end.
Definition branches_printable (b : slice) : bool :=
  forallb (fun i => match i with SIf _ tb _ _ => all_printable tb | _ => false end) (elems b).
Definition literal (s : stmt) : bool :=
  match s with SNil | SStr _ | SNum _ | SBool _ | STime _ => true | _ => false end.

Lemma printable_if e tb eib eb :
  printable (SIf e tb eib eb) = all_printable tb && all_printable eb && branches_printable eib.
Proof.
  assert (H : forall l, forallb (fun i => match i with SIf _ tb' _ _ =>
    match tb' with Some l => forallb printable l | None => true end | _ => false end) l = branches_printable (Some l)).
  { unfold branches_printable. cbn [elems]. induction l as [|x l IH]; [reflexivity|]. cbn [forallb]. rewrite IH. f_equal.
    destruct x; try reflexivity. destruct tb0; reflexivity. }
  destruct tb, eb, eib; cbn [printable]; rewrite ?H; reflexivity.
Qed.
Lemma printable_loop f t i w b : printable (SLoop f t i w b) =
  (is_nil i || match f with SStr _ => true | _ => false end) && all_printable b.
Proof. destruct b; reflexivity. Qed.
Lemma printable_try b c : printable (STry b c) = all_printable b && all_printable c.
Proof. destruct b, c; reflexivity. Qed.
Lemma literal_printable s : literal s = true -> printable s = true.
Proof. destruct s; cbn; congruence. Qed.
Lemma all_printable_app b l : all_printable b = true -> forallb printable l = true -> all_printable (gappend b l) = true.
Proof.
  intros H1 H2. unfold gappend. destruct l; [exact H1|]. unfold all_printable in *. cbn [elems]. rewrite forallb_app, H1. exact H2.
Qed.

Lemma not_printable s : printable s = true -> printable (not_ s) = true.
Proof. destruct s; cbn; auto. Qed.
Lemma minus_printable s : printable s = true -> printable (unaryMinus s) = true.
Proof. destruct s; cbn; auto. Qed.
Lemma label_printable l : printable (label_stmt l) = true.
Proof. destruct l; reflexivity. Qed.

(** * Cells *)
Record good (c : slot) : Prop := {
  g_token : literal (tk_value (v_token c)) = true;
  g_if : printable (v_stmt_if c) = true;
  g_elseif : branches_printable (v_opt_elseif_list c) = true;
  g_else : all_printable (v_opt_else c) = true;
  g_stmt : printable (v_stmt c) = true;
  g_loop : printable (v_stmt_loop c) = true;
  g_func : top_printable (v_funcProc c) = true;
  g_body : all_printable (v_body c) = true;
  g_opt_body : all_printable (v_opt_body c) = true }.
Definition labelled (k : Z) (c : slot) : Prop := k = - nt_no n_goToLabel -> v_goToLabel c <> None.
Definition good_module (m : module) : Prop := forallb top_printable (elems (m_body m)) = true.

Lemma good_zero : good zero_slot. Proof. constructor; reflexivity. Qed.
Lemma good_yys c q : good c -> good (set_yys c q). Proof. intros []; constructor; assumption. Qed.

Lemma append_gvars_body vs : forall a a', append_gvars vs a = Ok a' -> m_body (a_module a') = m_body (a_module a).
Proof.
  induction vs as [|v vs IH]; cbn [append_gvars]; intros a a' H; [congruence|].
  destruct (append_gvar v a) as [a1|] eqn:E; [|discriminate]. cbn [bind] in H. rewrite (IH _ _ H). clear H IH. revert E.
  unfold append_gvar. destruct (negb _).
  { intros H. apply Error_inv in H as [e ->]. reflexivity. }
  destruct (mem _ _).
  { intros H. apply Error_inv in H as [e ->]. reflexivity. }
  intros [= <-]. reflexivity.
Qed.

Ltac err_inv H :=
  match type of H with
  | context [Error ?a ?m] => let E := fresh in let e := fresh in
    destruct (Error a m) as [|] eqn:E; [|discriminate H]; apply Error_inv in E as [e ->]; cbn [bind] in H
  end.
Ltac check_inv H :=
  unfold checkLoopOperator, checkThrowParam, checkReturnParam in H;
  match type of H with context [if ?c then _ else _] => destruct c end; [err_inv H|cbn [bind] in H].

Lemma top_app b l : forallb top_printable (elems b) = true -> forallb top_printable l = true -> forallb top_printable (elems (gappend b l)) = true.
Proof.
  intros H1 H2. unfold gappend. destruct l; [exact H1|]. cbn [elems]. rewrite forallb_app, H1. exact H2.
Qed.
Lemma printable_top s : printable s = true -> top_printable s = true.
Proof. destruct s; cbn; auto. discriminate. Qed.
Lemma all_top b : all_printable b = true -> forallb top_printable (elems b) = true.
Proof.
  unfold all_printable. generalize (elems b). intros l. induction l as [|x l IH]; [reflexivity|]. cbn [forallb].
  rewrite !andb_true_iff. intros [H1 H2]. auto using printable_top.
Qed.

Lemma act_good r d v a v' a' : prodno r -> act r d v a = Ok (v', a') ->
  (forall i, good (d i)) -> good v -> good_module (a_module a) ->
  (r = 81 -> v_goToLabel (d 2%nat) <> None) ->
  good v' /\ good_module (a_module a') /\ (lhs r = n_goToLabel -> v_goToLabel v' <> None).
Proof.
  intros Hr H Hd Hv Ha Hl. revert H. pose proof Hv as [V1 V2 V3 V4 V5 V6 V7 V8 V9].
  pose proof (fun i => g_token _ (Hd i)) as D1. pose proof (fun i => g_if _ (Hd i)) as D2.
  pose proof (fun i => g_elseif _ (Hd i)) as D3. pose proof (fun i => g_else _ (Hd i)) as D4.
  pose proof (fun i => g_stmt _ (Hd i)) as D5. pose proof (fun i => g_loop _ (Hd i)) as D6.
  pose proof (fun i => g_func _ (Hd i)) as D7. pose proof (fun i => g_body _ (Hd i)) as D8.
  pose proof (fun i => g_opt_body _ (Hd i)) as D9.
  all_prods r Hr; cbn [act]; intros H;
  try (injection H as <- <-; split; [constructor; cbn [set_yys set_token set_stmt_if set_opt_elseif_list set_opt_else set_stmt set_stmt_loop set_funcProc set_body set_opt_body set_params set_param set_exprs set_opt_export set_opt_directive set_explicit_variables set_global_variables set_opt_explicit_variables set_identifiers set_goToLabel binop
     v_token v_stmt_if v_opt_elseif_list v_opt_else v_stmt v_stmt_loop v_funcProc v_body v_opt_body];
     solve [auto using not_printable, minus_printable, label_printable, literal_printable | reflexivity
           | rewrite ?printable_if, ?printable_loop, ?printable_try, ?andb_true_iff; repeat split; solve [auto | reflexivity]
           | unfold all_printable; cbn [elems forallb]; rewrite ?andb_true_r; auto ]
    | split; [exact Ha | first [discriminate | intros _; discriminate]]]).

  (* 2, 3 *)
  1,2: injection H as <- <-; split; [exact Hv|]; split; [|discriminate]; unfold good_module; cbn [a_module set_module m_body];
       apply top_app; [exact Ha | apply all_top; solve [apply D8 | apply D9]].
  (* 6 *)
  1: destruct (append_gvars _ a) as [a1|] eqn:E; [|discriminate]; injection H as <- <-; split; [exact Hv|]; split; [|discriminate];
     unfold good_module; rewrite (append_gvars_body _ _ _ E); exact Ha.
  (* 7 *)
  1: { unfold append_func in H. destruct (_ && _).
    - err_inv H. injection H as <- <-. split; [exact Hv|]. split; [exact Ha | discriminate].
    - injection H as <- <-. split; [exact Hv|]. split; [|discriminate].
      apply (top_app (m_body (a_module a)) [v_funcProc (d 1%nat)]); [exact Ha|]. cbn [forallb]. rewrite D7. reflexivity. }
  (* 14, 16 *)
  1,2: injection H as <- <-; split; [|split; [exact Ha|discriminate]]; constructor; auto; unfold createFunctionOrProcedure; cbn; apply D9.
  (* 19 *)
  1: { cbv zeta in H.
    assert (Hx : exists e, (v', a') = (if is_nil (v_stmt (d 3%nat)) then v else set_body v (gappend (v_body v) [v_stmt (d 3%nat)]), a) \/
       (v', a') = (if is_nil (v_stmt (d 3%nat)) then v else set_body v (gappend (v_body v) [v_stmt (d 3%nat)]), set_err a e)).
    { destruct (_ && _) in H.
      - err_inv H. injection H as <- <-. eexists. right. reflexivity.
      - cbn [bind] in H. injection H as <- <-. exists (ELex (LSyntax [])). left. reflexivity. }
    assert (Hg : good (if is_nil (v_stmt (d 3%nat)) then v else set_body v (gappend (v_body v) [v_stmt (d 3%nat)]))).
    { destruct (is_nil _); [exact Hv|]. constructor; auto. cbn [v_body set_body]. apply all_printable_app; [exact V8|].
      cbn [forallb]. rewrite D5. reflexivity. }
    destruct Hx as [e [Hx|Hx]]; injection Hx as -> ->; split; [exact Hg | split; [exact Ha|discriminate] | exact Hg | split; [exact Ha|discriminate]]. }
  (* 26, 27 *)
  1,2: match type of H with context [appendVars ?x ?y] => destruct (appendVars x y) as [[m [n|]]|]; cbn [bind] in H; [| |discriminate] end;
       [ err_inv H |]; injection H as <- <-; (split; [constructor; auto | split; [exact Ha|discriminate]]).
  (* 31 *)
  1: { injection H as <- <-. split; [|split; [exact Ha|discriminate]]. constructor; auto.
       cbn [v_opt_elseif_list set_opt_elseif_list]. unfold branches_printable, gappend. cbn [elems]. rewrite forallb_app.
       unfold branches_printable in D3. rewrite D3. cbn [forallb]. rewrite D9. reflexivity. }
  1: { injection H as <- <-. split; [|split; [exact Ha|discriminate]]. constructor; auto.
       cbn [v_stmt_loop set_stmt_loop]. rewrite printable_loop, D9, orb_true_r. reflexivity. }
  1,2,3,4: check_inv H; injection H as <- <-; (split; [constructor; auto | split; [exact Ha|discriminate]]).
  (* 81 *)
  1: { injection H as <- <-. split; [|split; [exact Ha|discriminate]]. constructor; auto.
       cbn [v_stmt set_stmt]. specialize (Hl eq_refl). destruct (v_goToLabel (d 2%nat)); [reflexivity | contradiction]. }
  1: destruct (v_param v) as [[x n] b]; injection H as <- <-; split; [constructor; auto | split; [exact Ha|discriminate]].
Qed.

(** * Runs *)
Lemma Next_literal code t k t' e : Next code t = (k, t', e) -> literal (tk_value t) = true -> literal (tk_value t') = true.
Proof.
  unfold Next. destruct (next (tk_prevDot t) (skipn (tk_off t) code)) as [[r s'] pd].
  intros H Hl. revert H.
  repeat match goal with |- context [if ?c then _ else _] => destruct c
                       | |- context [match ?c with Some _ => _ | None => _ end] => destruct c end;
  intros [= <- <- <-]; auto.
Qed.
Lemma good_keeps : keeps good labelled good_module.
Proof.
  constructor.
  - exact good_zero.
  - exact good_yys.
  - intros c code k t' e Hc H. pose proof (Next_literal _ _ _ _ _ H (g_token _ Hc)). destruct Hc. constructor; assumption.
  - intros H. discriminate H.
  - intros k c _ _ _ H. pose proof (tokno_of_range k) as [Hk _]. unfold tokno in Hk. unfold nt_no in H. lia.
  - intros k c q H. exact H.
  - intros r d v a v' a' Hr H Hd Hv Ha Hl. assert (Hg : good v) by (subst v; apply Hd).
    destruct (act_good _ _ _ _ _ _ Hr H Hd Hg Ha) as (G1 & G2 & G3).
    + intros ->. apply (Hl 1%nat (N n_goToLabel)); reflexivity.
    + split; [exact G1|]. split; [exact G2|]. intros Hn. apply G3, nt_no_inj. lia.
Qed.

Theorem Parse_good a a' e : good_module (a_module a) -> Parse a = Some (Ok (a', e)) -> good_module (a_module a').
Proof. apply (Parse_keeps _ _ _ _ _ _ good_keeps). Qed.

(** * Printing *)
Lemma oconcat_some l : (forall x, In x l -> x <> None) -> oconcat l <> None.
Proof.
  induction l as [|x l IH]; cbn [oconcat]; intros H; [discriminate|].
  destruct x as [x|]; [|destruct (H None); [left|]; reflexivity]. cbn [obind].
  destruct (oconcat l); [discriminate|]. apply IH. intros y Hy. apply H. right. exact Hy.
Qed.


(** printIfStatement, printLoopStatement and printTryStatement by [printBody]. *)
Lemma item_if c d e tb eib eb : printBodyItem c d (SIf e tb eib eb) =
  (sp <~ spaces (margin c * Z.of_nat d);
   r <~ (t <~ printBody c (S d) tb;
    ei <~ oconcat (map (fun i => match i with
                       | SIf e' tb' _ _ =>
                         r <~ printBody c (S d) tb';
                         Some (sp ++ B "ИначеЕсли " ++ printExpression e' 0 ++ B " Тогда " ++ r)
                       | _ => None
                       end) (elems eib));
    el <~ match eb with
          | None => Some []
          | Some _ => r <~ printBody c (S d) eb; Some (sp ++ B "Иначе " ++ r)
          end;
    Some (B "Если " ++ printExpression e 0 ++ B " Тогда " ++ t ++ ei ++ el ++ sp ++ B "КонецЕсли"
          ++ B ";" ++ newLine c 1));
   Some (sp ++ r)).
Proof.
  cbn [printBodyItem]. destruct (spaces (margin c * Z.of_nat d)) as [sp|]; [|reflexivity]. cbn [obind]. f_equal.
  unfold printBody at 1. destruct tb as [tb|]; cbn [elems];
  (match goal with |- obind ?a _ = obind ?b _ => change b with a; destruct a; [|reflexivity] end); cbn [obind];
  (match goal with |- obind (oconcat ?a) _ = obind (oconcat ?b) _ => replace b with a;
    [ destruct (oconcat a); [|reflexivity]; destruct eb; reflexivity
    | destruct eib; [|reflexivity]; cbn [elems]; apply map_ext; intros []; try reflexivity;
      match goal with x : option (list stmt) |- _ => destruct x; reflexivity end ] end).
Qed.
Lemma item_loop c d f t i w b : printBodyItem c d (SLoop f t i w b) =
  (sp <~ spaces (margin c * Z.of_nat d);
   r <~ (h2 <~ (if is_nil i then Some []
           else match f with
                | SStr n => Some (B "Каждого " ++ n ++ B " Из " ++ printExpression i 0 ++ B " Цикл ")
                | _ => None
                end);
    r <~ printBody c (S d) b;
    Some ((if is_nil w then B "Для " else B "Пока " ++ printExpression w 0 ++ B " Цикл ") ++ h2 ++
          (if is_nil t then [] else printExpression f 0 ++ B " По " ++ printExpression t 0 ++ B " Цикл ") ++
          r ++ sp ++ B "КонецЦикла" ++ B ";" ++ newLine c 1));
   Some (sp ++ r)).
Proof. destruct b; reflexivity. Qed.
Lemma item_try c d b h : printBodyItem c d (STry b h) =
  (sp <~ spaces (margin c * Z.of_nat d);
   r <~ (r1 <~ match b with Some _ => printBody c (S d) b | None => Some (newLine c 1) end;
    r2 <~ match h with Some _ => printBody c (S d) h | None => Some (newLine c 1) end;
    Some (B "Попытка" ++ r1 ++ sp ++ B "Исключение" ++ r2 ++ sp ++ B "КонецПопытки"
          ++ B ";" ++ newLine c 1));
   Some (sp ++ r)).
Proof. destruct b, h; reflexivity. Qed.

Definition body_ok (c : conf) (b : slice) : Prop := forall d, printBody c d b <> None.

Lemma body_total c b : (forall x, In x (elems b) -> printable x = true -> forall d, printBodyItem c d x <> None) ->
  all_printable b = true -> body_ok c b.
Proof.
  intros H Hb d. unfold printBody. unfold all_printable in Hb. rewrite forallb_forall in Hb.
  destruct (oconcat _) eqn:E; [discriminate|]. exfalso. revert E. apply oconcat_some.
  intros x Hx. apply in_map_iff in Hx as (i & <- & Hi). pose proof (H i Hi (Hb i Hi) d).
  destruct (printBodyItem c d i); [discriminate | contradiction].
Qed.

Lemma item_total c s : 0 <= margin c -> printable s = true -> forall d, printBodyItem c d s <> None.
Proof.
  intros Hm.
  cut ((printable s = true -> forall d, printBodyItem c d s <> None) /\
       (forall e tb x y, s = SIf e tb x y -> all_printable tb = true -> body_ok c tb)).
  { intros [H _]. exact H. }
  revert s. apply (stmt_parts_ind (fun s => _ /\ _)). intros s IH.
  assert (Hall : forall b, (forall x, In x (elems b) -> In x (parts s)) -> all_printable b = true -> body_ok c b).
  { intros b Hb. apply body_total. intros x Hx. apply IH. auto. }
  split.
  2: { intros e tb x y ->. apply Hall. intros z Hz. cbn [parts]. cbn. rewrite ?in_app_iff. auto. }
  intros Hs d.
  assert (Hsp : forall n, spaces (margin c * Z.of_nat n) = Some (repeat x20 (Z.to_nat (margin c * Z.of_nat n)))).
  { intros n. unfold spaces. destruct (_ <? 0) eqn:E; [|reflexivity]. apply Z.ltb_lt in E.
    pose proof (Z.mul_nonneg_nonneg (margin c) (Z.of_nat n) Hm (Nat2Z.is_nonneg n)). lia. }
  destruct s; try (cbn [printBodyItem]; rewrite Hsp; discriminate).
  - (* If *)
    rewrite item_if, Hsp. cbn [obind]. rewrite printable_if, !andb_true_iff in Hs. destruct Hs as ((S1 & S2) & S3).
    assert (B1 : body_ok c tb) by (apply Hall; [intros z Hz; cbn [parts]; cbn; rewrite ?in_app_iff; auto | exact S1]).
    assert (B2 : body_ok c eb) by (apply Hall; [intros z Hz; cbn [parts]; cbn; rewrite ?in_app_iff; auto | exact S2]).
    destruct (printBody c (S d) tb) eqn:E1; [|destruct (B1 _ E1)]. cbn [obind].
    match goal with |- context [oconcat ?l] => destruct (oconcat l) eqn:E2 end.
    2: { exfalso. revert E2. apply oconcat_some. intros x Hx. apply in_map_iff in Hx as (i & <- & Hi).
         unfold branches_printable in S3. rewrite forallb_forall in S3. specialize (S3 i Hi).
         destruct (IH i) as [_ IH2]; [cbn [parts]; cbn; rewrite ?in_app_iff; auto|].
         destruct i; try discriminate. specialize (IH2 _ _ _ _ eq_refl S3 (S d)).
         destruct (printBody c (S d) tb0); [discriminate | contradiction]. }
    cbn [obind]. destruct eb as [eb|]; [|discriminate].
    destruct (printBody c (S d) (Some eb)) eqn:E3; [discriminate|destruct (B2 _ E3)].
  - (* Try *)
    rewrite item_try, Hsp. cbn [obind]. rewrite printable_try, !andb_true_iff in Hs. destruct Hs as (S1 & S2).
    match goal with |- context [STry ?b ?h] => idtac | _ => idtac end.
    repeat match goal with |- context [match ?b with Some _ => printBody c (S d) _ | None => _ end] =>
      let H := fresh in assert (H : body_ok c b) by (apply Hall; [intros z Hz; cbn [parts]; rewrite ?in_app_iff; auto | assumption]);
      destruct b as [b|]; [let E := fresh in destruct (printBody c (S d) (Some b)) eqn:E; [|destruct (H _ E)]|]; cbn [obind]; clear H
    end; discriminate.
  - (* Loop *)
    rewrite item_loop, Hsp. cbn [obind]. rewrite printable_loop, andb_true_iff in Hs. destruct Hs as (S1 & S2).
    match goal with |- context [printBody c (S d) ?b] =>
      assert (H : body_ok c b) by (apply Hall; [intros z Hz; cbn [parts]; cbn; auto | exact S2]);
      destruct (printBody c (S d) b) eqn:E; [|destruct (H _ E)] end.
    match goal with |- context [is_nil ?i] => destruct (is_nil i) end; [discriminate|].
    match type of S1 with context [match ?f with SStr _ => _ | _ => _ end] => destruct f end; discriminate.
  - (* GoTo *) cbn [printBodyItem]. rewrite Hsp. destruct label; discriminate.
Qed.

Theorem Print_total order c m : 0 <= margin c -> good_module m -> Print order c m <> None.
Proof.
  intros Hm Hg. unfold Print, good_module in *. destruct (elems (m_body m)) as [|s0 l0] eqn:El; [discriminate|]. rewrite <- El in *. clear El.
  destruct (oconcat _) eqn:E; [discriminate|]. exfalso. revert E. apply oconcat_some.
  intros x Hx. apply in_map_iff in Hx as (i & <- & Hi). rewrite forallb_forall in Hg. specialize (Hg i Hi).
  pose proof (item_total c) as HT.
  assert (HI : printable i = true -> printBodyItem c 0 i <> None) by (intros Hp; apply HT; assumption).
  destruct i; try (specialize (HI Hg); destruct (printBodyItem c 0 _); [discriminate | contradiction]).
  cbn [top_printable] in Hg. cbn [printFunctionOrProcedure].
  match goal with |- context [printBody c 1 ?b] => assert (H : body_ok c b); [apply body_total; [|exact Hg]; intros; apply HT; assumption|] end.
  match goal with |- context [printBody c 1 ?b] => destruct (printBody c 1 b) eqn:E; [discriminate | destruct (H _ E)] end.
Qed.
