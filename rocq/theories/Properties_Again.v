(** Blank texts (C38) and repeated calls of Parse on one node (C26).
    Specifications: LexSpec.v (trivia), Again.v (additions to a module). *)
From Verif Require Import Bytes Utf8 Float64 GoTime Ast Lexer LexFacts LexSpec LexProofs LexTrivia Tables Parser Grammar Tok CertData Cert
  Driver DriverInv Trees CellInv FlatInv Again Properties_Lexer Properties_Parser Properties_Tree.
Open Scope Z_scope.

(** * C38 Blank texts *)
(** On any node, fresh or used before. *)
Theorem C38_white : forall a, all_white (a_code a) -> Parse a = Some (Ok (a, None)).
Proof. intros a H. unfold Parse. apply blank_white in H. rewrite H. reflexivity. Qed.

Lemma look_end p : p_char p < 0 -> (exists t', Next (a_code (p_ast p)) (v_token (p_lval p)) = (EOF, t', None)) ->
  exists t', look p = Pst (p_stk p) (p_above p) (p_state p) (set_token (p_lval p) t') EOF 1 (p_ast p) /\
    exists t'', Next (a_code (p_ast p)) t' = (EOF, t'', None).
Proof.
  intros H (t' & E). apply Z.ltb_lt in H. unfold look. rewrite H. unfold Lex.
  destruct (a_code (p_ast p)) as [|b c] eqn:Ec.
  - exists (v_token (p_lval p)). split; [reflexivity|]. apply Next_at_end. destruct (tk_off _); reflexivity.
  - rewrite E. exists t'. split; [reflexivity|]. apply Next_at_end. exact (Next_end _ _ _ E).
Qed.
Lemma step0_end p : p_state p = 0 -> p_char p < 0 -> Forall (fun c => state (yys c)) (p_stk p) ->
  (exists t', Next (a_code (p_ast p)) (v_token (p_lval p)) = (EOF, t', None)) ->
  exists t', step p = reduce (Pst (p_stk p) (p_above p) 0 (set_token (p_lval p) t') EOF 1 (p_ast p)) 1 /\
    exists t'', Next (a_code (p_ast p)) t' = (EOF, t'', None).
Proof.
  intros Hs Hc Hst He. rewrite step_eq by (rewrite ?Hs; auto; unfold state, n_states; lia).
  unfold look2, look1. rewrite Hs. change (at_ yyPact 0 <=? yyFlag) with false. change (at_ yyDef 0 =? -2) with true. cbv iota.
  destruct (look_end p Hc He) as (t1 & -> & H1). cbn [p_tok]. change (shift_of 0 1) with (@None Z). cbv iota.
  match goal with |- context [look ?q] => destruct (look_end q) as (t2 & -> & H2) end; [cbn; unfold EOF; lia | exact H1|].
  cbn [p_tok]. change (default 0 1) with (Reduce 1). cbn [do_default p_stk p_above p_state p_lval p_ast]. rewrite Hs.
  exists t2. split; [reflexivity | exact H2].
Qed.
Lemma step1_end p : p_state p = 1 -> p_char p < 0 -> Forall (fun c => state (yys c)) (p_stk p) ->
  (exists t', Next (a_code (p_ast p)) (v_token (p_lval p)) = (EOF, t', None)) -> step p = Done 0 (p_ast p).
Proof.
  intros Hs Hc Hst He. rewrite step_eq by (rewrite ?Hs; auto; unfold state, n_states; lia).
  unfold look2, look1. rewrite Hs. change (at_ yyPact 1 <=? yyFlag) with true. change (at_ yyDef 1 =? -2) with true. cbv iota.
  change (shift_of 1 (p_tok p)) with (@None Z).
  destruct (look_end p Hc He) as (t1 & -> & H1). reflexivity.
Qed.
Lemma end_at_once a : (exists t', Next (a_code a) zero_token = (EOF, t', None)) -> forall n, run (S (S n)) (init_pst a) = Some (Ok (0, a)).
Proof.
  intros He n. cbn [run]. destruct (step0_end (init_pst a)) as (t1 & -> & H1); try reflexivity; auto.
  { repeat constructor; unfold n_states; cbn; lia. }
  match goal with |- context [reduce ?p 1] => change (reduce p 1) with
    (Next_ (push (Pst [set_yys zero_slot 0] [] 0 (set_token zero_slot t1) EOF 1 a) zero_slot 1)) end. cbv iota.
  rewrite step1_end; try reflexivity; auto. { repeat constructor; unfold n_states; cbn; lia. }
Qed.
(** White space, comments and lines with #, the last one possibly unfinished: no error and
    nothing else happens to the node, fresh or used before -- unless it has an error already. *)
Theorem C38_trivia : forall a, last_trivia (a_code a) -> a_err a = None -> Parse a = Some (Ok (a, None)).
Proof.
  intros a H He. unfold Parse. destruct (blank (a_code a)); [reflexivity|].
  assert (Hn : exists t', Next (a_code a) zero_token = (EOF, t', None)) by exact (C04_trailing_trivia (a_code a) zero_token (a_code a) H eq_refl).
  replace (parse_fuel (a_code a)) with (S (S (parse_fuel (a_code a) - 2))) by (unfold parse_fuel; lia).
  rewrite (end_at_once a Hn), He. reflexivity.
Qed.
Theorem C38_new : forall code, all_white code \/ last_trivia code ->
  exists a, parse code = Some (Ok (a, None)) /\ m_body (a_module a) = None /\ m_gvars (a_module a) = None.
Proof.
  intros code [H|H]; exists (NewAST code); (split; [|auto]).
  - exact (C38_white (NewAST code) H).
  - exact (C38_trivia (NewAST code) H eq_refl).
Qed.
(** Nothing but such texts has no tokens. *)
Theorem C38_tokens : forall a, tokens (a_code a) [] -> a_err a = None -> Parse a = Some (Ok (a, None)).
Proof.
  intros a (raw & H & E) He. destruct raw; [|discriminate]. inversion H as [t t' Hn|]; subst.
  unfold Parse. destruct (blank (a_code a)); [reflexivity|].
  replace (parse_fuel (a_code a)) with (S (S (parse_fuel (a_code a) - 2))) by (unfold parse_fuel; lia).
  rewrite (end_at_once a), He by eauto. reflexivity.
Qed.
Example C38_example : last_trivia (B "  // комментарий
#Область А
  // конец") /\ ~ all_white (B "  // комментарий
#Область А
  // конец") /\ all_white [z2b 32; z2b 194; z2b 160; z2b 10].
Proof.
  assert (L : forall l, forallb (fun b => negb (b2z b =? 10)) l = true -> line l).
  { intros l. unfold line. rewrite forallb_forall, Forall_forall. intros H b Hb. specialize (H b Hb). lia. }
  split; [|split].
  - apply (lt_comment (B "  // комментарий
#Область А
  ") (B " конец")); [|apply L; reflexivity].
    do 2 (apply tr_space; [left; reflexivity|]).
    apply (tr_comment (B " комментарий") (B "#Область А
  ")); [apply L; reflexivity|].
    apply (tr_hash (B "Область А") (B "  ")); [apply L; reflexivity|].
    do 2 (apply tr_space; [left; reflexivity|]). constructor.
  - intros H. apply blank_white in H. vm_compute in H. discriminate.
  - apply blank_white. reflexivity.
Qed.

(** * C26 Parse twice on one node *)
Definition C26_statement : Prop := forall code a e a' e',
  Parse (NewAST code) = Some (Ok (a, e)) -> Parse a = Some (Ok (a', e')) ->
  a_module a' = a_module a /\ (e' = None <-> e = None).

(** Every call, on any node, makes the same attempts to append declarations, procedures and
    statements to the module, in the same order, as the call on a new node with the same
    text.  Attempts against the rules of a module (C21, C22) are left out and make the call
    fail. *)
Theorem C26_attempts : forall a a' e b eb,
  Parse a = Some (Ok (a', e)) -> Parse (NewAST (a_code a)) = Some (Ok (b, eb)) ->
  exists xs, Forall proper xs /\
    a_module b = add_all xs zero_module /\ (eb = None -> all_allowed xs zero_module = true) /\
    a_module a' = add_all xs (a_module a) /\ (e = None -> all_allowed xs (a_module a) = true).
Proof. intros a a' e b eb H1 H2. exact (Parse_twice a b eb e H2 a' H1). Qed.

Lemma Parse_code a a' e : Parse a = Some (Ok (a', e)) -> a_code a' = a_code a.
Proof.
  unfold Parse. destruct (blank (a_code a)); [intros [= <- <-]; reflexivity|].
  destruct (run_result _ (init_inv a)) as (n & p' & H1 & H2 & H3 & H4 & H5).
  rewrite H5 by (rewrite init_potential; unfold parse_fuel; lia).
  destruct (steps_inv _ _ _ H1 (init_inv a)) as (_ & _ & C1 & _). pose proof (step_inv p' H3) as Hs.
  destruct (step p') as [?|x a1|y]; cbn [outcome]; [contradiction| |discriminate].
  intros [= <- <-]. destruct Hs as (Hs & _). rewrite Hs, C1. reflexivity.
Qed.
(** The second call after an accepted first one: the declarations stay; the procedures and
    functions are appended once more if the module consists of them, otherwise the
    statements are.  With declarations, or with both procedures and statements, the second
    call fails. *)
Theorem C26_second : forall code a a' e',
  Parse (NewAST code) = Some (Ok (a, None)) -> Parse a = Some (Ok (a', e')) ->
  let body := elems (m_body (a_module a)) in
  let fs := filter is_func body in
  let rest := filter (fun s => negb (is_func s)) body in
  m_name (a_module a') = m_name (a_module a) /\ m_gvars (a_module a') = m_gvars (a_module a) /\
  body = fs ++ rest /\
  elems (m_body (a_module a')) = body ++ (match rest with [] => fs | _ => rest end) /\
  (elems (m_gvars (a_module a)) <> [] \/ fs <> [] /\ rest <> [] -> e' <> None).
Proof.
  intros code a a' e' H1 H2.
  pose proof (Parse_code _ _ _ H1) as Hc. change (a_code (NewAST code)) with code in Hc.
  rewrite <- Hc in H1. destruct (Parse_twice a a None e' H1 a' H2) as (xs & P & M1 & A1 & M2 & A2).
  destruct (second_call xs P (A1 eq_refl)) as (S1 & S2 & S3 & S4 & S5 & S6).
  cbv zeta. rewrite M2, M1 in *. split; [exact S2|]. split; [exact S3|]. split; [exact S1|]. split; [exact S4|].
  intros H ->. destruct (S6 (A2 eq_refl)) as [K1 K2]. destruct H as [H|[H3 H4]]; [contradiction | destruct K2; contradiction].
Qed.
(** So the tree stays the same exactly if the module has no body; and an error, once
    returned, is returned by all later calls (C17). *)
Theorem C26_same_partial : forall code a a' e',
  Parse (NewAST code) = Some (Ok (a, None)) -> Parse a = Some (Ok (a', e')) ->
  (a_module a' = a_module a <-> elems (m_body (a_module a)) = []).
Proof.
  intros code a a' e' H1 H2. pose proof (C26_second _ _ _ _ H1 H2) as (S1 & S2 & S3 & S4 & _). cbv zeta in S4.
  pose proof (Parse_code _ _ _ H1) as Hc. change (a_code (NewAST code)) with code in Hc. rewrite <- Hc in H1.
  destruct (Parse_twice a a None e' H1 a' H2) as (xs & P & M1 & A1 & M2 & A2).
  destruct (second_call xs P (A1 eq_refl)) as (_ & _ & _ & _ & S5 & _). rewrite <- M1, <- M2 in S5.
  split; [|exact S5].
  intros E. rewrite E in S4. rewrite <- (app_nil_r (elems _)) in S4 at 1. apply app_inv_head in S4.
  cbv zeta in S3. rewrite S3. destruct (filter (fun s => negb (is_func s)) (elems (m_body (a_module a)))) eqn:Er; [|discriminate S4].
  rewrite <- S4. reflexivity.
Qed.
Theorem C26_error : forall code a e a' e', ~ all_white code ->
  Parse (NewAST code) = Some (Ok (a, Some e)) -> Parse a = Some (Ok (a', e')) -> e' <> None.
Proof.
  intros code a e a' e' Hw H1 H2. pose proof (Parse_code _ _ _ H1) as Hc. change (a_code (NewAST code)) with code in Hc.
  apply (C17_old_error a a' e'); [|rewrite Hc; exact Hw | exact H2].
  unfold Parse in H1. change (a_code (NewAST code)) with code in H1. rewrite (blank_not_white _ Hw) in H1.
  destruct (run _ _) as [[[x b]|]|]; try discriminate. injection H1 as -> ->. discriminate.
Qed.

Definition parsed (code : bytes) : astnode := match parse code with Some (Ok (a, _)) => a | _ => NewAST code end.
Definition two : bytes := B "Перем Г; Процедура П() КонецПроцедуры а = 1;".
Example C26_example :
  Parse (NewAST (B "Ф(1); б = 2;")) = Some (Ok (parsed (B "Ф(1); б = 2;"), None)) /\
  Parse (NewAST two) = Some (Ok (parsed two, None)) /\
  (exists a e, Parse (parsed two) = Some (Ok (a, Some e)) /\ length (elems (m_body (a_module a))) = 3%nat) /\
  (exists a, Parse (parsed (B "Ф(1); б = 2;")) = Some (Ok (a, None)) /\ length (elems (m_body (a_module a))) = 4%nat).
Proof.
  split; [vm_compute; reflexivity|]. split; [vm_compute; reflexivity|].
  split; [eexists; eexists | eexists]; (split; [vm_compute; reflexivity | reflexivity]).
Qed.
Theorem C26_refuted : ~ C26_statement.
Proof.
  intros H. destruct C26_example as (E1 & _ & _ & (a & E2 & E3)). destruct (H _ _ _ _ _ E1 E2) as [E _].
  assert (L : length (elems (m_body (a_module (parsed (B "Ф(1); б = 2;"))))) = 2%nat) by (vm_compute; reflexivity).
  rewrite <- E in L. rewrite E3 in L. discriminate.
Qed.

(** * C22 once more: nothing after the procedures and functions is one *)
Theorem C22_functions_first : forall code m, accepted code m ->
  exists fs rest, elems (m_body m) = fs ++ rest /\ Forall (fun s => is_func s = true) fs /\ Forall (fun s => is_func s = false) rest.
Proof.
  intros code m (Hw & a & H & <-). destruct (Parse_twice (NewAST code) a None None H a H) as (xs & P & M1 & A1 & _).
  destruct (first_call xs zero_module [] [] P (A1 eq_refl) eq_refl (Forall_nil _) (Forall_nil _)) as (B1 & _ & B3 & B4 & _).
  exists (funs xs), (stms xs). rewrite M1. auto.
Qed.
Example C22_first_example : accepted two (tree_of two) /\ length (elems (m_body (tree_of two))) = 2%nat /\
  map is_func (elems (m_body (tree_of two))) = [true; false].
Proof. split; [accepted|]. vm_compute. auto. Qed.

Print Assumptions C22_functions_first.
Print Assumptions C38_white. Print Assumptions C38_trivia. Print Assumptions C38_new. Print Assumptions C38_tokens.
Print Assumptions C26_attempts. Print Assumptions C26_second. Print Assumptions C26_same_partial. Print Assumptions C26_error. Print Assumptions C26_refuted.
