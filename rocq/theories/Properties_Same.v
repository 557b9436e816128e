(** The outcome depends only on the tokens (C50).  Specification: Same.v, Lexical.v,
    Where.v; proofs: Alike.v, Lockstep.v, Placed.v. *)
From Verif Require Import Bytes Utf8 Float64 GoTime Ast Lexer LexFacts LexSpec LexProofs NumSpec Tables Parser Grammar Tok CertData Cert
  Driver DriverInv Trees Properties_Parser Machine BackModule Lexical Scanned Blame Told Where Placed Printer Alike Lockstep Same Properties_Tree Properties_Signs Properties_Bind Properties_Legal.
Open Scope Z_scope.

Lemma paired_about c1 c2 all1 all2 t1 t2 m1 m2 : lexes c1 zero_token all1 -> lexes c2 zero_token all2 -> Trees.tks all1 = Trees.tks all2 -> paired all1 all2 t1 t2 ->
  exists pre k post, Trees.tks all1 = pre ++ k :: post /\ about c1 pre k m1 (loc c1 t1 m1) /\ about c2 pre k m2 (loc c2 t2 m2).
Proof.
  intros X1 X2 E (u1 & v1 & u2 & v2 & k & -> & -> & Hl). exists (Trees.tks u1), (tk_of k t1), (Trees.tks v1).
  assert (Eu : Trees.tks u1 = Trees.tks u2 /\ tk_of k t1 = tk_of k t2).
  { unfold Trees.tks in *. rewrite !map_app in E. cbn [map fst snd] in E.
    assert (F : length (map (fun x : Z * token => tk_of (fst x) (snd x)) u1) = length (map (fun x : Z * token => tk_of (fst x) (snd x)) u2)) by (rewrite !map_length; exact Hl).
    destruct (app_inj_length _ _ _ _ F E) as [E1 E2]. split; [exact E1|]. congruence. }
  destruct Eu as [E1 E2]. split; [unfold Trees.tks; rewrite map_app; reflexivity|]. split.
  - destruct (loc c1 t1 m1) as [|m line col lit] eqn:El; [discriminate El|]. assert (m = m1) as -> by (unfold loc in El; congruence).
    destruct (loc_place _ _ _ _ _ _ _ _ _ X1 El) as (before & y & rest & G). exists line, col, lit, before, y, rest. auto.
  - destruct (loc c2 t2 m2) as [|m line col lit] eqn:El; [discriminate El|]. assert (m = m2) as -> by (unfold loc in El; congruence).
    destruct (loc_place _ _ _ _ _ _ _ _ _ X2 El) as (before & y & rest & G). rewrite E1, E2. exists line, col, lit, before, y, rest. auto.
Qed.

Lemma no_lex_error code raw a x : blank code = false -> lexes code zero_token raw -> parse code = Some (Ok (a, Some (ELex x))) -> False.
Proof.
  intros Hb Hl H.
  destruct (parse_ends _ _ Hb Hl) as [(q & H2)|[(a2 & T & H2 & _ & _ & _ & [H3|(m & t & _ & _ & H3)])|(a2 & st & post & t & H2 & _)]]; rewrite H in H2;
    [discriminate| | |discriminate]; injection H2 as <- E2; rewrite H3 in E2; discriminate E2.
Qed.

(** * C50 Parse sees only the tokens *)
(** Comments, blanks, line breaks, regions and the spelling of keywords have no influence
    on what Parse returns: not on the module, nor on whether and for which token there
    is an error. *)
Theorem C50_same : forall code1 code2 l, text_of false code1 l -> text_of false code2 l -> same_outcome l code1 code2 (parse code1) (parse code2).
Proof.
  intros c1 c2 l H1 H2. apply tokens_text in H1, H2.
  assert (G : forall c1 c2, blank c1 = false -> blank c2 = false -> tokens c1 l -> tokens c2 l -> same_outcome l c1 c2 (parse c1) (parse c2)).
  { clear. intros c1 c2 B1 B2 (raw1 & X1 & E1) (raw2 & X2 & E2).
    assert (E : Trees.tks raw1 = Trees.tks raw2) by (unfold Trees.tks; congruence). pose proof (parse_alike _ _ _ _ B1 B2 X1 X2 E) as P.
    destruct (parse c1) as [[[a1 e1]|]|] eqn:Y1, (parse c2) as [[[a2 e2]|]|]; cbn [outcomes_alike same_outcome] in *; try contradiction; [|exact P].
    destruct P as [P1 P2]. split; [exact P1|]. destruct P2 as [[-> ->]|[(x & -> & ->)|(m1 & m2 & t1 & t2 & M & Pt & -> & ->)]]; cbn [same_error]; [exact I|exfalso; exact (no_lex_error _ _ _ _ B1 X1 Y1)|].
    destruct (paired_about _ _ _ _ _ _ m1 m2 X1 X2 E Pt) as (pre & k & post & F & A1 & A2). exists m1, m2, pre, k, post. split; [rewrite E1; exact F|].
    split; [exact M|]. split; assumption. }
  assert (W : forall c1 c2, blank c1 = true -> blank c2 = false -> tokens c1 l -> tokens c2 l -> exists a2, parse c2 = Some (Ok (a2, None)) /\ a_module a2 = a_module (NewAST c2)).
  { intros d1 d2 B1 B2 T1 T2. assert (l = []) as El.
    { destruct l as [|x l']; [reflexivity|]. exfalso. apply (tokens_not_white _ _ T1); [discriminate|]. apply blank_white, B1. }
    assert (Bc : blank (B "//") = false) by reflexivity.
    assert (Tc : tokens (B "//") l) by (rewrite El; exists []; split; [econstructor; vm_compute; reflexivity|reflexivity]).
    assert (Pc : exists a, parse (B "//") = Some (Ok (a, None)) /\ a_module a = a_module (NewAST d2)) by (eexists; split; [vm_compute; reflexivity|reflexivity]).
    destruct Pc as (a & Pa & Ma). pose proof (G _ _ Bc B2 Tc T2) as X. rewrite Pa in X. destruct (parse d2) as [[[a2 [e2|]]|]|]; cbn [same_outcome same_error] in X; try tauto.
    exists a2. split; [reflexivity|]. destruct X. congruence. }
  assert (Z : forall c, blank c = true -> parse c = Some (Ok (NewAST c, None))) by (intros c Hb; unfold parse, Parse; cbn [NewAST a_code]; rewrite Hb; reflexivity).
  destruct (blank c1) eqn:B1, (blank c2) eqn:B2.
  - rewrite (Z _ B1), (Z _ B2). split; [reflexivity|exact I].
  - rewrite (Z _ B1). destruct (W _ _ B1 B2 H1 H2) as (a2 & -> & E). split; [symmetry; exact E|exact I].
  - rewrite (Z _ B2). destruct (W _ _ B2 B1 H2 H1) as (a2 & -> & E). split; [exact E|exact I].
  - apply G; assumption.
Qed.
(** So a text is accepted if and only if every other way of writing it is, with the same
    module and the same formatting. *)
Theorem C50_accepted : forall code1 code2 l a1, text_of false code1 l -> text_of false code2 l -> parse code1 = Some (Ok (a1, None)) ->
  exists a2, parse code2 = Some (Ok (a2, None)) /\ a_module a2 = a_module a1 /\ forall order c, Print order c (a_module a2) = Print order c (a_module a1).
Proof.
  intros c1 c2 l a1 H1 H2 E. pose proof (C50_same _ _ _ H1 H2) as X. rewrite E in X.
  destruct (parse c2) as [[[a2 [e2|]]|]|]; cbn [same_outcome same_error] in X; try tauto. destruct X as [X _]. exists a2. split; [reflexivity|]. rewrite X. auto.
Qed.

(** One text written in two ways. *)
Definition neat : bytes := B "Если а Тогда
  б(1, ""х"");
КонецЕсли;".
Definition messy : bytes := B "
#Область Р
  ЕСЛИ а //если
тогда б ( 1 ,""х"" ) ; конецЕСЛИ;
#КонецОбласти
//".
Example C50_example : text_of false neat (toks_of neat) /\ text_of false messy (toks_of neat) /\ (length (toks_of neat) = 12)%nat /\
  exists a, parse neat = Some (Ok (a, None)).
Proof.
  split; [apply tokens_text; tokenized|]. split; [|split; [vm_compute; reflexivity|eexists; vm_compute; reflexivity]].
  assert (E : toks_of neat = toks_of messy) by (vm_compute; reflexivity). rewrite E. apply tokens_text. tokenized.
Qed.
Example C50_example_error : exists w1 w2, text_of false (B "Прервать; а = 1") (toks_of (B "Прервать; а = 1")) /\ text_of false (B "
 прерВАТЬ ;а=1") (toks_of (B "Прервать; а = 1")) /\
  (exists a, parse (B "Прервать; а = 1") = Some (Ok (a, Some (EParse (MLoopOp w1) 1 0 w1)))) /\
  (exists a, parse (B "
 прерВАТЬ ;а=1") = Some (Ok (a, Some (EParse (MLoopOp w2) 2 1 w2)))) /\ w1 <> w2.
Proof.
  exists (B "Прервать"), (B "прерВАТЬ"). split; [apply tokens_text; tokenized|]. split.
  - assert (E : toks_of (B "Прервать; а = 1") = toks_of (B "
 прерВАТЬ ;а=1")) by (vm_compute; reflexivity). rewrite E. apply tokens_text. tokenized.
  - split; [eexists; vm_compute; reflexivity|]. split; [eexists; vm_compute; reflexivity|discriminate].
Qed.

Print Assumptions C50_same.
Print Assumptions C50_accepted.
