(** The outcome depends only on the tokens and the faults of a text (C67).  Specification:
    Pieces.v, Faults.v, Lexical.v, Where.v, Same.v; proofs: Alike.v, PiecesRun.v. *)
From Verif Require Import Bytes Utf8 Float64 GoTime Ast Lexer LexFacts Utf8Facts LexSpec LexProofs LexTrivia NumSpec Tables Parser Grammar Tok CertData Cert
  Driver DriverInv Trees Properties_Parser Syntax Rules Declared RulesFacts CleanFacts DeclaredFacts Order OrderFacts CstTrees CstEval CstModule Properties_Tree
  Machine BackModule Lexical Scanned Blame Told Where Placed Printer Alike Lockstep Same Properties_Signs Properties_Bind Properties_Legal
  Faults FaultFacts Reached Properties_Faults Pieces PiecesRun.
From Verif Require Import Lexical Where Tok.
Open Scope Z_scope.

Lemma piece_place c pre k t m : at_piece c pre k t -> about_piece c pre k m (loc c t m).
Proof.
  intros (t1 & z & H & S2 & S3 & Ek). destruct (loc c t m) as [|m' line col lit] eqn:E; [discriminate E|]. assert (m' = m) as -> by (unfold loc in E; congruence).
  destruct (Next_res _ _ _ _ S2) as (r & s' & pd' & N1 & N2 & N3 & N4 & N5 & N6).
  destruct (Next_fields _ _ _ _ _ S2) as (r2 & s2 & pd2 & F1 & F2 & F3). rewrite N1 in F1. injection F1 as <- <- <-.
  pose proof S3 as S4. rewrite N3 in S4.
  destruct (next_one _ _ _ _ _ _ N1 N2 S4 N6) as (w & x & Ex & Hw & Hx & Hp). rewrite Ex in N1. destruct (one_lit _ _ _ _ _ _ _ Hw Hx N1) as (y & -> & L1 & L2).
  destruct (rest_suffix c t1) as (u & Eu). rewrite Ex in H, Eu. rewrite app_assoc in Eu. rewrite Ek in *. clear Ek.
  exists line, col, lit, (u ++ w), y, s'. split; [reflexivity|]. split; [exists (tk_prevDot t1), w; auto|].
  unfold loc in E. injection E as <- <- <-. rewrite F3, F2. pose proof (position_place c (u ++ w) y s' Eu) as P.
  cbn [GetPosition p_line p_col] in P. unfold GetPosition in P |- *. cbn [p_line p_col] in P |- *. split; [exact L1|]. split; [eexists; split; [exact P|ring]|]. intros Hpl. specialize (L2 Hpl).
  assert (El : lr_lit r = y) by (destruct k; try discriminate Hpl; exact L1). rewrite El. destruct L2 as (rs & -> & R1 & R2 & R3).
  rewrite runes_string by exact R2. pose proof (place_before _ _ _ _ R2 R1 (lf_string _ R2 R3) P) as Q.
  match goal with Q : place _ _ ?a |- place _ _ ?b => replace b with a by ring end. exact Q.
Qed.

Lemma pieces_det dot s l : pieces_of dot s l -> forall l', pieces_of dot s l' -> l = l'.
Proof.
  induction 1 as [dot w Hw|dot w x k rest l Hw Hx H IH|dot w x e rest l Hw Hx H IH]; intros l' H'.
  - pose proof (next_nil dot _ (trivia_end_last _ Hw)) as N. inversion H' as [|? v y k r l2 Hv Hy H2 E1 E2|? v y e r l2 Hv Hy H2 E1 E2]; subst; [reflexivity| |].
    + destruct (one_next _ _ _ _ _ Hv Hy) as (r1 & N1 & _ & N3 & _). rewrite N in N1. injection N1 as <- _ _. destruct (N3 eq_refl).
    + destruct (fault_next dot _ _ _ _ Hv Hy) as (r1 & s1 & N1 & N2). rewrite N in N1. injection N1 as <- _. discriminate N2.
  - destruct (one_next _ _ _ _ _ Hw Hx) as (r0 & M1 & M2 & M3 & M4). inversion H' as [? v Hv E1 E2|? v y k2 r l2 Hv Hy H2 E1 E2|? v y e r l2 Hv Hy H2 E1 E2]; subst.
    + rewrite next_nil in M1 by (apply trivia_end_last, Hv). injection M1 as <- _ _. destruct (M3 eq_refl).
    + destruct (one_next _ _ _ _ _ Hv Hy) as (r1 & N1 & N2 & N3 & N4). rewrite E2, M1 in N1. injection N1 as <- <- _. assert (k2 = k) as -> by congruence. f_equal. apply IH, H2.
    + destruct (fault_next dot _ _ _ _ Hv Hy) as (r1 & s1 & N1 & N2). rewrite E2, M1 in N1. injection N1 as <- _. rewrite (nerr_token _ _ M2 M4) in N2. discriminate N2.
  - destruct (fault_next dot _ _ _ _ Hw Hx) as (r0 & s0 & M1 & M2). inversion H' as [? v Hv E1 E2|? v y k2 r l2 Hv Hy H2 E1 E2|? v y e2 r l2 Hv Hy H2 E1 E2]; subst.
    + rewrite next_nil in M1 by (apply trivia_end_last, Hv). injection M1 as <- _. discriminate M2.
    + destruct (one_next _ _ _ _ _ Hv Hy) as (r1 & N1 & N2 & N3 & N4). rewrite E2, M1 in N1. injection N1 as <- _ _. rewrite (nerr_token _ _ N2 N4) in M2. discriminate M2.
    + destruct (fault_next dot _ _ _ _ Hv Hy) as (r1 & s1 & N1 & N2). pose proof N1 as N1'. rewrite E2, M1 in N1'. injection N1' as <- <-. assert (e2 = e) as -> by congruence. f_equal. apply IH.
      eapply pieces_end; [exact H2|]. rewrite <- (fault_rest _ _ _ _ _ _ _ _ Hw Hx M1). symmetry. eapply fault_rest; eassumption.
Qed.

(** * C67 Parse sees only the tokens and the faults of a text *)
(** Every text is a sequence of tokens and faults, in one way; a sequence of tokens alone
    if it has no fault. *)
Theorem C67_pieces : forall code, exists l, pieces_of false code l /\ (forall l', pieces_of false code l' -> l' = l) /\
  (forall toks, text_of false code toks <-> l = map (@Datatypes.inl tk lexerr) toks).
Proof.
  intros code. destruct (pieces_total code false) as (l & H). exists l. split; [exact H|]. split; [intros l' H'; eapply pieces_det; eassumption|].
  intros toks. assert (G : forall d s t, text_of d s t <-> pieces_of d s (map (@Datatypes.inl tk lexerr) t)).
  { clear. intros d s t. split.
    - induction 1 as [d w Hw|d w x k rest t Hw Hx H IH]; cbn [map]; [apply po_end, Hw|eapply po_token; eassumption].
    - revert d s. induction t as [|k t IH]; intros d s H; cbn [map] in H; inversion H; subst; [apply to_end; assumption|]. eapply to_token; [eassumption|eassumption|]. apply IH. assumption. }
  split.
  - intros Ht. eapply pieces_det; [exact H|]. apply G, Ht.
  - intros ->. apply G, H.
Qed.
(** The outcome is the same for all texts with the same tokens and faults, if none or both
    are all white space. *)
Theorem C67_same : forall code1 code2 l, pieces_of false code1 l -> pieces_of false code2 l -> (all_white code1 <-> all_white code2) ->
  same_end l code1 code2 (parse code1) (parse code2).
Proof.
  intros c1 c2 l H1 H2 Hw. rewrite <- !blank_white in Hw. destruct (blank c1) eqn:B1, (blank c2) eqn:B2.
  1: { unfold parse, Parse. cbn [NewAST a_code]. rewrite B1, B2. split; [reflexivity|exact I]. }
  1: { destruct Hw as [Hw _]. discriminate (Hw eq_refl). }
  1: { destruct Hw as [_ Hw]. discriminate (Hw eq_refl). }
  assert (N1 : c1 <> []) by (intros ->; discriminate B1). assert (N2 : c2 <> []) by (intros ->; discriminate B2).
  pose proof (parse_pieces c1 c2 l N1 N2 B1 B2 H1 H2) as X. destruct (parse c1) as [[[a1 e1]|]|], (parse c2) as [[[a2 e2]|]|]; cbn [same_end]; try contradiction; [|exact X].
  destruct X as [X1 X2]. split; [exact X1|]. destruct X2 as [[-> ->]|[(x & -> & ->)|(m1 & m2 & t1 & t2 & M & (pre & k & post & E & P1 & P2) & -> & ->)]]; cbn [same_told]; [exact I|reflexivity|].
  pose proof (piece_place _ _ _ _ m1 P1) as A1. pose proof (piece_place _ _ _ _ m2 P2) as A2. unfold loc in *. exists m1, m2, pre, k, post. auto.
Qed.
(** Without the condition it fails: Parse takes a text of white space as empty, also where
    the scanner knows the white space not. *)
Theorem C67_white_refuted : exists code1 code2 l, pieces_of false code1 l /\ pieces_of false code2 l /\ ~ same_end l code1 code2 (parse code1) (parse code2).
Proof.
  set (c1 := z2b 194 :: z2b 160 :: []). set (c2 := B "//" ++ LF :: c1).
  assert (F : fault c1 (LSyntax (encode 160)) []).
  { apply (fa_char c1 160 2); [discriminate|vm_compute; reflexivity|].
    intros [H|[H|[H|[H|H]]]]; [apply LexProofs.isLetter_spec in H; vm_compute in H; discriminate|unfold digit_char in H; lia|vm_compute in H; repeat destruct H as [H|H]; try discriminate H; exact H|lia|].
    apply LexProofs.isSpace_spec in H. vm_compute in H. discriminate. }
  assert (E : pieces_of false [] []) by (apply po_end, lt_trivia, tr_nil).
  exists c1, c2, [inr (LSyntax (encode 160))]. split; [apply (po_fault false [] c1 _ []); [apply tr_nil|exact F|exact E]|].
  split; [change c2 with ((B "//" ++ [] ++ nl ++ []) ++ c1); apply (po_fault false _ c1 _ []); [apply tr_comment; [|apply tr_nil]; constructor|exact F|exact E]|].
  assert (P1 : exists a, parse c1 = Some (Ok (a, None))) by (eexists; vm_compute; reflexivity). assert (P2 : exists a e, parse c2 = Some (Ok (a, Some e))) by (do 2 eexists; vm_compute; reflexivity).
  destruct P1 as (a1 & ->), P2 as (a2 & e2 & ->). intros [_ H]. exact H.
Qed.

(** Examples. *)
Fixpoint pieces_at (n : nat) (code : bytes) (t : token) : option (list piece) :=
  match n with
  | O => None
  | S n => match Next code t with
           | (_, u, Some e) => option_map (cons (Datatypes.inr e)) (pieces_at n code u)
           | (k, u, None) => if k =? EOF then Some [] else option_map (cons (Datatypes.inl (tk_of k u))) (pieces_at n code u)
           end
  end.
Lemma pieces_at_sound n code : forall t l, pieces_at n code t = Some l -> pieces_of (tk_prevDot t) (rest_of code t) l.
Proof.
  induction n as [|n IH]; intros t l H; cbn [pieces_at] in H; [discriminate|]. destruct (Next code t) as [[k u] [e|]] eqn:E.
  - destruct (pieces_at n code u) as [l0|] eqn:El; cbn [option_map] in H; [|discriminate]. injection H as <-. specialize (IH _ _ El).
    destruct (Next_fault _ _ _ _ _ E) as (w & x & Ex & Hw & Hx & Hd). rewrite Hd in IH. rewrite Ex. eapply po_fault; eassumption.
  - destruct (Next_res _ _ _ _ E) as (r & s' & pd' & N1 & N2 & N3 & N4 & N5 & N6). destruct (k =? EOF) eqn:Ek.
    + apply Z.eqb_eq in Ek. rewrite N3 in Ek. injection H as <-. apply po_end, trivia_end_nil. exact (next_eof _ _ _ _ _ N1 Ek N2).
    + apply Z.eqb_neq in Ek. destruct (pieces_at n code u) as [l0|] eqn:El; cbn [option_map] in H; [|discriminate]. injection H as <-. specialize (IH _ _ El).
      rewrite N3 in Ek. destruct (next_one _ _ _ _ _ _ N1 N2 Ek N6) as (w & x & Ex & Hw & Hx & Hp). rewrite N4, N5, Hp in IH. rewrite Ex. eapply po_token; eassumption.
Qed.
Definition neat_faults : bytes := B "а = 1; $ б = 2; '20240230' 1а".
Definition messy_faults : bytes := B "// к
 а=1 ;$//б
  б=2 ;'2024.02.30'
1а".
(** Two ways of writing a text with three faults: the same message for the same token. *)
Example C67_example : exists l, pieces_of false neat_faults l /\ pieces_of false messy_faults l /\ length l = 12%nat /\ ~ all_white neat_faults /\ ~ all_white messy_faults /\
  (exists a, parse neat_faults = Some (Ok (a, Some (EParse MSyntax 1 9 (B "б"))))) /\ (exists a, parse messy_faults = Some (Ok (a, Some (EParse MSyntax 3 2 (B "б"))))).
Proof.
  destruct (pieces_at 20 neat_faults zero_token) as [l|] eqn:E1; [|vm_compute in E1; discriminate].
  assert (E2 : pieces_at 20 messy_faults zero_token = pieces_at 20 neat_faults zero_token) by (vm_compute; reflexivity). rewrite E1 in E2.
  exists l. split; [exact (pieces_at_sound _ _ _ _ E1)|]. split; [exact (pieces_at_sound _ _ _ _ E2)|]. split; [vm_compute in E1; injection E1 as <-; reflexivity|].
  split; [not_white|]. split; [not_white|]. split; (eexists; vm_compute; reflexivity).
Qed.
(** ... and with the same error of the scanner. *)
Example C67_example_scanner : exists l, pieces_of false (B "а = 1; $") l /\ pieces_of false (B "а=1//
;$ ") l /\ (exists a, parse (B "а = 1; $") = Some (Ok (a, Some (ELex (LSyntax (B "$")))))) /\ (exists a, parse (B "а=1//
;$ ") = Some (Ok (a, Some (ELex (LSyntax (B "$")))))).
Proof.
  destruct (pieces_at 20 (B "а = 1; $") zero_token) as [l|] eqn:E1; [|vm_compute in E1; discriminate].
  assert (E2 : pieces_at 20 (B "а=1//
;$ ") zero_token = pieces_at 20 (B "а = 1; $") zero_token) by (vm_compute; reflexivity). rewrite E1 in E2.
  exists l. split; [exact (pieces_at_sound _ _ _ _ E1)|]. split; [exact (pieces_at_sound _ _ _ _ E2)|]. split; (eexists; vm_compute; reflexivity).
Qed.

Print Assumptions C67_pieces.
Print Assumptions C67_same.
Print Assumptions C67_white_refuted.
