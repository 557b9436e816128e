(** What stands behind the token of a syntax error has no influence (C70).  Specification:
    Pieces.v, Faults.v, Lexical.v, Where.v; proofs: Alike.v, PiecesRun.v, BeyondRun.v. *)
From Verif Require Import Bytes Utf8 Float64 GoTime Ast Lexer LexFacts Utf8Facts LexSpec LexProofs LexTrivia NumSpec Tables Parser Grammar Tok CertData Cert
  Driver DriverInv Trees Properties_Parser Syntax Rules Declared RulesFacts CleanFacts DeclaredFacts Order OrderFacts CstTrees CstEval CstModule Properties_Tree
  Machine BackModule Lexical Scanned Blame Told Where Placed Printer Alike Lockstep Same Properties_Signs Properties_Bind Properties_Legal
  Faults FaultFacts Reached Properties_Faults Pieces PiecesRun Properties_Pieces BeyondRun.
From Verif Require Import Lexical Where Tok.
Open Scope Z_scope.

(** * C70 Text behind the token of a syntax error has no influence *)
(** A syntax error names a token of the text.  If another token follows it, then every text
    that starts with the same tokens and faults up to the named token, whatever stands behind
    it, has a syntax error at the same token, and the same module is returned. *)
Theorem C70_beyond : forall code l a line col lit, pieces_of false code l -> parse code = Some (Ok (a, Some (EParse MSyntax line col lit))) ->
  exists pre k post, l = pre ++ Datatypes.inl k :: post /\ about_piece code pre k MSyntax (EParse MSyntax line col lit) /\
    forall x post1, post = Datatypes.inl x :: post1 ->
      forall code2 post2, pieces_of false code2 (pre ++ Datatypes.inl k :: post2) -> ~ all_white code2 ->
        exists a2 e2, parse code2 = Some (Ok (a2, Some e2)) /\ about_piece code2 pre k MSyntax e2 /\ a_module a2 = a_module a.
Proof.
  intros code l a line col lit Hl H. assert (He : syntax_error (Some (EParse MSyntax line col lit))) by (unfold syntax_error; eauto).
  destruct (parse_blamed _ _ _ _ Hl H He) as (pre & k & post & -> & A & E). exists pre, k, post. split; [reflexivity|].
  split; [replace (EParse MSyntax line col lit) with (loc code (a_cur a) MSyntax) by congruence; apply piece_place, A|].
  intros x post1 -> code2 post2 H2 Hw. assert (B2 : blank code2 = false) by (destruct (blank code2) eqn:B2; [destruct Hw; apply blank_white, B2|reflexivity]).
  destruct (parse_beyond _ _ _ _ _ _ _ _ _ Hl H2 B2 H He A) as (a2 & P2 & M & A2). eexists a2, _. split; [exact P2|]. split; [apply piece_place, A2|exact M].
Qed.
(** At the end of the text it is different: there the last token is named, and what is
    appended can make the text right. *)
Theorem C70_last_refuted : exists code1 code2 pre k post2, pieces_of false code1 (pre ++ [Datatypes.inl k]) /\ pieces_of false code2 (pre ++ Datatypes.inl k :: post2) /\ ~ all_white code2 /\
  (exists a e, parse code1 = Some (Ok (a, Some e)) /\ about_piece code1 pre k MSyntax e) /\ exists a2, parse code2 = Some (Ok (a2, None)).
Proof.
  assert (E1 : exists x y z, pieces_at 20 (B "а =") zero_token = Some [Datatypes.inl x; Datatypes.inl y] /\ pieces_at 20 (B "а = 1;") zero_token = Some (Datatypes.inl x :: Datatypes.inl y :: z))
    by (do 3 eexists; split; vm_compute; reflexivity).
  destruct E1 as (x & y & z & E1 & E2). pose proof (pieces_at_sound _ _ _ _ E1) as H1. pose proof (pieces_at_sound _ _ _ _ E2) as H2. clear E1 E2.
  change (pieces_of false (B "а =") [Datatypes.inl x; Datatypes.inl y]) in H1. change (pieces_of false (B "а = 1;") (Datatypes.inl x :: Datatypes.inl y :: z)) in H2.
  assert (P1 : exists a, parse (B "а =") = Some (Ok (a, Some (EParse MSyntax 1 2 (B "="))))) by (eexists; vm_compute; reflexivity). destruct P1 as (a & P1).
  assert (P2 : exists a, parse (B "а = 1;") = Some (Ok (a, None))) by (eexists; vm_compute; reflexivity). destruct P2 as (a2 & P2).
  destruct (C70_beyond _ _ _ _ _ _ H1 P1) as (pre & k & post & El & A & G). assert (Hw : ~ all_white (B "а = 1;")) by not_white.
  exists (B "а ="), (B "а = 1;"), pre, k, z. destruct pre as [|x' pre]; cbn [app] in El; injection El as Ex El.
  { subst k post. destruct (G _ _ eq_refl _ _ H2 Hw) as (a3 & e3 & P3 & _). rewrite P2 in P3. discriminate P3. }
  destruct pre as [|y' pre]; cbn [app] in El; [|destruct pre; discriminate El]. injection El as Ey Ez. subst x' k post.
  split; [exact H1|]. split; [exact H2|]. split; [exact Hw|]. split; [|exists a2; exact P2]. eexists a, _. split; [exact P1|exact A].
Qed.

(** Examples. *)
Definition one_error : bytes := B "Перем г; а = 1; б = = 2; в = 3;".
Definition many_errors : bytes := B "Перем г; а=1;б = // к
 = ) $ Процедура '20240230'".
(** The second [=] is named in both, and what follows it does not matter. *)
Example C70_example : exists pre k x post1 post2, pieces_of false one_error (pre ++ Datatypes.inl k :: Datatypes.inl x :: post1) /\ pieces_of false many_errors (pre ++ Datatypes.inl k :: post2) /\
  length pre = 9%nat /\ ~ all_white many_errors /\
  (exists a, parse one_error = Some (Ok (a, Some (EParse MSyntax 1 20 (B "="))))) /\ exists a2, parse many_errors = Some (Ok (a2, Some (EParse MSyntax 2 1 (B "=")))).
Proof.
  destruct (pieces_at 40 one_error zero_token) as [l1|] eqn:E1; [|vm_compute in E1; discriminate]. destruct (pieces_at 40 many_errors zero_token) as [l2|] eqn:E2; [|vm_compute in E2; discriminate].
  pose proof (pieces_at_sound _ _ _ _ E1) as H1. pose proof (pieces_at_sound _ _ _ _ E2) as H2. vm_compute in E1, E2. injection E1 as <-. injection E2 as <-.
  match type of H1 with pieces_of _ _ ?l => let p := eval cbv in (firstn 9 l) in exists p end.
  do 4 eexists. split; [exact H1|]. split; [exact H2|]. split; [reflexivity|]. split; [not_white|]. split; (eexists; vm_compute; reflexivity).
Qed.

Print Assumptions C70_beyond.
Print Assumptions C70_last_refuted.
