(** Names and literals are opaque to the parser, in texts with errors too (C69).
    Specification: RenPieces.v, Rename.v, Pieces.v; proofs: RenAct.v, RenRun.v. *)
From Verif Require Import Bytes Utf8 Float64 GoTime Ast Lexer LexFacts Utf8Facts LexSpec LexProofs LexTrivia NumSpec Tables Parser Grammar Tok CertData Cert
  Driver DriverInv Trees Properties_Parser Syntax Rules Declared RulesFacts CleanFacts DeclaredFacts Order OrderFacts CstTrees CstEval CstModule Properties_Tree
  Machine BackModule Lexical Scanned Blame Told Where Placed Printer Alike Lockstep Same Properties_Signs Properties_Bind Properties_Legal
  Faults FaultFacts Reached Properties_Faults Properties_Scan Pieces PiecesRun Properties_Pieces Rename Properties_Rename RenPieces RenAct RenRun.
From Verif Require Import Lexical Where Tok.
Open Scope Z_scope.

(** * C69 *)
(** Two texts that differ, apart from what lies between tokens, in names, literals and the
    faults that stand at the same places: the outcomes correspond, whether the texts are
    accepted, rejected or make the parser panic. *)
Theorem C69_rename : forall r g code1 code2 l, pieces_of false code1 l -> pieces_of false code2 (map (ren_piece r g) l) -> proper r (toks_in l) ->
  (all_white code1 <-> all_white code2) -> ren_end r g l code1 code2 (parse code1) (parse code2).
Proof.
  intros r g c1 c2 l H1 H2 Hp Hw. rewrite <- !blank_white in Hw. destruct (blank c1) eqn:B1, (blank c2) eqn:B2.
  1: { unfold parse, Parse. cbn [NewAST a_code]. rewrite B1, B2. split; [reflexivity|exact I]. }
  1: { destruct Hw as [Hw _]. discriminate (Hw eq_refl). }
  1: { destruct Hw as [_ Hw]. discriminate (Hw eq_refl). }
  assert (N1 : c1 <> []) by (intros ->; discriminate B1). assert (N2 : c2 <> []) by (intros ->; discriminate B2).
  pose proof (parse_ren r g c1 c2 l N1 N2 Hp B1 B2 H1 H2) as X. destruct (parse c1) as [[[a1 e1]|]|], (parse c2) as [[[a2 e2]|]|]; cbn [ren_end]; try contradiction; [|exact X].
  destruct X as [X1 X2]. split; [exact X1|]. destruct X2 as [[-> ->]|[(x & -> & ->)|(m1 & m2 & t1 & t2 & M & (pre & k & post & E & P1 & P2) & -> & ->)]]; cbn [ren_told]; [exact I|reflexivity|].
  pose proof (piece_place _ _ _ _ m1 P1) as A1. pose proof (piece_place _ _ _ _ m2 P2) as A2. unfold loc in *. exists m1, m2, pre, k, post. auto.
Qed.
(** For texts without a fault, and whatever the order of their statements, the trees of the
    one are the trees of the other with names and literals exchanged (C59 without its
    condition on stale statements). *)
Theorem C69_accepted : forall r code code' l, ~ all_white code -> ~ all_white code' -> text_of false code l -> text_of false code' (map (ren_tk r) l) -> proper r l ->
  forall m', accepted code' m' <-> exists m, accepted code m /\ m' = ren_module r m.
Proof.
  intros r c c' l Hw Hw' Ht Ht' Hp m'.
  assert (G : forall c t, text_of false c t -> pieces_of false c (map (@Datatypes.inl tk lexerr) t)).
  { clear. intros c t H. destruct (C67_pieces c) as (l & H1 & _ & H2). apply H2 in H. subst l. exact H1. }
  pose proof (C69_rename r (fun e => e) c c' (map (@Datatypes.inl tk lexerr) l) (G _ _ Ht)) as X.
  specialize (X ltac:(rewrite map_map; cbn [ren_piece]; rewrite <- (map_map (ren_tk r) (@Datatypes.inl tk lexerr)); apply G, Ht')).
  assert (E : toks_in (map (@Datatypes.inl tk lexerr) l) = l) by (clear; induction l as [|k l IH]; [reflexivity|]; cbn; f_equal; exact IH).
  specialize (X ltac:(rewrite E; exact Hp) ltac:(tauto)). unfold accepted. split.
  - intros (_ & a' & H & <-). rewrite H in X. destruct (parse c) as [[[a e]|]|]; cbn [ren_end] in X; try contradiction. destruct X as [X1 X2].
    destruct e as [e|]; [destruct e; contradiction X2|]. exists (a_module a). split; [|exact X1]. split; [exact Hw|]. exists a. auto.
  - intros (m & (_ & a & H & <-) & ->). rewrite H in X. split; [exact Hw'|]. destruct (parse c') as [[[a' e]|]|]; cbn [ren_end] in X; try contradiction. destruct X as [X1 X2].
    destruct e as [e|]; [contradiction X2|]. exists a'. auto.
Qed.
(** So a program rejected for its words is rejected under every choice of names. *)
Theorem C69_rejected : forall r g code1 code2 l, pieces_of false code1 l -> pieces_of false code2 (map (ren_piece r g) l) -> proper r (toks_in l) ->
  (all_white code1 <-> all_white code2) ->
  ((exists a, parse code1 = Some (Ok (a, None))) <-> exists a, parse code2 = Some (Ok (a, None))) /\ (forall p, parse code1 = Some (Panic p) <-> parse code2 = Some (Panic p)).
Proof.
  intros r g c1 c2 l H1 H2 H3 H4. pose proof (C69_rename r g c1 c2 l H1 H2 H3 H4) as X.
  destruct (parse c1) as [[[a1 [e1|]]|p1]|], (parse c2) as [[[a2 [e2|]]|p2]|]; cbn [ren_end] in X; try contradiction.
  all: try (destruct X as [_ Y]; cbn [ren_told] in Y; try contradiction; try (destruct e1; contradiction)).
  all: split; [split; intros (a & E); first [discriminate E|eauto]|intros p; split; intros E; first [discriminate E|congruence]].
Qed.

(** Examples: a name declared twice, behind a fault; the message quotes the new name. *)
Definition C69_old : bytes := B "$ Процедура П() Перем а, б; Перем а; в = -5; КонецПроцедуры".
Definition C69_new : bytes := B "@Процедура П1() // другое
 Перем а1, б1; Перем а1; в1 = -7; КонецПроцедуры".
Lemma C69_proper l : proper C59_ren l.
Proof.
  split; [reflexivity|reflexivity| |reflexivity]. intros n n' _ _. unfold C59_ren. cbn [r_name]. destruct n, n'; intros E; [reflexivity| | |].
  - symmetry in E. apply app_eq_nil in E. destruct E; discriminate.
  - apply app_eq_nil in E. destruct E; discriminate.
  - apply app_inv_tail in E. exact E.
Qed.
Definition C69_faults (e : lexerr) : lexerr := match e with LSyntax _ => LSyntax (B "@") | e => e end.
Example C69_example : exists l, pieces_of false C69_old l /\ pieces_of false C69_new (map (ren_piece C59_ren C69_faults) l) /\ proper C59_ren (toks_in l) /\
  ~ all_white C69_old /\ ~ all_white C69_new /\ length l = 19%nat /\
  (exists a, parse C69_old = Some (Ok (a, Some (EParse (MVarDup (B "а")) 1 35 (B ";"))))) /\ (exists a, parse C69_new = Some (Ok (a, Some (EParse (MVarDup (B "а1")) 2 23 (B ";"))))).
Proof.
  destruct (pieces_at 30 C69_old zero_token) as [l|] eqn:E1; [|vm_compute in E1; discriminate].
  assert (E2 : pieces_at 30 C69_new zero_token = option_map (map (ren_piece C59_ren C69_faults)) (pieces_at 30 C69_old zero_token)) by (vm_compute; reflexivity). rewrite E1 in E2. cbn [option_map] in E2.
  exists l. split; [exact (pieces_at_sound _ _ _ _ E1)|]. split; [exact (pieces_at_sound _ _ _ _ E2)|]. split; [apply C69_proper|]. split; [not_white|]. split; [not_white|].
  split; [vm_compute in E1; injection E1 as <-; reflexivity|]. split; (eexists; vm_compute; reflexivity).
Qed.
(** A statement of the function gets into the procedure behind it, with its new name. *)
Definition C69_stale : bytes := B "Функция Ф() Возврат х; КонецФункции Процедура П() ; а(); КонецПроцедуры".
Definition C69_stale_new : bytes := B "Функция Ф1() Возврат х1; КонецФункции Процедура П1() ; а1(); КонецПроцедуры".
Example C69_example_stale : ~ all_white C69_stale /\ ~ all_white C69_stale_new /\ text_of false C69_stale (toks_of C69_stale) /\
  text_of false C69_stale_new (map (ren_tk C59_ren) (toks_of C69_stale)) /\ clean_toks Begin (toks_of C69_stale) = false /\ accepted C69_stale (tree_of C69_stale) /\
  accepted C69_stale_new (ren_module C59_ren (tree_of C69_stale)) /\ length (flat_map (fun s => match s with SFunc _ _ _ b _ _ _ => elems b | _ => [] end) (elems (m_body (tree_of C69_stale)))) = 3%nat.
Proof.
  assert (A : accepted C69_stale (tree_of C69_stale)) by accepted.
  assert (T : text_of false C69_stale (toks_of C69_stale)) by (apply C45_text; tokenized).
  assert (T' : text_of false C69_stale_new (map (ren_tk C59_ren) (toks_of C69_stale))).
  { replace (map _ _) with (toks_of C69_stale_new) by (vm_compute; reflexivity). apply C45_text; tokenized. }
  assert (W : ~ all_white C69_stale) by not_white. assert (W' : ~ all_white C69_stale_new) by not_white.
  split; [exact W|]. split; [exact W'|]. split; [exact T|]. split; [exact T'|]. split; [vm_compute; reflexivity|]. split; [exact A|]. split; [|vm_compute; reflexivity].
  apply (C69_accepted C59_ren _ _ _ W W' T T' (C69_proper _)). eexists. split; [exact A|reflexivity].
Qed.

Print Assumptions C69_rename.
Print Assumptions C69_accepted.
Print Assumptions C69_rejected.
