(** The text is read as the lexical grammar says (C45).  Specification: Lexical.v (the
    lexical grammar), Syntax.v, Rules.v, Levels.v (programs); proofs: Scanned.v. *)
From Verif Require Import Bytes Utf8 Float64 GoTime Ast Lexer LexFacts LexSpec LexProofs NumSpec Tables Parser Grammar Tok CertData Cert
  Driver DriverInv Trees Properties_Parser Syntax Rules Declared RulesFacts CleanFacts DeclaredFacts Order OrderFacts CstTrees CstEval CstModule Properties_Tree
  Machine Levels Bind BindCst Items Complete TightOk CstInj CstWf Regroup Properties_Signs Properties_Bind Legal Panics Accept Properties_Legal
  Printer Writes Lexical Scanned.
Open Scope Z_scope.

(** * C45 The tokens of a text are the ones of the lexical grammar *)
(** Exactly the texts of the grammar are read without a lexical error, as its tokens. *)
Theorem C45_text : forall code l, tokens code l <-> text_of false code l.
Proof. exact tokens_text. Qed.
(** One call of the scanner, anywhere in a text: it returns a token without an error
    exactly if the text continues, behind trivia, with that token of the grammar; and then
    what is left is the text behind that token. *)
Theorem C45_token : forall code t k rest, 
  (exists c t', Next code t = (c, t', None) /\ c <> EOF /\ tk_of c t' = k /\ rest_of code t' = rest /\ tk_prevDot t' = behind (tk_prevDot t) k) <->
  (exists w x, rest_of code t = w ++ x /\ trivia w /\ one_token (tk_prevDot t) x k rest).
Proof.
  intros code t k rest. split.
  - intros (c & t' & H & Hc & Hk & Hr & _). destruct (Next_res _ _ _ _ H) as (r & s' & pd' & N1 & N2 & N3 & N4 & N5 & N6). subst c k rest.
    destruct (next_one _ _ _ _ _ _ N1 N2 Hc N6) as (w & x & E & Hw & Hx & Hp). exists w, x. rewrite N5. auto.
  - intros (w & x & E & Hw & Hx). destruct (one_next _ _ _ _ _ Hw Hx) as (r & H1 & H2 & H3 & H4). rewrite <- E in H1.
    destruct (Next code t) as [[c t'] [e|]] eqn:EN.
    + exfalso. unfold Next in EN. fold (rest_of code t) in EN. rewrite H1 in EN. cbv zeta in EN. rewrite H2 in EN. unfold tk_res in H4. cbv zeta in H4.
      destruct (lr_tok r =? tNumber). { destruct (parse_float (lr_lit r)); discriminate. }
      destruct (lr_tok r =? tString); [discriminate|]. destruct (lr_tok r =? tDate).
      { destruct (forallb _ _); [discriminate|]. destruct (parse_date (lr_lit r)); discriminate. }
      repeat match type of EN with context [if ?b then _ else _] => destruct b end; discriminate.
    + destruct (Next_res _ _ _ _ EN) as (r2 & s' & pd' & N1 & N2 & N3 & N4 & N5 & N6). rewrite H1 in N1. injection N1 as <- <- <-. 
      exists c, t'. split; [reflexivity|]. split; [congruence|]. split; [congruence|]. split; assumption.
Qed.
(** The grammar is unambiguous. *)
Theorem C45_unique : forall code l l', text_of false code l -> text_of false code l' -> l = l'.
Proof. intros code l l' H H'. apply tokens_text in H, H'. exact (tokens_det _ _ _ H H'). Qed.
(** All other texts, whatever their bytes, have a lexical error. *)
Theorem C45_error : forall code, lex_error code zero_token <-> forall l, ~ text_of false code l.
Proof.
  intros code. split.
  - intros He l H. apply tokens_text in H as (raw & H & _). exact (lexes_no_error _ _ _ H He).
  - intros H. destruct (lexes_or_error code (length code) zero_token) as [(l & Hl & _)|He]; [simpl; lia|simpl; lia| |exact He].
    exfalso. apply (H (map (fun x => tk_of (fst x) (snd x)) l)), tokens_text. exists l. auto.
Qed.
(** From the text to the tree: a text that the lexical grammar reads as the tokens of a
    program (grouped by the table of levels) is accepted exactly if the program is legal,
    and its tree is the tree of the program. *)
Theorem C45_front : forall code m p, ~ all_white code -> text_of false code (toks_program p) -> defaults_ok p = true ->
  bound_program p = true -> clean p = true -> (accepted code m <-> legal p /\ m = mean_program p).
Proof.
  intros code m p Hw Ht Hd Hb Hc. apply tokens_text in Ht. split.
  - intros Hm. destruct (accepted_legal _ _ _ Hm Ht Hd Hb) as (E1 & E2 & E3 & E4 & E5 & E6). destruct (E6 Hc) as [E7 E8].
    split; [|exact E8]. unfold legal. auto 10 using clean_sure.
  - intros [Hl ->]. destruct (legal_accepted _ _ Hw Ht Hd Hb Hl) as (m & Hm).
    destruct (accepted_legal _ _ _ Hm Ht Hd Hb) as (_ & _ & _ & _ & _ & E6). destruct (E6 Hc) as [_ <-]. exact Hm.
Qed.
(** Every accepted text is a text of the grammar and of a program. *)
Theorem C45_accepted : forall code m, accepted code m -> exists p, text_of false code (toks_program p) /\ defaults_ok p = true /\ bound_program p = true.
Proof. intros code m H. destruct (bound_of _ _ H) as (p & H1 & H2 & H3 & _). exists p. split; [apply tokens_text, H1 | auto]. Qed.

(** Examples: all kinds of tokens; a text of the grammar that is a legal program; texts
    that are not in the grammar. *)
Definition C45_code : bytes := B "~м1: x=?(а<>2,b<=c,'20240229')[3]; // c
  #Если x
  &наКлиенте а.Если ВЫПОЛНИТЬ >=*/%" ++ dquote ++ B "я" ++ dquote ++ B "  // конец".
Example C45_example : text_of false C45_code
  [KLabel (B "м1"); K 58; KId (B "x"); K tEQUAL; K 63; K 40; KId (B "а"); K tNeEQ; KNum (F64 false (2 ^ 52) (-51)); K 44; KId (B "b"); K tLE; KId (B "c"); K 44;
   KDate (GoTime 2024 2 29 0 0 0); K 41; K 91; KNum (F64 false (3 * 2 ^ 51) (-51)); K 93; K 59; KDir (B "&наКлиенте"); KId (B "а"); K 46; KId (B "Если");
   KExec (B "ВЫПОЛНИТЬ"); K tGE; K 42; K 47; K 37; KStr (B "я")].
Proof. apply C45_text. assert (H : tokens C45_code (toks_of C45_code)) by tokenized. vm_compute in H |- *. exact H. Qed.
Example C45_example_error : forall l, ~ text_of false (B "а = 1б;") l /\ ~ text_of false (B "а = 'x';") l /\ ~ text_of false (B "а @ б") l.
Proof.
  intros l. repeat split.
  - revert l. apply C45_error. eapply le_later; [vm_compute; reflexivity|discriminate|]. eapply le_later; [vm_compute; reflexivity|discriminate|].
    apply le_here. do 3 eexists. vm_compute. reflexivity.
  - revert l. apply C45_error. eapply le_later; [vm_compute; reflexivity|discriminate|]. eapply le_later; [vm_compute; reflexivity|discriminate|].
    apply le_here. do 3 eexists. vm_compute. reflexivity.
  - revert l. apply C45_error. eapply le_later; [vm_compute; reflexivity|discriminate|].
    apply le_here. do 3 eexists. vm_compute. reflexivity.
Qed.
Example C45_example_front : exists p, text_of false (B "а = б; // c") (toks_program p) /\ defaults_ok p = true /\ bound_program p = true /\
  clean p = true /\ legal p /\ accepted (B "а = б; // c") (mean_program p).
Proof.
  set (c := B "а = б; // c").
  destruct (C45_accepted c (tree_of c)) as (p & H1 & H2 & H3); [accepted|]. exists p. repeat (split; [assumption|]).
  assert (Hc : clean p = true).
  { rewrite <- clean_program. apply C45_text in H1. rewrite (tokens_det c _ (toks_of c) H1); [vm_compute; reflexivity | tokenized]. }
  split; [exact Hc|]. assert (A : accepted c (tree_of c)) by accepted.
  assert (W : ~ all_white c) by apply A. pose proof (proj1 (C45_front c _ p W H1 H2 H3 Hc) A) as [L E]. split; [exact L|]. rewrite <- E. exact A.
Qed.

Print Assumptions C45_text.
Print Assumptions C45_token.
Print Assumptions C45_unique.
Print Assumptions C45_error.
Print Assumptions C45_front.
Print Assumptions C45_accepted.
