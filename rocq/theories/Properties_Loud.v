(** What Parse writes to standard output (C61).  Model: Loud.v; proofs: LoudFacts.v, LoudParse.v. *)
From Verif Require Import Bytes Utf8 Utf8Facts Float64 GoTime Ast Lexer LexFacts LexSpec LexProofs NumSpec Tables Parser Grammar Tok CertData Cert
  Driver DriverInv Trees Properties_Parser Syntax Rules Declared Properties_Tree LexTrivia LexTokens Writes Loud LoudFacts LoudParse Printer.
Open Scope Z_scope.

(** How many characters of the text are U+FFFD, the value of a byte that belongs to no
    character. *)
Definition unreadable (code : bytes) : nat := length (filter (fun c => c =? 65533) (runes code)).

Lemma blank_ends code : blank code = false -> code <> []. Proof. intros H ->. discriminate H. Qed.
Lemma init_told code : told code (init_pst (NewAST code)) 0.
Proof.
  assert (E : rest_p (init_pst (NewAST code)) = code) by reflexivity.
  constructor; [reflexivity|rewrite E; exists []; constructor|reflexivity|]. intros _. rewrite E. exists [], 0%nat. split; [constructor|reflexivity].
Qed.

(** * C61 *)
(** Without such a character nothing is written, whatever else is wrong with the text. *)
Theorem C61_silent : forall code, unreadable code = 0%nat -> n_parse code = 0%nat.
Proof.
  intros code H. unfold n_parse. destruct (blank code) eqn:Eb; [reflexivity|].
  destruct (run_told code (blank_ends _ Eb) (parse_fuel code) _ 0 (init_inv (NewAST code)) (init_told code)) as [X _]. apply X.
  intros Hi. unfold unreadable in H. apply length_zero_iff_nil in H. assert (In 65533 (filter (fun c => c =? 65533) (runes code))) as Y by (apply filter_In; auto).
  rewrite H in Y. exact Y.
Qed.
(** So for every text that is written as characters, U+FFFD apart. *)
Theorem C61_text : forall w, Forall (fun c => valid_rune c = true /\ c <> 65533) w -> n_parse (string_of_runes w) = 0%nat.
Proof.
  intros w H. apply C61_silent. unfold unreadable. rewrite runes_string.
  - induction H as [|c w [_ Hc] _ IH]; [reflexivity|]. cbn [filter]. apply Z.eqb_neq in Hc. rewrite Hc. exact IH.
  - apply forallb_forall. rewrite Forall_forall in H. intros c Hc. apply H, Hc.
Qed.
(** A text that is accepted has one line written for each. *)
Theorem C61_accepted : forall code m, accepted code m -> n_parse code = unreadable code.
Proof.
  intros code m (Hw & a' & Hp & _). unfold parse, Parse in Hp. change (a_code (NewAST code)) with code in Hp.
  unfold n_parse. destruct (blank code) eqn:Eb. { destruct Hw. apply blank_white, Eb. }
  destruct (run_told code (blank_ends _ Eb) (parse_fuel code) _ 0 (init_inv (NewAST code)) (init_told code)) as [_ X].
  destruct (run (parse_fuel code) (init_pst (NewAST code))) as [[[x a]|q]|] eqn:Er; [|discriminate Hp|discriminate Hp]. injection Hp as -> He.
  exact (X x a' eq_refl He).
Qed.
Definition C61_code : bytes := B "а = " ++ dquote ++ [xff] ++ B "б" ++ [xef; xbf; xbd] ++ dquote ++ B "; // " ++ [xfe; xfe].
Example C61_example : accepted C61_code (tree_of C61_code) /\ n_parse C61_code = 4%nat /\ n_parse (B "а = 1; // б") = 0%nat /\ blank (B "а = 1; // б") = false.
Proof. split; [accepted|]. split; [vm_compute; reflexivity|]. split; vm_compute; reflexivity. Qed.
(** A text that is rejected can have more lines written than it has such characters, and less. *)
Theorem C61_rejected_refuted :
  (exists code, unreadable code = 1%nat /\ (2 < n_parse code)%nat) /\ (exists code, unreadable code = 1%nat /\ n_parse code = 0%nat).
Proof.
  split.
  - exists (B "а = " ++ [xff]). split; vm_compute; [reflexivity|repeat constructor].
  - exists (B ") // " ++ [xff]). split; vm_compute; reflexivity.
Qed.

Print Assumptions C61_silent.
Print Assumptions C61_text.
Print Assumptions C61_accepted.
Print Assumptions C61_rejected_refuted.
