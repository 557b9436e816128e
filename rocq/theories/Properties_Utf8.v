(** Texts that are not valid UTF-8 (C65).  Proofs: Decoded.v, DecodedRun.v. *)
From Verif Require Import Bytes Utf8 Float64 GoTime Ast Lexer LexFacts Utf8Facts LexSpec LexProofs NumSpec Tables Parser Json Printer PrintInv PrintToks Writes StmtInd CellInv SpellInv ShapeInv Shapes
  OneLine OneLineFacts Decoded DecodedRun Properties_Parser Properties_Helpers.
From Coq Require Import Permutation.
Open Scope Z_scope.

(** * Specification *)
(** The characters of a text are what Go's decoding gives: U+FFFD for every byte that is
    not part of valid UTF-8.  [repaired s]: the text with these characters. *)
Definition repaired (s : bytes) : bytes := string_of_runes (runes s).
(** [calls n a]: the n-th of [n] calls of Parse on one node. *)
Fixpoint calls (n : nat) (a : astnode) : option (res (astnode * option perr)) :=
  match n with
  | O => Some (Ok (a, None))
  | S n => match calls n a with Some (Ok (b, _)) => Parse b | x => x end
  end.
(** The same tree and the same error, with its message, line, column and literal; or the
    same panic. *)
Definition same_call (x y : option (res (astnode * option perr))) : Prop :=
  match x, y with
  | Some (Ok (a, e)), Some (Ok (b, f)) => a_module a = a_module b /\ e = f
  | Some (Panic p), Some (Panic q) => p = q
  | _, _ => False
  end.
(** All texts a module holds: names, labels, strings, directives. *)
Inductive text_in (m : module) : bytes -> Prop :=
| ti_word s w : In s (elems (m_body m)) -> word_in w s -> text_in m w
| ti_directive s : In s (elems (m_body m)) -> text_in m (directive_of s)
| ti_local vs n d b ps ty ex w : In (SFunc vs n d b ps ty ex) (elems (m_body m)) -> In w (elems vs) -> text_in m w
| ti_name g : In g (elems (m_gvars m)) -> text_in m (gv_name g)
| ti_gdirective g : In g (elems (m_gvars m)) -> text_in m (gv_dir g).

(** * Only characters count *)
(** Any number of calls, on texts with errors, too. *)
Theorem C65_same : forall n c1 c2, runes c1 = runes c2 -> same_call (calls n (NewAST c1)) (calls n (NewAST c2)).
Proof.
  intros n c1 c2 H.
  assert (G : match calls n (NewAST c1), calls n (NewAST c2) with
              | Some (Ok (a, e)), Some (Ok (b, f)) => DR c1 c2 a b /\ e = f
              | Some (Panic p), Some (Panic q) => p = q
              | _, _ => False
              end).
  { induction n as [|n IH]; cbn [calls]; [split; [apply DR_new|reflexivity]|].
    destruct (calls n (NewAST c1)) as [[[a e]|p]|], (calls n (NewAST c2)) as [[[b f]|q]|]; try contradiction; [|exact IH]. destruct IH as [IH _].
    pose proof (Parse_dr c1 c2 H a b IH) as X. destruct (Parse a) as [[[a' e']|p]|], (Parse b) as [[[b' f']|q]|]; try contradiction; exact X. }
  destruct (calls n (NewAST c1)) as [[[a e]|p]|], (calls n (NewAST c2)) as [[[b f]|q]|]; cbn [same_call]; try contradiction; [|exact G].
  destruct G as [G ->]. split; [apply (dr_module _ _ _ _ G)|reflexivity].
Qed.
Lemma fix_rune rs : exists rs', forallb valid_rune rs' = true /\ string_of_runes rs = string_of_runes rs'.
Proof.
  induction rs as [|r rs (rs' & H1 & H2)]; [exists []; split; reflexivity|]. destruct (valid_rune r) eqn:E.
  - exists (r :: rs'). cbn [forallb]. rewrite E, H1. split; [reflexivity|]. change (encode r ++ string_of_runes rs = encode r ++ string_of_runes rs'). congruence.
  - exists (65533 :: rs'). cbn [forallb]. rewrite H1. split; [reflexivity|]. change (encode r ++ string_of_runes rs = encode 65533 ++ string_of_runes rs'). rewrite H2. f_equal.
    unfold encode at 1. rewrite E. reflexivity.
Qed.
Lemma utf8_any rs : utf8 (string_of_runes rs). Proof. destruct (fix_rune rs) as (rs' & H1 & ->). exists rs'. auto. Qed.
Lemma decode_valid s : valid_rune (fst (decode s)) = true.
Proof. destruct s as [|b s]; [reflexivity|]. destruct (decode_shape (b :: s)) as [->|[E _]]; [discriminate|reflexivity|exact E]. Qed.
Lemma runes_valid s : forallb valid_rune (runes s) = true.
Proof.
  induction s as [s IH] using LexFacts.bytes_ind. rewrite runes_eq. destruct s as [|b s]; [reflexivity|]. cbn [forallb]. rewrite IH by (apply adv_length; discriminate).
  unfold cur. rewrite decode_valid. reflexivity.
Qed.
(** Repairing the encoding before parsing changes nothing. *)
Theorem C65_repaired : forall code, utf8 (repaired code) /\ (utf8 code <-> repaired code = code) /\ forall n, same_call (calls n (NewAST code)) (calls n (NewAST (repaired code))).
Proof.
  intros code. split; [apply utf8_any|]. split.
  - split; [|intros <-; apply utf8_any]. intros (rs & Hr & ->). unfold repaired. rewrite runes_string by exact Hr. reflexivity.
  - intros n. apply C65_same. unfold repaired. rewrite runes_string by apply runes_valid. reflexivity.
Qed.

(** * What comes out is UTF-8 *)
Lemma utf8_nil : utf8 []. Proof. exists []. split; reflexivity. Qed.
Lemma utf8_app a b : utf8 a -> utf8 b -> utf8 (a ++ b).
Proof. intros (r1 & _ & ->) (r2 & _ & ->). rewrite <- string_of_runes_app. apply utf8_any. Qed.
Lemma utf8_word w : wordb w = true -> utf8 w. Proof. intros H. apply wordb_spec in H as (r & _ & ->). apply utf8_any. Qed.
Lemma utf8_chars w : chars_b w = true -> utf8 w. Proof. intros H. apply chars_b_spec in H as (r & _ & ->). apply utf8_any. Qed.
Lemma utf8_directive d : directive d -> utf8 d.
Proof. intros [->|(w & x & -> & _)]; [apply utf8_nil|]. apply utf8_app; [exists [38]; split; reflexivity|apply utf8_any]. Qed.
Lemma utf8_built s : built s -> forall w, word_in w s -> utf8 w.
Proof.
  intros H w Hw. revert H. induction Hw as [s Hw|s x Hx Hw IH]; intros H; apply built_inv in H as [L P].
  - destruct s; cbn [words In] in Hw; try contradiction; cbn [local] in L; try (destruct Hw as [<-|[]]).
    + destruct L as (v & _ & ->). apply utf8_any.
    + apply utf8_word, L.
    + apply utf8_word, L.
    + destruct L as [->|L]; [apply utf8_nil|apply utf8_word, L].
    + destruct label; cbn [In] in Hw; [|contradiction]. destruct Hw as [<-|[]]. apply utf8_chars, L.
    + apply utf8_chars, L.
    + destruct L as (L1 & _ & _ & L2). destruct Hw as [<-|Hw]; [apply utf8_word, L1|]. apply in_map_iff in Hw as (p & <- & Hp). rewrite Forall_forall in L2. apply utf8_word, (L2 _ Hp).
  - apply IH. rewrite Forall_forall in P. apply P, Hx.
Qed.
(** Whatever the text was, and however often it was parsed, with or without success. *)
Theorem C65_tree : forall a w, history a -> text_in (a_module a) w -> utf8 w.
Proof.
  intros a w H Hw. destruct (history_built a H) as [B1 B2]. destruct (history_shape a H) as (_ & _ & S1 & fs & ss & E & S2 & S3). rewrite Forall_forall in B2, S1, S2, S3.
  destruct Hw as [s w Hs Hw|s Hs|vs n d b ps ty ex w Hs Hw|g Hg|g Hg].
  - exact (utf8_built _ (B2 _ Hs) _ Hw).
  - rewrite E in Hs. apply in_app_or in Hs as [Hs|Hs].
    + destruct (S2 _ Hs). apply utf8_directive. assumption.
    + destruct (S3 _ Hs) as [e He| | | | | | | | | |]; try apply utf8_nil. destruct He; apply utf8_nil.
  - rewrite E in Hs. apply in_app_or in Hs as [Hs|Hs].
    + pose proof (S2 _ Hs) as X. inversion X as [? ? ? ? ? ? ? [_ V]]; subst. rewrite Forall_forall in V. destruct (V _ Hw) as (r & _ & ->). apply utf8_any.
    + pose proof (S3 _ Hs) as X. inversion X as [e He| | | | | | | | | |]; subst. inversion He.
  - destruct (S1 _ Hg) as [(r & _ & ->) _]. apply utf8_any.
  - apply utf8_directive, (S1 _ Hg).
Qed.
Lemma utf8_dir d : utf8 d -> utf8 (dir_text d).
Proof.
  intros H. unfold dir_text. destruct d; [apply utf8_nil|]. assert (L : utf8 [x0a]) by (exists [10]; split; reflexivity).
  apply utf8_app; [exact L|]. apply utf8_app; [exact H|exact L].
Qed.
(** Formatting, with any options. *)
Theorem C65_print : forall a order c t, history a -> Permutation order (elems (m_gvars (a_module a))) -> Print order c (a_module a) = Some t -> utf8 t.
Proof.
  intros a order c t H Hp Ht.
  assert (X : OR (fun x y => utf8 x /\ x = y) (Print order c (a_module a)) (Print order c (a_module a))).
  { apply OR_Print.
    - intros x y u v [H1 ->] [H2 ->]. split; [apply utf8_app; assumption|reflexivity].
    - intros b Hb. split; [|reflexivity]. apply andb_true_iff in Hb as [_ Hb]. apply beqb_eq in Hb. rewrite <- Hb. apply utf8_any.
    - intros n. split; [|reflexivity]. unfold newLine. destruct (oneLine c); [apply utf8_nil|].
      assert (G : forall k, utf8 (repeat x0a k)) by (induction k; [apply utf8_nil|]; apply (utf8_app [x0a]); [exists [10]; split; reflexivity|exact IHk]). apply G.
    - intros d. destruct (spaces _) as [s|] eqn:E; [|exact I]. split; [|reflexivity]. unfold spaces in E. destruct (_ <? 0); [discriminate E|]. injection E as <-.
      induction (Z.to_nat _); [apply utf8_nil|]. apply (utf8_app [x20]); [exists [32]; split; reflexivity|exact IHn].
    - intros s Hs. split; [intros w Hw; split; [exact (C65_tree a w H (ti_word _ s w Hs Hw))|reflexivity]|]. split; [|reflexivity].
      pose proof (C65_tree a _ H (ti_directive _ s Hs)) as D. apply utf8_dir, D.
    - intros g Hg. apply (Permutation_in g Hp) in Hg. split; (split; [|reflexivity]); [exact (C65_tree a _ H (ti_name _ g Hg))|].
      pose proof (C65_tree a _ H (ti_gdirective _ g Hg)) as D. apply utf8_dir, D. }
  rewrite Ht in X. apply X.
Qed.
(** JSON shows every text as it stands in the tree: nothing is replaced there. *)
Theorem C65_json : forall a w, history a -> text_in (a_module a) w -> jtext w = w.
Proof. intros a w H Hw. destruct (C65_tree a w H Hw) as (rs & Hr & ->). unfold jtext. rewrite runes_string by exact Hr. reflexivity. Qed.

(** Examples.  A byte 255 in a string, in a comment and behind the error; the texts are not
    UTF-8, they have other lengths than the repaired ones, and the string in the tree is
    the repaired one. *)
Definition torn : bytes := B "// " ++ [xff] ++ B "
&НаСервере
Функция ф(п) Перем л; а = ""x" ++ [xff] ++ B "y""; Возврат п; КонецФункции".
Example C65_example : runes torn = runes (repaired torn) /\ torn <> repaired torn /\ length torn <> length (repaired torn) /\ ~ utf8 torn /\
  exists a, parse torn = Some (Ok (a, None)) /\ history a /\ text_in (a_module a) (B "x" ++ [xef; xbf; xbd] ++ B "y") /\ text_in (a_module a) (B "л") /\
    text_in (a_module a) (B "&НаСервере") /\ exists t, Print [] (Conf 2 false) (a_module a) = Some t /\ t <> [].
Proof.
  assert (N : repaired torn <> torn) by (vm_compute; discriminate).
  split; [vm_compute; reflexivity|]. split; [intros E; apply N; symmetry; exact E|]. split; [vm_compute; discriminate|].
  split; [intros U; apply N; exact (proj1 (proj1 (proj2 (C65_repaired torn))) U)|].
  eexists. split; [vm_compute; reflexivity|]. split; [eapply history_parse; [apply (history_new torn)|vm_compute; reflexivity]|].
  cbn [a_module]. split; [|split; [|split]].
  - eapply ti_word; [left; reflexivity|]. eapply wi_part; [left; reflexivity|]. eapply wi_part; [right; left; reflexivity|]. apply wi_here. left. reflexivity.
  - eapply ti_local; [left; reflexivity|]. left. reflexivity.
  - eapply (ti_directive _ (SFunc _ _ _ _ _ _ _)). left. reflexivity.
  - eexists. split; [vm_compute; reflexivity|discriminate].
Qed.
Example C65_example_error : exists a b e, calls 1 (NewAST (B "а = (// " ++ [xff] ++ B "
;")) = Some (Ok (a, Some e)) /\ calls 1 (NewAST (repaired (B "а = (// " ++ [xff] ++ B "
;"))) = Some (Ok (b, Some e)) /\ e = EParse MSyntax 2 0 (B ";").
Proof. do 3 eexists. split; [vm_compute; reflexivity|]. split; [vm_compute; reflexivity|reflexivity]. Qed.

Print Assumptions C65_same.
Print Assumptions C65_repaired.
Print Assumptions C65_tree.
Print Assumptions C65_print.
Print Assumptions C65_json.
