(** The words of a tree are words of the text. *)
From Verif Require Import Bytes Utf8 Float64 GoTime Ast Lexer LexFacts LexSpec LexProofs LexTrivia LexTokens LexReject NumSpec NumTokens Lexical Scanned Where Placed Tok Syntax RulesFacts StmtInd OneLine.
From Verif Require Import Syntax Tok.

Definition word_tk (t : tk) : list bytes := match t with KId n | KExec n | KLabel n | KStr n => [n] | _ => [] end.
Definition ins (w : bytes) (l : list tk) : Prop := w = [] \/ In w (flat_map word_tk l).
Lemma ins_app w l1 l2 : ins w (l1 ++ l2) <-> ins w l1 \/ ins w l2.
Proof. unfold ins. rewrite flat_map_app, in_app_iff. tauto. Qed.
Lemma ins_cons w t l : ins w (t :: l) <-> In w (word_tk t) \/ ins w l.
Proof. unfold ins. cbn [flat_map]. rewrite in_app_iff. tauto. Qed.
Lemma ins_nil w : ins w [] <-> w = []. Proof. unfold ins. cbn. tauto. Qed.
Lemma wi_iff w s : word_in w s <-> In w (words s) \/ exists x, In x (parts s) /\ word_in w x.
Proof. split; [intros [H|x H1 H2]; eauto|intros [H|(x & H1 & H2)]; [apply wi_here, H|eapply wi_part; eassumption]]. Qed.
Lemma wi_not w s : word_in w (mark_not s) -> word_in w s.
Proof. rewrite !wi_iff. destruct s; cbn [mark_not words parts]; auto. Qed.
Lemma wi_minus w s : word_in w (mark_minus s) -> word_in w s.
Proof. rewrite !wi_iff. destruct s; cbn [mark_minus words parts]; auto. Qed.

Ltac unf := cbn [mean_expr mean_path mean_ident mean_new mean_args mean_oexpr mean_stmt mean_block mean_elseifs mean_else mean_loopexp
  toks_expr toks_path toks_ident toks_new toks_args toks_oexpr toks_stmt toks_block toks_elseifs toks_else toks_loopexp] in *.
Ltac ins := repeat (progress (rewrite ?ins_app, ?ins_cons, ?ins_nil; cbn [word_tk In Pct])).
Definition wi_list w (l : list stmt) : Prop := exists x, In x l /\ word_in w x.
Lemma wi_app w l1 l2 : wi_list w (l1 ++ l2) <-> wi_list w l1 \/ wi_list w l2.
Proof. unfold wi_list. split; [intros (x & Hx & H); apply in_app_iff in Hx as [Hx|Hx]; eauto|intros [(x & Hx & H)|(x & Hx & H)]; exists x; rewrite in_app_iff; auto]. Qed.
Lemma wi_cons w x l : wi_list w (x :: l) <-> word_in w x \/ wi_list w l.
Proof. unfold wi_list. cbn [In]. split; [intros (y & [<- |Hx] & H); eauto|intros [H|(y & Hx & H)]; eauto]. Qed.
Lemma wi_nil w : wi_list w [] <-> False. Proof. unfold wi_list. cbn. firstorder. Qed.
Lemma wi_iff2 w s : word_in w s <-> In w (words s) \/ wi_list w (parts s). Proof. apply wi_iff. Qed.
Ltac wi := repeat (progress (rewrite ?wi_app, ?wi_cons, ?wi_nil)).
Ltac step := rewrite wi_iff2; cbn [words parts elems In]; wi; ins.
Lemma SNil_none w : ~ word_in w SNil. Proof. rewrite wi_iff. cbn. firstorder. Qed.
Lemma elems_slice l : elems (slice_of l) = l. Proof. destruct l; reflexivity. Qed.
Lemma wi_rev w l : wi_list w (rev l) <-> wi_list w l.
Proof. unfold wi_list. split; intros (x & Hx & H); exists x; [rewrite <- in_rev in Hx|rewrite <- in_rev]; auto. Qed.
Ltac peel := repeat (progress match goal with
  | H : word_in _ (SVar _ _) |- _ => rewrite wi_iff2 in H; cbn [words parts elems In] in H
  | H : word_in _ (SStr _) |- _ => rewrite wi_iff2 in H; cbn [words parts elems In] in H
  | H : word_in _ (SNum _) |- _ => rewrite wi_iff2 in H; cbn [words parts elems In] in H
  | H : word_in _ (STime _) |- _ => rewrite wi_iff2 in H; cbn [words parts elems In] in H
  | H : word_in _ (SBool _) |- _ => rewrite wi_iff2 in H; cbn [words parts elems In] in H
  | H : word_in _ SUndef |- _ => rewrite wi_iff2 in H; cbn [words parts elems In] in H
  | H : word_in _ SNil |- _ => rewrite wi_iff2 in H; cbn [words parts elems In] in H
  | H : word_in _ (SLabel _) |- _ => rewrite wi_iff2 in H; cbn [words parts elems In] in H
  | H : word_in _ (SGoTo _) |- _ => rewrite wi_iff2 in H; cbn [words parts elems In] in H
  | H : word_in _ (SExp _ _ _ _) |- _ => rewrite wi_iff2 in H; cbn [words parts elems In] in H
  | H : word_in _ (SExprs _ _) |- _ => rewrite wi_iff2 in H; cbn [words parts elems In] in H
  | H : word_in _ (STern _ _ _) |- _ => rewrite wi_iff2 in H; cbn [words parts elems In] in H
  | H : word_in _ (SChain _ _ _) |- _ => rewrite wi_iff2 in H; cbn [words parts elems In] in H
  | H : word_in _ (SItem _ _) |- _ => rewrite wi_iff2 in H; cbn [words parts elems In] in H
  | H : word_in _ (SMethod _ _ _ _) |- _ => rewrite wi_iff2 in H; cbn [words parts elems In] in H
  | H : word_in _ (SNew _ _ _) |- _ => rewrite wi_iff2 in H; cbn [words parts elems In] in H
  | H : word_in _ (SAssign _ _ _) |- _ => rewrite wi_iff2 in H; cbn [words parts elems In] in H
  | H : word_in _ (SIf _ _ _ _) |- _ => rewrite wi_iff2 in H; cbn [words parts elems In] in H
  | H : word_in _ (STry _ _) |- _ => rewrite wi_iff2 in H; cbn [words parts elems In] in H
  | H : word_in _ (SThrow _) |- _ => rewrite wi_iff2 in H; cbn [words parts elems In] in H
  | H : word_in _ (SReturn _) |- _ => rewrite wi_iff2 in H; cbn [words parts elems In] in H
  | H : word_in _ SBreak |- _ => rewrite wi_iff2 in H; cbn [words parts elems In] in H
  | H : word_in _ SContinue |- _ => rewrite wi_iff2 in H; cbn [words parts elems In] in H
  | H : word_in _ (SLoop _ _ _ _ _) |- _ => rewrite wi_iff2 in H; cbn [words parts elems In] in H
  | H : wi_list _ (_ ++ _) |- _ => rewrite wi_app in H
  | H : wi_list _ (_ :: _) |- _ => rewrite wi_cons in H
  | H : wi_list _ [] |- _ => rewrite wi_nil in H
  | H : wi_list _ (elems (slice_of _)) |- _ => rewrite elems_slice in H
  | H : wi_list _ (rev _) |- _ => rewrite wi_rev in H
  | H : _ \/ _ |- _ => destruct H
  | H : False |- _ => destruct H
  end).
Lemma words_exprs w :
  (forall e, word_in w (mean_expr e) -> ins w (toks_expr e)) /\ (forall e, word_in w (mean_path e) -> ins w (toks_path e)) /\
  (forall e, word_in w (mean_ident e) -> ins w (toks_ident e)) /\ (forall e, word_in w (mean_new e) -> ins w (toks_new e)) /\
  (forall e, wi_list w (mean_args e) -> ins w (toks_args e)) /\ (forall e, word_in w (mean_oexpr e) -> ins w (toks_oexpr e)).
Proof.
  apply expr_all; intros; unf;
  repeat match goal with H : word_in w (mark_not _) |- _ => apply wi_not in H | H : word_in w (mark_minus _) |- _ => apply wi_minus in H end;
  ins; try tauto;
  peel; subst; try tauto; auto.
Qed.

Lemma words_loopexp w l : word_in w (mean_loopexp l) -> ins w (toks_loopexp l).
Proof.
  destruct (words_exprs w) as (A & B & _ & C & _). destruct l; intros; unf; ins; peel; auto 10.
Qed.
Lemma words_stmts w :
  (forall e, word_in w (mean_stmt e) -> ins w (toks_stmt e)) /\ (forall e, wi_list w (mean_block e) -> ins w (toks_block e)) /\
  (forall e, wi_list w (mean_elseifs e) -> ins w (toks_elseifs e)) /\ (forall e, wi_list w (elems (mean_else e)) -> ins w (toks_else e)).
Proof.
  destruct (words_exprs w) as (A & B & _ & _ & _ & F). pose proof (words_loopexp w) as L.
  apply stmt_all; intros; unf; try (destruct x; cbn [toks_sep]); ins; peel; subst; auto 12.
  cbn [elems] in H. rewrite wi_nil in H. destruct H.
Qed.
Lemma words_names w l : In w (name_list l) -> ins w (toks_names l).
Proof. induction l; cbn [name_list toks_names]; intros H; ins; rewrite ?in_app_iff in H; cbn [In] in H; intuition (subst; auto). Qed.
Lemma words_param w p : (w = snd (fst (mean_param p)) -> ins w (toks_param p)) /\ (word_in w (fst (fst (mean_param p))) -> ins w (toks_param p)).
Proof.
  destruct (words_exprs w) as (A & _). induction p as [n|n|p [I1 I2] e]; cbn [mean_param toks_param].
  - cbn [fst snd]. split; intros H; ins; peel; auto.
  - cbn [fst snd]. split; intros H; ins; peel; auto.
  - destruct (mean_param p) as [[x n] b]. cbn [fst snd] in *. split; intros H; ins; auto.
Qed.
Lemma words_params w l : (In w (map (fun p => snd (fst p)) (mean_params l)) -> ins w (toks_params l)) /\
  (wi_list w (map (fun p => fst (fst p)) (mean_params l)) -> ins w (toks_params l)).
Proof.
  induction l as [|p|l [I1 I2] p]; cbn [mean_params toks_params]; rewrite ?map_app; cbn [map]; rewrite ?in_app_iff; cbn [In]; wi; ins; destruct (words_param w p) as [P1 P2] || idtac;
  intuition auto.
Qed.
Lemma words_func w f : word_in w (mean_func f) -> ins w (toks_func f).
Proof.
  destruct (words_stmts w) as (_ & B & _). destruct (words_params w (cf_params f)) as [P1 P2]. unfold mean_func, mean_func_with, toks_func. rewrite wi_iff2. cbn [words parts In]. rewrite elems_slice.
  wi. ins. intuition auto.
Qed.
Lemma words_program p s w : In s (elems (m_body (mean_program p))) -> word_in w s -> ins w (toks_program p).
Proof.
  destruct (words_stmts w) as (_ & B & _). unfold mean_program, toks_program. cbn [m_body]. rewrite elems_slice, in_app_iff. intros [H|H] Hw; ins.
  - left. apply in_map_iff in H as (f & <- & Hf). induction (pr_items p) as [|l IH [d n x|g]]; cbn [item_funcs toks_items] in *; [destruct Hf| |]; ins; [auto|].
    apply in_app_iff in Hf as [Hf|[-> |[]]]; [auto|]. right. apply words_func, Hw.
  - right. apply B. exists s. auto.
Qed.
Lemma words_gvars p g : In g (elems (m_gvars (mean_program p))) -> ins (gv_name g) (toks_program p).
Proof.
  unfold mean_program, toks_program. cbn [m_gvars]. intros H. replace (elems _) with (item_gvars (pr_items p)) in H by (destruct (item_gvars (pr_items p)); reflexivity).
  ins. left. induction (pr_items p) as [|l IH [d n x|f]]; cbn [item_gvars toks_items] in *; [destruct H| |]; ins; [|auto].
  apply in_app_iff in H as [H|H]; [auto|]. right. unfold mean_gvars in H. apply in_map_iff in H as (m & <- & Hm). cbn [gv_name toks_item]. ins. right. right. left. apply words_names, Hm.
Qed.
(** No directive in the text, none in the tree. *)
Definition no_dir (l : list tk) : Prop := forall d, ~ In (KDir d) l.
Lemma dirs_program p s : no_dir (toks_program p) -> In s (elems (m_body (mean_program p))) -> directive_of s = [].
Proof.
  unfold mean_program, toks_program. cbn [m_body]. rewrite elems_slice, in_app_iff. intros N [H|H].
  - apply in_map_iff in H as (f & <- & Hf). cbn. destruct (cf_dir f) as [d|] eqn:E; [|reflexivity]. destruct (N d). apply in_app_iff. left. clear N.
    induction (pr_items p) as [|l IH [d' n x|g]]; cbn [item_funcs toks_items] in *; [destruct Hf| |]; apply in_app_iff; [auto|].
    apply in_app_iff in Hf as [Hf|[-> |[]]]; [auto|]. right. cbn [toks_item]. unfold toks_func. rewrite E. left. reflexivity.
  - assert (X : forall b, In s (mean_block b) -> directive_of s = []).
    { assert (Y : forall e, directive_of (mean_expr e) = []).
      { assert (Z : (forall e, directive_of (mean_expr e) = []) /\ (forall e, directive_of (mean_path e) = []) /\ (forall e, directive_of (mean_ident e) = []) /\
          (forall e, directive_of (mean_new e) = []) /\ (forall l : args, True) /\ (forall o : oexpr, True)).
        { apply expr_all; intros; cbn; auto; destruct (mean_expr _); cbn in *; auto. }
        apply Z. }
      induction b as [|x|b IH x|b IH x t]; cbn [mean_block]; rewrite ?in_app_iff; cbn [In]; try tauto.
      - intros [<- |[]]. destruct x; cbn [mean_stmt]; try reflexivity; apply Y.
      - intros [Hs|[<- |[]]]; [auto|]. destruct t; cbn [mean_stmt]; try reflexivity; apply Y. }
    apply X with (b := pr_body p), H.
Qed.
Lemma gdirs_program p g : no_dir (toks_program p) -> In g (elems (m_gvars (mean_program p))) -> gv_dir g = [].
Proof.
  unfold mean_program, toks_program. cbn [m_gvars]. intros N H. replace (elems _) with (item_gvars (pr_items p)) in H by (destruct (item_gvars (pr_items p)); reflexivity).
  assert (N' : no_dir (toks_items (pr_items p))) by (intros d Hd; apply (N d), in_app_iff; auto). clear N. induction (pr_items p) as [|l IH [d n x|f]]; cbn [item_gvars toks_items] in *; [destruct H| |].
  - apply in_app_iff in H as [H|H]; [apply IH; [exact H|]; intros d' Hd; apply (N' d'), in_app_iff; auto|]. unfold mean_gvars in H. apply in_map_iff in H as (m & <- & Hm). cbn [gv_dir].
    destruct d as [d|]; [|reflexivity]. destruct (N' d). apply in_app_iff. right. left. reflexivity.
  - apply IH; [exact H|]. intros d' Hd; apply (N' d'), in_app_iff; auto.
Qed.

(** Names and labels of a text have no line feeds. *)
Lemma word_no_lf w : Forall word_char w -> ~ In x0a (string_of_runes w).
Proof. intros H. change x0a with LF. apply lf_string; [apply word_runes_valid, Forall_word, H|apply word_char_not_lf, H]. Qed.
Lemma text_no_lf dot code l : text_of dot code l -> Forall one_line_tk l -> forall w, In w (flat_map word_tk l) -> ~ In x0a w.
Proof.
  induction 1 as [dot w Hw|dot w x k rest l Hw Hx Ht IH]; intros Ho v Hv; [destruct Hv|]. inversion Ho as [|? ? O1 O2]; subst. cbn [flat_map] in Hv. apply in_app_iff in Hv as [Hv|Hv]; [|exact (IH O2 v Hv)].
  clear - Hx Hv O1. destruct Hx as [u k rest Hu _ Hk| | | | |u rest Hu _| | | | | | | |]; cbn [word_tk] in Hv; try (destruct Hv; fail).
  - destruct Hk; cbn [word_tk] in Hv; try (destruct Hv; fail); destruct Hv as [<- |[]]; apply word_no_lf, is_word_chars, Hu.
  - destruct Hv as [<- |[]]. exact O1.
  - destruct Hv as [<- |[]]. apply word_no_lf, Hu.
Qed.
