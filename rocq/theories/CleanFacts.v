(** Programs without blocks starting with a separator, seen on their tokens. *)
From Verif Require Import Bytes Float64 GoTime Ast Lexer Tok Syntax Rules RulesFacts.
Open Scope Z_scope.

Definition bm (p : place) : Prop := p = Begin \/ p = Middle.
Lemma ct_expr p l r : bm p -> forallb expr_tok l = true -> clean_toks p (l ++ r) = clean_toks (match l with [] => p | _ => Middle end) r.
Proof.
  intros Hp H. destruct l as [|t l]; [reflexivity|].
  assert (S1 : forall q t, bm q -> expr_tok t = true -> move q (kind_of t) = Some Middle).
  { intros q x Hq Hx. unfold expr_tok in Hx. apply existsb_exists in Hx as (k & Hk & E). apply Z.eqb_eq in E. rewrite E.
    cbn in Hk. destruct Hq as [-> | ->]; repeat (destruct Hk as [<- | Hk]; [reflexivity|]); destruct Hk. }
  cbn [forallb] in H. apply andb_true_iff in H as [H1 H2]. cbn [app clean_toks]. rewrite (S1 p t Hp H1). clear -S1 H2.
  revert H2. induction l as [|x l IH]; intros H; [reflexivity|]. cbn [forallb] in H. apply andb_true_iff in H as [H1 H2].
  cbn [app clean_toks]. rewrite (S1 Middle x (or_intror eq_refl) H1). auto.
Qed.
Lemma ct_e p e r : bm p -> clean_toks p (toks_expr e ++ r) = clean_toks Middle r.
Proof. intros H. rewrite ct_expr by (assumption || apply expr_kinds_ok). pose proof (proj1 begins_all e). destruct (toks_expr e); [discriminate|reflexivity]. Qed.
Lemma ct_path p e r : bm p -> clean_toks p (toks_path e ++ r) = clean_toks Middle r.
Proof. intros H. rewrite ct_expr by (assumption || apply path_kinds_ok). pose proof (proj1 (proj2 begins_all) e). destruct (toks_path e); [discriminate|reflexivity]. Qed.
Lemma ct_o e r : clean_toks Middle (toks_oexpr e ++ r) = clean_toks Middle r.
Proof. rewrite ct_expr by (apply oexpr_kinds_ok || right; reflexivity). destruct (toks_oexpr e); reflexivity. Qed.
Lemma ct_loop e r : clean_toks Middle (toks_loopexp e ++ r) = clean_toks Middle r.
Proof. rewrite ct_expr by (apply loopexp_kinds_ok || right; reflexivity). destruct (toks_loopexp e); reflexivity. Qed.
Definition after_block (b : block) (p : place) : place := match b with BNil => p | _ => Middle end.
Definition closes (r : list tk) : Prop := clean_toks Begin r = clean_toks Middle r.
Ltac bm := first [left; reflexivity|right; reflexivity|assumption].
Ltac cts := repeat first
  [ rewrite ct_e by bm | rewrite ct_path by bm | rewrite ct_o | rewrite ct_loop
  | match goal with |- context [clean_toks ?p (K ?k :: ?r)] =>
      let q := eval vm_compute in (move p k) in
      match q with Some ?q' => change (clean_toks p (K k :: r)) with (clean_toks q' r) end end
  | match goal with |- context [clean_toks ?p (KId ?n :: ?r)] => change (clean_toks p (KId n :: r)) with (clean_toks Middle r) end ].
Lemma clean_toks_eq :
  (forall s p r, bm p -> clean_toks p (toks_stmt s ++ r) = clean_stmt s && clean_toks Middle r) /\
  (forall b r, clean_toks Begin (toks_block b ++ r) = clean_block b && clean_toks (after_block b Begin) r) /\
  (forall l r, closes r -> clean_toks Middle (toks_elseifs l ++ r) = clean_elseifs l && clean_toks Middle r) /\
  (forall c r, closes r -> clean_toks Middle (toks_else c ++ r) = clean_else c && clean_toks Middle r).
Proof.
  assert (AB : forall b r, closes r -> clean_toks (after_block b Begin) r = clean_toks Middle r) by (intros [] r H; [exact H|reflexivity..]).
  assert (EL : forall l r, closes r -> closes (toks_elseifs l ++ r)) by (intros [] r H; [exact H|reflexivity]).
  assert (CL : forall c r, closes r -> closes (toks_else c ++ r)) by (intros [] r H; [exact H|reflexivity]).
  apply stmt_all; intros; cbn [clean_stmt clean_block clean_elseifs clean_else after_block]; norm;
    try (match goal with H : bm ?p |- _ => destruct H as [-> | ->] end); cts; try reflexivity.
  all: repeat match goal with H : forall r, clean_toks Begin (toks_block ?b ++ r) = _ |- context [clean_toks Begin (toks_block ?b ++ _)] => rewrite H end.
  all: rewrite ?AB by (repeat first [apply EL|apply CL|reflexivity|assumption]).
  all: cts.
  all: try reflexivity.
  1,2: rewrite H0 by (apply CL; reflexivity); rewrite H1 by reflexivity; cts; rewrite !andb_assoc; reflexivity.
  1,2: rewrite H0; rewrite AB by reflexivity; cts; rewrite !andb_assoc; reflexivity.
  - apply H. left. reflexivity.
  - destruct b, x; reflexivity || (cbn [after_block]; unfold toks_sep, Pct; cbn [clean_toks kind_of]; reflexivity).
  - destruct b, x; cbn [after_block]; try reflexivity;
    unfold toks_sep, Pct; cbn [clean_toks kind_of]; cbv [move is_sep unlit b2z]; cbn; (rewrite H0 by (right; reflexivity)); rewrite andb_assoc; reflexivity.
  - rewrite H0 by assumption. rewrite !andb_assoc. reflexivity.
Qed.

Lemma ct_decl l r : forallb (fun t => negb (kind_of t =? 59)) l = true -> clean_toks Decl (l ++ r) = clean_toks Decl r.
Proof.
  induction l as [|t l IH]; intros H; [reflexivity|]. cbn [forallb] in H. apply andb_true_iff in H as [H1 H2]. apply negb_true_iff in H1.
  cbn [app clean_toks move]. rewrite H1. auto.
Qed.
Lemma names_decl l : forallb (fun t => negb (kind_of t =? 59)) (toks_names l) = true.
Proof. induction l; [reflexivity|]. cbn [toks_names]. rewrite forallb_app, IHl. reflexivity. Qed.
Lemma export_decl l : forallb (fun t => negb (kind_of t =? 59)) (toks_export l) = true.
Proof. destruct l; reflexivity. Qed.
Lemma ct_vars v : forall r, clean_toks Begin (toks_vars v ++ r) = clean_toks Begin r.
Proof.
  induction v as [|v IH l]; intros r; [reflexivity|]. cbn [toks_vars]. rewrite <- app_assoc, IH. cbn [app]. rewrite <- app_assoc.
  change (clean_toks Begin (K tVar :: ?x)) with (clean_toks Decl x). rewrite ct_decl by apply names_decl. reflexivity.
Qed.
Lemma ct_dir d r p : bm p -> clean_toks p (toks_dir d ++ r) = clean_toks (match d with None => p | Some _ => Begin end) r.
Proof. intros [-> | ->]; destruct d; reflexivity. Qed.

(** Parentheses are balanced inside heads. *)
Definition balanced (l : list tk) : Prop := forall d r, 1 <= d -> clean_toks (Head d) (l ++ r) = clean_toks (Head d) r.
Lemma bal_one t : negb ((kind_of t =? 40) || (kind_of t =? 41)) = true -> balanced [t].
Proof. intros H d r Hd. apply negb_true_iff, orb_false_iff in H as [H1 H2]. cbn [app clean_toks move]. rewrite H1, H2. reflexivity. Qed.
Lemma bal_nil : balanced []. Proof. intros d r Hd. reflexivity. Qed.
Lemma bal_app a b : balanced a -> balanced b -> balanced (a ++ b).
Proof. intros Ha Hb d r Hd. rewrite <- app_assoc, Ha, Hb by assumption. reflexivity. Qed.
Lemma bal_cons t l : negb ((kind_of t =? 40) || (kind_of t =? 41)) = true -> balanced l -> balanced (t :: l).
Proof. intros Ht Hl. apply (bal_app [t] l); [apply bal_one, Ht|exact Hl]. Qed.
Lemma bal_paren l r : balanced l -> balanced r -> balanced (Pct "(" :: l ++ Pct ")" :: r).
Proof.
  intros Hl Hr d x Hd. cbn [app]. change (clean_toks (Head d) (Pct "(" :: ?y)) with (clean_toks (Head (d + 1)) y).
  rewrite <- app_assoc, Hl by lia. cbn [app]. change (clean_toks (Head (d + 1)) (Pct ")" :: ?y)) with (clean_toks (if d + 1 =? 1 then Begin else Head (d + 1 - 1)) y).
  replace (d + 1 =? 1) with false by lia. replace (d + 1 - 1) with d by lia. apply Hr, Hd.
Qed.
Ltac bal := repeat first [assumption | apply bal_nil | apply bal_paren | apply bal_cons; [reflexivity|] | apply bal_app ].
Lemma balanced_all :
  (forall e, balanced (toks_expr e)) /\ (forall e, balanced (toks_path e)) /\ (forall e, balanced (toks_ident e)) /\
  (forall e, balanced (toks_new e)) /\ (forall e, balanced (toks_args e)) /\ (forall e, balanced (toks_oexpr e)).
Proof.
  apply expr_all; intros; cbn [toks_expr toks_path toks_ident toks_new toks_args toks_oexpr]; try (destruct o); bal.
  change (Pct "(" :: toks_expr c ++ Pct "," :: toks_expr t ++ Pct "," :: toks_expr f ++ [Pct ")"])
    with (Pct "(" :: toks_expr c ++ (Pct "," :: toks_expr t) ++ (Pct "," :: toks_expr f) ++ [Pct ")"]).
  rewrite !app_assoc. apply bal_paren; bal.
Qed.
Lemma bal_param p : balanced (toks_param p).
Proof. induction p; cbn [toks_param]; bal. apply balanced_all. Qed.
Lemma bal_params p : balanced (toks_params p).
Proof. induction p; cbn [toks_params]; bal; apply bal_param. Qed.

Lemma ct_func f r p : bm p -> clean_toks p (toks_func f ++ r) = clean_block (cf_body f) && clean_toks Begin r.
Proof.
  intros Hp. unfold toks_func. rewrite <- !app_assoc. rewrite ct_dir by exact Hp.
  set (q := match cf_dir f with None => p | Some _ => Begin end). assert (Hq : bm q) by (subst q; destruct (cf_dir f); [left; reflexivity|exact Hp]). clearbody q.
  cbn [app]. rewrite <- !app_assoc. cbn [app]. rewrite <- !app_assoc.
  assert (E : forall c x, (c = tFunction \/ c = tProcedure) -> clean_toks q (K c :: x) = clean_toks (Head 0) x)
    by (intros c x [-> | ->]; destruct Hq as [-> | ->]; reflexivity).
  rewrite E by (destruct (cf_function f); auto).
  change (clean_toks (Head 0) (KId (cf_name f) :: Pct "(" :: ?x)) with (clean_toks (Head 1) x).
  rewrite bal_params by lia. change (clean_toks (Head 1) (Pct ")" :: ?x)) with (clean_toks Begin x).
  assert (X : forall b x, clean_toks Begin (toks_export b ++ x) = clean_toks Begin x) by (intros [] x; reflexivity).
  rewrite X, ct_vars, (proj1 (proj2 clean_toks_eq)). f_equal. cbn [app].
  destruct (cf_function f), (cf_body f); reflexivity.
Qed.
Lemma ct_items l : forall r, clean_toks Begin (toks_items l ++ r) = forallb (fun f => clean_block (cf_body f)) (item_funcs l) && clean_toks Begin r.
Proof.
  induction l as [|l IH i]; intros r; [reflexivity|]. cbn [toks_items]. rewrite <- app_assoc, IH. destruct i as [d n x|f]; cbn [item_funcs toks_item].
  - f_equal. rewrite <- !app_assoc. rewrite ct_dir by (left; reflexivity). cbn [app]. rewrite <- !app_assoc.
    replace (match d with Some _ => Begin | None => Begin end) with Begin by (destruct d; reflexivity).
    change (clean_toks Begin (K tVar :: ?x)) with (clean_toks Decl x). rewrite ct_decl by apply names_decl. rewrite ct_decl by apply export_decl. reflexivity.
  - rewrite ct_func by (left; reflexivity). rewrite forallb_app. cbn [forallb]. rewrite andb_true_r, andb_assoc. reflexivity.
Qed.
Theorem clean_program p : clean_toks Begin (toks_program p) = clean p.
Proof.
  unfold toks_program, clean, each_body. rewrite ct_items. f_equal.
  rewrite <- (app_nil_r (toks_block _)), (proj1 (proj2 clean_toks_eq)). apply andb_true_r.
Qed.
