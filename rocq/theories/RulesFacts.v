(** Programs that obey the rules of Syntax.v obey those of Rules.v. *)
From Verif Require Import Bytes Float64 GoTime Ast Lexer Tok Syntax Rules.
Scheme expr_mind := Induction for expr Sort Prop
  with path_mind := Induction for path Sort Prop
  with ident_mind := Induction for ident Sort Prop
  with newexp_mind := Induction for newexp Sort Prop
  with args_mind := Induction for args Sort Prop
  with oexpr_mind := Induction for oexpr Sort Prop.
Combined Scheme expr_all from expr_mind, path_mind, ident_mind, newexp_mind, args_mind, oexpr_mind.
Scheme cstmt_mind := Induction for cstmt Sort Prop
  with block_mind := Induction for block Sort Prop
  with elseifs_mind := Induction for elseifs Sort Prop
  with celse_mind := Induction for celse Sort Prop.
Combined Scheme stmt_all from cstmt_mind, block_mind, elseifs_mind, celse_mind.

(** Kinds of tokens used inside expressions. *)
Definition expr_kinds : list Z := [tString; tNumber; tDate; tTrue; tFalse; tUndefind; tGoToLabel; tNot; tNew; tGoTo; tIdent; tExecute;
    40; 41; 43; 45; 63; 44; 46; 91; 93; 42; 47; 37; 62; 60; tEQUAL; tOR; tAnd; tNeEQ; tLE; tGE].
Definition expr_tok (t : tk) : bool := existsb (Z.eqb (kind_of t)) expr_kinds.
Lemma exprs_kinds :
  (forall e, forallb expr_tok (toks_expr e) = true) /\ (forall e, forallb expr_tok (toks_path e) = true) /\ (forall e, forallb expr_tok (toks_ident e) = true) /\
  (forall e, forallb expr_tok (toks_new e) = true) /\ (forall e, forallb expr_tok (toks_args e) = true) /\ (forall e, forallb expr_tok (toks_oexpr e) = true).
Proof.
  apply expr_all; intros; try match goal with o : bop |- _ => destruct o end; cbn [toks_expr toks_path toks_ident toks_new toks_args toks_oexpr];
  repeat (progress (rewrite ?forallb_app; cbn [forallb]));
  repeat match goal with H : forallb _ _ = true |- _ => rewrite H; clear H end; reflexivity.
Qed.
Lemma expr_kinds_ok e : forallb expr_tok (toks_expr e) = true. Proof. apply exprs_kinds. Qed.
Lemma path_kinds_ok e : forallb expr_tok (toks_path e) = true. Proof. apply exprs_kinds. Qed.
Lemma new_kinds_ok e : forallb expr_tok (toks_new e) = true. Proof. apply exprs_kinds. Qed.
Lemma oexpr_kinds_ok e : forallb expr_tok (toks_oexpr e) = true. Proof. apply exprs_kinds. Qed.
Lemma loopexp_kinds_ok e : forallb expr_tok (toks_loopexp e) = true.
Proof.
  destruct e; cbn [toks_loopexp]; [apply path_kinds_ok|apply new_kinds_ok| |apply expr_kinds_ok].
  cbn [forallb]. rewrite forallb_app, new_kinds_ok. reflexivity.
Qed.

(** Scanning functions pass over expressions. *)
Ltac skip := let H := fresh in let t := fresh "t" in let IH := fresh in
  intros H; match goal with l : list tk |- _ => revert H; induction l as [|t l IH]; intros H; [reflexivity|] end;
  cbn [forallb] in H; apply andb_true_iff in H as [H1 H2]; unfold expr_tok in H1; apply existsb_exists in H1 as (k & Hk & E);
  apply Z.eqb_eq in E; cbn [app]; cbn; rewrite E; cbn in Hk; repeat (destruct Hk as [<- | Hk]; [cbn; try (f_equal; auto; fail); auto|]); destruct Hk.
Lemma skip_breaks d l r : forallb expr_tok l = true -> breaks_toks d (l ++ r) = breaks_toks d r.
Proof. skip. Qed.
Lemma skip_throws d l r : forallb expr_tok l = true -> throws_toks d (l ++ r) = throws_toks d r.
Proof. skip. Qed.
Lemma skip_returns d l r : forallb expr_tok l = true -> returns_toks d (l ++ r) = returns_toks d r.
Proof. skip. Qed.
Lemma skip_layout p s l r : forallb expr_tok l = true -> layout_toks p s (l ++ r) = layout_toks p s r.
Proof. skip. Qed.
Lemma skip_while l r : forallb expr_tok l = true -> before_while (l ++ r) = l ++ before_while r.
Proof. skip. Qed.

(** * Прервать and Продолжить *)
Definition bt (d : Z) (l : list tk) : bool := breaks_toks d (before_while l).
Lemma bt_skip d l r : forallb expr_tok l = true -> bt d (l ++ r) = bt d r.
Proof. intros H. unfold bt. rewrite skip_while, skip_breaks by exact H. reflexivity. Qed.
Lemma bt_loop d r : bt d (K tLoop :: r) = bt (d + 1) r. Proof. reflexivity. Qed.
Lemma bt_end d r : bt d (K tEndLoop :: r) = bt (d - 1) r. Proof. reflexivity. Qed.
Lemma bt_while d r : bt d (K tWhile :: r) = true. Proof. reflexivity. Qed.
Lemma bt_break d r : bt d (K tBreak :: r) = (0 <? d) && bt d r. Proof. reflexivity. Qed.
Lemma bt_continue d r : bt d (K tContinue :: r) = (0 <? d) && bt d r. Proof. reflexivity. Qed.
Definition b_other (k : Z) : bool :=
  negb ((k =? tLoop) || (k =? tEndLoop) || (k =? tBreak) || (k =? tContinue) || (k =? tWhile)).
Lemma bt_other d t r : b_other (kind_of t) = true -> bt d (t :: r) = bt d r.
Proof.
  unfold b_other, bt. cbn [before_while]. intros H. apply negb_true_iff in H. rewrite !orb_false_iff in H.
  destruct H as [[[[H1 H2] H3] H4] H5]. rewrite H5. cbn [breaks_toks]. rewrite H1, H2, H3, H4. reflexivity.
Qed.
Ltac norm := cbn [toks_stmt toks_block toks_elseifs toks_else app]; repeat (progress (rewrite <- ?app_assoc; cbn [app])).
Ltac bts := repeat first
  [ rewrite bt_loop | rewrite bt_end | rewrite bt_while | rewrite bt_break | rewrite bt_continue
  | rewrite bt_skip by (apply expr_kinds_ok || apply path_kinds_ok || apply loopexp_kinds_ok || apply oexpr_kinds_ok)
  | rewrite bt_other by reflexivity ].
Definition loose_then (w : bool) (ok : bool -> bool) (l : list tk) : Prop :=
  forall d r, 0 <= d -> ok (0 <? d) = true -> (w = false -> bt d r = true) -> bt d (l ++ r) = true.
Lemma loose_toks :
  (forall s, loose_then (while_stmt s) (fun l => loose_stmt l s) (toks_stmt s)) /\
  (forall b, loose_then (while_block b) (fun l => loose_block l b) (toks_block b)) /\
  (forall l, loose_then (while_elseifs l) (fun x => loose_elseifs x l) (toks_elseifs l)) /\
  (forall c, loose_then (while_else c) (fun x => loose_else x c) (toks_else c)).
Proof.
  apply stmt_all; unfold loose_then; cbn [loose_stmt loose_block loose_elseifs loose_else while_stmt while_block while_elseifs while_else]; intros; norm; bts.
  - auto.
  - auto.
  - apply andb_true_iff in H3 as [H3 H5]. apply andb_true_iff in H3 as [H3 H6]. apply H; [assumption..|]. intros E. rewrite E in *. cbn [orb] in *.
    rewrite orb_false_r in *. apply H0; [assumption..|]. intros E'. rewrite E' in *. cbn [orb] in *. rewrite orb_false_r in *.
    apply H1; [assumption..|]. bts. assumption.
  - apply H; [lia| |]. { replace (0 <? d + 1) with true by lia. assumption. } intros E. bts. replace (d + 1 - 1) with d by lia. auto.
  - apply H; [lia| |]. { replace (0 <? d + 1) with true by lia. assumption. } intros E. bts. replace (d + 1 - 1) with d by lia. auto.
  - reflexivity.
  - apply andb_true_iff in H2 as [H2 H4]. apply H; [assumption..|]. intros E. rewrite E in *. cbn [orb] in *. rewrite orb_false_r in *. bts.
    apply H0; [assumption..|]. intros E'. bts. auto.
  - rewrite H0. auto.
  - rewrite H0. auto.
  - auto.
  - auto.
  - auto.
  - auto.
  - apply H; [assumption..|]. intros E. destruct x; unfold toks_sep; bts; auto.
  - apply andb_true_iff in H2 as [H2 H4]. apply H; [assumption..|]. intros E. rewrite E in *. cbn [orb] in *. rewrite orb_false_r in *.
    destruct x; unfold toks_sep; bts; apply H0; assumption.
  - auto.
  - apply andb_true_iff in H2 as [H2 H4]. apply H; [assumption..|]. intros E. rewrite E in *. cbn [orb] in *. rewrite orb_false_r in *. apply H0; assumption.
  - auto.
  - apply H; assumption.
Qed.

(** * ВызватьИсключение *)
Definition t_other (k : Z) : bool := negb ((k =? tCatch) || (k =? tEndTry) || (k =? tThrow)).
Lemma th_other d t r : t_other (kind_of t) = true -> throws_toks d (t :: r) = throws_toks d r.
Proof.
  unfold t_other. intros H. apply negb_true_iff in H. rewrite !orb_false_iff in H.
  destruct H as [[H1 H2] H3]. cbn [throws_toks]. rewrite H1, H2, H3. reflexivity.
Qed.
Lemma th_catch d r : throws_toks d (K tCatch :: r) = throws_toks (d + 1) r. Proof. reflexivity. Qed.
Lemma th_end d r : throws_toks d (K tEndTry :: r) = throws_toks (d - 1) r. Proof. reflexivity. Qed.
Lemma th_throw d r : throws_toks d (K tThrow :: r) = (begins_expr r || (0 <? d)) && throws_toks d r. Proof. reflexivity. Qed.
Ltac ths := repeat first
  [ rewrite th_catch | rewrite th_end | rewrite th_throw
  | rewrite skip_throws by (apply expr_kinds_ok || apply path_kinds_ok || apply loopexp_kinds_ok || apply oexpr_kinds_ok)
  | rewrite th_other by reflexivity ].
Lemma begins_app l r : l <> [] -> begins_expr (l ++ r) = begins_expr l. Proof. destruct l; [contradiction|reflexivity]. Qed.
Lemma begins_all :
  (forall e, begins_expr (toks_expr e) = true) /\ (forall e, begins_expr (toks_path e) = true) /\ (forall e, begins_expr (toks_ident e) = true) /\
  (forall e, begins_expr (toks_new e) = true) /\ (forall l : args, True) /\ (forall l : oexpr, True).
Proof.
  assert (A : forall l r, begins_expr l = true -> begins_expr (l ++ r) = true) by (intros [|] r; [discriminate|auto]).
  apply expr_all; intros; cbn [toks_expr toks_path toks_ident toks_new]; auto.
Qed.
Lemma begins_e e r : begins_expr (toks_expr e ++ r) = true.
Proof. pose proof (proj1 begins_all e) as H. destruct (toks_expr e); [discriminate|exact H]. Qed.
Lemma begins_o o r : begins_expr r = false -> begins_expr (toks_oexpr o ++ r) = match o with ONone => false | OSome _ => true end.
Proof. intros H. destruct o; [exact H|apply begins_e]. Qed.

Definition throws_eq (ok : bool -> bool) (l : list tk) : Prop :=
  forall d r, 0 <= d -> begins_expr r = false -> throws_toks d (l ++ r) = ok (0 <? d) && throws_toks d r.
Lemma else_no_begin c r : begins_expr (toks_else c ++ K tEndIf :: r) = false. Proof. destruct c; reflexivity. Qed.
Lemma elseifs_no_begin l c r : begins_expr (toks_elseifs l ++ toks_else c ++ K tEndIf :: r) = false.
Proof. destruct l; [apply else_no_begin|reflexivity]. Qed.
Lemma elseifs_no_begin' l r : begins_expr r = false -> begins_expr (toks_elseifs l ++ r) = false.
Proof. destruct l; [auto|reflexivity]. Qed.
Lemma sep_no_begin x r : begins_expr (toks_sep x :: r) = false. Proof. destruct x; reflexivity. Qed.
Lemma throws_toks_eq :
  (forall s, throws_eq (fun l => throws_stmt l s) (toks_stmt s)) /\
  (forall b, throws_eq (fun l => throws_block l b) (toks_block b)) /\
  (forall l, throws_eq (fun x => throws_elseifs x l) (toks_elseifs l)) /\
  (forall c, throws_eq (fun x => throws_else x c) (toks_else c)).
Proof.
  apply stmt_all; unfold throws_eq; cbn [throws_stmt throws_block throws_elseifs throws_else]; intros; norm; ths; try reflexivity.
  - rewrite H by (assumption || apply elseifs_no_begin). rewrite H0 by (assumption || apply else_no_begin). rewrite H1 by (assumption || reflexivity).
    ths. rewrite !andb_assoc. reflexivity.
  - rewrite H by (assumption || reflexivity). ths. reflexivity.
  - rewrite H by (assumption || reflexivity). ths. reflexivity.
  - rewrite H by (assumption || reflexivity). ths. reflexivity.
  - rewrite H by (assumption || reflexivity). ths. rewrite H0 by (lia || reflexivity). ths.
    replace (0 <? d + 1) with true by lia. replace (d + 1 - 1) with d by lia. rewrite !andb_assoc. reflexivity.
  - rewrite begins_o by assumption. destruct o; cbn [orb]; ths; [reflexivity|]. cbn [toks_oexpr]. ths. reflexivity.
  - apply H; assumption.
  - rewrite H by (assumption || apply sep_no_begin). destruct x; unfold toks_sep; ths; reflexivity.
  - rewrite H by (assumption || apply sep_no_begin). destruct x; unfold toks_sep; ths; rewrite H0 by assumption; rewrite !andb_assoc; reflexivity.
  - rewrite H by (assumption || apply elseifs_no_begin'; assumption). rewrite H0 by assumption. rewrite andb_assoc. reflexivity.
  - rewrite H by assumption. reflexivity.
Qed.

(** * Возврат *)
Definition r_other (k : Z) : bool := negb ((k =? tFunction) || (k =? tEndFunction) || (k =? tReturn)).
Lemma rt_other d t r : r_other (kind_of t) = true -> returns_toks d (t :: r) = returns_toks d r.
Proof.
  unfold r_other. intros H. apply negb_true_iff in H. rewrite !orb_false_iff in H.
  destruct H as [[H1 H2] H3]. cbn [returns_toks]. rewrite H1, H2, H3. reflexivity.
Qed.
Lemma rt_fun d r : returns_toks d (K tFunction :: r) = returns_toks true r. Proof. reflexivity. Qed.
Lemma rt_end d r : returns_toks d (K tEndFunction :: r) = returns_toks false r. Proof. reflexivity. Qed.
Lemma rt_return d r : returns_toks d (K tReturn :: r) = (negb (begins_expr r) || d) && returns_toks d r. Proof. reflexivity. Qed.
Ltac rts := repeat first
  [ rewrite rt_fun | rewrite rt_end | rewrite rt_return
  | rewrite skip_returns by (apply expr_kinds_ok || apply path_kinds_ok || apply loopexp_kinds_ok || apply oexpr_kinds_ok)
  | rewrite rt_other by reflexivity ].
Definition returns_eq (ok : bool -> bool) (l : list tk) : Prop :=
  forall d r, begins_expr r = false -> returns_toks d (l ++ r) = ok d && returns_toks d r.
Lemma returns_toks_eq :
  (forall s, returns_eq (fun l => returns_stmt l s) (toks_stmt s)) /\
  (forall b, returns_eq (fun l => returns_block l b) (toks_block b)) /\
  (forall l, returns_eq (fun x => returns_elseifs x l) (toks_elseifs l)) /\
  (forall c, returns_eq (fun x => returns_else x c) (toks_else c)).
Proof.
  apply stmt_all; unfold returns_eq; cbn [returns_stmt returns_block returns_elseifs returns_else]; intros; norm; rts; try reflexivity.
  - rewrite H by apply elseifs_no_begin. rewrite H0 by apply else_no_begin. rewrite H1 by reflexivity.
    rts. rewrite !andb_assoc. reflexivity.
  - rewrite H by reflexivity. rts. reflexivity.
  - rewrite H by reflexivity. rts. reflexivity.
  - rewrite H by reflexivity. rts. reflexivity.
  - rewrite H by reflexivity. rts. rewrite H0 by reflexivity. rts. rewrite !andb_assoc. reflexivity.
  - rewrite begins_o by assumption. destruct o; cbn [orb negb]; rts; [reflexivity|]. cbn [toks_oexpr]. rts. reflexivity.
  - apply H; assumption.
  - rewrite H by apply sep_no_begin. destruct x; unfold toks_sep; rts; reflexivity.
  - rewrite H by apply sep_no_begin. destruct x; unfold toks_sep; rts; rewrite H0 by assumption; rewrite !andb_assoc; reflexivity.
  - rewrite H by (apply elseifs_no_begin'; assumption). rewrite H0 by assumption. rewrite andb_assoc. reflexivity.
  - rewrite H by assumption. reflexivity.
Qed.
Lemma while_funcs_snoc l f : while_funcs (l ++ [f]) = while_funcs l || while_block (cf_body f).
Proof. induction l; cbn; [rewrite orb_false_r; reflexivity|]. rewrite IHl, orb_assoc. reflexivity. Qed.
Lemma loose_funcs_snoc w l f : loose_funcs w (l ++ [f]) = loose_funcs w l && loose_block (w || while_funcs l) (cf_body f).
Proof.
  revert w. induction l as [|g l IH]; intros w; cbn.
  - rewrite orb_false_r, andb_true_r. reflexivity.
  - rewrite IH, andb_assoc, orb_assoc. reflexivity.
Qed.

(** * Declarations *)
Definition d_other (t : tk) : bool := b_other (kind_of t) && t_other (kind_of t) && r_other (kind_of t).
Lemma expr_d_other l : forallb expr_tok l = true -> forallb d_other l = true.
Proof.
  rewrite !forallb_forall. intros H x Hx. specialize (H x Hx). unfold expr_tok in H. apply existsb_exists in H as (k & Hk & E).
  apply Z.eqb_eq in E. unfold d_other. rewrite E. cbn in Hk. repeat (destruct Hk as [<- | Hk]; [reflexivity|]). destruct Hk.
Qed.
Lemma names_d_other l : forallb d_other (toks_names l) = true.
Proof. induction l; [reflexivity|]. cbn [toks_names]. rewrite forallb_app, IHl. reflexivity. Qed.
Lemma param_d_other l : forallb d_other (toks_param l) = true.
Proof.
  induction l; [reflexivity|reflexivity|]. cbn [toks_param]. rewrite forallb_app, IHl. cbn [forallb].
  rewrite expr_d_other by apply expr_kinds_ok. reflexivity.
Qed.
Lemma params_d_other l : forallb d_other (toks_params l) = true.
Proof. induction l; [reflexivity|apply param_d_other|]. cbn [toks_params]. rewrite forallb_app, IHl. cbn [forallb]. rewrite param_d_other. reflexivity. Qed.
Lemma vars_d_other l : forallb d_other (toks_vars l) = true.
Proof. induction l; [reflexivity|]. cbn [toks_vars]. rewrite forallb_app, IHl. cbn [forallb]. rewrite forallb_app, names_d_other. reflexivity. Qed.
Lemma dir_d_other l : forallb d_other (toks_dir l) = true. Proof. destruct l; reflexivity. Qed.
Lemma export_d_other l : forallb d_other (toks_export l) = true. Proof. destruct l; reflexivity. Qed.
Ltac dskip lem := let H := fresh in intros H; match goal with l : list tk |- _ => induction l as [|t l IH]; [reflexivity|] end;
  cbn [forallb] in H; apply andb_true_iff in H as [H1 H2]; unfold d_other in H1; rewrite !andb_true_iff in H1; cbn [app]; rewrite lem by tauto; auto.
Lemma dskip_bt d l r : forallb d_other l = true -> bt d (l ++ r) = bt d r. Proof. dskip bt_other. Qed.
Lemma dskip_th d l r : forallb d_other l = true -> throws_toks d (l ++ r) = throws_toks d r. Proof. dskip th_other. Qed.
Lemma dskip_rt d l r : forallb d_other l = true -> returns_toks d (l ++ r) = returns_toks d r. Proof. dskip rt_other. Qed.
Ltac ds := first [apply names_d_other|apply params_d_other|apply vars_d_other|apply dir_d_other|apply export_d_other].

Ltac norm2 := unfold toks_func; repeat (progress (rewrite <- ?app_assoc; cbn [app])).
Lemma loose_items l : forall r, loose_funcs false (item_funcs l) = true -> (while_funcs (item_funcs l) = false -> bt 0 r = true) ->
  bt 0 (toks_items l ++ r) = true.
Proof.
  induction l as [|l IH i]; intros r H Hr; [cbn in *; auto|]. cbn [toks_items]. rewrite <- app_assoc.
  destruct i as [d n x|f]; cbn [item_funcs toks_item] in *.
  - apply IH; [exact H|]. intros E. norm2. rewrite dskip_bt by ds. rewrite bt_other by reflexivity. rewrite !dskip_bt by ds. rewrite bt_other by reflexivity. auto.
  - rewrite loose_funcs_snoc in H. rewrite while_funcs_snoc in Hr. apply andb_true_iff in H as [H1 H2]. cbn [orb] in H2. apply IH; [exact H1|]. intros E. rewrite E in *.
    norm2. destruct (cf_function f);
    (rewrite dskip_bt by ds; rewrite !bt_other by reflexivity; rewrite dskip_bt by ds; rewrite !bt_other by reflexivity; rewrite !dskip_bt by ds);
    (apply (proj1 (proj2 loose_toks)); [lia|exact H2|]); intros E2; (rewrite bt_other by reflexivity); auto.
Qed.
Lemma throws_items l : forall r, throws_toks 0 (toks_items l ++ r) = forallb (fun f => throws_block false (cf_body f)) (item_funcs l) && throws_toks 0 r.
Proof.
  induction l as [|l IH i]; intros r; [reflexivity|]. cbn [toks_items]. rewrite <- app_assoc. rewrite IH. 
  destruct i as [d n x|f]; cbn [item_funcs toks_item] in *.
  - f_equal. norm2. rewrite dskip_th by ds. rewrite th_other by reflexivity. rewrite !dskip_th by ds. rewrite th_other by reflexivity. auto.
  - rewrite forallb_app, <- andb_assoc. f_equal. cbn [forallb]. rewrite andb_true_r. norm2. destruct (cf_function f);
    (rewrite dskip_th by ds; rewrite !th_other by reflexivity; rewrite dskip_th by ds; rewrite !th_other by reflexivity; rewrite !dskip_th by ds);
    (rewrite (proj1 (proj2 throws_toks_eq)) by (lia || reflexivity)); (rewrite th_other by reflexivity); reflexivity.
Qed.
Lemma returns_items l : forall r, returns_toks false (toks_items l ++ r) =
  forallb (fun f => returns_block (cf_function f) (cf_body f)) (item_funcs l) && returns_toks false r.
Proof.
  induction l as [|l IH i]; intros r; [reflexivity|]. cbn [toks_items]. rewrite <- app_assoc. rewrite IH. 
  destruct i as [d n x|f]; cbn [item_funcs toks_item] in *.
  - f_equal. norm2. rewrite dskip_rt by ds. rewrite rt_other by reflexivity. rewrite !dskip_rt by ds. rewrite rt_other by reflexivity. auto.
  - rewrite forallb_app, <- andb_assoc. f_equal. cbn [forallb]. rewrite andb_true_r. norm2. rewrite dskip_rt by ds. destruct (cf_function f).
    + rewrite rt_fun, !rt_other by reflexivity. rewrite dskip_rt by ds. rewrite !rt_other by reflexivity. rewrite !dskip_rt by ds.
      rewrite (proj1 (proj2 returns_toks_eq)) by reflexivity. reflexivity.
    + rewrite !rt_other by reflexivity. rewrite dskip_rt by ds. rewrite !rt_other by reflexivity. rewrite !dskip_rt by ds.
      rewrite (proj1 (proj2 returns_toks_eq)) by reflexivity. rewrite rt_other by reflexivity. reflexivity.
Qed.

(** * Layout *)
Definition l_other (t : tk) : bool :=
  negb ((kind_of t =? tFunction) || (kind_of t =? tProcedure) || (kind_of t =? tEndFunction) || (kind_of t =? tEndProcedure) || (kind_of t =? tVar)).
Lemma expr_l_other l : forallb expr_tok l = true -> forallb l_other l = true.
Proof.
  rewrite !forallb_forall. intros H x Hx. specialize (H x Hx). unfold expr_tok in H. apply existsb_exists in H as (k & Hk & E).
  apply Z.eqb_eq in E. unfold l_other. rewrite E. cbn in Hk. repeat (destruct Hk as [<- | Hk]; [reflexivity|]). destruct Hk.
Qed.
Lemma lt_other p s t r : l_other t = true -> layout_toks p s (t :: r) = layout_toks p s r.
Proof.
  unfold l_other. intros H. apply negb_true_iff in H. rewrite !orb_false_iff in H.
  destruct H as [[[[H1 H2] H3] H4] H5]. cbn [layout_toks]. rewrite H1, H2, H3, H4, H5. reflexivity.
Qed.
Lemma lskip p s l r : forallb l_other l = true -> layout_toks p s (l ++ r) = layout_toks p s r.
Proof. induction l as [|t l IH]; intros H; [reflexivity|]. cbn [forallb] in H. apply andb_true_iff in H as [H1 H2]. cbn [app]. rewrite lt_other by exact H1. auto. Qed.
Lemma stmts_l_other :
  (forall s, forallb l_other (toks_stmt s) = true) /\ (forall s, forallb l_other (toks_block s) = true) /\
  (forall s, forallb l_other (toks_elseifs s) = true) /\ (forall s, forallb l_other (toks_else s) = true).
Proof.
  apply stmt_all; intros; norm; repeat (progress (rewrite ?forallb_app; cbn [forallb]));
  rewrite ?(expr_l_other _ (expr_kinds_ok _)), ?(expr_l_other _ (path_kinds_ok _)), ?(expr_l_other _ (loopexp_kinds_ok _)), ?(expr_l_other _ (oexpr_kinds_ok _));
  repeat match goal with H : forallb _ _ = true |- _ => rewrite H end; try (destruct x); reflexivity.
Qed.
Lemma names_l_other l : forallb l_other (toks_names l) = true.
Proof. induction l; [reflexivity|]. cbn [toks_names]. rewrite forallb_app, IHl. reflexivity. Qed.
Lemma param_l_other l : forallb l_other (toks_param l) = true.
Proof.
  induction l; [reflexivity|reflexivity|]. cbn [toks_param]. rewrite forallb_app, IHl. cbn [forallb].
  rewrite expr_l_other by apply expr_kinds_ok. reflexivity.
Qed.
Lemma params_l_other l : forallb l_other (toks_params l) = true.
Proof. induction l; [reflexivity|apply param_l_other|]. cbn [toks_params]. rewrite forallb_app, IHl. cbn [forallb]. rewrite param_l_other. reflexivity. Qed.
Lemma dir_l_other l : forallb l_other (toks_dir l) = true. Proof. destruct l; reflexivity. Qed.
Lemma export_l_other l : forallb l_other (toks_export l) = true. Proof. destruct l; reflexivity. Qed.
Ltac ls := first [apply names_l_other|apply params_l_other|apply dir_l_other|apply export_l_other|apply stmts_l_other].
Lemma vars_layout s v r : layout_toks true s (toks_vars v ++ r) = layout_toks true s r.
Proof.
  revert r. induction v as [|v IH l]; intros r; [reflexivity|]. cbn [toks_vars]. rewrite <- app_assoc, IH.
  repeat (progress (rewrite <- ?app_assoc; cbn [app])). cbn. rewrite lskip by ls. reflexivity.
Qed.
Definition some_funcs (l : items) : bool := match item_funcs l with [] => false | _ => true end.
Lemma layout_items l : forall r, layout_toks false false (toks_items l ++ r) = layout_ok l && layout_toks false (some_funcs l) r.
Proof.
  induction l as [|l IH i]; intros r; [reflexivity|]. cbn [toks_items]. rewrite <- app_assoc. rewrite IH. unfold some_funcs.
  destruct i as [d n x|f]; cbn [item_funcs toks_item layout_ok] in *.
  - rewrite <- andb_assoc. f_equal. norm2. rewrite lskip by ls.
    change (layout_toks ?p ?s (K tVar :: ?r)) with ((p || negb s) && layout_toks p s r). rewrite !lskip by ls. rewrite lt_other by reflexivity.
    destruct (item_funcs l); reflexivity.
  - f_equal. norm2. rewrite lskip by ls.
    match goal with |- layout_toks false ?s _ = _ => generalize s; intros s0 end.
    replace (match item_funcs l ++ [f] with [] => false | _ => true end) with true by (destruct (item_funcs l); reflexivity).
    destruct (cf_function f).
    + change (layout_toks false s0 (K tFunction :: ?r)) with (layout_toks true true r). rewrite !lt_other by reflexivity. rewrite lskip by ls.
      rewrite lt_other by reflexivity. rewrite lskip by ls. rewrite vars_layout, lskip by ls. reflexivity.
    + change (layout_toks false s0 (K tProcedure :: ?r)) with (layout_toks true true r). rewrite !lt_other by reflexivity. rewrite lskip by ls.
      rewrite lt_other by reflexivity. rewrite lskip by ls. rewrite vars_layout, lskip by ls. reflexivity.
Qed.

(** * Whole texts *)
Theorem loose_program p : loose_ok p = true -> breaks_toks 0 (before_while (toks_program p)) = true.
Proof.
  unfold loose_ok. intros H. apply andb_true_iff in H as [H1 H2]. change (bt 0 (toks_program p) = true). unfold toks_program.
  apply loose_items; [exact H1|]. intros E. rewrite E in H2. rewrite <- (app_nil_r (toks_block _)). apply (proj1 (proj2 loose_toks)); [lia|exact H2|reflexivity].
Qed.
Theorem throws_program p : throws_toks 0 (toks_program p) = throws_ok p.
Proof.
  unfold toks_program, throws_ok, each_body. rewrite throws_items, <- (app_nil_r (toks_block _)), (proj1 (proj2 throws_toks_eq)) by (lia || reflexivity).
  rewrite andb_true_r. reflexivity.
Qed.
Theorem returns_program p : returns_toks false (toks_program p) = returns_ok p.
Proof.
  unfold toks_program, returns_ok, each_body. rewrite returns_items, <- (app_nil_r (toks_block _)), (proj1 (proj2 returns_toks_eq)) by reflexivity.
  rewrite andb_true_r. reflexivity.
Qed.
Theorem layout_program p : layout_toks false false (toks_program p) = layout_ok (pr_items p).
Proof. unfold toks_program. rewrite layout_items, <- (app_nil_r (toks_block _)), lskip by ls. rewrite andb_true_r. reflexivity. Qed.

(** * Trees *)
Lemma all_in_slice P l : all_in P (slice_of l) = forallb P l. Proof. destruct l; reflexivity. Qed.
Lemma forallb_rev {A} (P : A -> bool) l : forallb P (rev l) = forallb P l.
Proof. induction l; [reflexivity|]. cbn [rev]. rewrite forallb_app, IHl. cbn. rewrite andb_true_r, andb_comm. reflexivity. Qed.
(** Trees of expressions. *)
Definition plain (s : stmt) : bool :=
  match s with
  | SBreak | SContinue | SIf _ _ _ _ | SLoop _ _ _ _ _ | STry _ _ | SFunc _ _ _ _ _ _ _ | SThrow _ | SReturn _ => false
  | _ => true
  end.
Lemma plain_all : (forall e, plain (mean_expr e) = true) /\ (forall p, plain (mean_path p) = true) /\ (forall i, plain (mean_ident i) = true) /\
  (forall c, plain (mean_new c) = true) /\ (forall l : args, True) /\ (forall o : oexpr, True).
Proof.
  apply expr_all; intros; cbn [mean_expr mean_path mean_ident mean_new]; auto.
  - destruct (mean_expr e); cbn in *; congruence.
  - destruct (mean_expr e); cbn in *; congruence.
Qed.
Lemma plain_expr e : plain (mean_expr e) = true. Proof. apply plain_all. Qed.
Lemma mark_not_nil s : is_nil (mark_not s) = is_nil s. Proof. destruct s; reflexivity. Qed.
Lemma mark_minus_nil s : is_nil (mark_minus s) = is_nil s. Proof. destruct s; reflexivity. Qed.
Lemma means_nn :
  (forall e, is_nil (mean_expr e) = false) /\ (forall p, is_nil (mean_path p) = false) /\ (forall i, is_nil (mean_ident i) = false) /\
  (forall c, is_nil (mean_new c) = false) /\ (forall l : args, True) /\ (forall o, is_nil (mean_oexpr o) = match o with ONone => true | _ => false end).
Proof.
  apply expr_all; intros; cbn [mean_expr mean_path mean_ident mean_new mean_oexpr]; rewrite ?mark_not_nil, ?mark_minus_nil; auto.
Qed.
Lemma mean_expr_nn e : is_nil (mean_expr e) = false. Proof. apply means_nn. Qed.
Lemma mean_oexpr_nil o : is_nil (mean_oexpr o) = match o with ONone => true | _ => false end. Proof. apply means_nn. Qed.
Ltac trees := cbn [all_in forallb]; rewrite ?all_in_slice, ?forallb_rev, ?forallb_app; cbn [forallb]; rewrite ?andb_true_r, ?andb_assoc.
Lemma breaks_trees :
  (forall s l, breaks_tree l (mean_stmt s) = breaks_stmt l s) /\ (forall s l, forallb (breaks_tree l) (mean_block s) = breaks_block l s) /\
  (forall s l, forallb (breaks_tree l) (mean_elseifs s) = breaks_elseifs l s) /\ (forall s l, all_in (breaks_tree l) (mean_else s) = breaks_else l s).
Proof.
  apply stmt_all; intros;
  cbn [mean_stmt mean_block mean_elseifs mean_else breaks_tree breaks_stmt breaks_block breaks_elseifs breaks_else]; trees;
  repeat match goal with H : forall l, _ = _ |- _ => rewrite !H; clear H end; rewrite ?andb_true_r; try reflexivity.
  - pose proof (plain_expr e). destruct (mean_expr e); cbn in *; congruence.
  - cbn [breaks_tree]. trees. rewrite H. reflexivity.
Qed.
Lemma throws_trees :
  (forall s l, throws_tree l (mean_stmt s) = throws_stmt l s) /\ (forall s l, forallb (throws_tree l) (mean_block s) = throws_block l s) /\
  (forall s l, forallb (throws_tree l) (mean_elseifs s) = throws_elseifs l s) /\ (forall s l, all_in (throws_tree l) (mean_else s) = throws_else l s).
Proof.
  apply stmt_all; intros;
  cbn [mean_stmt mean_block mean_elseifs mean_else throws_tree throws_stmt throws_block throws_elseifs throws_else]; trees;
  repeat match goal with H : forall l, _ = _ |- _ => rewrite !H; clear H end; rewrite ?andb_true_r; try reflexivity.
  - pose proof (plain_expr e). destruct (mean_expr e); cbn in *; congruence.
  - destruct o; [reflexivity|]. cbn [mean_oexpr]. pose proof (mean_expr_nn e). destruct (mean_expr e); try discriminate; reflexivity.
  - cbn [throws_tree]. trees. rewrite H. reflexivity.
Qed.
Lemma returns_trees :
  (forall s l, returns_tree l (mean_stmt s) = returns_stmt l s) /\ (forall s l, forallb (returns_tree l) (mean_block s) = returns_block l s) /\
  (forall s l, forallb (returns_tree l) (mean_elseifs s) = returns_elseifs l s) /\ (forall s l, all_in (returns_tree l) (mean_else s) = returns_else l s).
Proof.
  apply stmt_all; intros;
  cbn [mean_stmt mean_block mean_elseifs mean_else returns_tree returns_stmt returns_block returns_elseifs returns_else]; trees;
  repeat match goal with H : forall l, _ = _ |- _ => rewrite !H; clear H end; rewrite ?andb_true_r; try reflexivity.
  - pose proof (plain_expr e). destruct (mean_expr e); cbn in *; congruence.
  - destruct o; [reflexivity|]. cbn [mean_oexpr]. pose proof (mean_expr_nn e). destruct (mean_expr e); try discriminate; reflexivity.
  - cbn [returns_tree]. trees. rewrite H. reflexivity.
Qed.
Definition module_all (P : stmt -> bool) (m : module) : bool := all_in P (m_body m).
Lemma body_elems p : m_body (mean_program p) = slice_of (map mean_func (item_funcs (pr_items p)) ++ mean_block (pr_body p)).
Proof. reflexivity. Qed.
Lemma forallb_map {A C} (f : A -> C) P l : forallb P (map f l) = forallb (fun x => P (f x)) l.
Proof. induction l; [reflexivity|]. cbn. rewrite IHl. reflexivity. Qed.
Lemma forallb_ext {A} (P Q : A -> bool) l : (forall x, P x = Q x) -> forallb P l = forallb Q l.
Proof. intros H. induction l; [reflexivity|]. cbn. rewrite H, IHl. reflexivity. Qed.
Theorem breaks_module p : module_all (breaks_tree false) (mean_program p) = breaks_ok p.
Proof.
  unfold module_all. rewrite body_elems, all_in_slice, forallb_app, forallb_map, (proj1 (proj2 breaks_trees)). unfold breaks_ok, each_body. f_equal.
  apply forallb_ext. intros f. cbn. rewrite all_in_slice. apply breaks_trees.
Qed.
Theorem throws_module p : module_all (throws_tree false) (mean_program p) = throws_ok p.
Proof.
  unfold module_all. rewrite body_elems, all_in_slice, forallb_app, forallb_map, (proj1 (proj2 throws_trees)). unfold throws_ok, each_body. f_equal.
  apply forallb_ext. intros f. cbn. rewrite all_in_slice. apply throws_trees.
Qed.
Theorem returns_module p : module_all (returns_tree false) (mean_program p) = returns_ok p.
Proof.
  unfold module_all. rewrite body_elems, all_in_slice, forallb_app, forallb_map, (proj1 (proj2 returns_trees)). unfold returns_ok, each_body. f_equal.
  apply forallb_ext. intros f. cbn. rewrite all_in_slice. destruct (cf_function f); apply returns_trees.
Qed.

(** Without Пока the enforced rule is the right one. *)
Lemma loose_breaks :
  (forall s l, while_stmt s = false -> loose_stmt l s = breaks_stmt l s) /\ (forall s l, while_block s = false -> loose_block l s = breaks_block l s) /\
  (forall s l, while_elseifs s = false -> loose_elseifs l s = breaks_elseifs l s) /\ (forall s l, while_else s = false -> loose_else l s = breaks_else l s).
Proof.
  apply stmt_all; intros;
  cbn [while_stmt while_block while_elseifs while_else loose_stmt loose_block loose_elseifs loose_else breaks_stmt breaks_block breaks_elseifs breaks_else] in *;
  rewrite ?orb_false_iff in *; try reflexivity; try discriminate;
  repeat match goal with H : _ /\ _ |- _ => destruct H end;
  repeat match goal with H : while_block _ = false |- _ => rewrite H in * | H : while_elseifs _ = false |- _ => rewrite H in *
    | H : while_stmt _ = false |- _ => rewrite H in * | H : while_else _ = false |- _ => rewrite H in * end;
  rewrite ?orb_false_r;
  repeat match goal with H : forall l, _ -> _ = _ |- _ => rewrite H by reflexivity; clear H end; reflexivity.
Qed.
Lemma while_in :
  (forall s, while_stmt s = true -> In (K tWhile) (toks_stmt s)) /\ (forall s, while_block s = true -> In (K tWhile) (toks_block s)) /\
  (forall s, while_elseifs s = true -> In (K tWhile) (toks_elseifs s)) /\ (forall s, while_else s = true -> In (K tWhile) (toks_else s)).
Proof.
  apply stmt_all; cbn [while_stmt while_block while_elseifs while_else]; try discriminate; intros; norm;
  rewrite ?orb_true_iff in *; repeat (progress (rewrite ?in_app_iff; cbn [In]));
  repeat match goal with H : _ -> In _ _ |- _ => revert H end; intros; try tauto.
Qed.
Lemma in_items f l : In f (item_funcs l) -> forall t, In t (toks_block (cf_body f)) -> In t (toks_items l).
Proof.
  induction l as [|l IH i]; cbn [item_funcs toks_items]; [contradiction|]. intros H t Ht. apply in_or_app.
  destruct i as [|g]; [left; auto|]. apply in_app_or in H as [H | [-> | []]]; [left; auto|right]. cbn [toks_item]. unfold toks_func.
  rewrite in_app_iff. cbn [In]. rewrite !in_app_iff. cbn [In]. rewrite !in_app_iff. tauto.
Qed.
Lemma while_funcs_in l : while_funcs l = true -> exists f, In f l /\ while_block (cf_body f) = true.
Proof.
  induction l as [|f l IH]; [discriminate|]. cbn [while_funcs]. intros H. apply orb_true_iff in H as [H | H]; [exists f; cbn; auto|].
  destruct (IH H) as (g & G1 & G2). exists g. cbn. auto.
Qed.
Lemma no_while_toks p : ~ In (K tWhile) (toks_program p) -> no_while p = true.
Proof.
  intros H. unfold no_while. apply andb_true_intro. unfold toks_program in H. rewrite in_app_iff in H. split; apply negb_true_iff.
  - destruct (while_funcs _) eqn:E; [|reflexivity]. destruct H. left. apply while_funcs_in in E as (f & F1 & F2).
    apply (in_items f _ F1). apply while_in, F2.
  - destruct (while_block _) eqn:E; [|reflexivity]. destruct H. right. apply while_in, E.
Qed.
Lemma loose_funcs_breaks l : while_funcs l = false -> loose_funcs false l = forallb (fun f => breaks_block false (cf_body f)) l.
Proof.
  induction l as [|f l IH]; [reflexivity|]. cbn [while_funcs loose_funcs forallb]. intros H. apply orb_false_iff in H as [H1 H2].
  rewrite H1. cbn [orb]. rewrite IH by exact H2. f_equal. apply loose_breaks, H1.
Qed.
Lemma loose_breaks_ok p : no_while p = true -> loose_ok p = breaks_ok p.
Proof.
  unfold no_while, loose_ok, breaks_ok, each_body. intros H. apply andb_true_iff in H as [H1 H2]. apply negb_true_iff in H1, H2.
  rewrite H1, loose_funcs_breaks by exact H1. f_equal. apply loose_breaks, H2.
Qed.

(** * Calls are written down *)
Lemma name_count_app l r : name_count (l ++ r) = (name_count l + name_count r)%nat.
Proof. unfold name_count. rewrite filter_app, app_length. reflexivity. Qed.
Lemma name_count_cons t r : name_count (t :: r) = ((if is_name t then 1 else 0) + name_count r)%nat.
Proof. unfold name_count. cbn [filter]. destruct (is_name t); reflexivity. Qed.
Lemma calls_not s : calls (mark_not s) = calls s. Proof. destruct s; reflexivity. Qed.
Lemma calls_minus s : calls (mark_minus s) = calls s. Proof. destruct s; reflexivity. Qed.
Definition sum (l : list stmt) : nat := list_sum (map calls l).
Lemma sum_app l r : sum (l ++ r) = (sum l + sum r)%nat. Proof. unfold sum. rewrite map_app, list_sum_app. reflexivity. Qed.
Lemma sum_cons x r : sum (x :: r) = (calls x + sum r)%nat. Proof. reflexivity. Qed.
Lemma sum_rev l : sum (rev l) = sum l. Proof. induction l; [reflexivity|]. cbn [rev]. rewrite sum_app, IHl, !sum_cons. change (sum []) with O. lia. Qed.
Lemma sum_slice l : match slice_of l with None => O | Some x => list_sum (map calls x) end = sum l. Proof. destruct l; reflexivity. Qed.
Ltac counts := repeat (progress (rewrite ?name_count_app, ?name_count_cons; cbn [is_name Pct])); change (name_count []) with O.
Lemma calls_exprs :
  (forall e, (calls (mean_expr e) <= name_count (toks_expr e))%nat) /\ (forall e, (calls (mean_path e) <= name_count (toks_path e))%nat) /\
  (forall e, (calls (mean_ident e) <= name_count (toks_ident e))%nat) /\ (forall e, (calls (mean_new e) <= name_count (toks_new e))%nat) /\
  (forall e, (sum (mean_args e) <= name_count (toks_args e))%nat) /\ (forall e, (calls (mean_oexpr e) <= name_count (toks_oexpr e))%nat).
Proof.
  apply expr_all; intros; cbn [mean_expr mean_path mean_ident mean_new mean_args mean_oexpr toks_expr toks_path toks_ident toks_new toks_args toks_oexpr];
  rewrite ?calls_not, ?calls_minus, ?sum_app; cbn [calls]; repeat change (list_sum (map calls ?x)) with (sum x); rewrite ?sum_cons;
  change (sum []) with O; cbn [calls]; counts; lia.
Qed.
Lemma calls_e e : (calls (mean_expr e) <= name_count (toks_expr e))%nat. Proof. apply calls_exprs. Qed.
Lemma calls_p e : (calls (mean_path e) <= name_count (toks_path e))%nat. Proof. apply calls_exprs. Qed.
Lemma calls_o e : (calls (mean_oexpr e) <= name_count (toks_oexpr e))%nat. Proof. apply calls_exprs. Qed.
Lemma calls_n e : (calls (mean_new e) <= name_count (toks_new e))%nat. Proof. apply calls_exprs. Qed.
Lemma calls_l e : (calls (mean_loopexp e) <= name_count (toks_loopexp e))%nat.
Proof.
  destruct e; cbn [mean_loopexp toks_loopexp]; [apply calls_p|apply calls_n| |exact (calls_e (ETern c t f))].
  counts. pose proof (calls_n c). lia.
Qed.
Lemma calls_stmts :
  (forall s, (calls (mean_stmt s) <= name_count (toks_stmt s))%nat) /\ (forall s, (sum (mean_block s) <= name_count (toks_block s))%nat) /\
  (forall s, (sum (mean_elseifs s) <= name_count (toks_elseifs s))%nat) /\
  (forall s, (match mean_else s with None => O | Some x => list_sum (map calls x) end <= name_count (toks_else s))%nat).
Proof.
  apply stmt_all; intros; cbn [mean_stmt mean_block mean_elseifs mean_else]; norm; rewrite ?sum_app, ?sum_cons; cbn [calls];
  rewrite ?sum_slice; repeat change (list_sum (map calls ?x)) with (sum x); rewrite ?sum_rev, ?sum_cons; change (sum []) with O;
  counts;
  repeat match goal with
  | |- context [calls (mean_expr ?e)] => pose proof (calls_e e); generalize dependent (calls (mean_expr e)); intros
  | |- context [calls (mean_path ?e)] => pose proof (calls_p e); generalize dependent (calls (mean_path e)); intros
  | |- context [calls (mean_oexpr ?e)] => pose proof (calls_o e); generalize dependent (calls (mean_oexpr e)); intros
  | |- context [calls (mean_loopexp ?e)] => pose proof (calls_l e); generalize dependent (calls (mean_loopexp e)); intros
  end; unfold sum in *; lia.
Qed.
Lemma calls_param p : (calls (fst (fst (mean_param p))) <= name_count (toks_param p))%nat.
Proof.
  induction p; cbn [mean_param toks_param]; [cbn; lia|cbn; lia|]. destruct (mean_param p) as [[x n] b]. cbn [fst] in *. counts. pose proof (calls_e e). lia.
Qed.
Lemma calls_params l : (list_sum (map (fun p => calls (fst (fst p))) (mean_params l)) <= name_count (toks_params l))%nat.
Proof.
  induction l; cbn [mean_params toks_params]; [cbn; lia| |].
  - cbn [map list_sum fold_right]. pose proof (calls_param p). lia.
  - rewrite map_app, list_sum_app. cbn [map].
    assert (E : list_sum [calls (fst (fst (mean_param p)))] = calls (fst (fst (mean_param p)))) by (unfold list_sum; cbn [fold_right]; lia).
    rewrite E. counts. eapply Nat.le_trans; [apply Nat.add_le_mono; [exact IHl|apply calls_param]|lia].
Qed.
Lemma calls_func f : (calls (mean_func f) <= name_count (toks_func f))%nat.
Proof.
  unfold mean_func, mean_func_with, toks_func. cbn [calls]. rewrite sum_slice. counts.
  pose proof (proj1 (proj2 calls_stmts) (cf_body f)). pose proof (calls_params (cf_params f)). lia.
Qed.
Lemma calls_items l : (sum (map mean_func (item_funcs l)) <= name_count (toks_items l))%nat.
Proof.
  induction l as [|l IH i]; [cbn; lia|]. cbn [toks_items]. destruct i as [|f]; cbn [item_funcs toks_item].
  - counts. lia.
  - rewrite map_app, sum_app. cbn [map]. rewrite sum_cons. change (sum []) with O. counts. pose proof (calls_func f). lia.
Qed.
Theorem calls_program p : (calls_module (mean_program p) <= name_count (toks_program p))%nat.
Proof.
  unfold calls_module. rewrite body_elems. unfold toks_program. counts.
  match goal with |- context [elems (slice_of ?x)] => replace (elems (slice_of x)) with x by (destruct x; reflexivity) end.
  match goal with |- (list_sum (map calls ?x) <= _)%nat => change (list_sum (map calls x)) with (sum x) end. rewrite sum_app.
  pose proof (calls_items (pr_items p)). pose proof (proj1 (proj2 calls_stmts) (pr_body p)). lia.
Qed.
