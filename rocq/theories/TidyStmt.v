(** Printed statements read back, whatever they are. *)
From Verif Require Import Bytes Utf8 UnicodeTables Float64 GoTime Ast Lexer LexFacts Utf8Facts LexSpec LexProofs LexTrivia
  LexTokens LexStrings NumSpec NumProofs NumTokens Tok Syntax Levels RulesFacts StmtInd Parser Printer PrintInv Properties_Literals Writes PrintToks Driver SpellInv
  Legal Survive Strip Back BackMade BackStmt Tidy TidyExpr.
Open Scope Z_scope.

Lemma tidy_source e m v rest : place m v -> nk false (toks_expr e ++ rest) -> written (mean_expr e) = true -> built (mean_expr e) ->
  exists e', good m v (mean_expr e) e'.
Proof. intros Hp Hn Hl Hb. apply made_all in Hn as [Hm _]. destruct (tidy_all (mean_expr e)) as (_ & _ & H). exact (H m v Hp Hm Hl Hb). Qed.
Lemma tidy_bare s v : bare s -> tidy v s = tidy true s.
Proof. destruct s; cbn [bare]; intros H; try contradiction; subst; destruct v; reflexivity. Qed.
Lemma tidy_source_path p v rest : nk false (toks_path p ++ rest) -> written (mean_path p) = true -> built (mean_path p) ->
  exists p', (forall m, toks_path p' = pt false m (mean_path p)) /\ strip (mean_path p') = strip (tidy v (mean_path p)) /\ bound_path p' = true.
Proof.
  intros Hn Hl Hb. apply made_all in Hn as [[Hm Hr] _]. rewrite tidy_bare by exact Hr. destruct (tidy_all (mean_path p)) as (_ & H & _).
  destruct (H Hm Hr Hl Hb) as (p' & P1 & P2 & P3). exists p'. split; [|auto]. intros m. rewrite P1. symmetry. apply pt_bare, Hr.
Qed.
Lemma tidy_source_new c rest : nk false (toks_new c ++ rest) -> written (mean_new c) = true -> built (mean_new c) ->
  exists c', toks_new c' = pt false (ME 0) (mean_new c) /\ strip (mean_new c') = strip (tidy false (mean_new c)) /\ bound_new c' = true.
Proof.
  intros Hn Hl Hb. apply made_all in Hn as [Hm _].
  assert (F : forall l : list stmt, Forall tidy_expr l) by (intros l; apply Forall_forall; intros x _; apply tidy_all).
  destruct (mean_new c) as [| | | | | | | | | |n ps g| | | | | | | | | | | | | |] eqn:Ec; try (destruct c; discriminate Ec).
  inversion Hm; subst.
  - exists (NewCall n (AOne ONone)). split; [|split; reflexivity]. destruct n as [|b n]; [congruence|].
    cbn [toks_new toks_args toks_oexpr pt map tjoin app]. match goal with H : word_tk false _ = _ |- _ => rewrite H end. reflexivity.
  - destruct (tidy_args l) as (a & A1 & A2 & A3); try assumption; try apply F.
    { apply built_inv in Hb. apply Hb. }
    assert (D : n = [] \/ exists b n', n = b :: n') by (destruct n; eauto). destruct D as [->|(b & n' & En)].
    + exists (NewArgs a). cbn [toks_new pt app mean_new strip tidy]. rewrite A1, A2. repeat split. exact A3.
    + match goal with H : _ \/ word_tk _ _ = _ |- _ => rename H into H0 end. destruct H0 as [->|H0]; [discriminate|]. exists (NewCall n a). split; [|cbn [mean_new strip tidy]; rewrite A2; split; [reflexivity|exact A3]].
      subst n. cbn [toks_new pt app]. rewrite A1, H0. reflexivity.
Qed.
Lemma tidy_source_loop l rest : nk false (toks_loopexp l ++ rest) -> written (mean_loopexp l) = true -> built (mean_loopexp l) ->
  exists l', toks_loopexp l' = pt false (ME 0) (mean_loopexp l) /\ strip (mean_loopexp l') = strip (tidy false (mean_loopexp l)) /\ bound_loopexp l' = true.
Proof.
  destruct l as [p|c|c|c t f]; cbn [toks_loopexp mean_loopexp]; intros Hn Hl Hb.
  - destruct (tidy_source_path _ false _ Hn Hl Hb) as (p' & P1 & P2 & P3). exists (LPath p'). auto.
  - destruct (tidy_source_new _ _ Hn Hl Hb) as (p' & P1 & P2 & P3). exists (LNew p'). auto.
  - cbn [app nk] in Hn. destruct Hn as [_ Hn]. rewrite <- app_assoc in Hn.
    destruct (tidy_source_new _ _ Hn Hl Hb) as (p' & P1 & P2 & P3). exists (LNew p'). auto.
  - cbn [written] in Hl. apply andb_true_iff in Hl as [Hl L3]. apply andb_true_iff in Hl as [L1 L2].
    cbn [toks_expr app nk] in Hn. destruct Hn as [_ [_ Hn]]. repeat (rewrite <- app_assoc in Hn || cbn [app] in Hn).
    assert (N1 := proj2 (proj1 made_all _ _ Hn)). destruct N1 as [_ N1]. assert (N2 := proj2 (proj1 made_all _ _ N1)). destruct N2 as [_ N2].
    assert (B1 : built (mean_expr c)) by (apply (parts_built _ _ Hb); left; reflexivity).
    assert (B2 : built (mean_expr t)) by (apply (parts_built _ _ Hb); right; left; reflexivity).
    assert (B3 : built (mean_expr f)) by (apply (parts_built _ _ Hb); right; right; left; reflexivity).
    destruct (tidy_source _ (ME 0) false _ eq_refl Hn L1 B1) as (e1 & E1 & F1 & G1 & _).
    destruct (tidy_source _ (ME 0) false _ eq_refl N1 L2 B2) as (e2 & E2 & F2 & G2 & _).
    destruct (tidy_source _ (ME 0) false _ eq_refl N2 L3 B3) as (e3 & E3 & F3 & G3 & _).
    exists (LTern e1 e2 e3). cbn [toks_loopexp toks_expr mean_loopexp strip tidy bound_loopexp pt]. rewrite E1, E2, E3, F1, F2, F3, G1, G2, G3. repeat split.
Qed.

(** * Statements *)
Definition kept_stmt (c c' : cstmt) : Prop :=
  (forall l, breaks_stmt l c' = breaks_stmt l c) /\ (forall h, throws_stmt h c' = throws_stmt h c) /\ (forall f, returns_stmt f c' = returns_stmt f c).
Definition kept_block (c c' : block) : Prop :=
  (forall l, breaks_block l c' = breaks_block l c) /\ (forall h, throws_block h c' = throws_block h c) /\ (forall f, returns_block f c' = returns_block f c).
Definition kept_elseifs (c c' : elseifs) : Prop :=
  (forall l, breaks_elseifs l c' = breaks_elseifs l c) /\ (forall h, throws_elseifs h c' = throws_elseifs h c) /\ (forall f, returns_elseifs f c' = returns_elseifs f c).
Definition kept_else (c c' : celse) : Prop :=
  (forall l, breaks_else l c' = breaks_else l c) /\ (forall h, throws_else h c' = throws_else h c) /\ (forall f, returns_else f c' = returns_else f c).

Definition tidy_cstmt (c : cstmt) : Prop := forall rest, nk false (toks_stmt c ++ rest) -> nk false rest /\
  (written_stmt (mean_stmt c) = true -> built (mean_stmt c) -> exists c' x,
    toks_stmt c' ++ [toks_sep x] = itoks (mean_stmt c) /\ strip (mean_stmt c') = strip (tidy_stmt (mean_stmt c)) /\ sep_for x c' /\
    bound_stmt c' = true /\ clean_stmt c' = true /\ sure_stmt c' = true /\ kept_stmt c c').
Definition tidy_cblock (b : block) : Prop := forall rest, nk false (toks_block b ++ rest) -> nk false rest /\
  (forallb written_stmt (mean_block b) = true -> Forall built (mean_block b) -> exists b',
    ends_sep b' /\ toks_block b' = flat_map itoks (mean_block b) /\ map strip (mean_block b') = map strip (map tidy_stmt (mean_block b)) /\
    bound_block b' = true /\ clean_block b' = true /\ sure_block b' = true /\ kept_block b b').
(** The branches come back in the opposite order. *)
Definition tidy_celseifs (l : elseifs) : Prop := forall rest, nk false (toks_elseifs l ++ rest) -> nk false rest /\
  (forallb written_stmt (mean_elseifs l) = true -> Forall built (mean_elseifs l) -> exists l',
    toks_elseifs l' = flat_map branch_toks (rev (mean_elseifs l)) /\ map strip (mean_elseifs l') = map strip (map tidy_stmt (rev (mean_elseifs l))) /\
    bound_elseifs l' = true /\ clean_elseifs l' = true /\ sure_elseifs l' = true /\ kept_elseifs l l').
Definition tidy_celse (c : celse) : Prop := forall rest, nk false (toks_else c ++ rest) -> nk false rest /\
  (forallb written_stmt (elems (mean_else c)) = true -> Forall built (elems (mean_else c)) -> exists c',
    toks_else c' = match mean_else c with None => [] | Some _ => K tElse :: btoks (mean_else c) end /\ strips (mean_else c') = strips (tidy_block (mean_else c)) /\
    bound_else c' = true /\ clean_else c' = true /\ sure_else c' = true /\ kept_else c c').

Lemma strips_tidy l l' : map strip l = map strip (map tidy_stmt l') -> strips (slice_of l) = strips (tidy_block (slice_of l')).
Proof. destruct l, l'; cbn; try discriminate; auto. intros H. rewrite H. reflexivity. Qed.

Lemma put_stmt b0 c' x : ends_sep b0 -> bound_block b0 = true -> clean_block b0 = true -> sure_block b0 = true ->
  sep_for x c' -> bound_stmt c' = true -> clean_stmt c' = true -> sure_stmt c' = true ->
  exists b', ends_sep b' /\ toks_block b' = toks_block b0 ++ toks_stmt c' ++ [toks_sep x] /\ mean_block b' = mean_block b0 ++ [mean_stmt c'] /\
    bound_block b' = true /\ clean_block b' = true /\ sure_block b' = true /\
    (forall l, breaks_block l b' = breaks_block l b0 && breaks_stmt l c') /\
    (forall h, throws_block h b' = throws_block h b0 && throws_stmt h c') /\ (forall f, returns_block f b' = returns_block f b0 && returns_stmt f c').
Proof.
  intros He Hb Hc Hs Hx B C S.
  assert (Hx' : forall b, sure_sep x b = true \/ (clean_block b = true -> last (mean_block b) SNil = mean_stmt c' -> mean_block b <> [] -> sure_sep x b = true)).
  { intros b. destruct Hx as [->|(n & -> & E)]; [left; reflexivity|]. right. intros Hcl Hl Hn. unfold sure_sep, colon_ok. rewrite Hcl.
    destruct (mean_block b) as [|y l]; [congruence|]. rewrite Hl, E. reflexivity. }
  destruct b0 as [| |b1 y|]; try destruct He.
  - exists (BSkip (BOne c') x). cbn [ends_sep toks_block mean_block bound_block clean_block sure_block breaks_block throws_block returns_block app].
    rewrite B, C, S. repeat split; auto.
    destruct (Hx' (BOne c')) as [E|E]; [rewrite E; reflexivity|]. rewrite E; auto. discriminate.
  - exists (BSkip (BSnoc b1 y c') x). cbn [ends_sep toks_block mean_block bound_block clean_block sure_block breaks_block throws_block returns_block app] in *.
    apply andb_true_iff in Hs as [Hs1 Hs2]. rewrite Hb, B, Hs1, Hs2, S.
    assert (Cl : clean_block (BSnoc b1 y c') = true) by (cbn [clean_block]; destruct b1; [discriminate|rewrite Hc, C; reflexivity..]).
    repeat split; auto.
    + rewrite <- !app_assoc. reflexivity.
    + destruct (Hx' (BSnoc b1 y c')) as [E|E]; [rewrite E; reflexivity|]. rewrite E; auto; cbn [mean_block]; [apply last_last|]. destruct (mean_block b1); discriminate.
Qed.
(** A branch behind the others. *)
Fixpoint add_branch (l : elseifs) (e : expr) (b : block) : elseifs :=
  match l with EINil => EICons e b EINil | EICons e0 b0 l => EICons e0 b0 (add_branch l e b) end.
Lemma add_branch_facts l e b :
  toks_elseifs (add_branch l e b) = toks_elseifs l ++ K tElseIf :: toks_expr e ++ K tThen :: toks_block b /\
  mean_elseifs (add_branch l e b) = mean_elseifs l ++ [SIf (mean_expr e) (slice_of (mean_block b)) None None] /\
  bound_elseifs (add_branch l e b) = bound_elseifs l && (bound e && bound_block b) /\
  clean_elseifs (add_branch l e b) = clean_elseifs l && clean_block b /\ sure_elseifs (add_branch l e b) = sure_elseifs l && sure_block b /\
  (forall z, breaks_elseifs z (add_branch l e b) = breaks_elseifs z l && breaks_block z b) /\
  (forall z, throws_elseifs z (add_branch l e b) = throws_elseifs z l && throws_block z b) /\
  (forall z, returns_elseifs z (add_branch l e b) = returns_elseifs z l && returns_block z b).
Proof.
  induction l as [|e0 b0 l (I1 & I2 & I3 & I4 & I5 & I6 & I7 & I8)];
  cbn [add_branch toks_elseifs mean_elseifs bound_elseifs clean_elseifs sure_elseifs breaks_elseifs throws_elseifs returns_elseifs app andb].
  - rewrite ?app_nil_r, ?andb_true_r. repeat split; intros; rewrite ?andb_true_r; reflexivity.
  - rewrite I1, I2, I3, I4, I5. repeat (rewrite <- ?app_assoc; cbn [app]). rewrite ?andb_assoc. repeat split; intros; rewrite ?I6, ?I7, ?I8, ?andb_assoc; reflexivity.
Qed.

Lemma tidy_cexpr e rest : nk false (toks_expr e ++ rest) -> written_stmt (mean_expr e) = true -> built (mean_expr e) -> exists c x,
  toks_stmt c ++ [toks_sep x] = itoks (mean_expr e) /\ strip (mean_stmt c) = strip (tidy_stmt (mean_expr e)) /\ sep_for x c /\
  bound_stmt c = true /\ clean_stmt c = true /\ sure_stmt c = true /\ kept_stmt (CExpr e) c.
Proof.
  intros Hn Hl Hb.
  assert (G : forall m v, place m v -> ~ nested m -> written (mean_expr e) = true -> itoks (mean_expr e) = pt false m (mean_expr e) ++ [Pct ";"] ->
    strip (tidy_stmt (mean_expr e)) = strip (if equation (mean_expr e) then assigned (tidy v (mean_expr e)) else tidy v (mean_expr e)) ->
    exists c x, toks_stmt c ++ [toks_sep x] = itoks (mean_expr e) /\ strip (mean_stmt c) = strip (tidy_stmt (mean_expr e)) /\ sep_for x c /\
    bound_stmt c = true /\ clean_stmt c = true /\ sure_stmt c = true /\ kept_stmt (CExpr e) c).
  { intros m v Hp Hm Hv Hi Ht. destruct (tidy_source e m v rest Hp Hn Hv Hb) as (e' & E1 & E2 & E3 & _ & _ & E6 & E7 & _). destruct (equation (mean_expr e)).
    - destruct (E7 eq_refl Hm) as (p & r & -> & T). exists (CAssign p r), Semi. rewrite Hi, <- E1, Ht, <- T. cbn [bound] in E3.
      apply andb_true_iff in E3 as [E3 E5]. apply andb_true_iff in E3 as [_ E4]. cbn [bound_stmt mean_stmt]. rewrite E4, E5. repeat split. left; reflexivity.
    - exists (CExpr e'), Semi. rewrite Hi, Ht, <- E1, <- E2. cbn [bound_stmt]. rewrite E3, E6 by reflexivity. repeat split. left; reflexivity. }
  pose proof (proj1 (proj1 made_all _ _ Hn)) as Hm.
  destruct (mean_expr e) as [|w|f|b|t| |n fl|n ps g fl|i o|u c fl|n ps g|x y z|o l r fl|ps fl| | | | | | | | |l|n|] eqn:Es; try (inversion Hm; fail);
  try (apply (G MV true); [reflexivity|intros []|exact Hl|reflexivity|reflexivity]).
  - destruct (tidy_all (SChain u c no_flags)) as (_ & H & _).
    assert (Hm' : made false (SChain u c no_flags)) by (inversion Hm; subst; constructor; auto).
    assert (Hb' : built (SChain u c no_flags)) by (apply built_inv in Hb; constructor; apply Hb).
    destruct (H Hm' eq_refl Hl Hb') as (p & P1 & P2 & P3). exists (CExpr (EPath p)), Semi. cbn [toks_stmt toks_expr mean_stmt mean_expr bound_stmt bound no_assign itoks].
    rewrite P1, P2, P3. repeat split. left; reflexivity.
  - inversion Hm; subst. exists (CExpr (EGoto n)), Semi. repeat split. left; reflexivity.
  - exists (CExpr (ELabel n)), Colon. repeat split. right. exists n. split; reflexivity.
Qed.

Lemma written_if e tb eib eb : written_stmt (SIf e tb eib eb) = written e && forallb written_stmt (elems tb) && forallb written_stmt (elems eib) && forallb written_stmt (elems eb).
Proof. destruct tb, eib, eb; reflexivity. Qed.
Lemma written_try b c : written_stmt (STry b c) = forallb written_stmt (elems b) && forallb written_stmt (elems c). Proof. destruct b, c; reflexivity. Qed.
Lemma written_loop a b c d e : written_stmt (SLoop a b c d e) = may_written a && may_written b && may_written c && may_written d && forallb written_stmt (elems e). Proof. destruct e; reflexivity. Qed.
Lemma may_made s : made false s -> may_written s = true -> written s = true.
Proof. intros H. unfold may_written. rewrite (made_not_nil _ _ H). auto. Qed.
Lemma tidy_stmt_if e tb eib eb : tidy_stmt (SIf e tb eib eb) = SIf (tidy false e) (tidy_block tb) (match eib with Some l => Some (rev (map tidy_stmt l)) | None => None end) (tidy_block eb).
Proof. reflexivity. Qed.
Lemma tidy_stmt_try a b : tidy_stmt (STry a b) = STry (tidy_block a) (tidy_block b). Proof. reflexivity. Qed.
Lemma tidy_stmt_loop a b c d e : tidy_stmt (SLoop a b c d e) = SLoop (tidy false a) (tidy false b) (tidy false c) (tidy false d) (tidy_block e). Proof. reflexivity. Qed.

Lemma tidy_stmts : (forall c, tidy_cstmt c) /\ (forall b, tidy_cblock b) /\ (forall l, tidy_celseifs l) /\ (forall c, tidy_celse c).
Proof.
  apply stmt_all.
  - (* assignment *)
    intros p e rest Hn. cbn [toks_stmt] in Hn. flat Hn. pose proof (nk_path _ _ Hn) as N1. apply nk_cons in N1; [|reflexivity]. split; [exact (nk_expr _ _ N1)|].
    cbn [mean_stmt written_stmt]. intros Hl Hb. apply andb_true_iff in Hl as [L1 L2].
    assert (B1 : built (mean_path p)) by (apply (parts_built _ _ Hb); left; reflexivity).
    assert (B2 : built (mean_expr e)) by (apply (parts_built _ _ Hb); right; left; reflexivity).
    destruct (tidy_source_path _ true _ Hn L1 B1) as (p' & P1 & P2 & P3).
    destruct (tidy_source _ (ME 0) false _ eq_refl N1 L2 B2) as (e' & E1 & E2 & E3 & _).
    exists (CAssign p' e'), Semi. cbn [toks_stmt mean_stmt strip tidy_stmt map itoks pt tnot topen tclose fl_not no_flags app concat bound_stmt].
    rewrite (P1 MV), E1, P2, E2, P3, E3, !app_nil_r. repeat split. left; reflexivity.
  - (* expression *)
    intros e rest Hn. cbn [toks_stmt] in Hn. split; [exact (nk_expr _ _ Hn)|]. cbn [mean_stmt]. intros Hl Hb. exact (tidy_cexpr _ _ Hn Hl Hb).
  - (* Если *)
    intros e b IHb l IHl c IHc rest Hn. cbn [toks_stmt] in Hn. flat Hn. apply nk_cons in Hn; [|reflexivity].
    pose proof (nk_expr _ _ Hn) as N1. apply nk_cons in N1; [|reflexivity]. destruct (IHb _ N1) as [N2 Hbk]. destruct (IHl _ N2) as [N3 Hlk]. destruct (IHc _ N3) as [N4 Hck].
    split; [eapply nk_cons; [exact N4|reflexivity]|]. cbn [mean_stmt]. rewrite written_if. intros Hl Hb.
    apply andb_true_iff in Hl as [Hl L3]. apply andb_true_iff in Hl as [Hl L4]. apply andb_true_iff in Hl as [L1 L2]. rewrite elems_slice in L2. cbn [elems] in L4.
    destruct (tidy_source e (ME 0) false _ eq_refl Hn L1) as (e' & E1 & E2 & E3 & _); [apply (parts_built _ _ Hb); left; reflexivity|].
    destruct Hbk as (b' & B0 & B1 & B2 & B3 & B4 & B5 & B6 & B7 & B8).
    { exact L2. } { apply (built_list _ _ Hb). intros x Hx. cbn [parts]. rewrite elems_slice. right. apply in_or_app. left. exact Hx. }
    destruct Hlk as (l' & l1 & l2 & l3 & l4 & l5 & l6 & l7 & l8).
    { rewrite forallb_forall in *. intros x Hx. apply L4. rewrite <- in_rev. exact Hx. }
    { apply (built_list _ _ Hb). intros x Hx. cbn [parts elems]. right. apply in_or_app. right. apply in_or_app. left. rewrite <- in_rev. exact Hx. }
    destruct Hck as (c' & C1 & C2 & C3 & C4 & C5 & C6 & C7 & C8).
    { exact L3. } { apply (built_list _ _ Hb). intros x Hx. cbn [parts]. right. apply in_or_app. right. apply in_or_app. right. exact Hx. }
    exists (CIf e' b' l' c'), Semi.
    split.
    { rewrite itoks_if. cbn [toks_stmt elems]. rewrite E1, B1, l1, C1, btoks_slice. repeat (rewrite <- ?app_assoc; cbn [app]). reflexivity. }
    split.
    { cbn [mean_stmt]. rewrite tidy_stmt_if, !strip_ifs, E2, (strips_tidy _ _ B2), C2. cbn [strips]. rewrite !map_rev in *. rewrite l2. reflexivity. }
    split; [left; reflexivity|]. cbn [bound_stmt clean_stmt sure_stmt]. rewrite E3, B3, B4, B5, l3, l4, l5, C3, C4, C5. repeat split.
    + intros z. cbn [breaks_stmt]. rewrite B6, l6, C6. reflexivity.
    + intros z. cbn [throws_stmt]. rewrite B7, l7, C7. reflexivity.
    + intros z. cbn [returns_stmt]. rewrite B8, l8, C8. reflexivity.
  - (* Для Каждого *)
    intros v l b IHb rest Hn. cbn [toks_stmt] in Hn. flat Hn. do 2 (apply nk_cons in Hn; [|reflexivity]). destruct Hn as [[Hv _] Hn]. cbn [is_dot andb] in Hn.
    apply nk_cons in Hn; [|reflexivity]. pose proof (loop_nk _ _ Hn) as N1. apply nk_cons in N1; [|reflexivity]. destruct (IHb _ N1) as [N2 Hbk].
    split; [eapply nk_cons; [exact N2|reflexivity]|]. cbn [mean_stmt]. rewrite written_loop, elems_slice. intros Hl Hb.
    apply andb_true_iff in Hl as [Hl L5]. apply andb_true_iff in Hl as [Hl _]. apply andb_true_iff in Hl as [_ L3].
    assert (Hnil : is_nil (mean_loopexp l) = false) by (destruct l as [[[]|]|[]|[]|]; reflexivity).
    unfold may_written in L3. rewrite Hnil in L3. cbn [orb] in L3.
    destruct (tidy_source_loop _ _ Hn L3) as (l' & l1 & l2 & l3); [apply (parts_built _ _ Hb); right; right; left; reflexivity|].
    destruct Hbk as (b' & B0 & B1 & B2 & B3 & B4 & B5 & B6 & B7 & B8).
    { exact L5. } { apply (built_list _ _ Hb). intros x Hx. cbn [parts]. rewrite elems_slice. do 4 right. exact Hx. }
    exists (CForEach v l' b'), Semi. split.
    { rewrite itoks_loop, Hnil, btoks_slice. cbn [toks_stmt is_nil]. rewrite l1, B1, Hv. repeat (rewrite <- ?app_assoc; cbn [app]). reflexivity. }
    split; [cbn [mean_stmt]; rewrite tidy_stmt_loop, !strip_loops, l2, (strips_tidy _ _ B2); reflexivity|].
    split; [left; reflexivity|]. cbn [bound_stmt clean_stmt sure_stmt]. rewrite l3, B3, B4, B5. repeat split.
    + intros z. cbn [breaks_stmt]. apply B6.
    + intros z. cbn [throws_stmt]. apply B7.
    + intros z. cbn [returns_stmt]. apply B8.
  - (* Для *)
    intros e1 e2 b IHb rest Hn. cbn [toks_stmt] in Hn. flat Hn. apply nk_cons in Hn; [|reflexivity]. pose proof (nk_expr _ _ Hn) as N0. apply nk_cons in N0; [|reflexivity].
    pose proof (nk_expr _ _ N0) as N1. apply nk_cons in N1; [|reflexivity]. destruct (IHb _ N1) as [N2 Hbk].
    split; [eapply nk_cons; [exact N2|reflexivity]|]. cbn [mean_stmt]. rewrite written_loop, elems_slice. intros Hl Hb.
    apply andb_true_iff in Hl as [Hl L5]. apply andb_true_iff in Hl as [Hl _]. apply andb_true_iff in Hl as [Hl _]. apply andb_true_iff in Hl as [L1 L2].
    assert (M2 := made_expr _ _ N0).
    destruct (tidy_source _ (ME 0) false _ eq_refl Hn (may_made _ (made_expr _ _ Hn) L1)) as (e1' & E1 & F1 & G1 & _); [apply (parts_built _ _ Hb); left; reflexivity|].
    destruct (tidy_source _ (ME 0) false _ eq_refl N0 (may_made _ M2 L2)) as (e2' & E2 & F2 & G2 & _); [apply (parts_built _ _ Hb); right; left; reflexivity|].
    destruct Hbk as (b' & B0 & B1 & B2 & B3 & B4 & B5 & B6 & B7 & B8).
    { exact L5. } { apply (built_list _ _ Hb). intros x Hx. cbn [parts]. rewrite elems_slice. do 4 right. exact Hx. }
    exists (CFor e1' e2' b'), Semi. split.
    { rewrite itoks_loop, (made_not_nil _ _ M2), btoks_slice. cbn [toks_stmt is_nil]. rewrite E1, E2, B1. repeat (rewrite <- ?app_assoc; cbn [app]). reflexivity. }
    split; [cbn [mean_stmt]; rewrite tidy_stmt_loop, !strip_loops, F1, F2, (strips_tidy _ _ B2); reflexivity|].
    split; [left; reflexivity|]. cbn [bound_stmt clean_stmt sure_stmt]. rewrite G1, G2, B3, B4, B5. repeat split.
    + intros z. cbn [breaks_stmt]. apply B6.
    + intros z. cbn [throws_stmt]. apply B7.
    + intros z. cbn [returns_stmt]. apply B8.
  - (* Пока *)
    intros e b IHb rest Hn. cbn [toks_stmt] in Hn. flat Hn. apply nk_cons in Hn; [|reflexivity].
    pose proof (nk_expr _ _ Hn) as N1. apply nk_cons in N1; [|reflexivity]. destruct (IHb _ N1) as [N2 Hbk].
    split; [eapply nk_cons; [exact N2|reflexivity]|]. cbn [mean_stmt]. rewrite written_loop, elems_slice. intros Hl Hb.
    apply andb_true_iff in Hl as [Hl L5]. apply andb_true_iff in Hl as [Hl L4].
    assert (M := made_expr _ _ Hn).
    destruct (tidy_source _ (ME 0) false _ eq_refl Hn (may_made _ M L4)) as (e' & E1 & E2 & E3 & _); [apply (parts_built _ _ Hb); right; right; right; left; reflexivity|].
    destruct Hbk as (b' & B0 & B1 & B2 & B3 & B4 & B5 & B6 & B7 & B8).
    { exact L5. } { apply (built_list _ _ Hb). intros x Hx. cbn [parts]. rewrite elems_slice. do 4 right. exact Hx. }
    exists (CWhile e' b'), Semi. split.
    { rewrite itoks_loop, (made_not_nil _ _ M), btoks_slice. cbn [toks_stmt is_nil]. rewrite E1, B1. repeat (rewrite <- ?app_assoc; cbn [app]). reflexivity. }
    split; [cbn [mean_stmt]; rewrite tidy_stmt_loop, !strip_loops, E2, (strips_tidy _ _ B2); reflexivity|].
    split; [left; reflexivity|]. cbn [bound_stmt clean_stmt sure_stmt]. rewrite E3, B3, B4, B5. repeat split.
    + intros z. cbn [breaks_stmt]. apply B6.
    + intros z. cbn [throws_stmt]. apply B7.
    + intros z. cbn [returns_stmt]. apply B8.
  - (* Попытка *)
    intros b IHb c IHc rest Hn. cbn [toks_stmt] in Hn. flat Hn. apply nk_cons in Hn; [|reflexivity]. destruct (IHb _ Hn) as [N1 Hbk]. apply nk_cons in N1; [|reflexivity].
    destruct (IHc _ N1) as [N2 Hck]. split; [eapply nk_cons; [exact N2|reflexivity]|]. cbn [mean_stmt]. rewrite written_try, !elems_slice. intros Hl Hb.
    apply andb_true_iff in Hl as [L1 L2].
    destruct Hbk as (b' & B0 & B1 & B2 & B3 & B4 & B5 & B6 & B7 & B8).
    { exact L1. } { apply (built_list _ _ Hb). intros x Hx. cbn [parts]. rewrite !elems_slice. apply in_or_app. left. exact Hx. }
    destruct Hck as (c' & C0 & C1 & C2 & C3 & C4 & C5 & C6 & C7 & C8).
    { exact L2. } { apply (built_list _ _ Hb). intros x Hx. cbn [parts]. rewrite !elems_slice. apply in_or_app. right. exact Hx. }
    exists (CTry b' c'), Semi. split.
    { rewrite itoks_try, !btoks_slice. cbn [toks_stmt]. rewrite B1, C1. repeat (rewrite <- ?app_assoc; cbn [app]). reflexivity. }
    split; [cbn [mean_stmt]; rewrite tidy_stmt_try, !strip_trys, (strips_tidy _ _ B2), (strips_tidy _ _ C2); reflexivity|].
    split; [left; reflexivity|]. cbn [bound_stmt clean_stmt sure_stmt]. rewrite B3, B4, B5, C3, C4, C5. repeat split.
    + intros z. cbn [breaks_stmt]. rewrite B6, C6. reflexivity.
    + intros z. cbn [throws_stmt]. rewrite B7, C7. reflexivity.
    + intros z. cbn [returns_stmt]. rewrite B8, C8. reflexivity.
  - intros rest Hn. split; [eapply nk_cons; [exact Hn|reflexivity]|]. intros _ _. exists CContinue, Semi. repeat split. left; reflexivity.
  - intros rest Hn. split; [eapply nk_cons; [exact Hn|reflexivity]|]. intros _ _. exists CBreak, Semi. repeat split. left; reflexivity.
  - (* ВызватьИсключение *)
    intros o rest Hn. cbn [toks_stmt] in Hn. flat Hn. apply nk_cons in Hn; [|reflexivity]. split; [exact (nk_oexpr _ _ Hn)|]. intros Hl Hb. destruct o as [|e].
    { exists (CThrow ONone), Semi. repeat split. left; reflexivity. }
    cbn [toks_oexpr] in Hn. cbn [mean_stmt mean_oexpr] in Hl, Hb |- *. assert (M := made_expr _ _ Hn).
    assert (X : exists a, K tThrow :: Pct "(" :: toks_oexpr a ++ [Pct ")"; Pct ";"] = itoks (SThrow (mean_expr e)) /\
      strip (SThrow (mean_expr (EParen (AOne a)))) = strip (tidy_stmt (SThrow (mean_expr e))) /\ bound_oexpr a = true).
    { assert (G : written (mean_expr e) = true -> itoks (SThrow (mean_expr e)) = K tThrow :: Pct "(" :: pt false MV (mean_expr e) ++ [Pct ")"; Pct ";"] ->
        tidy_stmt (SThrow (mean_expr e)) = SThrow (tidy true (mean_expr e)) ->
        exists a, K tThrow :: Pct "(" :: toks_oexpr a ++ [Pct ")"; Pct ";"] = itoks (SThrow (mean_expr e)) /\
        strip (SThrow (mean_expr (EParen (AOne a)))) = strip (tidy_stmt (SThrow (mean_expr e))) /\ bound_oexpr a = true).
      { intros L Hi Ht. destruct (tidy_source _ MV true _ eq_refl Hn L) as (e' & E1 & E2 & E3 & _); [apply (parts_built _ _ Hb); left; reflexivity|].
        exists (OSome e'). rewrite Ht. cbn [toks_oexpr mean_expr mean_args mean_oexpr bound_oexpr strip fl_not no_flags]. rewrite E1, Hi, mean_expr_nn, E2. auto. }
      destruct (mean_expr e) as [|w|f|b|t| |n fl|n ps g fl|i o|u c fl|n ps g|x y z|o l r fl|ps fl| | | | | | | | |l|n|] eqn:Es;
      try (inversion M; fail); try (apply G; [exact Hl|cbn [itoks app]; rewrite <- app_assoc; reflexivity|reflexivity]); try discriminate Hl.
      destruct ps as [[|x [|y l]]|]; try discriminate Hl. cbn [written_stmt] in Hl.
      cbn [itoks elems map tjoin tidy_stmt app]. inversion M as [| | | | | | | | | | | | | | | |? ? _ Hf Hf1 Hf2]; subst. inversion Hf as [|? ? Hx _]; subst. destruct Hx as [->|Hx].
      - exists ONone. repeat split.
      - pose proof (may_made _ Hx Hl) as L2. destruct (tidy_all x) as (_ & _ & H). destruct (H MV true eq_refl Hx L2) as (e' & E1 & E2 & E3 & _).
        { apply (parts_built (SExprs (Some [x]) fl)); [|left; reflexivity]. apply (parts_built _ _ Hb). left. reflexivity. }
        exists (OSome e'). cbn [toks_oexpr mean_expr mean_args mean_oexpr bound_oexpr strip fl_not no_flags].
        rewrite E1, mean_expr_nn, tidy_nil, (made_not_nil _ _ Hx), E2, <- app_assoc. auto. }
    destruct X as (a & A1 & A2 & A3). exists (CThrow (OSome (EParen (AOne a)))), Semi. split.
    { rewrite <- A1. cbn [toks_stmt toks_oexpr toks_expr toks_args app]. rewrite <- app_assoc. reflexivity. }
    split; [exact A2|]. split; [left; reflexivity|]. repeat split. exact A3.
  - (* Возврат *)
    intros o rest Hn. cbn [toks_stmt] in Hn. flat Hn. apply nk_cons in Hn; [|reflexivity]. split; [exact (nk_oexpr _ _ Hn)|]. intros Hl Hb. destruct o as [|e].
    { exists (CReturn ONone), Semi. repeat split. left; reflexivity. }
    cbn [toks_oexpr] in Hn. cbn [mean_stmt mean_oexpr written_stmt] in Hl, Hb |- *. assert (M := made_expr _ _ Hn).
    destruct (tidy_source _ (ME 0) false _ eq_refl Hn (may_made _ M Hl)) as (e' & E1 & E2 & E3 & _); [apply (parts_built _ _ Hb); left; reflexivity|].
    exists (CReturn (OSome e')), Semi. cbn [toks_stmt toks_oexpr itoks mean_stmt mean_oexpr strip tidy_stmt bound_stmt bound_oexpr]. rewrite E1, E2, E3. repeat split. left; reflexivity.
  - (* blocks *)
    intros rest Hn. split; [exact Hn|]. intros _ _. exists BNil. repeat split.
  - intros s IHs rest Hn. cbn [toks_block] in Hn. destruct (IHs _ Hn) as [N1 Hs]. split; [exact N1|]. cbn [mean_block forallb]. rewrite andb_true_r. intros Hl Hb.
    inversion Hb as [|? ? Hb1 _]; subst. destruct (Hs Hl Hb1) as (c' & x & C1 & C2 & C3 & C4 & C5 & C6 & C7 & C8 & C9).
    destruct (put_stmt BNil c' x) as (b' & B0 & B1 & B2 & B3 & B4 & B5 & B6 & B7 & B8); auto; try exact I.
    exists b'. split; [exact B0|]. rewrite B1, B2, B3, B4, B5. cbn [toks_block mean_block app map flat_map]. rewrite C1, C2, app_nil_r. repeat split.
    + intros z. rewrite B6. apply C7.
    + intros z. rewrite B7. apply C8.
    + intros z. rewrite B8. apply C9.
  - intros b IHb x rest Hn. cbn [toks_block] in Hn. flat Hn. destruct (IHb _ Hn) as [N1 Hbk]. split; [eapply nk_cons; [destruct x; exact N1|destruct x; reflexivity]|]. exact Hbk.
  - intros b IHb y s IHs rest Hn. cbn [toks_block] in Hn. flat Hn. destruct (IHb _ Hn) as [N1 Hbk].
    assert (N2 : nk false (toks_stmt s ++ rest)) by (eapply nk_cons; [destruct y; exact N1|destruct y; reflexivity]).
    destruct (IHs _ N2) as [N3 Hs]. split; [exact N3|]. cbn [mean_block]. rewrite forallb_app. cbn [forallb]. rewrite andb_true_r. intros Hl Hb.
    apply andb_true_iff in Hl as [L1 L2]. apply Forall_app in Hb as [Hb1 Hb2]. inversion Hb2 as [|? ? Hb3 _]; subst.
    destruct (Hbk L1 Hb1) as (b0 & A0 & A1 & A2 & A3 & A4 & A5 & A6 & A7 & A8).
    destruct (Hs L2 Hb3) as (c' & x & C1 & C2 & C3 & C4 & C5 & C6 & C7 & C8 & C9).
    destruct (put_stmt b0 c' x) as (b' & B0 & B1 & B2 & B3 & B4 & B5 & B6 & B7 & B8); auto.
    exists b'. split; [exact B0|]. rewrite B1, B2, B3, B4, B5, A1, C1. rewrite flat_map_app, !map_app, A2. cbn [map flat_map]. rewrite C2, app_nil_r. repeat split.
    + intros z. rewrite B6. cbn [breaks_block]. rewrite A6, C7. reflexivity.
    + intros z. rewrite B7. cbn [throws_block]. rewrite A7, C8. reflexivity.
    + intros z. rewrite B8. cbn [returns_block]. rewrite A8, C9. reflexivity.
  - (* ИначеЕсли *)
    intros rest Hn. split; [exact Hn|]. intros _ _. exists EINil. repeat split.
  - intros e b IHb l IHl rest Hn. cbn [toks_elseifs] in Hn. flat Hn. apply nk_cons in Hn; [|reflexivity]. pose proof (nk_expr _ _ Hn) as N1. apply nk_cons in N1; [|reflexivity].
    destruct (IHb _ N1) as [N2 Hbk]. destruct (IHl _ N2) as [N3 Hlk]. split; [exact N3|]. cbn [mean_elseifs forallb]. rewrite written_if, elems_slice. cbn [elems forallb]. rewrite !andb_true_r. intros Hl Hb.
    apply andb_true_iff in Hl as [Hl L3]. apply andb_true_iff in Hl as [L1 L2]. inversion Hb as [|? ? Hb1 Hb2]; subst.
    destruct (tidy_source e (ME 0) false _ eq_refl Hn L1) as (e' & E1 & E2 & E3 & _); [apply (parts_built _ _ Hb1); left; reflexivity|].
    destruct Hbk as (b' & B0 & B1 & B2 & B3 & B4 & B5 & B6 & B7 & B8).
    { exact L2. } { apply (built_list _ _ Hb1). intros x Hx. cbn [parts]. rewrite elems_slice. right. apply in_or_app. left. exact Hx. }
    destruct (Hlk L3 Hb2) as (l' & l1 & l2 & l3 & l4 & l5 & l6 & l7 & l8).
    exists (add_branch l' e' b'). destruct (add_branch_facts l' e' b') as (F1 & F2 & F3 & F4 & F5 & F6 & F7 & F8).
    rewrite F1, F2, F3, F4, F5, l3, l4, l5, E3, B3, B4, B5. cbn [rev]. rewrite flat_map_app, !map_app, l1, l2. cbn [flat_map map branch_toks]. rewrite btoks_slice, E1, B1.
    rewrite tidy_stmt_if, !strip_ifs, E2, (strips_tidy _ _ B2). repeat split.
    + rewrite app_nil_r. reflexivity.
    + intros z. rewrite F6. cbn [breaks_elseifs]. rewrite B6, l6. apply andb_comm.
    + intros z. rewrite F7. cbn [throws_elseifs]. rewrite B7, l7. apply andb_comm.
    + intros z. rewrite F8. cbn [returns_elseifs]. rewrite B8, l8. apply andb_comm.
  - (* Иначе *)
    intros rest Hn. split; [exact Hn|]. intros _ _. exists NoElse. repeat split.
  - intros b IHb rest Hn. cbn [toks_else app] in Hn. apply nk_cons in Hn; [|reflexivity]. destruct (IHb _ Hn) as [N1 Hbk]. split; [exact N1|].
    cbn [mean_else]. rewrite elems_slice. intros Hl Hb. destruct (Hbk Hl Hb) as (b' & B0 & B1 & B2 & B3 & B4 & B5 & B6).
    destruct (mean_block b) as [|s r] eqn:Em.
    + apply toks_nil_block in B1; [|exact B0]. subst b'. exists NoElse. destruct B6 as (B6 & B7 & B8). repeat split; auto.
    + exists (Else b'). cbn [toks_else bound_else clean_else sure_else]. rewrite B1. split; [reflexivity|]. split; [cbn [mean_else]; rewrite (strips_tidy _ (s :: r) B2); reflexivity|].
      repeat split; auto; apply B6.
Qed.
