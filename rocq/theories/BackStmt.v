(** Printed statements read back. *)
From Verif Require Import Bytes Utf8 UnicodeTables Float64 GoTime Ast Lexer LexFacts Utf8Facts LexSpec LexProofs LexTrivia
  LexTokens LexStrings NumSpec NumProofs NumTokens Tok Syntax Levels RulesFacts StmtInd Parser Printer PrintInv Properties_Literals Writes PrintToks Driver SpellInv
  Legal Survive Strip Back BackMade.
Open Scope Z_scope.

Lemma back_source e m v rest : place m v -> nk false (toks_expr e ++ rest) -> lasts v (mean_expr e) = true -> built (mean_expr e) ->
  exists e', toks_expr e' = pt false m (mean_expr e) /\ strip0 (mean_expr e') = strip (mean_expr e) /\ bound e' = true /\
    (assignment (mean_expr e) = false -> no_assign e' = true).
Proof.
  intros Hp Hn Hl Hb. apply made_all in Hn as [Hm _]. destruct (back_all (mean_expr e)) as (_ & _ & H).
  destruct (H m v Hp Hm Hl Hb) as (e' & E1 & E2 & E3 & _ & _ & E4). exists e'. auto.
Qed.
Lemma pt_bare s m : bare s -> pt false m s = pt false MC s.
Proof. destruct s; cbn [bare]; intros H; try contradiction; subst; destruct m; reflexivity. Qed.
Lemma lasts_bare s v : bare s -> lasts v s = lasts true s.
Proof. destruct s; cbn [bare]; intros H; try contradiction; subst; destruct v; reflexivity. Qed.
Lemma back_source_path p v rest : nk false (toks_path p ++ rest) -> lasts v (mean_path p) = true -> built (mean_path p) ->
  exists p', (forall m, toks_path p' = pt false m (mean_path p)) /\ strip0 (mean_path p') = strip (mean_path p) /\ bound_path p' = true.
Proof.
  intros Hn Hl Hb. apply made_all in Hn as [[Hm Hr] _]. rewrite lasts_bare in Hl by exact Hr. destruct (back_all (mean_path p)) as (_ & H & _).
  destruct (H Hm Hr Hl Hb) as (p' & P1 & P2 & P3). exists p'. split; [|auto]. intros m. rewrite P1. symmetry. apply pt_bare, Hr.
Qed.
Lemma back_source_new c rest : nk false (toks_new c ++ rest) -> lasts false (mean_new c) = true -> built (mean_new c) ->
  exists c', toks_new c' = pt false (ME 0) (mean_new c) /\ strip0 (mean_new c') = strip (mean_new c) /\ bound_new c' = true.
Proof.
  intros Hn Hl Hb. apply made_all in Hn as [Hm _].
  assert (F : forall l : list stmt, Forall back_expr l) by (intros l; apply Forall_forall; intros x _; apply back_all).
  destruct (mean_new c) as [| | | | | | | | | |n ps g| | | | | | | | | | | | | |] eqn:Ec; try (destruct c; discriminate Ec).
  inversion Hm; subst.
  - exists (NewCall n (AOne ONone)). split; [|split; reflexivity]. destruct n as [|b n]; [congruence|].
    cbn [toks_new toks_args toks_oexpr pt map tjoin app]. match goal with H : word_tk false _ = _ |- _ => rewrite H end. reflexivity.
  - destruct (back_args l) as (a & A1 & A2 & A3); try assumption; try apply F.
    { apply built_inv in Hb. apply Hb. }
    assert (D : n = [] \/ exists b n', n = b :: n') by (destruct n; eauto). destruct D as [->|(b & n' & En)].
    + exists (NewArgs a). cbn [toks_new pt app mean_new strip strip0]. rewrite A1, A2. repeat split. exact A3.
    + match goal with H : _ \/ word_tk _ _ = _ |- _ => rename H into H0 end. destruct H0 as [->|H0]; [discriminate|]. exists (NewCall n a). split; [|cbn [mean_new strip strip0]; rewrite A2; split; [reflexivity|exact A3]].
      subst n. cbn [toks_new pt app]. rewrite A1, H0. reflexivity.
Qed.
Lemma back_source_loop l rest : nk false (toks_loopexp l ++ rest) -> lasts false (mean_loopexp l) = true -> built (mean_loopexp l) ->
  is_nil (mean_loopexp l) = false /\
  exists l', toks_loopexp l' = pt false (ME 0) (mean_loopexp l) /\ strip0 (mean_loopexp l') = strip (mean_loopexp l) /\ bound_loopexp l' = true.
Proof.
  destruct l as [p|c|c|c t f]; cbn [toks_loopexp mean_loopexp]; intros Hn Hl Hb.
  - split; [destruct p as [i|]; [destruct i|]; reflexivity|]. destruct (back_source_path _ _ _ Hn Hl Hb) as (p' & P1 & P2 & P3). exists (LPath p'). auto.
  - split; [destruct c; reflexivity|]. destruct (back_source_new _ _ Hn Hl Hb) as (p' & P1 & P2 & P3). exists (LNew p'). auto.
  - split; [destruct c; reflexivity|]. cbn [app nk] in Hn. destruct Hn as [_ Hn]. rewrite <- app_assoc in Hn.
    destruct (back_source_new _ _ Hn Hl Hb) as (p' & P1 & P2 & P3). exists (LNew p'). auto.
  - split; [reflexivity|]. cbn [lasts] in Hl. apply andb_true_iff in Hl as [Hl L3]. apply andb_true_iff in Hl as [L1 L2].
    cbn [toks_expr app nk] in Hn. destruct Hn as [_ [_ Hn]]. repeat (rewrite <- app_assoc in Hn || cbn [app] in Hn).
    assert (N1 := proj2 (proj1 made_all _ _ Hn)). destruct N1 as [_ N1]. assert (N2 := proj2 (proj1 made_all _ _ N1)). destruct N2 as [_ N2].
    assert (B1 : built (mean_expr c)) by (apply (parts_built _ _ Hb); left; reflexivity).
    assert (B2 : built (mean_expr t)) by (apply (parts_built _ _ Hb); right; left; reflexivity).
    assert (B3 : built (mean_expr f)) by (apply (parts_built _ _ Hb); right; right; left; reflexivity).
    destruct (back_source _ (ME 0) false _ eq_refl Hn L1 B1) as (e1 & E1 & F1 & G1 & _).
    destruct (back_source _ (ME 0) false _ eq_refl N1 L2 B2) as (e2 & E2 & F2 & G2 & _).
    destruct (back_source _ (ME 0) false _ eq_refl N2 L3 B3) as (e3 & E3 & F3 & G3 & _).
    exists (LTern e1 e2 e3). cbn [toks_loopexp toks_expr mean_loopexp strip strip0 bound_loopexp pt]. rewrite E1, E2, E3, F1, F2, F3, G1, G2, G3. repeat split.
Qed.
Lemma loop_nk l rest : nk false (toks_loopexp l ++ rest) -> nk false rest.
Proof.
  destruct l as [p|c|c|c t f]; cbn [toks_loopexp]; intros Hn.
  - apply made_all in Hn. apply Hn.
  - apply made_all in Hn. apply Hn.
  - cbn [app nk] in Hn. destruct Hn as [_ Hn]. rewrite <- app_assoc in Hn. apply made_all in Hn as [_ [_ Hn]]. exact Hn.
  - apply made_all in Hn. apply Hn.
Qed.

(** * Statements *)
Definition same_stmt (c c' : cstmt) : Prop :=
  (forall l, loose_stmt l c' = loose_stmt l c) /\ while_stmt c' = while_stmt c /\
  (forall h, throws_stmt h c' = throws_stmt h c) /\ (forall f, returns_stmt f c' = returns_stmt f c).
Definition same_block (c c' : block) : Prop :=
  (forall l, loose_block l c' = loose_block l c) /\ while_block c' = while_block c /\
  (forall h, throws_block h c' = throws_block h c) /\ (forall f, returns_block f c' = returns_block f c).
Definition same_elseifs (c c' : elseifs) : Prop :=
  (forall l, loose_elseifs l c' = loose_elseifs l c) /\ while_elseifs c' = while_elseifs c /\
  (forall h, throws_elseifs h c' = throws_elseifs h c) /\ (forall f, returns_elseifs f c' = returns_elseifs f c).
Definition same_else (c c' : celse) : Prop :=
  (forall l, loose_else l c' = loose_else l c) /\ while_else c' = while_else c /\
  (forall h, throws_else h c' = throws_else h c) /\ (forall f, returns_else f c' = returns_else f c).

Definition sep_for (x : sep) (c : cstmt) : Prop := x = Semi \/ exists n, x = Colon /\ mean_stmt c = SLabel n.
Definition ends_sep (b : block) : Prop := match b with BNil | BSkip _ _ => True | _ => False end.
Definition back_stmt (c : cstmt) : Prop := forall rest, nk false (toks_stmt c ++ rest) -> nk false rest /\
  (lasts_stmt (mean_stmt c) = true -> built (mean_stmt c) -> exists c' x,
    toks_stmt c' ++ [toks_sep x] = itoks (mean_stmt c) /\ strip0 (mean_stmt c') = strip (mean_stmt c) /\ sep_for x c' /\
    bound_stmt c' = true /\ clean_stmt c' = true /\ sure_stmt c' = true /\ same_stmt c c').
Definition back_block (b : block) : Prop := forall rest, nk false (toks_block b ++ rest) -> nk false rest /\
  (forallb lasts_stmt (mean_block b) = true -> Forall built (mean_block b) -> exists b',
    ends_sep b' /\ toks_block b' = flat_map itoks (mean_block b) /\ map strip0 (mean_block b') = map strip (mean_block b) /\
    bound_block b' = true /\ clean_block b' = true /\ sure_block b' = true /\ same_block b b').
Definition back_elseifs (l : elseifs) : Prop := forall rest, nk false (toks_elseifs l ++ rest) -> nk false rest /\
  (match mean_elseifs l with [] => True | [SIf e tb None None] => lasts false e = true /\ forallb lasts_stmt (elems tb) = true | _ => False end ->
   Forall built (mean_elseifs l) -> exists l',
    toks_elseifs l' = flat_map branch_toks (mean_elseifs l) /\ map strip0 (mean_elseifs l') = map strip (mean_elseifs l) /\
    (length (mean_elseifs l') <= 1)%nat /\ (length (mean_elseifs l) <= 1)%nat /\
    bound_elseifs l' = true /\ clean_elseifs l' = true /\ sure_elseifs l' = true /\ same_elseifs l l').
Definition back_else (c : celse) : Prop := forall rest, nk false (toks_else c ++ rest) -> nk false rest /\
  (forallb lasts_stmt (elems (mean_else c)) = true -> Forall built (elems (mean_else c)) -> exists c',
    toks_else c' = match mean_else c with None => [] | Some _ => K tElse :: btoks (mean_else c) end /\ strips0 (mean_else c') = strips (mean_else c) /\
    bound_else c' = true /\ clean_else c' = true /\ sure_else c' = true /\ same_else c c').

Lemma elems_slice l : elems (slice_of l) = l. Proof. destruct l; reflexivity. Qed.
Lemma strips_slice l l' : map strip0 l = map strip l' -> strips0 (slice_of l) = strips (slice_of l').
Proof. destruct l, l'; cbn; try discriminate; auto. intros H. rewrite H. reflexivity. Qed.
Lemma btoks_slice l : btoks (slice_of l) = flat_map itoks l. Proof. unfold btoks. rewrite elems_slice. reflexivity. Qed.
Lemma toks_nil_block b : ends_sep b -> toks_block b = [] -> b = BNil.
Proof. destruct b; cbn; try contradiction; auto. intros _ H. destruct (toks_block b); discriminate. Qed.

Lemma add_stmt b0 c' x : ends_sep b0 -> bound_block b0 = true -> clean_block b0 = true -> sure_block b0 = true ->
  sep_for x c' -> bound_stmt c' = true -> clean_stmt c' = true -> sure_stmt c' = true ->
  exists b', ends_sep b' /\ toks_block b' = toks_block b0 ++ toks_stmt c' ++ [toks_sep x] /\ mean_block b' = mean_block b0 ++ [mean_stmt c'] /\
    bound_block b' = true /\ clean_block b' = true /\ sure_block b' = true /\
    (forall l, loose_block l b' = loose_block l b0 && loose_stmt (l || while_block b0) c') /\ while_block b' = while_block b0 || while_stmt c' /\
    (forall h, throws_block h b' = throws_block h b0 && throws_stmt h c') /\ (forall f, returns_block f b' = returns_block f b0 && returns_stmt f c').
Proof.
  intros He Hb Hc Hs Hx B C S.
  assert (Hx' : forall b, sure_sep x b = true \/ (clean_block b = true -> last (mean_block b) SNil = mean_stmt c' -> mean_block b <> [] -> sure_sep x b = true)).
  { intros b. destruct Hx as [->|(n & -> & E)]; [left; reflexivity|]. right. intros Hcl Hl Hn. unfold sure_sep, colon_ok. rewrite Hcl.
    destruct (mean_block b) as [|y l]; [congruence|]. rewrite Hl, E. reflexivity. }
  destruct b0 as [| |b1 y|]; try destruct He.
  - exists (BSkip (BOne c') x). cbn [ends_sep toks_block mean_block bound_block clean_block sure_block loose_block while_block throws_block returns_block app].
    rewrite B, C, S. repeat split; auto; try (intros l; rewrite ?orb_false_r; reflexivity).
    destruct (Hx' (BOne c')) as [E|E]; [rewrite E; reflexivity|]. rewrite E; auto. discriminate.
  - exists (BSkip (BSnoc b1 y c') x). cbn [ends_sep toks_block mean_block bound_block clean_block sure_block loose_block while_block throws_block returns_block app] in *.
    apply andb_true_iff in Hs as [Hs1 Hs2]. rewrite Hb, B, Hs1, Hs2, S.
    assert (Cl : clean_block (BSnoc b1 y c') = true) by (cbn [clean_block]; destruct b1; [discriminate|rewrite Hc, C; reflexivity..]).
    repeat split; auto; try (intros l; reflexivity).
    + rewrite <- !app_assoc. reflexivity.
    + destruct (Hx' (BSnoc b1 y c')) as [E|E]; [rewrite E; reflexivity|]. rewrite E; auto; cbn [mean_block]; [apply last_last|]. destruct (mean_block b1); discriminate.
Qed.

Lemma nk_expr e rest : nk false (toks_expr e ++ rest) -> nk false rest. Proof. intros H. apply made_all in H. apply H. Qed.
Lemma nk_path p rest : nk false (toks_path p ++ rest) -> nk false rest. Proof. intros H. apply made_all in H. apply H. Qed.
Lemma nk_oexpr o rest : nk false (toks_oexpr o ++ rest) -> nk false rest. Proof. intros H. apply made_all in H. apply H. Qed.
Lemma nk_cons c l : nk false (K c :: l) -> (c =? 46) = false -> nk false l.
Proof. intros [_ H] E. cbn [is_dot] in H. rewrite E in H. exact H. Qed.
Ltac flat H := repeat (rewrite <- app_assoc in H || cbn [app] in H).

Lemma back_cexpr e rest : nk false (toks_expr e ++ rest) -> lasts_stmt (mean_expr e) = true -> built (mean_expr e) -> exists e' x,
  toks_expr e' ++ [toks_sep x] = itoks (mean_expr e) /\ strip0 (mean_expr e') = strip (mean_expr e) /\ sep_for x (CExpr e') /\
  no_assign e' = true /\ bound e' = true.
Proof.
  intros Hn Hl Hb.
  assert (G : forall m v, place m v -> lasts v (mean_expr e) = true -> assignment (mean_expr e) = false -> itoks (mean_expr e) = pt false m (mean_expr e) ++ [Pct ";"] ->
    exists e' x, toks_expr e' ++ [toks_sep x] = itoks (mean_expr e) /\ strip0 (mean_expr e') = strip (mean_expr e) /\ sep_for x (CExpr e') /\
    no_assign e' = true /\ bound e' = true).
  { intros m v Hp Hv Ha Hi. destruct (back_source e m v rest Hp Hn Hv Hb) as (e' & E1 & E2 & E3 & E4). exists e', Semi.
    rewrite Hi, E1. repeat split; auto. left; reflexivity. }
  pose proof (proj1 (proj1 made_all _ _ Hn)) as Hm.
  destruct (mean_expr e) as [|w|f|b|t| |n fl|n ps g fl|i o|u c fl|n ps g|x y z|o l r fl|ps fl| | | | | | | | |l|n|] eqn:Es; try (inversion Hm; fail).
  - apply (G MV true); [reflexivity|exact Hl|reflexivity|reflexivity].
  - apply (G MV true); [reflexivity|exact Hl|reflexivity|reflexivity].
  - apply (G MV true); [reflexivity|exact Hl|reflexivity|reflexivity].
  - apply (G MV true); [reflexivity|exact Hl|reflexivity|reflexivity].
  - apply (G MV true); [reflexivity|exact Hl|reflexivity|reflexivity].
  - apply (G MV true); [reflexivity|exact Hl|reflexivity|reflexivity].
  - apply (G MV true); [reflexivity|exact Hl|reflexivity|reflexivity].
  - apply (G MV true); [reflexivity|exact Hl|reflexivity|reflexivity].
  - cbn [lasts_stmt] in Hl. apply andb_true_iff in Hl as [L1 L2]. apply negb_true_iff in L2.
    destruct (back_all (SChain u c fl)) as (_ & H & _).
    assert (Hbr : bare (SChain u c fl)).
    { cbn [lasts] in L1. apply andb_true_iff in L1 as [L1 _]. apply andb_true_iff in L1 as [L1 _]. apply negb_true_iff in L1.
      inversion Hm; subst. cbn [bare]. rewrite (flags_eta fl), L2 by assumption. reflexivity. }
    destruct (H Hm Hbr L1 Hb) as (p & P1 & P2 & P3). exists (EPath p), Semi. cbn [toks_expr mean_expr bound itoks]. rewrite P1. repeat split; auto. left; reflexivity.
  - apply (G MV true); [reflexivity|exact Hl|reflexivity|reflexivity].
  - apply (G MV true); [reflexivity|exact Hl|reflexivity|reflexivity].
  - cbn [lasts_stmt] in Hl. apply andb_true_iff in Hl as [L1 L2]. apply negb_true_iff in L2. apply (G (ME 0) false); [reflexivity|exact L1|exact L2|reflexivity].
  - cbn [lasts_stmt] in Hl. apply andb_true_iff in Hl as [L1 L2]. apply negb_true_iff in L2. apply (G MV true); [reflexivity|exact L1|exact L2|reflexivity].
  - inversion Hm; subst. exists (EGoto n), Semi. repeat split; auto. left; reflexivity.
  - exists (ELabel n), Colon. repeat split; auto. right. exists n. split; reflexivity.
Qed.
Lemma same_blocks_else b b' : same_block b b' -> same_else (Else b) (Else b'). Proof. intros (A & B & C & D). repeat split; assumption. Qed.

Lemma lasts_if e tb eib eb : lasts_stmt (SIf e tb eib eb) = lasts false e && forallb lasts_stmt (elems tb) && forallb lasts_stmt (elems eb) &&
  match eib with Some [] => true | Some [SIf e' tb' None None] => lasts false e' && forallb lasts_stmt (elems tb') | _ => false end.
Proof.
  cbn [lasts_stmt]. destruct tb, eb; try reflexivity; destruct eib as [[|[] [|]]|]; try reflexivity; destruct tb; reflexivity.
Qed.
Lemma lasts_try b c : lasts_stmt (STry b c) = forallb lasts_stmt (elems b) && forallb lasts_stmt (elems c). Proof. destruct b, c; reflexivity. Qed.
Lemma lasts_loop a b c d e : lasts_stmt (SLoop a b c d e) = maybe a && maybe b && maybe c && maybe d && forallb lasts_stmt (elems e). Proof. destruct e; reflexivity. Qed.
Lemma made_expr e rest : nk false (toks_expr e ++ rest) -> made false (mean_expr e). Proof. intros H. apply made_all in H. apply H. Qed.
Lemma maybe_made s : made false s -> maybe s = true -> lasts false s = true.
Proof. intros H. unfold maybe. rewrite (made_not_nil _ _ H). auto. Qed.
Lemma built_part s x : built s -> In x (parts s) -> built x. Proof. apply parts_built. Qed.
Lemma built_list s l : built s -> (forall x, In x l -> In x (parts s)) -> Forall built l.
Proof. intros H Hl. apply Forall_forall. intros x Hx. apply (parts_built _ _ H), Hl, Hx. Qed.

Lemma back_stmts : (forall c, back_stmt c) /\ (forall b, back_block b) /\ (forall l, back_elseifs l) /\ (forall c, back_else c).
Proof.
  apply stmt_all.
  - (* assignment *)
    intros p e rest Hn. cbn [toks_stmt] in Hn. flat Hn. pose proof (nk_path _ _ Hn) as N1. apply nk_cons in N1; [|reflexivity]. split; [exact (nk_expr _ _ N1)|].
    cbn [mean_stmt lasts_stmt]. intros Hl Hb. apply andb_true_iff in Hl as [L1 L2].
    assert (B1 : built (mean_path p)) by (apply (parts_built _ _ Hb); left; reflexivity).
    assert (B2 : built (mean_expr e)) by (apply (parts_built _ _ Hb); right; left; reflexivity).
    destruct (back_source_path _ _ _ Hn L1 B1) as (p' & P1 & P2 & P3).
    destruct (back_source _ (ME 0) false _ eq_refl N1 L2 B2) as (e' & E1 & E2 & E3 & _).
    exists (CAssign p' e'), Semi. cbn [toks_stmt mean_stmt strip strip0 map itoks pt tnot topen tclose fl_not no_flags app concat bound_stmt].
    rewrite (P1 MV), E1, P2, E2, P3, E3, !app_nil_r. repeat split. left; reflexivity.
  - (* expression *)
    intros e rest Hn. cbn [toks_stmt] in Hn. split; [exact (nk_expr _ _ Hn)|]. cbn [mean_stmt]. intros Hl Hb.
    destruct (back_cexpr _ _ Hn Hl Hb) as (e' & x & E1 & E2 & E3 & E4 & E5). exists (CExpr e'), x. cbn [toks_stmt mean_stmt bound_stmt]. rewrite E4, E5.
    repeat split; assumption.
  - (* Если *)
    intros e b IHb l IHl c IHc rest Hn. cbn [toks_stmt] in Hn. flat Hn. apply nk_cons in Hn; [|reflexivity].
    pose proof (nk_expr _ _ Hn) as N1. apply nk_cons in N1; [|reflexivity]. destruct (IHb _ N1) as [N2 Hbk]. destruct (IHl _ N2) as [N3 Hlk]. destruct (IHc _ N3) as [N4 Hck].
    split; [eapply nk_cons; [exact N4|reflexivity]|]. cbn [mean_stmt]. rewrite lasts_if. intros Hl Hb.
    apply andb_true_iff in Hl as [Hl L4]. apply andb_true_iff in Hl as [Hl L3]. apply andb_true_iff in Hl as [L1 L2]. rewrite elems_slice in L2.
    destruct (back_source e (ME 0) false _ eq_refl Hn L1) as (e' & E1 & E2 & E3 & _); [apply (parts_built _ _ Hb); left; reflexivity|].
    destruct Hbk as (b' & B0 & B1 & B2 & B3 & B4 & B5 & B6 & B7 & B8 & B9).
    { exact L2. } { apply (built_list _ _ Hb). intros x Hx. cbn [parts]. rewrite elems_slice. right. apply in_or_app. left. exact Hx. }
    destruct Hlk as (l' & l1 & l2 & Len' & Len & l3 & l4 & l5 & l6 & l7 & l8 & l9).
    { destruct (mean_elseifs l) as [|x [|y r]]; [exact I| |].
      - cbn [rev app] in L4. destruct x; try discriminate. destruct eib; try discriminate. destruct eb; try discriminate. apply andb_true_iff in L4. exact L4.
      - exfalso. assert (Hr : length (rev (x :: y :: r)) = S (S (length r))) by (rewrite rev_length; reflexivity). destruct (rev (x :: y :: r)) as [|a [|a' q]]; try discriminate Hr.
        destruct a; try discriminate L4; destruct eib, eb; discriminate L4. }
    { apply (built_list _ _ Hb). intros x Hx. cbn [parts elems]. right. apply in_or_app. right. apply in_or_app. left. rewrite <- in_rev. exact Hx. }
    destruct Hck as (c' & C1 & C2 & C3 & C4 & C5 & C6 & C7 & C8 & C9).
    { exact L3. } { apply (built_list _ _ Hb). intros x Hx. cbn [parts]. right. apply in_or_app. right. apply in_or_app. right. exact Hx. }
    exists (CIf e' b' l' c'), Semi.
    assert (R : forall q : list stmt, (length q <= 1)%nat -> rev q = q) by (intros [|x [|y q]]; cbn; intros; try reflexivity; lia).
    split.
    { rewrite itoks_if. cbn [toks_stmt elems]. rewrite E1, B1, l1, C1, btoks_slice, R by exact Len. repeat (rewrite <- ?app_assoc; cbn [app]). reflexivity. }
    split.
    { cbn [mean_stmt]. rewrite !R by assumption. rewrite strip0_ifs, strip_ifs, E2.
      rewrite (strips_slice _ _ B2), C2. change (strips0 (Some (mean_elseifs l'))) with (Some (map strip0 (mean_elseifs l'))). rewrite l2. reflexivity. }
    split; [left; reflexivity|]. cbn [bound_stmt clean_stmt sure_stmt]. rewrite E3, B3, B4, B5, l3, l4, l5, C3, C4, C5. repeat split.
    + intros z. cbn [loose_stmt]. rewrite B6, B7, l6, l7, C6. reflexivity.
    + cbn [while_stmt]. rewrite B7, l7, C7. reflexivity.
    + intros z. cbn [throws_stmt]. rewrite B8, l8, C8. reflexivity.
    + intros z. cbn [returns_stmt]. rewrite B9, l9, C9. reflexivity.
  - (* Для Каждого *)
    intros v l b IHb rest Hn. cbn [toks_stmt] in Hn. flat Hn. do 2 (apply nk_cons in Hn; [|reflexivity]). destruct Hn as [[Hv _] Hn]. cbn [is_dot andb] in Hn.
    apply nk_cons in Hn; [|reflexivity]. pose proof (loop_nk _ _ Hn) as N1. apply nk_cons in N1; [|reflexivity]. destruct (IHb _ N1) as [N2 Hbk].
    split; [eapply nk_cons; [exact N2|reflexivity]|]. cbn [mean_stmt]. rewrite lasts_loop, elems_slice. intros Hl Hb.
    apply andb_true_iff in Hl as [Hl L5]. apply andb_true_iff in Hl as [Hl _]. apply andb_true_iff in Hl as [_ L3].
    assert (Hnil : is_nil (mean_loopexp l) = false) by (destruct l as [[[]|]|[]|[]|]; reflexivity).
    unfold maybe in L3. rewrite Hnil in L3. cbn [orb] in L3.
    destruct (back_source_loop _ _ Hn L3) as (_ & l' & l1 & l2 & l3); [apply (parts_built _ _ Hb); right; right; left; reflexivity|].
    destruct Hbk as (b' & B0 & B1 & B2 & B3 & B4 & B5 & B6 & B7 & B8 & B9).
    { exact L5. } { apply (built_list _ _ Hb). intros x Hx. cbn [parts]. rewrite elems_slice. do 4 right. exact Hx. }
    exists (CForEach v l' b'), Semi. split.
    { rewrite itoks_loop, Hnil, btoks_slice. cbn [toks_stmt is_nil]. rewrite l1, B1, Hv. repeat (rewrite <- ?app_assoc; cbn [app]). reflexivity. }
    split; [cbn [mean_stmt]; rewrite strip0_loops, strip_loops, l2, (strips_slice _ _ B2); reflexivity|].
    split; [left; reflexivity|]. cbn [bound_stmt clean_stmt sure_stmt]. rewrite l3, B3, B4, B5. repeat split.
    + intros z. cbn [loose_stmt]. apply B6.
    + cbn [while_stmt]. exact B7.
    + intros z. cbn [throws_stmt]. apply B8.
    + intros z. cbn [returns_stmt]. apply B9.
  - (* Для *)
    intros e1 e2 b IHb rest Hn. cbn [toks_stmt] in Hn. flat Hn. apply nk_cons in Hn; [|reflexivity]. pose proof (nk_expr _ _ Hn) as N0. apply nk_cons in N0; [|reflexivity].
    pose proof (nk_expr _ _ N0) as N1. apply nk_cons in N1; [|reflexivity]. destruct (IHb _ N1) as [N2 Hbk].
    split; [eapply nk_cons; [exact N2|reflexivity]|]. cbn [mean_stmt]. rewrite lasts_loop, elems_slice. intros Hl Hb.
    apply andb_true_iff in Hl as [Hl L5]. apply andb_true_iff in Hl as [Hl _]. apply andb_true_iff in Hl as [Hl _]. apply andb_true_iff in Hl as [L1 L2].
    assert (M2 := made_expr _ _ N0).
    destruct (back_source _ (ME 0) false _ eq_refl Hn (maybe_made _ (made_expr _ _ Hn) L1)) as (e1' & E1 & F1 & G1 & _); [apply (parts_built _ _ Hb); left; reflexivity|].
    destruct (back_source _ (ME 0) false _ eq_refl N0 (maybe_made _ M2 L2)) as (e2' & E2 & F2 & G2 & _); [apply (parts_built _ _ Hb); right; left; reflexivity|].
    destruct Hbk as (b' & B0 & B1 & B2 & B3 & B4 & B5 & B6 & B7 & B8 & B9).
    { exact L5. } { apply (built_list _ _ Hb). intros x Hx. cbn [parts]. rewrite elems_slice. do 4 right. exact Hx. }
    exists (CFor e1' e2' b'), Semi. split.
    { rewrite itoks_loop, (made_not_nil _ _ M2), btoks_slice. cbn [toks_stmt is_nil]. rewrite E1, E2, B1. repeat (rewrite <- ?app_assoc; cbn [app]). reflexivity. }
    split; [cbn [mean_stmt]; rewrite strip0_loops, strip_loops, F1, F2, (strips_slice _ _ B2); reflexivity|].
    split; [left; reflexivity|]. cbn [bound_stmt clean_stmt sure_stmt]. rewrite G1, G2, B3, B4, B5. repeat split.
    + intros z. cbn [loose_stmt]. apply B6.
    + cbn [while_stmt]. exact B7.
    + intros z. cbn [throws_stmt]. apply B8.
    + intros z. cbn [returns_stmt]. apply B9.
  - (* Пока *)
    intros e b IHb rest Hn. cbn [toks_stmt] in Hn. flat Hn. apply nk_cons in Hn; [|reflexivity].
    pose proof (nk_expr _ _ Hn) as N1. apply nk_cons in N1; [|reflexivity]. destruct (IHb _ N1) as [N2 Hbk].
    split; [eapply nk_cons; [exact N2|reflexivity]|]. cbn [mean_stmt]. rewrite lasts_loop, elems_slice. intros Hl Hb.
    apply andb_true_iff in Hl as [Hl L5]. apply andb_true_iff in Hl as [Hl L4].
    assert (M := made_expr _ _ Hn).
    destruct (back_source _ (ME 0) false _ eq_refl Hn (maybe_made _ M L4)) as (e' & E1 & E2 & E3 & _); [apply (parts_built _ _ Hb); right; right; right; left; reflexivity|].
    destruct Hbk as (b' & B0 & B1 & B2 & B3 & B4 & B5 & B6 & B7 & B8 & B9).
    { exact L5. } { apply (built_list _ _ Hb). intros x Hx. cbn [parts]. rewrite elems_slice. do 4 right. exact Hx. }
    exists (CWhile e' b'), Semi. split.
    { rewrite itoks_loop, (made_not_nil _ _ M), btoks_slice. cbn [toks_stmt is_nil]. rewrite E1, B1. repeat (rewrite <- ?app_assoc; cbn [app]). reflexivity. }
    split; [cbn [mean_stmt]; rewrite strip0_loops, strip_loops, E2, (strips_slice _ _ B2); reflexivity|].
    split; [left; reflexivity|]. cbn [bound_stmt clean_stmt sure_stmt]. rewrite E3, B3, B4, B5. repeat split.
    + intros z. cbn [loose_stmt]. apply B6.
    + intros z. cbn [throws_stmt]. apply B8.
    + intros z. cbn [returns_stmt]. apply B9.
  - (* Попытка *)
    intros b IHb c IHc rest Hn. cbn [toks_stmt] in Hn. flat Hn. apply nk_cons in Hn; [|reflexivity]. destruct (IHb _ Hn) as [N1 Hbk]. apply nk_cons in N1; [|reflexivity].
    destruct (IHc _ N1) as [N2 Hck]. split; [eapply nk_cons; [exact N2|reflexivity]|]. cbn [mean_stmt]. rewrite lasts_try, !elems_slice. intros Hl Hb.
    apply andb_true_iff in Hl as [L1 L2].
    destruct Hbk as (b' & B0 & B1 & B2 & B3 & B4 & B5 & B6 & B7 & B8 & B9).
    { exact L1. } { apply (built_list _ _ Hb). intros x Hx. cbn [parts]. rewrite !elems_slice. apply in_or_app. left. exact Hx. }
    destruct Hck as (c' & C0 & C1 & C2 & C3 & C4 & C5 & C6 & C7 & C8 & C9).
    { exact L2. } { apply (built_list _ _ Hb). intros x Hx. cbn [parts]. rewrite !elems_slice. apply in_or_app. right. exact Hx. }
    exists (CTry b' c'), Semi. split.
    { rewrite itoks_try, !btoks_slice. cbn [toks_stmt]. rewrite B1, C1. repeat (rewrite <- ?app_assoc; cbn [app]). reflexivity. }
    split; [cbn [mean_stmt]; rewrite strip0_trys, strip_trys, (strips_slice _ _ B2), (strips_slice _ _ C2); reflexivity|].
    split; [left; reflexivity|]. cbn [bound_stmt clean_stmt sure_stmt]. rewrite B3, B4, B5, C3, C4, C5. repeat split.
    + intros z. cbn [loose_stmt]. rewrite B6, B7, C6. reflexivity.
    + cbn [while_stmt]. rewrite B7, C7. reflexivity.
    + intros z. cbn [throws_stmt]. rewrite B8, C8. reflexivity.
    + intros z. cbn [returns_stmt]. rewrite B9, C9. reflexivity.
  - intros rest Hn. split; [eapply nk_cons; [exact Hn|reflexivity]|]. intros _ _. exists CContinue, Semi. repeat split. left; reflexivity.
  - intros rest Hn. split; [eapply nk_cons; [exact Hn|reflexivity]|]. intros _ _. exists CBreak, Semi. repeat split. left; reflexivity.
  - (* ВызватьИсключение *)
    intros o rest Hn. cbn [toks_stmt] in Hn. flat Hn. apply nk_cons in Hn; [|reflexivity]. split; [exact (nk_oexpr _ _ Hn)|]. intros Hl Hb. destruct o as [|e].
    { exists (CThrow ONone), Semi. repeat split. left; reflexivity. }
    cbn [toks_oexpr] in Hn. cbn [mean_stmt mean_oexpr] in Hl, Hb |- *. assert (M := made_expr _ _ Hn).
    assert (X : exists a, K tThrow :: Pct "(" :: toks_oexpr a ++ [Pct ")"; Pct ";"] = itoks (SThrow (mean_expr e)) /\ strip0 (mean_expr (EParen (AOne a))) = strip (mean_expr e) /\ bound_oexpr a = true).
    { assert (G : lasts true (mean_expr e) = true -> itoks (SThrow (mean_expr e)) = K tThrow :: Pct "(" :: pt false MV (mean_expr e) ++ [Pct ")"; Pct ";"] ->
        exists a, K tThrow :: Pct "(" :: toks_oexpr a ++ [Pct ")"; Pct ";"] = itoks (SThrow (mean_expr e)) /\ strip0 (mean_expr (EParen (AOne a))) = strip (mean_expr e) /\ bound_oexpr a = true).
      { intros L Hi. destruct (back_source _ MV true _ eq_refl Hn L) as (e' & E1 & E2 & E3 & _); [apply (parts_built _ _ Hb); left; reflexivity|].
        exists (OSome e'). cbn [toks_oexpr mean_expr mean_args mean_oexpr bound_oexpr strip0 fl_not no_flags]. rewrite E1, Hi, mean_expr_nn, (back_jump _ _ _ E2 L). auto. }
      destruct (mean_expr e) as [|w|f|b|t| |n fl|n ps g fl|i o|u c fl|n ps g|x y z|o l r fl|ps fl| | | | | | | | |l|n|] eqn:Es;
      try (inversion M; fail); try (apply G; [exact Hl|]; cbn [itoks app]; rewrite <- app_assoc; reflexivity); try discriminate Hl.
      destruct ps as [[|x [|y l]]|]; try discriminate Hl. cbn [lasts_stmt] in Hl. apply andb_true_iff in Hl as [L1 L2]. apply negb_true_iff in L1.
      cbn [itoks elems map tjoin strip app]. rewrite L1. inversion M as [| | | | | | | | | | | | | | | |? ? _ Hf Hf1 Hf2]; subst. inversion Hf as [|? ? Hx _]; subst. destruct Hx as [->|Hx].
      - exists ONone. cbn [is_nil mean_expr mean_args mean_oexpr strip0 fl_not no_flags]. rewrite (flags_eta fl), L1 by assumption. repeat split.
      - rewrite (made_not_nil _ _ Hx) in L2 |- *. destruct (back_all x) as (_ & _ & H). destruct (H MV true eq_refl Hx L2) as (e' & E1 & E2 & E3 & _).
        { apply (parts_built (SExprs (Some [x]) fl)); [|left; reflexivity]. apply (parts_built _ _ Hb). left. reflexivity. }
        exists (OSome e'). cbn [toks_oexpr mean_expr mean_args mean_oexpr bound_oexpr strip0 fl_not no_flags]. rewrite E1, mean_expr_nn, (back_jump _ _ _ E2 L2), <- app_assoc. auto. }
    destruct X as (a & A1 & A2 & A3). exists (CThrow (OSome (EParen (AOne a)))), Semi. split.
    { rewrite <- A1. cbn [toks_stmt toks_oexpr toks_expr toks_args app]. rewrite <- app_assoc. reflexivity. }
    split; [change (mean_stmt (CThrow (OSome (EParen (AOne a))))) with (SThrow (mean_expr (EParen (AOne a)))); cbn [strip strip0]; rewrite A2; reflexivity|].
    split; [left; reflexivity|]. repeat split. exact A3.
  - (* Возврат *)
    intros o rest Hn. cbn [toks_stmt] in Hn. flat Hn. apply nk_cons in Hn; [|reflexivity]. split; [exact (nk_oexpr _ _ Hn)|]. intros Hl Hb. destruct o as [|e].
    { exists (CReturn ONone), Semi. repeat split. left; reflexivity. }
    cbn [toks_oexpr] in Hn. cbn [mean_stmt mean_oexpr lasts_stmt] in Hl, Hb |- *. assert (M := made_expr _ _ Hn).
    destruct (back_source _ (ME 0) false _ eq_refl Hn (maybe_made _ M Hl)) as (e' & E1 & E2 & E3 & _); [apply (parts_built _ _ Hb); left; reflexivity|].
    exists (CReturn (OSome e')), Semi. cbn [toks_stmt toks_oexpr itoks mean_stmt mean_oexpr strip strip0 bound_stmt bound_oexpr]. rewrite E1, E2, E3. repeat split. left; reflexivity.
  - (* blocks *)
    intros rest Hn. split; [exact Hn|]. intros _ _. exists BNil. repeat split.
  - intros s IHs rest Hn. cbn [toks_block] in Hn. destruct (IHs _ Hn) as [N1 Hs]. split; [exact N1|]. cbn [mean_block forallb]. rewrite andb_true_r. intros Hl Hb.
    inversion Hb as [|? ? Hb1 _]; subst. destruct (Hs Hl Hb1) as (c' & x & C1 & C2 & C3 & C4 & C5 & C6 & C7 & C8 & C9 & C10).
    destruct (add_stmt BNil c' x) as (b' & B0 & B1 & B2 & B3 & B4 & B5 & B6 & B7 & B8 & B9); auto; try exact I.
    exists b'. split; [exact B0|]. rewrite B1, B2, B3, B4, B5. cbn [toks_block mean_block app map flat_map]. rewrite C1, C2, app_nil_r. repeat split.
    + intros z. rewrite B6. cbn [loose_block while_block]. rewrite orb_false_r. apply C7.
    + rewrite B7. exact C8.
    + intros z. rewrite B8. apply C9.
    + intros z. rewrite B9. apply C10.
  - intros b IHb x rest Hn. cbn [toks_block] in Hn. flat Hn. destruct (IHb _ Hn) as [N1 Hbk]. split; [eapply nk_cons; [destruct x; exact N1|destruct x; reflexivity]|]. exact Hbk.
  - intros b IHb y s IHs rest Hn. cbn [toks_block] in Hn. flat Hn. destruct (IHb _ Hn) as [N1 Hbk].
    assert (N2 : nk false (toks_stmt s ++ rest)) by (eapply nk_cons; [destruct y; exact N1|destruct y; reflexivity]).
    destruct (IHs _ N2) as [N3 Hs]. split; [exact N3|]. cbn [mean_block]. rewrite forallb_app. cbn [forallb]. rewrite andb_true_r. intros Hl Hb.
    apply andb_true_iff in Hl as [L1 L2]. apply Forall_app in Hb as [Hb1 Hb2]. inversion Hb2 as [|? ? Hb3 _]; subst.
    destruct (Hbk L1 Hb1) as (b0 & A0 & A1 & A2 & A3 & A4 & A5 & A6 & A7 & A8 & A9).
    destruct (Hs L2 Hb3) as (c' & x & C1 & C2 & C3 & C4 & C5 & C6 & C7 & C8 & C9 & C10).
    destruct (add_stmt b0 c' x) as (b' & B0 & B1 & B2 & B3 & B4 & B5 & B6 & B7 & B8 & B9); auto.
    exists b'. split; [exact B0|]. rewrite B1, B2, B3, B4, B5, A1, C1. rewrite flat_map_app, !map_app, A2. cbn [map flat_map]. rewrite C2, app_nil_r. repeat split.
    + intros z. rewrite B6. cbn [loose_block]. rewrite A6, A7, C7. reflexivity.
    + rewrite B7. cbn [while_block]. rewrite A7, C8. reflexivity.
    + intros z. rewrite B8. cbn [throws_block]. rewrite A8, C9. reflexivity.
    + intros z. rewrite B9. cbn [returns_block]. rewrite A9, C10. reflexivity.
  - (* ИначеЕсли *)
    intros rest Hn. split; [exact Hn|]. intros _ _. exists EINil. repeat split; cbn; lia.
  - intros e b IHb l IHl rest Hn. cbn [toks_elseifs] in Hn. flat Hn. apply nk_cons in Hn; [|reflexivity]. pose proof (nk_expr _ _ Hn) as N1. apply nk_cons in N1; [|reflexivity].
    destruct (IHb _ N1) as [N2 Hbk]. destruct (IHl _ N2) as [N3 _]. split; [exact N3|]. cbn [mean_elseifs]. intros Hl Hb.
    destruct l as [|e2 b2 l2]; [|destruct Hl]. cbn [mean_elseifs] in *. rewrite elems_slice in Hl. destruct Hl as [L1 L2]. inversion Hb as [|? ? Hb1 _]; subst.
    destruct (back_source e (ME 0) false _ eq_refl Hn L1) as (e' & E1 & E2 & E3 & _); [apply (parts_built _ _ Hb1); left; reflexivity|].
    destruct Hbk as (b' & B0 & B1 & B2 & B3 & B4 & B5 & B6 & B7 & B8 & B9).
    { exact L2. } { apply (built_list _ _ Hb1). intros x Hx. cbn [parts]. rewrite elems_slice. right. apply in_or_app. left. exact Hx. }
    exists (EICons e' b' EINil). split.
    { cbn [toks_elseifs flat_map branch_toks]. rewrite E1, btoks_slice, B1. repeat (rewrite <- ?app_assoc; cbn [app]). reflexivity. }
    split; [cbn [mean_elseifs map]; rewrite strip0_ifs, strip_ifs, E2, (strips_slice _ _ B2); reflexivity|].
    split; [cbn; lia|]. split; [cbn; lia|]. cbn [bound_elseifs clean_elseifs sure_elseifs]. rewrite E3, B3, B4, B5. repeat split.
    + intros z. cbn [loose_elseifs]. rewrite B6. reflexivity.
    + cbn [while_elseifs]. rewrite B7. reflexivity.
    + intros z. cbn [throws_elseifs]. rewrite B8. reflexivity.
    + intros z. cbn [returns_elseifs]. rewrite B9. reflexivity.
  - (* Иначе *)
    intros rest Hn. split; [exact Hn|]. intros _ _. exists NoElse. repeat split.
  - intros b IHb rest Hn. cbn [toks_else app] in Hn. apply nk_cons in Hn; [|reflexivity]. destruct (IHb _ Hn) as [N1 Hbk]. split; [exact N1|].
    cbn [mean_else]. rewrite elems_slice. intros Hl Hb. destruct (Hbk Hl Hb) as (b' & B0 & B1 & B2 & B3 & B4 & B5 & B6).
    destruct (mean_block b) as [|s r] eqn:Em.
    + apply toks_nil_block in B1; [|exact B0]. subst b'. exists NoElse. destruct B6 as (B6 & B7 & B8 & B9). repeat split; auto.
    + exists (Else b'). cbn [toks_else bound_else clean_else sure_else]. rewrite B1. split; [reflexivity|]. split; [cbn [mean_else]; apply strips_slice in B2; exact B2|].
      repeat split; auto; apply B6.
Qed.
