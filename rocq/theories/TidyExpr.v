(** Printed expressions read back, whatever they are. *)
From Verif Require Import Bytes Utf8 UnicodeTables Float64 GoTime Ast Lexer LexFacts Utf8Facts LexSpec LexProofs LexTrivia
  LexTokens LexStrings NumSpec NumProofs NumTokens Tok Syntax Levels RulesFacts StmtInd Parser Printer PrintInv Properties_Literals Writes PrintToks Survive Strip Back Tidy.
From Coq Require Import QArith Qpower Qfield.
Open Scope Z_scope.

(** * Numbers *)
Lemma nearest_int_abs f : nearest_int f = nearest_int (f64_abs f). Proof. reflexivity. Qed.
Lemma nearest_int_nonneg f : is_f64 f -> 0 <= nearest_int f.
Proof.
  intros [_ Hf]. unfold nearest_int. assert (Hm : 0 <= f_man f) by (destruct pow52; lia).
  destruct (0 <=? f_exp f) eqn:E; [pose proof (pow2_pos (f_exp f)); apply Z.leb_le in E; nia|].
  apply Z.leb_gt in E. apply round_ne_nonneg; [apply pow2_pos; lia|lia].
Qed.
Lemma rounded_int f : is_f64 f -> to_f64 (nearest_int f) 1 = Some (rounded f).
Proof.
  intros Hf. destruct (format_float f Hf) as (_ & _ & _ & _ & _ & E & _). rewrite <- E.
  unfold format_0f. rewrite (proj1 Hf). cbn [app]. fold (nearest_int f).
  destruct (dec_of_Z_text _ (nearest_int_nonneg f Hf)) as (ds & D1 & D2 & D3 & D4 & _). rewrite D4, parse_float_int, D3 by assumption. reflexivity.
Qed.
Lemma integer_rounded f : is_f64 (f64_abs f) -> integer f = F64 (f_neg f) (f_man (rounded (f64_abs f))) (f_exp (rounded (f64_abs f))) /\ f_neg (rounded (f64_abs f)) = false.
Proof.
  intros Hf. pose proof (rounded_int _ Hf) as E. unfold integer. rewrite nearest_int_abs, E. split; [reflexivity|].
  apply to_f64_nearest in E; [|apply nearest_int_nonneg, Hf|lia]. apply E.
Qed.

(** * Expressions *)
Definition tidy_ident (s : stmt) : Prop := forall pd, made pd s -> is_ident s = true -> bare s -> written s = true -> built s ->
  exists i, toks_ident i = pt pd MV s /\ strip (mean_ident i) = strip (tidy true s) /\ bound_ident i = true.
Definition tidy_path (s : stmt) : Prop := made false s -> bare s -> written s = true -> built s ->
  exists p, toks_path p = pt false MC s /\ strip (mean_path p) = strip (tidy true s) /\ bound_path p = true.
Definition turned (v : bool) (s : stmt) (e : expr) : Prop := exists p r, e = EBin BEq (EPath p) r /\
  strip (SAssign (mean_path p) (Some [mean_expr r]) no_flags) = strip (assigned (tidy v s)).
Definition negated (v : bool) (s : stmt) (e : expr) : Prop := exists e0, e = ENot e0 /\ bound e0 = true /\ (forall n, left_above n e0 = true) /\
  (forall n, n <= 11 -> right_above n e0 = true) /\ strip (mean_expr e0) = strip (unnot (tidy v s)).
Definition good (m : pmode) (v : bool) (s : stmt) (e : expr) : Prop :=
  toks_expr e = pt false m s /\ strip (mean_expr e) = strip (tidy v s) /\ bound e = true /\ (nested m -> closed s e) /\
  (v = false -> is_path e = plain s) /\ (equation s = false -> no_assign e = true) /\ (equation s = true -> ~ nested m -> turned v s e) /\
  (v = false -> begins_not s = true -> negated v s e).
Definition tidy_expr (s : stmt) : Prop := forall m v, place m v -> made false s -> written s = true -> built s -> exists e, good m v s e.

Lemma tidy_nil v s : is_nil (tidy v s) = is_nil s.
Proof.
  destruct s; try reflexivity; cbn [tidy].
  - destruct (fl_not fl), (begins_not s1 && negb (looser o)); reflexivity.
  - destruct ps; reflexivity.
Qed.
Lemma unnot_nil s : is_nil (unnot s) = is_nil s.
Proof. destruct s; try reflexivity. destruct ps as [[|x [|]]|]; try reflexivity. cbn. destruct (fl_not fl); reflexivity. Qed.
Lemma strip_paren x fl : fl_not fl = false -> is_nil x = false -> strip (SExprs (Some [x]) fl) = strip x.
Proof. intros E N. cbn [strip]. rewrite E, N. reflexivity. Qed.
Lemma plain_not s : plain s = true -> begins_not s = false.
Proof.
  induction s as [s IH] using stmt_parts_ind. destruct s; try discriminate; cbn [plain begins_not]; intros H; try reflexivity.
  - destruct (fl_not fl); [discriminate|reflexivity].
  - destruct (fl_not fl); [discriminate|reflexivity].
  - destruct (fl_not fl); [discriminate|reflexivity].
  - destruct ps as [[|x [|]]|]; try reflexivity. apply andb_true_iff in H as [H1 H2]. apply negb_true_iff in H1. rewrite H1. cbn [orb]. apply IH; [left; reflexivity|exact H2].
Qed.

Lemma tidy_args l : Forall tidy_expr l -> l <> [] -> Forall (fun x => x = SNil \/ made false x) l ->
  forallb (fun x => is_nil x || written x) l = true -> Forall built l ->
  exists a, toks_args a = tjoin (map (pt false MV) l) /\ map strip (mean_args a) = map strip (map (tidy true) l) /\ bound_args a = true.
Proof.
  induction l as [|x l IH] using rev_ind; [congruence|]. intros H _ Hm Hl Hb.
  apply Forall_app in H as [H1 H2]. apply Forall_app in Hm as [M1 M2]. apply Forall_app in Hb as [B1 B2].
  rewrite forallb_app in Hl. apply andb_true_iff in Hl as [L1 L2]. cbn [forallb] in L2. rewrite andb_true_r in L2.
  inversion H2 as [|? ? H3 _]; subst. inversion M2 as [|? ? M3 _]; subst. inversion B2 as [|? ? B3 _]; subst.
  assert (O : exists o, toks_oexpr o = pt false MV x /\ strip (mean_oexpr o) = strip (tidy true x) /\ bound_oexpr o = true).
  { destruct M3 as [->|M3]; [exists ONone; repeat split|]. rewrite (made_not_nil _ _ M3) in L2.
    destruct (H3 MV true eq_refl M3 L2 B3) as (e & E1 & E2 & E3 & _). exists (OSome e). repeat split; assumption. }
  destruct O as (o & O1 & O2 & O3). destruct l as [|y l].
  - exists (AOne o). cbn [toks_args mean_args bound_args map app tjoin]. rewrite O1, O2. repeat split; assumption.
  - destruct IH as (a & A1 & A2 & A3); try assumption; [discriminate|]. exists (AMore a o). cbn [toks_args mean_args bound_args].
    rewrite (map_app (pt false MV)), (map_app (tidy true)), !(map_app strip). change (map (pt false MV) [x]) with [pt false MV x]. rewrite tjoin_snoc by discriminate.
    rewrite A1, O1, A2, A3, O3. cbn [map]. rewrite O2. repeat split.
Qed.

Lemma good_not n : n <= 6 -> (n <=? level_not) && true = true. Proof. intros H. rewrite andb_true_r. apply Z.leb_le. exact H. Qed.
Lemma good_sign n : n <= 11 -> (n <=? level_sign) && true = true. Proof. intros H. rewrite andb_true_r. apply Z.leb_le. exact H. Qed.
(** A name, with and without НЕ. *)
Lemma good_path m v s p no : toks_path p ++ [] = pt false m (unnot s) -> pt false m s = tnot no ++ pt false m (unnot s) ->
  strip (mean_path p) = strip (unnot (tidy v s)) -> strip (mark_not (mean_path p)) = strip (tidy v s) \/ no = false -> (no = false -> unnot (tidy v s) = tidy v s) ->
  bound_path p = true -> plain s = negb no -> equation s = false -> begins_not s = no ->
  good m v s (if no then ENot (EPath p) else EPath p).
Proof.
  intros T1 T2 M1 M2 M3 B P E Bn. rewrite app_nil_r in T1. unfold good, closed. rewrite E, Bn, P, T2, <- T1. destruct no; cbn [tnot app toks_expr mean_expr bound left_above right_above no_assign is_path negb].
  - split; [reflexivity|]. split; [destruct M2 as [M2|M2]; [exact M2|discriminate]|]. split; [exact B|].
    split; [intros _; split; [reflexivity|]; split; [intros n Hn; apply good_not, Hn|]; split; [discriminate|reflexivity]|].
    split; [auto|]. split; [auto|]. split; [discriminate|]. intros _ _. exists (EPath p). repeat split; auto.
  - split; [reflexivity|]. split; [rewrite M1, M3; reflexivity|]. split; [exact B|].
    split; [intros _; repeat split; auto|]. split; [auto|]. split; [auto|]. split; discriminate.
Qed.

Lemma tidy_all s : tidy_ident s /\ tidy_path s /\ tidy_expr s.
Proof.
  induction s as [s IH] using stmt_parts_ind.
  assert (IHi : forall x, In x (parts s) -> tidy_ident x) by (intros; apply IH; assumption).
  assert (IHp : forall x, In x (parts s) -> tidy_path x) by (intros; apply IH; assumption).
  assert (IHe : forall x, In x (parts s) -> tidy_expr x) by (intros; apply IH; assumption).
  clear IH.
  assert (HI : tidy_ident s).
  { intros pd Hm Hi Hbr Hl Hb. inversion Hm; subst; try discriminate Hi; cbn [bare] in Hbr; subst.
    - exists (IVar n). cbn. rewrite H. repeat split.
    - destruct (tidy_args l) as (a & A1 & A2 & A3); try assumption.
      { apply Forall_forall. intros x Hx. apply IHe. exact Hx. }
      { apply built_inv in Hb. apply Hb. }
      exists (ICall n a). cbn [toks_ident mean_ident strip tidy bound_ident pt tnot fl_not no_flags app]. rewrite A1, A2, H. repeat split; assumption.
    - cbn [written forallb] in Hl. rewrite (made_not_nil _ _ H0), andb_true_r in Hl. cbn [orb] in Hl.
      assert (Hx : In x (parts (SMethod n (Some [x]) no_flags no_flags))) by (left; reflexivity).
      destruct (IHe x Hx MV true eq_refl H0 Hl (parts_built _ _ Hb Hx)) as (e & E1 & E2 & E3 & _).
      exists (IExec n e). cbn [toks_ident mean_ident strip tidy bound_ident pt tnot fl_not no_flags app map tjoin]. rewrite E1, E2, H. repeat split; assumption.
    - cbn [written] in Hl. lands.
      assert (Xi : In i (parts (SItem i o))) by (left; reflexivity). assert (Xo : In o (parts (SItem i o))) by (right; left; reflexivity).
      destruct (IHe i Xi (ME 0) false eq_refl H ltac:(assumption) (parts_built _ _ Hb Xi)) as (e & E1 & E2 & E3 & _).
      destruct (IHi o Xo pd H0 H1 H2 ltac:(assumption) (parts_built _ _ Hb Xo)) as (d & D1 & D2 & D3).
      exists (IIndex d e). cbn [toks_ident mean_ident strip tidy bound_ident pt]. rewrite E1, E2, E3, D1, D2, D3. repeat split. }
  assert (HP : tidy_path s).
  { intros Hm Hbr Hl Hb. destruct (is_ident s) eqn:Ei.
    - destruct (HI false Hm Ei Hbr Hl Hb) as (i & I1 & I2 & I3). exists (PId i). cbn [toks_path mean_path bound_path].
      rewrite pt_ident by exact Ei. repeat split; assumption.
    - destruct (chain_path s Hbr Ei) as (u & c & ->). inversion Hm; subst. cbn [written] in Hl. lands.
      assert (Xu : In u (parts (SChain u c no_flags))) by (left; reflexivity). assert (Xc : In c (parts (SChain u c no_flags))) by (right; left; reflexivity).
      destruct (IHi u Xu true ltac:(assumption) ltac:(assumption) ltac:(assumption) ltac:(assumption) (parts_built _ _ Hb Xu)) as (i & I1 & I2 & I3).
      destruct (IHp c Xc ltac:(assumption) ltac:(assumption) ltac:(assumption) (parts_built _ _ Hb Xc)) as (p & P1 & P2 & P3).
      exists (PDot p i). cbn [toks_path mean_path bound_path strip tidy pt app]. rewrite I1, I2, I3, P1, P2, P3. repeat split. }
  split; [exact HI|]. split; [exact HP|].
  assert (Simple : forall e m v, toks_expr e = pt false m s -> strip (mean_expr e) = strip (tidy v s) -> bound e = true -> is_path e = false ->
    plain s = false -> equation s = false -> begins_not s = false ->
    (forall n, left_above n e = true) -> (forall n, n <= 11 -> right_above n e = true) -> no_assign e = true ->
    exists e, good m v s e).
  { intros e m v E1 E2 E3 E4 P1 P2 P3 E5 E6 E7. exists e. unfold good, closed. rewrite P1, P2, P3. repeat (split; [solve [auto]|]).
    split; [intros _; repeat split; auto; intros n Hn; apply E6; lia|]. repeat split; auto; discriminate. }
  intros m v Hp Hm Hl Hb.
  inversion Hm; subst; try discriminate Hl.
  - apply (Simple (EStr s0)); try reflexivity. (destruct m; [| |exfalso; exact Hp]); reflexivity.
  - apply built_inv in Hb as [Hf _]. cbn [local] in Hf. destruct (integer_rounded f Hf) as [Ei En].
    assert (E : pt false m (SNum f) = tminus (f_neg f) ++ [KNum (rounded (f64_abs f))]) by ((destruct m; [| |exfalso; exact Hp]); reflexivity).
    cbn [tidy] in *. set (g := rounded (f64_abs f)) in *. clearbody g. destruct g as [gn gm ge]. cbn [f_neg f_man f_exp] in *. subst gn. destruct f as [neg man ex]. cbn [f_neg] in *. destruct neg.
    + apply (Simple (ENeg (ENum (F64 false gm ge)))); try reflexivity; [rewrite E; reflexivity|cbn [tidy]; rewrite Ei; reflexivity|].
      intros n Hn. apply good_sign, Hn.
    + apply (Simple (ENum (F64 false gm ge))); try reflexivity; [rewrite E; reflexivity|cbn [tidy]; rewrite Ei; reflexivity].
  - destruct b; [apply (Simple ETrue)|apply (Simple EFalse)]; try reflexivity; (destruct m; [| |exfalso; exact Hp]); reflexivity.
  - apply (Simple (EDate t)); try reflexivity. (destruct m; [| |exfalso; exact Hp]); reflexivity.
  - apply (Simple EUndef); try reflexivity. (destruct m; [| |exfalso; exact Hp]); reflexivity.
  - (* variable *)
    destruct fl as [mi pl no]. cbn [fl_plus] in H0. subst pl. set (base := EPath (PId (IVar n))).
    destruct m as [|lv|]; cbn [place] in Hp; [| |contradiction]; subst v.
    + exists base. unfold good, closed. cbn. rewrite H. repeat split; auto; discriminate.
    + exists (let e1 := if mi then ENeg base else base in if no then ENot e1 else e1). unfold base, good, closed. cbv zeta.
      split; [destruct mi, no; cbn; rewrite H; reflexivity|]. split; [destruct mi, no; reflexivity|]. split; [destruct mi, no; reflexivity|].
      split. { intros _. split; [destruct mi, no; reflexivity|]. split; [|split; [|destruct mi, no; reflexivity]].
        - intros k Hk. destruct mi, no; cbn; rewrite ?andb_true_r; try apply andb_true_iff; try split; try reflexivity; apply Z.leb_le; unfold level_sign, level_not; lia.
        - cbn [begins_not fl_not]. intros -> k Hk. destruct mi; [apply good_sign, Hk|reflexivity]. }
      split; [destruct mi, no; reflexivity|]. split; [destruct mi, no; reflexivity|]. split; [discriminate|].
      cbn [begins_not fl_not]. intros _ ->. unfold negated. exists (if mi then ENeg (EPath (PId (IVar n))) else EPath (PId (IVar n))).
      split; [reflexivity|]. split; [destruct mi; reflexivity|]. split; [destruct mi; reflexivity|]. split; [intros k Hk; destruct mi; [apply good_sign, Hk|reflexivity]|].
      destruct mi; reflexivity.
  - (* call *)
    destruct (tidy_args l) as (a & A1 & A2 & A3); try assumption.
    { apply Forall_forall. intros x Hx. apply IHe. exact Hx. }
    { apply built_inv in Hb. apply Hb. }
    rewrite (flags_eta fl) by assumption. exists (if fl_not fl then ENot (EPath (PId (ICall n a))) else EPath (PId (ICall n a))).
    apply good_path; try reflexivity; try exact A3.
    + cbn [toks_path toks_ident unnot pt tnot fl_not no_flags app]. rewrite A1, H, app_nil_r. destruct m; reflexivity.
    + cbn [mean_path mean_ident unnot tidy strip]. rewrite A2. reflexivity.
    + destruct (fl_not fl); [left|right; reflexivity]. cbn [mean_path mean_ident mark_not tidy strip no_flags fl_minus fl_plus]. rewrite A2. reflexivity.
    + intros ->. reflexivity.
  - (* Выполнить *)
    cbn [written forallb] in Hl. rewrite (made_not_nil _ _ H0), andb_true_r in Hl. cbn [orb] in Hl.
    assert (Hx : In x (parts (SMethod n (Some [x]) no_flags fl))) by (left; reflexivity).
    destruct (IHe x Hx MV true eq_refl H0 Hl (parts_built _ _ Hb Hx)) as (e & E1 & E2 & E3 & _).
    rewrite (flags_eta fl) by assumption. exists (if fl_not fl then ENot (EPath (PId (IExec n e))) else EPath (PId (IExec n e))).
    apply good_path; try reflexivity; try exact E3.
    + cbn [toks_path toks_ident unnot pt tnot fl_not no_flags app map tjoin]. rewrite E1, H, app_nil_r. destruct m; reflexivity.
    + cbn [mean_path mean_ident unnot tidy strip map]. rewrite E2. reflexivity.
    + destruct (fl_not fl); [left|right; reflexivity]. cbn [mean_path mean_ident mark_not tidy strip no_flags fl_minus fl_plus map]. rewrite E2. reflexivity.
    + intros ->. reflexivity.
  - (* index *)
    destruct (HI false Hm eq_refl I Hl Hb) as (d & D1 & D2 & D3).
    exists (EPath (PId d)). apply (good_path m v _ (PId d) false); try reflexivity; try exact D3; auto.
    cbn [toks_path]. rewrite app_nil_r, D1. destruct m; reflexivity.
  - (* chain *)
    cbn [written] in Hl. apply andb_true_iff in Hl as [Lu Lc].
    assert (Xu : In u (parts (SChain u c fl))) by (left; reflexivity). assert (Xc : In c (parts (SChain u c fl))) by (right; left; reflexivity).
    destruct (IHi u Xu true H H0 H1 Lu (parts_built _ _ Hb Xu)) as (i & I1 & I2 & I3).
    destruct (IHp c Xc H2 H3 Lc (parts_built _ _ Hb Xc)) as (p & P1 & P2 & P3).
    assert (Hc : m <> MC) by (intros ->; exact Hp).
    exists (if fl_not fl then ENot (EPath (PDot p i)) else EPath (PDot p i)). apply good_path; try reflexivity.
    + cbn [toks_path unnot pt tnot fl_not no_flags app]. rewrite P1, I1, app_nil_r. destruct m; try congruence; reflexivity.
    + cbn [unnot pt fl_not no_flags]. destruct m; try congruence; reflexivity.
    + cbn [mean_path unnot tidy strip]. rewrite P2, I2. reflexivity.
    + destruct (fl_not fl) eqn:Ef; [left|right; reflexivity]. cbn [mean_path mark_not tidy strip no_flags fl_minus fl_plus]. rewrite P2, I2. unfold only_not. rewrite Ef. reflexivity.
    + intros E. cbn [tidy unnot]. unfold only_not. rewrite E. reflexivity.
    + cbn [bound_path]. rewrite P3, I3. reflexivity.
  - (* Новый name *)
    apply (Simple (ENew (NewCall c (AOne ONone)))); try reflexivity.
    (destruct m; [| |exfalso; exact Hp]); (destruct c as [|b c]; [congruence|]); cbn [toks_expr toks_new toks_args toks_oexpr pt map tjoin app]; rewrite H0; reflexivity.
  - destruct (tidy_args l) as (a & A1 & A2 & A3); try assumption.
    { apply Forall_forall. intros x Hx. apply IHe. exact Hx. }
    { apply built_inv in Hb. apply Hb. }
    assert (D : c = [] \/ exists b c', c = b :: c') by (destruct c; eauto). destruct D as [->|(b & c' & Ec)].
    + apply (Simple (ENew (NewArgs a))); try reflexivity; [|cbn [mean_expr mean_new strip tidy]; rewrite A2; reflexivity|exact A3].
      (destruct m; [| |exfalso; exact Hp]); cbn [toks_expr toks_new pt app]; rewrite A1; reflexivity.
    + destruct H as [->|H]; [discriminate|].
      apply (Simple (ENew (NewCall c a))); try reflexivity; [|cbn [mean_expr mean_new strip tidy]; rewrite A2; reflexivity|exact A3].
      subst c. (destruct m; [| |exfalso; exact Hp]); cbn [toks_expr toks_new pt app]; rewrite A1, H; reflexivity.
  - (* ternary *)
    cbn [written] in Hl. lands.
    assert (X1 : In e (parts (STern e t f))) by (left; reflexivity). assert (X2 : In t (parts (STern e t f))) by (right; left; reflexivity).
    assert (X3 : In f (parts (STern e t f))) by (right; right; left; reflexivity).
    destruct (IHe e X1 (ME 0) false eq_refl H ltac:(assumption) (parts_built _ _ Hb X1)) as (e1 & A1 & A2 & A3 & _).
    destruct (IHe t X2 (ME 0) false eq_refl H0 ltac:(assumption) (parts_built _ _ Hb X2)) as (e2 & B1 & B2 & B3 & _).
    destruct (IHe f X3 (ME 0) false eq_refl H1 ltac:(assumption) (parts_built _ _ Hb X3)) as (e3 & C1 & C2 & C3 & _).
    apply (Simple (ETern e1 e2 e3)); try reflexivity.
    + cbn [toks_expr]. rewrite A1, B1, C1. (destruct m; [| |exfalso; exact Hp]); reflexivity.
    + cbn [mean_expr strip tidy]. rewrite A2, B2, C2. reflexivity.
    + cbn. rewrite A3, B3, C3. reflexivity.
  - (* operation *)
    cbn [written] in Hl. apply andb_true_iff in Hl as [Ll Lr].
    assert (X1 : In l (parts (SExp o l r fl))) by (left; reflexivity).
    assert (X2 : In r (parts (SExp o l r fl))) by (right; left; reflexivity).
    set (lv := match m with ME l => l | _ => O end).
    destruct (IHe l X1 (ME (S lv)) false eq_refl H0 Ll (parts_built _ _ Hb X1)) as (el & A1 & A2 & A3 & A4 & A5 & _ & _ & A8).
    destruct (IHe r X2 (ME (S lv)) false eq_refl H1 Lr (parts_built _ _ Hb X2)) as (er & B1 & B2 & B3 & B4 & _).
    destruct (A4 I) as (L1 & L2 & L3 & L4). destruct (B4 I) as (R1 & _). specialize (A5 eq_refl). specialize (A8 eq_refl).
    set (ext := begins_not l && negb (looser o)).
    set (t0 := if ext then SExp o (unnot (tidy false l)) (tidy false r) not_mark else SExp o (tidy false l) (tidy false r) no_flags).
    assert (Base : exists b0, toks_expr b0 = pt false (ME (S lv)) l ++ K (op_tok o) :: pt false (ME (S lv)) r /\ strip (mean_expr b0) = strip t0 /\ bound b0 = true /\
      is_path b0 = false /\ is_nil (mean_expr b0) = false /\ (o <> OpEq \/ plain l = false -> no_assign b0 = true) /\
      (o = OpEq -> plain l = true -> exists p, b0 = EBin BEq (EPath p) er /\ strip (mean_path p) = strip (tidy false l))).
    { unfold t0. destruct ext eqn:Ex; unfold ext in Ex.
      - apply andb_true_iff in Ex as [Ex1 Ex2]. apply negb_true_iff in Ex2. destruct (A8 Ex1) as (e0 & -> & N1 & N2 & N3 & N4). cbn [toks_expr] in A1.
        exists (ENot (EBin (op_bop o) e0 er)). split; [|split; [|split; [|split; [|split; [|split]]]]].
        + cbn [toks_expr]. rewrite op_bop_tok by exact H. rewrite <- A1, <- B1. reflexivity.
        + cbn [mean_expr mark_not strip fl_not no_flags fl_minus fl_plus not_mark]. rewrite op_bop_op, N4, B2 by exact H. reflexivity.
        + cbn [bound left_above]. rewrite N1, B3, R1, N2, N3 by apply level_max. rewrite !andb_true_r. apply Z.ltb_lt. destruct o; try discriminate Ex2; try congruence; reflexivity.
        + reflexivity.
        + reflexivity.
        + reflexivity.
        + intros _ Hpl. apply plain_not in Hpl. congruence.
      - exists (EBin (op_bop o) el er). split; [|split; [|split; [|split; [|split; [|split]]]]].
        + cbn [toks_expr]. rewrite op_bop_tok, A1, B1 by exact H. reflexivity.
        + cbn [mean_expr strip fl_not no_flags fl_minus fl_plus]. rewrite op_bop_op, A2, B2 by exact H. reflexivity.
        + cbn [bound]. rewrite A3, B3, R1, !andb_true_r. apply andb_false_iff in Ex as [Ex|Ex]; [apply L3; [exact Ex|apply level_max]|].
          apply negb_false_iff in Ex. apply L2, looser_level, Ex.
        + reflexivity.
        + reflexivity.
        + intros D. destruct o; cbn [op_bop no_assign]; try exact L4; try congruence. destruct D as [D|D]; [congruence|]. rewrite <- A5 in D. destruct el; try discriminate; exact L4.
        + intros -> Hpl. rewrite <- A5 in Hpl. destruct el; try discriminate. eexists. split; [reflexivity|exact A2]. }
    destruct Base as (b0 & T0 & M0 & E0 & P0 & N0 & G0 & Q0).
    set (par := fun e => EParen (AOne (OSome e))).
    assert (Mt : tidy v (SExp o l r fl) = if fl_not fl then SExprs (Some [t0]) not_mark else t0) by reflexivity.
    set (e1 := let i := if fl_minus fl then ENeg (par b0) else if fl_not fl then par b0 else b0 in if fl_not fl then ENot i else i).
    assert (E1 : bound e1 = true) by (unfold e1, par; destruct (fl_minus fl), (fl_not fl); cbn [bound bound_args bound_oexpr left_above andb]; exact E0).
    assert (M1 : strip (mean_expr e1) = strip (tidy v (SExp o l r fl))).
    { rewrite Mt. unfold e1, par. destruct (fl_minus fl), (fl_not fl); cbn [mean_expr mean_args mean_oexpr mark_not mark_minus]; try exact M0;
      cbn [strip fl_not fl_minus fl_plus no_flags not_mark]; rewrite ?N0, M0; reflexivity. }
    assert (Nn : is_nil (mean_expr e1) = false) by (unfold e1, par; destruct (fl_minus fl), (fl_not fl); try reflexivity; exact N0).
    assert (P1 : is_path e1 = false) by (unfold e1, par; destruct (fl_minus fl), (fl_not fl); try reflexivity; exact P0).
    assert (T1 : toks_expr e1 = tnot (fl_not fl) ++ tminus (fl_minus fl) ++ topen (fl_minus fl || fl_not fl) ++ pt false (ME (S lv)) l ++ K (op_tok o) :: pt false (ME (S lv)) r ++ tclose (fl_minus fl || fl_not fl)).
    { unfold e1, par. destruct (fl_minus fl), (fl_not fl); cbn [toks_expr toks_args toks_oexpr tnot tminus topen tclose app orb]; rewrite T0;
      rewrite ?app_nil_r, <- ?app_assoc; reflexivity. }
    exists (if Nat.ltb 0 lv then par e1 else e1). unfold good.
    split.
    { assert (Hpt : pt false m (SExp o l r fl) = topen (Nat.ltb 0 lv) ++ toks_expr e1 ++ tclose (Nat.ltb 0 lv)).
      { rewrite T1. (destruct m; [| |exfalso; exact Hp]); cbn [pt]; fold lv; rewrite <- ?app_assoc; cbn [app orb]; rewrite <- ?app_assoc; reflexivity. }
      rewrite Hpt. unfold par. destruct (Nat.ltb 0 lv); cbn [toks_expr toks_args toks_oexpr topen tclose app]; rewrite ?app_nil_r; reflexivity. }
    split; [unfold par; destruct (Nat.ltb 0 lv); [cbn [mean_expr mean_args mean_oexpr]; rewrite strip_paren by (reflexivity || exact Nn)|]; exact M1|].
    split; [unfold par; destruct (Nat.ltb 0 lv); cbn [bound bound_args bound_oexpr]; exact E1|].
    split. { intros Hn. destruct m as [|[|k]|]; try destruct Hn. subst lv. cbn [Nat.ltb Nat.leb]. unfold par, closed. cbn. repeat split; auto. }
    split. { intros _. destruct (Nat.ltb 0 lv); [reflexivity|]. exact P1. }
    split.
    { intros Ha. destruct (Nat.ltb 0 lv); [reflexivity|]. unfold e1, par. destruct (fl_minus fl) eqn:Em, (fl_not fl) eqn:Ef; try reflexivity.
      apply G0. cbn [equation] in Ha. rewrite Em, Ef in Ha. cbn [negb andb] in Ha. destruct o; auto; left; discriminate. }
    split; [|discriminate].
    intros Ha Hn. assert (El : lv = 0%nat) by (destruct m as [|[|k]|]; try reflexivity; exfalso; apply Hn; exact I). rewrite El. cbn [Nat.ltb Nat.leb].
    cbn [equation] in Ha. assert (Eo : o = OpEq) by (destruct o; try discriminate Ha; reflexivity). subst o.
    apply andb_true_iff in Ha as [Ha Hpl]. apply andb_true_iff in Ha as [Hn1 Hn2]. apply negb_true_iff in Hn1. apply negb_true_iff in Hn2.
    unfold e1. rewrite Hn1, Hn2. destruct (Q0 eq_refl Hpl) as (p & -> & Q1). exists p, er. split; [reflexivity|].
    rewrite Mt, Hn1. unfold t0, ext. rewrite (plain_not _ Hpl). cbn [andb assigned]. cbn [strip map]. rewrite Q1, B2. reflexivity.
  - (* parentheses *)
    cbn [written] in Hl. destruct l as [|x [|y l]]; try discriminate. inversion H0 as [|? ? Hx _]; subst. destruct Hx as [->|Hx]; [discriminate|].
    rewrite (flags_eta fl) in * by assumption.
    assert (X : In x (parts (SExprs (Some [x]) (Flags false false (fl_not fl))))) by (left; reflexivity).
    set (lv := match m with ME (S l) => S (S l) | _ => O end).
    destruct (IHe x X (ME lv) false eq_refl Hx Hl (parts_built _ _ Hb X)) as (e & A1 & A2 & A3 & A4 & A5 & A6 & A7 & A8). specialize (A5 eq_refl). specialize (A8 eq_refl).
    assert (Hpt : pt false m (SExprs (Some [x]) (Flags false false (fl_not fl))) = tnot (fl_not fl) ++ topen (fl_not fl) ++ toks_expr e ++ tclose (fl_not fl)).
    { rewrite A1. (destruct m; [| |exfalso; exact Hp]); cbn [pt fl_not]; fold lv; cbn [map concat]; rewrite app_nil_r; reflexivity. }
    pose proof (made_not_nil _ _ Hx) as Nx.
    assert (Nt : is_nil (tidy false x) = false) by (rewrite tidy_nil; exact Nx).
    assert (Ne : is_nil (mean_expr e) = false) by (rewrite <- strip_nil, A2, strip_nil; exact Nt).
    unfold good. rewrite Hpt. destruct (fl_not fl) eqn:Ef.
    + exists (ENot (EParen (AOne (OSome e)))). split; [reflexivity|]. split; [cbn [mean_expr mean_args mean_oexpr mark_not strip tidy fl_not fl_minus fl_plus no_flags map not_mark]; rewrite A2; reflexivity|].
      split; [cbn; exact A3|]. split. { intros _. unfold closed. cbn. split; [reflexivity|]. split; [intros n Hn; apply good_not, Hn|]. split; [discriminate|reflexivity]. }
      split; [reflexivity|]. split; [reflexivity|]. split; [discriminate|]. intros _ _. exists (EParen (AOne (OSome e))). split; [reflexivity|]. split; [exact A3|].
      split; [reflexivity|]. split; [reflexivity|]. cbn [mean_expr mean_args mean_oexpr tidy map unnot fl_not]. rewrite !strip_paren by (reflexivity || assumption). exact A2.
    + exists e. cbn [tnot topen tclose app]. rewrite app_nil_r. split; [reflexivity|]. cbn [tidy map].
      split; [rewrite strip_paren by (reflexivity || assumption); exact A2|]. split; [exact A3|].
      assert (Nm : nested m -> nested (ME lv)) by (intros Hn; destruct m as [|[|k]|]; try destruct Hn; exact I).
      assert (Nm' : ~ nested m -> ~ nested (ME lv)) by (intros Hn Hn'; destruct m as [|[|k]|]; try destruct Hn'; apply Hn; exact I).
      split. { intros Hn. destruct (A4 (Nm Hn)) as (C1 & C2 & C3 & C4). unfold closed. cbn [begins_not fl_not orb]. auto. }
      split; [intros _; cbn [plain fl_not negb andb]; exact A5|]. split; [cbn [equation fl_not negb andb]; exact A6|].
      split.
      * cbn [equation fl_not negb andb]. intros Ha Hn. destruct (A7 Ha (Nm' Hn)) as (p & r & E1 & E2). exists p, r. split; [exact E1|]. exact E2.
      * cbn [begins_not fl_not orb]. intros _ Hbn. destruct (A8 Hbn) as (e0 & E1 & E2 & E3 & E4 & E5). exists e0. repeat (split; [assumption|]). cbn [tidy map unnot fl_not].
        rewrite strip_paren; [exact E5|reflexivity|]. rewrite unnot_nil. exact Nt.
Qed.
