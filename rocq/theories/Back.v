(** Printed trees read back: a program with the tokens of the printed text. *)
From Verif Require Import Bytes Utf8 UnicodeTables Float64 GoTime Ast Lexer LexFacts Utf8Facts LexSpec LexProofs LexTrivia
  LexTokens LexStrings NumSpec NumProofs NumTokens Tok Syntax Levels RulesFacts StmtInd Parser Printer PrintInv Properties_Literals Writes PrintToks Survive Strip.
From Coq Require Import QArith Qpower Qfield.
Open Scope Z_scope.

(** * Trees of expressions *)
Definition is_ident (s : stmt) : bool := match s with SVar _ _ | SItem _ _ | SMethod _ _ _ _ => true | _ => false end.
Definition bare (s : stmt) : Prop :=
  match s with
  | SVar _ fl | SMethod _ _ _ fl | SChain _ _ fl => fl = no_flags
  | SItem _ o => True
  | _ => False
  end.
(** [pd]: behind a dot. *)
Inductive made : bool -> stmt -> Prop :=
| md_str s : made false (SStr s)
| md_num f : made false (SNum f)
| md_bool b : made false (SBool b)
| md_time t : made false (STime t)
| md_undef : made false SUndef
| md_label n : made false (SLabel n)
| md_goto n : made false (SGoTo (Some n))
| md_var pd n fl : word_tk pd n = KId n -> fl_plus fl = false -> made pd (SVar n fl)
| md_call pd n l fl : word_tk pd n = KId n -> l <> [] -> Forall (fun x => x = SNil \/ made false x) l ->
    fl_minus fl = false -> fl_plus fl = false -> made pd (SMethod n (Some l) no_flags fl)
| md_exec pd n x fl : word_tk pd n = KExec n -> made false x ->
    fl_minus fl = false -> fl_plus fl = false -> made pd (SMethod n (Some [x]) no_flags fl)
| md_item pd i o : made false i -> made pd o -> is_ident o = true -> bare o -> made pd (SItem i o)
| md_chain u c fl : made true u -> is_ident u = true -> bare u -> made false c -> bare c -> fl_plus fl = false -> made false (SChain u c fl)
| md_new_name c : c <> [] -> word_tk false c = KId c -> made false (SNew c None no_flags)
| md_new c l : c = [] \/ word_tk false c = KId c -> l <> [] -> Forall (fun x => x = SNil \/ made false x) l -> made false (SNew c (Some l) no_flags)
| md_tern e t f : made false e -> made false t -> made false f -> made false (STern e t f)
| md_exp o l r fl : o <> OpUndefined -> made false l -> made false r -> fl_plus fl = false -> made false (SExp o l r fl)
| md_exprs l fl : l <> [] -> Forall (fun x => x = SNil \/ made false x) l -> fl_minus fl = false -> fl_plus fl = false -> made false (SExprs (Some l) fl).

Lemma made_not_nil pd s : made pd s -> is_nil s = false. Proof. destruct 1; reflexivity. Qed.
Lemma made_mark_not s : made false s -> made false (mark_not s).
Proof. destruct 1; cbn [mark_not]; try (econstructor; cbn; eassumption); econstructor. Qed.
Lemma made_mark_minus s : made false s -> made false (mark_minus s).
Proof. destruct 1; cbn [mark_minus]; try (econstructor; cbn; eassumption); econstructor. Qed.

(** * Pieces *)
Lemma tjoin_snoc l x : l <> [] -> tjoin (l ++ [x]) = tjoin l ++ Pct "," :: x.
Proof.
  induction l as [|a l IH]; [congruence|]. intros _. destruct l as [|b l]; [reflexivity|].
  cbn [tjoin app]. cbn [tjoin app] in IH. rewrite IH by discriminate. rewrite <- app_assoc. reflexivity.
Qed.
Definition op_bop (o : op) : bop :=
  match o with
  | OpPlus | OpUndefined => BPlus | OpMinus => BMinus | OpMul => BMul | OpDiv => BDiv | OpMod => BMod | OpGt => BGt | OpLt => BLt
  | OpEq => BEq | OpOr => BOr | OpAnd => BAnd | OpNe => BNe | OpLe => BLe | OpGe => BGe
  end.
Lemma op_bop_tok o : o <> OpUndefined -> bop_tok (op_bop o) = op_tok o. Proof. destruct o; try congruence; reflexivity. Qed.
Lemma op_bop_op o : o <> OpUndefined -> bop_op (op_bop o) = o. Proof. destruct o; try congruence; reflexivity. Qed.
Lemma looser_level o : looser o = true -> level (op_bop o) <= 6. Proof. destruct o; cbn; intros; try discriminate; lia. Qed.
Lemma level_max o : level o <= 11. Proof. destruct o; cbn; lia. Qed.

Lemma whole_b_spec f : whole_b f = true -> whole (f64_abs f).
Proof.
  unfold whole_b, whole, f64_Q, f64_abs. cbn [f_neg f_man f_exp]. rewrite orb_true_iff, Z.mul_1_l. intros H.
  destruct (Z_le_gt_dec 0 (f_exp f)) as [G|G].
  - exists (f_man f * 2 ^ f_exp f). rewrite inject_Z_mult. rewrite (Qpower.Zpower_Qpower 2) by lia. reflexivity.
  - destruct H as [H|H]; [apply Z.leb_le in H; lia|].
    apply Z.eqb_eq in H. set (k := - f_exp f) in *. replace (f_exp f) with (- k) by lia. assert (Hk : 0 < k) by lia.
    assert (P : 0 < 2 ^ k) by (apply Z.pow_pos_nonneg; lia). exists (f_man f / 2 ^ k).
    pose proof (Z.div_mod (f_man f) (2 ^ k) ltac:(lia)) as D. rewrite H, Z.add_0_r in D. rewrite D at 1.
    change ((2 ^ k * (f_man f / 2 ^ k)) # 1)%Q with (inject_Z (2 ^ k * (f_man f / 2 ^ k))). rewrite inject_Z_mult, (Qpower.Zpower_Qpower 2) by lia.
    change (inject_Z 2) with 2%Q. rewrite Qpower_opp. assert (N0 : ~ (2 ^ k == 0)%Q) by (apply Qpower_not_0; discriminate). field. exact N0.
Qed.

(** * Expressions *)
Definition is_path (e : expr) : bool := match e with EPath _ => true | _ => false end.
Definition closed (s : stmt) (e : expr) : Prop :=
  (forall n, left_above n e = true) /\ (forall n, n <= 6 -> right_above n e = true) /\
  (begins_not s = false -> forall n, n <= 11 -> right_above n e = true) /\ no_assign e = true.
Definition back_ident (s : stmt) : Prop := forall pd, made pd s -> is_ident s = true -> bare s -> lasts true s = true -> built s ->
  exists i, toks_ident i = pt pd MV s /\ strip0 (mean_ident i) = strip s /\ bound_ident i = true.
Definition back_path (s : stmt) : Prop := made false s -> bare s -> lasts true s = true -> built s ->
  exists p, toks_path p = pt false MC s /\ strip0 (mean_path p) = strip s /\ bound_path p = true.
(** Value places, expressions, operands. *)
Definition place (m : pmode) (v : bool) : Prop := match m with MC => False | MV => v = true | ME _ => v = false end.
Definition nested (m : pmode) : Prop := match m with ME (S _) => True | _ => False end.
Definition back_expr (s : stmt) : Prop := forall m v, place m v -> made false s -> lasts v s = true -> built s ->
  exists e, toks_expr e = pt false m s /\ strip0 (mean_expr e) = strip s /\ bound e = true /\
    (nested m -> closed s e) /\ (plain s = false -> is_path e = false) /\ (assignment s = false -> no_assign e = true).

Lemma back_args l : Forall back_expr l -> l <> [] -> Forall (fun x => x = SNil \/ made false x) l ->
  forallb (fun x => is_nil x || lasts true x) l = true -> Forall built l ->
  exists a, toks_args a = tjoin (map (pt false MV) l) /\ map strip0 (mean_args a) = map strip l /\ bound_args a = true.
Proof.
  induction l as [|x l IH] using rev_ind; [congruence|]. intros H _ Hm Hl Hb.
  apply Forall_app in H as [H1 H2]. apply Forall_app in Hm as [M1 M2]. apply Forall_app in Hb as [B1 B2].
  rewrite forallb_app in Hl. apply andb_true_iff in Hl as [L1 L2]. cbn [forallb] in L2. rewrite andb_true_r in L2.
  inversion H2 as [|? ? H3 _]; subst. inversion M2 as [|? ? M3 _]; subst. inversion B2 as [|? ? B3 _]; subst.
  assert (O : exists o, toks_oexpr o = pt false MV x /\ strip0 (mean_oexpr o) = strip x /\ bound_oexpr o = true).
  { destruct M3 as [->|M3]; [exists ONone; repeat split|]. rewrite (made_not_nil _ _ M3) in L2.
    destruct (H3 MV true eq_refl M3 L2 B3) as (e & E1 & E2 & E3 & _). exists (OSome e). repeat split; assumption. }
  destruct O as (o & O1 & O2 & O3). destruct l as [|y l].
  - exists (AOne o). cbn [toks_args mean_args bound_args map app tjoin]. rewrite O1, O2. repeat split; assumption.
  - destruct IH as (a & A1 & A2 & A3); try assumption; [discriminate|]. exists (AMore a o). cbn [toks_args mean_args bound_args].
    rewrite (map_app (pt false MV)), (map_app strip), (map_app strip0). change (map (pt false MV) [x]) with [pt false MV x]. rewrite tjoin_snoc by discriminate.
    rewrite A1, O1, A2, A3, O3. cbn [map]. rewrite O2. repeat split.
Qed.

Ltac lands := repeat match goal with H : (_ && _)%bool = true |- _ => apply andb_true_iff in H as [? ?] end.
Lemma flags_eta f : fl_minus f = false -> fl_plus f = false -> f = Flags false false (fl_not f).
Proof. destruct f; cbn; intros -> ->; reflexivity. Qed.
Lemma parts_built s x : built s -> In x (parts s) -> built x.
Proof. intros H. apply built_inv in H as [_ H]. rewrite Forall_forall in H. auto. Qed.
Lemma pt_ident pd s : is_ident s = true -> pt pd MC s = pt pd MV s. Proof. destruct s; try discriminate; reflexivity. Qed.
Lemma chain_path s : bare s -> is_ident s = false -> exists u c, s = SChain u c no_flags.
Proof. destruct s; cbn; try contradiction; try discriminate. intros -> _. eauto. Qed.

Lemma back_all s : back_ident s /\ back_path s /\ back_expr s.
Proof.
  induction s as [s IH] using stmt_parts_ind.
  assert (IHi : forall x, In x (parts s) -> back_ident x) by (intros; apply IH; assumption).
  assert (IHp : forall x, In x (parts s) -> back_path x) by (intros; apply IH; assumption).
  assert (IHe : forall x, In x (parts s) -> back_expr x) by (intros; apply IH; assumption).
  clear IH.
  assert (HI : back_ident s).
  { intros pd Hm Hi Hbr Hl Hb. inversion Hm; subst; try discriminate Hi; cbn [bare] in Hbr; subst.
    - exists (IVar n). cbn. rewrite H. repeat split.
    - destruct (back_args l) as (a & A1 & A2 & A3); try assumption.
      { apply Forall_forall. intros x Hx. apply IHe. exact Hx. }
      { apply built_inv in Hb. apply Hb. }
      exists (ICall n a). cbn [toks_ident mean_ident strip strip0 bound_ident pt tnot fl_not no_flags app]. rewrite A1, A2, H. repeat split; assumption.
    - cbn [lasts forallb] in Hl. rewrite (made_not_nil _ _ H0), andb_true_r in Hl. cbn [orb] in Hl.
      assert (Hx : In x (parts (SMethod n (Some [x]) no_flags no_flags))) by (left; reflexivity).
      destruct (IHe x Hx MV true eq_refl H0 Hl (parts_built _ _ Hb Hx)) as (e & E1 & E2 & E3 & _).
      exists (IExec n e). cbn [toks_ident mean_ident strip strip0 bound_ident pt tnot fl_not no_flags app map tjoin]. rewrite E1, E2, H. repeat split; assumption.
    - cbn [lasts] in Hl. lands.
      assert (Xi : In i (parts (SItem i o))) by (left; reflexivity). assert (Xo : In o (parts (SItem i o))) by (right; left; reflexivity).
      destruct (IHe i Xi (ME 0) false eq_refl H ltac:(assumption) (parts_built _ _ Hb Xi)) as (e & E1 & E2 & E3 & _).
      destruct (IHi o Xo pd H0 H1 H2 ltac:(assumption) (parts_built _ _ Hb Xo)) as (d & D1 & D2 & D3).
      exists (IIndex d e). cbn [toks_ident mean_ident strip strip0 bound_ident pt]. rewrite E1, E2, E3, D1, D2, D3. repeat split. }
  assert (HP : back_path s).
  { intros Hm Hbr Hl Hb. destruct (is_ident s) eqn:Ei.
    - destruct (HI false Hm Ei Hbr Hl Hb) as (i & I1 & I2 & I3). exists (PId i). cbn [toks_path mean_path bound_path].
      rewrite pt_ident by exact Ei. repeat split; assumption.
    - destruct (chain_path s Hbr Ei) as (u & c & ->). inversion Hm; subst. cbn [lasts] in Hl. lands.
      assert (Xu : In u (parts (SChain u c no_flags))) by (left; reflexivity). assert (Xc : In c (parts (SChain u c no_flags))) by (right; left; reflexivity).
      destruct (IHi u Xu true ltac:(assumption) ltac:(assumption) ltac:(assumption) ltac:(assumption) (parts_built _ _ Hb Xu)) as (i & I1 & I2 & I3).
      destruct (IHp c Xc ltac:(assumption) ltac:(assumption) ltac:(assumption) (parts_built _ _ Hb Xc)) as (p & P1 & P2 & P3).
      exists (PDot p i). cbn [toks_path mean_path bound_path strip strip0 pt app]. rewrite I1, I2, I3, P1, P2, P3. repeat split. }
  split; [exact HI|]. split; [exact HP|].
  assert (Simple : forall e m, toks_expr e = pt false m s -> strip0 (mean_expr e) = strip s -> bound e = true -> is_path e = false ->
    (forall n, left_above n e = true) -> (forall n, n <= 11 -> right_above n e = true) -> no_assign e = true ->
    exists e, toks_expr e = pt false m s /\ strip0 (mean_expr e) = strip s /\ bound e = true /\
      (nested m -> closed s e) /\ (plain s = false -> is_path e = false) /\ (assignment s = false -> no_assign e = true)).
  { intros e m E1 E2 E3 E4 E5 E6 E7. exists e. unfold closed. repeat (split; [solve [auto]|]). split; [|auto].
    intros _. repeat split; auto. intros n Hn. apply E6. lia. }
  intros m v Hp Hm Hl Hb.
  inversion Hm; subst; try discriminate Hl.
  - apply (Simple (EStr s0)); try reflexivity. (destruct m; [| |exfalso; exact Hp]); reflexivity.
  - cbn [lasts] in Hl. apply built_inv in Hb as [Hf _]. cbn [local] in Hf.
    destruct (format_float _ Hf) as (_ & _ & _ & _ & _ & _ & Hr). specialize (Hr (whole_b_spec _ Hl)).
    assert (E : pt false m (SNum f) = tminus (f_neg f) ++ [KNum (f64_abs f)]).
    { (destruct m; [| |exfalso; exact Hp]); cbn [pt]; unfold num_toks; rewrite Hr; reflexivity. }
    destruct f as [neg man ex]. destruct neg; cbn [f_neg f64_abs f_man f_exp tminus app] in *.
    + apply (Simple (ENeg (ENum (F64 false man ex)))); try reflexivity; [rewrite E; reflexivity|].
      intros n Hn. cbn. rewrite andb_true_r. apply Z.leb_le. exact Hn.
    + apply (Simple (ENum (F64 false man ex))); try reflexivity. rewrite E; reflexivity.
  - destruct b; [apply (Simple ETrue)|apply (Simple EFalse)]; try reflexivity; (destruct m; [| |exfalso; exact Hp]); reflexivity.
  - apply (Simple (EDate t)); try reflexivity. (destruct m; [| |exfalso; exact Hp]); reflexivity.
  - apply (Simple EUndef); try reflexivity. (destruct m; [| |exfalso; exact Hp]); reflexivity.
  - (* variable *)
    destruct fl as [mi pl no]. cbn [fl_plus] in H0. subst pl. set (base := EPath (PId (IVar n))).
    set (e1 := if mi then ENeg base else base). exists (if no then ENot e1 else e1).
    assert (T : toks_expr (if no then ENot e1 else e1) = pt false m (SVar n (Flags mi false no))).
    { unfold e1. destruct m; cbn [place] in Hp; [| |exfalso; exact Hp]; subst v; cbn [lasts fl_not fl_minus] in Hl; destruct mi, no; try discriminate Hl; cbn; rewrite H; reflexivity. }
    split; [exact T|]. split; [unfold e1; destruct mi, no; reflexivity|]. split; [unfold e1; destruct mi, no; reflexivity|].
    split; [|split]; unfold closed, e1; destruct mi, no; cbn; repeat split; intros; auto; try discriminate;
    rewrite ?andb_true_r; try (apply andb_true_iff; split); try (apply Z.leb_le; unfold level_not, level_sign in *; lia).
  - (* call *)
    destruct (back_args l) as (a & A1 & A2 & A3); try assumption.
    { apply Forall_forall. intros x Hx. apply IHe. exact Hx. }
    { apply built_inv in Hb. apply Hb. }
    rewrite (flags_eta fl) by assumption. destruct (fl_not fl).
    + exists (ENot (EPath (PId (ICall n a)))). split; [cbn [toks_expr toks_path toks_ident pt tnot fl_not app]; rewrite A1, H; destruct m; reflexivity|].
      split; [cbn [mean_expr mean_path mean_ident mark_not strip strip0 no_flags fl_minus fl_plus]; rewrite A2; reflexivity|].
      split; [cbn; exact A3|]. unfold closed. cbn. repeat split; intros; auto; try discriminate. rewrite andb_true_r. apply Z.leb_le. unfold level_not. lia.
    + exists (EPath (PId (ICall n a))). split; [cbn [toks_expr toks_path toks_ident pt tnot fl_not app]; rewrite A1, H; destruct m; reflexivity|].
      split; [cbn [mean_expr mean_path mean_ident mark_not strip strip0 no_flags fl_minus fl_plus]; rewrite A2; reflexivity|].
      split; [cbn; exact A3|]. unfold closed. cbn. repeat split; intros; auto; try discriminate.
  - (* Выполнить *)
    cbn [lasts forallb] in Hl. rewrite (made_not_nil _ _ H0), andb_true_r in Hl. cbn [orb] in Hl.
    assert (Hx : In x (parts (SMethod n (Some [x]) no_flags fl))) by (left; reflexivity).
    destruct (IHe x Hx MV true eq_refl H0 Hl (parts_built _ _ Hb Hx)) as (e & E1 & E2 & E3 & _).
    rewrite (flags_eta fl) by assumption. destruct (fl_not fl).
    + exists (ENot (EPath (PId (IExec n e)))). split; [cbn [toks_expr toks_path toks_ident pt tnot fl_not app map tjoin]; rewrite E1, H; destruct m; reflexivity|].
      split; [cbn [mean_expr mean_path mean_ident mark_not strip strip0 no_flags fl_minus fl_plus map]; rewrite E2; reflexivity|].
      split; [cbn; exact E3|]. unfold closed. cbn. repeat split; intros; auto; try discriminate. rewrite andb_true_r. apply Z.leb_le. unfold level_not. lia.
    + exists (EPath (PId (IExec n e))). split; [cbn [toks_expr toks_path toks_ident pt tnot fl_not app map tjoin]; rewrite E1, H; destruct m; reflexivity|].
      split; [cbn [mean_expr mean_path mean_ident mark_not strip strip0 no_flags fl_minus fl_plus map]; rewrite E2; reflexivity|].
      split; [cbn; exact E3|]. unfold closed. cbn. repeat split; intros; auto; try discriminate.
  - (* index *)
    destruct (HI false Hm eq_refl I) as (d & D1 & D2 & D3); [destruct m; cbn in Hp; subst; try contradiction; exact Hl|exact Hb|].
    exists (EPath (PId d)). split; [cbn [toks_expr toks_path]; rewrite D1; destruct m; reflexivity|]. split; [exact D2|]. split; [exact D3|].
    unfold closed. cbn. repeat split; intros; auto; discriminate.
  - (* chain *)
    assert (Hl' := Hl). cbn [lasts] in Hl. apply andb_true_iff in Hl as [Hl Lc]. apply andb_true_iff in Hl as [Lm Lu]. apply negb_true_iff in Lm.
    rewrite (flags_eta fl) in * by assumption.
    assert (Hb' : built (SChain u c no_flags)) by (apply built_inv in Hb; constructor; apply Hb).
    assert (Hm' : made false (SChain u c no_flags)) by (constructor; auto).
    assert (Xu : In u (parts (SChain u c no_flags))) by (left; reflexivity). assert (Xc : In c (parts (SChain u c no_flags))) by (right; left; reflexivity).
    destruct (IHi u Xu true H H0 H1 ltac:(assumption) (parts_built _ _ Hb' Xu)) as (i & I1 & I2 & I3).
    destruct (IHp c Xc H2 H3 ltac:(assumption) (parts_built _ _ Hb' Xc)) as (p & P1 & P2 & P3).
    assert (Hc : m <> MC) by (intros ->; exact Hp).
    destruct (fl_not fl).
    + exists (ENot (EPath (PDot p i))). split; [cbn [toks_expr toks_path pt tnot fl_not app]; rewrite P1, I1; destruct m; try congruence; reflexivity|].
      split; [cbn [mean_expr mean_path mark_not strip strip0 no_flags fl_minus fl_plus]; rewrite P2, I2; reflexivity|].
      split; [cbn; rewrite P3, I3; reflexivity|]. unfold closed. cbn. repeat split; intros; auto; try discriminate. rewrite andb_true_r. apply Z.leb_le. unfold level_not. lia.
    + exists (EPath (PDot p i)). split; [cbn [toks_expr toks_path pt tnot fl_not app]; rewrite P1, I1; destruct m; try congruence; reflexivity|].
      split; [cbn [mean_expr mean_path mark_not strip strip0 no_flags fl_minus fl_plus]; rewrite P2, I2; reflexivity|].
      split; [cbn; rewrite P3, I3; reflexivity|]. unfold closed. cbn. repeat split; intros; auto; discriminate.
  - (* Новый name *)
    apply (Simple (ENew (NewCall c (AOne ONone)))); try reflexivity.
    (destruct m; [| |exfalso; exact Hp]); (destruct c as [|b c]; [congruence|]); cbn [toks_expr toks_new toks_args toks_oexpr pt map tjoin app]; rewrite H0; reflexivity.
  - destruct (back_args l) as (a & A1 & A2 & A3); try assumption.
    { apply Forall_forall. intros x Hx. apply IHe. exact Hx. }
    { apply built_inv in Hb. apply Hb. }
    assert (D : c = [] \/ exists b c', c = b :: c') by (destruct c; eauto). destruct D as [->|(b & c' & Ec)].
    + apply (Simple (ENew (NewArgs a))); try reflexivity; [|cbn [mean_expr mean_new strip strip0]; rewrite A2; reflexivity|exact A3].
      (destruct m; [| |exfalso; exact Hp]); cbn [toks_expr toks_new pt app]; rewrite A1; reflexivity.
    + destruct H as [->|H]; [discriminate|].
      apply (Simple (ENew (NewCall c a))); try reflexivity; [|cbn [mean_expr mean_new strip strip0]; rewrite A2; reflexivity|exact A3].
      subst c. (destruct m; [| |exfalso; exact Hp]); cbn [toks_expr toks_new pt app]; rewrite A1, H; reflexivity.
  - (* ternary *)
    cbn [lasts] in Hl. lands.
    assert (X1 : In e (parts (STern e t f))) by (left; reflexivity). assert (X2 : In t (parts (STern e t f))) by (right; left; reflexivity).
    assert (X3 : In f (parts (STern e t f))) by (right; right; left; reflexivity).
    destruct (IHe e X1 (ME 0) false eq_refl H ltac:(assumption) (parts_built _ _ Hb X1)) as (e1 & A1 & A2 & A3 & _).
    destruct (IHe t X2 (ME 0) false eq_refl H0 ltac:(assumption) (parts_built _ _ Hb X2)) as (e2 & B1 & B2 & B3 & _).
    destruct (IHe f X3 (ME 0) false eq_refl H1 ltac:(assumption) (parts_built _ _ Hb X3)) as (e3 & C1 & C2 & C3 & _).
    apply (Simple (ETern e1 e2 e3)); try reflexivity.
    + cbn [toks_expr]. rewrite A1, B1, C1. (destruct m; [| |exfalso; exact Hp]); reflexivity.
    + cbn [mean_expr strip strip0]. rewrite A2, B2, C2. reflexivity.
    + cbn. rewrite A3, B3, C3. reflexivity.
  - (* operation *)
    cbn [lasts] in Hl. apply andb_true_iff in Hl as [Hl H5]. apply andb_true_iff in Hl as [Hl Lr]. apply andb_true_iff in Hl as [Lm Ll]. apply negb_true_iff in Lm. rewrite (flags_eta fl) in * by assumption.
    assert (X1 : In l (parts (SExp o l r (Flags false false (fl_not fl))))) by (left; reflexivity).
    assert (X2 : In r (parts (SExp o l r (Flags false false (fl_not fl))))) by (right; left; reflexivity).
    set (lv := match m with ME l => l | _ => O end).
    destruct (IHe l X1 (ME (S lv)) false eq_refl H0 ltac:(assumption) (parts_built _ _ Hb X1)) as (el & A1 & A2 & A3 & A4 & A5 & _).
    destruct (IHe r X2 (ME (S lv)) false eq_refl H1 ltac:(assumption) (parts_built _ _ Hb X2)) as (er & B1 & B2 & B3 & B4 & _).
    destruct (A4 I) as (L1 & L2 & L3 & L4). destruct (B4 I) as (R1 & _).
    set (e0 := EBin (op_bop o) el er).
    assert (E0 : bound e0 = true).
    { unfold e0. cbn [bound]. rewrite A3, B3, R1, !andb_true_r. apply orb_true_iff in H5 as [H5|H5].
      - apply L2, looser_level, H5.
      - apply L3; [apply negb_true_iff, H5|apply level_max]. }
    assert (M0 : strip0 (mean_expr e0) = SExp o (strip l) (strip r) no_flags).
    { unfold e0. cbn [mean_expr strip strip0 fl_not no_flags fl_minus fl_plus]. rewrite A2, B2, op_bop_op by exact H. reflexivity. }
    set (par := fun e => EParen (AOne (OSome e))).
    set (e1 := if fl_not fl then ENot (par e0) else e0).
    exists (if Nat.ltb 0 lv then par e1 else e1).
    assert (E1 : bound e1 = true) by (unfold e1, par; destruct (fl_not fl); cbn [bound bound_args bound_oexpr left_above andb]; exact E0).
    assert (M1 : strip0 (mean_expr e1) = strip (SExp o l r (Flags false false (fl_not fl)))).
    { unfold e1, par. destruct (fl_not fl); [|exact M0]. cbn [mean_expr mean_args mean_oexpr mark_not]. change (fl_not fl) with (fl_not fl).
      cbn [strip strip0 fl_not fl_minus fl_plus no_flags]. rewrite M0. reflexivity. }
    assert (T1 : toks_expr e1 = tnot (fl_not fl) ++ topen (fl_not fl) ++ pt false (ME (S lv)) l ++ K (op_tok o) :: pt false (ME (S lv)) r ++ tclose (fl_not fl)).
    { unfold e1, par, e0. destruct (fl_not fl); cbn [toks_expr toks_args toks_oexpr tnot topen tclose app]; rewrite A1, B1, op_bop_tok by exact H;
      rewrite ?app_nil_r, <- ?app_assoc; reflexivity. }
    split.
    { assert (Hpt : pt false m (SExp o l r (Flags false false (fl_not fl))) = topen (Nat.ltb 0 lv) ++ toks_expr e1 ++ tclose (Nat.ltb 0 lv)).
      { rewrite T1. (destruct m; [| |exfalso; exact Hp]); cbn [pt fl_minus fl_not]; fold lv; rewrite <- ?app_assoc; cbn [tminus app orb]; rewrite <- ?app_assoc; reflexivity. }
      rewrite Hpt. unfold par. destruct (Nat.ltb 0 lv); cbn [toks_expr toks_args toks_oexpr topen tclose app]; rewrite ?app_nil_r; reflexivity. }
    split; [unfold par; destruct (Nat.ltb 0 lv); [cbn [mean_expr mean_args mean_oexpr strip0 fl_not no_flags]; rewrite mean_expr_nn; replace (jump (mean_expr e1)) with false by (unfold e1; destruct (fl_not fl); reflexivity)|]; exact M1|].
    split; [unfold par; destruct (Nat.ltb 0 lv); cbn [bound bound_args bound_oexpr]; exact E1|].
    split; [|split].
    + intros Hn. destruct m as [|[|k]|]; try destruct Hn. subst lv. cbn [Nat.ltb Nat.leb]. unfold par, closed. cbn. repeat split; auto.
    + intros _. destruct (Nat.ltb 0 lv); [reflexivity|]. unfold e1. destruct (fl_not fl); reflexivity.
    + intros Ha. destruct (Nat.ltb 0 lv); [reflexivity|]. unfold e1. destruct (fl_not fl) eqn:Ef; [reflexivity|]. unfold e0. cbn [assignment fl_not negb andb] in Ha.
      destruct o; cbn [op_bop]; cbn [no_assign]; try exact L4; try congruence. specialize (A5 Ha). destruct el; try discriminate; exact L4.
  - (* parentheses *)
    cbn [lasts] in Hl. destruct l as [|x [|y l]]; try discriminate. inversion H0 as [|? ? Hx _]; subst. destruct Hx as [->|Hx]; [discriminate|].
    rewrite (flags_eta fl) in * by assumption.
    assert (X : In x (parts (SExprs (Some [x]) (Flags false false (fl_not fl))))) by (left; reflexivity).
    set (lv := match m with ME (S l) => S (S l) | _ => O end).
    destruct (IHe x X (ME lv) false eq_refl Hx Hl (parts_built _ _ Hb X)) as (e & A1 & A2 & A3 & A4 & A5 & A6).
    assert (Hpt : pt false m (SExprs (Some [x]) (Flags false false (fl_not fl))) = tnot (fl_not fl) ++ topen (fl_not fl) ++ toks_expr e ++ tclose (fl_not fl)).
    { rewrite A1. (destruct m; [| |exfalso; exact Hp]); cbn [pt fl_not]; fold lv; cbn [map concat]; rewrite app_nil_r; reflexivity. }
    rewrite Hpt. destruct (fl_not fl) eqn:Ef.
    + exists (ENot (EParen (AOne (OSome e)))). split; [reflexivity|]. split; [cbn [mean_expr mean_args mean_oexpr mark_not strip strip0 fl_not fl_minus fl_plus no_flags map]; rewrite A2; reflexivity|].
      split; [cbn; exact A3|]. unfold closed. cbn. repeat split; intros; auto; try discriminate. rewrite andb_true_r. apply Z.leb_le. unfold level_not. lia.
    + exists e. cbn [tnot topen tclose app]. rewrite app_nil_r. split; [reflexivity|]. split; [cbn [strip fl_not]; rewrite (made_not_nil _ _ Hx); exact A2|]. split; [exact A3|].
      split; [|split].
      * intros Hn. destruct m as [|[|k]|]; try destruct Hn. exact (A4 I).
      * cbn [plain fl_not negb andb]. exact A5.
      * cbn [assignment fl_not negb andb]. exact A6.
Qed.
