(** The printer, twice: with two settings of the layout options, or with one setting and a
    property of its words. *)
From Verif Require Import Bytes Utf8 Float64 GoTime Ast Lexer LexFacts Utf8Facts Printer PrintInv StmtInd OneLine.

(** Without line feeds, and valid UTF-8. *)
Definition plainb (b : bytes) : bool := forallb (fun x => negb (Byte.eqb x x0a)) b && beqb (string_of_runes (runes b)) b.
Definition ascii (x : byte) : bool := negb (Byte.eqb x x0a) && (b2z x <? 128).
Lemma ascii_plain b : forallb ascii b = true -> plainb b = true.
Proof.
  intros H. unfold plainb. apply andb_true_intro. split.
  - rewrite forallb_forall in *. intros x Hx. specialize (H x Hx). apply andb_true_iff in H. apply H.
  - apply beqb_eq. induction b as [|x b IH]; [reflexivity|]. cbn [forallb] in H. apply andb_true_iff in H as [H1 H2]. apply andb_true_iff in H1 as [_ H1]. apply Z.ltb_lt in H1.
    pose proof (b2z_range x) as R. assert (E : encode (b2z x) = [x]).
    { unfold encode, valid_rune. replace (_ && _ && _) with true by (symmetry; rewrite !andb_true_iff, negb_true_iff, andb_false_iff, !Z.leb_le, !Z.leb_gt; lia).
      rewrite (proj2 (Z.ltb_lt _ _) H1). rewrite (z2b_eq x) by reflexivity. reflexivity. }
    change (x :: b) with ([x] ++ b) at 1 2. rewrite <- E. rewrite runes_app_encode. 2:{ unfold valid_rune. rewrite !andb_true_iff, negb_true_iff, andb_false_iff, !Z.leb_le, !Z.leb_gt; lia. }
    unfold string_of_runes in *. cbn [flat_map]. rewrite (IH H2). reflexivity.
Qed.

Section E.
Context (E : bytes -> bytes -> Prop) (c1 c2 : conf).
Context (E_app : forall a b x y, E a b -> E x y -> E (a ++ x) (b ++ y)).
Context (E_plain : forall b, plainb b = true -> E b b).
Definition OR (x y : option bytes) : Prop := match x, y with Some a, Some b => E a b | None, None => True | _, _ => False end.
Context (E_line : forall n, E (newLine c1 n) (newLine c2 n)).
Context (E_space : forall d, OR (spaces (margin c1 * Z.of_nat d)) (spaces (margin c2 * Z.of_nat d))).

Lemma E_nil : E [] []. Proof. apply E_plain. reflexivity. Qed.
Ltac lit := lazymatch goal with |- E (B _) (B _) => apply E_plain; vm_compute; reflexivity | |- E dquote dquote => apply E_plain; reflexivity end.
Ltac app := lazymatch goal with |- E (_ ++ _) (_ ++ _) => apply E_app | |- E [] [] => apply E_nil end.
Ltac ee := repeat first [app | assumption | lit | match goal with |- E (if ?b then _ else _) _ => destruct b end ].

Lemma E_join sep l : E sep sep -> Forall (fun x => E x x) l -> E (join sep l) (join sep l).
Proof.
  intros Hs H. induction H as [|x [|y l] Hx H IH]; [apply E_nil|exact Hx|]. change (join sep (x :: y :: l)) with (x ++ sep ++ join sep (y :: l)). ee.
Qed.
Lemma E_concat l : Forall (fun x => E x x) l -> E (concat l) (concat l).
Proof. intros H. induction H; cbn [concat]; ee. Qed.
Lemma dec_plain : forall f n acc, forallb ascii acc = true -> forallb ascii (dec_fuel f n acc) = true.
Proof.
  induction f as [|f IH]; intros n acc H; cbn [dec_fuel]; [exact H|].
  assert (X : forallb ascii (z2b (48 + n mod 10) :: acc) = true).
  { cbn [forallb]. rewrite H, andb_true_r. pose proof (Z.mod_pos_bound n 10 ltac:(lia)) as R. remember (n mod 10) as k.
    assert (K : In k [0; 1; 2; 3; 4; 5; 6; 7; 8; 9]) by (cbn [In]; lia). clear Heqk R. cbn [In] in K.
    repeat (destruct K as [<- | K]; [reflexivity|]). destruct K. }
  destruct (_ =? 0); [exact X|apply IH, X].
Qed.
Lemma E_dec n : E (dec_of_Z n) (dec_of_Z n). Proof. apply E_plain, ascii_plain, dec_plain. reflexivity. Qed.
Lemma E_float f : E (format_0f f) (format_0f f).
Proof. unfold format_0f. apply E_app; [ee|apply E_dec]. Qed.
Lemma E_pad w n : E (pad w n) (pad w n).
Proof. unfold pad. apply E_app; [|apply E_dec]. apply E_plain, ascii_plain. induction (_ - _)%nat; [reflexivity|exact IHn0]. Qed.
Lemma E_time t : E (format_time t) (format_time t).
Proof. unfold format_time. repeat (apply E_app; [apply E_pad|]). apply E_pad. Qed.

Definition good (s : stmt) : Prop := forall w, word_in w s -> E w w.
Lemma good_parts s x : good s -> In x (parts s) -> good x.
Proof. intros H Hx w Hw. apply H. eapply wi_part; eassumption. Qed.
Lemma good_here s w : good s -> In w (words s) -> E w w.
Proof. intros H Hw. apply H, wi_here, Hw. Qed.
Lemma E_pr s : good s -> forall m, E (pr m s) (pr m s).
Proof.
  induction s as [s IH] using stmt_parts_ind. intros G m.
  assert (P : forall x, In x (parts s) -> forall m, E (pr m x) (pr m x)) by (intros x Hx; apply IH; [exact Hx|eapply good_parts; eassumption]).
  assert (L : forall m ps, (forall x, In x (elems ps) -> In x (parts s)) -> Forall (fun x => E x x) (match ps with Some l => map (pr m) l | None => [] end)).
  { intros m0 [l|] Hl; [|constructor]. rewrite Forall_map, Forall_forall. intros x Hx. apply P, Hl, Hx. }
  assert (W : forall w, In w (words s) -> E w w) by (intros w Hw; exact (good_here s w G Hw)).
  clear IH G. destruct s; cbn [pr]; cbn [parts] in P, L; cbn [words] in W; try (destruct m; ee; fail).
  - assert (X := W _ (or_introl eq_refl)). destruct m; ee.
  - destruct m; ee; apply E_float.
  - destruct m; ee; apply E_time.
  - assert (X := W _ (or_introl eq_refl)). destruct m; unfold not_str, s_not; ee.
  - assert (X := W _ (or_introl eq_refl)). unfold not_str, s_not. ee; apply E_join; [lit|]; apply (L MV); auto.
  - ee; apply P; cbn [In]; auto.
  - ee; [destruct m; unfold not_str, s_not; ee|]. destruct s2; ee; try (apply (P _ (or_intror (or_introl eq_refl))); fail); apply (P _ (or_introl eq_refl)).
  - assert (X := W _ (or_introl eq_refl)). destruct m; ee; apply E_join; try lit; apply (L MV); auto.
  - destruct m; ee; apply P; cbn [In]; auto.
  - destruct m; unfold not_str, s_not; ee; try (apply P; cbn [In]; auto; fail); destruct o; cbn [op_str]; ee.
  - destruct m; unfold s_not; ee; apply E_concat, L; auto.
  - destruct m; unfold s_not; ee; try (apply P; left; reflexivity); apply E_concat, L; intros; right; assumption.
Qed.
Lemma E_expr s n : good s -> E (printExpression s n) (printExpression s n). Proof. intros H. apply E_pr, H. Qed.
Lemma E_var s : good s -> E (printVarStatement s) (printVarStatement s). Proof. intros H. apply E_pr, H. Qed.
Lemma E_chain s : good s -> E (printCallChainStatement s) (printCallChainStatement s). Proof. intros H. apply E_pr, H. Qed.
Lemma E_params ps : (forall x, In x (elems ps) -> good x) -> E (printParams ps) (printParams ps).
Proof. intros H. apply E_join; [lit|]. rewrite Forall_map, Forall_forall. intros x Hx. apply E_var, H, Hx. Qed.

Lemma OR_bind x y f g : OR x y -> (forall a b, E a b -> OR (f a) (g b)) -> OR (obind x f) (obind y g).
Proof. destruct x, y; cbn; auto; tauto. Qed.
Lemma OR_concat {A} (f g : A -> option bytes) l : (forall i, In i l -> OR (f i) (g i)) -> OR (oconcat (map f l)) (oconcat (map g l)).
Proof.
  induction l as [|x l IH]; intros H; cbn [map oconcat]; [apply E_nil|]. apply OR_bind; [apply H; left; reflexivity|]. intros a b Hab.
  apply OR_bind; [apply IH; intros; apply H; right; assumption|]. intros a' b' H'. cbn. apply E_app; assumption.
Qed.
Definition same_item (s : stmt) : Prop := forall d, OR (printBodyItem c1 d s) (printBodyItem c2 d s).
Lemma OR_body b d : (forall x, In x (elems b) -> same_item x) -> OR (printBody c1 d b) (printBody c2 d b).
Proof.
  intros H. unfold printBody. apply OR_bind.
  - apply OR_concat. intros i Hi. apply OR_bind; [apply H, Hi|]. intros a a' Ha. cbn. apply E_app; [apply E_line|exact Ha].
  - intros a a' Ha. cbn. apply E_app; [exact Ha|apply E_line].
Qed.
Ltac ol := repeat first [app | (lazymatch goal with |- E (newLine _ _) _ => apply E_line end) | assumption | lit | match goal with |- E (if ?b then _ else _) _ => destruct b end ].
Lemma OR_item s : good s -> same_item s.
Proof.
  enough (X : (good s -> same_item s) /\ (forall x, good s -> In x (parts s) -> same_item x)) by apply X.
  induction s as [s IH] using stmt_parts_ind.
  assert (IH2 : forall x, good s -> In x (parts s) -> same_item x) by (intros x G Hx; destruct (IH x Hx) as [I1 _]; exact (I1 (good_parts s x G Hx))).
  split; [|exact IH2]. intros G d.
  assert (IH3 : forall x y, In x (parts s) -> In y (parts x) -> same_item y) by (intros x y Hx Hy; destruct (IH x Hx) as [_ I2]; exact (I2 y (good_parts s x G Hx) Hy)).
  specialize (fun x => IH2 x G). clear IH.
  assert (GP : forall x, In x (parts s) -> good x) by (intros x; apply good_parts, G).
  destruct s; try (cbn [printBodyItem]; apply OR_bind; [apply E_space|]; intros sp sp' Hsp; apply OR_bind; [|intros r r' Hr; cbn; apply E_app; assumption]; cbn [OR];
    try (ol; first [apply E_var, G|apply E_expr, G|apply E_chain, G]); ol; fail).
  - (* If *) rewrite !item_if. apply OR_bind; [apply E_space|]. intros sp sp' Hsp. apply OR_bind; [|intros r r' Hr; cbn; apply E_app; assumption].
    cbn [parts] in *. apply OR_bind.
    { apply OR_body. intros x Hx. apply IH2. right. apply in_app_iff. auto. }
    intros t t' Ht. apply OR_bind.
    { apply OR_concat. intros i Hi. assert (Hi' : In i (s :: elems tb ++ elems eib ++ elems eb)) by (right; rewrite !in_app_iff; auto).
      pose proof (GP i Hi') as Gi. specialize (IH3 i). destruct i; try exact I. cbn [parts] in IH3. apply OR_bind.
      - apply OR_body. intros x Hx. apply IH3; [exact Hi'|]. right. apply in_app_iff. auto.
      - intros a a' Ha. cbn [OR]. ol. apply E_expr, (good_parts _ _ Gi). left. reflexivity. }
    intros ei ei' Hei. apply OR_bind.
    { destruct eb as [eb|]; [|apply E_nil]. apply OR_bind; [apply OR_body; intros x Hx; apply IH2; right; rewrite !in_app_iff; auto|]. intros a a' Ha. cbn [OR]. ol. }
    intros el el' Hel. cbn [OR]. ol. apply E_expr, GP. left. reflexivity.
  - (* Try *) rewrite !item_try. apply OR_bind; [apply E_space|]. intros sp sp' Hsp. apply OR_bind; [|intros r r' Hr; cbn; apply E_app; assumption].
    cbn [parts] in *. apply OR_bind.
    { destruct body; [|apply E_line]. apply OR_body. intros x Hx. apply IH2, in_app_iff. auto. }
    intros r1 r1' H1. apply OR_bind.
    { destruct catch; [|apply E_line]. apply OR_body. intros x Hx. apply IH2, in_app_iff. auto. }
    intros r2 r2' H2. cbn [OR]. ol.
  - (* Throw *) cbn [printBodyItem]. apply OR_bind; [apply E_space|]. intros sp sp' Hsp. apply OR_bind; [|intros r r' Hr; cbn; apply E_app; assumption].
    cbn [OR]. assert (Gs : good s) by (apply GP; left; reflexivity). ol. destruct s; ol; apply E_params; intros x [<- |[]] || intros x Hx; try exact Gs.
    apply (good_parts _ _ Gs Hx).
  - (* Return *) cbn [printBodyItem]. apply OR_bind; [apply E_space|]. intros sp sp' Hsp. apply OR_bind; [|intros r r' Hr; cbn; apply E_app; assumption].
    cbn [OR]. assert (Gs : good s) by (apply GP; left; reflexivity). ol. destruct s; ol; apply E_expr, Gs.
  - (* Loop *) rewrite !item_loop. apply OR_bind; [apply E_space|]. intros sp sp' Hsp. apply OR_bind; [|intros r r' Hr; cbn; apply E_app; assumption].
    cbn [parts] in *. apply OR_bind.
    { destruct (is_nil s3); [apply E_nil|]. destruct s1; try exact I. cbn [OR]. ol.
      - apply (good_here (SStr s)); [apply GP; left; reflexivity|left; reflexivity].
      - apply E_expr, GP. right. right. left. reflexivity. }
    intros h h' Hh. apply OR_bind.
    { apply OR_body. intros x Hx. apply IH2. right. right. right. right. exact Hx. }
    intros r r' Hr. cbn [OR]. ol; apply E_expr, GP; cbn [In]; auto.
  - (* GoTo *) cbn [printBodyItem]. apply OR_bind; [apply E_space|]. intros sp sp' Hsp. apply OR_bind; [|intros r r' Hr; cbn; apply E_app; assumption].
    destruct label as [n|]; [|exact I]. cbn [OR]. ol. apply (good_here _ _ G). left. reflexivity.
  - (* Label *) cbn [printBodyItem]. apply OR_bind; [apply E_space|]. intros sp sp' Hsp. apply OR_bind; [|intros r r' Hr; cbn; apply E_app; assumption].
    cbn [OR]. ol. apply (good_here _ _ G). left. reflexivity.
Qed.

Definition dir_text (d : bytes) : bytes := match d with [] => [] | _ => [x0a] ++ d ++ [x0a] end.
Lemma OR_func f : good f -> E (dir_text (directive_of f)) (dir_text (directive_of f)) -> OR (printFunctionOrProcedure c1 f) (printFunctionOrProcedure c2 f).
Proof.
  intros G D. destruct f; try apply E_nil. cbn [printFunctionOrProcedure]. cbn [directive_of] in D.
  assert (GP : forall x, In x (parts (SFunc vars name directive body params ty export)) -> good x) by (intros x; apply good_parts, G). cbn [parts] in GP.
  apply OR_bind.
  - apply OR_body. intros x Hx. apply OR_item, GP, in_app_iff. auto.
  - intros b b' Hb. cbn [OR]. apply E_app; [destruct directive; exact D|].
    assert (N : E name name) by (apply (good_here _ _ G); left; reflexivity).
    assert (J : E (join (B ", ") (map printParam params)) (join (B ", ") (map printParam params))).
    { apply E_join; [lit|]. rewrite Forall_map, Forall_forall. intros [[x n] v] Hp. unfold printParam. ol.
      - apply (good_here _ _ G). right. cbn [words]. apply in_map_iff. exists (x, n, v). auto.
      - assert (X : E (printVarStatement x) (printVarStatement x)). { apply E_var, GP, in_app_iff. right. apply in_map_iff. exists (x, n, v). auto. }
        destruct (printVarStatement x); ol. }
    destruct ty; ol.
Qed.
Theorem OR_Print order m : (forall s, In s (elems (m_body m)) -> good s /\ E (dir_text (directive_of s)) (dir_text (directive_of s))) ->
  (forall g, In g order -> E (gv_name g) (gv_name g) /\ E (dir_text (gv_dir g)) (dir_text (gv_dir g))) ->
  OR (Print order c1 m) (Print order c2 m).
Proof.
  intros H Hg. unfold Print. destruct (elems (m_body m)) as [|s0 l]; [apply E_nil|]. apply OR_bind.
  - apply OR_concat. intros s Hs. destruct (H s Hs) as [G D].
    destruct s; try (apply OR_bind; [apply OR_item, G|]; intros a a' Ha; cbn [OR]; apply E_app; [apply E_line|exact Ha]).
    apply OR_bind; [apply OR_func; assumption|]. intros a a' Ha; cbn [OR]; apply E_app; [exact Ha|apply E_line].
  - intros r r' Hr. cbn [OR]. apply E_app; [|exact Hr]. clear - Hg E_app E_plain E_line. induction order as [|g o IH]; cbn [map concat]; [apply E_nil|].
    destruct (Hg g (or_introl eq_refl)) as [G1 G2]. apply E_app; [|apply IH; intros; apply Hg; right; assumption]. apply E_app; [|apply E_line].
    unfold printGlobalVariable. apply E_app; [unfold dir_text in G2; destruct (gv_dir g); exact G2|]. ol.
Qed.
End E.
