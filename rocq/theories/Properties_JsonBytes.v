(** JSON is a function of the program (C72).  Specification: MapOrder.v; model: JsonBytes.v. *)
From Coq Require Import Permutation.
From Verif Require Import Bytes Utf8 Float64 GoTime Ast LexFacts Utf8Facts LexSpec LexProofs NumSpec Lexer Tables Parser Json StmtInd CellInv Properties_Tree Properties_Json
  ErrText ErrRead ErrFacts Properties_ErrText JsonText JsonRead JsonFacts Properties_Helpers Properties_JsonText Properties_Same Properties_Shape ShapeInv SpellInv PrintToks OneLine Properties_Utf8 JsonBytes MapOrder.
From Verif Require Import Shapes.
From Verif Require Import Lexical Where Tok.
Open Scope Z_scope.

(** * The order of keys *)
Lemma leb_refl a : bytes_leb a a = true.
Proof. induction a as [|x a IH]; cbn [bytes_leb]; [reflexivity|]. rewrite Z.ltb_irrefl. exact IH. Qed.
Lemma leb_total a : forall b, bytes_leb a b = true \/ bytes_leb b a = true.
Proof.
  induction a as [|x a IH]; intros [|y b]; cbn [bytes_leb]; auto. destruct (b2z x <? b2z y) eqn:E1; [auto|]. destruct (b2z y <? b2z x) eqn:E2; [auto|]. apply IH.
Qed.
Lemma leb_trans a : forall b c, bytes_leb a b = true -> bytes_leb b c = true -> bytes_leb a c = true.
Proof.
  induction a as [|x a IH]; intros [|y b] [|z c]; cbn [bytes_leb]; intros H1 H2; try congruence.
  destruct (b2z x <? b2z y) eqn:E1, (b2z y <? b2z z) eqn:E2; try (replace (b2z x <? b2z z) with true by lia; reflexivity).
  - destruct (b2z z <? b2z y) eqn:E3; [discriminate H2|]. replace (b2z x <? b2z z) with true by lia. reflexivity.
  - destruct (b2z y <? b2z x) eqn:E3; [discriminate H1|]. replace (b2z x <? b2z z) with true by lia. reflexivity.
  - destruct (b2z y <? b2z x) eqn:E3; [discriminate H1|]. destruct (b2z z <? b2z y) eqn:E4; [discriminate H2|].
    replace (b2z x <? b2z z) with false by lia. replace (b2z z <? b2z x) with false by lia. eapply IH; eassumption.
Qed.
Lemma leb_anti a : forall b, bytes_leb a b = true -> bytes_leb b a = true -> a = b.
Proof.
  induction a as [|x a IH]; intros [|y b]; cbn [bytes_leb]; intros H1 H2; try congruence.
  destruct (b2z x <? b2z y) eqn:E1.
  - destruct (b2z y <? b2z x) eqn:E2; [lia|]. discriminate H2.
  - destruct (b2z y <? b2z x) eqn:E2; [discriminate H1|]. f_equal; [|apply IH; assumption]. assert (E : b2z x = b2z y) by lia. rewrite <- (z2b_b2z x), <- (z2b_b2z y), E. reflexivity.
Qed.
Section Sort.
Context {A : Type} (key : A -> bytes).
Lemma insert_perm x l : Permutation (insert_by key x l) (x :: l).
Proof. induction l as [|y l IH]; cbn [insert_by]; [reflexivity|]. destruct (bytes_leb _ _); [reflexivity|]. rewrite IH. apply perm_swap. Qed.
Lemma sort_perm l : Permutation (sort_by key l) l.
Proof. induction l as [|x l IH]; [reflexivity|]. cbn [sort_by fold_right]. fold (sort_by key l). rewrite insert_perm, IH. reflexivity. Qed.
Inductive ordered : list A -> Prop :=
| or_nil : ordered []
| or_cons x l : Forall (fun y => bytes_leb (key x) (key y) = true) l -> ordered l -> ordered (x :: l).
Lemma insert_ordered x l : ordered l -> ordered (insert_by key x l).
Proof.
  induction 1 as [|y l Hy Hl IH]; cbn [insert_by]; [constructor; constructor|]. destruct (bytes_leb (key x) (key y)) eqn:E.
  - constructor; [|constructor; assumption]. constructor; [exact E|]. eapply Forall_impl; [|exact Hy]. intros z Hz. eapply leb_trans; eassumption.
  - constructor; [|exact IH]. rewrite insert_perm. constructor; [|exact Hy]. destruct (leb_total (key x) (key y)) as [H|H]; [congruence|exact H].
Qed.
Lemma sort_ordered l : ordered (sort_by key l).
Proof. induction l as [|x l IH]; [constructor|]. apply insert_ordered, IH. Qed.
Lemma ordered_unique l : forall l', ordered l -> ordered l' -> NoDup (map key l) -> Permutation l l' -> l = l'.
Proof.
  induction l as [|x l IH]; intros l' H1 H2 N P; [apply Permutation_nil in P; congruence|]. destruct l' as [|y l']; [apply Permutation_sym, Permutation_nil in P; discriminate|].
  inversion H1 as [|? ? F1 O1]; subst. inversion H2 as [|? ? F2 O2]; subst. inversion N as [|? ? N1 N2]; subst.
  assert (E : x = y).
  { pose proof (Permutation_in x P (or_introl eq_refl)) as I1. pose proof (Permutation_in y (Permutation_sym P) (or_introl eq_refl)) as I2.
    destruct I1 as [I1|I1]; [congruence|]. destruct I2 as [I2|I2]; [exact I2|]. exfalso. apply N1.
    rewrite Forall_forall in F1, F2. pose proof (leb_anti _ _ (F1 _ I2) (F2 _ I1)) as K. rewrite K. apply in_map, I2. }
  subst y. f_equal. apply IH; [assumption|assumption|assumption|]. eapply Permutation_cons_inv, P.
Qed.
Lemma sort_same l l' : NoDup (map key l) -> Permutation l l' -> sort_by key l = sort_by key l'.
Proof.
  intros N P. apply ordered_unique; [apply sort_ordered|apply sort_ordered| |].
  - eapply Permutation_NoDup; [|exact N]. apply Permutation_map, Permutation_sym, sort_perm.
  - rewrite !sort_perm. exact P.
Qed.
End Sort.

(** * The text is one of those of JsonText.v *)
Fixpoint as_utf8 (j : json) : json :=
  match j with
  | JStr s => JStr (jtext s)
  | JArr l => JArr (map as_utf8 l)
  | JObj l => JObj (map (fun kv => match kv with (k, x) => (jtext k, as_utf8 x) end) l)
  | _ => j
  end.
Lemma write_any nf j : json_text nf (as_utf8 j) (json_write nf j).
Proof.
  induction j as [|b|f|z|s|l IH|l IH] using json_ind2; try (constructor; fail).
  - destruct b; constructor.
  - destruct IH as [|x l Hx Hl]; [apply jt_arr0|]. cbn [json_write as_utf8]. apply jt_arr. revert x Hx.
    induction Hl as [|y l Hy Hl IH]; intros x Hx; [apply et_one, Hx|]. cbn [map]. apply et_more; [exact Hx|]. apply IH, Hy.
  - destruct IH as [|[k x] l Hx Hl]; [apply jt_obj0|]. cbn [json_write as_utf8]. apply jt_obj. cbn [snd] in Hx. revert k x Hx.
    induction Hl as [|[k2 y] l Hy Hl IH]; intros k x Hx; [apply mt_one, Hx|]. cbn [map]. apply mt_more; [exact Hx|]. apply IH, Hy.
Qed.
Definition raw_list (b : slice) : json := match b with None => JNull | Some l => JArr (map raw_value l) end.
Lemma raw_fold b : (match b with None => JNull | Some l => JArr (map raw_value l) end) = raw_list b. Proof. reflexivity. Qed.
Lemma utf8_obj l : as_utf8 (JObj l) = JObj (map (fun kv => match kv with (k, x) => (jtext k, as_utf8 x) end) l). Proof. reflexivity. Qed.
Lemma utf8_var n : as_utf8 (raw_var n) = jvar n.
Proof. reflexivity. Qed.
Lemma omit_utf8 k s j : jtext k = k -> map (fun kv => match kv with (k, x) => (jtext k, as_utf8 x) end) (omit_nil k s j) = omit_nil k s (as_utf8 j).
Proof. intros H. unfold omit_nil. destruct (is_nil s); [reflexivity|]. cbn [map]. rewrite H. reflexivity. Qed.
Lemma raw_utf8 s : as_utf8 (raw_value s) = to_json s.
Proof.
  induction s as [s IH] using stmt_parts_ind.
  assert (HL : forall b, (forall x, In x (elems b) -> In x (parts s)) -> as_utf8 (raw_list b) = arr b).
  { intros [l|] Hb; [|reflexivity]. cbn [raw_list as_utf8 arr]. f_equal. rewrite map_map. apply map_ext_in. intros x Hx. apply IH, Hb, Hx. }
  destruct s; cbn [raw_value to_json]; rewrite ?arr_fold, ?raw_fold; try reflexivity.
  all: try (rewrite ?utf8_obj; cbn [map]; rewrite ?utf8_obj; cbn [map]; rewrite ?HL by (intros x Hx; cbn [parts In]; rewrite ?in_app_iff; auto 10); rewrite ?IH by (cbn [parts In]; auto 10); reflexivity).
  - cbn [as_utf8]. rewrite rfc_text. reflexivity.
  - rewrite utf8_obj, !map_app, !omit_utf8 by (vm_compute; reflexivity). cbn [map]. rewrite HL by (intros x Hx; cbn [parts In]; auto 10). rewrite !IH by (cbn [parts In]; auto 10). reflexivity.
  - destruct label; reflexivity.
  - rewrite utf8_obj. cbn [map]. rewrite HL by (intros x Hx; cbn [parts]; rewrite in_app_iff; auto).
    match goal with |- JObj (?a :: ?b :: ?c :: ?d :: ?e :: ?g) = JObj (?a' :: ?b' :: ?c' :: ?d' :: ?e' :: ?g') => assert (E1 : a = a'); [|assert (E2 : e = e'); [|rewrite E1, E2; reflexivity]] end.
    + f_equal. destruct vars as [l|]; [|reflexivity]. rewrite utf8_obj, map_map. reflexivity.
    + f_equal. cbn [as_utf8]. f_equal. rewrite map_map. apply map_ext_in. intros [[def name0] v] Hp. rewrite utf8_obj, !map_app, omit_utf8 by (vm_compute; reflexivity). cbn [map].
      rewrite IH by (cbn [parts]; apply in_app_iff; right; apply in_map_iff; exists (def, name0, v); auto). destruct v; reflexivity.
Qed.
Lemma tree_utf8 m : as_utf8 (raw_tree m) = JSON m.
Proof.
  unfold raw_tree, JSON. rewrite utf8_obj, !map_app. f_equal. f_equal. f_equal.
  - destruct (elems (m_gvars m)) as [|v l]; [reflexivity|]. remember (sort_by gv_name (v :: l)) as o. clear Heqo. cbn [map]. f_equal. f_equal. rewrite utf8_obj, map_map. reflexivity.
  - cbn [map]. f_equal. f_equal. destruct (m_body m) as [l|]; [|reflexivity]. cbn [as_utf8]. f_equal. rewrite map_map. apply map_ext. exact raw_utf8.
Qed.

(** * C72 JSON is a function of the program *)
(** The bytes are a text of the value of Json.v: reading them gives that value, and they are one line of valid UTF-8. *)
Theorem C72_bytes : forall nf m, number_format nf ->
  json_text nf (JSON m) (JSON_bytes nf m) /\ read_json (JSON_bytes nf m) = Some (as_read nf (JSON m)) /\ web_text (JSON_bytes nf m).
Proof.
  intros nf m H. assert (T : json_text nf (JSON m) (JSON_bytes nf m)) by (rewrite <- tree_utf8; apply write_any).
  split; [exact T|]. split; [apply read_back; assumption|]. eapply C71_one_line; eassumption.
Qed.
(** ** Trees of Parse have no procedure inside another statement *)
Definition no_func (s : stmt) : Prop := match s with SFunc _ _ _ _ _ _ _ => False | _ => True end.
Inductive plain : stmt -> Prop := plain_intro s : no_func s -> Forall plain (parts s) -> plain s.
Definition kind (x : stmt) : Prop := x = SNil \/ (exists w, x = SStr w) \/ expr x \/ part x \/ path x \/ statement x \/ branch x.
Lemma kind_opt l : Forall (fun x => x = SNil \/ expr x) l -> Forall kind l.
Proof. apply Forall_impl. unfold kind. tauto. Qed.
Lemma kind_stmts l : Forall statement l -> Forall kind l. Proof. apply Forall_impl. unfold kind. tauto. Qed.
Lemma kind_branches l : Forall branch l -> Forall kind l. Proof. apply Forall_impl. unfold kind. tauto. Qed.
Ltac kinds := repeat match goal with
  | |- Forall kind [] => constructor
  | |- Forall kind (_ ++ _) => apply Forall_app; split
  | |- Forall kind (_ :: _) => constructor
  | |- Forall kind _ => first [apply kind_opt; assumption|apply kind_stmts; assumption|apply kind_branches; assumption]
  | H : iterable ?x |- kind ?x => destruct H as [H _]
  | |- kind (SStr _) => right; left; eexists; reflexivity
  | |- kind _ => unfold kind; tauto
  end.
Lemma part_kind s : part s -> no_func s /\ Forall kind (parts s).
Proof. destruct 1; cbn [parts elems no_func]; (split; [exact I|kinds]). Qed.
Lemma path_kind s : path s -> no_func s /\ Forall kind (parts s).
Proof. destruct 1; [apply part_kind; assumption|]. cbn [parts elems no_func]. split; [exact I|kinds]. Qed.
Lemma expr_kind s : expr s -> no_func s /\ Forall kind (parts s).
Proof. destruct 1; cbn [parts elems no_func]; (split; [exact I|kinds]). Qed.
Lemma statement_kind s : statement s -> no_func s /\ Forall kind (parts s).
Proof. destruct 1; [apply expr_kind; assumption|..]; cbn [parts elems no_func]; (split; [exact I|kinds]). Qed.
Lemma branch_kind s : branch s -> no_func s /\ Forall kind (parts s).
Proof. destruct 1; cbn [parts elems no_func]; (split; [exact I|kinds]). Qed.
Lemma kind_plain s : kind s -> plain s.
Proof.
  induction s as [s IH] using stmt_parts_ind. intros K. assert (H : no_func s /\ Forall kind (parts s)).
  { destruct K as [->|[[w ->]|[K|[K|[K|[K|K]]]]]]; [split; constructor|split; constructor|apply expr_kind, K|apply part_kind, K|apply path_kind, K|apply statement_kind, K|apply branch_kind, K]. }
  destruct H as [H1 H2]. constructor; [exact H1|]. apply Forall_forall. intros x Hx. rewrite Forall_forall in H2. apply IH; [exact Hx|apply H2, Hx].
Qed.
Lemma plain_inv s : plain s -> no_func s /\ Forall plain (parts s). Proof. destruct 1. auto. Qed.

(** ** Their strings are written as they are *)
Definition texts_fine (s : stmt) : Prop := forall w, word_in w s -> jtext w = w.
Lemma fine_part s x : texts_fine s -> In x (parts s) -> texts_fine x.
Proof. intros H Hx w Hw. apply H. eapply wi_part; eassumption. Qed.
Lemma raw_plain s : plain s -> texts_fine s -> raw_value s = to_json s.
Proof.
  induction s as [s IH] using stmt_parts_ind. intros P T. apply plain_inv in P as [N P]. rewrite Forall_forall in P.
  assert (HI : forall x, In x (parts s) -> raw_value x = to_json x) by (intros x Hx; apply IH; [exact Hx|apply P, Hx|eapply fine_part; eassumption]).
  assert (HL : forall b, (forall x, In x (elems b) -> In x (parts s)) -> raw_list b = arr b).
  { intros [l|] Hb; [|reflexivity]. cbn [raw_list arr]. f_equal. apply map_ext_in. intros x Hx. apply HI, Hb, Hx. }
  assert (HW : forall w, In w (words s) -> jtext w = w) by (intros w Hw; apply T, wi_here, Hw).
  destruct s; try destruct N; cbn [raw_value to_json]; rewrite ?arr_fold, ?raw_fold; try reflexivity.
  all: try (rewrite ?HL by (intros x Hx; cbn [parts In]; rewrite ?in_app_iff; auto 10); rewrite ?HI by (cbn [parts In]; auto 10); unfold raw_var, jvar; rewrite ?HW by (cbn [words In]; auto); reflexivity).
  destruct label as [n|]; [|reflexivity]. rewrite HW by (cbn [words In]; auto). reflexivity.
Qed.
Lemma raw_func vs n d b ps ty ex : Forall statement (elems b) -> Forall parameter ps -> texts_fine (SFunc vs n d b ps ty ex) -> jtext d = d -> (forall w, In w (elems vs) -> jtext w = w) ->
  raw_value (SFunc vs n d b ps ty ex) = to_json (SFunc vs n d b ps ty ex).
Proof.
  intros Hb Hp T Hd Hv. cbn [raw_value to_json]. rewrite arr_fold, raw_fold. rewrite Hd, (T n) by (apply wi_here; left; reflexivity). rewrite Forall_forall in Hb, Hp.
  assert (E0 : raw_list b = arr b).
  { destruct b as [l|]; [|reflexivity]. cbn [raw_list arr elems] in *. f_equal. apply map_ext_in. intros x Hx. apply raw_plain; [apply kind_plain; specialize (Hb x Hx); unfold kind; tauto|].
    eapply fine_part; [exact T|]. cbn [parts elems]. apply in_app_iff. left. exact Hx. }
  rewrite E0. f_equal.
  match goal with |- ?a :: ?b' :: ?c :: ?d' :: ?e :: ?g = ?a' :: ?b'' :: ?c' :: ?d'' :: ?e' :: ?g' => assert (E1 : a = a'); [|assert (E2 : e = e'); [|rewrite E1, E2; reflexivity]] end.
  - f_equal. destruct vs as [l|]; [|reflexivity]. f_equal. apply map_ext_in. intros k Hk. pose proof (Permutation_in _ (sort_perm _ _) Hk) as Hk'. unfold raw_var, jvar. rewrite (Hv k Hk'). reflexivity.
  - f_equal. f_equal. apply map_ext_in. intros [[def nm] v] Hx. rewrite (T nm) by (apply wi_here; right; apply in_map_iff; exists (def, nm, v); auto).
    assert (E : raw_value def = to_json def); [|rewrite E; reflexivity]. apply raw_plain.
    + apply kind_plain. destruct (Hp _ Hx) as [K _]. unfold kind. tauto.
    + eapply fine_part; [exact T|]. cbn [parts]. apply in_app_iff. right. apply in_map_iff. exists (def, nm, v). auto.
Qed.
Lemma raw_json_tree a : history a -> raw_tree (a_module a) = JSON (a_module a).
Proof.
  intros H. assert (J : forall w, text_in (a_module a) w -> jtext w = w) by (intros w; apply C65_json, H).
  destruct (C53_shape a H) as (En & _ & _ & fs & ss & Eb & F & S). rewrite Forall_forall in F, S. unfold raw_tree, JSON. rewrite En. f_equal. f_equal. f_equal.
  - destruct (elems (m_gvars (a_module a))) as [|v l] eqn:E; [reflexivity|]. f_equal. f_equal. f_equal. apply map_ext_in. intros g Hg. pose proof (Permutation_in _ (sort_perm _ _) Hg) as Hg'. rewrite <- E in Hg'.
    unfold raw_gvar, gvar_json, raw_var, jvar. rewrite (J _ (ti_name _ g Hg')), (J _ (ti_gdirective _ g Hg')). reflexivity.
  - f_equal. f_equal. destruct (m_body (a_module a)) as [l|] eqn:E; [|reflexivity]. f_equal. apply map_ext_in. intros s Hs. cbn [elems] in Eb.
    assert (Hs' : In s (elems (m_body (a_module a)))) by (rewrite E; exact Hs). assert (T : texts_fine s) by (intros w Hw; apply J; eapply ti_word; eassumption).
    rewrite Eb in Hs. apply in_app_or in Hs as [Hs|Hs].
    + destruct (F _ Hs) as [vars n d b ps ty ex V Hn Hd Hb Hp Ht]. apply raw_func; [exact Hb|exact Hp|exact T| |].
      * exact (J _ (ti_directive _ _ Hs')).
      * intros w Hw. apply J. eapply ti_local; eassumption.
    + apply raw_plain; [apply kind_plain; specialize (S _ Hs); unfold kind; tauto|exact T].
Qed.

(** Two trees have the same bytes exactly if they are the same up to what C40 says is left out. *)
Theorem C72_exactly : forall nf a1 a2, number_format nf -> history a1 -> history a2 ->
  (JSON_bytes nf (a_module a1) = JSON_bytes nf (a_module a2) <-> erase_module (a_module a1) = erase_module (a_module a2)).
Proof.
  intros nf a1 a2 Hn H1 H2. split.
  - intros E. apply (C71_distinct nf _ _ (JSON_bytes nf (a_module a1)) Hn); [|rewrite E]; apply C72_bytes, Hn.
  - intros E. unfold JSON_bytes. rewrite !raw_json_tree by assumption. f_equal. apply C40_exactly, E.
Qed.
(** In whatever order Go goes through the maps of the tree, the bytes are the same; for every tree Parse leaves behind,
    also after errors. *)
Theorem C72_order : forall nf a m, history a -> reordered (a_module a) m -> JSON_bytes nf m = JSON_bytes nf (a_module a).
Proof.
  intros nf a m' H (En & Eg & Eb). destruct (C53_shape a H) as (_ & N & _ & fs & ss & Ef & F & S). rewrite Forall_forall in F, S. unfold JSON_bytes. f_equal. unfold raw_tree. rewrite En. f_equal. f_equal. f_equal.
  - destruct Eg as [|g g' P]; [reflexivity|]. cbn [elems] in *. destruct g as [|v g]; [apply Permutation_nil in P; subst g'; reflexivity|].
    destruct g' as [|v' g']; [apply Permutation_sym, Permutation_nil in P; discriminate|]. rewrite (sort_same gv_name _ _ N P). reflexivity.
  - f_equal. f_equal. destruct Eb as [|l l' R]; [reflexivity|]. f_equal. cbn [elems] in Ef.
    assert (D : forall vs n d b ps ty x, In (SFunc (Some vs) n d b ps ty x) l -> NoDup vs).
    { intros vs n d b ps ty x I. rewrite Ef in I. apply in_app_or in I as [I|I].
      - pose proof (F _ I) as X. inversion X as [? ? ? ? ? ? ? [V _]]; subst. exact V.
      - destruct (statement_kind _ (S _ I)) as [[] _]. }
    clear -R D. induction R as [|s s' l l' R Rl IH]; [reflexivity|]. cbn [map]. f_equal; [|apply IH; intros; eapply D; right; eassumption].
    destruct R as [s|vs vs' n d b ps ty x P]; [reflexivity|]. cbn [raw_value]. pose proof (D _ _ _ _ _ _ _ (or_introl eq_refl)) as V.
    rewrite (sort_same (fun k => k) vs vs') by (rewrite ?map_id; assumption). reflexivity.
Qed.
(** Texts with the same tokens have the same JSON. *)
Theorem C72_tokens : forall nf code1 code2 l a1, text_of false code1 l -> text_of false code2 l -> parse code1 = Some (Ok (a1, None)) ->
  exists a2, parse code2 = Some (Ok (a2, None)) /\ JSON_bytes nf (a_module a2) = JSON_bytes nf (a_module a1).
Proof. intros nf c1 c2 l a1 H1 H2 H. destruct (C50_accepted _ _ _ _ H1 H2 H) as (a2 & E & M & _). exists a2. rewrite M. auto. Qed.

(** Examples. *)
Definition maps_code : bytes := B "Перем я, б; Процедура П() Перем ю, в; КонецПроцедуры".
Definition maps_other : bytes := B "Перем б, я; Процедура П() Перем в, ю; КонецПроцедуры".
Example C72_example : exists a m, parse maps_code = Some (Ok (a, None)) /\ history a /\ m = tree_of maps_other /\ m <> a_module a /\ reordered (a_module a) m /\
  JSON_bytes plain_format m = B "{""Name"":"""",""GlobalVariables"":{""б"":{""Directive"":"""",""Var"":{""Name"":""б""},""Export"":false},""я"":{""Directive"":"""",""Var"":{""Name"":""я""},""Export"":false}},""Body"":[{""ExplicitVariables"":{""в"":{""Name"":""в""},""ю"":{""Name"":""ю""}},""Name"":""П"",""Directive"":"""",""Body"":null,""Params"":[],""Type"":1,""Export"":false}]}".
Proof.
  eexists. exists (tree_of maps_other). split; [vm_compute; reflexivity|]. split; [eapply (history_parse (NewAST maps_code)); [apply history_new|vm_compute; reflexivity]|]. split; [reflexivity|]. split; [vm_compute; discriminate|].
  split; [|vm_compute; reflexivity]. vm_compute. split; [reflexivity|]. split; [apply rm_some, perm_swap|]. apply rb_some. constructor; [|constructor]. apply ro_vars, perm_swap.
Qed.
Print Assumptions C72_bytes.
Print Assumptions C72_exactly.
Print Assumptions C72_order.
Print Assumptions C72_tokens.
