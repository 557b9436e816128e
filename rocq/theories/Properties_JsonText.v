(** The text of JSON tells the value (C71).  Specification: JsonRead.v; model: Json.v, JsonText.v; proofs: JsonFacts.v. *)
From Verif Require Import Bytes Utf8 Float64 GoTime Ast LexFacts Utf8Facts LexSpec LexProofs NumSpec Lexer Tables Parser Json StmtInd CellInv Properties_Tree Properties_Json
  ErrText ErrRead ErrFacts Properties_ErrText JsonText JsonRead JsonFacts Properties_Helpers.
Open Scope Z_scope.

(** * Every value has a text *)
Lemma ascii_jtext s : Forall (fun b => b2z b < 128) s -> jtext s = s.
Proof.
  induction 1 as [|b s H _ IH]; [reflexivity|]. pose proof (b2z_range b) as R. unfold jtext in *.
  assert (E : b :: s = encode (b2z b) ++ s) by (rewrite encode_small, z2b_b2z by lia; reflexivity).
  rewrite E at 1. rewrite runes_app_encode by (unfold valid_rune; lia). unfold string_of_runes in *. cbn [flat_map]. rewrite IH, E. reflexivity.
Qed.
Lemma number_ascii s : Forall (fun b => number_char b = true) s -> Forall (fun b => b2z b < 128) s.
Proof. apply Forall_impl. intros b H. unfold number_char in H. rewrite !orb_true_iff in H. lia. Qed.
Lemma dec_ascii f : forall n acc, Forall (fun b => b2z b < 128) acc -> Forall (fun b => b2z b < 128) (dec_fuel f n acc).
Proof.
  induction f as [|f IH]; intros n acc H; cbn [dec_fuel]; [exact H|].
  assert (X : Forall (fun b => b2z b < 128) (z2b (48 + n mod 10) :: acc)) by (constructor; [rewrite b2z_z2b; pose proof (Z.mod_pos_bound n 10 ltac:(lia)); lia|exact H]).
  destruct (_ =? 0); [exact X|apply IH, X].
Qed.
Lemma pad_ascii w n : Forall (fun b => b2z b < 128) (pad w n).
Proof. unfold pad. cbv zeta. apply Forall_app. split; [apply Forall_forall; intros b Hb; apply repeat_spec in Hb; subst b; vm_compute; reflexivity|apply dec_ascii; constructor]. Qed.
Lemma rfc_text t : jtext (rfc3339 t) = rfc3339 t.
Proof. apply ascii_jtext. unfold rfc3339. repeat first [apply pad_ascii|apply Forall_app; split|constructor; [vm_compute; reflexivity|constructor]]. Qed.

Section Numbers.
Context (nf : f64 -> bytes).
Definition has_text (j : json) : Prop := exists t, json_text nf j t.
Lemma text_str w : has_text (JStr (jtext w)). Proof. eexists. apply jt_str. Qed.
Lemma text_arr l : Forall has_text l -> has_text (JArr l).
Proof.
  intros H. destruct l as [|x l]; [eexists; apply jt_arr0|]. assert (E : exists t, elements_text nf (x :: l) t).
  { inversion H as [|? ? Hx Hl]; subst. clear H. revert x Hx. induction Hl as [|y l Hy Hl IH]; intros x [t Ht]; [eexists; apply et_one, Ht|]. destruct (IH y Hy) as (u & Hu). eexists. apply et_more; eassumption. }
  destruct E as (t & Ht). eexists. apply jt_arr, Ht.
Qed.
Lemma text_obj l : Forall (fun kv => (exists w, fst kv = jtext w) /\ has_text (snd kv)) l -> has_text (JObj l).
Proof.
  intros H. destruct l as [|x l]; [eexists; apply jt_obj0|]. assert (E : exists t, members_text nf (x :: l) t).
  { inversion H as [|? ? Hx Hl]; subst. clear H. revert x Hx. induction Hl as [|y l Hy Hl IH]; intros [k j] [[w Hw] [t Ht]]; cbn [fst snd] in *; subst k; [eexists; apply mt_one, Ht|]. destruct (IH y Hy) as (u & Hu). eexists. apply mt_more; eassumption. }
  destruct E as (t & Ht). eexists. apply jt_obj, Ht.
Qed.
Lemma key_word k : forallb (fun b => b2z b <? 128) k = true -> exists w, k = jtext w.
Proof. intros H. exists k. symmetry. apply ascii_jtext, Forall_forall. intros b Hb. rewrite forallb_forall in H. specialize (H b Hb). cbv beta in H. lia. Qed.
Ltac keys := repeat first [apply Forall_nil | apply Forall_cons; [cbn [fst snd]; split; [apply key_word; vm_compute; reflexivity|]|]].
Lemma text_var n : has_text (jvar n). Proof. apply text_obj. keys. apply text_str. Qed.
Lemma text_bool b : has_text (JBool b). Proof. destruct b; eexists; constructor. Qed.
Lemma text_int z : has_text (JInt z). Proof. eexists; constructor. Qed.
Lemma text_null : has_text JNull. Proof. eexists; constructor. Qed.
Lemma omit_text k s j : (exists w, k = jtext w) -> has_text j -> Forall (fun kv => (exists w, fst kv = jtext w) /\ has_text (snd kv)) (omit_nil k s j).
Proof. intros Hk Hj. unfold omit_nil. destruct (is_nil s); constructor; [|constructor]. cbn [fst snd]. auto. Qed.
Lemma stmt_text s : has_text (to_json s).
Proof.
  induction s as [s IH] using stmt_parts_ind.
  assert (HL : forall b, (forall x, In x (elems b) -> In x (parts s)) -> has_text (arr b)).
  { intros [l|] Hb; [|apply text_null]. apply text_arr. apply Forall_forall. intros j Hj. apply in_map_iff in Hj as (x & <- & Hx). apply IH, Hb, Hx. }
  destruct s; cbn [to_json]; rewrite ?arr_fold;
  try (first [apply text_null|apply text_str|apply text_bool|apply text_var|rewrite <- rfc_text; apply text_str|eexists; apply jt_num|eexists; apply jt_obj0]).
  all: try (apply text_obj; keys; repeat (apply text_obj; keys); first [apply text_str|apply text_int|apply IH; cbn [parts In]; auto 10|apply HL; intros x Hx; cbn [parts In]; rewrite ?in_app_iff; auto 10]).
  - apply text_obj. repeat (apply Forall_app; split); try (apply omit_text; [apply key_word; vm_compute; reflexivity|apply IH; cbn [parts In]; auto 10]).
    keys. apply HL. intros x Hx. cbn [parts In]. auto 10.
  - destruct label; apply text_obj; keys; [apply text_obj; keys; apply text_str|apply text_null].
  - apply text_obj. keys; try apply text_str; try apply text_int; try apply text_bool.
    + destruct vars as [l|]; [|apply text_null]. apply text_obj. apply Forall_forall. intros kv Hkv. apply in_map_iff in Hkv as (k & <- & _). cbn [fst snd]. split; [eauto|apply text_var].
    + apply HL. intros x Hx. cbn [parts]. rewrite in_app_iff. auto.
    + apply text_arr. apply Forall_forall. intros j Hj. apply in_map_iff in Hj as ([[def name0] v] & <- & Hp). apply text_obj. apply Forall_app. split; [|apply Forall_app; split].
      * apply omit_text; [apply key_word; vm_compute; reflexivity|]. apply IH. cbn [parts]. apply in_app_iff. right. apply in_map_iff. exists (def, name0, v). auto.
      * keys. apply text_str.
      * destruct v; keys. apply text_bool.
Qed.
Lemma module_text m : has_text (JSON m).
Proof.
  unfold JSON. apply text_obj. apply Forall_app. split; [keys; apply text_str|]. apply Forall_app. split.
  - destruct (elems (m_gvars m)) as [|v l]; [constructor|]. remember (sort_by gv_name (v :: l)) as o. clear Heqo. keys. apply text_obj. apply Forall_forall. intros kv H. apply in_map_iff in H as (g & <- & _).
    cbn [fst snd]. split; [eauto|]. unfold gvar_json. apply text_obj. keys; [apply text_str|apply text_var|apply text_bool].
  - keys. destruct (m_body m) as [l|]; [|apply text_null]. apply text_arr. apply Forall_forall. intros j Hj. apply in_map_iff in Hj as (x & <- & _). apply stmt_text.
Qed.
End Numbers.

(** * Numbers of the tree and numbers of kinds *)
(** Only the members Operation and Type hold whole numbers. *)
Definition int_key (k : bytes) : bool := beqb k (B "Operation") || beqb k (B "Type").
Definition is_int (j : json) : bool := match j with JInt _ => true | _ => false end.
Definition is_num (j : json) : bool := match j with JNum _ => true | _ => false end.
Fixpoint sorted (j : json) : Prop :=
  match j with
  | JArr l => fold_right (fun x P => is_int x = false /\ sorted x /\ P) True l
  | JObj l => fold_right (fun kv P => match kv with (k, x) => (if int_key k then is_num x = false else is_int x = false) /\ sorted x end /\ P) True l
  | _ => True
  end.
Lemma json_ind2 (P : json -> Prop) : P JNull -> (forall b, P (JBool b)) -> (forall f, P (JNum f)) -> (forall z, P (JInt z)) -> (forall s, P (JStr s)) ->
  (forall l, Forall P l -> P (JArr l)) -> (forall l, Forall (fun kv => P (snd kv)) l -> P (JObj l)) -> forall j, P j.
Proof.
  intros H1 H2 H3 H4 H5 H6 H7. fix IH 1. intros [|b|f|z|s|l|l]; [exact H1|apply H2|apply H3|apply H4|apply H5| |].
  - apply H6. induction l as [|x l IHl]; constructor; [apply IH|exact IHl].
  - apply H7. induction l as [|[k x] l IHl]; constructor; [apply IH|exact IHl].
Qed.
Lemma as_read_inj nf : number_format nf -> forall j1 j2, sorted j1 -> sorted j2 -> is_int j1 = is_int j2 -> as_read nf j1 = as_read nf j2 -> j1 = j2.
Proof.
  intros [_ Hn]. induction j1 as [|b|f|z|s|l IH|l IH] using json_ind2; intros [|b'|f'|z'|s'|l'|l'] S1 S2 I E; cbn [as_read] in E; try discriminate E; try discriminate I; try congruence.
  - injection E as E. f_equal. apply Hn, E.
  - injection E as E. f_equal. apply int_inj, E.
  - injection E as E. f_equal. clear I. revert l' S2 E. induction IH as [|x l Hx Hl IHl]; intros [|y l'] S2 E; try discriminate E; [reflexivity|]. cbn [map] in E. injection E as E1 E2.
    cbn [sorted fold_right] in S1, S2. destruct S1 as (A1 & A2 & A3), S2 as (B1 & B2 & B3). f_equal; [apply Hx; auto; congruence|]. apply IHl; auto.
  - injection E as E. f_equal. clear I. revert l' S2 E. induction IH as [|[k x] l Hx Hl IHl]; intros [|[k' y] l'] S2 E; try discriminate E; [reflexivity|]. cbn [map] in E. injection E as E0 E1 E2. subst k'.
    cbn [sorted fold_right] in S1, S2. destruct S1 as ((A1 & A2) & A3), S2 as ((B1 & B2) & B3). f_equal; [|apply IHl; auto]. f_equal. cbn [snd] in Hx. apply Hx; auto.
    destruct (int_key k); [|congruence]. destruct x, y; cbn in *; congruence.
Qed.
Lemma sorted_arr l : (forall x, In x l -> is_int x = false /\ sorted x) -> sorted (JArr l).
Proof. intros H. cbn [sorted]. induction l as [|x l IH]; [exact I|]. cbn [fold_right]. destruct (H x (or_introl eq_refl)). split; [assumption|]. split; [assumption|]. apply IH. intros y Hy. apply H. right. exact Hy. Qed.
Definition member_ok (kv : bytes * json) : Prop := (if int_key (fst kv) then is_num (snd kv) = false else is_int (snd kv) = false) /\ sorted (snd kv).
Lemma sorted_obj l : Forall member_ok l -> sorted (JObj l).
Proof. intros H. cbn [sorted]. induction H as [|[k x] l [H1 H2] _ IH]; [exact I|]. cbn [fold_right fst snd] in *. auto. Qed.
Lemma stmt_not_int s : is_int (to_json s) = false. Proof. destruct s; try reflexivity. destruct label; reflexivity. Qed.
Lemma member_stmt k j : int_key k = false -> is_int j = false -> sorted j -> member_ok (k, j).
Proof. intros H H1 H2. split; cbn [fst snd]; [rewrite H; exact H1|exact H2]. Qed.
Lemma sorted_text s : sorted (JStr s). Proof. exact I. Qed.
Lemma member_both k j : is_int j = false -> is_num j = false -> sorted j -> member_ok (k, j).
Proof. intros H H1 H2. split; cbn [fst snd]; [destruct (int_key k); assumption|exact H2]. Qed.
Lemma sorted_var n : sorted (jvar n). Proof. apply sorted_obj. constructor; [|constructor]. apply member_both; [reflexivity|reflexivity|exact I]. Qed.
Lemma omit_sorted k s j : int_key k = false -> is_int j = false -> sorted j -> Forall member_ok (omit_nil k s j).
Proof. intros H H1 H2. unfold omit_nil. destruct (is_nil s); constructor; [|constructor]. apply member_stmt; assumption. Qed.
Ltac mems := repeat first [apply Forall_nil | apply Forall_cons].
Lemma arr_not b : is_int (arr b) = false. Proof. destruct b; reflexivity. Qed.
Ltac one IH HL := first
  [ apply member_both; [reflexivity|reflexivity|exact I]
  | split; [reflexivity|exact I]
  | apply member_stmt; [vm_compute; reflexivity|apply stmt_not_int|apply IH; cbn [parts In]; auto 10]
  | apply member_stmt; [vm_compute; reflexivity|apply arr_not|apply HL; intros x Hx; cbn [parts In]; rewrite ?in_app_iff; auto 10]
  | apply member_both; [reflexivity|reflexivity|apply sorted_obj; mems; apply member_stmt; [vm_compute; reflexivity|apply arr_not|apply HL; intros x Hx; cbn [parts In]; rewrite ?in_app_iff; auto 10]] ].
Lemma stmt_sorted s : sorted (to_json s).
Proof.
  induction s as [s IH] using stmt_parts_ind.
  assert (HL : forall b, (forall x, In x (elems b) -> In x (parts s)) -> sorted (arr b)).
  { intros [l|] Hb; [|exact I]. apply sorted_arr. intros j Hj. apply in_map_iff in Hj as (x & <- & Hx). split; [apply stmt_not_int|]. apply IH, Hb, Hx. }
  destruct s; cbn [to_json]; rewrite ?arr_fold; try exact I; try apply sorted_var; try (apply sorted_obj; mems; one IH HL).
  - apply sorted_obj. repeat (apply Forall_app; split); try (apply omit_sorted; [vm_compute; reflexivity|apply stmt_not_int|apply IH; cbn [parts In]; auto 10]). mems. one IH HL.
  - destruct label; apply sorted_obj; mems; [|one IH HL]. apply member_both; [reflexivity|reflexivity|]. apply sorted_obj. mems. one IH HL.
  - apply sorted_obj. mems; try one IH HL.
    + destruct vars as [l|]; [|one IH HL]. apply member_both; [reflexivity|reflexivity|]. apply sorted_obj. apply Forall_forall. intros kv Hkv. apply in_map_iff in Hkv as (k & <- & _). apply member_both; [reflexivity|reflexivity|apply sorted_var].
    + apply member_both; [reflexivity|reflexivity|]. apply sorted_arr. intros j Hj. apply in_map_iff in Hj as ([[def name0] v] & <- & Hp). split; [reflexivity|]. apply sorted_obj. apply Forall_app. split; [|apply Forall_app; split].
      * apply omit_sorted; [vm_compute; reflexivity|apply stmt_not_int|]. apply IH. cbn [parts]. apply in_app_iff. right. apply in_map_iff. exists (def, name0, v). auto.
      * mems. one IH HL.
      * destruct v; mems. one IH HL.
Qed.
Lemma module_sorted m : sorted (JSON m).
Proof.
  unfold JSON. apply sorted_obj. apply Forall_app. split; [mems; apply member_both; [reflexivity|reflexivity|exact I]|]. apply Forall_app. split.
  - destruct (elems (m_gvars m)) as [|v l]; [constructor|]. remember (sort_by gv_name (v :: l)) as o. clear Heqo. mems. apply member_both; [reflexivity|reflexivity|]. apply sorted_obj. apply Forall_forall. intros kv H. apply in_map_iff in H as (g & <- & _).
    apply member_both; [reflexivity|reflexivity|]. unfold gvar_json. apply sorted_obj. mems; apply member_both; try reflexivity; try exact I. apply sorted_var.
  - mems. destruct (m_body m) as [l|]; [|apply member_both; [reflexivity|reflexivity|exact I]]. apply member_both; [reflexivity|reflexivity|]. apply sorted_arr. intros j Hj. apply in_map_iff in Hj as (x & <- & _). split; [apply stmt_not_int|apply stmt_sorted].
Qed.

(** * C71 The text of JSON tells the value *)
(** Every module has a text, and a reader of JSON gets the value of Json.v from it. *)
Theorem C71_read : forall nf m, number_format nf -> (exists t, json_text nf (JSON m) t) /\ forall t, json_text nf (JSON m) t -> read_json t = Some (as_read nf (JSON m)).
Proof. intros nf m H. split; [apply module_text|]. intros t Ht. apply read_back; assumption. Qed.
(** Modules with the same text have the same JSON value: they are the same up to what C40 says is left out. *)
Theorem C71_distinct : forall nf m1 m2 t, number_format nf -> json_text nf (JSON m1) t -> json_text nf (JSON m2) t -> JSON m1 = JSON m2 /\ erase_module m1 = erase_module m2.
Proof.
  intros nf m1 m2 t H H1 H2. assert (E : JSON m1 = JSON m2).
  { apply (as_read_inj nf H); [apply module_sorted|apply module_sorted|reflexivity|]. pose proof (read_back nf H _ _ H1) as R1. pose proof (read_back nf H _ _ H2) as R2. congruence. }
  split; [exact E|]. apply C40_exactly, E.
Qed.

(** ** One line of valid UTF-8 *)
Notation fine := web_text.
Definition html_byte (b : byte) : Prop := 32 <= b2z b /\ b2z b <> 60 /\ b2z b <> 62 /\ b2z b <> 38.
Lemma fine_nil : fine []. Proof. exists []. split; [reflexivity|]. split; [constructor|reflexivity]. Qed.
Lemma fine_cat a b : fine a -> fine b -> fine (a ++ b).
Proof.
  intros (x & A1 & A2 & ->) (y & B1 & B2 & ->). exists (x ++ y). split; [rewrite forallb_app, A1, B1; reflexivity|]. split; [apply Forall_app; auto|]. unfold string_of_runes. rewrite flat_map_app. reflexivity.
Qed.
Lemma fine_encode r : valid_rune r = true -> web_char r -> fine (encode r).
Proof. intros H W. exists [r]. cbn [forallb]. rewrite H. split; [reflexivity|]. split; [constructor; [exact W|constructor]|]. cbn. rewrite app_nil_r. reflexivity. Qed.
Lemma fine_ascii s : Forall (fun b => html_byte b /\ b2z b < 128) s -> fine s.
Proof.
  induction 1 as [|b s [H1 H2] Hs IH]; [apply fine_nil|]. change (b :: s) with ([b] ++ s). apply fine_cat; [|exact IH]. unfold html_byte in H1. rewrite <- (z2b_b2z b), <- encode_small by lia.
  apply fine_encode; [unfold valid_rune; lia|unfold web_char; lia].
Qed.
Lemma fine_word s : forallb (fun b => (32 <=? b2z b) && (b2z b <? 128) && negb (b2z b =? 60) && negb (b2z b =? 62) && negb (b2z b =? 38)) s = true -> fine s.
Proof. intros H. apply fine_ascii, Forall_forall. intros b Hb. rewrite forallb_forall in H. specialize (H b Hb). cbv beta in H. unfold html_byte. lia. Qed.
Lemma fine_hex n r : fine (hex_text n r).
Proof.
  apply fine_ascii. induction n as [|n IH]; cbn [hex_text]; constructor; [|exact IH]. pose proof (Z.mod_pos_bound (r / 16 ^ Z.of_nat n) 16 ltac:(lia)) as M. unfold hex_digit, html_byte.
  destruct (_ <? 10) eqn:E; rewrite b2z_z2b by lia; lia.
Qed.
Lemma fine_numbers s : Forall (fun b => number_char b = true) s -> fine s.
Proof. intros H. apply fine_ascii. eapply Forall_impl; [|exact H]. intros b Hb. unfold number_char in Hb. rewrite !orb_true_iff in Hb. unfold html_byte. lia. Qed.
Ltac fines := repeat match goal with
  | |- fine (_ ++ _) => apply fine_cat
  | |- fine (B _) => apply fine_word; vm_compute; reflexivity
  | |- fine (hex_text _ _) => apply fine_hex
  | |- fine (if ?b then _ else _) => destruct b eqn:?
  end.
Lemma fine_escape r : valid_rune r = true -> fine (json_escape r).
Proof.
  intros V. pose proof (valid_rune_range r V) as [R _]. unfold json_escape. destruct ((r =? 34) || (r =? 92)) eqn:E0.
  { apply fine_ascii. constructor; [vm_compute; repeat split; discriminate|]. constructor; [|constructor]. unfold html_byte. rewrite b2z_z2b by lia. lia. }
  fines. rewrite !orb_false_iff in *. apply fine_encode; [exact V|]. unfold web_char. lia.
Qed.
Lemma fine_chars n : forall s, fine (json_chars n s).
Proof.
  induction n as [|n IH]; intros s; cbn [json_chars]; [apply fine_nil|]. destruct s as [|b s]; [apply fine_nil|]. destruct (decode (b :: s)) as [r w] eqn:Ed. apply fine_cat; [|apply IH].
  destruct ((r =? RuneError) && Nat.eqb w 1) eqn:Eb; [fines|]. apply fine_escape. destruct (decode_shape (b :: s) ltac:(discriminate)) as [E|[V _]]; rewrite Ed in *; [injection E as -> ->; discriminate Eb|exact V].
Qed.
Lemma fine_string w : fine (json_string w).
Proof. unfold json_string. change (z2b 34 :: json_chars (length w) w ++ [z2b 34]) with ([z2b 34] ++ json_chars (length w) w ++ [z2b 34]). apply fine_cat; [apply fine_word; vm_compute; reflexivity|]. apply fine_cat; [apply fine_chars|apply fine_word; vm_compute; reflexivity]. Qed.
Lemma fine_all nf : number_format nf -> (forall j t, json_text nf j t -> fine t) /\ (forall l t, elements_text nf l t -> fine t) /\ (forall l t, members_text nf l t -> fine t).
Proof.
  intros [H _]. apply json_texts_ind; intros; fines; auto; try apply fine_string.
  - apply fine_numbers, H.
  - apply fine_numbers, int_chars.
Qed.
(** The text is one line of valid UTF-8 without control characters, line separators and < > &, whatever bytes the source has. *)
Theorem C71_one_line : forall nf j t, number_format nf -> json_text nf j t -> web_text t.
Proof. intros nf j t H Ht. exact (proj1 (fine_all nf H) j t Ht). Qed.

(** Examples. *)
(** A formatting that meets the condition. *)
Definition plain_format (f : f64) : bytes := int_text (f_man f) ++ B (if f_neg f then "e+" else "e") ++ int_text (f_exp f).
Example C71_format : number_format plain_format.
Proof.
  split.
  - intros f. unfold plain_format. destruct (int_chars (f_man f)) as [H1 H2], (int_chars (f_exp f)) as [_ H3]. split; [destruct (int_text (f_man f)); [congruence|discriminate]|].
    apply Forall_app. split; [exact H2|]. apply Forall_app. split; [|exact H3]. destruct (f_neg f); repeat constructor.
  - intros [s m e] [s' m' e'] H. unfold plain_format in H. cbn [f_man f_neg f_exp] in H.
    assert (X : forall (b : bool) u, forall c t', B (if b then "e+" else "e") ++ u = c :: t' -> ~ 48 <= b2z c <= 57) by (intros [] u c t' [= <- _]; vm_compute; intros [_ Y]; apply Y; reflexivity).
    pose proof (integer_text m _ (X s (int_text e))) as R1. pose proof (integer_text m' _ (X s' (int_text e'))) as R2. rewrite H, R2 in R1. injection R1 as -> R1.
    assert (Y : forall z, exists b t, int_text z = b :: t /\ b2z b <> 43).
    { intros z. assert (Z0 : forall f n acc, 0 <= n -> (forall b t, acc = b :: t -> b2z b <> 43) -> (acc <> [] \/ f <> O) -> exists b t, dec_fuel f n acc = b :: t /\ b2z b <> 43).
      { induction f as [|f IH]; intros n acc Hn Ha Hne; cbn [dec_fuel].
        - destruct acc as [|b t]; [destruct Hne; congruence|]. eauto.
        - assert (Q : b2z (z2b (48 + n mod 10)) <> 43) by (pose proof (Z.mod_pos_bound n 10 ltac:(lia)); rewrite b2z_z2b by lia; lia).
          destruct (_ =? 0); [eauto|]. apply IH; [apply Z.div_pos; lia|intros b t [= <- _]; exact Q|left; discriminate]. }
      unfold int_text. destruct (z <? 0) eqn:Ez; [eexists _, _; split; [reflexivity|vm_compute; discriminate]|]. apply Z0; [lia|discriminate|right; discriminate]. }
    destruct (Y e) as (b1 & t1 & Y1 & Y2), (Y e') as (b2 & t2 & Y3 & Y4). destruct s, s'.
    + injection R1 as R1. apply int_inj in R1. subst. reflexivity.
    + rewrite Y3 in R1. injection R1 as R1 _. subst b2. destruct (Y4 eq_refl).
    + rewrite Y1 in R1. injection R1 as R1 _. subst b1. destruct (Y2 eq_refl).
    + injection R1 as R1. apply int_inj in R1. subst. reflexivity.
Qed.
(** The text of a value whose strings come from valid UTF-8. *)
Section Write.
Context (nf : f64 -> bytes).
Fixpoint write (j : json) : bytes :=
  match j with
  | JNull => B "null"
  | JBool b => B (if b then "true" else "false")
  | JNum f => nf f
  | JInt z => int_text z
  | JStr s => json_string s
  | JArr l => B "[" ++ (fix go l := match l with [] => [] | [x] => write x | x :: l' => write x ++ B "," ++ go l' end) l ++ B "]"
  | JObj l => B "{" ++ (fix go l := match l with [] => [] | [(k, x)] => json_string k ++ B ":" ++ write x | (k, x) :: l' => json_string k ++ B ":" ++ write x ++ B "," ++ go l' end) l ++ B "}"
  end.
Fixpoint clean_json (j : json) : bool :=
  match j with
  | JStr s => beqb (jtext s) s
  | JArr l => forallb clean_json l
  | JObj l => forallb (fun kv => match kv with (k, x) => beqb (jtext k) k && clean_json x end) l
  | _ => true
  end.
Lemma write_text j : clean_json j = true -> json_text nf j (write j).
Proof.
  induction j as [|b|f|z|s|l IH|l IH] using json_ind2; intros H; try (constructor; fail).
  - destruct b; constructor.
  - cbn [clean_json] in H. apply beqb_eq in H. rewrite <- H at 1. apply jt_str.
  - destruct IH as [|x l Hx Hl]; [apply jt_arr0|]. cbn [write]. apply jt_arr. cbn [clean_json forallb] in H. apply andb_true_iff in H as [H1 H2]. specialize (Hx H1). clear H1. revert x Hx H2.
    induction Hl as [|y l Hy Hl IH]; intros x Hx H2; [apply et_one, Hx|]. apply et_more; [exact Hx|]. cbn [forallb] in H2. apply andb_true_iff in H2 as [H1 H2]. apply IH; [apply Hy, H1|exact H2].
  - destruct IH as [|[k x] l Hx Hl]; [apply jt_obj0|]. cbn [write]. apply jt_obj. cbn [clean_json forallb] in H. rewrite !andb_true_iff in H. destruct H as [[Hk H1] H2]. specialize (Hx H1). cbn [snd] in Hx. clear H1. revert k x Hk Hx H2.
    induction Hl as [|[k2 y] l Hy Hl IH]; intros k x Hk Hx H2; apply beqb_eq in Hk.
    + rewrite <- Hk at 1. apply mt_one, Hx.
    + rewrite <- Hk at 1. cbn [forallb] in H2. rewrite !andb_true_iff in H2. destruct H2 as [[H0 H1] H2]. apply mt_more; [exact Hx|]. apply IH; [exact H0|apply Hy, H1|exact H2].
Qed.
End Write.
(** A string with quotes and marks. *)
Definition told_code : bytes := B "а = ""<""""&|>"" + 2;".
Example C71_example : accepted told_code (tree_of told_code) /\
  json_text plain_format (JSON (tree_of told_code)) (B "{""Name"":"""",""Body"":[{""Var"":{""Name"":""а""},""Expr"":{""Statements"":[{""Left"":""\u003c\""\""\u0026|\u003e"",""Right"":4503599627370496e-51,""Operation"":1}]}}]}") /\
  read_json (B "{""Name"":"""",""Body"":[{""Var"":{""Name"":""а""},""Expr"":{""Statements"":[{""Left"":""\u003c\""\""\u0026|\u003e"",""Right"":4503599627370496e-51,""Operation"":1}]}}]}") = Some (as_read plain_format (JSON (tree_of told_code))).
Proof.
  split; [accepted|]. set (t := B "{""Name"":"""",""Body"":[{""Var"":{""Name"":""а""},""Expr"":{""Statements"":[{""Left"":""\u003c\""\""\u0026|\u003e"",""Right"":4503599627370496e-51,""Operation"":1}]}}]}").
  assert (W : json_text plain_format (JSON (tree_of told_code)) t).
  { replace t with (write plain_format (JSON (tree_of told_code))) by (vm_compute; reflexivity). apply write_text. vm_compute. reflexivity. }
  split; [exact W|]. apply (read_back _ C71_format), W.
Qed.
(** Bytes that are no UTF-8 come out as U+FFFD. *)
Example C71_example_bytes : exists m t, m = Module [z2b 255; z2b 10] None None /\ json_text plain_format (JSON m) t /\ read_json t = Some (VObj [(B "Name", VStr (encode 65533 ++ [z2b 10])); (B "Body", VNull)]).
Proof.
  eexists _, _. split; [reflexivity|]. assert (W : json_text plain_format (JSON (Module [z2b 255; z2b 10] None None)) (B "{" ++ (json_string (B "Name") ++ B ":" ++ json_string [z2b 255; z2b 10] ++ B "," ++ json_string (B "Body") ++ B ":" ++ B "null") ++ B "}")).
  { apply jt_obj. apply (mt_more _ (B "Name") (JStr (jtext [z2b 255; z2b 10]))); [apply jt_str|]. apply (mt_one _ (B "Body")). apply jt_null. }
  split; [exact W|]. rewrite (read_back _ C71_format _ _ W). vm_compute. reflexivity.
Qed.

Print Assumptions C71_read.
Print Assumptions C71_distinct.
Print Assumptions C71_one_line.
