(** Reading back what encoding/json writes (C71). *)
From Verif Require Import Bytes Utf8 Float64 GoTime Ast LexFacts Utf8Facts LexSpec LexProofs NumSpec Json ErrText ErrRead ErrFacts JsonText JsonRead.
Open Scope Z_scope.

Lemma junquote_raw l t : Forall (fun b => 32 <= b2z b /\ b2z b <> 34 /\ b2z b <> 92) l -> json_unquote (l ++ t) = put l (json_unquote t).
Proof.
  induction 1 as [|b l H _ IH]; [cbn; destruct (json_unquote t) as [[]|]; reflexivity|]. cbn [app json_unquote].
  replace (b2z b =? 34) with false by lia. replace (b2z b <? 32) with false by lia. replace (b2z b =? 92) with false by lia. cbn [negb]. rewrite IH, put_app. reflexivity.
Qed.
Lemma junquote_four n t : 0 <= n < 65536 -> json_unquote (B "\u" ++ hex_text 4 n ++ t) = put (encode n) (json_unquote t).
Proof.
  intros H. pose proof (hex_text_value 4 n H) as E. pose proof (hex_text_length 4 n) as L. destruct (hex_text 4 n) as [|h1 [|h2 [|h3 [|h4 [|]]]]]; try discriminate L.
  change (json_unquote (B "\u" ++ [h1; h2; h3; h4] ++ t)) with (match hex_number 0 [h1; h2; h3; h4] with Some v => put (encode v) (json_unquote t) | None => None end).
  rewrite E. reflexivity.
Qed.
Lemma junquote_escape r t : valid_rune r = true -> json_unquote (json_escape r ++ t) = put (encode r) (json_unquote t).
Proof.
  intros V. pose proof (valid_rune_range r V) as [R _]. unfold json_escape.
  destruct ((r =? 34) || (r =? 92)) eqn:E0.
  { apply orb_true_iff in E0 as [E|E]; apply Z.eqb_eq in E; subst r; reflexivity. }
  apply orb_false_iff in E0 as [E0 E0'].
  repeat match goal with
  | |- context [if r =? ?k then _ else _] => let E := fresh "E" in destruct (r =? k) eqn:E; [apply Z.eqb_eq in E; subst r; reflexivity|]
  end.
  match goal with |- context [if ?c then _ else _] => destruct c eqn:E8 end.
  { rewrite <- app_assoc. apply junquote_four. rewrite !orb_true_iff in E8. lia. }
  rewrite !orb_false_iff in E8. apply junquote_raw. apply Forall_forall. intros b Hb. destruct (encode_bytes r b V Hb); lia.
Qed.
Lemma jtext_cons b s : jtext (b :: s) = encode (fst (decode (b :: s))) ++ jtext (skipn (snd (decode (b :: s))) (b :: s)).
Proof. unfold jtext. rewrite runes_eq. reflexivity. Qed.
Lemma junquote_chars n : forall s t, (length s <= n)%nat -> json_unquote (json_chars n s ++ t) = put (jtext s) (json_unquote t).
Proof.
  induction n as [|n IH]; intros s t H.
  - destruct s; [|cbn in H; lia]. cbn. destruct (json_unquote t) as [[]|]; reflexivity.
  - destruct s as [|b s]; [cbn; destruct (json_unquote t) as [[]|]; reflexivity|]. cbn [json_chars].
    pose proof (decode_size (b :: s) ltac:(discriminate)) as Hd. rewrite jtext_cons. destruct (decode_shape (b :: s) ltac:(discriminate)) as [E|[V E]].
    + rewrite E in *. cbn [fst snd Nat.eqb]. replace (RuneError =? RuneError) with true by reflexivity. cbn [andb skipn]. rewrite <- app_assoc.
      change (B "\u" ++ B "fffd") with (B "\u" ++ hex_text 4 65533). rewrite <- app_assoc, junquote_four by lia. rewrite IH by (cbn in H; lia). rewrite put_app. reflexivity.
    + destruct (decode (b :: s)) as [r w] eqn:Ed. cbn [fst snd] in *. rewrite <- app_assoc.
      destruct ((r =? RuneError) && Nat.eqb w 1) eqn:Eb.
      { apply andb_true_iff in Eb as [E1 _]. apply Z.eqb_eq in E1. subst r. change (B "\u" ++ B "fffd") with (B "\u" ++ hex_text 4 65533).
        rewrite <- app_assoc, junquote_four by lia. rewrite IH by (rewrite skipn_length; cbn [length] in *; lia). rewrite put_app. reflexivity. }
      rewrite junquote_escape by exact V. rewrite IH by (rewrite skipn_length; cbn [length] in *; lia). rewrite put_app. reflexivity.
Qed.
Lemma junquote_string w t : exists q, json_string w ++ t = z2b 34 :: q /\ json_unquote q = Some (jtext w, t).
Proof.
  exists (json_chars (length w) w ++ z2b 34 :: t). unfold json_string. split; [cbn [app]; rewrite <- app_assoc; reflexivity|].
  rewrite junquote_chars by lia. cbn. rewrite app_nil_r. reflexivity.
Qed.
Lemma jstring_length w : (2 <= length (json_string w))%nat.
Proof. unfold json_string. cbn [length]. rewrite app_length. cbn. lia. Qed.

(** Numbers *)
Lemma number_run_ok t u : Forall (fun b => number_char b = true) t -> (forall b u', u = b :: u' -> number_char b = false) -> number_run (t ++ u) = (t, u).
Proof.
  intros H Hu. induction H as [|b t H _ IH]; cbn [app].
  - destruct u as [|b u]; [reflexivity|]. cbn [number_run]. rewrite (Hu _ _ eq_refl). reflexivity.
  - cbn [number_run]. rewrite H, IH. reflexivity.
Qed.
Lemma int_chars z : int_text z <> [] /\ Forall (fun b => number_char b = true) (int_text z).
Proof.
  assert (D : forall f n acc, Forall (fun b => number_char b = true) acc -> (acc <> [] \/ f <> O) -> 0 <= n -> dec_fuel f n acc <> [] /\ Forall (fun b => number_char b = true) (dec_fuel f n acc)).
  { induction f as [|f IH]; intros n acc Ha Hne Hn; cbn [dec_fuel]; [destruct Hne; [auto|congruence]|].
    assert (Hc : Forall (fun b => number_char b = true) (z2b (48 + n mod 10) :: acc)).
    { constructor; [|exact Ha]. pose proof (Z.mod_pos_bound n 10 ltac:(lia)). unfold number_char. rewrite b2z_z2b by lia. replace (48 <=? 48 + n mod 10) with true by lia. replace (48 + n mod 10 <=? 57) with true by lia. reflexivity. }
    destruct (n / 10 =? 0); [split; [discriminate|exact Hc]|]. apply IH; [exact Hc|left; discriminate|apply Z.div_pos; lia]. }
  assert (E : forall n, 0 <= n -> dec_of_Z n <> [] /\ Forall (fun b => number_char b = true) (dec_of_Z n)) by (intros n Hn; apply D; [constructor|right; discriminate|exact Hn]).
  unfold int_text. destruct (z <? 0) eqn:Ez; [|apply E; lia]. split; [discriminate|]. apply Forall_app. split; [|apply E; lia]. constructor; [reflexivity|constructor].
Qed.
Lemma int_inj x y : int_text x = int_text y -> x = y.
Proof.
  intros H. pose proof (integer_text x [] ltac:(discriminate)) as H1. pose proof (integer_text y [] ltac:(discriminate)) as H2. rewrite H in H1. rewrite H1 in H2. congruence.
Qed.

(** Reading values *)
Definition follow (u : bytes) : Prop := forall b u', u = b :: u' -> b2z b = 44 \/ b2z b = 93 \/ b2z b = 125.
(** Texts of values start with none of the marks white space, comma, colon, closing bracket, closing brace. *)
Definition start_ok (t : bytes) : Prop := exists b t', t = b :: t' /\ json_white b = false /\ b2z b <> 93 /\ b2z b <> 125.
Lemma start_space t u : start_ok t -> unspace (t ++ u) = t ++ u.
Proof. intros (b & t' & -> & H & _). cbn [app unspace]. rewrite H. reflexivity. Qed.
Lemma num_start t : t <> [] -> Forall (fun b => number_char b = true) t -> start_ok t.
Proof.
  intros Hn H. destruct H as [|b t H _]; [congruence|]. exists b, t. unfold number_char in H. rewrite !orb_true_iff in H. split; [reflexivity|]. unfold json_white.
  rewrite !orb_false_iff. lia.
Qed.
Lemma num_read n t u : t <> [] -> Forall (fun b => number_char b = true) t -> follow u -> (0 < n)%nat -> value_before n (t ++ u) = Some (VNum t, u).
Proof.
  intros Hn H Hu H0. destruct n as [|n]; [lia|]. cbn [value_before]. rewrite (start_space t u (num_start t Hn H)).
  assert (R : number_run (t ++ u) = (t, u)).
  { apply number_run_ok; [exact H|]. intros b u' E. specialize (Hu _ _ E). unfold number_char. rewrite !orb_false_iff, andb_false_iff. lia. }
  destruct H as [|b t H Ht]; [congruence|]. cbn [app] in *. unfold number_char in H. rewrite !orb_true_iff in H. unfold is_mark.
  replace (b2z b =? 34) with false by lia. replace (b2z b =? 91) with false by lia. replace (b2z b =? 123) with false by lia.
  assert (G : forall c w, ~ (48 <= b2z c <= 57) -> b2z c <> 43 -> b2z c <> 45 -> b2z c <> 46 -> b2z c <> 69 -> b2z c <> 101 -> ErrRead.behind (c :: w) (b :: t ++ u) = None).
  { intros c w H1 H2 H3 H4 H5 H6. cbn [ErrRead.behind]. destruct (Byte.eqb c b) eqn:E; [|reflexivity]. apply Byte.byte_dec_bl in E. subst c. lia. }
  change (B "null") with (z2b 110 :: B "ull"). change (B "true") with (z2b 116 :: B "rue"). change (B "false") with (z2b 102 :: B "alse").
  rewrite !G by (rewrite b2z_z2b by lia; lia). rewrite R. reflexivity.
Qed.

Section Numbers.
Context (nf : f64 -> bytes) (Hnf : number_format nf).
Scheme json_text_i := Induction for json_text Sort Prop
  with elements_text_i := Induction for elements_text Sort Prop
  with members_text_i := Induction for members_text Sort Prop.
Combined Scheme json_texts_ind from json_text_i, elements_text_i, members_text_i.
Definition vmem (l : list (bytes * json)) := map (fun kv => match kv with (k, v) => (k, as_read nf v) end) l.
Lemma follow_mark b u : b2z b = 44 \/ b2z b = 93 \/ b2z b = 125 -> follow (b :: u).
Proof. intros H b' u' [= <- <-]. exact H. Qed.
Lemma jstring_start w : start_ok (json_string w).
Proof. eexists _, _. split; [reflexivity|]. split; [reflexivity|]. vm_compute. split; discriminate. Qed.
Lemma read_all :
  (forall j t, json_text nf j t -> start_ok t /\ forall n u, follow u -> (length t + length t <= n)%nat -> value_before n (t ++ u) = Some (as_read nf j, u)) /\
  (forall l t, elements_text nf l t -> start_ok t /\ forall n u, (S (length t + length t) <= n)%nat -> elements_before n (t ++ B "]" ++ u) = Some (map (as_read nf) l, u)) /\
  (forall l t, members_text nf l t -> start_ok t /\ forall n u, (S (length t + length t) <= n)%nat -> members_before n (t ++ B "}" ++ u) = Some (vmem l, u)).
Proof.
  apply json_texts_ind.
  - split; [eexists _, _; split; [reflexivity|vm_compute; repeat split; discriminate]|]. intros [|n] u _ H; [cbn in H; lia|]. reflexivity.
  - split; [eexists _, _; split; [reflexivity|vm_compute; repeat split; discriminate]|]. intros [|n] u _ H; [cbn in H; lia|]. reflexivity.
  - split; [eexists _, _; split; [reflexivity|vm_compute; repeat split; discriminate]|]. intros [|n] u _ H; [cbn in H; lia|]. reflexivity.
  - intros f. destruct (proj1 Hnf f) as [H1 H2]. split; [apply num_start; assumption|]. intros n u Hu Hn. apply num_read; auto. destruct (nf f); [congruence|]. cbn in Hn. lia.
  - intros z. destruct (int_chars z) as [H1 H2]. split; [apply num_start; assumption|]. intros n u Hu Hn. apply num_read; auto. destruct (int_text z); [congruence|]. cbn in Hn. lia.
  - intros w. split; [apply jstring_start|]. intros [|n] u Hu Hn; [pose proof (jstring_length w); lia|]. cbn [value_before]. rewrite start_space by apply jstring_start.
    destruct (junquote_string w u) as (q & -> & E2). replace (is_mark 34 (z2b 34)) with true by reflexivity. rewrite E2. reflexivity.
  - split; [eexists _, _; split; [reflexivity|vm_compute; repeat split; discriminate]|]. intros [|n] u _ H; [cbn in H; lia|]. reflexivity.
  - intros l t _ [(b & t' & Et & W1 & W2 & W3) IH]. split; [eexists _, _; split; [reflexivity|vm_compute; repeat split; discriminate]|]. intros [|n] u _ H; [cbn in H; lia|].
    replace ((B "[" ++ t ++ B "]") ++ u) with (z2b 91 :: t ++ B "]" ++ u) by (rewrite <- app_assoc; cbn [app]; rewrite <- app_assoc; reflexivity).
    rewrite !app_length in H. cbn [length] in H. specialize (IH n u). cbn [value_before].
    change (unspace (z2b 91 :: t ++ B "]" ++ u)) with (z2b 91 :: t ++ B "]" ++ u). cbv iota.
    change (is_mark 34 (z2b 91)) with false. change (is_mark 91 (z2b 91)) with true. cbv iota. rewrite IH by (cbn in H; lia).
    rewrite start_space by (exists b, t'; auto). rewrite Et. cbn [app]. unfold is_mark. replace (b2z b =? 93) with false by lia. reflexivity.
  - split; [eexists _, _; split; [reflexivity|vm_compute; repeat split; discriminate]|]. intros [|n] u _ H; [cbn in H; lia|]. reflexivity.
  - intros l t _ [(b & t' & Et & W1 & W2 & W3) IH]. split; [eexists _, _; split; [reflexivity|vm_compute; repeat split; discriminate]|]. intros [|n] u _ H; [cbn in H; lia|].
    replace ((B "{" ++ t ++ B "}") ++ u) with (z2b 123 :: t ++ B "}" ++ u) by (rewrite <- app_assoc; cbn [app]; rewrite <- app_assoc; reflexivity).
    rewrite !app_length in H. cbn [length] in H. specialize (IH n u). cbn [value_before].
    change (unspace (z2b 123 :: t ++ B "}" ++ u)) with (z2b 123 :: t ++ B "}" ++ u). cbv iota.
    change (is_mark 34 (z2b 123)) with false. change (is_mark 91 (z2b 123)) with false. change (is_mark 123 (z2b 123)) with true. cbv iota. rewrite IH by (cbn in H; lia).
    rewrite start_space by (exists b, t'; auto). rewrite Et. cbn [app]. unfold is_mark. replace (b2z b =? 125) with false by lia. reflexivity.
  - intros j t _ [S IH]. split; [exact S|]. intros [|n] u H; [lia|]. cbn [elements_before]. rewrite IH by (first [apply follow_mark; right; left; reflexivity|lia]). reflexivity.
  - intros j t l u _ [S IH] _ [S2 IH2]. split.
    { destruct S as (b & t' & -> & S). exists b, (t' ++ B "," ++ u). split; [reflexivity|exact S]. }
    intros [|n] v H; [lia|]. rewrite !app_length in H. cbn [length] in H. rewrite <- !app_assoc. cbn [elements_before]. rewrite IH by (first [apply follow_mark; left; reflexivity|lia]).
    change (B "," ++ u ++ B "]" ++ v) with (z2b 44 :: u ++ B "]" ++ v). change (unspace (z2b 44 :: u ++ B "]" ++ v)) with (z2b 44 :: u ++ B "]" ++ v). cbv iota.
    change (is_mark 93 (z2b 44)) with false. change (is_mark 44 (z2b 44)) with true. cbv iota. rewrite IH2 by (cbn in H; lia). reflexivity.
  - intros w j t _ [S IH]. split; [destruct (jstring_start w) as (b & t' & -> & X); eexists b, _; split; [reflexivity|exact X]|]. intros [|n] u H; [lia|].
    rewrite <- !app_assoc. rewrite !app_length in H. cbn [length] in H. cbn [members_before]. rewrite start_space by apply jstring_start.
    destruct (junquote_string w (B ":" ++ t ++ B "}" ++ u)) as (q & -> & E2). change (is_mark 34 (z2b 34)) with true. cbn [negb]. cbv iota. rewrite E2.
    change (unspace (B ":" ++ t ++ B "}" ++ u)) with (z2b 58 :: t ++ B "}" ++ u). cbv iota. change (is_mark 58 (z2b 58)) with true. cbn [negb]. cbv iota.
    rewrite IH by (first [apply follow_mark; right; right; reflexivity|lia]). reflexivity.
  - intros w j t l v _ [S IH] _ [S2 IH2]. split; [destruct (jstring_start w) as (b & t' & -> & X); eexists b, _; split; [reflexivity|exact X]|]. intros [|n] u H; [lia|].
    rewrite <- !app_assoc. rewrite !app_length in H. cbn [length] in H. cbn [members_before]. rewrite start_space by apply jstring_start.
    destruct (junquote_string w (B ":" ++ t ++ B "," ++ v ++ B "}" ++ u)) as (q & -> & E2). change (is_mark 34 (z2b 34)) with true. cbn [negb]. cbv iota. rewrite E2.
    change (unspace (B ":" ++ t ++ B "," ++ v ++ B "}" ++ u)) with (z2b 58 :: t ++ B "," ++ v ++ B "}" ++ u). cbv iota. change (is_mark 58 (z2b 58)) with true. cbn [negb]. cbv iota.
    rewrite IH by (first [apply follow_mark; left; reflexivity|lia]).
    change (unspace (B "," ++ v ++ B "}" ++ u)) with (z2b 44 :: v ++ B "}" ++ u). cbv iota.
    change (is_mark 125 (z2b 44)) with false. change (is_mark 44 (z2b 44)) with true. cbv iota. rewrite IH2 by (cbn in H; lia). reflexivity.
Qed.
Lemma read_back j t : json_text nf j t -> read_json t = Some (as_read nf j).
Proof.
  intros H. destruct (proj1 read_all _ _ H) as [_ R]. unfold read_json. specialize (R (S (length t + length t)) [] ltac:(discriminate) ltac:(lia)). rewrite app_nil_r in R. rewrite R. reflexivity.
Qed.
End Numbers.
