(** Two texts with a line break between them have the tokens of the first and then those of
    the second. *)
From Verif Require Import Bytes Utf8 Float64 GoTime Ast Lexer LexFacts LexSpec LexProofs LexTokens NumSpec Tok Lexical Placed.
Open Scope Z_scope.

(** A line break continues no character. *)
Lemma decode_nl s t : s <> [] -> decode (s ++ nl ++ t) = decode s.
Proof. intros H. apply decode_lead; [exact H|reflexivity]. Qed.
Lemma first_nl s t c : s <> [] -> first_char (s ++ nl ++ t) c -> first_char s c.
Proof. intros Hs [_ H]. split; [exact Hs|]. rewrite decode_nl in H by exact Hs. exact H. Qed.
Lemma first_break t c : first_char (nl ++ t) c -> c = 10.
Proof. intros [_ H]. symmetry. exact H. Qed.
(** Whatever the first character of [s] is not, it is not behind [s] either, unless that is
    the line break. *)
Lemma first_glue (P : Z -> Prop) s t : P 10 -> (forall c, first_char s c -> P c) -> forall c, first_char (s ++ nl ++ t) c -> P c.
Proof.
  intros H0 H c Hc. destruct s as [|b s]; [apply first_break in Hc; subst c; exact H0|]. apply H, (first_nl _ t); [discriminate|exact Hc].
Qed.

Lemma trivia_app a b : trivia a -> trivia b -> trivia (a ++ b).
Proof.
  intros Ha Hb. induction Ha as [|x w Hx Hw IH|l w Hl Hw IH|l w Hl Hw IH]; [exact Hb|..].
  - cbn [app]. constructor; assumption.
  - rewrite <- !app_assoc. constructor; assumption.
  - rewrite <- !app_assoc. constructor; assumption.
Qed.
Lemma trivia_nl : trivia nl.
Proof. constructor; [right; right; right; reflexivity|constructor]. Qed.
Lemma last_trivia_nl w : last_trivia w -> trivia (w ++ nl).
Proof.
  intros [w' H|w' l H Hl|w' l H Hl].
  - apply trivia_app; [exact H|apply trivia_nl].
  - rewrite <- app_assoc. apply trivia_app; [exact H|]. rewrite <- app_assoc. apply (tr_comment l []); [exact Hl|constructor].
  - rewrite <- app_assoc. apply trivia_app; [exact H|]. rewrite <- app_assoc. apply (tr_hash l []); [exact Hl|constructor].
Qed.

Lemma str_glue en s v rest t : str_text en s v rest -> rest <> [] -> str_text en (s ++ nl ++ t) v (rest ++ nl ++ t).
Proof.
  intros H Hr. induction H as [b rest Hb Hc|s v rest r k Hs Hd H10 Hen H IH|s v rest H IH|g s v rest Hg H IH|b s v rest Hb Hb0 H IH].
  - cbn [app]. rewrite <- app_assoc. constructor; [exact Hb|]. intros c H. apply Hc, (first_nl _ t); assumption.
  - pose proof (decode_size s Hs) as Z. rewrite Hd in Z. cbn [snd] in Z. apply (st_char _ _ _ _ r k); [destruct s; [congruence|discriminate]|rewrite decode_nl by exact Hs; exact Hd|exact H10|exact Hen|].
    rewrite skipn_app. replace (k - length s)%nat with 0%nat by lia. cbn [skipn]. apply IH, Hr.
  - cbn [app]. constructor. apply IH, Hr.
  - cbn [app]. rewrite <- app_assoc. cbn [app]. constructor; [exact Hg|apply IH, Hr].
  - cbn [app]. rewrite <- app_assoc. cbn [app]. constructor; [exact Hb|exact Hb0|apply IH, Hr].
Qed.

Definition quoted (k : tk) : bool := match k with KStr _ | KDate _ => true | _ => false end.
Lemma nl_not_letter : ~ letter_char 10.
Proof. intros H. apply isLetter_spec in H. vm_compute in H. discriminate H. Qed.
Lemma nl_not_word : ~ word_char 10.
Proof. intros [H|H]; [exact (nl_not_letter H)|unfold digit_char in H; lia]. Qed.
Lemma word_ends_glue rest t : word_ends rest -> word_ends (rest ++ nl ++ t).
Proof. intros H. exact (first_glue (fun c => ~ word_char c) rest t nl_not_word H). Qed.
Lemma one_glue dot x k rest t : one_token dot x k rest -> quoted k = false \/ rest <> [] -> one_token dot (x ++ nl ++ t) k (rest ++ nl ++ t).
Proof.
  intros H Hq. destruct H as [w k rest Hw He Hk|ip fr f rest H1 H2 H3 H4 H5 H6|s v rest H|s v d rest H Hd|w d rest H1 H2 H3 H4|w rest H1 H2|b rest H|rest H|rest|rest|rest|rest|rest H|rest H].
  - rewrite <- app_assoc. apply ot_word; auto using word_ends_glue.
  - rewrite <- app_assoc. apply ot_number; auto. apply (first_glue (fun c => ~ digit_char c /\ c <> 46 /\ ~ letter_char c)); [|exact H4].
    split; [unfold digit_char; lia|]. split; [discriminate|exact nl_not_letter].
  - destruct Hq as [Hq|Hq]; [discriminate Hq|]. apply (ot_string dot (s ++ nl ++ t)), str_glue; assumption.
  - destruct Hq as [Hq|Hq]; [discriminate Hq|]. apply (ot_date dot (s ++ nl ++ t) v); [apply str_glue|]; assumption.
  - rewrite <- !app_assoc. apply (ot_directive dot w d); auto using word_ends_glue.
  - rewrite <- !app_assoc. apply ot_label; auto using word_ends_glue.
  - apply (ot_mark dot b (rest ++ nl ++ t)), H.
  - apply (ot_slash dot (rest ++ nl ++ t)). intros F.
    exact (first_glue (fun c => c <> 47) rest t ltac:(discriminate) (fun c Hc E => H (eq_ind c (first_char rest) Hc 47 E)) 47 F eq_refl).
  - apply (ot_equal dot (rest ++ nl ++ t)).
  - apply (ot_unequal dot (rest ++ nl ++ t)).
  - apply (ot_less_equal dot (rest ++ nl ++ t)).
  - apply (ot_greater_equal dot (rest ++ nl ++ t)).
  - apply (ot_less dot (rest ++ nl ++ t)). apply (first_glue (fun c => c <> 61 /\ c <> 62)); [split; discriminate|exact H].
  - apply (ot_greater dot (rest ++ nl ++ t)). apply (first_glue (fun c => c <> 61)); [discriminate|exact H].
Qed.
Lemma one_some dot x k rest : one_token dot x k rest -> x <> [].
Proof.
  intros H E. destruct H as [w k rest (c & w' & -> & _) He Hk|ip fr f rest H1 H2 H3 H4 H5 H6|s v rest H|s v d rest H Hd|w d rest H1 H2 H3 H4|w rest H1 H2|b rest H|rest H|rest|rest|rest|rest|rest H|rest H]; try discriminate E.
  - apply app_eq_nil in E as [E _]. cbn in E. apply app_eq_nil in E as [E _]. revert E. unfold encode. repeat match goal with |- context [if ?c then _ else _] => destruct c end; discriminate.
  - apply app_eq_nil in E as [E _]. destruct ip; [congruence|]. unfold num_text in E. cbn in E. discriminate E.
Qed.

(** [shut dot l]: the last token is neither quoted nor a dot. *)
Fixpoint shut (dot : bool) (l : list tk) : bool :=
  match l with
  | [] => negb dot
  | k :: l => match l with [] => negb (quoted k) && negb (behind dot k) | _ => shut (behind dot k) l end
  end.
Lemma last_trivia_app a w : trivia a -> last_trivia w -> last_trivia (a ++ w).
Proof.
  intros Ha [w' H|w' l H Hl|w' l H Hl]; rewrite ?app_assoc; [constructor; apply trivia_app; assumption| |].
  - rewrite <- app_assoc. apply lt_comment; [apply trivia_app|]; assumption.
  - rewrite <- app_assoc. apply lt_hash; [apply trivia_app|]; assumption.
Qed.
Lemma text_trivia dot a t l : trivia a -> text_of dot t l -> text_of dot (a ++ t) l.
Proof.
  intros Ha H. destruct H as [dot w Hw|dot w x k rest l Hw Hx Hr].
  - constructor. apply last_trivia_app; assumption.
  - rewrite app_assoc. apply (to_token _ _ _ _ rest); [apply trivia_app|..]; assumption.
Qed.
Lemma text_some dot t k l : text_of dot t (k :: l) -> t <> [].
Proof. intros H. inversion H as [|d w x k' rest l' Hw Hx Hr]. intros E. apply app_eq_nil in E as [_ E]. exact (one_some _ _ _ _ Hx E). Qed.
Theorem glue dot s l t l2 : text_of dot s l -> text_of false t l2 -> shut dot l = true -> text_of dot (s ++ nl ++ t) (l ++ l2).
Proof.
  intros H Ht. induction H as [dot w Hw|dot w x k rest l Hw Hx Hr IH]; intros Hs.
  - cbn [shut] in Hs. apply negb_true_iff in Hs. subst dot. cbn [app]. rewrite app_assoc. apply text_trivia; [apply last_trivia_nl, Hw|exact Ht].
  - rewrite <- app_assoc. cbn [app]. apply (to_token _ _ _ _ (rest ++ nl ++ t)); [exact Hw| |].
    + apply one_glue; [exact Hx|]. destruct l as [|k' l]; [left|right; apply (text_some _ _ _ _ Hr)].
      cbn [shut] in Hs. apply andb_true_iff in Hs as [Hs _]. apply negb_true_iff, Hs.
    + apply IH. destruct l as [|k' l]; [|exact Hs]. cbn [shut] in *. apply andb_true_iff in Hs as [_ Hs]. exact Hs.
Qed.
(** Read off the end of the list. *)
Lemma shut_app l k : forall dot, shut dot (l ++ [k]) = shut (fold_left behind l dot) [k].
Proof.
  induction l as [|k' l IH]; intros dot; [reflexivity|]. cbn [app fold_left]. rewrite <- IH. destruct l; reflexivity.
Qed.
Lemma shut_last l k dot : quoted k = false -> k <> K 46 -> shut dot (l ++ [k]) = true.
Proof.
  intros H1 H2. rewrite shut_app. cbn [shut]. rewrite H1. destruct k as [z| | | | | | |]; try reflexivity.
  cbn [behind]. destruct (Z.eq_dec z 46) as [->|Hz]; [congruence|]. 
  destruct z as [|p|p]; try reflexivity. do 6 (destruct p as [p|p|]; try reflexivity). congruence.
Qed.
