(** What lies behind the token of a syntax error is not read: two runs on texts that agree
    up to that token (C70). *)
From Verif Require Import Bytes Utf8 Float64 GoTime Ast Lexer LexFacts Utf8Facts LexSpec LexProofs LexTrivia LexTokens LexReject NumSpec NumTokens Tables Parser Grammar Tok CertData Cert Driver DriverInv Trees Machine
  Levels Bind Items Complete TightOk ViableData Viable Blame Told Writes Lexical Scanned Where Placed Alike Lockstep Faults FaultFacts Reached Same Pieces PiecesRun Properties_Pieces.
From Verif Require Import Lexical Where Tok.
Open Scope Z_scope.

(** * Reading is determined *)
Lemma reading_rest c l d s : reading_to c l d s -> forall all, pieces_of false c all -> exists post, all = l ++ post /\ pieces_of d s post.
Proof.
  induction 1 as [|l d w x k rest H IH Hw Hx|l d w x e rest H IH Hw Hx|l d w H IH Hw]; intros all Ha.
  - exists all. auto.
  - destruct (IH _ Ha) as (post & -> & Hp). destruct (pieces_total rest (behind d k)) as (l2 & H2).
    pose proof (pieces_det _ _ _ Hp _ (po_token d w x k rest l2 Hw Hx H2)) as ->. exists l2. rewrite <- app_assoc. auto.
  - destruct (IH _ Ha) as (post & -> & Hp). destruct (pieces_total rest false) as (l2 & H2).
    pose proof (pieces_det _ _ _ Hp _ (po_fault d w x e rest l2 Hw Hx H2)) as ->. exists l2. rewrite <- app_assoc. auto.
  - destruct (IH _ Ha) as (post & -> & Hp). pose proof (pieces_det _ _ _ Hp _ (po_end d w Hw)) as ->. exists []. split; [reflexivity|]. apply po_end, lt_trivia, tr_nil.
Qed.
Lemma reading_det c l l' d s : reading_to c l d s -> reading_to c l' d s -> l = l'.
Proof.
  intros H H'. destruct (pieces_total c false) as (all & Ha). destruct (reading_rest _ _ _ _ H _ Ha) as (p & E & Hp). destruct (reading_rest _ _ _ _ H' _ Ha) as (p' & E' & Hp').
  pose proof (pieces_det _ _ _ Hp _ Hp') as <-. rewrite E in E'. apply app_inv_tail in E'. exact E'.
Qed.
Lemma at_reading c pre k t : at_piece c pre k t -> reading_to c (pre ++ [inl k]) (tk_prevDot t) (rest_of c t).
Proof.
  intros (t0 & z & R & N & Hz & E). destruct (pieces_total (rest_of c t0) (tk_prevDot t0)) as (post & Hp). pose proof (Next_piece _ _ _ _ _ _ _ R Hp N) as C.
  destruct post as [|[x|x] post]; cbn [hd_error tl came] in C; [destruct C as (_ & C & _); contradiction| |destruct C as (C & _); discriminate C].
  destruct C as (_ & _ & X & _ & _ & C & _). rewrite E in X. subst x. exact C.
Qed.

(** * The error is the one of the last step *)
Definition syntax_error (e : option perr) : Prop := exists l c x, e = Some (EParse MSyntax l c x).
Lemma look_no p : no_syntax p -> no_syntax (look p).
Proof.
  intros N. unfold look. destruct (p_char p <? 0); [|exact N]. unfold Lex. destruct (a_code (p_ast p)) as [|b code] eqn:Ec; [exact N|]. rewrite <- Ec.
  destruct (Next _ _) as [[k u] [e|]]; [intros l c x; discriminate|]. destruct (k =? EOF); exact N.
Qed.
Lemma look2_no p : no_syntax p -> no_syntax (look2 p).
Proof. intros N. assert (N1 : no_syntax (look1 p)) by (unfold look1; destruct (_ <=? _); [exact N|apply look_no, N]). unfold look2. destruct (_ =? -2); [apply look_no|]; exact N1. Qed.
Lemma step_no p : inv p -> no_syntax p ->
  match step p with
  | Next_ p' => no_syntax p'
  | Done _ a => syntax_error (a_err a) -> a_err a = Some (loc (a_code a) (a_cur a) MSyntax) /\ tk_ast (a_cur a) = true
  | Crash _ => True
  end.
Proof.
  intros Hi N. destruct (inv_states p Hi) as [Hs Hst]. rewrite step_eq by (auto using inv_tokno). destruct (shift_of _ _) as [q|] eqn:Eq; [exact (look_no p N)|].
  pose proof (look2_no p N) as N2. destruct (default _ _) as [q|r| |] eqn:Ed; cbn [do_default].
  2: { pose proof (reduce_goes (look2 p) r) as G. destruct (reduce (look2 p) r) as [p'| |] eqn:Er; [|contradiction|exact I].
       apply (reduce_keeps _ _ _ (default_reduce _ _ Hi Ed) Er), N2. }
  2: { intros (l & c & x & E). destruct (N2 _ _ _ E). }
  all: unfold fail; destruct (Error _ _) as [a'|] eqn:Ee; cbn [sbind]; [|exact I]; apply Error_loc in Ee as [-> Ht]; intros _; cbn [a_err set_err a_code a_cur]; auto.
Qed.
Lemma run_no f : forall p n a, inv p -> no_syntax p -> run f p = Some (Ok (n, a)) -> syntax_error (a_err a) -> a_err a = Some (loc (a_code a) (a_cur a) MSyntax) /\ tk_ast (a_cur a) = true.
Proof.
  induction f as [|f IH]; intros p n a Hi N; cbn [run]; [discriminate|]. pose proof (step_no p Hi N) as S. pose proof (step_inv p Hi) as Si. destruct (step p) as [p'|r b|]; [|intros [= <- <-]; exact S|discriminate].
  apply IH; [apply Si|exact S].
Qed.

(** * Two texts *)
Section Beyond.
Context (c1 c2 : bytes) (shared : list piece) (x : tk) (r1 r2 : list piece) (Hne1 : c1 <> []) (Hne2 : c2 <> []).
Let P := pair_of c1 c2 shared.
Definition TB (t1 t2 : token) : Prop :=
  exists pre post, shared = pre ++ post /\ reading_to c1 pre (tk_prevDot t1) (rest_of c1 t1) /\ reading_to c2 pre (tk_prevDot t2) (rest_of c2 t2) /\
    pieces_of (tk_prevDot t1) (rest_of c1 t1) (post ++ inl x :: r1) /\ pieces_of (tk_prevDot t2) (rest_of c2 t2) (post ++ r2).
Definition cur_past (a : astnode) : Prop := exists l, reading_to c1 l (tk_prevDot (a_cur a)) (rest_of c1 (a_cur a)) /\ (length shared < length l)%nat.
(** The first run has read a token behind what is shared. *)
Definition past (p : pst) : Prop := a_code (p_ast p) = c1 /\ cur_past (p_ast p) /\
  exists l, reading_to c1 l (tk_prevDot (v_token (p_lval p))) (rest_of c1 (v_token (p_lval p))) /\ (length shared < length l)%nat.

Lemma Lex_cons c a t : a_code a = c -> c <> [] ->
  Lex a t = let '(tok, t', e) := Next c t in match e with Some e0 => (EOF, t', set_err a (ELex e0)) | None => if tok =? EOF then (EOF, t', a) else (tok, t', set_cur a t') end.
Proof. intros E H. unfold Lex. rewrite E. destruct c; [congruence|reflexivity]. Qed.
Lemma look_past p : past p -> past (look p).
Proof.
  intros (Hc & Ha & l & Hl & Hlen). unfold look. destruct (p_char p <? 0); [|split; [exact Hc|]; split; [exact Ha|exists l; auto]].
  rewrite (Lex_cons c1) by assumption. destruct (Next c1 (v_token (p_lval p))) as [[k u] e] eqn:EN.
  destruct (pieces_total (rest_of c1 (v_token (p_lval p))) (tk_prevDot (v_token (p_lval p)))) as (post & Hp). pose proof (Next_piece _ _ _ _ _ _ _ Hl Hp EN) as C.
  destruct post as [|[y|y] post]; cbn [hd_error tl came] in C.
  - destruct C as (-> & -> & C & _). rewrite Z.eqb_refl. split; [exact Hc|]. split; [exact Ha|]. exists l. auto.
  - destruct C as (-> & K & _ & _ & _ & C & _). apply Z.eqb_neq in K. rewrite K.
    assert (L : (length shared < length (l ++ [Datatypes.inl y]))%nat) by (rewrite app_length; lia).
    split; [exact Hc|]. split; exists (l ++ [inl y]); auto.
  - destruct C as (-> & C & _). split; [exact Hc|]. split; [exact Ha|]. exists (l ++ [inr y]). split; [exact C|rewrite app_length; lia].
Qed.
Lemma Lex_beyond a1 a2 t1 t2 k1 u1 b1 k2 u2 b2 : AR P c1 c2 a1 a2 -> TB t1 t2 -> Lex a1 t1 = (k1, u1, b1) -> Lex a2 t2 = (k2, u2, b2) ->
  (AR P c1 c2 b1 b2 /\ TB u1 u2 /\ k1 = k2 /\ (k1 <> EOF -> tk_of k1 u1 = tk_of k2 u2 /\ In k1 kinds)) \/
  (a_code b1 = c1 /\ a_cur b1 = u1 /\ exists l, reading_to c1 l (tk_prevDot u1) (rest_of c1 u1) /\ (length shared < length l)%nat).
Proof.
  intros HA (pre & post & Ea & R1 & R2 & P1 & P2). rewrite (Lex_cons c1 a1 t1 (ar_code1 _ _ _ _ _ HA) Hne1), (Lex_cons c2 a2 t2 (ar_code2 _ _ _ _ _ HA) Hne2).
  destruct (Next c1 t1) as [[z1 v1] e1] eqn:N1, (Next c2 t2) as [[z2 v2] e2] eqn:N2.
  pose proof (Next_piece _ _ _ _ _ _ _ R1 P1 N1) as C1. pose proof (Next_piece _ _ _ _ _ _ _ R2 P2 N2) as C2.
  destruct post as [|[y|y] post]; cbn [app hd_error tl came] in C1, C2.
  - right. destruct C1 as (-> & K1 & X1 & I1 & V1 & A1 & A2). replace (z1 =? EOF) with false in H by (symmetry; apply Z.eqb_neq; exact K1). injection H as <- <- <-.
    cbn [set_cur a_code a_cur]. split; [apply (ar_code1 _ _ _ _ _ HA)|]. split; [reflexivity|]. exists (pre ++ [inl x]). split; [exact A1|]. rewrite Ea, app_nil_r, app_length. cbn. lia.
  - destruct C1 as (-> & K1 & X1 & I1 & V1 & A1 & A2), C2 as (-> & K2 & X2 & I2 & V2 & A3 & A4). replace (z1 =? EOF) with false by (symmetry; apply Z.eqb_neq; exact K1). replace (z2 =? EOF) with false by (symmetry; apply Z.eqb_neq; exact K2).
    intros [= <- <- <-] [= <- <- <-]. left.
    assert (E : z1 = z2) by (rewrite <- (tk_of_kind _ _ I1 V1), <- (tk_of_kind _ _ I2 V2); congruence).
    split; [|split; [exists (pre ++ [inl y]), post; split; [rewrite <- app_assoc; exact Ea|auto]|split; [exact E|intros _; split; [congruence|exact I1]]]].
    destruct HA, V1 as [V1 _], V2 as [V2 _]. constructor; cbn [set_cur a_code a_module a_isLoop a_isTry a_isFunction a_cur a_err]; auto; [congruence|].
    intros _. exists pre, y, post. split; [exact Ea|]. split; [exists t1, z1|exists t2, z2]; auto.
  - destruct C1 as (-> & A1 & A2), C2 as (-> & A3 & A4). intros [= <- <- <-] [= <- <- <-]. left.
    split; [|split; [exists (pre ++ [inr y]), post; split; [rewrite <- app_assoc; exact Ea|auto]|split; [reflexivity|congruence]]].
    destruct HA. constructor; cbn [set_err a_code a_module a_isLoop a_isTry a_isFunction a_cur a_err]; auto. right. left. exists y. auto.
Qed.
Let PR := PR c1 c2 P TB.
Lemma look_b p q : PR p q -> PR (look p) (look q) \/ past (look p).
Proof.
  intros H. destruct (look_inv _ (pr_inv1 _ _ _ _ _ _ H)) as [I1 _]. destruct (look_inv _ (pr_inv2 _ _ _ _ _ _ H)) as [I2 _]. revert I1 I2.
  unfold look. rewrite <- (pr_char _ _ _ _ _ _ H). destruct (p_char p <? 0); [|intros _ _; left; exact H].
  destruct (Lex (p_ast p) (v_token (p_lval p))) as [[k1 u1] b1] eqn:E1, (Lex (p_ast q) (v_token (p_lval q))) as [[k2 u2] b2] eqn:E2.
  destruct (Lex_beyond _ _ _ _ _ _ _ _ _ _ (pr_ast _ _ _ _ _ _ H) (pr_scan _ _ _ _ _ _ H) E1 E2) as [(HA & HT & <- & HK)|(B1 & B2 & l & B3 & B4)]; intros I1 I2; [left|right].
  - destruct H. constructor; cbn [p_stk p_above p_state p_lval p_char p_tok p_ast set_token v_token]; auto. intros Hk. apply HK. unfold EOF. lia.
  - split; [exact B1|]. split; exists l; cbn [p_ast p_lval set_token v_token]; rewrite ?B2; auto.
Qed.
Lemma look1_b p q : PR p q -> PR (look1 p) (look1 q) \/ past (look1 p).
Proof. intros H. unfold look1. rewrite <- (pr_state _ _ _ _ _ _ H). destruct (_ <=? _); [left; exact H|apply look_b, H]. Qed.
Lemma look2_b p q : PR p q -> PR (look1 p) (look1 q) -> PR (look2 p) (look2 q) \/ past (look2 p).
Proof. intros H H1. unfold look2. rewrite <- (pr_state _ _ _ _ _ _ H). destruct (_ =? -2); [apply look_b|left]; exact H1. Qed.
Lemma look2_past p : past (look1 p) -> past (look2 p).
Proof. intros H. unfold look2. destruct (_ =? -2); [apply look_past|]; exact H. Qed.
Lemma shift_look1 p st : shift_of (p_state p) (p_tok (look1 p)) = Some st -> look1 p = look p.
Proof. intros Eq. unfold look1. rewrite (shift_flag _ _ _ Eq). reflexivity. Qed.
Lemma shift_look2 p st : inv p -> shift_of (p_state p) (p_tok (look1 p)) = Some st -> look2 p = look p.
Proof.
  intros Hi Eq. destruct (shift_looked p st Hi Eq) as [L _]. unfold look2. rewrite (shift_look1 _ _ Eq). destruct (_ =? -2); [|reflexivity].
  unfold look at 1. destruct (p_char (look p) <? 0) eqn:E; [lia|reflexivity].
Qed.
Definition past_res (r : sres) : Prop := match r with Next_ p => past p | Done _ a => cur_past a | Crash _ => True end.
Lemma past_step p : inv p -> past (look2 p) -> past_res (step p).
Proof.
  intros Hi H. destruct (inv_states p Hi) as [Hs Hst]. rewrite step_eq by (auto using inv_tokno). destruct (shift_of _ _) as [st|] eqn:Eq.
  - rewrite (shift_look2 _ _ Hi Eq) in H. exact H.
  - destruct (default _ _) as [q|r| |] eqn:Ed; cbn [do_default].
    2: { pose proof (reduce_goes (look2 p) r) as G. pose proof (default_reduce _ _ Hi Ed) as Hr. destruct (reduce (look2 p) r) as [p'| |] eqn:Er; [|contradiction|exact I].
         destruct (reduce_keeps _ _ _ Hr Er) as (_ & K1 & K2 & _). destruct H as (H1 & (l0 & H0 & H00) & l & H2 & H3).
         assert (Hcode : a_code (p_ast p') = c1).
         { destruct (look2_inv p Hi) as (J & _ & _ & _ & Jc & _). pose proof (step_inv p Hi) as Si. rewrite step_eq, Eq, Ed in Si by (auto using inv_tokno). cbn [do_default] in Si. rewrite Er in Si. cbn [step_ok] in Si.
           rewrite <- H1, Jc. tauto. }
         split; [exact Hcode|]. split; [exists l0|exists l]; rewrite ?K1, ?K2; auto. }
    2: apply H.
    all: unfold fail; destruct (Error _ _) as [a'|] eqn:Ee; cbn [sbind]; [|exact I]; apply Error_loc in Ee as [-> Ht]; exact (proj1 (proj2 H)).
Qed.
Lemma step_b p q : PR p q -> Lockstep.SR PR (AR P c1 c2) (step p) (step q) \/ past_res (step p).
Proof.
  intros H. pose proof (pr_inv1 _ _ _ _ _ _ H) as Hi. destruct (look1_b _ _ H) as [H1|H1]; [|right; apply past_step; [exact Hi|apply look2_past, H1]].
  destruct (look2_b _ _ H H1) as [H2|H2]; [left|right; apply past_step; assumption]. apply step_core; [exact H| |exact H1|exact H2].
  intros Hs. destruct (shift_of (p_state p) (p_tok (look1 p))) as [st|] eqn:Eq; [|congruence]. rewrite <- (shift_look1 _ _ Eq).
  assert (E2 : look1 q = look q).
  { unfold look1. rewrite <- (pr_state _ _ _ _ _ _ H), (shift_flag _ _ _ Eq). reflexivity. }
  rewrite <- E2. exact H1.
Qed.
Lemma run_past f : forall p n a, inv p -> past p -> run f p = Some (Ok (n, a)) -> cur_past a.
Proof.
  induction f as [|f IH]; intros p n a Hi N; cbn [run]; [discriminate|].
  assert (N2 : past (look2 p)) by (apply look2_past; unfold look1; destruct (_ <=? _); [exact N|apply look_past, N]).
  pose proof (past_step p Hi N2) as S. pose proof (step_inv p Hi) as Si. destruct (step p) as [p'|r b|]; [|intros [= <- <-]; exact S|discriminate].
  apply IH; [apply Si|exact S].
Qed.
Lemma run_b f : forall p q n a, PR p q -> run f p = Some (Ok (n, a)) ->
  (exists m b, run f q = Some (Ok (m, b)) /\ AR P c1 c2 a b) \/ cur_past a.
Proof.
  induction f as [|f IH]; intros p q n a H; cbn [run]; [discriminate|]. pose proof (step_inv _ (pr_inv1 _ _ _ _ _ _ H)) as Si. destruct (step_b _ _ H) as [X|X].
  - destruct (step p), (step q); cbn [Lockstep.SR] in X; try contradiction; try discriminate; [apply IH, X|]. intros [= <- <-]. left. destruct X as [_ X]. eauto.
  - right. destruct (step p) as [p'|r b|]; cbn [past_res step_ok] in *; [|injection H0 as <- <-; exact X|discriminate]. eapply run_past; [apply Si|exact X|exact H0].
Qed.
Lemma init_b : pieces_of false c1 (shared ++ inl x :: r1) -> pieces_of false c2 (shared ++ r2) -> PR (init_pst (NewAST c1)) (init_pst (NewAST c2)).
Proof.
  intros H1 H2. constructor; try reflexivity; try apply init_inv.
  - constructor; [|constructor]. constructor; reflexivity.
  - exists [], shared. split; [reflexivity|]. split; [apply rt_start|]. split; [apply rt_start|]. auto.
  - constructor; try reflexivity; [discriminate|]. left. auto.
Qed.
End Beyond.

Lemma parse_run c f a e : blank c = false -> parse c = Some (Ok (a, e)) -> (parse_fuel c <= f)%nat -> exists n, run f (init_pst (NewAST c)) = Some (Ok (n, a)) /\ e = a_err a.
Proof.
  intros Hb H Hf. unfold parse, Parse in H. cbn [NewAST a_code] in H. rewrite Hb in H. fold (NewAST c) in H.
  pose proof (run_enough (NewAST c) f) as R. cbn [NewAST a_code] in R. fold (NewAST c) in R. rewrite R in H by lia.
  destruct (run f (init_pst (NewAST c))) as [[[n b]|]|]; [|discriminate|discriminate]. cbn in H. injection H as <- <-. eauto.
Qed.
(** The last token read is the one the message is about. *)
Theorem parse_blamed c l a e : pieces_of false c l -> parse c = Some (Ok (a, e)) -> syntax_error e ->
  exists pre k post, l = pre ++ inl k :: post /\ at_piece c pre k (a_cur a) /\ e = Some (loc c (a_cur a) MSyntax).
Proof.
  intros Hl H He. destruct (blank c) eqn:Hb.
  { unfold parse, Parse in H. cbn [NewAST a_code] in H. rewrite Hb in H. injection H as _ <-. destruct He as (? & ? & ? & He). discriminate He. }
  assert (Hne : c <> []) by (intros ->; discriminate Hb).
  destruct (parse_run c _ a e Hb H (le_n _)) as (n & R & ->).
  destruct (run_no _ _ _ _ (init_inv (NewAST c)) ltac:(intros ? ? ?; discriminate) R He) as [E Ht].
  pose proof (run_pr c c l Hne Hne (parse_fuel c) _ _ (init_pr c c l Hl Hl)) as X. rewrite R in X. cbn [RR fst snd] in X. destruct X as [_ X].
  destruct (ar_cur _ _ _ _ _ X Ht) as (pre & k & post & El & A & _). exists pre, k, post. rewrite (ar_code1 _ _ _ _ _ X) in E. auto.
Qed.
Theorem parse_beyond c1 c2 pre k x r1 r2 a e : pieces_of false c1 (pre ++ inl k :: inl x :: r1) -> pieces_of false c2 (pre ++ inl k :: r2) -> blank c2 = false ->
  parse c1 = Some (Ok (a, e)) -> syntax_error e -> at_piece c1 pre k (a_cur a) ->
  exists a2, parse c2 = Some (Ok (a2, Some (loc c2 (a_cur a2) MSyntax))) /\ a_module a2 = a_module a /\ at_piece c2 pre k (a_cur a2).
Proof.
  intros H1 H2 B2 H He Hk. destruct (blank c1) eqn:B1.
  { unfold parse, Parse in H. cbn [NewAST a_code] in H. rewrite B1 in H. injection H as _ <-. destruct He as (? & ? & ? & He). discriminate He. }
  assert (N1 : c1 <> []) by (intros ->; discriminate B1). assert (N2 : c2 <> []) by (intros ->; discriminate B2).
  set (f := Nat.max (parse_fuel c1) (parse_fuel c2)).
  destruct (parse_run c1 f a e B1 H) as (n & R & ->); [lia|].
  set (sh := pre ++ [Datatypes.inl k]).
  assert (G1 : pieces_of false c1 (sh ++ inl x :: r1)) by (unfold sh; rewrite <- app_assoc; exact H1).
  assert (G2 : pieces_of false c2 (sh ++ r2)) by (unfold sh; rewrite <- app_assoc; exact H2).
  destruct (run_no _ _ _ _ (init_inv (NewAST c1)) ltac:(intros ? ? ?; discriminate) R He) as [E Ht].
  destruct (run_b c1 c2 sh x r1 r2 N1 N2 f _ _ _ _ (init_b c1 c2 sh x r1 r2 G1 G2) R) as [(m & b & Rb & X)|(l & X1 & X2)].
  2: { pose proof (reading_det _ _ _ _ _ X1 (at_reading _ _ _ _ Hk)) as ->. destruct (Nat.lt_irrefl _ X2). }
  assert (Eb : syntax_error (a_err b)).
  { destruct (ar_err _ _ _ _ _ X) as [[E0 _]|[(y & E0 & _)|(m1 & m2 & t1 & t2 & M & _ & E0 & E2)]]; rewrite E0 in E; [discriminate E|discriminate E|].
    unfold loc in E. injection E as -> _ _ _. cbn [msg_rel] in M. rewrite <- M in E2. unfold loc in E2. unfold syntax_error. eauto. }
  destruct (run_no _ _ _ _ (init_inv (NewAST c2)) ltac:(intros ? ? ?; discriminate) Rb Eb) as [E2 Ht2].
  exists b. rewrite (ar_code2 _ _ _ _ _ X) in E2. split; [|split; [symmetry; apply (ar_module _ _ _ _ _ X)|]].
  - unfold parse, Parse. cbn [NewAST a_code]. rewrite B2. fold (NewAST c2). pose proof (run_enough (NewAST c2) f) as R2. cbn [NewAST a_code] in R2. fold (NewAST c2) in R2.
    rewrite R2, Rb by (unfold f; lia). cbn. rewrite <- E2. reflexivity.
  - destruct (ar_cur _ _ _ _ _ X Ht) as (pre' & k' & post & El & A1 & A2).
    pose proof (reading_det _ _ _ _ _ (at_reading _ _ _ _ A1) (at_reading _ _ _ _ Hk)) as D. apply app_inj_tail in D as [-> D]. injection D as ->. exact A2.
Qed.
