(** Parse trees: every run of the driver without an error builds one, and every
    cell of the stack holds the result of the semantic actions on its tree. *)
From Verif Require Import Bytes Utf8 Float64 GoTime Ast Lexer LexFacts LexSpec LexProofs Tables Parser Grammar Tok CertData Cert Driver DriverInv.

Inductive tree := Leaf (k : tk) | Node (r : Z) (ch : list tree).

Fixpoint yield (t : tree) : list tk :=
  match t with Leaf k => [k] | Node _ ch => flat_map yield ch end.
Definition sym_of (t : tree) : Z :=
  match t with Leaf k => tokno_of (kind_of k) | Node r _ => - nt_no (lhs r) end.

(** A token as delivered by the scanner: keywords carry nothing. *)
Definition payload : list Z := [tIdent; tExecute; tDirective; tGoToLabel; tString; tNumber; tDate].
Definition tk_wf (k : tk) : Prop :=
  In (kind_of k) kinds /\ match k with K c => ~ In c payload | _ => True end.

Inductive wf : tree -> Prop :=
| wf_leaf k : tk_wf k -> wf (Leaf k)
| wf_node r ch : prodno r -> map sym_of ch = map sym_no (rhs r) -> Forall wf ch -> wf (Node r ch).

(** The concrete token behind an abstract one. *)
Definition tok_rel (k : tk) (t : token) : Prop :=
  tk_wf k /\ tok_value_ok (kind_of k) t /\ tk_of (kind_of k) t = k.

(** Contexts: the node apart from the token read last. *)
Definition same_ctx (a a' : astnode) : Prop :=
  a_code a' = a_code a /\ a_err a' = a_err a /\ a_module a' = a_module a /\
  a_isLoop a' = a_isLoop a /\ a_isTry a' = a_isTry a /\ a_isFunction a' = a_isFunction a.
Lemma same_ctx_refl a : same_ctx a a. Proof. repeat split. Qed.
Lemma same_ctx_trans a b c : same_ctx a b -> same_ctx b c -> same_ctx a c.
Proof. intros (A1 & A2 & A3 & A4 & A5 & A6) (B1 & B2 & B3 & B4 & B5 & B6). repeat split; congruence. Qed.

(** [ev t v a a']: evaluating the actions of [t] bottom-up, left to right, takes
    the context [a] to [a'] and leaves the value [v]. An empty production starts
    from an arbitrary old cell [v0]. *)
Inductive ev : tree -> slot -> astnode -> astnode -> Prop :=
| ev_leaf k t q a a' : tok_rel k t -> same_ctx a a' ->
    ev (Leaf k) (set_yys (set_token zero_slot t) q) a a'
| ev_node r ch ds v0 v1 q a a1 a2 a' : prodno r -> evs ch ds a a1 ->
    match ds with d :: _ => v0 = d | [] => True end ->
    act r (fun i => nth (i - 1) ds zero_slot) v0 a1 = Ok (v1, a2) -> same_ctx a2 a' ->
    ev (Node r ch) (set_yys v1 q) a a'
with evs : list tree -> list slot -> astnode -> astnode -> Prop :=
| evs_nil a : evs [] [] a a
| evs_cons t ts v vs a b c : ev t v a b -> evs ts vs b c -> evs (t :: ts) (v :: vs) a c.

Lemma ev_ctx t v a b c : ev t v a b -> same_ctx b c -> ev t v a c.
Proof. intros H Hc. inversion H; subst; econstructor; eauto using same_ctx_trans. Qed.
Lemma evs_app ts1 : forall vs1 ts2 vs2 a b c, evs ts1 vs1 a b -> evs ts2 vs2 b c -> evs (ts1 ++ ts2) (vs1 ++ vs2) a c.
Proof.
  induction ts1 as [|t ts1 IH]; intros vs1 ts2 vs2 a b c H1 H2; inversion H1; subst; [exact H2|].
  cbn [app]. econstructor; eauto.
Qed.
Lemma evs_split ts1 : forall ts2 vs a c, evs (ts1 ++ ts2) vs a c -> exists vs1 vs2 b,
  vs = vs1 ++ vs2 /\ evs ts1 vs1 a b /\ evs ts2 vs2 b c.
Proof.
  induction ts1 as [|t ts1 IH]; intros ts2 vs a c H.
  - exists [], vs, a. split; [reflexivity|]. split; [constructor | exact H].
  - cbn [app] in H. inversion H; subst. destruct (IH _ _ _ _ H6) as (vs1 & vs2 & b' & -> & E1 & E2).
    exists (v :: vs1), vs2, b'. split; [reflexivity|]. split; [econstructor; eauto | exact E2].
Qed.
Lemma evs_length ts : forall vs a c, evs ts vs a c -> length vs = length ts.
Proof. induction ts as [|t ts IH]; intros vs a c H; inversion H; subst; simpl; [reflexivity|]. f_equal. eauto. Qed.
(** A change of the last token read is absorbed by the last tree. *)
Lemma evs_ctx ts : forall vs a b c, evs ts vs a b -> same_ctx b c -> exists a', same_ctx a a' /\ evs ts vs a' c.
Proof.
  induction ts as [|t ts IH]; intros vs a b c H Hc; inversion H; subst.
  - exists c. split; [exact Hc | constructor].
  - destruct (IH _ _ _ _ H6 Hc) as (b' & Hb & E). exists a. split; [apply same_ctx_refl|].
    econstructor; [eapply ev_ctx; eassumption | exact E].
Qed.

(** * Actions read only the cells of their production *)
Lemma act_ext r d d' v a : prodno r -> (forall i, (1 <= i <= length (rhs r))%nat -> d i = d' i) ->
  act r d v a = act r d' v a.
Proof.
  intros Hr. all_prods r Hr; intros H;
  match type of H with context [length (rhs ?r)] => let n := eval vm_compute in (length (rhs r)) in change (length (rhs r)) with n in H end;
  cbn [act]; unfold binop;
  try rewrite (H 1%nat) by lia; try rewrite (H 2%nat) by lia; try rewrite (H 3%nat) by lia; try rewrite (H 4%nat) by lia;
  try rewrite (H 5%nat) by lia; try rewrite (H 6%nat) by lia; try rewrite (H 7%nat) by lia; try rewrite (H 8%nat) by lia;
  try rewrite (H 9%nat) by lia; try rewrite (H 10%nat) by lia; reflexivity.
Qed.

(** * Reading *)
(** Tokens read from state [t] to state [t']. *)
Inductive reads (code : bytes) : token -> list (Z * token) -> token -> Prop :=
| rd_nil t : reads code t [] t
| rd_snoc t l t1 k t2 : reads code t l t1 -> Next code t1 = (k, t2, None) -> k <> EOF ->
    reads code t (l ++ [(k, t2)]) t2.
Lemma reads_lexes code t l t1 : reads code t l t1 -> forall l2, lexes code t1 l2 -> lexes code t (l ++ l2).
Proof.
  induction 1 as [t|t l t1 k t2 H IH HN Hk]; intros l2 H2; [exact H2|].
  rewrite <- app_assoc. apply IH. cbn [app]. econstructor; eauto.
Qed.

Definition tks (l : list (Z * token)) : list tk := map (fun x => tk_of (fst x) (snd x)) l.

Lemma payload_kinds k t : In k kinds -> tok_value_ok k t -> tok_rel (tk_of k t) t.
Proof.
  intros Hk Hv. pose proof Hv as (V0 & V1 & V2 & V3 & V4 & V5 & V6 & V7).
  assert (HK : kind_of (tk_of k t) = k).
  { unfold tk_of. repeat match goal with
    | |- context [if ?b then _ else _] => destruct b eqn:?
    | |- context [match ?b with _ => _ end] => destruct b eqn:?
    end; cbn [kind_of]; lia. }
  unfold tok_rel, tk_wf. rewrite HK. split; [split; [exact Hk|]|split; [exact Hv|reflexivity]].
  destruct (tk_of k t) as [c| | | | | | |] eqn:E; try exact I. cbn [kind_of] in HK. subst c.
  unfold payload. intros H. revert E. unfold tk_of.
  repeat (destruct H as [<-|H]; [cbn; try discriminate|]); [| | |destruct H].
  - rewrite V3 by reflexivity. discriminate.
  - destruct V4 as [f ->]; [reflexivity|]. discriminate.
  - destruct V5 as [f ->]; [reflexivity|]. discriminate.
Qed.


(** At the end of the text the end is read, again and again. *)
Lemma next_end pd s0 r s' pd' : next pd s0 = (r, s', pd') -> lr_tok r = EOF -> lr_err r = None -> s' = [].
Proof.
  unfold next. set (x := skipRegions _). clearbody x. intros H He Hn.
  destruct (isLetter (cur x)).
  { exfalso. destruct (scanIdentifier x) as [lit s1].
    destruct (if pd then None else assoc (fastToLower lit) keywords) as [t|] eqn:E; injection H as <- <- <-; [|discriminate He].
    destruct pd; [discriminate|]. apply in_keywords, kinds_pos in E. cbn in He. unfold EOF in He. lia. }
  destruct (cur x =? EOF) eqn:E.
  { apply Z.eqb_eq in E. rewrite E in H. cbn in H. injection H as <- <- <-. apply cur_EOF in E. subst x. reflexivity. }
  exfalso. apply Z.eqb_neq in E.
  repeat match type of H with
  | (if ?b then _ else _) = _ => destruct b
  | (match assoc ?b ?c with _ => _ end) = _ => destruct (assoc b c) eqn:?
  | match ?b with _ => _ end = _ => destruct b
  end; injection H as <- <- <-; cbn [lr_tok lr_lit lr_err] in *; try solve [discriminate | contradiction].
  match goal with H : assoc _ _ = Some _ |- _ => apply in_directives, kinds_pos in H; unfold EOF in *; lia end.
Qed.
Lemma next_nil pd : exists l pd', next pd [] = (LexRes EOF l None, [], pd').
Proof. destruct pd; eexists; eexists; vm_compute; reflexivity. Qed.
Lemma Next_at_end code t : skipn (tk_off t) code = [] -> exists t', Next code t = (EOF, t', None).
Proof.
  intros H. unfold Next. rewrite H. destruct (next_nil (tk_prevDot t)) as (l & pd' & ->). cbn. eauto.
Qed.
Lemma Next_end code t t' : Next code t = (EOF, t', None) -> skipn (tk_off t') code = [].
Proof.
  intros H. unfold Next in H.
  destruct (next (tk_prevDot t) (skipn (tk_off t) code)) as [[r s'] pd'] eqn:En.
  assert (lr_tok r = EOF /\ lr_err r = None /\ tk_off t' = (length code - length s')%nat) as (K1 & K2 & K3).
  { revert H. repeat match goal with
    | |- context [if ?b then _ else _] => destruct b eqn:?
    | |- context [match parse_float ?b with _ => _ end] => destruct (parse_float b) eqn:?
    | |- context [match parse_date ?b with _ => _ end] => destruct (parse_date b) eqn:?
    end; intros H; try discriminate H; injection H; intros; subst t';
    solve [split; [congruence|]; split; congruence || reflexivity
          | exfalso; match goal with H1 : (lr_tok r =? _) = true, H2 : lr_tok r = EOF |- _ => rewrite H2 in H1; discriminate H1 end]. }
  rewrite (next_end _ _ _ _ _ En K1 K2) in K3. rewrite K3. cbn [length]. rewrite Nat.sub_0_r. apply skipn_all.
Qed.

Lemma tk_of_kind k t : In k kinds -> tok_value_ok k t -> kind_of (tk_of k t) = k.
Proof.
  intros Hk Hv. unfold tk_of. repeat match goal with
    | |- context [if ?b then _ else _] => destruct b eqn:?
    | |- context [match ?b with _ => _ end] => destruct b eqn:?
    end; cbn [kind_of]; lia.
Qed.

(** * The invariant *)
(** [ts]: the trees built so far; [vs]: their cells; [l]: the tokens consumed;
    [t]: the scanner state after them. *)
Record tinv (a : astnode) (ts : list tree) (vs : list slot) (a0 : astnode) (l : list (Z * token)) (t : token) (p : pst) : Prop := {
  t_stk : p_stk p = rev vs ++ [set_yys zero_slot 0];
  t_wf : Forall wf ts;
  t_sym : map sym_of ts = map (fun c => chk (yys c)) vs;
  t_ctx : same_ctx a a0;
  t_ev : evs ts vs a0 (p_ast p);
  t_code : a_code (p_ast p) = a_code a;
  t_reads : reads (a_code a) zero_token l t;
  t_yield : flat_map yield ts = tks l;
  t_look : (p_char p < 0 /\ (v_token (p_lval p) = t \/
             (exists t', Next (a_code a) t = (EOF, t', None)) /\ skipn (tk_off (v_token (p_lval p))) (a_code a) = [])) \/
           (In (p_char p) kinds /\ Next (a_code a) t = (p_char p, v_token (p_lval p), None)) }.

Lemma kinds_not_EOF k : In k kinds -> k <> EOF.
Proof. intros H. apply kinds_pos in H. unfold EOF. lia. Qed.

Lemma look_tinv a ts vs a0 l t p : inv p -> tinv a ts vs a0 l t p -> a_err (p_ast (look p)) = None ->
  exists a0', tinv a ts vs a0' l t (look p) /\
    (p_char p < 0 -> p_char (look p) < 0 -> exists t', Next (a_code a) t = (EOF, t', None)).
Proof.
  intros Hi HT. pose proof HT as [H1 H2 H3 H4 H5 H6 H7 H8 H9]. unfold look. destruct (p_char p <? 0) eqn:E.
  2: { intros _. exists a0. split; [exact HT|]. lia. }
  destruct (Lex (p_ast p) (v_token (p_lval p))) as [[c t'] a'] eqn:EL.
  destruct (Lex_spec _ _ _ _ _ (i_off p Hi) EL) as (L1 & L2 & L3). rewrite H6 in *.
  cbn [p_stk p_above p_state p_lval p_char p_tok p_ast v_token set_token]. intros Herr.
  destruct H9 as [[_ H9]|[H9 _]]; [|apply kinds_pos in H9; lia].
  destruct L3 as [(K1 & K2 & K3 & -> & K4)|[(-> & -> & K1)|(-> & _ & k & e & _ & -> & _)]]; [| |discriminate Herr].
  - (* a token: the previous one cannot have been the end *)
    assert (Hq : v_token (p_lval p) = t).
    { destruct H9 as [H9|[_ H9]]; [exact H9|]. exfalso. destruct (Next_at_end _ _ H9) as [t2 E2].
      rewrite E2 in K3. injection K3 as <- _. apply kinds_not_EOF in K1. contradiction. }
    destruct (evs_ctx _ _ _ _ (set_cur (p_ast p) t') H5) as (a0' & C1 & C2); [repeat split|].
    exists a0'. split; [|intros _ H; apply kinds_pos in K1; lia].
    constructor; cbn [p_stk p_above p_state p_lval p_char p_tok p_ast v_token set_token]; auto.
    + eapply same_ctx_trans; eassumption.
    + right. split; [exact K1|]. rewrite <- Hq. exact K3.
  - exists a0. assert (HE : exists t', Next (a_code a) t = (EOF, t', None)).
    { destruct K1 as [[Ec ->]|[K1 _]].
      - apply Next_at_end. rewrite Ec. apply skipn_nil.
      - destruct H9 as [H9|[H9 _]]; [rewrite <- H9; eauto | exact H9]. }
    split; [|auto].
    constructor; cbn [p_stk p_above p_state p_lval p_char p_tok p_ast v_token set_token]; auto.
    left. split; [unfold EOF; lia|]. destruct K1 as [[Ec ->]|[K1 _]].
    + destruct H9 as [H9|H9]; auto.
    + right. split; [exact HE|]. eapply Next_end, K1.
Qed.

Lemma look1_tinv a ts vs a0 l t p : inv p -> tinv a ts vs a0 l t p -> a_err (p_ast (look1 p)) = None ->
  exists a0', tinv a ts vs a0' l t (look1 p).
Proof.
  intros Hi HT. unfold look1. destruct (_ <=? _); [eauto|]. intros He.
  destruct (look_tinv _ _ _ _ _ _ _ Hi HT He) as (a0' & H & _). eauto.
Qed.
Lemma not_err_back a b : (a_err a <> None -> a_err b <> None) -> a_err b = None -> a_err a = None.
Proof. intros H H2. destruct (a_err a); [|reflexivity]. destruct (H ltac:(discriminate) H2). Qed.
Lemma look2_tinv a ts vs a0 l t p : inv p -> tinv a ts vs a0 l t p -> a_err (p_ast (look2 p)) = None ->
  exists a0', tinv a ts vs a0' l t (look2 p) /\
    (at_ yyDef (p_state p) = -2 -> p_char (look2 p) < 0 -> exists t', Next (a_code a) t = (EOF, t', None)).
Proof.
  intros Hi HT He. destruct (look1_inv p Hi) as (A1 & _). unfold look2 in *. destruct (_ =? -2) eqn:E.
  - destruct (look_inv _ A1) as (_ & _ & _ & L4 & _).
    destruct (look1_tinv _ _ _ _ _ _ _ Hi HT (not_err_back _ _ L4 He)) as (a1 & H1).
    destruct (look_tinv _ _ _ _ _ _ _ A1 H1 He) as (a2 & H2 & H3). exists a2. split; [exact H2|].
    intros _ Hc. apply H3; [|exact Hc]. unfold look in Hc. destruct (p_char (look1 p) <? 0) eqn:E2; lia.
  - destruct (look1_tinv _ _ _ _ _ _ _ Hi HT He) as (a1 & H1). exists a1. split; [exact H1|]. intros. lia.
Qed.

Lemma shift_tinv a ts vs a0 l t p q : inv p -> tinv a ts vs a0 l t p -> 0 <= p_char p ->
  shift_of (p_state p) (p_tok p) = Some q ->
  tinv a (ts ++ [Leaf (tk_of (p_char p) (v_token (p_lval p)))]) (vs ++ [set_yys (p_lval p) q]) a0
       (l ++ [(p_char p, v_token (p_lval p))]) (v_token (p_lval p)) (shift p q).
Proof.
  intros Hi HT Hc Hq. pose proof HT as [H1 H2 H3 H4 H5 H6 H7 H8 H9]. destruct (inv_states p Hi) as [Hs _].
  destruct (i_look p Hi) as [Hl|(Hk & Htok & Hval)]; [lia|]. destruct H9 as [[H9 _]|[_ H9]]; [lia|].
  pose proof (payload_kinds _ _ Hk Hval) as Hrel.
  unfold shift, push. constructor; cbn [p_stk p_above p_state p_lval p_char p_tok p_ast]; auto.
  - rewrite rev_unit, H1. reflexivity.
  - apply Forall_app. split; [exact H2|]. constructor; [|constructor]. constructor. apply Hrel.
  - rewrite !map_app, H3. cbn [map sym_of]. f_equal. f_equal. change (yys (set_yys (p_lval p) q)) with q.
    rewrite (tk_of_kind _ _ Hk Hval), <- Htok.
    destruct (checked _ Hs) as (_ & _ & HC). destruct (HC (p_tok p)) as (Hshift & _); [rewrite Htok; apply tokno_of_range|].
    unfold shift_ok in Hshift. rewrite Hq in Hshift. rewrite !andb_true_iff in Hshift. lia.
  - eapply evs_app; [exact H5|]. econstructor; [|constructor]. rewrite (i_lval p Hi).
    constructor; [|apply same_ctx_refl]. exact Hrel.
  - econstructor; [exact H7|exact H9|apply kinds_not_EOF, Hk].
  - rewrite flat_map_app, H8. unfold tks. rewrite map_app. reflexivity.
  - left. split; [lia|]. left. reflexivity.
Qed.

Lemma rev_app_split {A} (popped : list A) : forall vs b base rest, rev vs ++ [b] = popped ++ base :: rest ->
  exists vs1, vs = vs1 ++ rev popped /\ base :: rest = rev vs1 ++ [b].
Proof.
  induction popped as [|x popped IH]; intros vs b base rest H.
  - exists vs. cbn [rev]. rewrite app_nil_r. auto.
  - destruct vs as [|v vs0 _] using rev_ind.
    + cbn [rev app] in H. injection H as _ H. destruct popped; discriminate H.
    + rewrite rev_unit in H. cbn [app] in H. injection H as -> H.
      destruct (IH _ _ _ _ H) as (vs1 & -> & E). exists vs1. split; [|exact E]. cbn [rev]. rewrite app_assoc. reflexivity.
Qed.

Lemma app_inj_length {A} (a : list A) : forall b c d, length a = length c -> a ++ b = c ++ d -> a = c /\ b = d.
Proof.
  induction a as [|x a IH]; intros b [|y c] d Hl H; try discriminate Hl; [auto|].
  cbn [app] in H. injection H as -> H. injection Hl as Hl. destruct (IH _ _ _ Hl H) as [-> ->]. auto.
Qed.
Lemma reduce_tinv a ts vs a0 l t p r p' : inv p -> tinv a ts vs a0 l t p -> reduce_ok (p_state p) r = true ->
  reduce p r = Next_ p' -> exists ts' vs', tinv a ts' vs' a0 l t p'.
Proof.
  intros Hi HT Hr. pose proof HT as [H1 H2 H3 H4 H5 H6 H7 H8 H9]. destruct (i_top p Hi) as [l0 Ht].
  pose proof (i_path p Hi) as Hp. rewrite Ht in Hp.
  destruct (reduce_eq p r _ _ Ht Hp Hr) as (popped & base & rest & q & E1 & E2 & Eq & Eq2 & Hpred & Hq & Hpath & Hprod & Hh & ->).
  cbv zeta. set (above := rev popped ++ p_above p).
  destruct (act r (fun i => nth (i - 1) above zero_slot) (hd zero_slot above) (p_ast p)) as [[v' a']|x] eqn:EA; [|discriminate].
  cbn [sbind]. intros [= <-]. destruct (act_input _ _ _ _ _ _ Hprod EA) as (I1 & I2 & I3).
  rewrite H1 in E1. destruct (rev_app_split _ _ _ _ _ E1) as (vs1 & -> & Eb).
  assert (exists ts1 ts2, ts = ts1 ++ ts2 /\ map sym_of ts1 = map (fun c => chk (yys c)) vs1 /\
            map sym_of ts2 = map (fun c => chk (yys c)) (rev popped)) as (ts1 & ts2 & -> & S1 & S2).
  { rewrite map_app in H3. apply map_eq_app in H3. destruct H3 as (ts1 & ts2 & -> & S1 & S2). exists ts1, ts2. auto. }
  destruct (evs_split _ _ _ _ _ H5) as (ws1 & ws2 & b & Ews & V1 & V2).
  assert (ws1 = vs1 /\ ws2 = rev popped) as [-> ->].
  { apply app_inj_length; [|symmetry; exact Ews]. pose proof (evs_length _ _ _ _ V1). apply (f_equal (@length Z)) in S1.
    rewrite !map_length in S1. lia. }
  apply Forall_app in H2. destruct H2 as [W1 W2].
  exists (ts1 ++ [Node r ts2]), (vs1 ++ [set_yys v' q]).
  unfold push. constructor; cbn [p_stk p_above p_state p_lval p_char p_tok p_ast]; auto.
  - rewrite rev_unit. cbn [app]. rewrite <- Eb. reflexivity.
  - apply Forall_app. split; [exact W1|]. constructor; [|constructor]. constructor; auto. congruence.
  - rewrite !map_app, S1. cbn [map sym_of]. change (yys (set_yys v' q)) with q. rewrite Eq2. reflexivity.
  - eapply evs_app; [exact V1|]. econstructor; [|constructor].
    apply ev_node with (ds := rev popped) (v0 := hd zero_slot above) (a1 := p_ast p) (a2 := a'); auto using same_ctx_refl.
    + destruct (rev popped) as [|d0 dr] eqn:Er; [exact I|]. subst above. reflexivity.
    + rewrite <- EA. apply act_ext; [exact Hprod|]. intros i Hi2. subst above. rewrite app_nth1; [reflexivity|].
      apply (f_equal (@length Z)) in E2. rewrite !map_length in E2. lia.
  - congruence.
  - rewrite flat_map_app in *. cbn [flat_map yield]. rewrite app_nil_r. exact H8.
Qed.

Lemma default_reduce p r : inv p -> default (p_state p) (p_tok (look2 p)) = Reduce r ->
  reduce_ok (p_state (look2 p)) r = true.
Proof.
  intros Hi Ed. destruct (look2_inv p Hi) as (B1 & B2 & B3 & B4 & B5 & B6 & B7). destruct (inv_states p Hi) as [Hs _].
  rewrite B4. destruct (checked _ Hs) as (_ & _ & HC).
  destruct (Z.eq_dec (at_ yyDef (p_state p)) (-2)) as [E|E].
  - destruct (HC (p_tok (look2 p))) as (_ & Hd & _).
    { destruct (inv_tokno _ B1) as [Hn|Hn]; [rewrite (B7 E Hn); unfold tokno, n_tokens; lia | exact Hn]. }
    unfold default_ok in Hd. rewrite Ed in Hd. exact Hd.
  - destruct (HC 1) as (_ & Hd & _); [unfold tokno, n_tokens; lia|]. unfold default_ok in Hd.
    replace (default (p_state p) 1) with (Reduce r) in Hd; [exact Hd|]. rewrite <- Ed. unfold default.
    apply Z.eqb_neq in E. rewrite E. reflexivity.
Qed.

(** A step without an error keeps the invariant. *)
Lemma step_tinv a ts vs a0 l t p p' : inv p -> tinv a ts vs a0 l t p -> step p = Next_ p' -> a_err (p_ast p') = None ->
  exists ts' vs' a0' l' t', tinv a ts' vs' a0' l' t' p'.
Proof.
  intros Hi HT. destruct (inv_states p Hi) as [Hs Hst]. rewrite step_eq by (auto using inv_tokno).
  destruct (look1_inv p Hi) as (A1 & A2 & A3 & A4 & A5 & A6).
  destruct (shift_of (p_state p) (p_tok (look1 p))) as [q|] eqn:Eq.
  - pose proof (shift_flag _ _ _ Eq) as Hf. unfold look1 in *. rewrite Hf in *.
    assert (Hch : 0 <= p_char (look p)).
    { destruct (Z.lt_ge_cases (p_char (look p)) 0) as [Hlt|]; [|assumption]. exfalso.
      destruct (look_inv p Hi) as (_ & _ & _ & _ & L5). rewrite (L5 Hlt), no_end_shift in Eq by exact Hs. discriminate. }
    rewrite <- A4 in Eq. intros [= <-] He. destruct (look_tinv _ _ _ _ _ _ _ Hi HT He) as (a1 & H1 & _).
    do 5 eexists. eapply shift_tinv; eassumption.
  - destruct (look2_inv p Hi) as (B1 & B2 & B3 & B4 & B5 & B6 & B7).
    destruct (default (p_state p) (p_tok (look2 p))) as [q|r| |] eqn:Ed; cbn [do_default].
    2: { intros E He. pose proof (default_reduce p r Hi Ed) as Hr.
         assert (He2 : a_err (p_ast (look2 p)) = None).
         { destruct (i_top _ B1) as [l0 Ht]. pose proof (i_path _ B1) as Hp. rewrite Ht in Hp.
           destruct (reduce_eq _ r _ _ Ht Hp Hr) as (popped & base & rest & q & _ & _ & _ & _ & _ & _ & _ & Hprod & _ & E2).
           rewrite E2 in E. cbv zeta in E. revert E.
           match goal with |- context [act ?r ?d ?v ?x] => destruct (act r d v x) as [[v' a']|] eqn:EA end; [|discriminate].
           cbn [sbind]. intros [= <-]. destruct (act_input _ _ _ _ _ _ Hprod EA) as (_ & _ & I3).
           eapply not_err_back; [exact I3 | exact He]. }
         destruct (look2_tinv _ _ _ _ _ _ _ Hi HT He2) as (a1 & H1 & _).
         destruct (reduce_tinv _ _ _ _ _ _ _ _ _ B1 H1 Hr E) as (ts' & vs' & H2). eauto 10. }
    1, 3: unfold fail; destruct (Error _ _); discriminate.
    discriminate.
Qed.

Lemma steps_tinv n p p' : steps n p p' -> inv p -> forall a ts vs a0 l t, tinv a ts vs a0 l t p -> a_err (p_ast p') = None ->
  exists ts' vs' a0' l' t', tinv a ts' vs' a0' l' t' p'.
Proof.
  induction 1 as [p|n p p1 p2 E H IH]; intros Hi a ts vs a0 l t HT He; [eauto 10|].
  pose proof (step_inv p Hi) as Hs. rewrite E in Hs. destruct Hs as (H1 & _).
  destruct (steps_inv _ _ _ H H1) as (_ & _ & _ & H4).
  destruct (step_tinv _ _ _ _ _ _ _ _ Hi HT E (not_err_back _ _ H4 He)) as (ts' & vs' & a0' & l' & t' & HT').
  eapply IH; eassumption.
Qed.

Lemma init_tinv a : tinv a [] [] a [] zero_token (init_pst a).
Proof.
  constructor; cbn [init_pst p_stk p_above p_state p_lval p_char p_tok p_ast]; eauto using same_ctx_refl, evs, reads.
  left. split; [lia|]. left. reflexivity.
Qed.

Lemma only_accept s k : state s -> tokno k -> default s k = Accept -> s = 1 /\ k = 1.
Proof.
  intros Hs Hk. assert (HE : forallb (fun s => forallb (fun k => match default s k with
     | Accept => (s =? 1) && (k =? 1) | _ => true end) toknos) states = true) by (vm_compute; reflexivity).
  pose proof (forall_states _ HE s Hs) as H2. pose proof (forall_toknos _ H2 k Hk) as H3. cbv beta in H3. clear HE H2.
  destruct (default s k); try discriminate. intros _. apply andb_true_iff in H3. lia.
Qed.
Lemma default_accept s k : default s k = Accept -> at_ yyDef s = -2.
Proof. unfold default. destruct (at_ yyDef s =? -2) eqn:E; [lia|]. destruct (_ =? 0); discriminate. Qed.

(** The accepting step: one tree, everything read. *)
Lemma accept_tinv a ts vs a0 l t p a' : inv p -> tinv a ts vs a0 l t p -> step p = Done 0 a' -> a_err a' = None ->
  exists T v, wf T /\ sym_of T = - nt_no n_module /\ (exists a1, same_ctx a a1 /\ ev T v a1 a') /\
    yield T = tks l /\ lexes (a_code a) zero_token l.
Proof.
  intros Hi HT. destruct (inv_states p Hi) as [Hs Hst]. rewrite step_eq by (auto using inv_tokno).
  destruct (shift_of (p_state p) (p_tok (look1 p))) as [q|] eqn:Eq; [discriminate|].
  destruct (look2_inv p Hi) as (B1 & B2 & B3 & B4 & B5 & B6 & B7).
  destruct (default (p_state p) (p_tok (look2 p))) as [q|r| |] eqn:Ed; cbn [do_default].
  - unfold fail. destruct (Error _ _); discriminate.
  - intros E. exfalso. pose proof (default_reduce p r Hi Ed) as Hr.
    destruct (i_top _ B1) as [l0 Ht]. pose proof (i_path _ B1) as Hp. rewrite Ht in Hp.
    destruct (reduce_eq _ r _ _ Ht Hp Hr) as (popped & base & rest & q & _ & _ & _ & _ & _ & _ & _ & Hprod & _ & E2).
    rewrite E2 in E. cbv zeta in E. revert E.
    match goal with |- context [act ?r ?d ?v ?x] => destruct (act r d v x) as [[v' a2]|] eqn:EA end; discriminate.
  - intros [= <-] He. pose proof (default_accept _ _ Ed) as Hd.
    destruct (look2_tinv _ _ _ _ _ _ _ Hi HT He) as (a1 & H1 & H2).
    assert (Hk : tokno (p_tok (look2 p))).
    { destruct (inv_tokno _ B1) as [Hn|Hn]; [rewrite (B7 Hd Hn); unfold tokno, n_tokens; lia | exact Hn]. }
    destruct (only_accept _ _ Hs Hk Ed) as [Es Ek].
    assert (Hc : p_char (look2 p) < 0).
    { destruct (i_look _ B1) as [Hn|(Hn & Hn2 & _)]; [exact Hn|]. exfalso. rewrite Ek in Hn2. symmetry in Hn2.
      apply tokno_end in Hn2. apply kinds_pos in Hn. lia. }
    destruct (H2 Hd Hc) as [t' Hend].
    pose proof H1 as [T1 T2 T3 T4 T5 T6 T7 T8 T9].
    (* the stack is [1; 0] *)
    assert (Hstk : map yys (p_stk p) = [1; 0]).
    { pose proof (i_path p Hi) as Hp. destruct (i_top p Hi) as [l0 Ht]. rewrite Ht, Es in Hp |- *. inversion Hp as [|s1 s2 l1 Hpr Hp1]; subst.
      change (pred 1) with [0] in Hpr. destruct Hpr as [<-|[]].
      inversion Hp1 as [|s1 s2 l2 Hpr2 Hp2]; subst; [reflexivity|]. destruct Hpr2. }
    rewrite B3 in T1. rewrite T1, map_app in Hstk. cbn [map] in Hstk.
    assert (exists v, vs = [v] /\ yys v = 1) as (v & -> & Hv).
    { destruct vs as [|v vs] using rev_ind; [discriminate Hstk|]. rewrite rev_unit in Hstk. cbn [map app] in Hstk.
      injection Hstk as Hv Hstk. exists v. destruct vs as [|v2 vs2] using rev_ind; [auto|]. exfalso.
      rewrite rev_unit in Hstk. cbn [map app] in Hstk. injection Hstk as _ Hstk. destruct (map yys (rev vs2)); discriminate. }
    destruct ts as [|T [|? ?]]; try discriminate T3. cbn [map] in T3. injection T3 as T3.
    exists T, v. inversion T2; subst. inversion T5; subst.
    match goal with H : evs [] [] _ _ |- _ => inversion H; subst end.
    split; [assumption|]. split; [rewrite T3, Hv; reflexivity|].
    split; [exists a1; auto|].
    cbn [flat_map] in T8. rewrite app_nil_r in T8. split; [exact T8|].
    rewrite <- (app_nil_r l). eapply reads_lexes; [exact T7|]. econstructor; exact Hend.
  - unfold fail. destruct (Error _ _); discriminate.
Qed.

(** * Accepted texts have a tree *)
Lemma Parse_tree a a' : Parse a = Some (Ok (a', None)) -> blank (a_code a) = false ->
  exists T v l, wf T /\ sym_of T = - nt_no n_module /\ (exists a1, same_ctx a a1 /\ ev T v a1 a') /\
    yield T = l /\ tokens (a_code a) l.
Proof.
  unfold Parse. intros H Hb. rewrite Hb in H.
  destruct (run_result _ (init_inv a)) as (n & p' & H1 & H2 & H3 & H4 & H5).
  rewrite H5 in H by (rewrite init_potential; unfold parse_fuel; lia).
  pose proof (step_inv p' H3) as Hs.
  destruct (step p') as [|x a2|q] eqn:Es; [contradiction| |discriminate]. cbn [outcome] in H.
  injection H as -> He. destruct Hs as (_ & S2 & S3).
  assert (x = 0) as -> by (destruct (Z.eq_dec x 0) as [E|E]; [exact E | destruct (S3 E He)]).
  destruct (steps_tinv _ _ _ H1 (init_inv a) _ _ _ _ _ _ (init_tinv a) (not_err_back _ _ S2 He)) as (ts & vs & a0 & l & t & HT).
  destruct (accept_tinv _ _ _ _ _ _ _ _ H3 HT Es He) as (T & v & W1 & W2 & W3 & W4 & W5).
  exists T, v, (tks l). do 4 (split; [assumption|]). exists l. auto.
Qed.

(** * Trees are derivations *)
Fixpoint tree_ind2 (P : tree -> Prop) (Hl : forall k, P (Leaf k))
  (Hn : forall r ch, Forall P ch -> P (Node r ch)) (t : tree) : P t :=
  match t with
  | Leaf k => Hl k
  | Node r ch => Hn r ch ((fix go (l : list tree) : Forall P l :=
      match l with [] => Forall_nil P | x :: l' => Forall_cons x (tree_ind2 P Hl Hn x) (go l') end) ch)
  end.

Definition terminals : list Z := flat_map (fun p => flat_map (fun x => match x with T c => [c] | N _ => [] end) (snd p)) productions.
Lemma tokno_of_kinds k c : In k kinds -> In c terminals -> tokno_of k = tokno_of c -> k = c.
Proof.
  intros Hk Hc H. assert (E : forallb (fun k => forallb (fun c => negb (tokno_of k =? tokno_of c) || (k =? c)) terminals) kinds = true)
    by (vm_compute; reflexivity).
  rewrite forallb_forall in E. specialize (E k Hk). rewrite forallb_forall in E. specialize (E c Hc). rewrite H in E. lia.
Qed.
Lemma rhs_terminals r c : prodno r -> In (T c) (rhs r) -> In c terminals.
Proof.
  intros Hr H. unfold terminals. apply in_flat_map. exists (lhs r, rhs r). split; [apply prod_in, Hr|].
  apply in_flat_map. exists (T c). split; [exact H | left; reflexivity].
Qed.
Lemma nt_no_pos n : 0 < nt_no n.
Proof. destruct n; reflexivity. Qed.

(** A tree whose symbol is a grammar symbol is a leaf with that token, or a node
    for a production of that nonterminal. *)
Lemma sym_tok t c : wf t -> In c terminals -> sym_of t = sym_no (T c) -> exists k, t = Leaf k /\ kind_of k = c /\ tk_wf k.
Proof.
  intros Hw Hc H. destruct Hw as [k Hk|r ch Hr Hs Hf]; cbn [sym_of sym_no] in H.
  - exists k. split; [reflexivity|]. split; [|exact Hk]. destruct Hk as [Hk _]. apply tokno_of_kinds; assumption.
  - exfalso. pose proof (nt_no_pos (lhs r)). pose proof (tokno_of_range c) as [Ht _]. unfold tokno in Ht. lia.
Qed.
Lemma sym_nt t n : wf t -> sym_of t = sym_no (N n) -> exists r ch, t = Node r ch /\ lhs r = n /\ prodno r.
Proof.
  intros Hw H. destruct Hw as [k Hk|r ch Hr Hs Hf]; cbn [sym_of sym_no] in H.
  - exfalso. pose proof (nt_no_pos n). pose proof (tokno_of_range (kind_of k)) as [Ht _]. unfold tokno in Ht. lia.
  - exists r, ch. split; [reflexivity|]. split; [|exact Hr]. apply nt_no_inj. lia.
Qed.

Lemma wf_derives t : wf t -> forall n, sym_of t = - nt_no n -> derives n (map kind_of (yield t)).
Proof.
  induction t as [k|r ch IH] using tree_ind2; intros Hw n Hn.
  - exfalso. destruct (sym_nt _ n Hw Hn) as (r & ch & E & _). discriminate.
  - inversion Hw as [|r0 ch0 Hr Hs Hf]; subst. cbn [sym_of] in Hn. assert (lhs r = n) as <- by (apply nt_no_inj; lia).
    apply (dv_prod _ (rhs r)); [apply prod_in, Hr|]. cbn [yield].
    assert (Hsub : forall x, In x (rhs r) -> In x (rhs r)) by auto. clear Hw Hn.
    assert (Hgen : forall w, (forall x, In x w -> In x (rhs r)) -> map sym_of ch = map sym_no w -> derives_all w (map kind_of (flat_map yield ch)));
      [|apply Hgen; assumption]. clear Hs Hsub.
    induction ch as [|t ch IHch]; intros [|x w] Hsub Hs; try discriminate Hs; [constructor|].
    cbn [map] in Hs. injection Hs as Hx Hs. inversion IH as [|? ? IH1 IH2]; subst. inversion Hf as [|? ? F1 F2]; subst.
    cbn [flat_map]. rewrite map_app.
    assert (Hrest : derives_all w (map kind_of (flat_map yield ch))).
    { apply IHch; auto. intros y Hy. apply Hsub. right. exact Hy. }
    destruct x as [c|m].
    + destruct (sym_tok _ c F1) as (k & -> & <- & _); [|exact Hx|].
      { eapply rhs_terminals; [exact Hr|]. apply Hsub. left. reflexivity. }
      cbn [yield map app]. constructor. exact Hrest.
    + constructor; [|exact Hrest]. apply IH1; assumption.
Qed.
