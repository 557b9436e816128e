(** The trees of the expressions of a text. *)
From Verif Require Import Bytes Utf8 UnicodeTables Float64 GoTime Ast Lexer LexFacts Utf8Facts LexSpec LexProofs LexTrivia
  LexTokens LexStrings NumSpec NumProofs NumTokens Tok Syntax Levels RulesFacts StmtInd Parser Printer PrintInv Properties_Literals Writes PrintToks Driver SpellInv Survive Strip Back.
Open Scope Z_scope.

(** * Reserved words *)
Definition is_dot (k : tk) : bool := match k with K c => c =? 46 | _ => false end.
Definition name_ok (pd : bool) (k : tk) : Prop :=
  match k with
  | KId n => word_tk pd n = KId n /\ n <> []
  | KExec n => word_tk pd n = KExec n
  | _ => True
  end.
Fixpoint nk (pd : bool) (l : list tk) : Prop :=
  match l with [] => True | k :: l => name_ok pd k /\ nk (is_dot k && negb pd) l end.
Lemma assoc_directives k t : assoc k directives = Some t -> t <> tIdent /\ t <> tExecute.
Proof.
  intros H. apply assoc_in in H.
  assert (A : forallb (fun p => negb (snd p =? tIdent) && negb (snd p =? tExecute)) directives = true) by (vm_compute; reflexivity).
  rewrite forallb_forall in A. specialize (A _ H). cbn in A. apply andb_true_iff in A as [A1 A2].
  apply negb_true_iff, Z.eqb_neq in A1. apply negb_true_iff, Z.eqb_neq in A2. auto.
Qed.
Lemma assoc_keywords k t : assoc k keywords = Some t -> t <> tIdent.
Proof.
  intros H. apply assoc_in in H.
  assert (A : forallb (fun p => negb (snd p =? tIdent)) keywords = true) by (vm_compute; reflexivity).
  rewrite forallb_forall in A. specialize (A _ H). cbn in A. apply negb_true_iff, Z.eqb_neq in A. auto.
Qed.
Lemma assoc_not_dot (l : list (bytes * Z)) k t : forallb (fun p => negb (snd p =? 46)) l = true -> assoc k l = Some t -> (t =? 46) = false.
Proof. intros A H. apply assoc_in in H. rewrite forallb_forall in A. specialize (A _ H). cbn in A. apply negb_true_iff in A. exact A. Qed.
Lemma next_pd pd s r s' pd' : next pd s = (r, s', pd') -> lr_err r = None -> pd' = (lr_tok r =? 46) && negb pd.
Proof.
  unfold next. set (x := skipRegions _). clearbody x. intros H He.
  assert (P : forall c, punct c = true -> (c =? 46) = false).
  { intros c. unfold punct. intros Hc. apply Z.eqb_neq. repeat (apply orb_true_iff in Hc as [Hc|Hc]); apply Z.eqb_eq in Hc; lia. }
  repeat match type of H with
  | context [match ?x with _ => _ end] => destruct x eqn:?
  | context [if ?x then _ else _] => destruct x eqn:?
  end; injection H as <- <- <-; cbn [lr_tok lr_lit lr_err] in *; try discriminate; try reflexivity;
  repeat match goal with
  | E : (cur _ =? _) = true |- _ => apply Z.eqb_eq in E; rewrite E
  | E : punct _ = true |- _ => apply P in E; rewrite E
  | E : (if ?b then None else assoc _ _) = Some _ |- _ => destruct b; [discriminate E|]
  | E : assoc _ _ = Some _ |- _ => apply assoc_not_dot in E; [rewrite E|vm_compute; reflexivity]
  end; reflexivity.
Qed.
Lemma next_names pd s r s' pd' : next pd s = (r, s', pd') -> lr_err r = None ->
  (lr_tok r = tIdent -> (if pd then None else assoc (fastToLower (lr_lit r)) keywords) = None) /\
  (lr_tok r = tExecute -> (if pd then None else assoc (fastToLower (lr_lit r)) keywords) = Some tExecute).
Proof.
  unfold next. set (x := skipRegions _). clearbody x. intros H He.
  destruct (isLetter (cur x)) eqn:El.
  { destruct (scanIdentifier x) as [lit s1]. destruct (if pd then None else assoc (fastToLower lit) keywords) as [t|] eqn:E;
    injection H as <- <- <-; cbn [lr_tok lr_lit]; rewrite ?E; split; intros; try congruence; try discriminate.
    destruct pd; [discriminate|]. apply assoc_keywords in E. congruence. }
  assert (P : forall c, punct c = true -> c < 200).
  { intros c. unfold punct. intros Hc. repeat (apply orb_true_iff in Hc as [Hc|Hc]); apply Z.eqb_eq in Hc; lia. }
  repeat match type of H with
  | context [match ?x with _ => _ end] => destruct x eqn:?
  | context [if ?x then _ else _] => destruct x eqn:?
  end; injection H as <- <- <-; cbn [lr_tok lr_lit lr_err] in *; try discriminate;
  repeat match goal with
  | E : (_ =? _) = true |- _ => apply Z.eqb_eq in E
  | E : punct _ = true |- _ => apply P in E
  | E : assoc _ directives = Some _ |- _ => apply assoc_directives in E
  end; split; intros Hk; exfalso; unfold tIdent, tExecute, tNumber, tDate, tEQUAL, tString, tNeEQ, tLE, tGE, tGoToLabel, EOF, cDot in *; try lia; try tauto.
Qed.
Lemma Next_names code t k t' : Next code t = (k, t', None) ->
  name_ok (tk_prevDot t) (tk_of k t') /\ tk_prevDot t' = is_dot (tk_of k t') && negb (tk_prevDot t).
Proof.
  intros H0. pose proof (Next_ok _ _ _ _ H0) as [HW _]. revert H0.
  unfold Next. destruct (next (tk_prevDot t) (skipn (tk_off t) code)) as [[r s'] pd'] eqn:En.
  pose proof (next_names _ _ _ _ _ En) as HN. pose proof (next_pd _ _ _ _ _ En) as HP. 
  assert (HF : forall e, lr_err r = Some e -> lr_tok r = EOF \/ lr_lit r = encode (lr_tok r)) by (intros e; apply (next_error_lit _ _ _ _ _ _ En)). intros H.
  assert (A : lr_err r = None /\ k = lr_tok r /\ tk_lit t' = lr_lit r /\ tk_prevDot t' = pd').
  { destruct (lr_err r) as [e|] eqn:Ee.
    - exfalso. specialize (HF e eq_refl). destruct (lr_tok r =? tNumber) eqn:E1.
      { apply Z.eqb_eq in E1. destruct HF as [F|F]; [rewrite E1 in F; discriminate|]. rewrite F, E1 in H. vm_compute in H. discriminate. }
      destruct (lr_tok r =? tDate) eqn:E2.
      { apply Z.eqb_eq in E2. destruct HF as [F|F]; [rewrite E2 in F; discriminate|]. rewrite F, E2 in H. vm_compute in H. discriminate. }
      repeat match type of H with context [if ?x then _ else _] => destruct x eqn:? end; discriminate.
    - repeat match type of H with
      | context [match ?x with _ => _ end] => destruct x eqn:?
      | context [if ?x then _ else _] => destruct x eqn:?
      end; inversion H; subst; cbn; repeat split; auto. }
  destruct A as (A1 & A2 & A3 & A4). rewrite <- A4 in HP. rewrite <- A3 in HN. rewrite <- A2 in HN, HP. clear H En A2 A3 A4 HF.
  specialize (HN A1). specialize (HP A1). rewrite HP. clear HP. destruct HN as [N1 N2].
  unfold tk_of. destruct (k =? tIdent) eqn:E1.
  { apply Z.eqb_eq in E1. rewrite E1. split; [|reflexivity]. cbn. unfold word_tk. rewrite (N1 E1). split; [reflexivity|].
    intros E0. rewrite E0 in HW. discriminate HW. left. exact (eq_sym E1). }
  destruct (k =? tExecute) eqn:E2.
  { apply Z.eqb_eq in E2. rewrite E2. split; [|reflexivity]. cbn. unfold word_tk. rewrite (N2 E2), Z.eqb_refl. reflexivity. }
  destruct (k =? tDirective) eqn:E3; [apply Z.eqb_eq in E3; rewrite E3; split; [exact I|reflexivity]|].
  destruct (k =? tGoToLabel) eqn:E4; [apply Z.eqb_eq in E4; rewrite E4; split; [exact I|reflexivity]|].
  destruct (tk_value t'); try (split; [exact I|reflexivity]);
  match goal with |- context [if ?x then _ else _] => destruct x eqn:E5 end; try (split; [exact I|reflexivity]);
  apply Z.eqb_eq in E5; rewrite E5; split; [exact I|reflexivity| exact I|reflexivity | exact I|reflexivity] || (split; [exact I|reflexivity]).
Qed.
Lemma lexes_nk code t l : lexes code t l -> nk (tk_prevDot t) (map (fun x => tk_of (fst x) (snd x)) l).
Proof.
  induction 1 as [|t k t' l H Hk Hl IH]; [exact I|]. destruct (Next_names _ _ _ _ H) as [H1 H2]. split; [exact H1|].
  cbn [fst snd]. rewrite <- H2. exact IH.
Qed.
Lemma tokens_nk code l : tokens code l -> nk false l.
Proof. intros (raw & H & ->). exact (lexes_nk _ _ _ H). Qed.

(** * Trees of expressions *)
Lemma made_all :
  (forall e rest, nk false (toks_expr e ++ rest) -> made false (mean_expr e) /\ nk false rest) /\
  (forall p rest, nk false (toks_path p ++ rest) -> (made false (mean_path p) /\ bare (mean_path p)) /\ nk false rest) /\
  (forall i pd rest, nk pd (toks_ident i ++ rest) -> (made pd (mean_ident i) /\ is_ident (mean_ident i) = true /\ bare (mean_ident i)) /\ nk false rest) /\
  (forall c rest, nk false (toks_new c ++ rest) -> made false (mean_new c) /\ nk false rest) /\
  (forall a rest, nk false (toks_args a ++ rest) -> (mean_args a <> [] /\ Forall (fun x => x = SNil \/ made false x) (mean_args a)) /\ nk false rest) /\
  (forall o rest, nk false (toks_oexpr o ++ rest) -> (mean_oexpr o = SNil \/ made false (mean_oexpr o)) /\ nk false rest).
Proof.
  apply expr_all; intros;
  cbn [toks_expr toks_path toks_ident toks_new toks_args toks_oexpr mean_expr mean_path mean_ident mean_new mean_args mean_oexpr] in *;
  repeat (rewrite <- app_assoc in * || cbn [app] in *).
  all: repeat match goal with
  | H : nk _ (_ :: _) |- _ => let H1 := fresh in destruct H as [H1 H]; cbn [name_ok is_dot Z.eqb negb andb Pct unlit] in H, H1
  | IH : forall rest, nk false (?f ?e ++ rest) -> _, H : nk _ (?f ?e ++ _) |- _ => apply IH in H as [? H]
  | IH : forall pd rest, nk pd (?f ?e ++ rest) -> _, H : nk _ (?f ?e ++ _) |- _ => apply IH in H as [? H]
  end.
  all: repeat match goal with H : _ /\ _ |- _ => destruct H end.
  all: try (split; [|assumption]).
  all: try solve [constructor; auto | apply made_mark_minus; assumption | apply made_mark_not; assumption | assumption].
  - replace ((bop_tok o =? 46) && true) with false in * by (destruct o; reflexivity). apply H0 in H1 as [? ?]. split; [|assumption].
    constructor; auto. destruct o; discriminate.
  - split; [constructor; auto|reflexivity].
  - repeat split. constructor; auto.
  - repeat split. apply md_call; auto.
  - repeat split. apply md_item; auto.
  - repeat split. apply md_exec; auto. constructor.
  - repeat split. apply md_exec; auto. constructor; auto.
  - repeat split. apply md_exec; auto.
  - split; [discriminate|]. constructor; auto.
  - split; [destruct (mean_args l); discriminate|]. apply Forall_app. auto.
Qed.
