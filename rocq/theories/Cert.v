(** The automaton of y.go: its actions as a function of state and token, and the
    facts about its tables that the proofs use.  The facts are decided by
    computation over the tables (212 states, 67 tokens, 112 productions). *)
From Verif Require Import Bytes Utf8 Float64 GoTime Ast Lexer Tables Parser Grammar CertData.

(** * Tables as functions *)
Definition at_ (l : list Z) (i : Z) : Z := nth (Z.to_nat i) l 0.

Lemma tab_at l i : 0 <= i < Z.of_nat (length l) -> tab l i = Ok (at_ l i).
Proof.
  intros H. unfold tab, at_. destruct (i <? 0) eqn:E; [lia|].
  destruct (nth_error l (Z.to_nat i)) eqn:E2.
  - f_equal. symmetry. apply nth_error_nth with (d := 0) in E2. exact E2.
  - apply nth_error_None in E2. lia.
Qed.

Definition n_states : Z := 212.
Definition n_tokens : Z := 67.
Definition state (s : Z) : Prop := 0 <= s < n_states.
Definition tokno (k : Z) : Prop := 1 <= k <= n_tokens.

Definition seqZ (a n : Z) : list Z := map (fun i => a + Z.of_nat i) (seq 0 (Z.to_nat n)).
Lemma in_seqZ a n i : a <= i < a + n -> In i (seqZ a n).
Proof.
  intros H. unfold seqZ. apply in_map_iff. exists (Z.to_nat (i - a)). split; [lia|].
  apply in_seq. lia.
Qed.
Lemma seqZ_in a n i : In i (seqZ a n) -> a <= i < a + n.
Proof.
  unfold seqZ. rewrite in_map_iff. intros (j & <- & H). apply in_seq in H. lia.
Qed.
Definition states : list Z := seqZ 0 n_states.
Definition toknos : list Z := seqZ 1 n_tokens.
Lemma forall_states (f : Z -> bool) : forallb f states = true -> forall s, state s -> f s = true.
Proof. intros H s Hs. rewrite forallb_forall in H. apply H. apply in_seqZ. unfold state in Hs. lia. Qed.
Lemma forall_toknos (f : Z -> bool) : forallb f toknos = true -> forall s, tokno s -> f s = true.
Proof. intros H s Hs. rewrite forallb_forall in H. apply H. apply in_seqZ. unfold tokno in Hs. lia. Qed.

(** The symbol on whose shift the state is entered: positive for a token, negative
    for a nonterminal. *)
Definition chk (s : Z) : Z := at_ yyChk s.

Inductive action := Shift (q : Z) | Reduce (r : Z) | Accept | Fail.

(** The default part: y.go:619-645. *)
Definition default (s tok : Z) : action :=
  let d := at_ yyDef s in
  if d =? -2 then
    match exca_find yyExca s with
    | Some l => match exca_scan l tok with
                | Some y => if y <? 0 then Accept else if y =? 0 then Fail else Reduce y
                | None => Fail
                end
    | None => Fail
    end
  else if d =? 0 then Fail else Reduce d.
Definition shift_of (s tok : Z) : option Z :=
  let n := at_ yyPact s in
  if n <=? yyFlag then None
  else let k := n + tok in
       if (k <? 0) || (yyLast <=? k) then None
       else let q := at_ yyAct k in if chk q =? tok then Some q else None.
Definition action_of (s tok : Z) : action :=
  match shift_of s tok with Some q => Shift q | None => default s tok end.
(** States that reduce without looking at the next token. *)
Definition simple (s : Z) : bool := (at_ yyPact s <=? yyFlag) && negb (at_ yyDef s =? -2).
Definition goto (s n : Z) : Z :=
  let g := at_ yyPgo n in
  let j := g + s + 1 in
  if yyLast <=? j then at_ yyAct g
  else let q := at_ yyAct j in if chk q =? - n then q else at_ yyAct g.

(** * Symbols and productions *)
Definition nonterms : list nonterm :=
  [ n_body; n_opt_body; n_stmt; n_stmt_loop; n_funcProc; n_stmt_if; n_opt_elseif_list; n_opt_else;
    n_opt_stmt; n_exprs; n_expr; n_opt_export; n_opt_directive; n_simple_expr;
    n_declarations_method_params; n_declarations_method_param; n_opt_expr; n_execute_param;
    n_through_dot; n_loopExp; n_new_object; n_ternary; n_opt_explicit_variables;
    n_explicit_variables; n_identifiers; n_stmt_tryCatch; n_identifier; n_goToLabel; n_separator;
    n_semicolon; n_colon; n_global_variables; n_comma; n_module; n_main_items; n_main;
    n_mid_function; n_mid_for_each; n_mid_for; n_mid_while; n_dot; n_mid_catch ].
(** Number of a nonterminal in yyR1 / yyPgo: its position, counted from 1. *)
Definition nt_no (n : nonterm) : Z :=
  match n with
  | n_body => 1 | n_opt_body => 2 | n_stmt => 3 | n_stmt_loop => 4 | n_funcProc => 5
  | n_stmt_if => 6 | n_opt_elseif_list => 7 | n_opt_else => 8 | n_opt_stmt => 9 | n_exprs => 10
  | n_expr => 11 | n_opt_export => 12 | n_opt_directive => 13 | n_simple_expr => 14
  | n_declarations_method_params => 15 | n_declarations_method_param => 16 | n_opt_expr => 17
  | n_execute_param => 18 | n_through_dot => 19 | n_loopExp => 20 | n_new_object => 21
  | n_ternary => 22 | n_opt_explicit_variables => 23 | n_explicit_variables => 24
  | n_identifiers => 25 | n_stmt_tryCatch => 26 | n_identifier => 27 | n_goToLabel => 28
  | n_separator => 29 | n_semicolon => 30 | n_colon => 31 | n_global_variables => 32
  | n_comma => 33 | n_module => 34 | n_main_items => 35 | n_main => 36 | n_mid_function => 37
  | n_mid_for_each => 38 | n_mid_for => 39 | n_mid_while => 40 | n_dot => 41 | n_mid_catch => 42
  end.
Lemma nt_no_inj a b : nt_no a = nt_no b -> a = b.
Proof. destruct a, b; simpl; intros H; solve [reflexivity | discriminate H]. Qed.

Definition tokno_of (c : Z) : Z := match tok_of_char c with Ok k => k | Panic _ => 0 end.
Definition sym_no (x : sym) : Z := match x with T c => tokno_of c | N n => - nt_no n end.

Definition prod (r : Z) : nonterm * list sym := nth (Z.to_nat (r - 1)) productions (n_module, []).
Definition lhs (r : Z) : nonterm := fst (prod r).
Definition rhs (r : Z) : list sym := snd (prod r).
Definition n_prods : Z := 112.
Definition prodno (r : Z) : Prop := 1 <= r <= n_prods.
Lemma prod_in r : prodno r -> In (lhs r, rhs r) productions.
Proof.
  intros H. unfold lhs, rhs. rewrite <- surjective_pairing. apply nth_In.
  change (length productions) with 112%nat. unfold prodno, n_prods in H. lia.
Qed.

(** * Facts decided by computation *)
Definition prods := seqZ 1 n_prods.
(** yyR1 and yyR2 are the left-hand sides and lengths of the productions. *)
Lemma prods_ok : forall r, prodno r ->
  at_ yyR1 r = nt_no (lhs r) /\ at_ yyR2 r = Z.of_nat (length (rhs r)).
Proof.
  assert (H : forallb (fun r => (at_ yyR1 r =? nt_no (lhs r)) &&
     (at_ yyR2 r =? Z.of_nat (length (rhs r)))) prods = true) by (vm_compute; reflexivity).
  intros r Hr. rewrite forallb_forall in H.
  specialize (H r). rewrite andb_true_iff, !Z.eqb_eq in H. apply H. apply in_seqZ. unfold prodno in Hr. lia.
Qed.

Lemma act_range i : state (at_ yyAct i).
Proof.
  unfold at_. destruct (nth_in_or_default (Z.to_nat i) yyAct 0) as [H| ->]; [|unfold state, n_states; lia].
  assert (E : forallb (fun q => (0 <=? q) && (q <? n_states)) yyAct = true) by (vm_compute; reflexivity).
  rewrite forallb_forall in E. apply E in H. unfold state. lia.
Qed.
Lemma act_tab i : 0 <= i < yyLast -> tab yyAct i = Ok (at_ yyAct i).
Proof. intros H. apply tab_at. exact H. Qed.
Lemma chk_tab s : state s -> tab yyChk s = Ok (chk s).
Proof. intros H. apply tab_at. exact H. Qed.
Lemma pact_tab s : state s -> tab yyPact s = Ok (at_ yyPact s).
Proof. intros H. apply tab_at. exact H. Qed.
Lemma def_tab s : state s -> tab yyDef s = Ok (at_ yyDef s).
Proof. intros H. apply tab_at. exact H. Qed.

Lemma goto_goto s n : state s -> 1 <= n <= 42 -> goto_ s n = Ok (goto s n).
Proof.
  intros Hs Hn. unfold goto_, goto.
  rewrite tab_at by (change (Z.of_nat (length yyPgo)) with 43; lia). cbn [bind].
  assert (Hg : 0 <= at_ yyPgo n < yyLast).
  { assert (E : forallb (fun n => (0 <=? at_ yyPgo n) && (at_ yyPgo n <? yyLast)) (seqZ 1 42) = true)
      by (vm_compute; reflexivity).
    rewrite forallb_forall in E. specialize (E n (in_seqZ 1 42 n ltac:(lia))). lia. }
  unfold state in Hs. destruct (yyLast <=? at_ yyPgo n + s + 1) eqn:E; [apply act_tab; lia|].
  rewrite act_tab by lia. cbn [bind]. rewrite chk_tab by apply act_range. cbn [bind].
  destruct (chk _ =? _); [reflexivity | apply act_tab; lia].
Qed.
Lemma goto_range s n : state (goto s n).
Proof.
  unfold goto. destruct (_ <=? _); [apply act_range|]. destruct (_ =? _); apply act_range.
Qed.

(** Every character code has a token number. *)
Lemma tokno_range c : exists k, tok_of_char c = Ok k /\ tokno k.
Proof.
  assert (H1 : forallb (fun k => (1 <=? k) && (k <=? n_tokens)) yyTok1 = true) by (vm_compute; reflexivity).
  assert (H2 : forallb (fun k => (1 <=? k) && (k <=? n_tokens)) yyTok2 = true) by (vm_compute; reflexivity).
  rewrite forallb_forall in H1, H2.
  assert (HA : forall i, 0 <= i < Z.of_nat (length yyTok1) -> tokno (at_ yyTok1 i)).
  { intros i Hi. unfold at_, tokno. assert (H : In (nth (Z.to_nat i) yyTok1 0) yyTok1) by (apply nth_In; lia).
    apply H1 in H. lia. }
  assert (HB : forall i, 0 <= i < Z.of_nat (length yyTok2) -> tokno (at_ yyTok2 i)).
  { intros i Hi. unfold at_, tokno. assert (H : In (nth (Z.to_nat i) yyTok2 0) yyTok2) by (apply nth_In; lia).
    apply H2 in H. lia. }
  unfold tok_of_char.
  set (b := if c <=? 0 then _ else _).
  assert (Hb : exists k, b = Ok k /\ (k = 0 \/ tokno k)).
  { subst b. destruct (c <=? 0) eqn:E0.
    - exists (at_ yyTok1 0). split; [apply tab_at; vm_compute; split; congruence|]. right. apply HA. vm_compute. split; congruence.
    - destruct (c <? Z.of_nat (length yyTok1)) eqn:E1.
      + exists (at_ yyTok1 c). split; [apply tab_at; lia|]. right. apply HA. lia.
      + destruct (_ && _) eqn:E2; [|exists 0; auto].
        rewrite andb_true_iff in E2.
        exists (at_ yyTok2 (c - yyPrivate)). split; [apply tab_at; lia|]. right. apply HB. lia. }
  destruct Hb as (k & -> & [->|Hk]); cbn [bind].
  - exists (at_ yyTok2 1). split; [reflexivity|]. apply HB. vm_compute. split; congruence.
  - exists k. destruct (k =? 0) eqn:E; [unfold tokno in Hk; lia | auto].
Qed.
Lemma tokno_of_range c : tokno (tokno_of c) /\ tok_of_char c = Ok (tokno_of c).
Proof. unfold tokno_of. destruct (tokno_range c) as (k & -> & H). auto. Qed.
(** The end of the text is token 1, and nothing else is. *)
Lemma tokno_end c : tokno_of c = 1 <-> c <= 0.
Proof.
  split.
  - intros H. destruct (Z.le_gt_cases c 0) as [|Hc]; [assumption|exfalso]. revert H.
    assert (H1 : forallb (fun c => negb (tokno_of c =? 1)) (seqZ 1 93) = true) by (vm_compute; reflexivity).
    assert (H2 : forallb (fun c => negb (tokno_of c =? 1)) (seqZ yyPrivate 50) = true) by (vm_compute; reflexivity).
    rewrite forallb_forall in H1, H2.
    destruct (Z.lt_ge_cases c 94) as [H|H].
    { specialize (H1 c (in_seqZ 1 93 c ltac:(lia))). lia. }
    destruct ((yyPrivate <=? c) && (c <? yyPrivate + 50)) eqn:E.
    { rewrite andb_true_iff in E. specialize (H2 c (in_seqZ yyPrivate 50 c ltac:(lia))). lia. }
    unfold tokno_of, tok_of_char. destruct (c <=? 0) eqn:E0; [lia|].
    change (Z.of_nat (length yyTok1)) with 94. destruct (c <? 94) eqn:E1; [lia|].
    change (Z.of_nat (length yyTok2)) with 50. rewrite E. cbn [bind]. vm_compute. discriminate.
  - intros H. unfold tokno_of, tok_of_char. destruct (c <=? 0) eqn:E0; [reflexivity|lia].
Qed.

(** * Paths of the automaton *)
Definition pred (s : Z) : list Z := nth (Z.to_nat s) preds [].
Definition height (s : Z) : Z := at_ heights s.
Definition zmem (x : Z) (l : list Z) : bool := existsb (Z.eqb x) l.
Lemma zmem_in x l : zmem x l = true <-> In x l.
Proof.
  unfold zmem. rewrite existsb_exists. split.
  - intros (y & H1 & H2). apply Z.eqb_eq in H2. congruence.
  - intros H. exists x. split; [exact H | apply Z.eqb_refl].
Qed.

(** States of a stack, top first. *)
Inductive path : list Z -> Prop :=
| path_0 : path [0]
| path_s q s l : In s (pred q) -> path (s :: l) -> path (q :: s :: l).

Definition union (l : list Z) : list Z := nodup Z.eq_dec (flat_map pred l).
(** The states under a stack whose top is one of [cur] after popping symbols [xs]
    (top first); [None] if a popped state does not carry its symbol. *)
Fixpoint back (cur : list Z) (xs : list Z) : option (list Z) :=
  match xs with
  | [] => Some cur
  | x :: xs' => if forallb (fun c => chk c =? x) cur then back (union cur) xs' else None
  end.

Definition weight (x : Z) : Z := if 0 <? x then 2 else 0.
Fixpoint weights (l : list Z) : Z := match l with [] => 0 | x :: l' => weight x + weights l' end.

Definition edge_ok (s q : Z) : bool := (0 <=? q) && (q <? n_states) && zmem s (pred q).
(** The check for a reduction by [r] in state [s]. *)
Definition reduce_ok (s r : Z) : bool :=
  (1 <=? r) && (r <=? n_prods) &&
  match back [s] (rev (map sym_no (rhs r))) with
  | None => false
  | Some bs =>
    forallb (fun b => let q := goto b (nt_no (lhs r)) in
       edge_ok b q && (chk q =? - nt_no (lhs r)) &&
       (height q + 1 <=? height s + weights (map sym_no (rhs r)))) bs
  end.
Definition shift_ok (s k : Z) : bool :=
  match shift_of s k with
  | Some q => edge_ok s q && (chk q =? k) && (height q + weight k + 1 <=? height s + 10)
  | None => true
  end.
Definition default_ok (s k : Z) : bool :=
  match default s k with Reduce r => reduce_ok s r | _ => true end.
Definition defined (s k : Z) : bool :=
  negb (at_ yyDef s =? -2) ||
  match exca_find yyExca s with
  | Some l => match exca_scan l k with Some _ => true | None => false end
  | None => false
  end.
Definition check (s : Z) : bool :=
  (-2 <=? at_ yyDef s) && negb (at_ yyDef s =? -1) &&
  (* no state shifts the token "error" *)
  match shift_of s yyErrCode with Some _ => false | None => true end &&
  forallb (shift_ok s) toknos &&
  (if at_ yyDef s =? -2 then forallb (default_ok s) toknos && forallb (defined s) toknos
   else default_ok s 1).

Lemma tables_checked : forallb check states = true.
Proof. vm_compute. reflexivity. Qed.
Lemma checked s : state s ->
  (at_ yyDef s = -2 \/ 0 <= at_ yyDef s) /\ shift_of s yyErrCode = None /\
  forall k, tokno k -> shift_ok s k = true /\ default_ok s k = true /\ defined s k = true.
Proof.
  intros Hs. pose proof (forall_states _ tables_checked s Hs) as H. unfold check in H.
  rewrite !andb_true_iff in H. destruct H as ((((H1 & H2) & H3) & H4) & H5).
  split; [|split]. { lia. } { destruct (shift_of s yyErrCode); [discriminate|reflexivity]. }
  intros k Hk. split; [exact (forall_toknos _ H4 k Hk)|].
  unfold default_ok, default, defined in *. destruct (at_ yyDef s =? -2).
  - rewrite andb_true_iff in H5. destruct H5 as [H5 H6].
    split; [exact (forall_toknos _ H5 k Hk) | exact (forall_toknos _ H6 k Hk)].
  - split; [exact H5 | reflexivity].
Qed.
Lemma bottom_label : chk 0 = -1000. Proof. reflexivity. Qed.
