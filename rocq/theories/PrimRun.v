(** A fault behind a complete program (C74): the run on the program alone and the run on the program with the fault go in step. *)
From Verif Require Import Bytes Utf8 Float64 GoTime Ast Lexer LexFacts Utf8Facts LexSpec LexProofs LexTrivia LexTokens LexReject NumSpec NumTokens Tables Parser Grammar Tok CertData Cert Driver DriverInv Trees Machine
  Levels Bind Items Complete TightOk ViableData Viable Blame Told Writes Lexical Scanned Where Placed Alike Lockstep Faults FaultFacts Reached Same Pieces PiecesRun Properties_Pieces BeyondRun.
From Verif Require Import Lexical Where Tok.
Open Scope Z_scope.

(** * A node that has an error from the start *)
Section Prim.
Context (e : lexerr).
(** No error and lexical errors become the lexical error [e]. *)
Definition prim (a : astnode) : astnode := match a_err a with Some (EParse _ _ _ _) => a | _ => set_err a (ELex e) end.
Definition primr (x : res astnode) : res astnode := match x with Ok a => Ok (prim a) | Panic q => Panic q end.
Definition primv (x : res (slot * astnode)) : res (slot * astnode) := match x with Ok (v, a) => Ok (v, prim a) | Panic q => Panic q end.
Definition primp (p : pst) : pst := Pst (p_stk p) (p_above p) (p_state p) (p_lval p) (p_char p) (p_tok p) (prim (p_ast p)).
Definition prims (x : sres) : sres := match x with Next_ p => Next_ (primp p) | Done n a => Done n (prim a) | Crash q => Crash q end.
Lemma prim_err a m l c x : prim (set_err a (EParse m l c x)) = set_err (prim a) (EParse m l c x).
Proof. destruct a as [[[y|? ? ? ?]|] ? ? ? ? ? ?]; reflexivity. Qed.
Lemma prim_code a : a_code (prim a) = a_code a. Proof. destruct a as [[[y|? ? ? ?]|] ? ? ? ? ? ?]; reflexivity. Qed.
Lemma prim_mod a : a_module (prim a) = a_module a. Proof. destruct a as [[[y|? ? ? ?]|] ? ? ? ? ? ?]; reflexivity. Qed.
Lemma prim_cur a : a_cur (prim a) = a_cur a. Proof. destruct a as [[[y|? ? ? ?]|] ? ? ? ? ? ?]; reflexivity. Qed.
Lemma prim_loop a : a_isLoop (prim a) = a_isLoop a. Proof. destruct a as [[[y|? ? ? ?]|] ? ? ? ? ? ?]; reflexivity. Qed.
Lemma prim_try a : a_isTry (prim a) = a_isTry a. Proof. destruct a as [[[y|? ? ? ?]|] ? ? ? ? ? ?]; reflexivity. Qed.
Lemma prim_fun a : a_isFunction (prim a) = a_isFunction a. Proof. destruct a as [[[y|? ? ? ?]|] ? ? ? ? ? ?]; reflexivity. Qed.
Lemma prim_set_module a m : set_module (prim a) m = prim (set_module a m). Proof. destruct a as [[[y|? ? ? ?]|] ? ? ? ? ? ?]; reflexivity. Qed.
Lemma prim_set_cur a t : set_cur (prim a) t = prim (set_cur a t). Proof. destruct a as [[[y|? ? ? ?]|] ? ? ? ? ? ?]; reflexivity. Qed.
Lemma prim_add_loop a n : add_loop (prim a) n = prim (add_loop a n). Proof. destruct a as [[[y|? ? ? ?]|] ? ? ? ? ? ?]; reflexivity. Qed.
Lemma prim_add_try a n : add_try (prim a) n = prim (add_try a n). Proof. destruct a as [[[y|? ? ? ?]|] ? ? ? ? ? ?]; reflexivity. Qed.
Lemma prim_set_function a b : set_function (prim a) b = prim (set_function a b). Proof. destruct a as [[[y|? ? ? ?]|] ? ? ? ? ? ?]; reflexivity. Qed.
Lemma prim_Error a m : Error (prim a) m = primr (Error a m).
Proof. unfold Error. rewrite prim_cur, prim_code. destruct (tk_ast _); [|reflexivity]. cbn [primr]. rewrite prim_err. reflexivity. Qed.
Lemma prim_bind x f g : (forall a, f (prim a) = primr (g a)) -> bind (primr x) f = primr (bind x g).
Proof. destruct x; cbn; auto. Qed.
Lemma prim_bindv x f g : (forall a, f (prim a) = primv (g a)) -> bind (primr x) f = primv (bind x g).
Proof. destruct x; cbn; auto. Qed.
Lemma prim_gvar v a : append_gvar v (prim a) = primr (append_gvar v a).
Proof.
  unfold append_gvar. rewrite prim_mod. destruct (negb _); [apply prim_Error|]. rewrite !prim_set_module. destruct (Parser.mem _ _); [apply prim_Error|reflexivity].
Qed.
Lemma prim_gvars vs : forall a, append_gvars vs (prim a) = primr (append_gvars vs a).
Proof. induction vs as [|v vs IH]; intros a; cbn [append_gvars]; [reflexivity|]. rewrite prim_gvar. apply prim_bind, IH. Qed.
Lemma prim_stmts b a : append_stmts b (prim a) = primr (append_stmts b a).
Proof. unfold append_stmts. rewrite prim_mod, prim_set_module. reflexivity. Qed.
Lemma prim_func f a : append_func f (prim a) = primr (append_func f a).
Proof. unfold append_func. rewrite prim_mod. destruct (_ && _); [apply prim_Error|]. rewrite prim_set_module. reflexivity. Qed.
Lemma prim_loopop u a : checkLoopOperator u (prim a) = primr (checkLoopOperator u a).
Proof. unfold checkLoopOperator. rewrite prim_loop. destruct (_ =? 0); [apply prim_Error|reflexivity]. Qed.
Lemma prim_throw u s a : checkThrowParam u s (prim a) = primr (checkThrowParam u s a).
Proof. unfold checkThrowParam. rewrite prim_try. destruct (_ && _); [apply prim_Error|reflexivity]. Qed.
Lemma prim_return s a : checkReturnParam s (prim a) = primr (checkReturnParam s a).
Proof. unfold checkReturnParam. rewrite prim_fun. destruct (_ && _); [apply prim_Error|reflexivity]. Qed.

Lemma prim_act r d v a : prodno r -> act r d v (prim a) = primv (act r d v a).
Proof.
  intros Hr. all_prods r Hr; cbn [act]; try reflexivity.
  all: rewrite ?prim_stmts, ?prim_gvars, ?prim_func, ?prim_loopop, ?prim_throw, ?prim_return, ?prim_set_function, ?prim_add_loop, ?prim_add_try, ?prim_Error; try reflexivity.
  all: try (apply prim_bindv; intros; reflexivity).
  - destruct (_ && _); [apply (prim_bindv (Error a MSemicolon)); reflexivity|reflexivity].
  - destruct (appendVars _ _) as [[m [n|]]|]; cbn [bind]; [|reflexivity|reflexivity]. rewrite prim_Error. apply prim_bindv. reflexivity.
  - destruct (appendVars _ _) as [[m [n|]]|]; cbn [bind]; [|reflexivity|reflexivity]. rewrite prim_Error. apply prim_bindv. reflexivity.
  - destruct (v_param v) as [[? ?] ?]. reflexivity.
Qed.
Lemma prim_reduce p r : prodno r -> reduce (primp p) r = prims (reduce p r).
Proof.
  intros Hr. unfold reduce. destruct (tab yyR2 r) as [n|]; cbn [sbind]; [|reflexivity]. change (p_stk (primp p)) with (p_stk p). change (p_above (primp p)) with (p_above p).
  destruct (pop _ _ _) as [[[|base stk] above]|]; [reflexivity| |reflexivity]. destruct (tab yyR1 r) as [r1|]; cbn [sbind]; [|reflexivity]. destruct (goto_ _ _) as [st|]; cbn [sbind]; [|reflexivity].
  change (p_ast (primp p)) with (prim (p_ast p)). rewrite prim_act by exact Hr. destruct (act r _ _ (p_ast p)) as [[v b]|]; reflexivity.
Qed.
Lemma prim_fail a : fail (prim a) = prims (fail a).
Proof. unfold fail. rewrite prim_Error. destruct (Error a MSyntax); reflexivity. Qed.
Lemma prim_shift p st : primp (shift p st) = shift (primp p) st.
Proof. reflexivity. Qed.
Lemma prim_none a : a_err (prim a) <> None.
Proof. unfold prim. destruct (a_err a) as [[|]|] eqn:E; cbn [set_err a_err]; congruence. Qed.
Lemma prim_inv p : inv p -> inv (primp p).
Proof.
  intros []. constructor; cbn [primp p_stk p_above p_state p_lval p_char p_tok p_ast]; rewrite ?prim_code, ?prim_cur; auto.
  eapply vars_ok_mono; [|eassumption]. intros _. apply prim_none.
Qed.
End Prim.

(** An error that is there stays. *)
Lemma prim_some a : a_err a <> None -> exists e, prim e a = a.
Proof. destruct a as [[[y|m l c x]|] ? ? ? ? ? ?]; cbn [a_err]; intros H; [exists y; reflexivity|exists LEof; reflexivity|congruence]. Qed.
Lemma reduce_some p r p' : prodno r -> a_err (p_ast p) <> None -> reduce p r = Next_ p' -> a_err (p_ast p') <> None.
Proof.
  intros Hr H E. destruct (prim_some _ H) as (e & X). assert (Y : primp e p = p) by (unfold primp; rewrite X; destruct p; reflexivity).
  pose proof (prim_reduce e p r Hr) as Z. rewrite Y, E in Z. cbn [prims] in Z. injection Z as Z. rewrite Z. apply prim_none.
Qed.
Lemma look_some p : a_err (p_ast p) <> None -> a_err (p_ast (look p)) <> None.
Proof.
  intros H. unfold look. destruct (p_char p <? 0); [|exact H]. unfold Lex. destruct (a_code _) as [|b c]; [exact H|]. destruct (Next _ _) as [[k u] [x|]]; [discriminate|]. destruct (k =? EOF); exact H.
Qed.
Lemma look2_some p : a_err (p_ast p) <> None -> a_err (p_ast (look2 p)) <> None.
Proof.
  intros H. assert (H1 : a_err (p_ast (look1 p)) <> None) by (unfold look1; destruct (_ <=? _); [exact H|apply look_some, H]). unfold look2. destruct (_ =? -2); [apply look_some|]; exact H1.
Qed.
Lemma step_some p : inv p -> a_err (p_ast p) <> None -> match step p with Next_ p' => a_err (p_ast p') <> None | Done _ a => a_err a <> None | Crash _ => True end.
Proof.
  intros Hi H. destruct (inv_states _ Hi) as [Hs Hst]. rewrite (step_eq p Hs Hst (inv_tokno _ Hi)). destruct (shift_of _ _) as [st|]; [exact (look_some _ H)|]. pose proof (look2_some _ H) as H2.
  destruct (default _ _) as [x|r| |] eqn:Ed; cbn [do_default]; [| |exact H2|].
  2: { pose proof (reduce_goes (look2 p) r) as G. destruct (reduce (look2 p) r) as [p'| |] eqn:Er; [|contradiction|exact I]. eapply reduce_some; [apply (Reached.default_reduce p r Hi Ed)|exact H2|exact Er]. }
  all: unfold fail; destruct (Error _ _) as [a'|] eqn:Ee; cbn [sbind]; [|exact I]; apply Error_loc in Ee as [-> _]; discriminate.
Qed.
Lemma run_some f : forall p n a, inv p -> a_err (p_ast p) <> None -> run f p = Some (Ok (n, a)) -> a_err a <> None.
Proof.
  induction f as [|f IH]; intros p n a Hi He; cbn [run]; [discriminate|]. pose proof (step_inv p Hi) as Si. pose proof (step_some p Hi He) as X.
  destruct (step p) as [p'|m b|]; [|intros [= <- <-]; exact X|discriminate]. apply IH; [apply Si|exact X].
Qed.

(** * How often the scanner is at the end of the text *)
Definition ends (p : pst) : nat := if p_char p <? 0 then (if fst (fst (Lex (p_ast p) (v_token (p_lval p)))) =? EOF then 1%nat else 0%nat) else 0%nat.
Definition ends1 (p : pst) : nat := if at_ yyPact (p_state p) <=? yyFlag then 0%nat else ends p.
Definition ends2 (p : pst) : nat := (ends1 p + (if (at_ yyDef (p_state p) =? -2)%Z then ends (look1 p) else 0))%nat.
Fixpoint count (f : nat) (p : pst) : nat :=
  match f with
  | O => 0%nat
  | S f => (ends2 p + match step p with Next_ p' => count f p' | _ => 0 end)%nat
  end.
Lemma count_enough f : forall f' p x, run f p = Some x -> (f <= f')%nat -> count f' p = count f p.
Proof.
  induction f as [|f IH]; intros [|f'] p x R L; [reflexivity|discriminate R|lia|]. cbn [run count] in *. destruct (step p); [|reflexivity|reflexivity]. rewrite (IH f' _ _ R) by lia. reflexivity.
Qed.

(** * The program alone and the program with faults behind it *)
Section Fault.
Context (c1 c2 : bytes) (toks : list tk) (es : list lexerr) (after : list piece) (e : lexerr) (Hne1 : c1 <> []) (Hne2 : c2 <> []).
Let shared : list piece := map (@Datatypes.inl tk lexerr) toks.
Let P := pair_of c1 c2 shared.
(** [j]: how often the end of the program has been read. *)
Definition TF (j : nat) (t1 t2 : token) : Prop :=
  (j = 0%nat /\ exists pre post, shared = pre ++ post /\ reading_to c1 pre (tk_prevDot t1) (rest_of c1 t1) /\ reading_to c2 pre (tk_prevDot t2) (rest_of c2 t2) /\
    pieces_of (tk_prevDot t1) (rest_of c1 t1) post /\ pieces_of (tk_prevDot t2) (rest_of c2 t2) (post ++ map (@Datatypes.inr tk lexerr) es ++ after)) \/
  (exists l1 l2, reading_to c1 l1 (tk_prevDot t1) (rest_of c1 t1) /\ reading_to c2 l2 (tk_prevDot t2) (rest_of c2 t2) /\
    pieces_of (tk_prevDot t1) (rest_of c1 t1) [] /\ pieces_of (tk_prevDot t2) (rest_of c2 t2) (map (@Datatypes.inr tk lexerr) (skipn j es) ++ after)).
(** The error after [j] times. *)
Definition told (j : nat) : option perr := match rev (firstn j es) with [] => None | x :: _ => Some (ELex x) end.
Lemma told_more j x fs : skipn j es = x :: fs -> told (S j) = Some (ELex x) /\ skipn (S j) es = fs.
Proof.
  intros H. assert (E : firstn (S j) es = firstn j es ++ [x] /\ skipn (S j) es = fs).
  { revert H. generalize es as l. induction j as [|j IH]; intros l H; [cbn [skipn] in H; subst l; auto|]. destruct l as [|y l]; [discriminate H|]. cbn [skipn] in H. destruct (IH _ H) as [A B].
    split; [change (firstn (S (S j)) (y :: l)) with (y :: firstn (S j) l); rewrite A; reflexivity|exact B]. }
  destruct E as [E1 E2]. split; [|exact E2]. unfold told. rewrite E1, rev_app_distr. reflexivity.
Qed.
Lemma told_all j : skipn j es = [] -> told (S j) = told j /\ skipn (S j) es = [].
Proof.
  intros H. assert (L : (length es <= j)%nat) by (pose proof (skipn_length j es) as Y; rewrite H in Y; cbn in Y; lia).
  split; [unfold told; rewrite !firstn_all2 by lia; reflexivity|]. apply skipn_all2. lia.
Qed.
Lemma AR_lex a1 a2 x : AR P c1 c2 (prim e a1) (prim e a2) -> a_err a1 = None -> AR P c1 c2 (prim e a1) (prim e (set_err a2 (ELex x))).
Proof.
  intros HA He. assert (E : prim e (set_err a2 (ELex x)) = set_err (prim e a2) (ELex e)) by (destruct a2 as [[[y|? ? ? ?]|] ? ? ? ? ? ?]; reflexivity). rewrite E.
  destruct HA. constructor; cbn [set_err a_code a_module a_isLoop a_isTry a_isFunction a_cur a_err]; auto. right. left. exists e. unfold prim. rewrite He. auto.
Qed.
(** What is behind the faults is not read, or there is nothing. *)
Definition far (j : nat) : Prop := after = [] \/ (j <= length es)%nat.
Lemma far_le i j : far j -> (i <= j)%nat -> far i.
Proof. intros [H|H] L; [left; exact H|right; lia]. Qed.
Definition one (k : Z) : nat := if k =? EOF then 1%nat else 0%nat.
Lemma Lex_fault j a1 a2 t1 t2 k1 u1 b1 k2 u2 b2 : AR P c1 c2 (prim e a1) (prim e a2) -> a_err a1 = None -> a_err a2 = told j -> TF j t1 t2 -> far (j + one k1) -> Lex a1 t1 = (k1, u1, b1) -> Lex a2 t2 = (k2, u2, b2) ->
  AR P c1 c2 (prim e b1) (prim e b2) /\ a_err b1 = None /\ a_err b2 = told (j + one k1) /\ TF (j + one k1) u1 u2 /\ k1 = k2 /\ (k1 <> EOF -> tk_of k1 u1 = tk_of k2 u2 /\ In k1 kinds).
Proof.
  intros HA He Hf HT HF. pose proof (ar_code1 _ _ _ _ _ HA) as D1. pose proof (ar_code2 _ _ _ _ _ HA) as D2. rewrite prim_code in D1, D2. rewrite (Lex_cons c1 a1 t1 D1 Hne1), (Lex_cons c2 a2 t2 D2 Hne2).
  destruct (Next c1 t1) as [[z1 v1] e1] eqn:N1, (Next c2 t2) as [[z2 v2] e2] eqn:N2.
  assert (Q : forall l1 l2, reading_to c1 l1 (tk_prevDot t1) (rest_of c1 t1) -> reading_to c2 l2 (tk_prevDot t2) (rest_of c2 t2) ->
    pieces_of (tk_prevDot t1) (rest_of c1 t1) [] -> pieces_of (tk_prevDot t2) (rest_of c2 t2) (map (@Datatypes.inr tk lexerr) (skipn j es) ++ after) ->
    match e1 with Some e0 => (EOF, v1, set_err a1 (ELex e0)) | None => if z1 =? EOF then (EOF, v1, a1) else (z1, v1, set_cur a1 v1) end = (k1, u1, b1) ->
    match e2 with Some e0 => (EOF, v2, set_err a2 (ELex e0)) | None => if z2 =? EOF then (EOF, v2, a2) else (z2, v2, set_cur a2 v2) end = (k2, u2, b2) ->
    AR P c1 c2 (prim e b1) (prim e b2) /\ a_err b1 = None /\ a_err b2 = told (j + one k1) /\ TF (j + one k1) u1 u2 /\ k1 = k2 /\ (k1 <> EOF -> tk_of k1 u1 = tk_of k2 u2 /\ In k1 kinds)).
  { intros l1 l2 R1 R2 P1 P2. pose proof (Next_piece _ _ _ _ _ _ _ R1 P1 N1) as C1. pose proof (Next_piece _ _ _ _ _ _ _ R2 P2 N2) as C2. cbn [hd_error tl came] in C1.
    destruct C1 as (-> & -> & A1 & A2). rewrite Z.eqb_refl. replace (j + one EOF)%nat with (S j) by (unfold one; rewrite Z.eqb_refl; lia).
    assert (G : one EOF = 1%nat) by (unfold one; rewrite Z.eqb_refl; reflexivity).
    destruct (skipn j es) as [|x fs] eqn:Es; cbn [map app hd_error tl came] in C2.
    - intros Z1. assert (Eb : after = []).
      { destruct HF as [HF|HF]; [exact HF|]. injection Z1 as <- _ _. rewrite G in HF. pose proof (skipn_length j es) as Y. rewrite Es in Y. cbn in Y. lia. }
      rewrite Eb in C2. cbn [hd_error tl came] in C2. revert Z1. destruct C2 as (-> & -> & A3 & A4). rewrite Z.eqb_refl. intros [= <- <- <-] [= <- <- <-]. rewrite G, Nat.add_1_r. destruct (told_all _ Es) as [T1 T2]. split; [exact HA|]. split; [exact He|]. split; [congruence|].
      split; [right; exists l1, l2; rewrite T2, Eb; auto|]. split; [reflexivity|]. congruence.
    - destruct C2 as (-> & A3 & A4). intros [= <- <- <-] [= <- <- <-]. rewrite G, Nat.add_1_r. destruct (told_more _ _ _ Es) as [T1 T2]. split; [apply AR_lex; assumption|]. split; [exact He|]. split; [rewrite T1; reflexivity|].
      split; [right; exists l1, (l2 ++ [Datatypes.inr x]); rewrite T2; auto|]. split; [reflexivity|]. congruence. }
  destruct HT as [(-> & pre & post & Ea & R1 & R2 & P1 & P2)|(l1 & l2 & R1 & R2 & P1 & P2)]; [|exact (Q _ _ R1 R2 P1 P2)].
  destruct post as [|[y|y] post]; [exact (Q _ _ R1 R2 P1 P2)| |];
    pose proof (Next_piece _ _ _ _ _ _ _ R1 P1 N1) as C1; pose proof (Next_piece _ _ _ _ _ _ _ R2 P2 N2) as C2; cbn [app hd_error tl came] in C1, C2.
  - destruct C1 as (-> & K1 & X1 & I1 & V1 & A1 & A2), C2 as (-> & K2 & X2 & I2 & V2 & A3 & A4). assert (K3 : (z1 =? EOF) = false) by (apply Z.eqb_neq; exact K1). rewrite K3. replace (z2 =? EOF) with false by (symmetry; apply Z.eqb_neq; exact K2).
    intros [= <- <- <-] [= <- <- <-]. replace (one z1) with 0%nat by (unfold one; rewrite K3; reflexivity). cbn [Nat.add].
    assert (E : z1 = z2) by (rewrite <- (tk_of_kind _ _ I1 V1), <- (tk_of_kind _ _ I2 V2); congruence).
    split; [|split; [exact He|split; [exact Hf|split; [left; split; [reflexivity|]; exists (pre ++ [Datatypes.inl y]), post; split; [rewrite <- app_assoc; exact Ea|auto]|split; [exact E|intros _; split; [congruence|exact I1]]]]]].
    rewrite <- !prim_set_cur. destruct HA, V1 as [V1 _], V2 as [V2 _]. constructor; cbn [set_cur a_code a_module a_isLoop a_isTry a_isFunction a_cur a_err]; auto; [congruence|].
    intros _. exists pre, y, post. split; [exact Ea|]. split; [exists t1, z1|exists t2, z2]; auto.
  - exfalso. assert (H : In (Datatypes.inr y) shared) by (rewrite Ea; apply in_or_app; right; left; reflexivity). apply in_map_iff in H as (k & H & _). discriminate H.
Qed.
Let PR j := PR c1 c2 P (TF j).
Record PE (j : nat) (p q : pst) : Prop := { pe_inv1 : inv p; pe_inv2 : inv q; pe_pr : PR j (primp e p) (primp e q); pe_err : a_err (p_ast p) = None; pe_told : a_err (p_ast q) = told j }.
Lemma look_f j p q : PE j p q -> far (j + ends p) -> PE (j + ends p) (look p) (look q).
Proof.
  intros [J1 J2 H He Hf] HF. destruct (look_inv _ J1) as [I1 _]. destruct (look_inv _ J2) as [I2 _]. pose proof (prim_inv e _ I1) as I3. pose proof (prim_inv e _ I2) as I4. revert I1 I2 I3 I4.
  pose proof (pr_char _ _ _ _ _ _ H) as Hch. cbn [primp p_char] in Hch.
  unfold look, ends in *. rewrite <- Hch. destruct (p_char p <? 0); [|intros _ _ _ _; rewrite Nat.add_0_r; constructor; assumption].
  destruct (Lex (p_ast p) (v_token (p_lval p))) as [[k1 u1] b1] eqn:E1, (Lex (p_ast q) (v_token (p_lval q))) as [[k2 u2] b2] eqn:E2. cbn [fst] in *.
  destruct (Lex_fault j _ _ _ _ _ _ _ _ _ _ (pr_ast _ _ _ _ _ _ H) He Hf (pr_scan _ _ _ _ _ _ H) HF E1 E2) as (HA & Hb & Hg & HT & <- & HK). intros I1 I2 I3 I4. fold (one k1). split; [exact I1|exact I2| |exact Hb|exact Hg]. destruct H.
  constructor; cbn [primp p_stk p_above p_state p_lval p_char p_tok p_ast set_token v_token] in *; auto. intros Hk. apply HK. unfold EOF. lia.
Qed.
Lemma pe_state j p q : PE j p q -> p_state p = p_state q.
Proof. intros H. exact (pr_state _ _ _ _ _ _ (pe_pr _ _ _ H)). Qed.
Lemma pe_tok j p q : PE j p q -> p_tok p = p_tok q.
Proof. intros H. exact (pr_tok _ _ _ _ _ _ (pe_pr _ _ _ H)). Qed.
Lemma look1_f j p q : PE j p q -> far (j + ends1 p) -> PE (j + ends1 p) (look1 p) (look1 q).
Proof. intros H. unfold look1, ends1. rewrite <- (pe_state _ _ _ H). destruct (_ <=? _); [rewrite Nat.add_0_r; intros _; exact H|apply look_f, H]. Qed.
Lemma look2_f j p q : PE j p q -> far (j + ends2 p) -> PE (j + ends2 p) (look2 p) (look2 q).
Proof.
  intros H HF. assert (HF1 : far (j + ends1 p)) by (eapply far_le; [exact HF|unfold ends2; lia]). pose proof (look1_f _ _ _ H HF1) as H1. unfold look2, ends2 in *. rewrite <- (pe_state _ _ _ H). destruct (_ =? -2); [rewrite Nat.add_assoc in *; apply look_f; assumption|rewrite Nat.add_0_r; exact H1].
Qed.
Lemma reduce_told p r p' : prodno r -> reduce p r = Next_ p' -> (forall m l c x, a_err (p_ast p') <> Some (EParse m l c x)) -> a_err (p_ast p') = a_err (p_ast p).
Proof.
  intros Hr. unfold reduce. destruct (tab yyR2 r) as [n|]; [|discriminate]. cbn [sbind].
  destruct (pop _ _ _) as [[stk' above']|]; [|discriminate]. destruct stk' as [|base stk']; [discriminate|].
  destruct (tab yyR1 r) as [r1|]; [|discriminate]. cbn [sbind]. destruct (goto_ _ _) as [q|]; [|discriminate]. cbn [sbind].
  destruct (act r _ _ _) as [[v' a']|] eqn:EA; [|discriminate]. cbn [sbind]. intros [= <-]. cbn [push p_ast]. intros N.
  destruct (act_step _ _ _ _ _ _ Hr EA) as [S1|(m & M1 & M2)]; [exact S1|]. rewrite M2 in N. unfold loc in N. destruct (N _ _ _ _ eq_refl).
Qed.
Lemma told_here a b : AR P c1 c2 (prim e a) (prim e b) -> a_err a = None -> forall m l c x, a_err b <> Some (EParse m l c x).
Proof.
  intros HA Ha m l c x Eb. pose proof (ar_err _ _ _ _ _ HA) as E. unfold prim in E. rewrite Ha, Eb in E. cbn [set_err a_err] in E. rewrite Eb in E.
  destruct E as [[E _]|[(y & E1 & E2)|(m1 & m2 & t1 & t2 & _ & _ & E & _)]]; [discriminate E|discriminate E2|discriminate E].
Qed.
(** One step of both runs, if the first ends without an error. *)
Definition SE (j : nat) (x y : sres) : Prop :=
  match x, y with
  | Next_ p, Next_ q => a_err (p_ast p) = None -> PE j p q
  | Done n a, Done m b => a_err a = None -> AR P c1 c2 (prim e a) (prim e b) /\ a_err b = told j
  | Crash u, Crash v => u = v
  | _, _ => False
  end.
Lemma step_f j p q : PE j p q -> far (j + ends2 p) -> SE (j + ends2 p) (step p) (step q).
Proof.
  intros H HF. pose proof (pe_inv1 _ _ _ H) as I1. pose proof (pe_inv2 _ _ _ H) as I2. destruct (inv_states _ I1) as [Hs1 Hst1]. destruct (inv_states _ I2) as [Hs2 Hst2].
  pose proof (step_inv _ I1) as S1. pose proof (step_inv _ I2) as S2. assert (HF1 : far (j + ends1 p)) by (eapply far_le; [exact HF|unfold ends2; lia]). pose proof (look1_f _ _ _ H HF1) as HL1. pose proof (look2_f _ _ _ H HF) as HL2.
  rewrite (step_eq p Hs1 Hst1 (inv_tokno _ I1)), (step_eq q Hs2 Hst2 (inv_tokno _ I2)), <- (pe_state _ _ _ H), <- (pe_tok _ _ _ HL1), <- (pe_tok _ _ _ HL2) in *.
  destruct (shift_of (p_state p) (p_tok (look1 p))) as [st|] eqn:Eq.
  - destruct (shift_looked p st I1 Eq) as [L1 L2].
    assert (En : ends2 p = ends p).
    { unfold ends2, ends1. rewrite (shift_flag _ _ _ Eq). destruct (_ =? -2); [|lia]. rewrite (shift_look1 _ _ Eq). unfold ends at 2. destruct (p_char (look p) <? 0) eqn:Ec; [lia|]. lia. }
    rewrite En in *. pose proof (look_f _ _ _ H HF) as HL0. cbn [SE step_ok] in *. intros Hn. constructor; [apply S1|apply S2| |exact Hn|exact (pe_told _ _ _ HL0)]. rewrite !prim_shift.
    pose proof (prim_inv e _ (proj1 S1)) as J1. pose proof (prim_inv e _ (proj1 S2)) as J2. rewrite prim_shift in J1, J2.
    pose proof (pe_pr _ _ _ HL0) as HL. pose proof (shift_cell _ _ _ _ _ _ st HL L1 L2) as HC. destruct HL.
    constructor; cbn [shift push p_stk p_above p_state p_lval p_char p_tok p_ast] in *; try assumption; try reflexivity; [constructor; assumption| |lia].
    transitivity (tl (map strip (p_above (primp e (look p))))); [destruct (p_above (primp e (look p))); reflexivity|]. rewrite pr_above. destruct (p_above (primp e (look q))); reflexivity.
  - pose proof (pe_pr _ _ _ HL2) as HL. destruct (default (p_state p) (p_tok (look2 p))) as [x|r| |] eqn:Ed; cbn [do_default] in *.
    1, 4: unfold fail; pose proof (Error_alike _ _ _ _ _ MSyntax MSyntax (pr_ast _ _ _ _ _ _ HL) eq_refl) as X; cbn [primp p_ast] in X; rewrite !prim_Error in X;
      destruct (Error (p_ast (look2 p)) MSyntax) as [a1|] eqn:E1, (Error (p_ast (look2 q)) MSyntax) as [a2|] eqn:E2; cbn [RR primr] in X; try contradiction; cbn [sbind SE]; [|exact X];
      apply Error_loc in E1 as [-> _]; discriminate.
    2: { cbn [SE]. intros _. split; [exact (pr_ast _ _ _ _ _ _ HL)|exact (pe_told _ _ _ HL2)]. }
    pose proof (Reached.default_reduce p r I1 Ed) as Hr.
    assert (W : SRP c1 c2 P (TF (j + ends2 p)) (reduce (primp e (look2 p)) r) (reduce (primp e (look2 q)) r)).
    { apply reduce_pr; [exact HL|]. destruct (look2_inv p I1) as (_ & _ & _ & E & _). cbn [primp p_state]. rewrite E. eapply reduce_checked; eassumption. }
    rewrite !prim_reduce in W by exact Hr.
    destruct (reduce (look2 p) r) as [p'| |] eqn:R1, (reduce (look2 q) r) as [q'| |] eqn:R2; cbn [prims SRP Lockstep.SR] in W; try contradiction; cbn [SE step_ok] in *; [| |exact W].
    + intros Hn. assert (W' : PR (j + ends2 p) (primp e p') (primp e q')) by (apply W; apply prim_inv; [apply S1|apply S2]).
      constructor; [apply S1|apply S2|exact W'|exact Hn|]. rewrite <- (pe_told _ _ _ HL2). eapply reduce_told; [exact Hr|exact R2|]. apply (told_here (p_ast p')); [exact (pr_ast _ _ _ _ _ _ W')|exact Hn].
    + pose proof (reduce_goes (look2 p) r) as G. rewrite R1 in G. contradiction.
Qed.
Lemma run_f f : forall j p q n a, PE j p q -> far (j + count f p) -> run f p = Some (Ok (n, a)) -> a_err a = None ->
  exists m b, run f q = Some (Ok (m, b)) /\ AR P c1 c2 (prim e a) (prim e b) /\ a_err b = told (j + count f p).
Proof.
  induction f as [|f IH]; intros j p q n a H HF R Ha; [discriminate R|]. cbn [count] in HF. assert (HF1 : far (j + ends2 p)) by (eapply far_le; [exact HF|lia]). pose proof (step_f _ _ _ H HF1) as X. pose proof (step_inv p (pe_inv1 _ _ _ H)) as S1. cbn [run count] in R |- *. rewrite Nat.add_assoc.
  destruct (step p) as [p'|n1 a1|], (step q) as [q'|n2 a2|]; cbn [SE] in X; try contradiction; try discriminate R.
  - apply (IH (j + ends2 p)%nat p' q' n a); [|rewrite <- Nat.add_assoc; exact HF|exact R|exact Ha]. apply X. destruct (a_err (p_ast p')) as [x|] eqn:E; [|reflexivity]. exfalso. apply (run_some f p' n a (proj1 S1)); [congruence|exact R|exact Ha].
  - injection R as <- <-. destruct (X Ha) as [X1 X2]. exists n2, a2. rewrite Nat.add_0_r. auto.
Qed.
Lemma init_f : pieces_of false c1 shared -> pieces_of false c2 (shared ++ map (@Datatypes.inr tk lexerr) es ++ after) -> PE 0 (init_pst (NewAST c1)) (init_pst (NewAST c2)).
Proof.
  intros H1 H2. constructor; try apply init_inv; [|reflexivity|reflexivity]. constructor; try reflexivity.
  - exact (init_inv (prim e (NewAST c1))).
  - exact (init_inv (prim e (NewAST c2))).
  - constructor; [|constructor]. constructor; reflexivity.
  - left. split; [reflexivity|]. exists [], shared. split; [reflexivity|]. split; [apply rt_start|]. split; [apply rt_start|]. auto.
  - constructor; try reflexivity; [discriminate|]. right. left. exists e. auto.
Qed.
(** The tree is that of the program; the error is the last fault read. *)
Theorem parse_fault a : pieces_of false c1 shared -> pieces_of false c2 (shared ++ map (@Datatypes.inr tk lexerr) es ++ after) -> blank c1 = false -> blank c2 = false -> parse c1 = Some (Ok (a, None)) ->
  far (count (parse_fuel c1) (init_pst (NewAST c1))) ->
  exists b, parse c2 = Some (Ok (b, told (count (parse_fuel c1) (init_pst (NewAST c1))))) /\ a_module b = a_module a.
Proof.
  intros H1 H2 B1 B2 H HF. set (f := Nat.max (parse_fuel c1) (parse_fuel c2)). destruct (parse_run c1 f a None B1 H) as (n & R & Ea); [unfold f; lia|].
  destruct (parse_run c1 (parse_fuel c1) a None B1 H (le_n _)) as (n0 & R0 & _).
  assert (Ec : count f (init_pst (NewAST c1)) = count (parse_fuel c1) (init_pst (NewAST c1))) by (apply (count_enough _ _ _ _ R0); unfold f; lia).
  destruct (run_f f 0 _ _ _ _ (init_f H1 H2) ltac:(rewrite Ec; exact HF) R (eq_sym Ea)) as (m & b & Rb & X & T). rewrite Ec in T. cbn [Nat.add] in T. rewrite <- T.
  exists b. split.
  - unfold parse, Parse. cbn [NewAST a_code]. rewrite B2. fold (NewAST c2). pose proof (run_enough (NewAST c2) f) as R2. cbn [NewAST a_code] in R2. fold (NewAST c2) in R2.
    rewrite R2, Rb by (unfold f; lia). reflexivity.
  - pose proof (ar_module _ _ _ _ _ X) as M. rewrite !prim_mod in M. congruence.
Qed.
End Fault.
