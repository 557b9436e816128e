(** The tokens of printed trees. *)
From Verif Require Import Bytes Utf8 UnicodeTables Float64 GoTime Ast Lexer LexFacts Utf8Facts LexSpec LexProofs LexTrivia
  LexTokens LexStrings NumSpec NumProofs NumTokens Tok Syntax StmtInd Parser Printer PrintInv Properties_Literals Writes.
Open Scope Z_scope.

(** * Trees whose leaves can be written down *)
Definition identish (s : stmt) : bool :=
  match s with SVar _ _ | SItem _ _ => true | SMethod _ _ _ fl => negb (fl_not fl) | _ => false end.
Definition pathish (s : stmt) : bool := match s with SChain _ _ _ => true | _ => identish s end.
Definition f64_abs (f : f64) : f64 := F64 false (f_man f) (f_exp f).
Definition string_text (w : bytes) : Prop := exists v, str_body v /\ w = string_of_runes v.
Definition dir_ok (d : bytes) : Prop := d = [] \/ dirb d = true.

Definition local (s : stmt) : Prop :=
  match s with
  | SStr w => string_text w
  | SNum f => is_f64 (f64_abs f)
  | STime t => calendar_date t
  | SVar n _ => wordb n = true
  | SMethod n _ _ _ => wordb n = true
  | SItem _ o => identish o = true
  | SChain u c _ => identish u = true /\ pathish c = true
  | SNew c _ _ => c = [] \/ wordb c = true
  | SExp o _ _ _ => o <> OpUndefined
  | SAssign _ ps _ => exists e, ps = Some [e]
  | SLoop f _ i _ _ => is_nil i = true \/ exists n, f = SStr n /\ wordb n = true
  | SGoTo (Some n) => chars_b n = true
  | SLabel n => chars_b n = true
  | SFunc _ n d _ ps ty _ => wordb n = true /\ dir_ok d /\ ty <> PFUndefined /\ Forall (fun p : param => wordb (snd (fst p)) = true) ps
  | _ => True
  end.
Inductive built : stmt -> Prop := built_intro s : local s -> Forall built (parts s) -> built s.
(** No list in parentheses with other than one element. *)
Definition one_element (s : stmt) : Prop := match s with SExprs ps _ => length (elems ps) = 1%nat | _ => True end.
Inductive single : stmt -> Prop := single_intro s : one_element s -> Forall single (parts s) -> single s.
Definition gvar_ok (g : gvar) : Prop := wordb (gv_name g) = true /\ dir_ok (gv_dir g).

Lemma built_inv s : built s -> local s /\ Forall built (parts s). Proof. inversion 1; auto. Qed.
Lemma single_inv s : single s -> one_element s /\ Forall single (parts s). Proof. inversion 1; auto. Qed.

(** * Tokens *)
Definition tnot (b : bool) : list tk := if b then [K tNot] else [].
Definition tminus (b : bool) : list tk := if b then [Pct "-"] else [].
Definition topen (b : bool) : list tk := if b then [Pct "("] else [].
Definition tclose (b : bool) : list tk := if b then [Pct ")"] else [].
Fixpoint tjoin (l : list (list tk)) : list tk :=
  match l with [] => [] | [x] => x | x :: l' => x ++ Pct "," :: tjoin l' end.
Definition op_tok (o : op) : Z :=
  match o with
  | OpUndefined => 0 | OpPlus => 43 | OpMinus => 45 | OpMul => 42 | OpDiv => 47 | OpEq => tEQUAL | OpGt => 62 | OpLt => 60
  | OpNe => tNeEQ | OpLe => tLE | OpGe => tGE | OpMod => 37 | OpOr => tOR | OpAnd => tAnd
  end.
Definition num_toks (f : f64) : list tk := tminus (f_neg f) ++ [KNum (rounded (f64_abs f))].

(** The tokens of the text that [pr] writes; [pd] if it stands behind a dot. *)
Fixpoint pt (pd : bool) (m : pmode) (s : stmt) {struct s} : list tk :=
  match s with
  | SNil | SIf _ _ _ _ | STry _ _ | SThrow _ | SReturn _ | SBreak | SContinue
  | SLoop _ _ _ _ _ | SGoTo _ | SLabel _ | SFunc _ _ _ _ _ _ _ => []
  | SNum f => match m with MC => [] | _ => num_toks f end
  | SStr w => match m with MC => [] | _ => [KStr w] end
  | SBool b => match m with MC => [] | _ => [K (if b then tTrue else tFalse)] end
  | STime t => match m with MC => [] | _ => [KDate t] end
  | SUndef => match m with MC => [] | _ => [K tUndefind] end
  | SChain u c fl => (match m with MC => [] | _ => tnot (fl_not fl) end) ++ pt false MC c ++ K 46 :: pt true MV u
  | SMethod n ps _ fl =>
    tnot (fl_not fl) ++ word_tk pd n :: Pct "(" ::
    tjoin (match ps with Some l => map (pt false MV) l | None => [] end) ++ [Pct ")"]
  | SVar n fl =>
    match m with
    | ME _ => tnot (fl_not fl) ++ tminus (fl_minus fl) ++ [word_tk pd n]
    | _ => [word_tk pd n]
    end
  | SItem i o => pt pd MV o ++ Pct "[" :: pt false (ME 0) i ++ [Pct "]"]
  | STern e t f =>
    match m with
    | MC => []
    | _ => Pct "?" :: Pct "(" :: pt false (ME 0) e ++ Pct "," :: pt false (ME 0) t ++ Pct "," :: pt false (ME 0) f ++ [Pct ")"]
    end
  | SNew c ps _ =>
    match m with
    | MC => []
    | _ => K tNew :: (match c with [] => [] | _ => [word_tk false c] end) ++ Pct "(" ::
           tjoin (match ps with Some l => map (pt false MV) l | None => [] end) ++ [Pct ")"]
    end
  | SAssign v ps fl =>
    match m with
    | MC => []
    | _ => pt false MV v ++ K tEQUAL :: (tnot (fl_not fl) ++ topen (fl_not fl) ++
           concat (match ps with Some l => map (pt false (ME 0)) l | None => [] end) ++ tclose (fl_not fl))
    end
  | SExprs ps fl =>
    match m with
    | MC => []
    | _ =>
      let lv := match m with ME (S l) => S (S l) | _ => O end in
      tnot (fl_not fl) ++ topen (fl_not fl) ++
      concat (match ps with Some l => map (pt false (ME lv)) l | None => [] end) ++ tclose (fl_not fl)
    end
  | SExp o l r fl =>
    match m with
    | MC => []
    | _ =>
      let lv := match m with ME l => l | _ => O end in
      let outer := Nat.ltb 0 lv in
      let inner := fl_minus fl || fl_not fl in
      topen outer ++ tnot (fl_not fl) ++ tminus (fl_minus fl) ++ topen inner ++
      pt false (ME (S lv)) l ++ K (op_tok o) :: pt false (ME (S lv)) r ++ tclose inner ++ tclose outer
    end
  end.

(** The tokens of a printed statement. *)
Fixpoint itoks (item : stmt) {struct item} : list tk :=
  let body (b : option (list stmt)) : list tk := match b with Some l => flat_map itoks l | None => [] end in
  match item with
  | SIf e tb eib eb =>
    K tIf :: pt false (ME 0) e ++ K tThen :: body tb ++
    (match eib with
     | Some l => flat_map (fun i => match i with
         | SIf e' tb' _ _ => K tElseIf :: pt false (ME 0) e' ++ K tThen :: body tb'
         | _ => []
         end) l
     | None => []
     end) ++
    (match eb with None => [] | Some _ => K tElse :: body eb end) ++ [K tEndIf; Pct ";"]
  | SLoop sfor sto sin swhile b =>
    (if is_nil swhile then [K tFor] else K tWhile :: pt false (ME 0) swhile ++ [K tLoop]) ++
    (if is_nil sin then [] else match sfor with
       | SStr n => K tEach :: word_tk false n :: K tIn :: pt false (ME 0) sin ++ [K tLoop]
       | _ => [] end) ++
    (if is_nil sto then [] else pt false (ME 0) sfor ++ K tTo :: pt false (ME 0) sto ++ [K tLoop]) ++
    body b ++ [K tEndLoop; Pct ";"]
  | SBreak => [K tBreak; Pct ";"]
  | SContinue => [K tContinue; Pct ";"]
  | SChain _ _ _ => pt false MC item ++ [Pct ";"]
  | SExp _ _ _ _ => pt false (ME 0) item ++ [Pct ";"]
  | STry b ca => K tTry :: body b ++ K tCatch :: body ca ++ [K tEndTry; Pct ";"]
  | SThrow p =>
    K tThrow :: (match p with
       | SNil => []
       | SExprs ps _ => Pct "(" :: tjoin (map (pt false MV) (elems ps)) ++ [Pct ")"]
       | _ => Pct "(" :: pt false MV p ++ [Pct ")"]
       end) ++ [Pct ";"]
  | SReturn p => K tReturn :: pt false (ME 0) p ++ [Pct ";"]
  | SGoTo l => match l with None => [] | Some n => [K tGoTo; KLabel n; Pct ";"] end
  | SLabel n => [KLabel n; Pct ":"]
  | _ => pt false MV item ++ [Pct ";"]
  end.
Definition btoks (b : slice) : list tk := flat_map itoks (elems b).
Definition branch_toks (i : stmt) : list tk :=
  match i with SIf e tb _ _ => K tElseIf :: pt false (ME 0) e ++ K tThen :: btoks tb | _ => [] end.

Definition gvar_toks (v : gvar) : list tk :=
  (match gv_dir v with [] => [] | d => [KDir d] end) ++ K tVar :: word_tk false (gv_name v) ::
  (if gv_export v then [K tExport] else []) ++ [Pct ";"].
Definition param_toks (p : param) : list tk :=
  let '(def, name, isval) := p in
  (if isval then [K tValueParam] else []) ++ word_tk false name ::
  (match printVarStatement def with [] => [] | _ => K tEQUAL :: pt false MV def end).
Definition func_toks (f : stmt) : list tk :=
  match f with
  | SFunc _ name dir body params ty export =>
    (match dir with [] => [] | d => [KDir d] end) ++
    K (match ty with PFFunction => tFunction | _ => tProcedure end) :: word_tk false name :: Pct "(" ::
    tjoin (map param_toks params) ++ Pct ")" :: (if export then [K tExport] else []) ++ btoks body ++
    [K (match ty with PFFunction => tEndFunction | _ => tEndProcedure end)]
  | _ => []
  end.
Definition print_toks (order : list gvar) (m : module) : list tk :=
  match elems (m_body m) with
  | [] => []
  | l => flat_map gvar_toks order ++ flat_map (fun n => match n with SFunc _ _ _ _ _ _ _ => func_toks n | _ => itoks n end) l
  end.

(** * Pieces *)
Lemma reads_kw n k rest l : wordb n = true -> word_tk false n = k -> wend rest -> reads false rest l -> reads false (n ++ rest) (k :: l).
Proof. intros H1 <- H2 H3. apply (writes_word false n H1 rest l H2 H3). Qed.
Lemma reads_sp rest l : reads false rest l -> reads false (B " " ++ rest) l.
Proof. apply reads_blanks. constructor; [left; reflexivity|constructor]. Qed.
Lemma wend_sp rest : wend (B " " ++ rest). Proof. reflexivity. Qed.
Lemma reads_p c rest l : plain_punct c = true -> reads false rest l -> reads false (z2b c :: rest) (punct_tk c :: l).
Proof. intros H1 H2. apply (writes_punct false c H1 rest l I H2). Qed.

(** A word of the printer followed by a blank. *)
Lemma reads_kws n k rest l : wordb n = true -> word_tk false n = k -> reads false rest l -> reads false (n ++ B " " ++ rest) (k :: l).
Proof. intros H1 H2 H3. apply reads_kw; auto. - apply wend_sp. - apply reads_sp, H3. Qed.

Lemma reads_op o rest l : o <> OpUndefined -> reads false rest l -> reads false (B " " ++ op_str o ++ B " " ++ rest) (K (op_tok o) :: l).
Proof.
  intros Ho H. apply reads_sp. pose proof (reads_sp _ _ H) as H2. destruct o; [congruence|..]; cbn [op_str op_tok];
  try (apply (reads_p 43 (B " " ++ rest) l eq_refl H2)); try (apply (reads_p 45 (B " " ++ rest) l eq_refl H2));
  try (apply (reads_p 42 (B " " ++ rest) l eq_refl H2)); try (apply (reads_p 37 (B " " ++ rest) l eq_refl H2));
  try (apply (reads_p 61 (B " " ++ rest) l eq_refl H2)).
  - (* division *)
    assert (E : next false (B "/" ++ B " " ++ rest) = (LexRes 47 (encode 47) None, B " " ++ rest, false)).
    { unfold next. change (B "/" ++ B " " ++ rest) with (z2b 47 :: B " " ++ rest). set (s := z2b 47 :: B " " ++ rest).
      assert (C : cur s = 47) by (apply cur_ascii; reflexivity). assert (A : adv s = B " " ++ rest) by (apply adv_ascii; reflexivity).
      assert (N : nextLet s = 32) by (unfold nextLet; rewrite A; apply cur_ascii; reflexivity).
      rewrite skipSpace_id by (rewrite C; reflexivity). rewrite skipComment_id by (rewrite N; unfold cSlash; lia).
      rewrite skipRegions_settled by (split; unfold cHash, cSlash; rewrite ?C, ?N; try lia).
      cbv zeta. rewrite C, A. reflexivity. }
    eapply rd_tok; [exact E|reflexivity|discriminate|reflexivity|exact H2].
  - pose proof (next_op1 false [] 62 (B " " ++ rest) tr_nil (or_intror eq_refl)) as E.
    eapply rd_tok; [apply E|reflexivity|discriminate|reflexivity|exact H2].
    intros c Hc. change (B " " ++ rest) with (x20 :: rest) in Hc. apply first_char_ascii in Hc; [|reflexivity]. subst c. split; discriminate.
  - pose proof (next_op1 false [] 60 (B " " ++ rest) tr_nil (or_introl eq_refl)) as E.
    eapply rd_tok; [apply E|reflexivity|discriminate|reflexivity|exact H2].
    intros c Hc. change (B " " ++ rest) with (x20 :: rest) in Hc. apply first_char_ascii in Hc; [|reflexivity]. subst c. split; discriminate.
  - pose proof (next_op2 false [] 60 62 tNeEQ (B " " ++ rest) tr_nil) as E.
    eapply rd_tok; [apply E; cbn; tauto|reflexivity|discriminate|reflexivity|exact H2].
  - pose proof (next_op2 false [] 60 61 tLE (B " " ++ rest) tr_nil) as E.
    eapply rd_tok; [apply E; cbn; tauto|reflexivity|discriminate|reflexivity|exact H2].
  - pose proof (next_op2 false [] 62 61 tGE (B " " ++ rest) tr_nil) as E.
    eapply rd_tok; [apply E; cbn; tauto|reflexivity|discriminate|reflexivity|exact H2].
  - apply (reads_kws (B "ИЛИ")); [vm_compute; reflexivity|vm_compute; reflexivity|exact H].
  - apply (reads_kws (B "И")); [vm_compute; reflexivity|vm_compute; reflexivity|exact H].
Qed.
Lemma ends_op o rest : o <> OpUndefined -> ends (B " " ++ op_str o ++ rest).
Proof. intros Ho. apply ends_blank; [left; reflexivity|..]; destruct o; try congruence; vm_compute; congruence. Qed.

(** * Expressions *)
Lemma reads_not b rest l : reads false rest l -> reads false (not_str b ++ rest) (tnot b ++ l).
Proof.
  intros H. destruct b; [|exact H]. cbn [not_str tnot app]. change (s_not ++ rest) with (B "Не" ++ B " " ++ rest).
  apply reads_kws; [vm_compute; reflexivity|vm_compute; reflexivity|exact H].
Qed.
Lemma reads_minus (b : bool) rest l : reads false rest l -> reads false ((if b then B "-" else []) ++ rest) (tminus b ++ l).
Proof. intros H. destruct b; [|exact H]. apply (reads_p 45 rest l eq_refl H). Qed.
Lemma reads_open (b : bool) rest l : reads false rest l -> reads false ((if b then B "(" else []) ++ rest) (topen b ++ l).
Proof. intros H. destruct b; [|exact H]. apply (reads_p 40 rest l eq_refl H). Qed.
Lemma reads_close (b : bool) rest l : reads false rest l -> reads false ((if b then B ")" else []) ++ rest) (tclose b ++ l).
Proof. intros H. destruct b; [|exact H]. apply (reads_p 41 rest l eq_refl H). Qed.
Lemma ends_punct c rest : In c [41; 44; 93; 59; 58; 40] -> ends (z2b c :: rest).
Proof.
  intros H. cbn [In] in H. repeat destruct H as [<-|H]; try destruct H;
  (apply ends_here; unfold wend; rewrite cur_ascii by reflexivity; [reflexivity|discriminate|vm_compute; reflexivity|discriminate]).
Qed.
Lemma ends_close (b : bool) rest : ends rest -> ends ((if b then B ")" else []) ++ rest).
Proof. intros H. destruct b; [|exact H]. apply (ends_punct 41). cbn; auto. Qed.

Definition wr (m : pmode) (s : stmt) : Prop := writes false ends (pr m s) (pt false m s).
Lemma writes_join l : (forall x, In x l -> wr MV x) ->
  writes false ends (join (B ", ") (map (pr MV) l)) (tjoin (map (pt false MV) l)).
Proof.
  induction l as [|x l IH]; intros H; [apply writes_nil|]. cbn [map]. destruct l as [|y l].
  - apply H. left. reflexivity.
  - cbn [join tjoin map] in *. intros rest l' Hr Hl. rewrite <- !app_assoc. cbn [app].
    apply H; [left; reflexivity|apply (ends_punct 44); cbn; auto|]. apply (reads_p 44); [reflexivity|]. apply reads_sp.
    apply IH; auto. intros z Hz. apply H. right. exact Hz.
Qed.
(** "(" arguments ")" *)
Lemma writes_args ps E : (forall x, In x (elems ps) -> wr MV x) ->
  writes false E (B "(" ++ join (B ", ") (match ps with Some l => map (pr MV) l | None => [] end) ++ B ")")
    (Pct "(" :: tjoin (match ps with Some l => map (pt false MV) l | None => [] end) ++ [Pct ")"]).
Proof.
  intros H rest l' _ Hl. rewrite <- !app_assoc. cbn [app]. apply (reads_p 40); [reflexivity|]. rewrite <- app_assoc.
  assert (Hj : writes false ends (join (B ", ") (match ps with Some l => map (pr MV) l | None => [] end)) (tjoin (match ps with Some l => map (pt false MV) l | None => [] end))).
  { destruct ps as [l|]; [apply writes_join; exact H | apply writes_nil]. }
  apply Hj; [apply (ends_punct 41); cbn; auto|]. apply (reads_p 41 rest l' eq_refl Hl).
Qed.
Lemma wend_p c rest : In c [40; 41; 91; 93; 44; 46; 59; 58] -> wend (z2b c :: rest).
Proof. intros H. unfold wend. cbn [In] in H. repeat destruct H as [<-|H]; try destruct H; (rewrite cur_ascii by reflexivity); vm_compute; reflexivity. Qed.

Lemma pr_writes s : built s -> single s ->
  (forall m, wr m s) /\
  (identish s = true -> forall pd, writes pd wend (pr MV s) (pt pd MV s)) /\
  (pathish s = true -> writes false wend (pr MC s) (pt false MC s)).
Proof.
  induction s as [s IH] using stmt_parts_ind. intros Hb Hs.
  apply built_inv in Hb as [Hb Hbs]. apply single_inv in Hs as [Hs Hss].
  assert (IHP : forall x, In x (parts s) -> (forall m, wr m x) /\
     (identish x = true -> forall pd, writes pd wend (pr MV x) (pt pd MV x)) /\
     (pathish x = true -> writes false wend (pr MC x) (pt false MC x))).
  { intros x Hx. rewrite Forall_forall in Hbs, Hss. apply IH; auto. }
  clear IH Hbs Hss. unfold wr.
  assert (Hweak : forall t l, writes false wend t l -> writes false ends t l).
  { intros t l H. apply (writes_weak _ _ _ _ _ H). exact ends_wend. }
  destruct s; cbn [identish pathish]; try (split; [intros m; apply writes_nil | split; discriminate]).
  - (* string *)
    split; [|split; discriminate]. intros m. destruct Hb as (v & Hv & ->). destruct m; cbn [pr pt]; solve [apply writes_nil | apply writes_string, Hv].
  - (* number *)
    split; [|split; discriminate].
    assert (H : writes false ends (format_0f f) (num_toks f)).
    { intros rest l' Hr Hl. unfold num_toks. rewrite <- app_assoc. cbn [local] in Hb.
      assert (E : format_0f f = (if f_neg f then B "-" else []) ++ format_0f (f64_abs f)).
      { unfold format_0f, f64_abs. cbn [f_neg f_man f_exp]. destruct (f_neg f); reflexivity. }
      rewrite E, <- app_assoc. apply reads_minus. apply (writes_number _ Hb rest l' Hr Hl). }
    intros m; destruct m; cbn [pr pt]; solve [apply writes_nil | exact H].
  - (* bool *)
    split; [|split; discriminate]. intros m.
    assert (H : writes false ends (if b then B "Истина" else B "Ложь") [K (if b then tTrue else tFalse)]).
    { apply Hweak. intros rest l' Hr Hl. destruct b; (apply reads_kw; [vm_compute; reflexivity|vm_compute; reflexivity|exact Hr|exact Hl]). }
    destruct m; cbn [pr pt]; solve [apply writes_nil | exact H].
  - (* date *)
    split; [|split; discriminate]. intros m. destruct m; cbn [pr pt]; solve [apply writes_nil | apply writes_date, Hb].
  - (* undefined *)
    split; [|split; discriminate]. intros m.
    assert (H : writes false ends (B "Неопределено") [K tUndefind]).
    { apply Hweak. intros rest l' Hr Hl. apply reads_kw; [vm_compute; reflexivity|vm_compute; reflexivity|exact Hr|exact Hl]. }
    destruct m; cbn [pr pt]; solve [apply writes_nil | exact H].
  - (* variable *)
    cbn [local] in Hb. assert (H : forall pd, writes pd wend name [word_tk pd name]) by (intros pd; apply writes_word, Hb).
    split; [|split; intros _; cbn [pr pt]; [intros pd|]; apply H].
    intros m. apply Hweak. destruct m; cbn [pr pt]; try apply H.
    intros rest l' Hr Hl. rewrite <- !app_assoc. apply reads_not, reads_minus. apply H; assumption.
  - (* method *)
    cbn [local] in Hb. 
    assert (H : forall pd E, writes pd E (name ++ B "(" ++ join (B ", ") (match ps with Some l => map (pr MV) l | None => [] end) ++ B ")")
      (word_tk pd name :: Pct "(" :: tjoin (match ps with Some l => map (pt false MV) l | None => [] end) ++ [Pct ")"])).
    { intros pd E rest l' Hr Hl. rewrite <- app_assoc. cbn [app]. apply (writes_word pd name Hb).
      - rewrite <- app_assoc. apply (wend_p 40). cbn; auto.
      - apply (writes_args ps E); auto. intros x Hx. apply IHP, Hx. }
    split; [|split].
    + intros m. cbn [pr pt]. intros rest l' Hr Hl. rewrite <- (app_assoc (not_str _)), <- (app_assoc (tnot _)). apply reads_not. apply (H false ends); assumption.
    + intros Hn pd. cbn [pr pt]. destruct (fl_not fl); [discriminate|]. apply H.
    + intros Hn. cbn [pr pt]. destruct (fl_not fl); [discriminate|]. apply H.
  - (* item *)
    cbn [local] in Hb. destruct (IHP s2) as (_ & I2 & _); [cbn; auto|]. destruct (IHP s1) as (I1 & _); [cbn; auto|].
    assert (H : forall pd E, writes pd E (pr MV s2 ++ B "[" ++ pr (ME 0) s1 ++ B "]") (pt pd MV s2 ++ Pct "[" :: pt false (ME 0) s1 ++ [Pct "]"])).
    { intros pd E rest l' Hr Hl. rewrite <- !app_assoc. cbn [app]. apply (I2 Hb pd); [apply (wend_p 91); cbn; auto|].
      apply (reads_p 91); [reflexivity|]. rewrite <- app_assoc. apply (I1 (ME 0%nat)); [apply (ends_punct 93); cbn; auto|]. apply (reads_p 93 rest l' eq_refl Hl). }
    split; [|split]; intros; cbn [pr pt]; apply H.
  - (* chain *)
    cbn [local] in Hb. destruct Hb as [Hu Hc]. destruct (IHP s1) as (_ & I1 & _); [cbn; auto|]. destruct (IHP s2) as (_ & _ & I2); [cbn; auto|].
    assert (H : writes false wend (pr MC s2 ++ B "." ++ pr MV s1) (pt false MC s2 ++ K 46 :: pt true MV s1)).
    { intros rest l' Hr Hl. rewrite <- !app_assoc. cbn [app]. apply (I2 Hc); [apply (wend_p 46); cbn; auto 10|].
      apply (writes_dot wend _ _ (I1 Hu true) rest l' Hr Hl). }
    assert (E : forall m, pr m (SChain s1 s2 fl) = (match m with MC => [] | _ => not_str (fl_not fl) end) ++ pr MC s2 ++ B "." ++ pr MV s1).
    { intros m. cbn [pr]. destruct s2; try reflexivity. discriminate Hc. }
    split; [|split; [discriminate|]].
    + intros m. rewrite E. cbn [pt]. apply Hweak. destruct m; [| |exact H]; intros rest l' Hr Hl; rewrite <- app_assoc, <- (app_assoc (tnot _));
      apply reads_not; apply H; assumption.
    + intros _. rewrite E. exact H.
  - (* new *)
    split; [|split; discriminate]. cbn [local] in Hb.
    assert (H : writes false ends (B "Новый " ++ constr ++ B "(" ++ join (B ", ") (match ps with Some l => map (pr MV) l | None => [] end) ++ B ")")
      (K tNew :: (match constr with [] => [] | _ => [word_tk false constr] end) ++ Pct "(" :: tjoin (match ps with Some l => map (pt false MV) l | None => [] end) ++ [Pct ")"])).
    { intros rest l' Hr Hl. cbn [app]. rewrite <- !app_assoc. change (B "Новый ") with (B "Новый" ++ B " "). rewrite <- app_assoc.
      apply reads_kws; [vm_compute; reflexivity|vm_compute; reflexivity|].
      assert (Ha : reads false (B "(" ++ join (B ", ") (match ps with Some l => map (pr MV) l | None => [] end) ++ B ")" ++ rest) ((Pct "(" :: tjoin (match ps with Some l => map (pt false MV) l | None => [] end) ++ [Pct ")"]) ++ l')).
      { pose proof (writes_args ps any (fun x Hx => proj1 (IHP x Hx) MV) rest l' I Hl) as X. rewrite <- !app_assoc in X. exact X. }
      destruct constr as [|b constr]; [exact Ha|]. destruct Hb as [Hb|Hb]; [discriminate|]. apply (writes_word false _ Hb); [apply (wend_p 40); cbn; auto | exact Ha]. }
    intros m; destruct m; cbn [pr pt]; solve [apply writes_nil | exact H].
  - (* ternary *)
    split; [|split; discriminate]. destruct (IHP s1) as (I1 & _); [cbn; auto|]. destruct (IHP s2) as (I2 & _); [cbn; auto|]. destruct (IHP s3) as (I3 & _); [cbn; auto|].
    assert (H : writes false ends (B "?(" ++ pr (ME 0) s1 ++ B ", " ++ pr (ME 0) s2 ++ B ", " ++ pr (ME 0) s3 ++ B ")")
      (Pct "?" :: Pct "(" :: pt false (ME 0) s1 ++ Pct "," :: pt false (ME 0) s2 ++ Pct "," :: pt false (ME 0) s3 ++ [Pct ")"])).
    { intros rest l' Hr Hl. rewrite <- !app_assoc. cbn [app]. apply (reads_p 63); [reflexivity|]. apply (reads_p 40); [reflexivity|].
      rewrite <- app_assoc. apply I1; [apply (ends_punct 44); cbn; auto|]. cbn [app]. apply (reads_p 44); [reflexivity|]. apply reads_sp.
      rewrite <- app_assoc. apply I2; [apply (ends_punct 44); cbn; auto|]. cbn [app]. apply (reads_p 44); [reflexivity|]. apply reads_sp.
      rewrite <- app_assoc. apply I3; [apply (ends_punct 41); cbn; auto|]. apply (reads_p 41 rest l' eq_refl Hl). }
    intros m; destruct m; cbn [pr pt]; solve [apply writes_nil | exact H].
  - (* binary *)
    split; [|split; discriminate]. cbn [local] in Hb. destruct (IHP s1) as (I1 & _); [cbn; auto|]. destruct (IHP s2) as (I2 & _); [cbn; auto|].
    assert (H : forall lv : nat, let outer := Nat.ltb 0 lv in let inner := fl_minus fl || fl_not fl in
      writes false ends ((if outer then B "(" else []) ++ not_str (fl_not fl) ++
      (if fl_minus fl then B "-" else []) ++ (if inner then B "(" else []) ++
      pr (ME (S lv)) s1 ++ B " " ++ op_str o ++ B " " ++ pr (ME (S lv)) s2 ++
      (if inner then B ")" else []) ++ (if outer then B ")" else []))
      (topen outer ++ tnot (fl_not fl) ++ tminus (fl_minus fl) ++ topen inner ++
      pt false (ME (S lv)) s1 ++ K (op_tok o) :: pt false (ME (S lv)) s2 ++ tclose inner ++ tclose outer)).
    { intros lv outer inner rest l' Hr Hl. rewrite <- !app_assoc. apply reads_open, reads_not, reads_minus, reads_open. cbn [app]. rewrite <- !app_assoc.
      apply I1; [apply ends_op, Hb|]. cbn [app]. rewrite <- ?app_assoc. apply reads_op; [exact Hb|]. apply I2; [apply ends_close, ends_close, Hr|]. apply reads_close, reads_close, Hl. }
    intros m; destruct m; cbn [pr pt]; solve [apply writes_nil | apply H].
  - (* list *)
    split; [|split; discriminate]. cbn [one_element] in Hs. destruct ps as [[|x [|y l]]|]; try discriminate. destruct (IHP x) as (I1 & _); [cbn; auto|].
    assert (H : forall lv, writes false ends ((if fl_not fl then s_not ++ B "(" else []) ++ concat (map (pr (ME lv)) [x]) ++ (if fl_not fl then B ")" else []))
      (tnot (fl_not fl) ++ topen (fl_not fl) ++ concat (map (pt false (ME lv)) [x]) ++ tclose (fl_not fl))).
    { intros lv rest l' Hr Hl. cbn [map concat]. rewrite !app_nil_r, <- !app_assoc.
      assert (E : (if fl_not fl then s_not ++ B "(" else []) = not_str (fl_not fl) ++ (if fl_not fl then B "(" else [])) by (destruct (fl_not fl); reflexivity).
      rewrite E, <- app_assoc. apply reads_not, reads_open. apply I1; [apply ends_close, Hr|]. apply reads_close, Hl. }
    intros m; destruct m as [|[|lv]|]; cbn [pr pt]; solve [apply writes_nil | apply H].
  - (* assignment *)
    split; [|split; discriminate]. destruct Hb as (e & ->). destruct (IHP s) as (I1 & _); [cbn; auto|]. destruct (IHP e) as (I2 & _); [cbn; auto|].
    assert (H : writes false ends (pr MV s ++ B " = " ++ ((if fl_not pfl then s_not ++ B "(" else []) ++ concat (map (pr (ME 0)) [e]) ++ (if fl_not pfl then B ")" else [])))
      (pt false MV s ++ K tEQUAL :: (tnot (fl_not pfl) ++ topen (fl_not pfl) ++ concat (map (pt false (ME 0)) [e]) ++ tclose (fl_not pfl)))).
    { intros rest l' Hr Hl. cbn [map concat]. rewrite !app_nil_r, <- !app_assoc. cbn [app].
      assert (E : (if fl_not pfl then s_not ++ B "(" else []) = not_str (fl_not pfl) ++ (if fl_not pfl then B "(" else [])) by (destruct (fl_not pfl); reflexivity).
      rewrite E, <- !app_assoc. apply I1; [apply (ends_op OpEq); discriminate|]. apply (reads_op OpEq); [discriminate|].
      apply reads_not, reads_open. apply I2; [apply ends_close, Hr|]. apply reads_close, Hl. }
    intros m; destruct m; cbn [pr pt]; solve [apply writes_nil | exact H].
Qed.

(** * Statements *)
Definition empty_block (b : slice) : bool := match elems b with [] => true | _ => false end.
(** Something separates the word Попытка or Исключение from the next one. *)
Definition gap_ok (c : conf) (d : nat) (b : slice) : bool :=
  negb (oneLine c) || (0 <? margin c) && (negb (empty_block b) || Nat.ltb 0 d).
Fixpoint fine (c : conf) (d : nat) (item : stmt) {struct item} : bool :=
  let all (d : nat) (b : option (list stmt)) := match b with Some l => forallb (fine c d) l | None => true end in
  match item with
  | SIf _ tb eib eb => all (S d) tb && all (S d) eb &&
      match eib with
      | Some l => forallb (fun i => match i with SIf _ tb' _ _ => all (S d) tb' | _ => true end) l
      | None => true
      end
  | SLoop _ _ _ _ b => all (S d) b
  | STry b ca => gap_ok c d b && gap_ok c d ca && all (S d) b && all (S d) ca
  | _ => true
  end.
Definition all_fine (c : conf) (d : nat) (b : slice) : bool := forallb (fine c d) (elems b).
Definition top_fine (c : conf) (s : stmt) : bool := match s with SFunc _ _ _ b _ _ _ => all_fine c 1 b | _ => fine c 0 s end.

Lemma fine_if c d e tb eib eb : fine c d (SIf e tb eib eb) =
  all_fine c (S d) tb && all_fine c (S d) eb && forallb (fun i => match i with SIf _ tb' _ _ => all_fine c (S d) tb' | _ => true end) (elems eib).
Proof.
  cbn [fine]. f_equal; [f_equal; [destruct tb|destruct eb]; reflexivity|]. destruct eib as [l|]; [|reflexivity]. cbn [elems].
  induction l as [|x l IH]; [reflexivity|]. cbn [forallb]. rewrite IH. f_equal. destruct x; try reflexivity. destruct tb0; reflexivity.
Qed.
Lemma fine_loop c d f t i w b : fine c d (SLoop f t i w b) = all_fine c (S d) b.
Proof. destruct b; reflexivity. Qed.
Lemma fine_try c d b h : fine c d (STry b h) = gap_ok c d b && gap_ok c d h && all_fine c (S d) b && all_fine c (S d) h.
Proof. destruct b, h; reflexivity. Qed.
Lemma itoks_if e tb eib eb : itoks (SIf e tb eib eb) =
  K tIf :: pt false (ME 0) e ++ K tThen :: btoks tb ++ flat_map branch_toks (elems eib) ++
  (match eb with None => [] | Some _ => K tElse :: btoks eb end) ++ [K tEndIf; Pct ";"].
Proof.
  cbn [itoks]. do 4 f_equal. { destruct tb; reflexivity. } f_equal.
  - destruct eib as [l|]; [|reflexivity]. cbn [elems]. induction l as [|x l IH]; [reflexivity|]. cbn [flat_map]. rewrite IH. f_equal.
    destruct x; try reflexivity. destruct tb0; reflexivity.
  - f_equal. destruct eb; reflexivity.
Qed.
Lemma itoks_loop f t i w b : itoks (SLoop f t i w b) =
  (if is_nil w then [K tFor] else K tWhile :: pt false (ME 0) w ++ [K tLoop]) ++
  (if is_nil i then [] else match f with
     | SStr n => K tEach :: word_tk false n :: K tIn :: pt false (ME 0) i ++ [K tLoop]
     | _ => [] end) ++
  (if is_nil t then [] else pt false (ME 0) f ++ K tTo :: pt false (ME 0) t ++ [K tLoop]) ++
  btoks b ++ [K tEndLoop; Pct ";"].
Proof. cbn [itoks]. do 4 f_equal. destruct b; reflexivity. Qed.
Lemma itoks_try b h : itoks (STry b h) = K tTry :: btoks b ++ K tCatch :: btoks h ++ [K tEndTry; Pct ";"].
Proof. destruct b, h; reflexivity. Qed.

Lemma newline_blanks c n : blanks (newLine c n).
Proof. unfold newLine. destruct (oneLine c); [constructor | apply blanks_nl]. Qed.
Lemma spaces_blanks z sp : spaces z = Some sp -> blanks sp.
Proof. unfold spaces. destruct (_ <? 0); [discriminate|]. intros [= <-]. apply blanks_sp. Qed.
Lemma item_start c d x t : printBodyItem c d x = Some t -> exists sp r, spaces (margin c * Z.of_nat d) = Some sp /\ t = sp ++ r.
Proof.
  destruct x; cbn [printBodyItem]; (destruct (spaces (margin c * Z.of_nat d)) as [sp|]; [|discriminate]); cbn [obind];
  match goal with |- obind ?o _ = Some _ -> _ => destruct o as [r|]; [|discriminate] | _ => idtac end; cbn [obind]; intros [= <-]; eauto.
Qed.
Lemma wend_blank b s : blanks b -> b <> [] -> wend (b ++ s).
Proof. intros Hb Hn. destruct b as [|x b]; [congruence|]. unfold wend. cbn [app]. destruct (blank_cur _ _ (b ++ s) Hb) as [-> Hx]. apply space_wend, Hx. Qed.
Lemma spaces_some z sp : spaces z = Some sp -> 0 < z -> sp <> [].
Proof. unfold spaces. destruct (z <? 0) eqn:E; [discriminate|]. intros [= <-] Hz. destruct (Z.to_nat z) eqn:E2; [lia|discriminate]. Qed.
Lemma body_start c d b r sp rest : printBody c (S d) b = Some r -> gap_ok c d b = true -> spaces (margin c * Z.of_nat d) = Some sp ->
  wend (r ++ sp ++ rest).
Proof.
  unfold printBody, gap_ok. intros H Hg Hsp. destruct (oneLine c) eqn:Eo; cbn [negb orb] in Hg.
  - apply andb_true_iff in Hg as [Hm Hg]. apply Z.ltb_lt in Hm. unfold newLine in H. rewrite Eo in H. unfold empty_block in Hg.
    destruct (elems b) as [|x l]; cbn [map oconcat obind app] in H.
    + injection H as <-. cbn [negb orb] in Hg. apply Nat.ltb_lt in Hg. cbn [app]. apply wend_blank; [eapply spaces_blanks; eassumption|].
      eapply spaces_some; [eassumption|]. nia.
    + destruct (printBodyItem c (S d) x) as [t|] eqn:Et; [|discriminate]. cbn [obind] in H. destruct (oconcat _); [|discriminate]. cbn [obind] in H.
      injection H as <-. destruct (item_start _ _ _ _ Et) as (sp2 & r & Hsp2 & ->). cbn [app]. rewrite <- ?app_assoc.
      apply wend_blank; [eapply spaces_blanks; eassumption|]. eapply spaces_some; [eassumption|]. nia.
  - assert (En : newLine c 1 = [x0a]) by (unfold newLine; rewrite Eo; reflexivity). rewrite En in H.
    destruct (elems b) as [|x l]; cbn [map oconcat obind app] in H; [injection H as <-; reflexivity|].
    destruct (printBodyItem c (S d) x) as [t|]; [|discriminate]. cbn [obind] in H. destruct (oconcat _); [|discriminate]. cbn [obind] in H.
    injection H as <-. reflexivity.
Qed.

Lemma body_writes c d b r : (forall x, In x (elems b) -> forall t, printBodyItem c d x = Some t -> writes false any t (itoks x)) ->
  printBody c d b = Some r -> writes false any r (btoks b).
Proof.
  unfold printBody, btoks. intros Hx H. destruct (oconcat _) as [t|] eqn:E; [|discriminate]. cbn [obind] in H. injection H as <-.
  assert (Ht : writes false any t (flat_map itoks (elems b))).
  { revert t E. induction (elems b) as [|x l IH]; intros t E; [injection E as <-; apply writes_nil|].
    cbn [map oconcat] in E. destruct (printBodyItem c d x) as [t1|] eqn:E1; [|discriminate]. cbn [obind] in E.
    destruct (oconcat _) as [t2|]; [|discriminate]. cbn [obind] in E. injection E as <-. cbn [flat_map]. rewrite <- app_assoc.
    apply writes_blanks; [apply newline_blanks|]. apply writes_app with (E1 := any); [apply Hx; [left; reflexivity|exact E1]| |intros; exact I].
    apply IH; [|reflexivity]. intros y Hy. apply Hx. right. exact Hy. }
  rewrite <- (app_nil_r (flat_map _ _)). apply writes_app with (E1 := any); [exact Ht | apply writes_blank, newline_blanks | intros; exact I].
Qed.

Ltac kw w := apply (reads_kw w); [vm_compute; reflexivity|vm_compute; reflexivity| |].
Ltac kws w := apply (reads_kws w); [vm_compute; reflexivity|vm_compute; reflexivity|].
Lemma ends_kw n rest : wordb n = true -> ends (B " " ++ n ++ rest).
Proof.
  intros H. apply wordb_spec in H as (w & (c & w' & -> & Hc & _) & ->). apply isLetter_spec in Hc.
  assert (E : cur (string_of_runes (c :: w') ++ rest) = c).
  { cbn [string_of_runes flat_map]. rewrite <- app_assoc. apply cur_encode, letter_valid, Hc. }
  apply ends_blank; [left; reflexivity|..]; rewrite E.
  - apply letter_class, Hc.
  - intros ->. vm_compute in Hc. discriminate.
Qed.
Lemma reads_end c rest l : reads false rest l -> reads false (B ";" ++ newLine c 1 ++ rest) (Pct ";" :: l).
Proof. intros H. apply (reads_p 59); [reflexivity|]. apply reads_blanks; [apply newline_blanks | exact H]. Qed.

Lemma some_inj {A} (x y : A) : Some x = Some y -> x = y. Proof. congruence. Qed.
Ltac some_sub H := apply some_inj in H; subst.
Lemma item_writes c s : built s -> single s ->
  (forall d t, fine c d s = true -> printBodyItem c d s = Some t -> writes false any t (itoks s)) /\
  (forall e tb x y, s = SIf e tb x y -> forall d r, all_fine c d tb = true -> printBody c d tb = Some r -> writes false any r (btoks tb)).
Proof.
  induction s as [s IH] using stmt_parts_ind. intros Hb Hs. pose proof (pr_writes s Hb Hs) as (HP & _).
  apply built_inv in Hb as [Hb Hbs]. apply single_inv in Hs as [Hs Hss]. rewrite Forall_forall in Hbs, Hss.
  assert (HW : forall x, In x (parts s) -> forall m, wr m x) by (intros x Hx; apply pr_writes; auto).
  assert (HB : forall b, (forall x, In x (elems b) -> In x (parts s)) -> forall d r, all_fine c d b = true -> printBody c d b = Some r -> writes false any r (btoks b)).
  { intros b Hi d r Hf. apply body_writes. intros x Hx t Ht. unfold all_fine in Hf. rewrite forallb_forall in Hf. eapply IH; eauto. }
  split.
  2: { intros e tb x y ->. apply HB. intros z Hz. cbn [parts]. cbn. rewrite ?in_app_iff. auto. }
  intros d t Hf Ht rest l' _ Hl.
  assert (Hsp : exists sp, spaces (margin c * Z.of_nat d) = Some sp /\ blanks sp).
  { destruct (item_start _ _ _ _ Ht) as (sp & r & E & _). exists sp. split; [exact E | eapply spaces_blanks; exact E]. }
  destruct Hsp as (sp & Esp & Hsp).
  (* expressions *)
  assert (Hdef : forall m, printBodyItem c d s = Some (sp ++ pr m s ++ B ";") -> itoks s = pt false m s ++ [Pct ";"] -> reads false (t ++ rest) (itoks s ++ l')).
  { intros m E1 E2. rewrite E1 in Ht. some_sub Ht. rewrite E2, <- !app_assoc. apply reads_blanks; [exact Hsp|]. apply HP; [apply (ends_punct 59); cbn; auto|].
    apply (reads_p 59 rest l' eq_refl Hl). }
  destruct s; try (apply (Hdef MV); [cbn [printBodyItem]; rewrite Esp; reflexivity | reflexivity]).
  - (* chain *) apply (Hdef MC); [cbn [printBodyItem]; rewrite Esp; reflexivity | reflexivity].
  - (* If *)
    rewrite item_if, Esp in Ht. cbn [obind] in Ht. rewrite fine_if, !andb_true_iff in Hf. destruct Hf as ((F1 & F2) & F3).
    destruct (printBody c (S d) tb) as [r1|] eqn:E1; [|discriminate]. cbn [obind] in Ht.
    match type of Ht with context [oconcat ?x] => destruct (oconcat x) as [r2|] eqn:E2; [|discriminate] end. cbn [obind] in Ht.
    match type of Ht with context [obind (match eb with _ => _ end)] => destruct (match eb with None => Some [] | Some _ => r <~ printBody c (S d) eb; Some (sp ++ B "Иначе " ++ r) end) as [r3|] eqn:E3; [|discriminate] end. cbn [obind] in Ht.
    some_sub Ht. rewrite itoks_if.
    assert (W1 : writes false any r1 (btoks tb)).
    { apply (HB tb) with (d := S d); [|exact F1|exact E1]. intros z Hz. cbn [parts]. cbn. rewrite ?in_app_iff. auto. }
    assert (W2 : writes false any r2 (flat_map branch_toks (elems eib))).
    { assert (Hin : forall i, In i (elems eib) -> In i (parts (SIf s tb eib eb))) by (intros i Hi; cbn [parts]; cbn; rewrite ?in_app_iff; auto).
      clear - E2 F3 Hin IH Hbs Hss HW Hsp. revert r2 E2 Hin F3. induction (elems eib) as [|i l IHl]; intros r2 E2 Hin F3; [some_sub E2; apply writes_nil|].
      cbn [map oconcat] in E2. destruct i; try discriminate E2. destruct (printBody c (S d) tb0) as [rb|] eqn:Eb; [|discriminate]. cbn [obind] in E2.
      destruct (oconcat _) as [r'|]; [|discriminate]. cbn [obind] in E2. some_sub E2. cbn [flat_map forallb] in *. apply andb_true_iff in F3 as [F3 F4].
      assert (Hi : In (SIf i tb0 eib0 eb0) (parts (SIf s tb eib eb))) by (apply Hin; left; reflexivity).
      destruct (IH _ Hi (Hbs _ Hi) (Hss _ Hi)) as [_ IH2]. specialize (IH2 _ _ _ _ eq_refl (S d) rb F3 Eb).
      apply writes_app with (E1 := any); [|apply IHl; [reflexivity|intros; apply Hin; right; assumption|exact F4]|intros; exact I].
      intros rest l' _ Hl. rewrite <- ?app_assoc. apply reads_blanks; [exact Hsp|]. cbn [branch_toks app]. rewrite <- ?app_assoc.
      change (B "ИначеЕсли ") with (B "ИначеЕсли" ++ B " "). change (B " Тогда ") with (B " " ++ B "Тогда" ++ B " "). rewrite <- ?app_assoc. kws (B "ИначеЕсли").
      assert (We : wr (ME 0) i) by (destruct (built_inv _ (Hbs _ Hi)) as [_ B1]; destruct (single_inv _ (Hss _ Hi)) as [_ B2]; rewrite Forall_forall in B1, B2; apply pr_writes; [apply B1|apply B2]; cbn; auto).
      apply We; [apply ends_kw; vm_compute; reflexivity|]. cbn [app]. apply reads_sp. kws (B "Тогда"). apply IH2; [exact I | exact Hl]. }
    assert (W3 : writes false any r3 (match eb with None => [] | Some _ => K tElse :: btoks eb end)).
    { destruct eb as [eb|]; [|some_sub E3; apply writes_nil]. destruct (printBody c (S d) (Some eb)) as [rb|] eqn:Eb; [|discriminate]. some_sub E3.
      intros rest2 l2 _ Hl2. rewrite <- ?app_assoc. apply reads_blanks; [exact Hsp|]. change (B "Иначе ") with (B "Иначе" ++ B " "). rewrite <- ?app_assoc. cbn [app]. kws (B "Иначе").
      eapply (HB (Some eb)); [|exact F2|exact Eb|exact I|exact Hl2]. intros z Hz. cbn [parts]. cbn. rewrite ?in_app_iff. auto. }
    rewrite <- ?app_assoc. apply reads_blanks; [exact Hsp|]. change (B "Если ") with (B "Если" ++ B " "). change (B " Тогда ") with (B " " ++ B "Тогда" ++ B " "). rewrite <- ?app_assoc. cbn [app]. kws (B "Если").
    rewrite <- ?app_assoc. apply (HW s); [cbn; auto|apply ends_kw; vm_compute; reflexivity|]. cbn [app]. apply reads_sp. kws (B "Тогда"). rewrite <- ?app_assoc.
    apply W1; [exact I|]. apply W2; [exact I|]. apply W3; [exact I|]. apply reads_blanks; [exact Hsp|]. cbn [app]. kw (B "КонецЕсли"); [apply (wend_p 59); cbn; auto 10|]. apply reads_end, Hl.
  - (* Try *)
    rewrite item_try, Esp in Ht. cbn [obind] in Ht. rewrite fine_try, !andb_true_iff in Hf. destruct Hf as (((G1 & G2) & F1) & F2).
    assert (En : printBody c (S d) None = Some (newLine c 1)) by reflexivity.
    assert (X1 : match body with Some _ => printBody c (S d) body | None => Some (newLine c 1) end = printBody c (S d) body) by (destruct body; [reflexivity|symmetry; exact En]).
    assert (X2 : match catch with Some _ => printBody c (S d) catch | None => Some (newLine c 1) end = printBody c (S d) catch) by (destruct catch; [reflexivity|symmetry; exact En]).
    rewrite X1, X2 in Ht. destruct (printBody c (S d) body) as [r1|] eqn:E1; [|discriminate]. cbn [obind] in Ht.
    destruct (printBody c (S d) catch) as [r2|] eqn:E2; [|discriminate]. cbn [obind] in Ht. some_sub Ht. rewrite itoks_try.
    assert (W1 : writes false any r1 (btoks body)) by (apply (HB body) with (d := S d); [intros z Hz; cbn [parts]; rewrite ?in_app_iff; auto|exact F1|exact E1]).
    assert (W2 : writes false any r2 (btoks catch)) by (apply (HB catch) with (d := S d); [intros z Hz; cbn [parts]; rewrite ?in_app_iff; auto|exact F2|exact E2]).
    rewrite <- ?app_assoc. apply reads_blanks; [exact Hsp|]. cbn [app]. kw (B "Попытка"); [eapply body_start; eassumption|]. rewrite <- ?app_assoc. apply W1; [exact I|].
    apply reads_blanks; [exact Hsp|]. cbn [app]. kw (B "Исключение"); [eapply body_start; eassumption|]. rewrite <- ?app_assoc. apply W2; [exact I|].
    apply reads_blanks; [exact Hsp|]. cbn [app]. kw (B "КонецПопытки"); [apply (wend_p 59); cbn; auto 10|]. apply reads_end, Hl.
  - (* Throw *)
    cbn [printBodyItem] in Ht. rewrite Esp in Ht. cbn [obind] in Ht. some_sub Ht. cbn [itoks]. rewrite <- ?app_assoc. apply reads_blanks; [exact Hsp|]. cbn [app].
    assert (Hx : In s (parts (SThrow s))) by (cbn; auto).
    assert (HA : forall ps, (forall x, In x (elems ps) -> wr MV x) -> reads false ((B "(" ++ printParams ps ++ B ")") ++ B ";" ++ rest) ((Pct "(" :: tjoin (map (pt false MV) (elems ps)) ++ [Pct ")"]) ++ Pct ";" :: l')).
    { intros ps Hps. pose proof (writes_args ps any Hps (B ";" ++ rest) (Pct ";" :: l') I (reads_p 59 rest l' eq_refl Hl)) as X.
      unfold printParams, printVarStatement. destruct ps; exact X. }
    assert (HO : reads false ((B "(" ++ printParams (Some [s]) ++ B ")") ++ B ";" ++ rest) ((Pct "(" :: pt false MV s ++ [Pct ")"]) ++ Pct ";" :: l')).
    { apply (HA (Some [s])). intros x [<-|[]]. apply HW, Hx. }
    destruct s; try (rewrite <- ?app_assoc; kw (B "ВызватьИсключение"); [first [apply (wend_p 40); cbn; auto 10 | apply (wend_p 59); cbn; auto 10] | rewrite <- ?app_assoc in HO; first [exact HO | apply (reads_p 59 rest l' eq_refl Hl)]]).
    kw (B "ВызватьИсключение"); [rewrite <- ?app_assoc; apply (wend_p 40); cbn; auto 10|].
    rewrite <- (app_assoc _ [Pct ";"] l'). apply HA. intros x Hx2. specialize (Hbs _ Hx). specialize (Hss _ Hx). apply built_inv in Hbs as [_ Hbs]. apply single_inv in Hss as [_ Hss].
    rewrite Forall_forall in Hbs, Hss. apply pr_writes; [apply Hbs | apply Hss]; exact Hx2.
  - (* Return *)
    cbn [printBodyItem] in Ht. rewrite Esp in Ht. cbn [obind] in Ht. some_sub Ht. cbn [itoks]. rewrite <- ?app_assoc. apply reads_blanks; [exact Hsp|]. cbn [app].
    assert (Hx : wr (ME 0) s) by (apply HW; cbn; auto).
    assert (HO : reads false ((B " " ++ printExpression s 0) ++ B ";" ++ rest) (pt false (ME 0) s ++ Pct ";" :: l')).
    { rewrite <- app_assoc. apply reads_sp. apply Hx; [apply (ends_punct 59); cbn; auto|]. apply (reads_p 59 rest l' eq_refl Hl). }
    rewrite <- app_assoc. destruct s; (kw (B "Возврат"); [first [apply (wend_p 59); cbn; auto 10 | rewrite <- app_assoc; apply wend_sp] | first [exact HO | apply (reads_p 59 rest l' eq_refl Hl)]]).
  - (* Break *)
    cbn [printBodyItem] in Ht. rewrite Esp in Ht. cbn [obind] in Ht. some_sub Ht. cbn [itoks]. rewrite <- ?app_assoc. apply reads_blanks; [exact Hsp|]. cbn [app].
    change (B "Прервать;") with (B "Прервать" ++ B ";"). rewrite <- app_assoc. kw (B "Прервать"); [apply (wend_p 59); cbn; auto 10|]. apply (reads_p 59 rest l' eq_refl Hl).
  - (* Continue *)
    cbn [printBodyItem] in Ht. rewrite Esp in Ht. cbn [obind] in Ht. some_sub Ht. cbn [itoks]. rewrite <- ?app_assoc. apply reads_blanks; [exact Hsp|]. cbn [app].
    change (B "Продолжить;") with (B "Продолжить" ++ B ";"). rewrite <- app_assoc. kw (B "Продолжить"); [apply (wend_p 59); cbn; auto 10|]. apply (reads_p 59 rest l' eq_refl Hl).
  - (* Loop *)
    rewrite item_loop, Esp in Ht. cbn [obind] in Ht. rewrite fine_loop in Hf. rewrite itoks_loop. cbn [local] in Hb.
    match type of Ht with context [obind (if is_nil ?i then _ else _)] => destruct (if is_nil i then Some [] else match s1 with SStr n => Some (B "Каждого " ++ n ++ B " Из " ++ printExpression i 0 ++ B " Цикл ") | _ => None end) as [h2|] eqn:E2; [|discriminate] end.
    cbn [obind] in Ht. destruct (printBody c (S d) body) as [r1|] eqn:E1; [|discriminate]. cbn [obind] in Ht. some_sub Ht.
    assert (W1 : writes false any r1 (btoks body)) by (apply (HB body) with (d := S d); [intros z Hz; cbn [parts]; cbn; auto|exact Hf|exact E1]).
    change (B " Цикл ") with (B " " ++ B "Цикл" ++ B " ") in *. change (B " По ") with (B " " ++ B "По" ++ B " ") in *. change (B " Из ") with (B " " ++ B "Из" ++ B " ") in *.
    assert (Hc : forall x, In x (parts (SLoop s1 s2 s3 s4 body)) -> writes false any (printExpression x 0 ++ B " " ++ B "Цикл" ++ B " ") (pt false (ME 0) x ++ [K tLoop])).
    { intros x Hx rest2 l2 _ H2. rewrite <- ?app_assoc. apply (HW x Hx); [apply ends_kw; vm_compute; reflexivity|]. apply reads_sp. cbn [app]. kws (B "Цикл"). exact H2. }
    rewrite <- ?app_assoc. apply reads_blanks; [exact Hsp|].
    assert (T : reads false (r1 ++ sp ++ B "КонецЦикла" ++ B ";" ++ newLine c 1 ++ rest) (btoks body ++ K tEndLoop :: Pct ";" :: l')).
    { apply W1; [exact I|]. apply reads_blanks; [exact Hsp|]. kw (B "КонецЦикла"); [apply (wend_p 59); cbn; auto 10|]. apply reads_end, Hl. }
    assert (T3 : reads false ((if is_nil s2 then [] else printExpression s1 0 ++ (B " " ++ B "По" ++ B " ") ++ printExpression s2 0 ++ B " " ++ B "Цикл" ++ B " ") ++
       r1 ++ sp ++ B "КонецЦикла" ++ B ";" ++ newLine c 1 ++ rest)
       ((if is_nil s2 then [] else pt false (ME 0) s1 ++ K tTo :: pt false (ME 0) s2 ++ [K tLoop]) ++ btoks body ++ K tEndLoop :: Pct ";" :: l')).
    { destruct (is_nil s2); [exact T|]. rewrite <- ?app_assoc. apply (HW s1); [cbn; auto|apply ends_kw; vm_compute; reflexivity|].
      apply reads_sp. cbn [app]. kws (B "По"). specialize (Hc s2 ltac:(cbn; auto) _ _ I T). rewrite <- ?app_assoc in *. exact Hc. }
    assert (T2 : reads false (h2 ++ (if is_nil s2 then [] else printExpression s1 0 ++ (B " " ++ B "По" ++ B " ") ++ printExpression s2 0 ++ B " " ++ B "Цикл" ++ B " ") ++
       r1 ++ sp ++ B "КонецЦикла" ++ B ";" ++ newLine c 1 ++ rest)
       ((if is_nil s3 then [] else match s1 with SStr n => K tEach :: word_tk false n :: K tIn :: pt false (ME 0) s3 ++ [K tLoop] | _ => [] end) ++
        (if is_nil s2 then [] else pt false (ME 0) s1 ++ K tTo :: pt false (ME 0) s2 ++ [K tLoop]) ++ btoks body ++ K tEndLoop :: Pct ";" :: l')).
    { destruct (is_nil s3) eqn:E3; [some_sub E2; exact T3|]. destruct Hb as [Hb|(n & -> & Hn)]; [congruence|]. some_sub E2.
      change (B "Каждого ") with (B "Каждого" ++ B " "). rewrite <- ?app_assoc. cbn [app]. kws (B "Каждого"). apply (writes_word false n Hn); [apply wend_sp|]. apply reads_sp. kws (B "Из").
      specialize (Hc s3 ltac:(cbn; auto) _ _ I T3). rewrite <- ?app_assoc in *. exact Hc. }
    destruct (is_nil s4).
    + change (B "Для ") with (B "Для" ++ B " "). rewrite <- ?app_assoc. cbn [app]. kws (B "Для"). rewrite <- ?app_assoc in T2. exact T2.
    + change (B "Пока ") with (B "Пока" ++ B " "). rewrite <- ?app_assoc. cbn [app]. kws (B "Пока"). specialize (Hc s4 ltac:(cbn; auto) _ _ I T2). rewrite <- ?app_assoc in *. exact Hc.
  - (* GoTo *)
    destruct label as [n|]; [|cbn [printBodyItem] in Ht; rewrite Esp in Ht; discriminate]. cbn [local] in Hb.
    cbn [printBodyItem] in Ht. rewrite Esp in Ht. cbn [obind] in Ht. some_sub Ht. cbn [itoks]. rewrite <- ?app_assoc. apply reads_blanks; [exact Hsp|]. cbn [app].
    change (B "Перейти ") with (B "Перейти" ++ B " "). rewrite <- app_assoc. kws (B "Перейти").
    pose proof (writes_label n Hb) as X. specialize (X (B ";" ++ newLine c 1 ++ rest) (Pct ";" :: l')). rewrite <- app_assoc in X. apply X; [apply (wend_p 59); cbn; auto 10|]. apply reads_end, Hl.
  - (* Label *)
    cbn [local] in Hb.
    cbn [printBodyItem] in Ht. rewrite Esp in Ht. cbn [obind] in Ht. some_sub Ht. cbn [itoks]. rewrite <- ?app_assoc. apply reads_blanks; [exact Hsp|]. cbn [app].
    pose proof (writes_label name Hb) as X. specialize (X (B ":" ++ newLine c 1 ++ rest) (Pct ":" :: l')). rewrite <- app_assoc in X. apply X; [apply (wend_p 58); cbn; auto 10|].
    apply (reads_p 58); [reflexivity|]. apply reads_blanks; [apply newline_blanks|exact Hl].
Qed.

(** * Declarations *)
Lemma reads_dir d rest l : dir_ok d -> reads false rest l ->
  reads false ((match d with [] => [] | b :: d' => [x0a] ++ (b :: d') ++ [x0a] end) ++ rest) ((match d with [] => [] | b :: d' => [KDir (b :: d')] end) ++ l).
Proof.
  intros Hd Hl. destruct d as [|b d]; [exact Hl|]. destruct Hd as [Hd|Hd]; [discriminate|]. rewrite <- !app_assoc.
  apply (reads_blanks false [x0a]); [apply (blanks_nl 1)|]. apply (writes_directive _ Hd); [reflexivity|]. apply (reads_blanks false [x0a]); [apply (blanks_nl 1)|exact Hl].
Qed.
Lemma reads_dir2 d rest l : dir_ok d -> reads false rest l ->
  reads false ((match d with [] => [] | _ :: _ => [x0a] ++ d ++ [x0a] end) ++ rest) ((match d with [] => [] | _ :: _ => [KDir d] end) ++ l).
Proof. intros Hd Hl. pose proof (reads_dir d rest l Hd Hl) as H. destruct d; exact H. Qed.
Lemma gvar_writes v : gvar_ok v -> writes false any (printGlobalVariable v) (gvar_toks v).
Proof.
  intros [Hn Hd] rest l' _ Hl. unfold printGlobalVariable, gvar_toks. rewrite <- ?app_assoc. apply (reads_dir (gv_dir v)); [exact Hd|]. cbn [app].
  change (B "Перем ") with (B "Перем" ++ B " "). rewrite <- ?app_assoc. kws (B "Перем").
  assert (He : reads false (B ";" ++ rest) (Pct ";" :: l')) by (apply (reads_p 59); [reflexivity|exact Hl]).
  destruct (gv_export v).
  - change (B " Экспорт ") with (B " " ++ B "Экспорт" ++ B " "). rewrite <- ?app_assoc. apply (writes_word false _ Hn); [apply wend_sp|]. apply reads_sp. cbn [app]. kws (B "Экспорт"). exact He.
  - apply (writes_word false _ Hn); [apply (wend_p 59); cbn; auto 10|]. exact He.
Qed.
Lemma param_writes p : wordb (snd (fst p)) = true -> wr MV (fst (fst p)) -> writes false ends (printParam p) (param_toks p).
Proof.
  destruct p as [[def name] v]. cbn [fst snd]. intros Hn Hw rest l' Hr Hl. unfold printParam, param_toks. rewrite <- ?app_assoc.
  assert (H : reads false (name ++ (match printVarStatement def with [] => [] | t => B " = " ++ t end) ++ rest)
     (word_tk false name :: (match printVarStatement def with [] => [] | _ => K tEQUAL :: pt false MV def end) ++ l')).
  { destruct (printVarStatement def) as [|b t] eqn:E.
    - apply (writes_word false _ Hn); [apply ends_wend, Hr | exact Hl].
    - change (B " = ") with (B " " ++ B "=" ++ B " "). rewrite <- ?app_assoc. apply (writes_word false _ Hn); [apply wend_sp|]. cbn [app].
      apply (reads_op OpEq); [discriminate|]. change (b :: t ++ rest) with ((b :: t) ++ rest). rewrite <- E. apply Hw; [exact Hr|exact Hl]. }
  destruct v.
  - change (B "Знач ") with (B "Знач" ++ B " "). rewrite <- ?app_assoc. cbn [app]. kws (B "Знач"). exact H.
  - exact H.
Qed.
Lemma params_writes l : Forall (fun p : param => wordb (snd (fst p)) = true) l -> (forall p, In p l -> wr MV (fst (fst p))) ->
  writes false ends (join (B ", ") (map printParam l)) (tjoin (map param_toks l)).
Proof.
  induction l as [|x l IH]; intros H1 H2; [apply writes_nil|]. apply Forall_cons_iff in H1 as [H1 H1l]. cbn [map]. destruct l as [|y l].
  - apply param_writes; [exact H1 | apply H2; left; reflexivity].
  - cbn [join tjoin map] in *. intros rest l' Hr Hl. rewrite <- !app_assoc. cbn [app].
    apply param_writes; [exact H1 | apply H2; left; reflexivity | apply (ends_punct 44); cbn; auto|]. apply (reads_p 44); [reflexivity|]. apply reads_sp.
    apply IH; auto. intros z Hz. apply H2. right. exact Hz.
Qed.
Lemma func_writes c s t : built s -> single s -> is_func s = true -> top_fine c s = true -> printFunctionOrProcedure c s = Some t -> writes false any t (func_toks s).
Proof.
  intros Hb Hs Hf. destruct s; try discriminate Hf. cbn [top_fine printFunctionOrProcedure func_toks]. intros Hfi Ht.
  apply built_inv in Hb as [(Hn & Hd & Hty & Hps) Hbs]. apply single_inv in Hs as [_ Hss]. rewrite Forall_forall in Hbs, Hss.
  destruct (printBody c 1 body) as [r|] eqn:E; [|discriminate]. cbn [obind] in Ht. some_sub Ht.
  assert (W : writes false any r (btoks body)).
  { eapply body_writes; [|exact E]. intros x Hx t Ht. unfold all_fine in Hfi. rewrite forallb_forall in Hfi.
    eapply item_writes; [| |apply Hfi, Hx|exact Ht]; [apply Hbs | apply Hss]; cbn [parts]; rewrite ?in_app_iff; auto. }
  intros rest l' _ Hl. rewrite <- ?app_assoc. apply (reads_dir2 directive); [exact Hd|]. cbn [app].
  assert (Hx : reads false (r ++ match ty with PFFunction => newLine c 2 ++ B "КонецФункции " | PFProcedure => newLine c 2 ++ B "КонецПроцедуры " | _ => [] end ++ rest)
     (btoks body ++ [K (match ty with PFFunction => tEndFunction | _ => tEndProcedure end)] ++ l')).
  { apply W; [exact I|]. destruct ty; [congruence|..]; rewrite <- ?app_assoc; (apply reads_blanks; [apply newline_blanks|]); cbn [app].
    - change (B "КонецПроцедуры ") with (B "КонецПроцедуры" ++ B " "). rewrite <- ?app_assoc. kws (B "КонецПроцедуры"). exact Hl.
    - change (B "КонецФункции ") with (B "КонецФункции" ++ B " "). rewrite <- ?app_assoc. kws (B "КонецФункции"). exact Hl. }
  assert (Hy : reads false (name ++ B "(" ++ join (B ", ") (map printParam params) ++ B ")" ++ B " " ++ (if export then B "Экспорт " else []) ++ newLine c 1 ++ r ++
      match ty with PFFunction => newLine c 2 ++ B "КонецФункции " | PFProcedure => newLine c 2 ++ B "КонецПроцедуры " | _ => [] end ++ rest)
     (word_tk false name :: Pct "(" :: (tjoin (map param_toks params) ++ Pct ")" :: (if export then [K tExport] else []) ++ btoks body ++
       [K (match ty with PFFunction => tEndFunction | _ => tEndProcedure end)]) ++ l')).
  { apply (writes_word false _ Hn); [apply (wend_p 40); cbn; auto 10|]. apply (reads_p 40); [reflexivity|]. rewrite <- app_assoc. cbn [app]. rewrite <- ?app_assoc.
    apply params_writes; [exact Hps| |apply (ends_punct 41); cbn; auto|].
    { intros p Hp. assert (Hin : In (fst (fst p)) (parts (SFunc vars name directive body params ty export))) by (cbn [parts]; rewrite ?in_app_iff; right; apply in_map_iff; exists p; destruct p as [[]]; auto).
      apply pr_writes; auto. }
    apply (reads_p 41); [reflexivity|]. apply reads_sp. destruct export.
    - change (B "Экспорт ") with (B "Экспорт" ++ B " "). rewrite <- ?app_assoc. cbn [app]. kws (B "Экспорт"). apply reads_blanks; [apply newline_blanks|exact Hx].
    - cbn [app]. apply reads_blanks; [apply newline_blanks|exact Hx]. }
  destruct ty; [congruence|..].
  - cbn [app] in Hy |- *. kws (B "Процедура"). exact Hy.
  - cbn [app] in Hy |- *. kws (B "Функция"). exact Hy.
Qed.

(** The text that [Print] returns is read back as [print_toks], which no option of the layout occurs in. *)
Theorem Print_writes order c m t : Forall gvar_ok order -> Forall built (elems (m_body m)) -> Forall single (elems (m_body m)) ->
  forallb (top_fine c) (elems (m_body m)) = true -> Print order c m = Some t -> tokens t (print_toks order m).
Proof.
  intros Ho Hb Hs Hf Ht. apply reads_tokens. unfold Print, print_toks in *. destruct (elems (m_body m)) as [|x0 l0] eqn:E; [some_sub Ht; apply reads_nil|].
  set (l := x0 :: l0) in *. clearbody l. clear E x0 l0.
  destruct (oconcat _) as [r|] eqn:Er; [|discriminate]. cbn [obind] in Ht. some_sub Ht.
  assert (W2 : writes false any r (flat_map (fun n => match n with SFunc _ _ _ _ _ _ _ => func_toks n | _ => itoks n end) l)).
  { revert r Er. induction l as [|x l IH]; intros r Er; [some_sub Er; apply writes_nil|]. cbn [map oconcat] in Er.
    apply Forall_cons_iff in Hb as [Hb1 Hb]. apply Forall_cons_iff in Hs as [Hs1 Hs]. cbn [forallb] in Hf. apply andb_true_iff in Hf as [Hf1 Hf].
    match type of Er with obind ?o _ = _ => destruct o as [t1|] eqn:E1; [|discriminate] end. cbn [obind] in Er.
    destruct (oconcat _) as [t2|]; [|discriminate]. cbn [obind] in Er. some_sub Er. cbn [flat_map].
    apply writes_app with (E1 := any); [|apply IH; auto|intros; exact I]. clear IH.
    assert (X : is_func x = false -> (exists u, printBodyItem c 0 x = Some u /\ t1 = newLine c 1 ++ u) -> fine c 0 x = true -> writes false any t1 (itoks x)).
    { intros _ (u & Hu & ->) Hfi. apply writes_blanks; [apply newline_blanks|]. eapply item_writes; eassumption. }
    destruct (is_func x) eqn:Ex.
    - destruct (printFunctionOrProcedure c x) as [u|] eqn:Eu; [|destruct x; try discriminate Ex; discriminate E1].
      assert (E2 : t1 = u ++ newLine c 3) by (destruct x; try discriminate Ex; cbn [obind] in E1; congruence). subst t1.
      replace (match x with SFunc _ _ _ _ _ _ _ => func_toks x | _ => itoks x end) with (func_toks x ++ []) by (rewrite app_nil_r; destruct x; try discriminate Ex; reflexivity).
      apply writes_app with (E1 := any); [eapply func_writes; eassumption | apply writes_blank, newline_blanks | intros; exact I].
    - destruct (printBodyItem c 0 x) as [u|] eqn:Eu; [|destruct x; try discriminate Ex; cbn [obind] in E1; congruence].
      assert (E2 : t1 = newLine c 1 ++ u) by (destruct x; try discriminate Ex; cbn [obind] in E1; congruence).
      replace (match x with SFunc _ _ _ _ _ _ _ => func_toks x | _ => itoks x end) with (itoks x) by (destruct x; try discriminate Ex; reflexivity).
      apply X; [reflexivity|eauto|]. destruct x; try discriminate Ex; exact Hf1. }
  assert (W1 : writes false any (concat (map (fun v => printGlobalVariable v ++ newLine c 1) order)) (flat_map gvar_toks order)).
  { induction order as [|v o IH]; [apply writes_nil|]. apply Forall_cons_iff in Ho as [Hv Ho]. cbn [map concat flat_map].
    apply writes_app with (E1 := any); [|apply IH, Ho|intros; exact I]. rewrite <- (app_nil_r (gvar_toks v)).
    apply writes_app with (E1 := any); [apply gvar_writes, Hv | apply writes_blank, newline_blanks | intros; exact I]. }
  pose proof (writes_app _ _ _ _ _ _ _ W1 W2 (fun _ _ => I) [] [] I (reads_nil _)) as X. rewrite !app_nil_r in X. exact X.
Qed.
