(** C53, C54: what every tree looks like, and that it has a JSON text. *)
From Verif Require Import Bytes Utf8 UnicodeTables Float64 GoTime Ast Lexer LexFacts Utf8Facts LexSpec NumSpec NumProofs NumTokens
  Parser CellInv StmtInd PrintToks SpellInv Json Marshal TestLib.
Require Import Verif.Shapes.
Require Import Verif.ShapeInv.
Open Scope Z_scope.

(** * C53 Every tree is well formed *)
(** [history a]: the node [a] came from NewAST by any number of calls of Parse, whatever
    they returned. *)
Theorem C53_shape : forall a, history a -> shape (a_module a).
Proof. exact history_shape. Qed.

(** One call of Parse on a new node. *)
Corollary C53_parse : forall code a e, Parse (NewAST code) = Some (Ok (a, e)) -> shape (a_module a).
Proof. intros code a e H. apply C53_shape. eapply history_parse; [apply history_new|exact H]. Qed.

(** The shape excludes, for example: an empty statement in a block, a procedure behind a
    statement or in a block, a loop of two kinds at once, an operation without operator. *)
Lemma statement_not_nil : ~ statement SNil.
Proof. inversion 1 as [e He| | | | | | | | | |]. inversion He. Qed.
Lemma shape_no_nil m : shape m -> ~ In SNil (elems (m_body m)).
Proof.
  intros (_ & _ & _ & fs & ss & -> & Hf & Hs) Hin. rewrite Forall_forall in Hf, Hs. apply in_app_iff in Hin as [Hin|Hin].
  - specialize (Hf _ Hin). inversion Hf.
  - specialize (Hs _ Hin). exact (statement_not_nil Hs).
Qed.
Lemma shape_order m : shape m -> forall l1 x l2 y l3, elems (m_body m) = l1 ++ x :: l2 ++ y :: l3 -> is_func y = true -> is_func x = true.
Proof.
  intros (_ & _ & _ & fs & ss & -> & Hf & Hs) l1 x l2 y l3 E Hy.
  assert (K : forall fs l1, fs ++ ss = l1 ++ x :: l2 ++ y :: l3 -> Forall procedure fs -> is_func x = true); [|exact (K _ _ E Hf)].
  clear fs l1 E Hf. induction fs as [|f fs IH]; intros l1 E Hf.
  - exfalso. cbn [app] in E. subst ss. apply Forall_app in Hs as [_ Hs]. apply Forall_cons_iff in Hs as [_ Hs]. apply Forall_app in Hs as [_ Hs].
    apply Forall_cons_iff in Hs as [Hs _]. apply statement_func in Hs. congruence.
  - apply Forall_cons_iff in Hf as [Hf1 Hf2]. destruct l1 as [|z l1]; injection E as E1 E2; [subst f; apply procedure_func, Hf1|eapply IH; eassumption].
Qed.
Lemma shape_not_both e1 e2 e3 e4 b : ~ is_nil e3 = true -> ~ is_nil e4 = true -> ~ statement (SLoop e1 e2 e3 e4 b).
Proof. intros H3 H4 H. inversion H as [e He| | | | | | | | | |]; subst; try (apply H3; reflexivity); try (apply H4; reflexivity). inversion He. Qed.

(** A text that ends in an error; the tree it leaves behind has the shape. *)
Example C53_example :
  match Parse (NewAST (B "Перем а, а Экспорт; &НаСервере Функция Ф(Знач х = 1, у) Перем к; Если х Тогда ;Возврат у.з()[1]; ИначеЕсли НЕ у Тогда КонецЕсли; Для Каждого э Из у Цикл Прервать КонецЦикла; КонецФункции ф(,2); б = (")) with
  | Some (Ok (a, Some _)) => shape (a_module a) /\ length (elems (m_body (a_module a))) = 1%nat /\ length (elems (m_gvars (a_module a))) = 1%nat
  | _ => False
  end.
Proof.
  destruct (Parse _) as [[[a e]|]|] eqn:E.
  2,3: vm_compute in E; discriminate E.
  assert (H : shape (a_module a)) by (apply (C53_parse _ _ _ E)).
  vm_compute in E. injection E as E1 E2. subst e. split; [exact H|]. subst a. vm_compute. split; reflexivity.
Qed.

(** * C54 JSON returns no error *)
Lemma canonical_abs f : canonical f = canonical (f64_abs f). Proof. reflexivity. Qed.
Lemma finite_canonical f : is_f64 (f64_abs f) -> canonical f = true.
Proof.
  intros [_ H]. rewrite canonical_abs. unfold canonical, f64_abs in *. cbn [f_man f_exp] in *. rewrite !orb_true_iff, !andb_true_iff, ?Z.eqb_eq, ?Z.leb_le, ?Z.ltb_lt.
  change (2 ^ 52) with 4503599627370496 in *. change (2 ^ 53) with 9007199254740992 in *. lia.
Qed.
Lemma built_writable s : built s -> unwritable s = false.
Proof.
  revert s. apply (stmt_parts_ind (fun s => built s -> unwritable s = false)). intros s IH Hb. apply built_inv in Hb as [Hl Hp]. rewrite Forall_forall in Hp.
  assert (A : forall x, In x (parts s) -> unwritable x = false) by auto. clear IH Hp.
  assert (L : forall b : option (list stmt), (forall x, In x (elems b) -> In x (parts s)) -> match b with None => false | Some l => existsb unwritable l end = false).
  { intros [l|] H; [|reflexivity]. apply not_true_is_false. intros E. apply existsb_exists in E as (x & Hx & E). rewrite A in E by (apply H, Hx). discriminate. }
  destruct s; cbn [unwritable parts] in *; try reflexivity; rewrite ?orb_false_iff; repeat split;
    try (apply A; cbn; tauto); try (apply L; intros x Hx; cbn; rewrite ?in_app_iff; tauto).
  - apply negb_false_iff, finite_canonical, Hl.
  - destruct Hl as (Hy & _). lia.
  - destruct Hl as (Hy & _). lia.
  - apply not_true_is_false. intros E. apply existsb_exists in E as ([[x n] v] & Hx & E). rewrite A in E; [discriminate|].
    apply in_app_iff. right. apply in_map_iff. exists (x, n, v). auto.
Qed.
Theorem C54_json : forall a, history a -> Marshal (a_module a) = Some (JSON (a_module a)).
Proof.
  intros a H. apply history_built in H as [_ H]. unfold Marshal. destruct (m_body (a_module a)) as [l|]; [|reflexivity]. cbn [elems] in H.
  destruct (existsb unwritable l) eqn:E; [|reflexivity]. exfalso. apply existsb_exists in E as (x & Hx & E). rewrite Forall_forall in H.
  rewrite built_writable in E by (apply H, Hx). discriminate.
Qed.
(** JSON can fail on trees that were not parsed. *)
Example C54_example : exists m, Marshal m = None /\ (forall a, history a -> a_module a <> m).
Proof.
  exists (Module [] None (Some [STime (GoTime 10000 1 1 0 0 0)])). split; [reflexivity|]. intros a H E. apply C54_json in H. rewrite E in H. discriminate H.
Qed.
(** The last second that can be written, and the largest number. *)
Example C54_edge :
  match Parse (NewAST (B "а = '99991231235959'; б = -179769313486231580793728971405303415079934132710037826936173778980444968292764750946649017977587207096330286416692887910946555547851940402630657488671505820681908902000708383676273854845817711531764475730270069855571366959622842914819860834936475292719074168444365510704342711559699508093042880;")) with
  | Some (Ok (a, None)) => Marshal (a_module a) <> None
  | _ => False
  end.
Proof. vm_compute. discriminate. Qed.

Print Assumptions C53_shape. Print Assumptions C53_parse. Print Assumptions C54_json.
