(** The statement a rule message is about, in a sequence of tokens. Specification (C49);
    [emsg] is only the list of messages a caller can see. *)
From Verif Require Import Bytes Float64 GoTime Ast Lexer Parser Grammar Tok Broken.
Open Scope Z_scope.

(** How many more tokens of the kind [o] than of the kind [c] there are. *)
Fixpoint balance (o c : Z) (l : list tk) : Z :=
  match l with
  | [] => 0
  | t :: l => (if kind_of t =? o then 1 else if kind_of t =? c then -1 else 0) + balance o c l
  end.

(** The tokens [l] have a declaration of the module variable [n]. *)
Definition declares (n : bytes) (l : list tk) : Prop :=
  exists u d v, l = u ++ d ++ v /\ derives n_global_variables (map kind_of d) /\ In (KId n) d.

(** The tokens [l] have a whole procedure or function. *)
Definition has_func (l : list tk) : Prop := exists u d v, l = u ++ d ++ v /\ derives n_funcProc (map kind_of d).
(** The tokens [l] end with a label, and it is not the value of an expression, nor the aim
    of Перейти. *)
Definition ends_with_label (l : list tk) : Prop :=
  exists u n, l = u ++ [KLabel n] /\ forall v t, u = v ++ [t] -> before_value (kind_of t) = false.

(** [culprit m pre c]: behind the tokens [pre], the tokens [c] are what the message [m]
    complains about. *)
Definition culprit (m : emsg) (pre c : list tk) : Prop :=
  match m with
  | MLoopOp _ =>        (* Прервать or Продолжить, all loops before it being closed *)
    (c = [K tBreak] \/ c = [K tContinue]) /\ balance tLoop tEndLoop pre <= 0
  | MThrow _ =>         (* ВызватьИсключение without a value, all handlers before it being closed *)
    c = [K tThrow] /\ balance tCatch tEndTry pre <= 0
  | MReturn =>          (* Возврат with a value, all functions before it being closed *)
    exists e, c = K tReturn :: e /\ derives n_expr (map kind_of e) /\ balance tFunction tEndFunction pre <= 0
  | MVarDup n =>        (* a declaration of the name in a procedure or function, which has declared it in the lists directly before *)
    exists ns, c = K tVar :: ns ++ [K 59] /\ derives n_identifiers (map kind_of ns) /\
      (twice (KId n) ns \/ In (KId n) ns /\ exists u vs, pre = u ++ vs /\ derives n_explicit_variables (map kind_of vs) /\ In (KId n) vs)
  | MGlobalDup n =>     (* a declaration of the name outside, which was declared before *)
    derives n_global_variables (map kind_of c) /\ (twice (KId n) c \/ In (KId n) c /\ declares n pre)
  | MGlobalPlace =>     (* a declaration outside, behind a procedure or function *)
    derives n_global_variables (map kind_of c) /\ has_func pre
  | MSemicolon =>       (* a colon, without a label before it, and the statement behind it *)
    (exists s, c = K 58 :: s /\ derives n_opt_stmt (map kind_of s)) /\ ~ ends_with_label pre
  | MSyntax | MFuncPlace => False
  end.
(** The token shown is the last one of the culprit, or, if the message is given only
    after it, the next one. *)
Definition shown_at (m : emsg) (pre c : list tk) (pre' : list tk) (k : tk) : Prop :=
  pre' ++ [k] = pre ++ c \/ (match m with MLoopOp _ => False | _ => True end /\ pre' = pre ++ c).
