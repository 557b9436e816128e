(** C63: what parsing costs. *)
From Verif Require Import Bytes Utf8 UnicodeTables Float64 GoTime Ast Lexer LexFacts LexSpec LexProofs Tables Parser Grammar CertData Cert
  Driver DriverInv LoudFacts LoudParse Past Cost CostFacts CostParse CostTold CostCount CostMany.
Open Scope Z_scope.

(** The scanner calls SrsCode at most 161 times for every byte of the text, and 28 times
    more: for every text, accepted or not. *)
Theorem C63_reads : forall code, (c_parse code <= 161 * length code + 28)%nat.
Proof.
  intros code. unfold c_parse. destruct (blank code); [lia|]. pose proof (run_price (parse_fuel code) _ (init_inv (NewAST code))) as H.
  rewrite init_potential in H. pose proof (price_le (rest_p (init_pst (NewAST code)))) as P. unfold rest_p, rest_of in *.
  change (tk_off (v_token (p_lval (init_pst (NewAST code))))) with 0%nat in *. cbn [skipn init_pst p_ast NewAST a_code] in *. lia.
Qed.

(** Error is called, and so GetPosition counts the lines before a token, never for an
    accepted text, and at least once if Parse returns a message with a place. *)
Theorem C63_accepted : forall code a, parse code = Some (Ok (a, None)) -> e_parse code = [].
Proof.
  intros code a. unfold parse, Parse, e_parse. cbn [NewAST a_code]. destruct (blank code); [reflexivity|].
  destruct (run _ _) as [[[x b]|]|] eqn:E; [|discriminate|discriminate]. intros [= _ Hn].
  destruct (run_says _ _ _ _ (init_inv _) E) as [H _]. destruct (H Hn) as [He _]. exact He.
Qed.
Theorem C63_told : forall code a m line col lit, parse code = Some (Ok (a, Some (EParse m line col lit))) -> e_parse code <> [].
Proof.
  intros code a m line col lit. unfold parse, Parse, e_parse. cbn [NewAST a_code]. destruct (blank code); [discriminate|].
  destruct (run _ _) as [[[x b]|]|] eqn:E; [|discriminate|discriminate]. intros [= _ Hn] He.
  destruct (run_says _ _ _ _ (init_inv _) E) as [_ H]. destruct (H He) as [Ho|[e Ho]]; rewrite Ho in Hn; discriminate Hn.
Qed.

(** For any text the number of messages is linear in its length, and each looks at no
    more than the text: together at most a quadratic number of bytes. *)
Theorem C63_messages : forall code,
  (length (e_parse code) <= 11 * length code + 2)%nat /\ Forall (fun n => (n <= length code)%nat) (e_parse code).
Proof.
  intros code. split; [apply parse_messages|]. unfold e_parse. destruct (blank code); [constructor|].
  apply (run_inside _ _ (init_inv (NewAST code))). unfold inside. cbn. lia.
Qed.

(** Linear time: the bytes looked at to compose the messages are bounded by a multiple
    of the length of the text.  This holds for accepted texts only. *)
Theorem C63_linear_partial : forall code a, parse code = Some (Ok (a, None)) ->
  (c_parse code + total (e_parse code) <= 161 * length code + 28)%nat.
Proof. intros code a H. rewrite (C63_accepted _ _ H). pose proof (C63_reads code). cbn. lia. Qed.
(** It is false in general: a declaration that names a variable [n] times makes the parser
    compose [n - 1] messages, each after counting the lines of the whole text. *)
Theorem C63_linear_refuted : ~ exists k, forall code, (c_parse code + total (e_parse code) <= k * (length code + 1))%nat.
Proof.
  intros [k H]. specialize (H (many (2 * k + 14))). pose proof (many_messages (2 * k + 14)) as M. rewrite many_length in H. nia.
Qed.
(** The texts: Перем a,a,a; and so on. *)
Example C63_example_many : many 2 = B "Перем a,a,a;" /\ e_parse (many 2) = [17; 17]%nat /\ e_parse (many 5) = [23; 23; 23; 23; 23]%nat.
Proof. vm_compute. auto. Qed.
(** An accepted text with a comment; texts with a syntax error; a text with an unreadable
    token; white space, which is not read at all. *)
Example C63_example :
  map (fun c => (length c, c_parse c, e_parse c)) [B "а = 1; // б"; B "а = ; // б"; B "а = $;"; B "<<<<"; B " "] =
    [(13, 73, []); (12, 27, [6]); (7, 27, [4]); (4, 11, [1]); (1, 0, [])]%nat.
Proof. vm_compute. reflexivity. Qed.

Print Assumptions C63_reads.
Print Assumptions C63_accepted.
Print Assumptions C63_told.
Print Assumptions C63_messages.
Print Assumptions C63_linear_partial.
Print Assumptions C63_linear_refuted.
