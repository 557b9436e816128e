(** Helpers for Tests.v: error texts and the helper functions of ast_test.go. *)
From Verif Require Import Bytes Utf8 Float64 GoTime Ast Lexer Parser Printer.

(** %q for literals without characters that need escaping other than the quote. *)
Definition q (s : bytes) : bytes :=
  dquote ++ flat_map (fun b => if b2z b =? 34 then [x5c; b] else [b]) s ++ dquote.

Definition msg_text (m : emsg) : bytes :=
  match m with
  | MSyntax => B "syntax error"
  | MSemicolon => B "semicolon (;) is expected"
  | MLoopOp l => B "operator " ++ q l ++ B " can only be used inside a loop"
  | MThrow l => B "operator " ++ q l ++ B " without arguments can only be used when handling an exception"
  | MReturn => B "procedure cannot return a value"
  | MVarDup n | MGlobalDup n => B "variable has already been defined: with the specified name " ++ q n
  | MGlobalPlace => B "variable declarations must be placed at the beginning of the module"
  | MFuncPlace => B "procedure and function definitions should be placed before the module body statements"
  end.

(** ast.go:79. *)
Definition err_text (e : perr) : bytes :=
  match e with
  | ELex _ => B "get token error"
  | EParse m l c lit => msg_text m ++ B ". line: " ++ dec_of_Z l ++ B ", column: " ++ dec_of_Z c
                        ++ B " (unexpected literal: " ++ q lit ++ B ")"
  end.

Definition outcome (code : bytes) : option (module * option perr) :=
  match parse code with Some (Ok (a, e)) => Some (a_module a, e) | _ => None end.

Definition no_err (code : bytes) : bool :=
  match outcome code with Some (_, None) => true | _ => false end.
Definition err_some (code : bytes) : bool :=
  match outcome code with Some (_, Some _) => true | _ => false end.
Definition err_is (t code : bytes) : bool :=
  match outcome code with Some (_, Some e) => beqb (err_text e) t | _ => false end.
Fixpoint starts (p s : bytes) : bool :=
  match p, s with
  | [], _ => true
  | _, [] => false
  | x :: p', y :: s' => (b2z x =? b2z y) && starts p' s'
  end.
Fixpoint contains (p s : bytes) : bool :=
  starts p s || match s with [] => false | _ :: s' => contains p s' end.
Definition err_contains (t code : bytes) : bool :=
  match outcome code with Some (_, Some e) => contains t (err_text e) | _ => false end.

Definition ws (b : byte) : bool := isSpace (b2z b).
Fixpoint ltrim (s : bytes) : bytes :=
  match s with b :: s' => if ws b then ltrim s' else s | [] => [] end.
Definition trim (s : bytes) : bytes := rev (ltrim (rev (ltrim s))).
(** ast_test.go:1939-1945. *)
Definition normalize (s : bytes) : bytes :=
  filter (fun b => negb ((b2z b =? 32) || (b2z b =? 9) || (b2z b =? 10))) s.
Fixpoint lines (cur : bytes) (s : bytes) : list bytes :=
  match s with
  | [] => [rev cur]
  | b :: s' => if b2z b =? 10 then rev cur :: lines [] s' else lines (b :: cur) s'
  end.
(** ast_test.go:1947-1956. *)
Definition delete_empty (s : bytes) : bytes :=
  trim (concat (map (fun l => match trim l with [] => [] | _ => l ++ [x0a] end) (lines [] s))).

Definition printed (c : conf) (code : bytes) : option bytes :=
  match outcome code with
  | Some (m, _) => Print (elems (m_gvars m)) c m
  | None => None
  end.
Definition prints (c : conf) (f : bytes -> bytes) (t code : bytes) : bool :=
  match printed c code with Some p => beqb (f p) t | None => false end.
Definition same_hash (c : conf) (code : bytes) : bool :=
  match printed c code with
  | Some p => beqb (fastToLower (normalize p)) (fastToLower (normalize code))
  | None => false
  end.
Definition same_norm (c : conf) (code : bytes) : bool :=
  match printed c code with Some p => beqb (normalize p) (normalize code) | None => false end.
