(** Tokens without positions: what a program is made of. Specification. *)
From Verif Require Import Bytes Utf8 Float64 GoTime Ast Lexer LexSpec.

(** Identifiers, the word Выполнить, directives and labels carry their spelling;
    literals their value; keywords, operators and punctuation only their kind. *)
Inductive tk :=
| K (c : Z)
| KId (n : bytes)
| KExec (n : bytes)
| KDir (n : bytes)
| KLabel (n : bytes)
| KStr (s : bytes)
| KNum (f : f64)
| KDate (d : gotime).

Definition kind_of (k : tk) : Z :=
  match k with
  | K c => c | KId _ => tIdent | KExec _ => tExecute | KDir _ => tDirective | KLabel _ => tGoToLabel
  | KStr _ => tString | KNum _ => tNumber | KDate _ => tDate
  end.

(** The token of kind [c] read by the scanner. *)
Definition tk_of (c : Z) (t : token) : tk :=
  if c =? tIdent then KId (tk_lit t)
  else if c =? tExecute then KExec (tk_lit t)
  else if c =? tDirective then KDir (tk_lit t)
  else if c =? tGoToLabel then KLabel (tk_lit t)
  else match tk_value t with
       | SStr s => if c =? tString then KStr s else K c
       | SNum f => if c =? tNumber then KNum f else K c
       | STime d => if c =? tDate then KDate d else K c
       | _ => K c
       end.

(** [tokens code l]: the text is read without a lexical error as the tokens [l]. *)
Definition tokens (code : bytes) (l : list tk) : Prop :=
  exists raw, lexes code zero_token raw /\ l = map (fun x => tk_of (fst x) (snd x)) raw.
