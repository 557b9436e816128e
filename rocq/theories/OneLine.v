(** What the layout options of Print are for (C60).  Specification. *)
From Verif Require Import Bytes Float64 GoTime Ast Tok StmtInd.

(** A text without its line feeds; without its line feeds and spaces. *)
Definition unlined (t : bytes) : bytes := filter (fun b => negb (Byte.eqb b x0a)) t.
Definition letters (t : bytes) : bytes := filter (fun b => negb (Byte.eqb b x0a) && negb (Byte.eqb b x20)) t.

(** The words a tree contains: names, labels and strings. *)
Definition words (s : stmt) : list bytes :=
  match s with
  | SStr w | SVar w _ | SMethod w _ _ _ | SNew w _ _ | SGoTo (Some w) | SLabel w => [w]
  | SFunc _ n _ _ ps _ _ => n :: map (fun p => snd (fst p)) ps
  | _ => []
  end.
Inductive word_in (w : bytes) (s : stmt) : Prop :=
| wi_here : In w (words s) -> word_in w s
| wi_part x : In x (parts s) -> word_in w x -> word_in w s.
(** No word of the module contains a line feed, and it has no directives. *)
Definition directive_of (s : stmt) : bytes := match s with SFunc _ _ d _ _ _ _ => d | _ => [] end.
Record one_liner (m : module) : Prop := {
  ol_words : forall s w, In s (elems (m_body m)) -> word_in w s -> ~ In x0a w;
  ol_names : forall g, In g (elems (m_gvars m)) -> ~ In x0a (gv_name g);
  ol_dirs : forall s, In s (elems (m_body m)) -> directive_of s = [];
  ol_gdirs : forall g, In g (elems (m_gvars m)) -> gv_dir g = [] }.
(** The same of a text: no directive, no string over several lines. *)
Definition one_line_tk (t : tk) : Prop := match t with KDir _ => False | KStr s => ~ In x0a s | _ => True end.
