(** The grammar of ast/grammar.y:85-378: the productions in the order of the
    file, actions left out.  An action in the middle of a right-hand side
    (grammar.y:134, 226, 234, 242, 295) is an empty production of a nonterminal
    of its own, as in every yacc.  Production number [i] is the [i]-th of the
    list, counted from 1.

    The second half defines derivations; it is the specification of C15. *)
From Verif Require Import Bytes Lexer.

(** Nonterminals, in the order of the [%type] declarations (grammar.y:6-40), then
    the others in the order of their first use. *)
Inductive nonterm :=
| n_body  | n_opt_body  | n_stmt  | n_stmt_loop  | n_funcProc
| n_stmt_if  | n_opt_elseif_list  | n_opt_else  | n_opt_stmt  | n_exprs
| n_expr  | n_opt_export  | n_opt_directive  | n_simple_expr  | n_declarations_method_params
| n_declarations_method_param  | n_opt_expr  | n_execute_param  | n_through_dot  | n_loopExp
| n_new_object  | n_ternary  | n_opt_explicit_variables  | n_explicit_variables  | n_identifiers
| n_stmt_tryCatch  | n_identifier  | n_goToLabel  | n_separator  | n_semicolon
| n_colon  | n_global_variables  | n_comma  | n_module  | n_main_items
| n_main  | n_mid_function  | n_mid_for_each  | n_mid_for  | n_mid_while
| n_dot  | n_mid_catch.

(** A terminal is the token code returned by the scanner; characters stand for
    themselves. *)
Inductive sym := T (c : Z) | N (n : nonterm).
Definition C (s : lit) : sym := T (match unlit s with b :: _ => b2z b | [] => 0 end).
Arguments C s%lit_scope.

Definition productions: list (nonterm * list sym) := [
  (* 1 *) (n_module, []);
  (* 2 *) (n_module, [N n_body]);
  (* 3 *) (n_module, [N n_main_items; N n_opt_body]);
  (* 4 *) (n_main_items, [N n_main]);
  (* 5 *) (n_main_items, [N n_main_items; N n_main]);
  (* 6 *) (n_main, [N n_global_variables]);
  (* 7 *) (n_main, [N n_funcProc]);
  (* 8 *) (n_opt_directive, []);
  (* 9 *) (n_opt_directive, [T tDirective]);
  (* 10 *) (n_opt_export, []);
  (* 11 *) (n_opt_export, [T tExport]);
  (* 12 *) (n_global_variables, [N n_opt_directive; T tVar; N n_identifiers; N n_opt_export; N n_semicolon]);
  (* 13 *) (n_mid_function, []);
  (* 14 *) (n_funcProc, [N n_opt_directive; T tFunction; T tIdent; C "("; N n_declarations_method_params; C ")"; N n_opt_export; N n_mid_function; N n_opt_explicit_variables; N n_opt_body; T tEndFunction]);
  (* 15 *) (n_funcProc, [N n_opt_directive; T tProcedure; T tIdent; C "("; N n_declarations_method_params; C ")"; N n_opt_export; N n_opt_explicit_variables; N n_opt_body; T tEndProcedure]);
  (* 16 *) (n_opt_body, []);
  (* 17 *) (n_opt_body, [N n_body]);
  (* 18 *) (n_body, [N n_stmt]);
  (* 19 *) (n_body, [N n_opt_body; N n_separator; N n_opt_stmt]);
  (* 20 *) (n_opt_stmt, []);
  (* 21 *) (n_opt_stmt, [N n_stmt]);
  (* 22 *) (n_separator, [N n_semicolon]);
  (* 23 *) (n_separator, [N n_colon]);
  (* 24 *) (n_opt_explicit_variables, []);
  (* 25 *) (n_opt_explicit_variables, [N n_explicit_variables]);
  (* 26 *) (n_explicit_variables, [T tVar; N n_identifiers; N n_semicolon]);
  (* 27 *) (n_explicit_variables, [N n_explicit_variables; T tVar; N n_identifiers; N n_semicolon]);
  (* 28 *) (n_stmt_if, [T tIf; N n_expr; T tThen; N n_opt_body; N n_opt_elseif_list; N n_opt_else; T tEndIf]);
  (* 29 *) (n_opt_elseif_list, []);
  (* 30 *) (n_opt_elseif_list, [T tElseIf; N n_expr; T tThen; N n_opt_body; N n_opt_elseif_list]);
  (* 31 *) (n_opt_else, []);
  (* 32 *) (n_opt_else, [T tElse; N n_opt_body]);
  (* 33 *) (n_ternary, [C "?"; C "("; N n_expr; N n_comma; N n_expr; N n_comma; N n_expr; C ")"]);
  (* 34 *) (n_mid_for_each, []);
  (* 35 *) (n_stmt_loop, [T tFor; T tEach; T tIdent; T tIn; N n_loopExp; T tLoop; N n_mid_for_each; N n_opt_body; T tEndLoop]);
  (* 36 *) (n_mid_for, []);
  (* 37 *) (n_stmt_loop, [T tFor; N n_expr; T tTo; N n_expr; T tLoop; N n_mid_for; N n_opt_body; T tEndLoop]);
  (* 38 *) (n_mid_while, []);
  (* 39 *) (n_stmt_loop, [T tWhile; N n_expr; T tLoop; N n_mid_while; N n_opt_body; T tEndLoop]);
  (* 40 *) (n_loopExp, [N n_through_dot]);
  (* 41 *) (n_loopExp, [N n_new_object]);
  (* 42 *) (n_loopExp, [C "("; N n_new_object; C ")"]);
  (* 43 *) (n_loopExp, [N n_ternary]);
  (* 44 *) (n_stmt, [N n_through_dot; T tEQUAL; N n_expr]);
  (* 45 *) (n_stmt, [N n_expr]);
  (* 46 *) (n_stmt, [N n_stmt_if]);
  (* 47 *) (n_stmt, [N n_stmt_loop]);
  (* 48 *) (n_stmt, [N n_stmt_tryCatch]);
  (* 49 *) (n_stmt, [T tContinue]);
  (* 50 *) (n_stmt, [T tBreak]);
  (* 51 *) (n_stmt, [T tThrow; N n_opt_expr]);
  (* 52 *) (n_stmt, [T tReturn; N n_opt_expr]);
  (* 53 *) (n_through_dot, [N n_identifier]);
  (* 54 *) (n_through_dot, [N n_through_dot; N n_dot; N n_identifier]);
  (* 55 *) (n_identifier, [T tIdent]);
  (* 56 *) (n_identifier, [T tIdent; C "("; N n_exprs; C ")"]);
  (* 57 *) (n_identifier, [N n_identifier; C "["; N n_expr; C "]"]);
  (* 58 *) (n_identifier, [T tExecute; N n_execute_param]);
  (* 59 *) (n_identifier, [T tExecute; C "("; N n_expr; C ")"]);
  (* 60 *) (n_execute_param, [T tString]);
  (* 61 *) (n_execute_param, [T tIdent]);
  (* 62 *) (n_mid_catch, []);
  (* 63 *) (n_stmt_tryCatch, [T tTry; N n_opt_body; T tCatch; N n_mid_catch; N n_opt_body; T tEndTry]);
  (* 64 *) (n_expr, [N n_simple_expr]);
  (* 65 *) (n_expr, [C "("; N n_exprs; C ")"]);
  (* 66 *) (n_expr, [N n_expr; C "+"; N n_expr]);
  (* 67 *) (n_expr, [N n_expr; C "-"; N n_expr]);
  (* 68 *) (n_expr, [N n_expr; C "*"; N n_expr]);
  (* 69 *) (n_expr, [N n_expr; C "/"; N n_expr]);
  (* 70 *) (n_expr, [N n_expr; C "%"; N n_expr]);
  (* 71 *) (n_expr, [N n_expr; C ">"; N n_expr]);
  (* 72 *) (n_expr, [N n_expr; C "<"; N n_expr]);
  (* 73 *) (n_expr, [N n_expr; T tEQUAL; N n_expr]);
  (* 74 *) (n_expr, [N n_expr; T tOR; N n_expr]);
  (* 75 *) (n_expr, [N n_expr; T tAnd; N n_expr]);
  (* 76 *) (n_expr, [N n_expr; T tNeEQ; N n_expr]);
  (* 77 *) (n_expr, [N n_expr; T tLE; N n_expr]);
  (* 78 *) (n_expr, [N n_expr; T tGE; N n_expr]);
  (* 79 *) (n_expr, [T tNot; N n_expr]);
  (* 80 *) (n_expr, [N n_new_object]);
  (* 81 *) (n_expr, [T tGoTo; N n_goToLabel]);
  (* 82 *) (n_expr, [N n_ternary]);
  (* 83 *) (n_expr, [N n_through_dot]);
  (* 84 *) (n_opt_expr, []);
  (* 85 *) (n_opt_expr, [N n_expr]);
  (* 86 *) (n_exprs, [N n_opt_expr]);
  (* 87 *) (n_exprs, [N n_exprs; N n_comma; N n_opt_expr]);
  (* 88 *) (n_simple_expr, [T tString]);
  (* 89 *) (n_simple_expr, [T tNumber]);
  (* 90 *) (n_simple_expr, [C "-"; N n_expr]);
  (* 91 *) (n_simple_expr, [C "+"; N n_expr]);
  (* 92 *) (n_simple_expr, [T tTrue]);
  (* 93 *) (n_simple_expr, [T tFalse]);
  (* 94 *) (n_simple_expr, [T tDate]);
  (* 95 *) (n_simple_expr, [T tUndefind]);
  (* 96 *) (n_simple_expr, [N n_goToLabel]);
  (* 97 *) (n_declarations_method_param, [T tIdent]);
  (* 98 *) (n_declarations_method_param, [T tValueParam; T tIdent]);
  (* 99 *) (n_declarations_method_param, [N n_declarations_method_param; T tEQUAL; N n_simple_expr]);
  (* 100 *) (n_declarations_method_params, []);
  (* 101 *) (n_declarations_method_params, [N n_declarations_method_param]);
  (* 102 *) (n_declarations_method_params, [N n_declarations_method_params; N n_comma; N n_declarations_method_param]);
  (* 103 *) (n_new_object, [T tNew; T tIdent]);
  (* 104 *) (n_new_object, [T tNew; T tIdent; C "("; N n_exprs; C ")"]);
  (* 105 *) (n_new_object, [T tNew; C "("; N n_exprs; C ")"]);
  (* 106 *) (n_goToLabel, [T tGoToLabel]);
  (* 107 *) (n_identifiers, [T tIdent]);
  (* 108 *) (n_identifiers, [N n_identifiers; N n_comma; T tIdent]);
  (* 109 *) (n_semicolon, [C ";"]);
  (* 110 *) (n_colon, [C ":"]);
  (* 111 *) (n_comma, [C ","]);
  (* 112 *) (n_dot, [C "."]) ].

(** ** Derivations *)
(** [derives n w]: the nonterminal [n] derives the sequence [w] of token codes. *)
Inductive derives : nonterm -> list Z -> Prop :=
| dv_prod n rhs w : In (n, rhs) productions -> derives_all rhs w -> derives n w
with derives_all : list sym -> list Z -> Prop :=
| dv_nil : derives_all [] []
| dv_tok c rhs w : derives_all rhs w -> derives_all (T c :: rhs) (c :: w)
| dv_nt n rhs u w : derives n u -> derives_all rhs w -> derives_all (N n :: rhs) (u ++ w).
