#!/usr/bin/env python3
"""Writes /verif/properties.jsonl (single source for the list of properties)."""
import json
P=[]
def p(title,statement,quantifier,why,anchors):
    P.append(dict(id='C%02d'%(len(P)+1),title=title,statement=statement,quantifier=quantifier,why_tests_cant=why,anchors=anchors))
p("Reading a token always makes progress",
  "Every call of Token.Next on every source text returns; the read position never moves backwards and never leaves the text; a call that does not report the end of the text consumes at least one byte. Hence the token stream of every text is finite.",
  "all byte strings (valid UTF-8 or not), all read positions inside them",
  "tests run the scanner on a few dozen texts; a scanner loop or a read past the end on some other byte sequence stays invisible",
  ["ast/tokens.go:Token.Next","ast/tokens.go:Token.next","ast/tokens.go:scanString","ast/tokens.go:skipComment","ast/tokens.go:skipRegions"])
p("Keywords are recognised in every letter case",
  "For every reserved word of the language and every way of choosing upper or lower case for its letters, the scanner returns the same token kind as for the lower-case spelling (when the word does not follow a dot); a name that is not such a variant is returned as an identifier.",
  "all reserved words, all case patterns (2^n spellings), all following texts",
  "the number of spellings is exponential; tests pick one or two",
  ["ast/tokens.go:tokens","ast/tokens.go:fastToLower","ast/tokens.go:Token.next"])
p("A name after a dot is never a keyword",
  "Directly after a '.' token that does not itself follow a '.' token (two dots in a row are not part of any program), every word, including each reserved word, is returned as an identifier; the effect lasts for exactly one token.",
  "all words, all texts, all histories of token calls",
  "statefulness across calls (prevDot) needs all call histories",
  ["ast/tokens.go:Token.next"])
p("White space, comments and region lines are transparent",
  "Inserting any run of white space, // comment lines and # lines in front of a token does not change the kind, the literal or the value of the token returned, nor any later token.",
  "all trivia runs, all continuations",
  "unbounded nesting of comment and region lines (mutual recursion in the scanner)",
  ["ast/tokens.go:skipSpace","ast/tokens.go:skipComment","ast/tokens.go:skipRegions"])
p("String literals keep their content",
  "For every text content w (any characters, quotes doubled, line breaks followed by '|'), scanning the quoted literal returns a String token whose value is w, and scanning stops right after the closing quote (and white space).",
  "all contents, all continuations that do not start with another quote",
  "content is unbounded; quote doubling and continuation lines interact",
  ["ast/tokens.go:scanString"])
p("Unterminated or broken literals are errors",
  "A string or date literal whose closing quote is missing, or which is broken by a line that does not start with '|', a date literal with no digit, a number directly followed by a letter, and an unknown character all produce an error from Token.Next, and therefore from Parse.",
  "all texts containing such a literal at the read position",
  "requires every unterminated text, not samples",
  ["ast/tokens.go:scanString","ast/tokens.go:scanNumber","ast/tokens.go:Token.next"])
p("Number literals denote the nearest float64",
  "A run of digits with at most one dot is a Number token whose value is the float64 nearest to the decimal value (ties to even); a second dot or an overflow of the float64 range is an error.",
  "all digit strings of any length",
  "unbounded digit strings, rounding boundaries",
  ["ast/tokens.go:scanNumber","ast/tokens.go:Token.Next"])
p("Date literals: exactly the calendar dates",
  "A date literal is accepted exactly when its digits are all zero (the empty date), or form YYYYMMDD, YYYYMMDDHHMM or YYYYMMDDHHMMSS with a real calendar date (leap years included) and time of day; the value is that date; other characters inside the quotes are ignored.",
  "all contents of a date literal",
  "calendar arithmetic over all dates and all lengths",
  ["ast/tokens.go:Token.Next","ast/tokens.go:extractDigits"])
p("Longest match for names and operators",
  "A name token takes the maximal run of letters, digits and underscores; '<>', '<=' and '>=' are each one token, and '<', '>' alone are returned only if not followed by such a character.",
  "all texts","maximal munch must hold for every continuation",
  ["ast/tokens.go:scanIdentifier","ast/tokens.go:Token.next"])
p("Lower-casing is the character-wise lower case",
  "The in-place byte lower-casing used for keyword lookup equals mapping A-Z, А-Я and Ё to lower case character by character and leaving all other characters alone; it preserves the byte length and is idempotent; on every byte string, including invalid UTF-8, it touches no byte outside such letters.",
  "all byte strings",
  "byte-level arithmetic over two-byte sequences; unit tests compare a few words",
  ["ast/tokens.go:fastToLower","ast/tokens.go:fastToLower_old"])
p("The C lower-casing agrees with the Go one",
  "fast_tolower.FastToLower returns the same text as the Go lower-casing for every string.",
  "all strings without NUL",
  "the exported helper is not covered by tests at all (its import is commented out)",
  ["ast/fast_tolower/gowrap.go:FastToLower","ast/tokens.go:fastToLower"])
p("Error positions are real positions",
  "GetPosition reports the 1-based line equal to one plus the number of line feeds before the read position, and the 1-based column in characters since the last line feed.",
  "all texts, all read positions",
  "multi-byte characters, CRLF and literals spanning lines interact",
  ["ast/tokens.go:GetPosition","ast/ast.go:AstNode.Error"])
p("Parse terminates in linearly many steps",
  "For every source text Parse returns, and the number of shift/reduce steps it takes is at most a fixed linear function of the length of the text.",
  "all byte strings",
  "a table-driven parser with empty productions can loop on some input; absence needs all inputs",
  ["ast/y.go:yyParserImpl.Parse","ast/ast.go:AstNode.Parse"])
p("Parse never panics",
  "For every source text Parse returns normally: no index out of range in the scanner, the parse tables or the parse stack, no nil dereference, no write to a nil map.",
  "all byte strings, all reachable parser states",
  "tests only exercise a few of the reachable stack configurations",
  ["ast/y.go:yyParserImpl.Parse","ast/ast.go:appendVarStatements","ast/ast.go:AstNode.Error"])
p("Accepted texts belong to the grammar",
  "If Parse returns nil for a text that is not white space only, then the scanner read the whole text without error and its token sequence is derivable from the published grammar (grammar.y).",
  "all byte strings",
  "soundness of the generated tables needs all token sequences",
  ["ast/grammar.y","ast/y.go"])
p("The tree is the meaning of the derivation",
  "If Parse returns nil then the module tree it built is the one obtained by evaluating the semantic actions of grammar.y on a derivation of the token sequence, every block containing exactly its own statements in source order.",
  "all byte strings",
  "values travel through a reused parse stack; a leak of a stale value shows only for particular stack shapes",
  ["ast/grammar.y","ast/y.go:yyParserImpl.Parse"])
p("Errors stick",
  "Once a lexical, syntax or semantic error has been recorded during a Parse call, that call returns a non-nil error, whatever follows in the text.",
  "all texts, all later tokens",
  "parsing continues after semantic errors and after lexical errors; all continuations must be covered",
  ["ast/ast.go:AstNode.Lex","ast/ast.go:AstNode.Error","ast/ast.go:AstNode.Parse"])
p("Break and Continue only inside loops",
  "If Parse returns nil then every Прервать / Продолжить in the tree is inside the body of a loop; and such a statement inside a loop body is never the cause of an error.",
  "all texts, all nestings of loops",
  "a counter is maintained across the whole module; needs all nestings and orders",
  ["ast/ast.go:checkLoopOperator","ast/ast.go:setLoopFlag","ast/grammar.y:stmt_loop"])
p("Bare Throw only in exception handlers",
  "If Parse returns nil then every ВызватьИсключение without an argument is inside the handler part of a try statement.",
  "all texts, all nestings of try statements",
  "counter across the whole module; needs all nestings",
  ["ast/ast.go:checkThrowParam","ast/ast.go:setTryFlag","ast/grammar.y:stmt_tryCatch"])
p("Return with a value only in functions",
  "If Parse returns nil then every Возврат with a value is inside a function, never in a procedure or in the module body.",
  "all texts",
  "flag across the whole module",
  ["ast/ast.go:checkReturnParam","ast/ast.go:isFunction"])
p("Variables are declared once",
  "If Parse returns nil then the names declared by Перем in one procedure or function are pairwise distinct and are exactly the keys of ExplicitVariables; the same for the global variables of the module.",
  "all declaration lists",
  "unbounded lists of declarations in several statements",
  ["ast/ast.go:appendVarStatements","ast/ast_struct.go:ModuleStatement.Append"])
p("Module layout is enforced",
  "If Parse returns nil then in source order all global variable declarations come before the first procedure or function, and all procedures and functions before the first module statement, and Body lists them in that order.",
  "all texts",
  "ordering over unbounded item lists",
  ["ast/ast_struct.go:ModuleStatement.Append","ast/grammar.y:module"])
p("ElseIf branches keep source order",
  "The ElseIf branches of an If statement are listed (and printed) in source order.",
  "all If statements with any number of branches",
  "the existing tests have at most one relevant branch order",
  ["ast/grammar.y:opt_elseif_list","ast/ast_print.go:printIfStatement"])
p("Operator precedence and associativity",
  "Every expression built from operands and the binary operators is grouped by the declared precedences: ИЛИ < И < <> < <= < >= < = < {>,<} < {+,-} < {*,/,%}, all left associative; unary minus binds tightest; НЕ binds between >= and =.",
  "all operand/operator sequences of any length",
  "unbounded expressions, all operator pairs",
  ["ast/grammar.y:expr","ast/y.go"])
p("Negation and unary minus are represented",
  "The tree distinguishes an operand from its negation (НЕ) and from its unary minus, for every kind of operand; double negation is distinguished from a single one.",
  "all operand kinds",
  "each operand kind is a separate case of a type switch; tests cover a few",
  ["ast/ast.go:not","ast/ast.go:unaryMinus","ast/ast_struct.go:ExpStatement.UnaryMinus"])
p("Parse twice on one node",
  "Parsing is a function of the text: calling Parse again on the same AstNode leaves the same tree and returns the same error.",
  "all texts, all histories of Parse calls on one node",
  "state accumulates in the node across calls",
  ["ast/ast.go:AstNode.Parse","ast/ast_struct.go:ModuleStatement.Append"])
p("Printing a parsed module never panics",
  "For every text for which Parse returned (with or without error) and every PrintConf with a non-negative margin, Print returns normally.",
  "all byte strings, all configurations",
  "unchecked type assertions in the printer depend on every tree the parser can build",
  ["ast/ast_print.go:printLoopStatement","ast/ast_print.go:printIfStatement","ast/ast_print.go:printGoTo"])
p("Printing is deterministic",
  "Print of one module tree always returns the same text.",
  "all module trees, all map iteration orders",
  "map iteration order is random per run",
  ["ast/ast_print.go:astPrint.print"])
p("Printing keeps global variables",
  "The printed text of a module contains the declaration of each of its global variables.",
  "all modules","every module shape incl. those with no other items",
  ["ast/ast_print.go:astPrint.print","ast/ast_print.go:printGlobalVariables"])
p("Layout options change only layout",
  "Print with different margins or with OneLine yields the same sequence of tokens.",
  "all trees the parser can build, all non-negative margins, OneLine on and off",
  "all trees and all margins",
  ["ast/ast_print.go:printBody","ast/ast_print.go:newLine"])
p("Printed expressions parse back to the same structure",
  "For every expression tree the parser can build, parsing its printed text gives a tree equal up to redundant parentheses.",
  "all expression trees","unbounded trees",
  ["ast/ast_print.go:printExpression","ast/ast_print.go:printVarStatement"])
p("Numeric literals survive printing",
  "A number printed by the printer reads back as the same float64.",
  "all float64 values the parser can produce",
  "all doubles",
  ["ast/ast_print.go:printVarStatement"])
p("Date literals survive printing",
  "A date printed by the printer reads back as the same date.",
  "all dates the scanner accepts","all dates",
  ["ast/ast_print.go:printVarStatement","ast/tokens.go:Token.Next"])
p("String literals survive printing",
  "A string printed by the printer reads back as the same string value.",
  "all string values the scanner can produce","all strings",
  ["ast/ast_print.go:printVarStatement","ast/tokens.go:scanString"])
p("Walk visits children first, exactly once",
  "Walk calls the callback exactly once for every statement slot it reaches, every reached child before its parent, statements of a block in source order; the root argument is the enclosing procedure or function.",
  "all trees","unbounded trees",
  ["ast/ast_struct.go:walkHelper"])
p("Walk reaches every call",
  "Every procedure or function call in the module is visited by Walk.",
  "all trees","every syntactic position of a call",
  ["ast/ast_struct.go:walkHelper"])
p("Replacing a statement in the callback takes effect",
  "Assigning through the stm pointer given to the callback replaces that statement in the tree.",
  "all trees, all positions","depends on whether the slot is part of the tree or of a temporary slice",
  ["ast/ast_struct.go:walkHelper"])
p("Blank texts are accepted with an empty module",
  "For every text consisting of white space only, and every text consisting only of white space, comments and # lines, Parse returns nil and the module is empty.",
  "all such texts","unbounded trivia",
  ["ast/ast.go:AstNode.Parse"])
p("Parameters are recorded faithfully",
  "A procedure or function node carries exactly the declared name, the parameters in order with their Знач marks and default values, the export mark and the directive of its declaration.",
  "all declarations","unbounded parameter lists; values read through pointers into the parse stack",
  ["ast/ast.go:createFunctionOrProcedure","ast/ast_struct.go:ParamStatement.Fill","ast/ast_struct.go:ParamStatement.DefaultValue"])
p("JSON does not identify different programs",
  "Programs with different trees have different JSON output.",
  "all pairs of module trees","all pairs",
  ["ast/ast.go:AstNode.JSON","ast/ast_struct.go:addStatementField"])
with open('/verif/properties.jsonl','w') as f:
    for x in P: f.write(json.dumps(x,ensure_ascii=False)+'\n')
print(len(P))
