{"id": "C01", "title": "Reading a token always makes progress", "statement": "Every call of Token.Next on every source text returns; the read position never moves backwards and never leaves the text; a call that does not report the end of the text consumes at least one byte. Hence the token stream of every text is finite.", "quantifier": "all byte strings (valid UTF-8 or not), all read positions inside them", "why_tests_cant": "tests run the scanner on a few dozen texts; a scanner loop or a read past the end on some other byte sequence stays invisible", "anchors": ["ast/tokens.go:Token.Next", "ast/tokens.go:Token.next", "ast/tokens.go:scanString", "ast/tokens.go:skipComment", "ast/tokens.go:skipRegions"]}
{"id": "C02", "title": "Keywords are recognised in every letter case", "statement": "For every reserved word of the language and every way of choosing upper or lower case for its letters, the scanner returns the same token kind as for the lower-case spelling (when the word does not follow a dot); a name that is not such a variant is returned as an identifier.", "quantifier": "all reserved words, all case patterns (2^n spellings), all following texts", "why_tests_cant": "the number of spellings is exponential; tests pick one or two", "anchors": ["ast/tokens.go:tokens", "ast/tokens.go:fastToLower", "ast/tokens.go:Token.next"]}
{"id": "C03", "title": "A name after a dot is never a keyword", "statement": "Directly after a '.' token that does not itself follow a '.' token (two dots in a row are not part of any program), every word, including each reserved word, is returned as an identifier; the effect lasts for exactly one token.", "quantifier": "all words, all texts, all histories of token calls", "why_tests_cant": "statefulness across calls (prevDot) needs all call histories", "anchors": ["ast/tokens.go:Token.next"]}
{"id": "C04", "title": "White space, comments and region lines are transparent", "statement": "Inserting any run of white space, // comment lines and # lines in front of a token does not change the kind, the literal or the value of the token returned, nor any later token.", "quantifier": "all trivia runs, all continuations", "why_tests_cant": "unbounded nesting of comment and region lines (mutual recursion in the scanner)", "anchors": ["ast/tokens.go:skipSpace", "ast/tokens.go:skipComment", "ast/tokens.go:skipRegions"]}
{"id": "C05", "title": "String literals keep their content", "statement": "For every text content w (any characters, quotes doubled, line breaks followed by '|'), scanning the quoted literal returns a String token whose value is w, and scanning stops right after the closing quote (and white space).", "quantifier": "all contents, all continuations that do not start with another quote", "why_tests_cant": "content is unbounded; quote doubling and continuation lines interact", "anchors": ["ast/tokens.go:scanString"]}
{"id": "C06", "title": "Unterminated or broken literals are errors", "statement": "A string or date literal whose closing quote is missing, or which is broken by a line that does not start with '|', a date literal with no digit, a number directly followed by a letter, and an unknown character all produce an error from Token.Next, and therefore from Parse.", "quantifier": "all texts containing such a literal at the read position", "why_tests_cant": "requires every unterminated text, not samples", "anchors": ["ast/tokens.go:scanString", "ast/tokens.go:scanNumber", "ast/tokens.go:Token.next"]}
{"id": "C07", "title": "Number literals denote the nearest float64", "statement": "A run of digits with at most one dot is a Number token whose value is the float64 nearest to the decimal value (ties to even); a second dot or an overflow of the float64 range is an error.", "quantifier": "all digit strings of any length", "why_tests_cant": "unbounded digit strings, rounding boundaries", "anchors": ["ast/tokens.go:scanNumber", "ast/tokens.go:Token.Next"]}
{"id": "C08", "title": "Date literals: exactly the calendar dates", "statement": "A date literal is accepted exactly when its digits are all zero (the empty date), or form YYYYMMDD, YYYYMMDDHHMM or YYYYMMDDHHMMSS with a real calendar date (leap years included) and time of day; the value is that date; other characters inside the quotes are ignored.", "quantifier": "all contents of a date literal", "why_tests_cant": "calendar arithmetic over all dates and all lengths", "anchors": ["ast/tokens.go:Token.Next", "ast/tokens.go:extractDigits"]}
{"id": "C09", "title": "Longest match for names and operators", "statement": "A name token takes the maximal run of letters, digits and underscores; '<>', '<=' and '>=' are each one token, and '<', '>' alone are returned only if not followed by such a character.", "quantifier": "all texts", "why_tests_cant": "maximal munch must hold for every continuation", "anchors": ["ast/tokens.go:scanIdentifier", "ast/tokens.go:Token.next"]}
{"id": "C10", "title": "Lower-casing is the character-wise lower case", "statement": "The in-place byte lower-casing used for keyword lookup equals mapping A-Z, А-Я and Ё to lower case character by character and leaving all other characters alone; it preserves the byte length and is idempotent; on every byte string, including invalid UTF-8, it touches no byte outside such letters.", "quantifier": "all byte strings", "why_tests_cant": "byte-level arithmetic over two-byte sequences; unit tests compare a few words", "anchors": ["ast/tokens.go:fastToLower", "ast/tokens.go:fastToLower_old"]}
{"id": "C11", "title": "The C lower-casing agrees with the Go one", "statement": "fast_tolower.FastToLower returns the same text as the Go lower-casing for every string.", "quantifier": "all strings without NUL", "why_tests_cant": "the exported helper is not covered by tests at all (its import is commented out)", "anchors": ["ast/fast_tolower/gowrap.go:FastToLower", "ast/tokens.go:fastToLower"]}
{"id": "C12", "title": "Error positions are real positions", "statement": "GetPosition reports the 1-based line equal to one plus the number of line feeds before the read position, and the 1-based column in characters since the last line feed.", "quantifier": "all texts, all read positions", "why_tests_cant": "multi-byte characters, CRLF and literals spanning lines interact", "anchors": ["ast/tokens.go:GetPosition", "ast/ast.go:AstNode.Error"]}
{"id": "C13", "title": "Parse terminates in linearly many steps", "statement": "For every source text Parse returns, and the number of shift/reduce steps it takes is at most a fixed linear function of the length of the text.", "quantifier": "all byte strings", "why_tests_cant": "a table-driven parser with empty productions can loop on some input; absence needs all inputs", "anchors": ["ast/y.go:yyParserImpl.Parse", "ast/ast.go:AstNode.Parse"]}
{"id": "C14", "title": "Parse never panics", "statement": "For every source text Parse returns normally: no index out of range in the scanner, the parse tables or the parse stack, no nil dereference, no write to a nil map.", "quantifier": "all byte strings, all reachable parser states", "why_tests_cant": "tests only exercise a few of the reachable stack configurations", "anchors": ["ast/y.go:yyParserImpl.Parse", "ast/ast.go:appendVarStatements", "ast/ast.go:AstNode.Error"]}
{"id": "C15", "title": "Accepted texts belong to the grammar", "statement": "If Parse returns nil for a text that is not white space only, then the scanner read the whole text without error and its token sequence is derivable from the published grammar (grammar.y).", "quantifier": "all byte strings", "why_tests_cant": "soundness of the generated tables needs all token sequences", "anchors": ["ast/grammar.y", "ast/y.go"]}
{"id": "C16", "title": "The tree is the meaning of the derivation", "statement": "If Parse returns nil then the module tree it built is the one obtained by evaluating the semantic actions of grammar.y on a derivation of the token sequence, every block containing exactly its own statements in source order.", "quantifier": "all byte strings", "why_tests_cant": "values travel through a reused parse stack; a leak of a stale value shows only for particular stack shapes", "anchors": ["ast/grammar.y", "ast/y.go:yyParserImpl.Parse"]}
{"id": "C17", "title": "Errors stick", "statement": "Once a lexical, syntax or semantic error has been recorded during a Parse call, that call returns a non-nil error, whatever follows in the text.", "quantifier": "all texts, all later tokens", "why_tests_cant": "parsing continues after semantic errors and after lexical errors; all continuations must be covered", "anchors": ["ast/ast.go:AstNode.Lex", "ast/ast.go:AstNode.Error", "ast/ast.go:AstNode.Parse"]}
{"id": "C18", "title": "Break and Continue only inside loops", "statement": "If Parse returns nil then every Прервать / Продолжить in the tree is inside the body of a loop; and such a statement inside a loop body is never the cause of an error.", "quantifier": "all texts, all nestings of loops", "why_tests_cant": "a counter is maintained across the whole module; needs all nestings and orders", "anchors": ["ast/ast.go:checkLoopOperator", "ast/ast.go:setLoopFlag", "ast/grammar.y:stmt_loop"]}
{"id": "C19", "title": "Bare Throw only in exception handlers", "statement": "If Parse returns nil then every ВызватьИсключение without an argument in the text is inside the handler part of a try statement.", "quantifier": "all texts, all nestings of try statements", "why_tests_cant": "counter across the whole module; needs all nestings", "anchors": ["ast/ast.go:checkThrowParam", "ast/ast.go:setTryFlag", "ast/grammar.y:stmt_tryCatch"]}
{"id": "C20", "title": "Return with a value only in functions", "statement": "If Parse returns nil then every Возврат with a value in the text is inside a function, never in a procedure or in the module body.", "quantifier": "all texts", "why_tests_cant": "flag across the whole module", "anchors": ["ast/ast.go:checkReturnParam", "ast/ast.go:isFunction"]}
{"id": "C21", "title": "Variables are declared once", "statement": "If Parse returns nil then the names declared by Перем in one procedure or function are pairwise distinct and are exactly the keys of ExplicitVariables; the same for the global variables of the module.", "quantifier": "all declaration lists", "why_tests_cant": "unbounded lists of declarations in several statements", "anchors": ["ast/ast.go:appendVarStatements", "ast/ast_struct.go:ModuleStatement.Append"]}
{"id": "C22", "title": "Module layout is enforced", "statement": "If Parse returns nil then in source order all global variable declarations come before the first procedure or function, and all procedures and functions before the first module statement, and Body lists them in that order.", "quantifier": "all texts", "why_tests_cant": "ordering over unbounded item lists", "anchors": ["ast/ast_struct.go:ModuleStatement.Append", "ast/grammar.y:module"]}
{"id": "C23", "title": "ElseIf branches keep source order", "statement": "The ElseIf branches of an If statement are listed (and printed) in source order.", "quantifier": "all If statements with any number of branches", "why_tests_cant": "the existing tests have at most one relevant branch order", "anchors": ["ast/grammar.y:opt_elseif_list", "ast/ast_print.go:printIfStatement"]}
{"id": "C24", "title": "Operator precedence and associativity", "statement": "Every expression built from operands and the binary operators is grouped by the declared precedences: ИЛИ < И < <> < <= < >= < = < {>,<} < {+,-} < {*,/,%}, all left associative; unary minus binds tightest; НЕ binds between >= and =.", "quantifier": "all operand/operator sequences of any length", "why_tests_cant": "unbounded expressions, all operator pairs", "anchors": ["ast/grammar.y:expr", "ast/y.go"]}
{"id": "C25", "title": "Negation and unary minus are represented", "statement": "The tree distinguishes an operand from its negation (НЕ) and from its unary minus, for every kind of operand; double negation is distinguished from a single one.", "quantifier": "all operand kinds", "why_tests_cant": "each operand kind is a separate case of a type switch; tests cover a few", "anchors": ["ast/ast.go:not", "ast/ast.go:unaryMinus", "ast/ast_struct.go:ExpStatement.UnaryMinus"]}
{"id": "C26", "title": "Parse twice on one node", "statement": "Parsing is a function of the text: calling Parse again on the same AstNode leaves the same tree and returns the same error.", "quantifier": "all texts, all histories of Parse calls on one node", "why_tests_cant": "state accumulates in the node across calls", "anchors": ["ast/ast.go:AstNode.Parse", "ast/ast_struct.go:ModuleStatement.Append"]}
{"id": "C27", "title": "Printing a parsed module never panics", "statement": "For every text for which Parse returned (with or without error) and every PrintConf with a non-negative margin, Print returns normally.", "quantifier": "all byte strings, all configurations", "why_tests_cant": "unchecked type assertions in the printer depend on every tree the parser can build", "anchors": ["ast/ast_print.go:printLoopStatement", "ast/ast_print.go:printIfStatement", "ast/ast_print.go:printGoTo"]}
{"id": "C28", "title": "Printing is deterministic", "statement": "Print of one module tree always returns the same text.", "quantifier": "all module trees, all map iteration orders", "why_tests_cant": "map iteration order is random per run", "anchors": ["ast/ast_print.go:astPrint.print"]}
{"id": "C29", "title": "Printing keeps global variables", "statement": "The printed text of a module contains the declaration of each of its global variables.", "quantifier": "all modules", "why_tests_cant": "every module shape incl. those with no other items", "anchors": ["ast/ast_print.go:astPrint.print", "ast/ast_print.go:printGlobalVariables"]}
{"id": "C30", "title": "Layout options change only layout", "statement": "Print with different margins or with OneLine yields the same sequence of tokens.", "quantifier": "all trees the parser can build, all non-negative margins, OneLine on and off", "why_tests_cant": "all trees and all margins", "anchors": ["ast/ast_print.go:printBody", "ast/ast_print.go:newLine"]}
{"id": "C31", "title": "Printed expressions parse back to the same structure", "statement": "For every expression tree the parser can build, parsing its printed text gives a tree equal up to redundant parentheses.", "quantifier": "all expression trees", "why_tests_cant": "unbounded trees", "anchors": ["ast/ast_print.go:printExpression", "ast/ast_print.go:printVarStatement"]}
{"id": "C32", "title": "Numeric literals survive printing", "statement": "A number printed by the printer reads back as the same float64.", "quantifier": "all float64 values the parser can produce", "why_tests_cant": "all doubles", "anchors": ["ast/ast_print.go:printVarStatement"]}
{"id": "C33", "title": "Date literals survive printing", "statement": "A date printed by the printer reads back as the same date.", "quantifier": "all dates the scanner accepts", "why_tests_cant": "all dates", "anchors": ["ast/ast_print.go:printVarStatement", "ast/tokens.go:Token.Next"]}
{"id": "C34", "title": "String literals survive printing", "statement": "A string printed by the printer reads back as the same string value.", "quantifier": "all string values the scanner can produce", "why_tests_cant": "all strings", "anchors": ["ast/ast_print.go:printVarStatement", "ast/tokens.go:scanString"]}
{"id": "C35", "title": "Walk visits children first, exactly once", "statement": "Walk calls the callback exactly once for every statement slot it reaches, every reached child before its parent, statements of a block in source order; the root argument is the enclosing procedure or function.", "quantifier": "all trees", "why_tests_cant": "unbounded trees", "anchors": ["ast/ast_struct.go:walkHelper"]}
{"id": "C36", "title": "Walk reaches every call", "statement": "Every procedure or function call in the module is visited by Walk.", "quantifier": "all trees", "why_tests_cant": "every syntactic position of a call", "anchors": ["ast/ast_struct.go:walkHelper"]}
{"id": "C37", "title": "Replacing a statement in the callback takes effect", "statement": "Assigning through the stm pointer given to the callback replaces that statement in the tree.", "quantifier": "all trees, all positions", "why_tests_cant": "depends on whether the slot is part of the tree or of a temporary slice", "anchors": ["ast/ast_struct.go:walkHelper"]}
{"id": "C38", "title": "Blank texts are accepted with an empty module", "statement": "For every text consisting of white space only, and every text consisting only of white space, comments and # lines, Parse returns nil and the module is empty.", "quantifier": "all such texts", "why_tests_cant": "unbounded trivia", "anchors": ["ast/ast.go:AstNode.Parse"]}
{"id": "C39", "title": "Parameters are recorded faithfully", "statement": "A procedure or function node carries exactly the declared name, the parameters in order with their Знач marks and default values, the export mark and the directive of its declaration.", "quantifier": "all declarations", "why_tests_cant": "unbounded parameter lists; values read through pointers into the parse stack", "anchors": ["ast/ast.go:createFunctionOrProcedure", "ast/ast_struct.go:ParamStatement.Fill", "ast/ast_struct.go:ParamStatement.DefaultValue"]}
{"id": "C40", "title": "JSON does not identify different programs", "statement": "Programs with different trees have different JSON output.", "quantifier": "all pairs of module trees", "why_tests_cant": "all pairs", "anchors": ["ast/ast.go:AstNode.JSON", "ast/ast_struct.go:addStatementField"]}
{"id": "C41", "title": "No name is lost or invented", "statement": "If Parse returns nil then the names in the tree (variables, calls, constructors, parameters, declarations), read in source order, are exactly the names in the text.", "quantifier": "all texts", "why_tests_cant": "Every production, and every reuse of a stack cell by the parser, could drop or duplicate a subtree; examples cover a few productions.", "anchors": ["ast/grammar.y", "ast/y.go", "ast/ast_struct.go"]}
{"id": "C42", "title": "Texts that follow the grammar and the rules are accepted", "statement": "If the tokens of a text can be derived from the grammar, Прервать and Продолжить stand in loops, ВызватьИсключение without a value in handlers, Возврат with a value in functions, no variable is declared twice in one place, module variables come before procedures, default values of parameters are unsigned and there are no colons, then Parse returns nil and the tree is the tree of the text. Conversely an accepted text, in which no block starts with a separator, is a program that obeys these rules (Прервать after a Пока loop excepted, C18).", "quantifier": "for all source texts", "why_tests_cant": "Acceptance of every derivable text is a completeness property of the LALR tables and of the actions together; each test shows one accepted text.", "anchors": ["ast/grammar.y", "ast/y.go"]}
{"id": "C43", "title": "Formatting a module keeps its meaning", "statement": "For every accepted text, every order in which the variables are visited and every setting of the print options, the text Print returns is accepted by Parse again, and its tree is the tree of the original text up to redundant parentheses and the order of the module variables.", "quantifier": "for all source texts, print options and orders of the map of variables", "why_tests_cant": "The round trip goes through the printer, the scanner, the parse tables and the actions for unboundedly many trees; a test shows one text.", "anchors": ["ast/ast_print.go:Print", "ast/ast_print.go:printBodyItem", "ast/ast.go:Parse"]}
{"id": "C44", "title": "Formatting is stable", "statement": "Formatting a text that Print has produced (parse it and print it again with the same options, listing the module variables in the same order) gives the same text. Formatting any number of times gives only texts that one formatting can give.", "quantifier": "for all accepted source texts, print options and orders of the map of variables", "why_tests_cant": "The second formatting works on the tree of a printed text, in which parentheses and marks sit elsewhere than in the original; whether it prints the same must be shown for unboundedly many trees.", "anchors": ["ast/ast_print.go:Print", "ast/ast_print.go:printExpression", "ast/ast_print.go:printVarStatement", "ast/ast.go:Parse"]}
{"id": "C45", "title": "The text is read exactly as the lexical grammar says", "statement": "A text is read without a lexical error exactly if it is a sequence of tokens of the lexical grammar (words and reserved words in any letter case, names after a dot, numbers, strings, dates, compilation directives, ~labels, operators and punctuation marks) with white space, comments and # lines between them, and then it is read as these tokens. Every other text gives an error. A text whose tokens are those of a program is accepted exactly if the program obeys the rules, with the tree of that program.", "quantifier": "for all texts (any bytes) and all token sequences", "why_tests_cant": "The set of texts is infinite and every token can be followed by any other text; a test can only try some spellings, while a missing or extra character class, a wrong maximal munch or an ambiguity shows only for particular neighbours.", "anchors": ["ast/tokens.go:next", "ast/tokens.go:Next", "ast/tokens.go:scanIdentifier", "ast/tokens.go:scanNumber", "ast/tokens.go:scanString", "ast/tokens.go:skipComment", "ast/ast.go:Parse"]}
{"id": "C46", "title": "A syntax error is about the first token that cannot be right", "statement": "When Parse reports a syntax error for a text without lexical errors, the tokens before the reported one are the beginning of some text of the grammar, and together with the reported token they are not; if the text merely ends too early, the last token is reported. There is only one such token, and a syntax error is reported exactly for the texts that do not belong to the grammar.", "quantifier": "for all texts without lexical errors; the texts the prefix could still become are quantified over too", "why_tests_cant": "That no continuation whatever makes the prefix and the token right is a statement about infinitely many texts, and a table-driven parser with default reductions may notice an error late or report a token behind it.", "anchors": ["ast/y.go:Parse", "ast/ast.go:Error", "ast/grammar.y"]}
{"id": "C47", "title": "An error message shows the token and its place", "statement": "The error Parse returns for a text without lexical errors is about a token of that text: it shows this token as it is written and gives the line (from 1) and column (from 0) of its beginning.", "quantifier": "for all texts without lexical errors and all errors Parse returns for them", "why_tests_cant": "The place depends on everything before the token: line breaks, comments, multi-byte characters, invalid bytes, and on how far the parser had read ahead when it noticed the error.", "anchors": ["ast/ast.go:Error", "ast/tokens.go:GetPosition", "ast/ast.go:Lex"]}
{"id": "C48", "title": "An error message names a rule that the text breaks", "statement": "When Parse reports an error other than a syntax error for a text without lexical errors, what the message says is true of the text: a Прервать or Продолжить stands outside loops; a ВызватьИсключение without a value stands outside handlers; a Возврат with a value stands outside functions; the named variable is declared twice in the same procedure or function, or twice in the module; a module variable is declared after a procedure or function; a colon stands elsewhere than behind a label. The message about procedures behind the module body never appears. For a text with lexical errors the same is true of the tokens read before the error was reported, the faults between them left out.", "quantifier": "for all texts and all errors Parse returns for them, whatever else is wrong with the text", "why_tests_cant": "Messages are raised from flags and counters that the actions set and clear while reducing, later errors overwrite earlier ones, and a wrong text may contain any number of violations of any kind; that no combination produces a false message is a statement about all of them.", "anchors": ["ast/ast.go:checkLoopOperator", "ast/ast.go:checkThrowParam", "ast/ast.go:checkReturnParam", "ast/ast.go:appendVarStatements", "ast/ast_struct.go:Append", "ast/grammar.y"]}
{"id": "C49", "title": "A rule message is given at the statement that breaks the rule", "statement": "When Parse reports an error other than a syntax or lexical error, the text, lexical errors left out, has a statement of the kind the message is about where it is not allowed (a Прервать or Продолжить with every loop before it closed, a ВызватьИсключение without a value with every handler before it closed, a Возврат with a value with every function before it closed, a second declaration of the named variable, a declaration of module variables behind a procedure or function, a colon without a label before it), and the message shows the place of that statement: for Прервать and Продолжить the operator itself, quoted as written, for the others the last token of the statement or the token behind it.", "quantifier": "for all texts, whatever other errors they have, and all such errors Parse returns for them", "why_tests_cant": "The place is that of the token read last when the action runs, which depends on whether the tables needed to read ahead in that state; and later errors overwrite earlier ones. That message and place always belong to the same offending statement is a statement about all programs with all combinations of errors.", "anchors": ["ast/ast.go:Error", "ast/ast.go:checkLoopOperator", "ast/ast.go:checkThrowParam", "ast/ast.go:checkReturnParam", "ast/y.go:Parse", "ast/grammar.y"]}
{"id": "C50", "title": "Parse sees only the tokens: layout, comments and letter case of keywords do not matter", "statement": "If two texts are read without lexical errors as the same tokens (identifiers, directives and labels with the same spelling, literals with the same value, keywords and marks of the same kind), then parsing them has the same outcome: either both calls panic in the same way, or both return the same module and both no error, or the same message for the same token, each with the spelling and the place of that token in its own text. So accepted texts that differ only in layout, comments, regions and the letter case of keywords have the same module and the same formatting.", "quantifier": "for all pairs of texts that are read as the same tokens, accepted or not", "why_tests_cant": "The actions read cells of the value stack which also hold positions, spellings and stale values of earlier reductions, and the end of the text is read again and again; that none of this ever reaches the module or the choice of the error is a statement about all pairs of runs.", "anchors": ["ast/ast.go:Parse", "ast/ast.go:Lex", "ast/ast.go:Error", "ast/y.go:Parse", "ast/grammar.y", "ast/tokens.go:Next"]}
{"id": "C51", "title": "The scanner's messages are true", "statement": "The scanner returns an error exactly where the text, behind white space and comments, has the fault the error names: 'unexpected EOF' for a quoted literal that is still open at the end of the text, 'unexpected EOL' for a line break inside a quoted literal without a bar on the next line, 'incorrect Date type constant' for a date without a digit, a date error for digits that are no calendar date, 'identifier immediately follow the number' for a number directly followed by a letter, a number error for digits with two dots or a value too large for a float64, 'syntax error' for a character that starts no token and for an ampersand without a directive. Every text is a sequence of tokens or has a first fault, never both, and each place has at most one fault. When Parse returns an error of the scanner, reading the text gets to a fault of that name; for a sequence of tokens it never does.", "quantifier": "for all texts, any bytes, and all places at which the scanner is called, also behind earlier faults", "why_tests_cant": "The faults are found by nested loops over quoted literals, comments and numbers, and conversion errors replace scanner errors afterwards; that each message means exactly its fault, for every byte sequence and also when reading goes on behind a fault, is a statement about all texts.", "anchors": ["ast/tokens.go:next", "ast/tokens.go:Next", "ast/tokens.go:scanString", "ast/tokens.go:scanNumber", "ast/ast.go:Lex"]}
{"id": "C52", "title": "The error names the first fault of the text", "statement": "When a text is not a sequence of tokens, Parse returns the scanner's error for its first fault.", "quantifier": "for all texts with a fault", "why_tests_cant": "The parser treats a fault as the end of the text, goes on reading behind it and overwrites its error; which error is left at the end depends on all later statements.", "anchors": ["ast/ast.go:Lex", "ast/ast.go:Error", "ast/ast.go:Parse", "ast/y.go:Parse"]}
{"id": "C53", "title": "Every tree Parse leaves behind is well formed", "statement": "After any number of calls of Parse, whatever they returned, the tree has the shape a client's switch over node types has to handle: procedures and functions stand first and only at the top; statement blocks hold statements only, never empty ones; conditions, values, parameters and call arguments hold expressions (arguments and return values may be absent); a loop is of exactly one of three kinds; operations have an operator; names, labels and directives have the form of words; numbers are finite and dates are calendar dates; declared names are distinct; marks (unary minus, negation) stand only on the outermost node of a dotted name.", "quantifier": "for all texts and all sequences of Parse calls", "why_tests_cant": "The fields are interface{} and the actions of the parser start from leftover stack cells, so any kind of node could turn up in any field; tests see a few trees.", "anchors": ["ast/grammar.y", "ast/y.go:Parse", "ast/ast_struct.go"]}
{"id": "C54", "title": "JSON returns no error on a parsed module", "statement": "JSON returns a nil error for every node made by NewAST and any number of calls of Parse: no number is infinite and no date is outside of the years JSON can write.", "quantifier": "for all texts and all sequences of Parse calls", "why_tests_cant": "It depends on every value that can get into any field of the tree.", "anchors": ["ast/ast.go:JSON", "ast/ast_struct.go", "ast/tokens.go:next"]}
{"id": "C55", "title": "IsMethod tells whether a dotted name ends in a call", "statement": "For every dotted name written as a statement, Parse gives one call chain, and its IsMethod is true exactly when the name ends with a closing parenthesis, that is, when the last part is a call and not a field or an indexed element.", "quantifier": "for all dotted names, whatever their parts and arguments, in all spellings", "why_tests_cant": "Dotted names have any number of parts and the chain is built back to front; reserved words behind a dot are names.", "anchors": ["ast/ast_struct.go:IsMethod", "ast/grammar.y"]}
{"id": "C56", "title": "The two lower-casing functions agree exactly on valid UTF-8", "statement": "The fast lower-casing used for keywords gives the same bytes as the plain version it replaced if and only if the string is valid UTF-8; other strings differ because the plain version replaces stray bytes by U+FFFD.", "quantifier": "for all byte strings", "why_tests_cant": "The benchmark compares times, not results, and only on a few strings.", "anchors": ["ast/tokens.go:fastToLower", "ast/tokens.go:fastToLower_old"]}
{"id": "C57", "title": "IsDigit accepts exactly strings of ASCII digits", "statement": "IsDigit returns true if and only if every byte of the string is one of 0 to 9; the empty string counts.", "quantifier": "for all byte strings", "why_tests_cant": "It ranges over runes of arbitrary, possibly invalid, strings.", "anchors": ["ast/tokens.go:IsDigit"]}
{"id": "C58", "title": "Modules can be put together and taken apart", "statement": "If two texts are accepted and the first has nothing but declarations and procedures, then the first text, a line break and the second text together are accepted, and the variables and the Body of the tree are those of the first followed by those of the second, provided no variable is declared behind a procedure or twice. Conversely every procedure of an accepted text whose breaks are all inside loops is accepted alone, and gives the same node. Texts in which a statement list starts with a separator are left out.", "quantifier": "for all pairs of accepted texts; for all procedures of all accepted texts; for all texts with the tokens of the procedure", "why_tests_cant": "It relates the trees of three unboundedly large texts; parser state left over from one procedure could change how another is read.", "anchors": ["ast/grammar.y", "ast/ast.go:Parse", "ast/tokens.go:Next"]}
{"id": "C59", "title": "Names and literals are opaque", "statement": "Take two texts that differ, apart from spaces, comments and the spelling of keywords, only in their names, labels, directives, strings, numbers and dates, where different identifiers of the first text have different counterparts in the second. The second is accepted by Parse exactly if the first is, and its tree is the tree of the first with the names and values exchanged; nothing else in the tree depends on them. Texts in which a statement list starts with a separator are left out.", "quantifier": "for all pairs of texts of any length and all ways of exchanging names and values", "why_tests_cant": "It is about all substitutions of names and values in all texts; a parser that treats one particular name or value specially passes any finite set of tests that does not contain it.", "anchors": ["ast/ast.go:Parse", "ast/grammar.y", "ast/tokens.go:Next"]}
{"id": "C60", "title": "OneLine and Margin change only line breaks and spaces", "statement": "For every tree, whatever is in it, the text Print writes with OneLine set is, line feeds aside, the text it writes without, with the same margin; with two margins that are not negative the texts agree apart from line feeds and spaces. If the module has no directives and none of its strings goes over several lines, the text written with OneLine contains no line feed at all: it is one line. PrintStatementWithConf behaves the same on a single statement.", "quantifier": "for all trees, all orders of the map of module variables, all settings; the last part for all accepted texts without an early separator", "why_tests_cant": "The repository's tests compare outputs after removing white space, so they cannot see where the layout goes, and they do so for some dozens of trees; one printing function that writes a line feed or a space of its own, at one nesting of statements, is only found by covering all trees.", "anchors": ["ast/ast_print.go:Print", "ast/ast_print.go:PrintStatementWithConf", "ast/ast_print.go:newLine"]}
{"id": "C61", "title": "Parse writes to standard output only for unreadable bytes", "statement": "Parse writes nothing to standard output for a text of characters without U+FFFD, whether the text is accepted or not. For an accepted text it writes exactly one line for each byte that belongs to no character and each U+FFFD in it. A library user whose program speaks a protocol over standard output relies on the first part.", "quantifier": "for all byte strings", "why_tests_cant": "The output is produced deep in the scanner, once or several times for each look at a character; that no look happens at anything else, and that each unreadable byte of an accepted text is looked at exactly once, is a statement about all texts and all ways through scanner and parser.", "anchors": ["ast/ast.go:Parse", "ast/tokens.go:currentLet", "ast/tokens.go:next"]}
{"id": "C62", "title": "What formatting changes in a module, exactly", "statement": "The text Print returns for the tree of an accepted text is accepted, and its tree is the original one, up to redundant parentheses and the order of the module variables, with exactly these changes: numbers are rounded to the nearest whole number (halves to the even one); the minus and НЕ of a variable are dropped in arguments, in names with dots and brackets and in statements; the minus of a name with dots and of an operation is dropped; a НЕ at the beginning of a left operand is extended over the operation unless the operator binds looser; the ИначеЕсли branches of a condition are reversed; a comparison that is a statement becomes an assignment; НЕ before parentheses that are thrown is dropped; local variables of procedures are dropped. Hence formatting keeps the meaning of a module if and only if none of these changes applies to it. A module of declarations only is printed as the empty text. Two such modules that are printed as the same text, with whatever options, have the same formatted tree.", "quantifier": "for all accepted texts in which no block starts with a separator, every Прервать is in a loop, parentheses hold one expression, expressions hold no labels and defaults are literals; all print options that keep the words of a try statement apart; all orders of the map of variables", "why_tests_cant": "It says what happens to every tree, including the trees formatting damages: a test that compares printed text with expected text for some trees neither lists the damage completely nor shows that nothing else is damaged.", "anchors": ["ast/ast_print.go:Print", "ast/ast_print.go:printExpression", "ast/ast_print.go:printVarStatement", "ast/ast_print.go:printIfStatement", "ast/ast.go:Parse"]}
{"id": "C63", "title": "Parsing takes time linear in the size of the text", "statement": "For every text the scanner calls SrsCode at most a fixed number of times per byte, accepted or not. For an accepted text no position is computed; if Parse returns a message with a place, at least one was. The number of positions computed is at most linear in the size of the text, and each looks at no more than the text before it. The whole work, including the bytes looked at to compute positions, is linear in the size of the text.", "quantifier": "for all texts; the constants are the same for all of them", "why_tests_cant": "A benchmark measures some texts. A bound for all texts, with one constant, is a statement about unboundedly long runs, and the texts that break it (one declaration that repeats a name) are not among those anybody measures.", "anchors": ["ast/tokens.go:next", "ast/tokens.go:currentLet", "ast/tokens.go:nextLet", "ast/tokens.go:nextPos", "ast/tokens.go:GetPosition", "ast/ast.go:Error", "ast/ast_struct.go:Append"]}
{"id": "C64", "title": "Parsing is compositional", "statement": "If a text of statements is accepted on its own, it can be put into any block of an accepted module: as the body of an empty block, before the first statement, between two statements, or behind the last one, at any depth. The new text is accepted and its tree is the old one with the statements of the inserted text at that place and nothing else changed. Taking them out again gives an accepted text with the old tree. In particular: a module, a semicolon and statements give a module with the statements of both; statements as the body of a procedure or function without parameters give the same statements in its Body; two modules one after the other, the first ending with a procedure, give the declarations and statements of both, in order, unless a variable is declared twice or behind a procedure.", "quantifier": "for all accepted modules, all accepted texts of statements, all places (blocks nested to any depth); no block starts with a separator (C16)", "why_tests_cant": "Two texts and a place are three unbounded parameters. The parser keeps flags about loops, handlers, functions and declarations while it reads, and a test shows for single combinations only that what was read before does not change what is read next.", "anchors": ["ast/grammar.y:module", "ast/grammar.y:opt_body", "ast/grammar.y:body", "ast/grammar.y:global_variables", "ast/grammar.y:funcProc", "ast/ast.go:Parse", "ast/ast_struct.go:Append"]}
{"id": "C65", "title": "Texts that are not valid UTF-8: only characters count, and what comes out is valid", "statement": "Parse sees a text only through its characters, where every byte that is not part of valid UTF-8 is the character U+FFFD: two texts with the same characters, whatever their bytes, give the same tree, the same error with the same message, line, column and literal, or the same panic, at the first and every later call on the same node. So replacing invalid bytes by U+FFFD before parsing changes nothing. Every name, label, string and directive in the tree, after any number of calls, successful or not, is valid UTF-8; Print writes valid UTF-8 with any options; JSON shows each of these texts unchanged.", "quantifier": "for all byte sequences, all numbers of calls of Parse, all orders of the variables and all print options", "why_tests_cant": "The scanner keeps byte offsets, copies literals character by character, and computes positions from prefixes of the bytes. That the offsets never leak into results holds or fails for every mixture of broken and intact sequences, at every place of a text; tests try single bytes at single places.", "anchors": ["ast/tokens.go:currentLet", "ast/tokens.go:nextPos", "ast/tokens.go:GetPosition", "ast/tokens.go:next", "ast/ast.go:Parse", "ast/ast.go:JSON", "ast/ast_print.go:Print"]}
{"id": "C66", "title": "Rewriting a tree with Walk", "statement": "Whatever a callback of Walk writes into the statements it is given, through the pointer held in the tree or by assigning to *stm, walking the module of a node amounts to visiting the slots Walk comes to one by one, inner ones before outer ones and blocks in order: every call is given the statement as it stands in the slot by then, the statement around it and the procedure around it with everything written so far; what has been written into the statement stays, what has been assigned stays if the slot belongs to a list and is lost otherwise, and nothing else in the tree changes. In particular, a callback that changes only the statement itself (an operator, a name, a flag) through the pointer changes it in every slot Walk comes to and in no other.", "quantifier": "for all trees that any number of calls of Parse can leave behind and all callbacks with any state that write only into the statement they are given", "why_tests_cant": "The effect depends on which statements Go holds by pointer, which slices are temporaries and in what order the slots are visited; a test shows one callback on one tree.", "anchors": ["ast/ast_struct.go:283-289", "ast/ast_struct.go:333-366", "ast/ast_struct.go:44-180"]}
{"id": "C67", "title": "Parse sees only the tokens and the faults of a text", "statement": "Every text is a sequence of tokens and lexical faults, with white space, comments and region lines between them, in exactly one way. If two texts are the same sequence (the same tokens as in C50, and faults named by the same error), then parsing them has the same outcome: both calls panic in the same way, or both return the same module and both no error, the same error of the scanner, or the same message for the same token, each with the spelling and the place of that token in its own text. The only exception is a text of white space alone, which Parse does not read: the scanner takes some Unicode white space as a fault.", "quantifier": "for all pairs of texts with the same tokens and faults, none or both of them all white space; every text has such a sequence", "why_tests_cant": "After a fault the scanner goes on somewhere inside the text, the driver has been told that the text ends and asks again, and its cells hold values from before the fault; that no layout between and behind faults ever makes a difference is a statement about all pairs of runs.", "anchors": ["ast/ast.go:Parse", "ast/ast.go:Lex", "ast/ast.go:Error", "ast/y.go:Parse", "ast/tokens.go:Next", "ast/tokens.go:next"]}
{"id": "C68", "title": "The text of an error tells the error", "statement": "From the text of an error of Parse everything in it can be read back: the message and the names in it, the line, the column and the token, whatever characters, quotes, line ends or broken bytes the token contains, and even if the token looks like the end of a message. Errors of the scanner begin with words no other error begins with. Two errors have the same text exactly if they are the same error of the scanner, or the same message about the same token at the same place. The text is a single line of valid UTF-8 without control characters, also for source texts that are not.", "quantifier": "for all errors, all names and tokens (arbitrary bytes), all lines and columns, all choices of printable characters", "why_tests_cant": "The token is arbitrary text that is put between fixed words; that no token and no combination of escapes can be confused with another one or with the words around it is a statement about all byte sequences.", "anchors": ["ast/ast.go:Error", "ast/ast.go:Lex", "ast/ast.go:checkLoopOperator", "ast/ast.go:checkThrowParam", "ast/ast.go:checkReturnParam", "ast/ast.go:appendVarStatements", "ast/ast_struct.go:Append", "ast/tokens.go:next"]}
{"id": "C69", "title": "Names and literals are opaque in every text, also one with errors", "statement": "Take any text, with any number of errors, and any other text that is the same sequence of tokens and lexical faults except that names, labels, directives, strings, numbers and dates are exchanged, each by a fixed function, and faults by other faults at the same places; the function keeps different identifiers of the text different and maps the opposite of a number to the opposite of its image. Then the outcomes correspond: both calls panic in the same way; or both return, the second module is the first with names and literals exchanged (whatever has got into it by mistake included), and there is no error in both, the scanner's error and its replacement, or the same message for the same token, a name quoted in it exchanged, each with the spelling and place of that token in its own text. In particular the trees of an accepted text are renamed even where a block gets statements of an earlier one.", "quantifier": "for all renamings with these properties, all maps of faults and all pairs of texts related by them, none or both all white space", "why_tests_cant": "It compares all pairs of runs, also runs that go on after errors over cells of the parse stack that hold values from before, and says that no name or literal ever decides anything except through the comparison of declared names.", "anchors": ["ast/ast.go:Parse", "ast/ast.go:Lex", "ast/ast.go:Error", "ast/y.go:Parse", "ast/grammar.y", "ast/tokens.go:Next"]}
{"id": "C70", "title": "Text behind the token of a syntax error has no influence", "statement": "A syntax error names a token of the text. If that token is directly followed by another token, the outcome is settled by what stands up to the named one: every text with the same tokens and lexical faults up to and including it, laid out in any way, and with anything behind it, tokens, faults or nothing, gets a syntax error too, for the same token with its spelling and place in that text, and the same module is returned. Only if the named token is the last one, or a fault follows it, can the text behind it change the outcome.", "quantifier": "for all texts with a syntax error and all texts with the same beginning that are not all white space", "why_tests_cant": "It compares a run with the runs on all continuations of its text; that the parser never looks further than the token it names, in any state and whatever errors came before, is not visible from examples.", "anchors": ["ast/ast.go:Parse", "ast/ast.go:Lex", "ast/ast.go:Error", "ast/y.go:Parse", "ast/tokens.go:Next"]}
{"id": "C71", "title": "The bytes of JSON tell the value", "statement": "The bytes JSON returns for a module are a JSON text from which any reader of JSON gets the value back completely: all names and strings, whatever quotes, backslashes, control characters or marks they contain (bytes that are no UTF-8 as U+FFFD), all numbers, lists and members in order. Two modules with the same bytes are the same up to what JSON leaves out (C40). The bytes are a single line of valid UTF-8 without control characters, without < > & and without the line separators U+2028 and U+2029, so they can be put into a log line, an HTML page or a script as they are.", "quantifier": "for all modules, all strings (arbitrary bytes) and every formatting of numbers that uses the characters of numbers and keeps different numbers apart", "why_tests_cant": "Names and strings of a program are arbitrary bytes between the marks of JSON; that no string can be confused with another one or with the marks around it, at any depth, is a statement about all trees and all byte sequences.", "anchors": ["ast/ast.go:JSON", "ast/ast_struct.go"]}
{"id": "C72", "title": "JSON is a function of the program", "statement": "JSON returns the same bytes each time it is called on a tree: the order in which Go goes through the maps of module variables and local variables has no influence, nor has the order in which the variables were declared. Texts that differ only in layout, comments and the letter case of keywords give the same bytes. Two trees left by Parse give the same bytes exactly if they are the same up to what JSON leaves out (C40).", "quantifier": "for all trees Parse can leave behind, also after errors and repeated calls, all orders of their maps, all texts, and every formatting of numbers that keeps numbers apart", "why_tests_cant": "The order of a map changes from run to run, so a test sees a few of the n! orders; sameness for all orders of all maps of all trees needs that the keys are distinct in every reachable tree and that sorting them is unique.", "anchors": ["ast/ast.go:JSON", "ast/ast_struct.go:ModuleStatement", "ast/ast_struct.go:FunctionOrProcedure"]}
{"id": "C73", "title": "A broken rule is reported, the only one by its own message", "statement": "If a text follows the grammar and breaks a rule (a Прервать or Продолжить outside loops before the first Пока, a ВызватьИсключение without a value outside handlers, a Возврат with a value outside functions, a variable declared twice in a procedure, a function or the module, a module variable behind a procedure or function), then Parse, if it returns, returns an error about a rule that the text breaks, never nil, a syntax error or a lexical error. If the text breaks only one rule (for variables: only one name is repeated) the error is about that rule and that name.", "quantifier": "for all texts without lexical errors that follow the grammar and have no signed default value, whatever the depth and number of violations", "why_tests_cant": "Violations are found by flags and counters spread over the actions and errors overwrite each other; that none is lost and none is taken for another is a statement about all programs.", "anchors": ["ast/ast.go:checkLoopOperator", "ast/ast.go:checkThrowParam", "ast/ast.go:checkReturnParam", "ast/ast.go:appendVarStatements", "ast/ast_struct.go:Append", "ast/ast.go:Parse"]}
{"id": "C74", "title": "A fault behind a complete program is the error, and the tree is that of the program", "statement": "If Parse accepts a text, and another text has the same tokens and behind them lexical faults (unknown characters, strings or dates that do not end, wrong dates or numbers, unknown directives) and nothing else but white space and comments, then Parse returns for it the error of one of these faults (of the fault, if it is one), does not panic, and leaves the same tree as for the accepted text. Which one depends only on the tokens: there is a number k so that it is the fault with k others before it, or the last if there are fewer. If there are more than k faults in a row, whatever follows them, further code included, is not read: error and tree are the same.", "quantifier": "for all accepted texts, all ways of writing their tokens, all sequences of faults behind them, all that follows more than k of them", "why_tests_cant": "The driver sees a fault as the end of the text, keeps asking the scanner, and runs the remaining actions with the error already set; that none of them replaces the error or changes the tree is a statement about all programs and all faults.", "anchors": ["ast/ast.go:Lex", "ast/ast.go:Parse", "ast/tokens.go:Next", "ast/y.go:Parse"]}
