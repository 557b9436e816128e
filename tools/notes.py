NOTES={
'C01':('proved','Every loop of the scanner satisfies its recursion equation (fuel never runs out); progress of Token.Next; the stream ends within length(code) calls.'),
'C02':('proved','For all 35 reserved words, all case variants, all trivia in front and all texts behind; converse: any other word is an identifier.'),
'C03':('proved','For a dot that does not follow a dot; C03_double_dot_refuted shows why the restriction is needed (the second of two dots resets the mark).'),
'C04':('proved','One step and the whole stream, lexical errors included; trailing unfinished comment lines.'),
'C05':('proved','Plain bodies (C05_string) and the exact set of accepted literals with their values (C05_string_exact).'),
'C06':('proved','Token.Next part; the Parse part is C15_lexical_error.'),
'C07':('proved','Nearest float64, ties to even, exact overflow bound; uniqueness of the nearest value.'),
'C08':('proved','Exactly the dates described by date_digits.'),
'C09':('proved',''),
'C10':('proved',''),
'C12':('proved',''),
'C13':('proved','At most 10*length+1 shifts and reductions for any node; the fuel of the model is enough. The scanner part is C01.'),
    "C14": ("partial", "The only possible panic is the write to a nil map in the second variable list of a procedure, after an error was recorded; no index out of range, no nil dereference. Without lexical errors it needs two Перем lists in a row of which the first repeats a name (C14_only_repeated_partial), for texts with lexical errors the same holds of the tokens read, the faults left out (C14_any_partial), and for texts of the grammar it happens exactly then (C14_exactly). C14_refuted: that panic exists."),
'C15':('proved','Soundness of the LALR tables: checked once by computation for every state and token (Cert.v), then for all runs. White-space-only texts are accepted unread (C15_white_refuted).'),
'C17':('proved','For runs that return; the panic of C14 is the exception.'),
'C16':('partial','Proved for texts in which no block starts with a separator (; or :), decidable on the tokens; the meaning (Syntax.v) records the known losses of НЕ and minus (C25) and the order of ElseIf (C23). Missing because false: blocks starting with a separator receive statements of an earlier block (C16_refuted, and trees with a bare throw or a return value in the wrong place).'),
    "C18": ("partial", "Enforced in the text before the first Пока; in the tree if there is no Пока and no block starts with a separator; no false alarms (C18_no_false_alarm, C18_rejected). False otherwise: the loop counter is never decreased by Пока loops (C18_after_while_refuted), and C18_tree_refuted."),
'C19':('proved','On the tokens of every accepted text. For the tree see C16_throws_tree_partial / C16_throws_tree_refuted.'),
'C20':('proved','On the tokens of every accepted text. For the tree see C16_returns_tree_partial / C16_returns_tree_refuted.'),
'C21':('proved','Names are compared as written (case-sensitively).'),
'C22':('proved','Body: the procedures and functions first, in order; the rest is exactly the module statements if no block starts with a separator (C16).'),
'C23':('partial','They are listed in exactly reverse order; right if there is at most one. C23_refuted: the full statement is false.'),
'C39':('proved',''),
'C41':('partial','Under the conditions of C16 and C23 and without repeated default values; false in general (C41_refuted).'),
'C27':('proved','For every node reached by any number of Parse calls, all orders of map iteration and all margins >= 0; also the statements of Body one by one.'),
'C28':('partial','Unique with at most one global variable or an empty Body; otherwise unique up to the order of the declarations. C28_refuted: two texts for one accepted module.'),
'C29':('partial','Holds if Body is not empty. C29_refuted: a module with declarations only is printed as the empty text.'),
'C32':('partial','A number reads back from its printed text exactly if it is a whole number; C32_refuted: 1.5 is printed as 2.'),
'C33':('proved',''),
'C34':('proved',''),
'C35':('partial','Order, exactly once, statement and parent: all trees (C35_order). Root: for every node reached by Parse calls, right inside procedures and before the first one; missing because false: later statements of the module are reported inside the last procedure (C35_root_refuted).'),
'C36':('partial','Every call below walked fields only is visited (all trees); C36_refuted: calls in assignments, chains, constructor arguments, loop headers and thrown values are not.'),
'C37':('partial','Exact effect of a replacement at any visited slot of any tree: it takes place in slots of lists (Body, blocks, arguments) and is lost elsewhere (C37_refuted). Callbacks that write into nodes through pointers: C66.'),
'C11':('partial','Exact criterion C11_exactly: agrees on valid UTF-8 whose characters the C code handles; otherwise it differs, reads out of its buffer (C11_outside: whenever a character is cut off at the end of a valid text) or does not stop (C11_hangs); C11_refuted.'),
'C40':('partial','JSON is equal exactly when the trees are equal up to the fields the JSON leaves out (erase; C40_exactly); as stated it is false: break, НЕ, minus, dates and bare throw are among the refuted cases.'),
    "C25": ("partial", "Exact criterion for every expression (C25_not_partial, C25_minus_partial) and for the trees of texts (C25_text_not_partial, C25_text_minus_partial). False in general: double НЕ, minus before calls and parentheses, НЕ before a[i], numbers, strings, Новый, ?()."),
'C26':('partial','Exact effect of a second call after an accepted first one (C26_second); the tree stays the same only if Body is empty. For any node: the same attempts to append (C26_attempts).'),
'C38':('proved','On any node without an error; nodes used before keep their tree.'),
'C24':('proved','For every accepted text: the tokens are those of a program grouped by the table (C24_grouping) and there is only one such program (C24_unique); the tree is its tree unless a block starts with a separator (the C16 defect).'),
    "C42": ("proved", "On programs of any grouping (C42_accepted), on tokens alone (C42_derivable), and as an equivalence for texts in which no block starts with a separator (C42_exactly). Signed default values are excluded in the statement because the generated tables do not follow the grammar there (C42_derivable_refuted)."),
    "C30": ("partial", "For every tree any sequence of Parse calls can leave behind: all settings give texts that are read without a lexical error as the same tokens, if the module has no parenthesised list of other than one element and the setting keeps the words of a try statement apart (several lines; or an indentation and no empty block in a top-level try; or no try statement). Refuted in general: OneLine glues the words of an empty try; the elements of a list are written without commas and may become unreadable."),
    "C31": ("partial", "One-statement texts, any assignment or other statement, any option: the text PrintStatement returns is accepted and its tree is the same up to redundant parentheses, for all expressions that are written in full (predicate lasts: whole numbers, no sign on arguments and on parts of dotted names, no minus before dotted names and operations, one element in parentheses, no parenthesised negation as left operand of a tighter operator). Refuted outside: one witness for each condition. Missing: nothing can be proved there, the printer drops these parts."),
    "C43": ("partial", "For all accepted texts in which no block starts with a separator: if every part of the module is written (predicate lasts_module) and the options keep the words of a try statement apart, then for every order of the variables Print's text is accepted and its tree is the same up to redundant parentheses and the order of the map of variables. Refuted outside: local variables lost, several ElseIf branches reversed, fractions rounded, a comparison statement becomes an assignment, a module of declarations is printed as nothing. C62 gives the exact criterion for when the meaning is kept."),
    "C44": ("partial", "For all accepted texts for which C43 is shown and whose tree is settled (predicate settled_module: no signed variable in parentheses as an argument, no negated operation as an operand, and the like): the tree of the printed text prints exactly as the first tree did, for all options and orders, so any number of formattings gives a text of the first one. Refuted outside: a sign in double parentheses is lost by the second formatting, a negation inside parentheses is moved out and binds to more, several ElseIf branches change places every time."),
    "C45": ("proved", "Lexical.v is a relation between texts and token sequences that does not mention the scanner. C45_token: one call of the scanner at any place of a text; C45_text, C45_error, C45_unique: whole texts, any bytes; C45_front, C45_accepted: with C24 and C42, from the text to the tree (for programs without stale cells, see C16). Findings of C03 are part of the grammar: a dot after a dot cancels it."),
    "C46": ("proved", "C46_first, C46_unique, C46_exactly. Signed default values are excluded in the statement because the generated tables do not follow the grammar there (C46_signed_refuted); C46_exactly excludes the panic of C14."),
    "C47": ("partial", "For every error of every text that is not the scanner's own (C47_all_partial; C47_any_partial: for a text without lexical errors, with the tokens before it) and for syntax errors together with C46 (C47_syntax_partial): words, numbers, operators, marks and directives are shown as written with line and column of their beginning. Refuted for strings, dates and labels: quotes are not counted and white space behind the literal is, so the line may be a later one and the column negative. The scanner's own errors carry no place (C51)."),
    "C48": ("proved", "C48_true, for every text that is read without a lexical error, also with several violations. The rules are scans of the token sequence (Broken.v, Rules.v). With C46 every error of such a text is explained: a syntax error by the grammar, any other by a broken rule. C48_any: for every text; with lexical errors the rule is broken by the tokens read, the faults left out (Skip.v)."),
    "C49": ("proved", "C49_any for every text, the lexical errors left out; C49_at the same on the tokens of a text without lexical errors; C49_loop_any, C49_loop: exactly the operator for Прервать and Продолжить. Culprit.v says what is blamed: for a twice declared name the second declaration, for a misplaced declaration one behind a procedure or function, for a colon one without a label before it. For messages other than those on loop operators the token shown is the last one of the statement or the next one, as the statement says; it may be on another line (C49_inside_refuted)."),
    "C50": ("proved", "C50_same, for all pairs of texts with the same tokens (Lexical.v), also rejected ones: two runs of the driver are kept in step, their stacks, including the stale cells above the top, equal up to the tokens' positions and spellings. C50_accepted: the same module and formatting. Texts with lexical errors have no token sequence."),
    "C51": ("proved", "C51_fault: exactly, for one call anywhere in a text; C51_resumes: where reading goes on; C51_one, C51_either: one fault at a place, tokens or a first fault; C51_message, C51_none: Parse. Faults.v says what the faults are. Two private-use characters (U+E01B and U+E02C) are reported as a bad number or date, because their codes are those of token kinds; this is part of the specification."),
    "C52": ("partial", "Shown: a text with a fault that is not all white space is never accepted silently (C52_error_partial), and every error is about a fault or a token that reading the text gets to (C51_message, C47_all_partial). When a lexical error is returned the tokens read, the faults left out, are a whole module, and its tree is the result if it is legal and clean (C52_seen_partial). Refuted: a string without end behind an equals sign is reported as a syntax error at the equals sign; of two faults the later one is reported; a statement behind a fault is parsed and its own error replaces the fault."),
    "C53": ("proved", "C53_shape, for every node made by any number of calls of Parse; the shape is written down in Shapes.v. The body of the module is procedures followed by statements; the map of local variables has distinct keys. Proved as an invariant of all stack cells, including the stale ones an empty production starts from."),
    "C54": ("proved", "C54_json. Marshal.v models the two ways json.Marshal can fail on these types: numbers that are not finite and years outside of 0 to 9999. C54_example: a tree built by hand for which it fails."),
    "C55": ("proved", "C55_method, for all texts whose tokens are those of a dotted name (Syntax.v)."),
    "C56": ("proved", "C56_agree, both directions, for all byte strings."),
    "C57": ("proved", "C57_digits, both directions, for all byte strings."),
    "C58": ("proved", "C58_join, on the texts themselves, and C58_alone. C58_example_order and C58_example_break show that the conditions are needed; the one on breaks because of C18."),
    "C59": ("proved", "C59_rename, both directions, with the exchanged tree; C59_accepted. C59_together_refuted: without keeping the identifiers apart it fails (a variable declared twice)."),
    "C60": ("proved", "C60_lines, C60_letters and C60_statement for all trees; C60_one_line for all trees without directives and line feeds in words, C60_text from the text. C60_directive_refuted: a directive is written with line feeds even with OneLine."),
    "C61": ("proved", "C61_silent and C61_text for all texts, C61_accepted exact. C61_rejected_refuted: the count is not exact for rejected texts, in either direction."),
    "C62": ("proved", "Tidy.v gives the tree after formatting without mentioning the printer; C62_formatted shows that the printed text is accepted with that tree, C62_unchanged that the meaning is kept exactly for the trees it keeps (the exact criterion for C43 on these texts), C62_number what happens to numbers. Not covered: parentheses with several expressions, labels inside expressions, blocks that start with a separator (C16), a Прервать outside a loop (C18), options that run words together (C30)."),
    "C63": ("partial", "C63_reads, C63_accepted, C63_told and C63_messages for all texts; C63_linear_partial for accepted texts. C63_linear_refuted: for rejected texts the whole work is not linear: Перем a,a,...,a; computes a position for every repeated name, each by counting the lines of the whole text. Counted are the calls of SrsCode and the bytes handed to strings.Count; what slices, maps and strings.Builder cost is not modelled."),
    "C64": ("proved", "C64_insert for any place in a program written down as in Syntax.v (Fill.v: places in texts and trees); C64_sequence, C64_procedure and C64_modules on tokens alone. C64_remove is the converse: the rest is accepted if its Прервать and colons do not need what was taken out (C18). Texts in which a block starts with a separator are left out (C16)."),
    "C65": ("proved", "C65_same: a relation between two runs of the driver that are equal up to byte offsets (DecodedRun.v), for all texts, with faults too. C65_tree, C65_print and C65_json for every node a program can hold. The literal in an error message is not claimed here to be UTF-8 (the message quotes it with %q)."),
 "C66": ("proved", "C66_any: exact, for all callbacks (state, root, parent, writes through the pointer, assignments), all node histories. C66_local and C66_in_place: the tree afterwards, slot by slot, for changes of the statement itself; C66_determined: the slots determine the tree; C66_agrees: the model of C35-C37 is the special case without writes through pointers. Not covered: callbacks that write into the parent or root they are given."),
 "C67": ("proved", "C67_pieces: every text is such a sequence, in one way, and a sequence of tokens exactly if it has no fault. C67_same: the outcomes agree, for all pairs of texts with the same sequence if none or both are all white space; C67_white_refuted shows that the condition is needed."),
 "C68": ("proved", "C68_read: a reader written without the formats of the code gets message, names, line, column and token back. C68_distinct: texts are equal exactly for errors that tell the same (the two rules about names declared twice use the same words). C68_one_line: valid UTF-8 without control characters. strconv.IsPrint is an arbitrary predicate, for C68_one_line one that is false for control characters; what time.Parse says behind the date it rejects is an arbitrary text."),
 "C69": ("proved", "C69_rename: all texts, with errors, faults and panics, by a relation between the two runs over the whole stack and the stale cells above it. C69_accepted: C59_rename without its condition on statements that get into a later block. C69_rejected: acceptance and panics do not depend on the names. C59_together_refuted shows that identifiers must be kept apart."),
 "C70": ("proved", "C70_beyond: all texts, also with faults and earlier errors, by a relation between the two runs up to the named token, and an invariant that the last token read is the named one. C70_last_refuted shows that the condition on the next token is needed: at the end of a text the last token is named."),
 "C71": ("proved", "C71_read: every module has a text, and a reader of JSON (JsonRead.v, with white space, all escapes but surrogate pairs) gets the value of Json.v from it. C71_distinct: equal texts come from equal JSON values, hence (C40_exactly) from trees equal up to what JSON leaves out; whole numbers of operators and kinds are never confused with numbers of the program. C71_one_line: valid UTF-8 without control characters and < > &. The text of a float64 is an arbitrary function that uses the characters of numbers and is injective (C71_format: such functions exist); encoding/json's strings are modelled as of Go 1.23."),
 "C72": ("proved", "JsonBytes.v: the bytes as a function of the tree. C72_bytes: they are one of the texts of C71, read back to the value of Json.v. C72_order: for every tree Parse leaves behind (any number of calls, also with errors) and every order of its maps (MapOrder.v). C72_exactly: equal bytes exactly for trees equal up to what C40 leaves out; uses that all texts of a tree are valid UTF-8 (C65). C72_tokens: texts with the same tokens. The text of a float64 is a parameter."),
 "C73": ("proved", "C73_reported: a sentence of the grammar that breaks a rule for sure gets an error about a broken rule. C73_only: the only broken rule is reported by its own message. C73_sure: what is sure is broken. Hypotheses: no lexical error, no signed default value (C46_signed_refuted), Parse returns (C14). C73_first_refuted shows that with several violations the first one need not be reported."),
 "C74": ("proved", "C74_which (hence C74_faults, C74_fault): a relation between the run on the program and the run with the faults in which no error and all lexical errors are the same, and a count of how often the scanner is called at the end (PrimRun.v: the actions do not look at the error; an error once set is never removed); C45 for the error not being nil. Complements C52, whose full statement is false. C74_two_refuted: with two faults behind the program the second can be the one returned. C74_which also says that k+1 faults in a row end the reading: whatever follows them has no effect. Only condition: the text is not all white space for strings.TrimSpace (C67_white_refuted)."),
}
