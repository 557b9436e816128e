# Formal model of LazarenkoA/1c-language-parser

The code (package `ast` and `ast/fast_tolower`) is modelled in Rocq/Coq 8.16 in
`rocq/theories`. Each definition of the model cites the lines it follows. The
properties are in `properties.jsonl`, the theorems in `Properties_*.v`, the map from
one to the other in `MANIFEST.json`.

Names: `Cnn_…` is a theorem for property Cnn. The suffix `_partial` marks a theorem
that proves less than the property says. The suffix `_refuted` marks a witness that
the full property (or the part outside the partial theorem) is false of the code.

## 1. What is modelled

| file | code | remarks |
|---|---|---|
| Bytes.v, Utf8.v | Go strings, `unicode/utf8`, `[]rune(s)`, `range s` | strings are arbitrary byte lists; invalid UTF-8 included |
| UnicodeTables.v | `unicode.IsLetter` | generated from Unicode 15.0.0 category L |
| Float64.v | `strconv.ParseFloat` on digits and dots, `-x`, `%.0f` | written from the definition of correct rounding; NumProofs.v proves it is the nearest value |
| GoTime.v | `time.Parse` for the three layouts of tokens.go:100, `Format("20060102150405")` | UTC, whole seconds |
| Ast.v | types of ast_struct.go | pointers become values, see 3 |
| Lexer.v | tokens.go: all functions reachable from `Token.Next`; `GetPosition` | byte level |
| Loud.v | what `currentLet` writes to standard output, through scanner and driver | number of lines |
| Cost.v | calls of `SrsCode` by the scanner, calls of `Error` and the text each hands to `strings.Count` | counts |
| Tables.v | arrays of y.go:164-560 | generated verbatim by tools/gen_tables.py |
| Parser.v | ast.go (`NewAST`, `Parse`, `Lex`, `Error`, all checks), y.go driver `yyParserImpl.Parse` and its 111 actions, `ModuleStatement.Append` | panics are outcomes |
| ErrText.v | the text of errors: all formats handed to `fmt`, `errors.Wrap`, `strconv.Quote` and the `quote` of package time | `strconv.IsPrint` and the reason `time.Parse` gives are parameters |
| Printer.v | ast_print.go, all of it | panics are outcomes |
| Walk.v, WalkEdit.v | `Walk`, `StatementWalk`, `walkHelper` | |
| Json.v | `AstNode.JSON` | value level, see 3 |
| JsonText.v | the bytes of `AstNode.JSON`: `appendString`, arrays and objects of encoding/json | the text of a float64 is a parameter |
| JsonBytes.v | the bytes of `AstNode.JSON` as a function of the tree, map keys sorted as encoding/json does | the text of a float64 is a parameter; sorting by insertion (the keys are distinct) |
| Marshal.v | the error of `AstNode.JSON` | |
| Helpers.v | `fastToLower_old`, `IsDigit`, `CallChainStatement.IsMethod` | |
| ToLowerC.v | fast_tolower/gowrap.go | the C function on a byte buffer with NUL, reads outside it are outcomes |

Not modelled: `examples/`, `mock/`, the debug output of goyacc (`yyDebug`, `yyErrorVerbose`
stay at their defaults), `SrsCode` as API,
concurrent use of one node, memory and time other than the counts of C13 and C63, how
encoding/json writes a float64. What `fmt.Println` writes is modelled as a number of lines (Loud.v).

Validation of the model against the code: Tests.v evaluates the model on every
expectation of `ast/ast_test.go` that fits the model (generated by tools/gen_tests.py).
These are tests, no proof uses them.

## 2. Trusted base

* Coq's kernel, including `vm_compute` (used for the facts about the parse tables in
  Cert.v, Complete.v and for the concrete examples). `native_compute` is not used.
* `Print Assumptions` stands under every theorem of `Properties_*.v` and answers
  **Closed under the global context** for every one of them. There are no axioms, no
  `Admitted`, no disabled checks, no functors or module types, no plugins other than
  those of the standard library (`lia`, `ring`, …). Global axiom lists of loaded
  libraries (Coq.ssr.ssrunder in vcheck's list) are not used by any theorem.
* The reading of the Go code: model and code are tied by the citations only.
  Tables.v and UnicodeTables.v are generated; CertData.v, Items.v and ViableData.v are
  generated too but are untrusted hints, checked by computation in Cert.v, Complete.v
  and Viable.v.
* Behaviour of Go and its libraries as modelled: see the first five rows of the table.

## 3. Simplifications

* **Slices.** A slice is `option (list _)` (nil or elements). Sharing of backing
  arrays by `append` is not modelled. In the actions of y.go each slice that is
  extended is used linearly (the old header is a stack cell that is dead or is
  overwritten), so no write is visible through another header.
* **Pointers.** Directive and export marks are pointers to token cells; the model
  stores their values. `ExpStatement` is mutated through its pointer by `not` and
  `unaryMinus` directly after it was built, when nothing else refers to it.
* **Stale cells.** goyacc's stack is an array whose cells above the top survive. The
  model keeps them: `$$ = yyVAL` of an empty production starts from whatever cell lies
  there. Several defects (C16, C18, C26) come from this, so it is not simplified.
* **Counters.** `isLoop`, `isTry` are unbounded integers, `Margin * depth` does not
  overflow.
* **Maps.** A map is the list of its keys in insertion order. Where Go iterates over a
  map (`printGlobalVariables`), the order is a parameter: an arbitrary permutation.
* **Token values** left behind by failing conversions (`t.value` after an error) are
  not modelled. `Lex` then returns EOF, which is never shifted, and the actions read only
  values of literals, which are set afresh by the successful call of `Lex`.
* **Walk.** The callback is a function of statement, parent and root that may replace
  the statement through its pointer. WalkEdit.v also lets it write into the statement it
  is given (the node behind the pointer) and shows it parent and root with all changes made
  so far. Writing into parent and root, through `parentStm` or kept pointers, is not modelled.
* **JSON.** Json.v gives a JSON value with ordered members. Strings are the text a
  reader gets back (invalid UTF-8 becomes U+FFFD), dates their RFC 3339 string,
  numbers the float64. JsonText.v relates the value to its bytes; a relation, because U+FFFD is
  escaped where it stands for a wrong byte and written as it is elsewhere.
* **C locale.** `tolower` in ToLowerC.v is that of the C locale.
* **Fuel.** Loops run on fuel that depends on the input. Every out-of-fuel outcome is
  proved unreachable (C01_loops, C13_returns, C27).

## 4. How the proofs go

**Scanner** (C01-C10, C12, C45). LexSpec.v and NumSpec.v specify words, trivia, literals,
the nearest float64 and the calendar without using the scanner. Proofs go by induction
over the text still to be read (LexFacts, LexProofs, LexTrivia, LexTokens, LexStrings,
NumProofs, NumTokens, LexReject). Lexical.v is the whole lexical grammar as a relation;
Scanned.v shows it equivalent to the scanner.

**Driver** (C13-C15, C17). Cert.v decides facts about all 212 states × 67 tokens × 112
productions by computation and states them as lemmas. Driver.v and DriverInv.v lift
them to all runs: stack shape, a potential that falls with each reduction (C13), which
panics are possible (C14), errors are never cleared (C17). Trees.v: every run without
error builds a parse tree of the grammar (Grammar.v, transcribed from grammar.y), and
each stack cell holds the result of the actions on its tree (C15).

**Meaning** (C16, C18-C25, C39, C41). Syntax.v defines programs as written, their
tokens and their trees. CstTrees.v: each parse tree is the tree of a program.
CstEval.v, CstModule.v: the actions on that tree give its meaning and check its rules.
Rules.v, Declared.v and Order.v state rules on tokens and trees only.

**Precedence and acceptance** (C24, C42, C14). Machine.v is the driver without actions.
Bind.v: accepted trees obey the levels of Levels.v. Complete.v, TightOk.v: trees that
obey the levels are accepted. CstInj.v: a program is determined by its tree. Regroup.v:
each token sequence of a program is that of a well grouped one. Legal.v, Panics.v,
Accept.v: the rules are exactly what the actions check.

**All trees a node can hold** (C26-C30, C32-C38, C40). CellInv.v gives invariants over
all stack cells, stale ones included, for any number of Parse calls on a node
(`history`). Instances: PrintInv (printable shapes), FlatInv (procedures only at top
level), SpellInv (leaves are spelled as in some text), Again (what a call adds).

**Printing** (C30, C31, C43, C44). Writes.v: a text written in pieces is read as the
tokens of the pieces. PrintToks.v: the tokens of every printed tree. Back*.v: these are
the tokens of a program whose tree is the given one up to redundant parentheses
(Survive.v); acceptance then is C42. Strip.v, Stable.v: the printed text depends on the
tree only up to redundant parentheses, so printing again changes nothing (C44).

**What formatting changes** (C62). Tidy.v: the tree after formatting, as a function of the tree.
TidyExpr.v, TidyStmt.v, TidyModule.v: the printed tokens (PrintToks.v) are those of a legal program
that means that tree, by induction over the tree; without the restrictions of C43.

**Shape** (C53, C54). Shapes.v says which nodes stand in which fields. ShapeInv.v: an
invariant of all stack cells by grammar symbol, one case per production, over CellInv.v.
Marshal.v models the errors of json.Marshal; C54 follows from the invariant of SpellInv.v.

**JSON** (C40, C71, C72). C40: an explicit inverse of Json.v up to `erase`. JsonRead.v is a reader of JSON
texts; JsonFacts.v: it undoes JsonText.v, by mutual induction over values, elements and members.
That kinds and operators are not confused with numbers of the program: only the members Operation
and Type hold whole numbers (Properties_JsonText.v).
C72: JsonBytes.v writes the one text; MapOrder.v says which trees differ only in the order of maps. A sorted list
with distinct keys is unique; distinct keys and valid UTF-8 come from the shape of reachable trees (C53, C65).

**Helpers** (C55-C57). C55 from C42 and the lexical grammar; C56, C57 by induction over the
characters of the string.

**Joining** (C58). Glue.v: the lexical grammar (Lexical.v) gives the first text followed by a line
break and the second the tokens of both. Properties_Join.v: the two programs (Syntax.v) appended,
each rule of Legal.v is kept; the parser is reached through C45.

**Renaming** (C59). Rename.v: what exchanging names and values does to tokens and trees.
RenameFacts.v: the same on programs (Syntax.v); tokens, tree and every rule commute with it, and a
program with exchanged tokens comes from a program (`un_program`); the rest is C45_front.

**Layout** (C60). OneLine.v: a text without its line feeds, the words of a tree. OneLineFacts.v: two
runs of the printer that differ in their settings give outputs in any relation that is kept by
concatenation and holds for the line break, the margin and the words; by induction over the tree.
OneLineText.v: the words of the tree are words of the text.

**Standard output** (C61). Loud.v follows every function of the scanner and the driver once more and
counts the calls of `fmt.Println`. LoudFacts.v: each scanner function writes one line for each U+FFFD
it passes and some for the letter it stops at; a token without error does not start at a U+FFFD, so
for accepted texts the second part is zero. LoudParse.v: the invariant along all runs.

**Cost** (C63). Cost.v follows the scanner and the driver once more and counts. CostFacts.v: a call of
the scanner costs a constant and a constant for every byte it passes, words apart, which are read
twice where a dot may follow; CostParse.v adds this up with the potential of C13. CostTold.v: an
error is set exactly by a counted message. CostCount.v: the driver's trees (Past.v) bound the
messages, one a step and one for every token of a declaration. CostMany.v: a family of texts,
its tokens by the lexical grammar (C45), the machine on them by induction.

**Composition** (C64). Fill.v says where a block can be put into a program (Syntax.v) and what that
place is in a tree. FillFacts.v: inserting a block that obeys the rules keeps the rules (each is
monotone: a block allowed outside a loop, handler or function is allowed inside), commutes with
regrouping and with the meaning. Acceptance is then C42, the tree C24.

**Broken encoding** (C65). Decoded.v: the scanner uses its text only through the current character
and the step to the next, so on two texts with the same characters it does the same; the texts
before the same character also have the same characters. DecodedRun.v: the driver on both texts,
cells and nodes equal up to byte offsets, positions equal. UTF-8 of the tree is read off the
invariants of SpellInv.v and ShapeInv.v, that of the formatted text is OneLineFacts.v once more.

**Rewriting** (C66). EditSpec.v: one slot after the other is visited in the tree as it is by
then, and what is written there is stored. EditFacts.v: a walk below a statement in any place of
a larger statement is such a sequence of visits, by induction over the tree. EditLocal.v: the
tree after changes of the statements themselves, and that the slots determine it.

**Errors** (C46-C52, C67-C70, C73, C74). Viable.v: whatever the machine has read can be continued to a
sentence (LR(0) items of ViableData.v, checked by computation). Stuck.v: where the
machine fails no sentence goes on, by C42's completeness. Blame.v, Told.v: which token
the driver reports at which step. Placed.v: offsets and literals of tokens as places in
the text (Where.v).
Cause.v (C48): the checks of the actions, followed through every program with any number of
errors, only ever report a rule the program breaks; BrokenFacts.v: those rules are the scans
of the token sequence in Broken.v. Spot.v (C49): an invariant of the running machine, on top
of the one of Past.v (the counters are the balances of the tokens read, the statement just
reduced is a part of them, the module's variables and procedures stand below it on the stack)
shows where a message can arise.
Alike.v, Lockstep.v (C50): the driver on two texts with the same tokens, stacks and stale
cells equal up to positions and spellings after every step. PiecesRun.v (C67): the same for all
texts; where the scanner goes on behind a fault is determined up to trivia, and cells agree on the
text or value of their token where the symbol is one whose token an action reads.
FaultFacts.v (C51): the scanner's errors are the faults of Faults.v. Reached.v (C47, C51,
C52): an invariant of the driver for all texts, also those with faults, on the scanner states
it can be in. Past.v (C14, C48, C49, C52): on every text the driver builds the trees of the tokens
it has read, the faults left out (Skip.v); beside the node runs a copy that never sees a
lexical error, so that the theorems on evaluated trees apply to it.
RenAct.v, RenRun.v (C69): the same again for texts that differ in names, literals and faults: every
cell of the one stack is the cell of the other with names and literals exchanged, the stale ones
too; names that the driver compares are names of the text; cells of expressions are not nil.
C73 puts C46, C48 and C18-C22 together: a sentence gets no syntax error, an error is about a broken rule, and
an accepted text breaks none.
BeyondRun.v (C70): two runs in step as long as the tokens and faults agree; if the first goes further,
its last token is not the one named.
PrimRun.v (C74): actions do not look at the error, so a run from a node with an error differs only in the
error; up to lexical errors both runs stay in step over the end of the program and the faults.
ErrRead.v is a reader of error texts, ErrFacts.v (C68) that it undoes the quoting of ErrText.v.

## 5. Properties

Status and remarks for each theorem are in MANIFEST.json. Findings, i.e. properties
that are false of the code as it is, with a witness each:

| property | witness theorem | what happens |
|---|---|---|
| C03 | C03_double_dot_refuted | after two dots a keyword is a keyword |
| C11 | C11_refuted, C11_hangs, C11_outside | the C lower-casing differs, reads outside its buffer or loops |
| C14 | C14_refuted | two Перем lists, the first repeating a name: write to a nil map, panic |
| C15 | C15_white_refuted | a text of Unicode white space is accepted without being read |
| C67 | C67_white_refuted | so it is treated unlike the same text behind a comment |
| C70 | C70_last_refuted | at the end of the text the last token is named, though it may be right |
| C73 | C73_first_refuted | of several violations the last check that failed is reported |
| C74 | C74_two_refuted | of two faults behind a program the second is reported |
| C16 | C16_refuted and others | a block that starts with `;` gets the statements of an earlier block |
| C18 | C18_after_while_refuted, C18_tree_refuted | after a Пока loop Прервать is accepted anywhere |
| C23 | C23_refuted | ElseIf branches are listed in reverse |
| C25 | C25_*_refuted | НЕ НЕ а, -(а), -Ф(), НЕ а[0] and others lose their sign |
| C26 | C26_refuted | a second Parse appends everything again |
| C28 | C28_refuted | the order of printed globals depends on map iteration |
| C29 | C29_refuted | a module of declarations is printed as the empty text |
| C30 | C30_*_refuted | OneLine glues `Попытка` and `Исключение` of an empty try |
| C31, C43 | C31_*_refuted, C43_*_refuted | fractions, signs of arguments, local variables, several ElseIf are lost or changed by printing |
| C44 | C44_sign_refuted, C44_not_refuted, C44_text_refuted, C44_branches_refuted | formatting twice loses a sign, drops НЕ, lengthens a text literal, reorders ElseIf |
| C32 | C32_refuted | 1.5 is printed as 2 |
| C35-C37 | C35_root_refuted, C36_refuted, C37_refuted | Walk misses fields, reports wrong roots, loses replacements |
| C40 | C40_*_refuted | different programs with equal JSON (C40_exactly: which ones) |
| C41 | C41_refuted | names lost or moved (consequence of C16, C23) |
| C46 | C46_signed_refuted | a signed default value: the message blames a token of a correct text |
| C47 | C47_quoted_refuted, C47_line_refuted | the place shown for a string is wrong, its column may be negative |
| C52 | C52_hidden_refuted, C52_later_refuted, C52_rule_refuted | a lexical fault is hidden by an error of an earlier token, a later fault or a later statement |
| C63 | C63_linear_refuted | a declaration that repeats a name n times makes Parse count the lines of the whole text n - 1 times |
| C42 | C42_derivable_refuted | a signed default value is grammatical but rejected |

Every property of `properties.jsonl` is expressible in the model; none is
`not_applicable`.

## 6. Mutation testing

`tools/mutate.py` applies an edit to a scratch copy of the model, rebuilds everything
that depends on it, and leaves lemmas whose proofs break unproved there, so that
`Print Assumptions` shows which theorems are lost. `tools/seedlog.py` writes one line
per attempt to `seeded/LOG.jsonl`. A mutant whose claim is false but loses no theorem
leads to a stronger theorem (`tightened` in the log).
`failed` in the log lists the theorems that are no longer proved, because their own proof or
a lemma they use breaks. It does not say that each of their statements is false of the mutant:
one broken lemma can take theorems along that would still hold. `failed_lemmas` has the
statements whose own proofs broke. Verdicts: `caught`: the proof of a theorem or of an example
itself breaks; `proof lost through a lemma`: only lemmas break, and whether a theorem is false of
the mutant has not been checked (a lemma that unfolds a definition, as walk1_eq, breaks at
every edit, harmless or not); `false by hand`: the same, but reading the statement shows that it
is false of the mutant; `harmless`, `equivalent`: no property is broken.
