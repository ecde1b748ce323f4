# Formal model of hexbee-net/etxe in Rocq (Coq 8.16.1)

The repository has two libraries: `pkg/dag` (an acyclic graph with memoised
closures, sets, walkers) and `pkg/etx` (a configuration language: lexer rules, a
grammar in struct tags for participle, an AST with Clone, Children and
FormattedString). `cmd/cli` only prints a line and is not modelled.

## Method

* The model is executable Gallina, one definition per Go function, each citing
  the lines of /repo it models. Specifications do not mention how the model works.
  The property theorems stand in `*Props.v`, each closed by `exact lemma`, followed by
  a concrete example and `Print Assumptions`.
* Go `map` iteration order is a universally quantified schedule: every `range`
  over a map visits `sigma tick keys` where `sigma` is an arbitrary function that
  returns a permutation of its argument and `tick` numbers the loops of the call.
  Every API call of a history gets its own `sigma`.
* Panics and unbounded recursion are explicit outcomes (`Panic`, `OutOfFuel`).
  Theorems exclude them or say when they happen. Fuel is never a bound on the
  inputs: it is computed from the input, and shown to suffice.
* A walker is a state machine that interleaves with its consumer.
* For Clone, Children and parent references the AST nodes live in a heap.
* If a property of `properties.jsonl` is false of the code its statement stays, the
  counterexample is a theorem `..._refuted`, the part that is true is `..._partial`,
  and a further property (C49 and following) says exactly what does hold.

## Files

| Properties | Model | Specification | Proofs | Theorems |
|---|---|---|---|---|
| C23 | SetModel | SetSpec | SetProofs | SetProps |
| C01-C16, C20-C22, C24 | DagModel | DagSpec, DagObs | RelFacts, DagWp, DagInv, DagOps, DagMut, DagString, DagBfs, DagReduce, DagRefine, DagFuel, DagPropProofs | DagProps |
| C93 | DagModel | DagObs | DagCostProofs | DagCostProps |
| C95 | DagModel | DagObs | DagKeepProofs | DagKeepProps |
| C96, C97 | DagModel | DagObs, DagTopo (`in_order`, `layered`) | DagTopo | DagTopoProps |
| C98 | DagModel | DagObs | DagEdges | DagEdgesProps |
| C99 | DagModel | DagObs | DagBuild | DagBuildProps |
| C100 | DagModel | DagObs, DagQueue (`queue_order`) | DagQueue | DagQueueProps |
| C101 | DagModel, WalkModel | DagObs, WalkObs, DagQueue (`queue_order`) | WalkQueue | WalkQueueProps |
| C102 | DagModel | DagObs | DagCanon | DagCanonProps |
| C103 | DagModel | DagObs | DagUndo | DagUndoProps |
| C47, C64, C65 | DagMem | DagMemFacts (`view`) | DagMemFacts, DagMemProofs, DagMemPropProofs | DagMemProps |
| C82-C85 | DagProg | DagRaceSpec | DagProgProofs, DagRace, DagRaceStart, DagRaceSerial, DagRaceFill, DagRaceMeet, DagRaceProofs, DagRaceRefute | DagRaceProps |
| C17-C19, C49-C51 | WalkModel | WalkObs | WalkProofs, WalkPropProofs | WalkProps |
| C25-C29, C48, C52-C55 | EtxAst, EtxHeap | EtxHeapSpec | EtxClone, EtxChildren, EtxPlace, EtxHeapPropProofs | EtxHeapProps |
| C36-C42, C56-C58 | EtxText, EtxLex | EtxLexSpec | EtxTextFacts, EtxLexFacts, EtxLexNest, EtxLexOps, EtxLexIdent, EtxLexString, EtxLexPropProofs | EtxLexProps |
| C31, C34, C35, C59 | EtxUtil | EtxUtilSpec | EtxUtilProofs, EtxNumProofs | EtxUtilProps |
| C45, C46, C60, C61 | EtxGram, EtxParse | EtxParseSpec | EtxParseBase, EtxParseStore, EtxParseFirst, EtxParseClean, EtxParseLevel, EtxParseLexed, EtxParseTotal, EtxParseTyped, EtxParseNest, EtxParsePropProofs | EtxParseProps |
| C66 | EtxHeap, EtxGram, EtxParse | EtxParseSpec, EtxOrder (`in_order`) | EtxParseParts, EtxOrder | EtxOrderProps |
| C94 | EtxLex, EtxParse | EtxLexSpec (`pos_at`) | EtxParseParts, EtxPlaceKey | EtxPlaceKeyProps |
| C67 | EtxEntry | EtxEntry (`parents_set`) | EtxEntry | EtxEntryProps |
| C68 | EtxLex, EtxParse | EtxLayout (`alike`), EtxFormatSpec | EtxLayout | EtxLayoutProps |
| C43, C44, C62 | EtxGram, EtxParse | EtxPrecSpec | EtxParseParts, EtxPrec, EtxPrecParse, EtxPrecPropProofs | EtxPrecProps |
| C69, C70 | EtxParse | EtxSettledSpec, EtxParseSpec | EtxFind, EtxRefuse, EtxSettled, EtxSettledExample, EtxSettledFalse | EtxSettledProps |
| C32, C33 (declarations) | EtxLex, EtxParse, EtxFormat | EtxReprintSpec, EtxFormatSpec | EtxRelex, EtxReprint, EtxReprintProofs | EtxReprintProps |
| C71-C74 | EtxLex, EtxParse, EtxFormat | EtxDeclsSpec, EtxReprintSpec, EtxLayout | EtxBarrier, EtxFlat, EtxNeat, EtxItems, EtxBare, EtxDecls | EtxDeclsProps |
| C74 (positive), C89 | EtxLex, EtxParse, EtxLook | EtxFinalSpec | EtxFinal (the parser on tokens with one more line feed), EtxFinalNum (numbers of accepted files), EtxFinalLex (the lexer), EtxFinalTop | EtxFinalProps |
| C75 | EtxLex, EtxParse, EtxFormat | EtxWriteSpec | EtxCode (lexing), EtxSays (parsing), EtxWriteBase, EtxWriteLeaf, EtxWriteExpr, EtxWriteOps, EtxWriteIf, EtxWriteDecl, EtxWriteRows, EtxWriteFile, EtxWriteExample | EtxWriteProps |
| C76 | EtxLex, EtxParse, EtxFormat | EtxOrdinarySpec, EtxWriteSpec | EtxOrdinaryLex (tokens), EtxOrdinaryCaps (captures), EtxOrdinary, EtxOrdinaryExample | EtxOrdinaryProps |
| C77–C78 | EtxLex, EtxParse, EtxFormat | EtxWriteSpec, EtxOrdinarySpec, EtxInkSpec | EtxCycle, EtxInk | EtxCycleProps |
| C79 | EtxParse, EtxLook | – | EtxLookProofs, EtxLookTotal | EtxLookProps |
| C90 | EtxParse, EtxIter | – | EtxIterProofs | EtxIterProps |
| C91, C92 | EtxParse, EtxCost | – | EtxCostProofs, EtxCostBound | EtxCostProps |
| C80, C81 | EtxUtil, EtxFloat | EtxFloatSpec, EtxUtilSpec | EtxFloatProofs (rounding), EtxFloatError (error of the powers of 5), EtxFloatMain | EtxFloatProps |
| C87, C88 | EtxNumText, EtxFormat, EtxFloat | EtxNumTextSpec, EtxFloatSpec, EtxUtilSpec | EtxNumTextProofs (rounding), EtxNumTextMain (the text and reading it), EtxNumTextTop | EtxNumTextProps |
| C86 | EtxBuild | EtxBuildSpec | EtxBuildProofs, EtxBuildParse | EtxBuildProps |
| C30, C32, C33, C63 | EtxFormat | EtxFormatSpec | EtxShape, EtxFormatTotal, EtxFormatPanic, EtxFormatPropProofs | EtxFormatProps |

`GoBase` has outcomes and schedules; `*Example` files have the inputs of the examples.

## Trusted base

* The Coq 8.16.1 kernel, including `vm_compute`.
* No axioms: `Print Assumptions` prints "Closed under the global context" for every
  theorem in a `*Props.v` file. A checker that lists the axioms of all loaded libraries
  finds seven of `Coq.ssr.ssrunder` (`Under_rel`, ...). They come with the standard library
  files that std++ loads; no theorem uses them.
* std++ (its lemmas are proved, not assumed).
* That the model says what the Go code does. It was written by reading; the code was
  not run. The models are compared with what the tests of /repo expect, inside Coq:
  `DagConform` has 144 cases of the graph and the walkers and 30 of the sets,
  `EtxConformParse` has 225 parsing cases (trees or errors, positions in the 212 whose test
  compares them, not the contents of numbers), `EtxConformFormat` 219 formatting cases
  (texts or panics), `EtxConformBuild` the 18 cases of BuildTestExprTree. All agree. The files say which cases are left out.

## What is modelled, and what is not

**pkg/dag.** All of dag.go, errors.go and set.go. Keys are any countable type, `isz` any
predicate for the zero key, payloads any type. In DagModel the maps and sets of a graph
are values. DagMem models dag.go again with every map, set and returned slice as a cell of
memory; C64 proves that the two agree. A slice is one cell (no capacity, no sub-slices); new
maps and slices may be put at any free place (`Alloc`). DagProg models dag.go a third time, for
calls in several goroutines: every call is a program of single accesses to maps and to the
fields of the graph, and the accesses of all goroutines interleave (C82-C85; C83 proves that a
call alone does what DagMem says). A range loop reads the map when it starts and before every
iteration. Memory is sequentially consistent, which Go promises for programs without races.
Equality of keys is decidable and reflexive and agrees with `isz`, so keys with floats in them
(NaN, -0) and keys of an interface type are left out.
Not modelled: error texts beyond the error and the ids in them, `%v` (abstract), what a payload
refers to.

**Walkers.** One transition per atomic action of the goroutine or the consumer. The graph
does not change while a walker runs. In DagProg a walker is a program of accesses that may halt
anywhere; its channels are left out.

**AST.** All 52 struct types with all their fields. A node is a tree of typed fields; in
memory it is a set of cells. `EtxHeap` models Clone, Children and UpdateParentRefs of each
type. `ValueNumber.Value` (a *big.Float) is a cell that holds its source text.

**Lexer.** All rules of lexer.go, over bytes; runes are decoded from UTF-8. The regular
expressions have the semantics of package regexp (leftmost, alternatives in order). The
stateful lexer of participle v2.0.0-alpha8 is not in /repo; it is modelled from knowledge of
its source (rule order, groups handed to a pushed state, `\b` at the start of the rest).

**Captures.** HeredocDelimiter, ValueBool and ValueNumber. `big.Float.Parse` is modelled
from knowledge of its source. EtxUtil has the number a
literal denotes, EtxFloat how it is rounded to 53 bits, with the power of 5 that is computed
to 117 bits. The ASTs of the parser model hold the number before rounding.

**Parser.** The grammar in the struct tags (EtxGram) and how participle v2.0.0-alpha8 runs
it (EtxParse): branches, lookahead 50, when captures are assigned, when an error stops the
search. Also from knowledge of its source. Simplifications:
* participle's limit of 1000000 iterations of a repetition is left out; EtxIter has it (C90);
* captures are recorded when they are assigned and stored when the struct is complete, so a
  panic or refused number is noticed at the end of its struct;
* error texts and the partial AST that comes with an error are left out;
* `Lambda` has a grammar but nothing refers to it.
`EtxEntry` models Parse, ParseString and ParseBytes with the AST in memory: any way of giving
every struct and slice an address of its own is allowed, then UpdateParentRefs runs.
`EtxParseSpec` gives the declarative meaning: which token sequences an expression of the
grammar describes and which tree belongs to them, without any search.

**FormattedString.** Of every type (EtxFormat), as a function of the tree. A nil pointer that
is dereferenced is a panic. A ValueNumber without Source prints `Value.String()`, that is
`Text('g', 10)` of math/big (EtxNumText), from knowledge of its source. Simplifications: the
Value is kept as a literal with an optional minus, so it has 53 bits like those of the parser
and of big.NewFloat; the repeated halving of the decimal number is one multiplication by a
power of 5. Parsed numbers always have a Source.

**BuildTestExprTree.** EtxBuild, for pointers to nodes, as a function of the tree: that the
result shares memory with its argument is left out. Of utils.go only `mustFprintf` is not modelled
(a strings.Builder accepts every write).

## Findings

* A consumer that stops receiving after its signal can leave the goroutine of a walker
  behind (C18); a signal after the end of the walk panics (C19).
* Two goroutines that only query a graph can race: GetAncestors and GetDescendants write their
  caches (C82, C83). A client of one goroutine that changes the graph while a walker runs races
  with it (C85).
* GetOrderedDescendants and GetOrderedAncestors are breadth first and not topological: a vertex
  may be listed before one that it depends on, in some graphs always (C96, C97).
* Two tests of pkg/dag expect one order of a range loop and can fail (see DagConform).
* Value.Clone shares the Heredoc, FuncDecl.Clone the Type (C26, C27).
* ExprPostfix.Children leaves out Post, so UpdateParentRefs does not get there (C28, C29).
* `08` is a number token but no number (C34).
* An unterminated string is no lexer error (C39), but never gets through the parser (C61).
* `if-foo` is lexed as `if - foo` (C41). A lone `$` in a string is an error (C42).
* Parse takes exponential time on `val x=a.(a.(a.(` and so on: every `a.(` doubles it (C91, C92).
* Parse panics on a file of a million empty lines (C90, as participle is modelled).
* `a - b - c` is read as `a - (b - c)`, against README.md (C44, C62).
* FormattedString panics on a comment or empty line in an enum, an object or a map (C30, C63).
* The output of FormattedString need not parse: attributes and maps are printed with a colon,
  heredocs without the newline after the delimiter, a single returned function type without
  parentheses. Parentheses in expressions are dropped; escapes get a second backslash (C32, C33).
  So does the white space in `1 .b` and `a. 5`, and `'a"b'` is printed between double quotes.
* A function cannot be declared to return a function: in `def f() (a) -> b {}` the parser takes
  `(a)` for the results and then rejects the arrow, although the struct tags allow it (C70).
* Formatting is not idempotent: every round adds empty lines between two items (C73), but nothing else but line feeds and tabs changes (C77, C78).
* A string with a line feed gets tabs inserted when it is printed inside a function, a list or an if, so it becomes another string (C75_left_out).
* A function whose only result is a function type is printed without the parentheses that make it one result; the text is rejected or read differently (C75_left_out).
* `val x = a <<b` is a file, but not with a newline at its end, which makes `<<b` open a heredoc (C74); this is the only such ending (C89).
* A file that starts with `type a enum {` and goes on with attributes is read as a block named `type`; with 23 comment lines or more before the first attribute it is rejected, because the branch that tried a type has read more than 50 tokens (C79).
* The Value of a number has 53 bits, though value.go:154 says arbitrary precision: `9007199254740993` is 9007199254740992 (C80). From `1e646456993` on it is infinite, `1e-1000000000` is 0, both without an error (C81).
* A number without Source is written with ten digits, so a program that sets only Value loses the rest: 1234567890.5 is written `1234567890` (C88). An infinite Value is written `+Inf`, which is read as a plus and a name (C87).
