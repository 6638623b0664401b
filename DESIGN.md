# Formal model of ulule/loukoum in Rocq

`/repo` (Go, read as text) is modelled in `rocq/theories`. Properties are listed in
`properties.jsonl` (C01...), the status of each in `MANIFEST.json`.

## Approach

* **Pure layer.** A Go value passed as `interface{}` is a term of `gval`; an `stmt.Expression`
  is a term of `expr`; the two refer to each other, as in the code. `Write(ctx)` becomes a
  function from a statement to the list of context operations (`Write s` / `Bind v`) or an
  explicit panic: `types.Context` has no method that returns a value, so a statement cannot
  observe the context and the list is all it does. `String/Query/NamedQuery` run the list on the
  three contexts of `types/context.go`. Builders are step functions `state -> call -> res state`.
* **Go library functions** that shape the output are modelled, not assumed: UTF-8
  decoding/encoding, `strconv.Quote`, `FormatInt`, `ParseInt`, `strings.Split/Join/TrimSpace`,
  `hex.EncodeToString`.
* **Oracles.** What Go's library decides from big tables or that the code treats as opaque is a
  field of the class `Oracle`, quantified in every theorem: which non-ASCII runes are printable,
  the text of floats, of `fmt.Sprint` on unlisted types.
* **Map iteration** (`range` over a Go map) is an arbitrary permutation, quantified in theorems.
* **Heap layer.** Slices with shared backing arrays (`append`) and shared maps are modelled to
  state what forking a builder does. The growth policy of `append` is a parameter. Goroutines are
  programs of single reads and writes over that memory, run in any order.

## Plan per property

| id | model | proof |
|----|-------|-------|
| C01 | substitution of values in statements; pairs of programs that differ only in bound values (Alike.v), over every builder method | naturality by induction on the AST; mutual induction on pairs of programs |
| C02-C05 | run of the operation list on the three contexts | induction on the list |
| C06 | nested AST | congruence of the writer, contiguous sublist |
| C07-C09 | `quote`, UTF-8, a PostgreSQL identifier reader (spec) | decoder is a left inverse; refutation for `"`; equivalences for the names that are read back and those that stay in their quotes (`ExactP.v`) |
| C10 | `format.String`, reader of backslash-escaped literals (spec) | induction on decoded runes |
| C11, C12 | tokenizer and recursive-descent parser of conditions (spec) | induction on condition trees |
| C13-C15 | `Where`, three-valued logic (spec) | induction on chains; refutation for empty conditions, and an equivalence saying which conditions are kept |
| C16, C28 | `NewArrayExpression`, `NewArrayListExpression` | list induction |
| C17-C20 | `Select.Write`, select builder | case analysis, induction on call lists; refutation C20, and an equivalence over chains of calls saying when the three calls are accepted |
| C21, C22 | `ToInt64`, `ParseInt`, `ToColumns` | arithmetic, list induction |
| C23-C27 | `PairContainer`, `MergeSet` | invariant over operation lists, sorting uniqueness; refutation C25, and an equivalence saying which aliased columns are ordered (`AliasP.v`) |
| C29 | `OnConflict` loop | list induction |
| C30-C34 | lexer, token table, `ParseJoin` | induction on input, letter by letter for the spelling of keywords (`PropsCase.v`); refutation C33; equivalences over a grammar of pieces (`JoinScan.v`) |
| C35, C36 | heap layer (`Mem.v`, `Forks.v`) | simulation between the memory semantics and the value semantics, invariant on versions of slices |
| C37 | heap layer | refutations with concrete programs, for every growth policy; the exact condition under which two forks of a Select stay apart, in any reachable memory (`PropsForksExact.v`): induction over programs, then two appends to one slice; for Update the exact effect of a call on its receiver (`UpdExactP.v`) |
| C38 | goroutines (`Race.v`): rendering as a program of single reads and writes, all interleavings | footprints, commutation of steps; refutation for UPDATE |
| C39-C43, C45 | as above | case analysis; for the messages of the panics (C19, C43) a table of the types each call takes and of the text each argument names, then induction on the list of arguments (`PropsRefusals.v`, `PropsRefused.v`) |
| C44 | PostgreSQL literal reader without backslash escapes (spec) | refutation; equivalence: read back iff without special characters, by length of the literal |
| C46 | truth assignments of equalities, precedence reader (spec) | induction on chains; refutation for OR before AND; equivalence by a truth assignment that separates the two readings |
| C47 | `Select.Join` | case analysis on the argument list, `ParseJoin` |
| C48 | `format.Time`, `format.Value` on times | calendar defined by the next-day function; the closed formula shown to follow it, cycle of 400 years split in years, then digits read back |
| C49 | all of `Select`: builder calls, conditions, items, joins, WITH, subqueries, rendering | independent lexer and recursive-descent parser of SELECT in `Grammar.v`; the meaning of each call in `GrammarApi.v`; tokens of each written part, then parser on those tokens, by mutual induction over the calls. As an operand, `Raw` is read as a function call, or as a column when it is a dotted lower-case name (`Raw("news.user_id")`); as an item, as an aggregate (`Raw("COUNT(*)")`). The comparisons and `In` of `stmt.NewCall` are covered with columns, words and `Raw("*")` as its arguments, `On`, `AndOn` and `OrOn` also as conditions; a column (`stmt.NewIdentifier`) and a `stmt.NewCall` also as operands and as assigned values; a function call whose name is a dotted lower-case name is not covered |
| C50 | all of `Delete`: builder calls, conditions, rendering | reader of DELETE and meaning of each call in `GrammarDml.v`; tokens of each clause, then the parser on those tokens, by induction over the calls |
| C51 | all of `Update`: both SET syntaxes, WITH, FROM, WHERE, RETURNING, rendering | same, with the SET container related to a list of assignments sorted by column name (invariant kept by every `Set`), and sort.Slice used only through its contract |
| C52 | all of `Insert`: columns, rows, `Set`, ON CONFLICT, RETURNING, rendering | same, with the rows of VALUES read one by one |
| C53 | `NamedQuery` of the four builders | the proofs of C49-C52 are made for any spelling of the arguments (`style` in `GrammarLexP.v`); here `:arg_n`, looked up by name |
| C54 | `String` of the four builders, literals of `format` | same proofs with each argument spelled as its literal; the reader has string literals with and without backslash escapes, signed numbers, `true`, `false`, `NULL`, `decode('..', 'hex')` |
| C55 | the programs of `examples/` up to the call of `NamedQuery` or `Query`, and `CreateComment` of the README | each program a function of its record in `Programs.v`; computed symbolically, with `sort.Slice` replaced by the one sorted order of distinct columns |
| C56 | every call of the Insert, Update and Delete builders | each clause is a group of fields (`CallsDml.v`); calls on different groups commute, so a permutation that keeps the order within each group gives the same builder; then rendered. `Reorder.v` refines this for Insert, Columns and Values being clauses of their own |
| C57 | `Write` and `IsEmpty` of every statement and expression; every call of the builders | `Gaps.v` says what is missing, by rules that follow the parts of a statement; induction on expressions shows that `Write` panics exactly there, with which panic; closure under the calls of the API (`GapsApi.v`) for the hypotheses |
| C58 | variables of the caller, the fields that are the caller's arrays, the heap of WITH queries (`Args.v`) | simulation between the memory semantics and the semantics where arguments are values, for programs that are careful (`ArgsP.v`); a second simulation for the caller's slices that asks nothing of the program (`ArgsHeldP.v`); refutations for every growth policy. Simplified: a variable is passed to `Columns`, not to `loukoum.Select` itself; slices that the library allocates are values, as they are never written again; the slices of `Join`, `OrderBy`, `Set` and `Using` are values too, C35-C37 treat them |
| C59 | heap of conflict targets and of the columns of DoUpdate actions (`InsForks.v`) | simulation between memory and values with two invariants: a builder without a clause owns no array (every action assigns), or the builder not yet used is the longest on its array (each builder used once) (`InsForksP.v`); rendering is the same for columns in any order because the sort is unique on columns that agree |
| C60 | goroutines that make any chain of calls on shared Select builders (`RaceBuild.v`) and on Insert, Update and Delete builders (`PropsRaceDml.v`), over the memory of C38: append writes cells in place or copies to an array of the goroutine | footprints (`RaceBuildP.v`): each part of the builder is still that of the base, in an array of its own, or appended in place; apart footprints give the solo run (`separated_run`'s invariant), and the solo run is the chain on values |
| C61 | the words of the arguments of each call, and a reader of SQL that notices `;`, comments and quotes (`Surface.v`); no new code | every write is spelled with the vocabulary and the statement's words (`SurfaceTextP.v`); each step of the builders keeps what holds of the words of the arguments (`SurfaceApiP.v`); pieces that stay inside make a text that does (`SurfaceInsideP.v`) |
| C62 | no new code: a database that reads text and arguments with the readers of C49-C52 and carries out statements on one table (`Effect.v`), with the meaning of values, operators, functions, defaults, constraints, orders and subqueries as a parameter, rows added one by one with or without ON CONFLICT (`AddRows.v`); programs of calls (`EffectApi.v`) | programs describe the statements of C49-C52 (`EffectP.v`), so the text is read as these; the effect on the rows follows by induction on conditions, assignments and rows |
| C63 | no new code: the relation between a statement with arguments and one with literals (`Literal.v`) | a builder described with literals is described with arguments by a related statement, by mutual induction over the calls (`LiteralP.v`); related statements have the same effect on the database of C62, and, by induction over the statement (`LiteralTables.v`, `LiteralTablesP.v`), on that of C65 and C66 |
| C64 | no new code: a database that carries out SELECT on several tables with joins, and DELETE with USING, evaluating names in a row of each table in scope (`Tables.v`) | programs describe the statements of C49 and C50 (`TablesP.v`), so the text is read as these; the pairs shown by each kind of join follow from the definition of the joins |
| C65 | no new code: a meaning for every SELECT of the grammar, with subqueries, WITH, groups, DISTINCT and windows, by recursion on the statement (`Meaning.v`) | programs describe the statements of C49 (`MeaningP.v`), so the text is read as these; each clause is then compared with the answer of the statement without it, or of the subquery sent on its own; a query whose names are all its own does not depend on the row in which it stands (`Closed.v`, `ClosedP.v`) |
| C66 | no new code: a meaning for UPDATE with WITH, FROM and subqueries, DELETE with USING, and INSERT with ON CONFLICT and EXCLUDED, on top of that of C65 (`Changes.v`, `AddRows.v`) | programs describe the statements of C51 and C52 (`ChangesP.v`), so the text is read as these; the rows are compared one by one before and after; subqueries with what they show when sent on their own, or, when they mention the row in which they stand (`PropsCorrelated.v`), with the rows of the other table; adding rows one by one is shown to end where the statement of the property says (`AddRowsP.v`, `PropsUpsert.v`) |
| C67 | no new code: the laws of conditions as steps between lists of calls (`Laws.v`), and conditions that ask the same, as a relation on expressions closed under the laws, And and Or (`Exchange.v`) | the formulas that the two lists say have the same three-valued truth in every row, by induction on the step; a statement looks at its conditions only through that truth (`PropsLaws.v`); exchange by induction on the relation, with the uniqueness of what a condition says for chains of laws (`PropsExchange.v`) |
| C68 | the values of the interface `Builder`, the four type assertions of builder/builder.go and method calls through the interface (`Kinds.v`) | by cases on what the interface holds; false as stated, refuted for every builder (`PropsKinds.v`) |
| C69 | `NewExpression`, `Value.Write`, comparison methods, `NewInExpression`, `NewBetween`, `MergeSet`, `Insert.Values`; a table of what the driver is given for each kind of Go value (`driver_value` in `PropsOperands.v`) | by cases on the value; lists by induction; the rendered clauses of C16, C23, C28 and C45 |
| C70 | no new code: a database that reads each text by itself and keeps its tables from one statement to the next (`Session.v`) | induction on the session, from C49-C54 and C63 for each statement; that no text is read as two kinds: by the first tokens, and for WITH by monotonicity of the readers in their fuel (`SessionP.v`, `PropsSession.v`) |
| C71 | no new code: programs with other tables, joins and conditions (`JoinLaws.v`) | a join cuts the product to the rows that meet its condition, so both spellings choose the same list of combinations of rows; an outer join's combinations contain the inner ones in order; In and Exists through the rows of the second table that match (`PropsJoinLaws.v`) |
| C72 | the caller's bytes, maps and pointers to valuers as addresses, a memory, programs of calls, writes and statements sent (`Buffers.v`) | every call commutes with replacing addresses by what they lead to, by cases on the call and induction on lists of arguments; rendering commutes as in C01; then induction on the program (`BuffersP.v`, `PropsBuffers.v`) |
| C73 | no new code: what `fmt.Sprint` prints for slices and maps, as a hypothesis on the oracle (`Sprint.v`) | the text up to the value is read token by token, and no SQL token begins with a square bracket; scalars from C54 (`PropsSprint.v`) |
| C74 | no new code | the tokens of a text made of constants and quoted names (any names), then the SQL readers of C49-C52 run on these tokens; the positive part from C49-C52 (`PropsSyntax.v`) |

## Files

| layer | files |
|-------|-------|
| Go library | `GoStr` (UTF-8, split, trim, numbers), `Quote` (`strconv.Quote`), `Format` (package `format`), `Sort` (`sort.Slice`) |
| AST and writers | `Ast` (all types of `stmt`, values), `Ctx` (`types/context.go`), `Write` (`IsEmpty`/`Write` of `stmt`) |
| API | `Api` (`NewExpression`, comparison methods, `loukoum.go`), `Build` (`builder`), `Lexer`, `Machine` (two-rune window lexer), `Parser`, `Programs` (`examples/`) |
| memory | `Mem` (slices, `append`), `Forks` (builders over shared memory), `Race` (goroutines) |
| specifications | `Sql`, `Template`, `PgLex`, `Numerals`, `Cond`, `Where`, `Balance`, `Clauses`, `Calls`, `CallsDml`, `Conv`, `Assign`, `Rows`, `Scan`, `JoinSpec`, `JoinScan`, `Grammar`, `GrammarApi`, `GrammarDml`, `Gaps`, `Surface`, `Effect`, `EffectApi`, `Literal`, `Tables`, `Meaning`, `Closed`, `Changes`, `Laws`, `Exchange`, `JoinLaws`, `Buffers`, `Sprint`, `Session`, `AddRows`, `LiteralTables`, and the definitions at the head of each `Props*.v` |
| proofs | files ending in `P` |
| theorems | `Props*.v`, each theorem followed by `Print Assumptions` and by examples that meet its hypotheses |
| model validation | `Harness`, `TestSelect`, `TestInsert`, `TestUpdate`, `TestDelete`, `TestOther`: every unit test of the repository, run on the model |

The specifications do not use the writers or the parser they specify.

## Trusted base

* Coq 8.16.1's kernel, including its `vm_compute` conversion.
* The Coq standard library. No axiom of it is used: `Print Assumptions` answers
  "Closed under the global context" for every theorem of `Props*.v`. No other library is used.
* That the definitions of the model say what the Go code does. The repository's own unit tests
  (all tables of `builder/*_test.go`, the lexer, parser and expression tests) hold of the model,
  checked in `Test*.v`; the mutation log `seeded/LOG.jsonl` shows which theorems notice wrong
  programs.
* That the small specifications say what PostgreSQL and SQL do (`PgLex`: quoted identifiers and
  literals; `Cond`, `Where`: three-valued logic; `Sql`, `Clauses`: clause order;
  `Grammar`, `GrammarDml`: how PostgreSQL reads the statements of C49-C55, a subset of its grammar;
  `Effect`, `AddRows`, `Tables`, `Meaning`, `Changes`: what a database does with the statements it has read).

### Parameters that theorems quantify over

* `Oracle`: which runes above U+007F are printable (`strconv.IsPrint`), the text of a float
  (`strconv.FormatFloat`), the text of `fmt.Sprint` for the types `format.Value` does not list, and
  the result of `sort.Slice` on columns. Nothing is assumed about the first three.
* `sort.Slice`: theorems that need it have the hypothesis `sort_contract o_sort` (the documented
  contract: a permutation, sorted when `less` is a strict weak order). `sort_contract` is proved for
  Go's insertion sort, so the hypothesis can be met. Theorems about interleavings take
  `sorts_by_insertion`: slices of at most 12 elements are sorted by insertion, in place, as in
  Go's `sort.Slice`.
* Growth of `append`: an arbitrary function of the capacity and the needed length.
* Order of iteration over Go maps: an arbitrary permutation of the entries.
* Interleaving of goroutines: an arbitrary schedule of atomic reads and writes.

### What is modelled

All of `stmt`, `builder`, `format`, `lexer`, `parser`, `token`, `types`, `loukoum.go`, and the statements of
`examples/`, except what the next list says.

### What is not modelled, or simplified

* `examples/*/main.go` and the database calls of `examples/`, `doc.go` and the `_test.go` files (the last are used as checks, see above).
* The text of panic messages that print arguments with `%+v` (constructor `PCannotUse`): only which
  check failed is kept.
* Pointers to statements passed as expressions (`&stmt.Column{}` and so on), and user types that embed an
  `stmt.Expression` or implement the unexported interface by embedding.
* A `driver.Valuer` is represented by the value it returns, a nil pointer that implements it, or an error.
  It is asked once; a Valuer that returns another Valuer is followed, as in the code.
* Floats are opaque tokens; equality of floats is equality of tokens.
* Year formatting of `time.Time` outside 0-9999 follows `pad_Z`; monotonic clocks and locations are
  replaced by the instant in UTC.
* `String()` of a statement where a Valuer fails and a later part panics for another reason: both are
  panics, the model may name the other one.
* Memory: reads and writes of one element (a struct) are atomic, so torn reads are not modelled; maps are
  one cell; the Go race detector's notion of undefined behaviour is not modelled. The slices that a caller keeps
  after passing them are in `Args.v` (C58), forks of an `Insert` in `InsForks.v` (C59); the programs of C36
  and of the goroutines pass slices written at the call.
* What a caller does later to a `[]string` or `[]int64` that it passed as one value: it is taken as it is at the call. A `[]byte`, a map and a pointer to a `driver.Valuer` are in `Buffers.v` (C72).
* The methods of a user's own type that implements `Builder` (`Foreign` in `Kinds.v`).
* Go's `int`/`uint` are 64-bit.
* Memory exhaustion and stack overflow.

### Properties that are false

The code does not have the properties C09, C15, C20, C25, C33, C35 (UPDATE), C37, C44, C46, C58, C68, C73 and C74 as stated. For
each, a theorem `..._refuted` gives a program that breaks it, and a theorem with the suffix `_partial` or a
weaker statement says what remains true; the note in `MANIFEST.json` says what is missing.
