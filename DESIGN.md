# Design of the formal model of ddlctl

Everything below is about a hand-written Gallina model (Coq 8.16.1) of the Go
sources in `/repo`. Nothing is extracted or executed; the tie to the code is the
file/line citation carried by every definition, and the `Conform*.v` files, which
evaluate the inputs of the project's own tests in the model and compare with the
outputs those tests expect.

## Files (rocq/theories)

Model (each definition cites the code):

| file | content |
|------|---------|
| `GoStr.v` | Go string primitives (`strings.HasPrefix/HasSuffix/Trim/Split/ToUpper/Index/Join`, `string(byte)`) on byte strings |
| `Token.v` | token types, `lookupIdent` of each `lexar.go` (transcribed mechanically) |
| `Lexer.v` | the four lexers: one function with a dialect argument |
| `Ast.v` | syntax trees (union of the fields of the four packages) with `String` / `StringForDiff` |
| `Parser.v` | the four parsers, function by function, with a dialect argument for the lines that differ |
| `Diff.v` | `diff.go` and the four `diff_create_table.go` |
| `GoTag.v` | `reflect.StructTag.Get`, `strconv.Unquote` and the UTF-8 decoding of the Go library, with which the tags of struct fields are read |
| `GoSort.v` | `sort.Slice` of the Go library, which `Constraints.Append` calls with a comparison that is no order |
| `Lines.v` | `bufio.Scanner`, `strings.TrimSpace`, `RemoveCommentsAndEmptyLines` |
| `Apply.v` | `ddlctl diff` and `ddlctl apply`: approval, splitting, retry, batch, as traces of events |
| `Generate.v` | `ddlctl generate`: reading annotated Go syntax trees, printing, the command |
| `Config.v` | loading and rolling back the configuration |
| `Show.v` | `ddlctl show` for Spanner over an abstract information schema |
| `ShowPg.v` | `ddlctl show` for PostgreSQL: its two queries as functions on a description of the database |
| `ShowMy.v` | `ddlctl show` for MySQL and CockroachDB: what is made of the answers of the server |
| `Process.v` | the process: commands, options and the configuration they give, the tag expression compiled once, the files `generate` reads and writes, exit codes |
| `Resolve.v` | what an argument of `diff` and `apply` stands for: a file, a directory of sources, a database |

Conformance with the project's tests: `ConformLexer.v` (253 cases), `ConformAst.v`
(248), `ConformParser.v` (264), `ConformDiff.v` (83), `ConformGenerate.v` (golden files
and TestFprint), `ConformGoParse.v` (TestParse), and with the walk through the commands in README.md and the
integration test of diff: `ConformReadme.v`. The inputs and expected results were
transcribed from the Go tests by a script.

Specification (says what is wanted, does not use the code under test beyond the
syntax trees and the printers where a text is the subject):

| file | content |
|------|---------|
| `Db.v` | what executing a DDL statement does to a database catalogue; which catalogue a schema describes |
| `Tidy.v` | executable test: schemas free of a few degenerate shapes |
| `Reconcile.v` | executable tests: pairs of schemas for which a diff can be expected to work; each condition excludes a fault shown by a `_refuted` theorem |
| `DbDep.v` | the database of `Db.v` with dependencies enforced; pairs of schemas whose diff respects them |
| `DiffSpec.v` | when a statement of a diff is justified, what it is about |
| `Variants.v` | schemas differing in quotation marks or order only |
| `LexSpec.v` | blank text, comments, quoted literals and tokens without the lexer |
| `Printable.v` | executable test: schemas the text form of a dialect can express |
| `CaseSpec.v` | schemas up to the letter case of keywords |
| `ApplySpec.v` | what a run of apply may do |
| `SqlRead.v` | a reader of DROP, ALTER and CREATE statements; executable test: statements the text form can express (the clauses ALTER shares with CREATE TABLE are read with the parser model) |
| `SqlDb.v` | a database server that reads the texts it is sent and executes them with `Db.v`; Spanner batches |
| `DepServer.v` | the same with the dependencies of `DbDep.v` enforced, for PostgreSQL and CockroachDB |
| `StrictDb.v` | the same in all four dialects, with the batches of Spanner |
| `RestrictDb.v` | a server that refuses to drop what is needed (C86) |
| `KeyedServer.v` | a server that insists on the keys foreign keys refer to (C85) |
| `RestrictBatch.v` | the same for Spanner, whose statements come in a batch (C86) |
| `GenSpec.v` | order of iteration, comma separated items, code lines |
| `Written.v` | written forms of a schema (clauses in any order, inline keys, missing names) and the schema meant |
| `GenRead.v` | when a generated statement says the same as a written one |
| `ShowRead.v` | the statements a Spanner database consists of |
| `ShowPgRead.v` | the statements a PostgreSQL schema consists of |
| `ShowMyRead.v` | the answers of MySQL (SHOW CREATE TABLE) and CockroachDB (SHOW CREATE ALL TABLES) and the statements they consist of |
| `GenTold.v` | what annotation lines, fields, comment groups and Go files ask for, without regular expressions |

Proofs: `*Facts.v`, `Diff{Table,Pair,Sound,Same}.v`, `Honest.v`, `Justified.v`,
`Frame.v`, `Shape.v`, `IndexText.v`, `Lex{Layout,Keyword,Panic}.v`,
`Parser{Total,Case,Safe,Keeps,Concat}.v`, `Print{Lex,Toks,Parse,Column,Stmt,Ddl}.v`, `Gen{Order,Text,Safe,Lines,Remarks}.v`,
`Read{Facts,Diff}.v`.

Property theorems with their examples, refutations and `Print Assumptions`:
`PropsParse.v` (C01–C07, C10), `PropsRound.v` (C08, C09), `PropsDiff.v` (C11–C18, C20, C35–C37, C40–C44),
`PropsDep.v` (C19), `PropsApply.v` (C21–C29, C38), `PropsRead.v` (C47, C48), `PropsGenerate.v` (C30–C34, C39, C45, C46),
`PropsTold.v` (C49–C51), `PropsWritten.v` (C53), `PropsGenRead.v` (C52), `PropsShow.v` (C54),
`PropsShowPg.v` (C55), `PropsShowMy.v` (C57, C58), `PropsWhole.v` (C56, C59, C60), `PropsAllCounts.v` (C90, C02; proofs `Unfinished.v`), `PropsTalk.v` (C22, C67), `PropsCrash.v` (C67, C02), `PropsSpill.v` (C32, C39, C46), `PropsRemark.v` (C50), `PropsCarry.v` (C91), `PropsListing.v` (C92), `PropsAnyOrder.v` (C55, C92), `PropsStuck.v`, `PropsForward.v` (C93; proofs `StuckFacts.v`), `PropsDepApply.v` (C19, C93), `PropsDropped.v` (C93), `PropsRestrict.v`, `PropsTolerated.v`, `PropsDecided.v` and `PropsBatch.v` (C86), `PropsStrict.v` (C48; proofs `StrictFacts.v`), `PropsSort.v` (C61), `PropsLib.v` (C62),
`PropsTag.v` (C63; spec `TagSpec.v`), `PropsRune.v` (C63, C05), `PropsProcess.v` (C64–C67), `PropsInterrupt.v` (C68),
`PropsPlain.v`, `PropsSource.v` (C69; spec `Plain.v`), `PropsPath.v` (C70, C68), `PropsSize.v` (C71),
`PropsKeep.v` (C16), `PropsExact.v` (C72; spec `Placed.v`), `PropsOrdinary.v` (C73; spec `Ordinary.v`), `PropsMethod.v` (C47 for CockroachDB index methods), `PropsGrown.v` (C74; spec `Grown.v`), `PropsTrim.v` (C38: white space), `PropsRemove.v` (C38 for every text), `PropsAnswer.v` (C89; spec `Answer.v`, proofs `AnswerFacts.v`), `PropsNote.v` (C75, C45; spec `Regular.v`), `PropsInPlace.v`, `PropsGrowApply.v` (C76; spec `InPlace.v`), `PropsBeyond.v` (C08, C09, C43: CockroachDB's methods inside of tables, MySQL's BOOLEAN; spec `Method.v`), `PropsSingle.v` (C18, C20, C44, C77: DiffCreateTable on single tables), `PropsAlign.v` (C78), `PropsIntact.v` (C79: the condition of C23 made exact; spec `Intact.v`), `PropsWarn.v` (C80; spec `WarnSpec.v`), `PropsStands.v` (C81), `PropsBlind.v` (C82), `PropsShown.v` (C83, C65: another language), `PropsSym.v` (C84), `PropsNewIndex.v`, `PropsKeyedMore.v` and `PropsKeyedApply.v` (C85; spec `KeyedServer.v`), `PropsKeyed.v` (C85; spec `DbKeyed.v`), `PropsRefuse.v` (C86; spec `DbRefuse.v`), `PropsAsk.v` (C87; spec `MyServer.v`), `PropsDoom.v` (C88; proofs `DoomFacts.v`, `DoomIndex.v`).
`MANIFEST.json` maps properties to theorems.

## Modelling conventions

* Go `string` = list of bytes = Coq `string`. `nil` pointers = `option`.
* Error returns are the value `Err` (error texts are not modelled); run-time panics
  are the value `Panic`; loops carry fuel and return `OutOfFuel` when it is
  exhausted; theorems show `OutOfFuel` is never reached (C01).
* The parser's (current, peek) window over the lexer is the list of remaining
  tokens. A lexer panic (unterminated quote) is a pseudo token `boom` at the end of
  the list: reaching it is the panic, because the Go lexer is called one token ahead.
* Pointer sharing is only modelled where something is mutated: `after_effect` in
  `Diff.v` is the table that `DiffCreateTable` leaves behind (C20).
* `sort.Slice` is an argument `srt` with the assumption that it permutes its input
  (C04 also: commutes with changing the case of keywords; C08, C09 also: for tables of
  more than 12 constraints, a list whose tail has no primary key is left as it is, which
  is what pdqsort does when no element is less than its predecessor). For constraints the Go
  code sorts by kind; for lists of at most 12 elements this is an insertion sort. `PropsSort.v`
  proves these assumptions for the library's sort (`GoSort.v`); `PropsLib.v` does so for the
  sort of the generated statements.
* `simplediff.Diff(..).String()` (text of explanatory comments; an arbitrary function, except
  that C69 and its consequences assume `modest`: no line longer than the compared texts), the database, the
  terminal, the sources and the file system are arguments (oracles): theorems hold
  for every behaviour of them.
* Dependencies whose source is not available: `stringz.JoinStringers sep xs` is
  `strings.Join` of the `String()` of the elements; `retry.Do` with
  `WithMaxRetries(n)` runs at most `n+1` attempts and stops at the first success;
  `errorz.PanicOrIgnore(err, e)` panics unless `err` is nil or `e`;
  `stringz.ReadLine(.., ReadLineFuncRemoveCommentLine("--"))` drops the lines that
  start with the prefix; `filepathz.Short` is an arbitrary function.
* Generator: the Go syntax tree (comment map, type declarations, fields, doc texts)
  is data, in the order of one map iteration; `reflect.StructTag.Get` is an arbitrary
  function except in `PropsTag.v`, where it is the one of `GoTag.v`; the configured tag is taken literally in the regular expression it is
  spliced into; characters are counted as in valid UTF-8; errors of writing to the
  destination are left out.
* Spanner `show`: rows of the information schema are computed from a description of
  the tables; errors of queries are left out.

## The database semantics (`Db.v`)

A catalogue maps keys (table, column, constraint, index, option) to descriptions;
each statement either fails or yields a new catalogue. Deliberate simplifications:

* names are case-sensitive and global per kind; quotation marks do not matter;
  `public.t` and `t` are different tables;
* expressions and types are token lists; a token knows whether it was a literal;
  double-quoted tokens of MySQL and Spanner count as identifiers;
* the NOT NULL implied by a primary key and NOT VALID are not represented;
* RENAME TO accepts a name with a schema, and references to the renamed table keep the old name;
* dropping a column drops the constraints and indexes that the catalogue ties to it
  (postgres cascade semantics), other dependencies (foreign keys to dropped tables,
  indexes on columns not there yet) are not enforced here but in `DbDep.v` (C19);
* Spanner ALTER COLUMN type keeps the default; MySQL DROP INDEX without ON fails;
  the MySQL AUTO_INCREMENT counter is not part of the schema.

## Method per property

| id | proof |
|----|-------|
| C01 | fuel = token count + constant suffices (token-consumption measure, `ParserTotal.v`) |
| C02 | refuted by witnesses; no panic unless a listed token pair occurs (`ParserSafe.v`) |
| C03, C05 | specification of gaps and tokens; the lexer follows it (`LexLayout.v`) |
| C04 | lexer and parser related on token lists equal up to case (`LexKeyword.v`, `ParserCase.v`) |
| C06, C07 | invariants of the parser output |
| C08, C09 | token stream of the printed text computed (`PrintLex.v`, `PrintToks.v`), then the parser run on it (`PrintParse.v` … `PrintDdl.v`), under `printable` |
| C10 | the parser reads a statement without looking behind its semicolon (`ParserConcat.v`) |
| C11, C18 | directly |
| C12, C14, C35–C37 | executing the emitted statements on the catalogue of the first schema, key by key (`DiffTable.v`, `DiffPair.v`, `DiffSound.v`), under `reconcilable` (`Reconcile.v`) |
| C13, C40, C41 | no difference iff same catalogue, under `comparable` (`Honest.v`, `DiffSame.v`, `VariantFacts.v`) |
| C15, C16, C43 | every statement justified by a difference (`Justified.v`, `Frame.v`); constraints and in-table indexes on both sides: their segment of the difference (`PropsKeep.v`) |
| C17, C42, C44 | shape of the statement list (`Shape.v`) |
| C44 (reaching the target) | creating the table under its new name gives the renamed catalogue (`moved_run`), so the rest is the comparison of two tables of one name, which C12, C35–C37 cover |
| C19 | every intermediate catalogue satisfies all needs: phase by phase, prefix by prefix (`DepFacts.v`), under `reconcilable` and `in_order` (`DbDep.v`); refuted without the latter |
| C20 | the table left behind is the given one, unless renamed |
| C21–C29, C38 | traces with an arbitrary database (`ApplyFacts.v`, `LinesFacts.v`) |
| C30–C32, C39, C45, C46 | uniqueness of sorted permutations, texts of printed lists |
| C33 | induction on histories |
| C34 | refuted; exact description of what is shown |
| C47 | token stream of every action computed and read (`ReadFacts.v`); every statement of a diff of printable schemas is readable (`ReadDiff.v`) |
| C48 | composition of C12/C35–C37, C47 and C23 along the run (`SqlDbFacts.v`); refuted for literals over several lines |
| C49–C51 | backtracking matcher run on the plain annotation form (`GenToldFacts.v`); padded decimals compared as text are compared as numbers (`GenLines.v`) |
| C52 | tokens of every printed piece computed, joined to the tokens of a written statement (`GenReadFacts.v`), then C53; comments stay on their lines by `GenRemarks.v` |
| C53 | tokens of every written form computed, then the item loop run over them (`WrittenFacts.v`, on the lemmas of C08) |
| C54 | tokens of every shown piece computed (`ShowReadFacts.v`), then C53; no difference by C11 and C28 |
| C55 | as C54 (`ShowPgFacts.v`); the joins of the query computed on schemas of plain keys |
| C56 | C48, then two schemas with the same catalogue have no difference (`DiffSame.v`), then C28 |
| C57, C58 | as C54 (`ShowMyFacts.v`); a statement that is no CREATE behind accepted ones makes the whole text rejected |
| C59 | composition of C49, C52–C55, C57, C58 and C48 |
| C60 | by cases of `resolve`; C11 and C28; first token of the text |
| C61 | the library's sort only exchanges elements, ends, commutes with maps (`GoSortFacts.v`); its run traced on lists with one marked element at the end |
| C62 | every phase of pdqsort changes its range only and keeps the range above what is in front of it; insertion, heap and partition invariants (`GoSortSorts.v`) |
| C63 | UTF-8 forms decode and encode to each other (linear arithmetic); each written piece of a value is read as one character; induction over the pieces, then over the pairs (`TagFacts.v`) |

| C64 | generation with a once cell is generation with the tag in the cell; the cell only ever holds the tag of the first configuration |
| C65, C67 | unfolding of the command table; C22 and C24 for the approval and the exit code |
| C68 | per statement, key by key (`InterruptFacts.v`): who can remove or make an object; C15 and C16 exclude these for what stays; C48's run cut at any event |
| C69 | every printer keeps texts plain and short (`PlainPrint.v`), a CREATE TABLE is a page of plain lines (`PlainText.v`), every statement of a difference is built from parts of one statement of each side (`PlainDiff.v`); also gives C48/C59/C68 under a condition on the two schemas only; every text of a parsed schema is a token of its source or built from such, so quiet sources give plain schemas (`PlainSource.v`) |
| C70 | executing depends on the values of the catalogue only (`exec_eq`), so the result of one difference can be the start of the next; C12 and C48 step by step |
| C71 | counting along the functions of the comparison; partners of different statements are different when no object is described twice |
| C72 | from a difference that reaches its target each condition is read off: what no statement makes or changes is in the target as it was in the source, what a statement needs is there when its turn comes (`Needed.v`, `Needed2.v`, `Needed3.v`, `Needed4.v`) |
| C73 | every text that is compared is decoded: where a piece, a column list, an argument list or an option ends is determined by its first bytes (`OrdinaryText.v`); the tests of Ordinary.v then imply those of Reconcile.v and, for C72, conversely (`OrdinaryFacts.v`); for MySQL and Spanner safety is read off a difference that reaches its target directly (`Needed5.v`): MySQL refuses every `DROP INDEX`, an option that is not mentioned stays |
| C74 | what stays finds itself and is equal to itself, so nothing is said of it; what comes or goes finds nothing; the printed texts differ because their lengths do (`PropsGrown.v`) |
| C75, C45 | every matcher tries exactly the texts of its expression in front of its continuation (`follows`), piece by piece; reading a field, a group, a file either panics because of a fatal field or succeeds |
| C76 | every statement of a difference is tied to one object whose value changes (C15's lemmas, statement by statement: `loose_strays` in `InPlaceFacts.v`); where everything old is kept nothing can be altered or dropped, where everything new was there nothing can be altered or made |
| C66 | writing a file changes no other; a file that is no Go source is skipped by the walk |

Properties that are false as stated keep their wording in `properties.jsonl`; the
manifest says "partial", with a `_refuted` theorem (witness) and a `_partial`
theorem under the condition that excludes the fault.

## Trusted base

* Coq kernel (`vm_compute` where a closed term is evaluated).
* The reading of the Go code into the model, plus the conventions above.
* `GoSort.v` and `GoTag.v` are written after the source of Go 1.22, which is not in the sandbox; the
  other properties hold for every sort with the stated assumptions and every tag reader.
* No axiom is declared; `Print Assumptions` beneath every property theorem reports
  "Closed under the global context". `coqchk -o` lists the parameters of the module
  type `Coq.ssr.ssrunder.Under_rel`, which come with the standard library's `Lia`
  and are not used.

Not modelled: logging, error texts, how the cli library reads the command line and the environment (`Process.v` takes the values found), `go/parser`, SQL drivers,
file system details, time, SQL semantics of the `show` queries beyond what `Show.v` and `ShowPg.v` write out, version output.
The answers of MySQL and CockroachDB are not the project's code: `ShowMyRead.v` states the form they are assumed to have.
A dialect that does not fit the server it is used with is not modelled (`Resolve.v` counts it as an error).
