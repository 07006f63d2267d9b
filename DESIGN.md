# Formal model of sqldef: design

Subject: k0kubun/sqldef at the commit in /repo (Go). Prover: Coq 8.16.1. Everything is in `rocq/theories`.

## Layers

| file | models |
|---|---|
| `GoStr.v`, `GoNum.v` | the Go `strings`/`fmt`/`strconv` functions used |
| `Ast.v` | schema/ast.go |
| `Generator.v` | schema/generator.go, function by function |
| `SchemaText.v` | schema/parser.go `parseDDLs` (statement splitting) |
| `Runner.v` | sqldef.go `Run`, `showDDLs`; adapter/database.go `DumpDDLs`, `RunDDLs` |
| `SpecRunner.v`, `ProofRunner.v`, `DemoRunner.v`, `PropsRunner.v` | C01-C04, C07-C10 |
| `SpecText.v`, `ProofText.v`, `PropsText.v` | C11, C12 |
| `SpecPlan.v`, `SpecColumns.v` | what a plan must contain, as relations |
| `ProofPlan.v` ... `ProofGaps.v`, `DemoPlan.v`, `ProofDemo.v`, `PropsPlan.v`, `PropsGaps.v` | C13-C28, C46-C48 |
| `SpecSql.v`, `SpecDrop.v`, `ProofSql.v`, `ProofDrop.v`, `ProofTexts.v`, `PropsSql.v` | statement texts: C05, C06, C49, C50 |
| `SpecOrder.v`, `ProofOrder.v`, `DemoOrder.v`, `PropsOrder.v` | column order: C31 |
| `SpecMysql.v`, `ProofMysql.v` | an ideal MySQL catalogue that executes effects |
| `SpecConverge.v`, `ProofConverge.v`, `ProofSettle.v`, `ProofNoop.v`, `DemoConverge.v`, `PropsConverge.v` | C29, C32, C33 |
| `SpecDatabase.v`, `ProofDatabase.v` | a database of tables, views and triggers that executes effects, over any kind of table |
| `SpecPostgres.v`, `SpecConvergePg.v`, `ProofPg*.v`, `DemoConvergePg.v`, `PropsConvergePg.v` | an ideal PostgreSQL and C30 |
| `Keywords.v`, `Lexer.v` | sqlparser/token.go, comments.go `ExtractMysqlComment`: the tokenizer and `Lex` |
| `Formatter.v` | how sqlparser prints strings and names (sqltypes/value.go, ast.go `formatID`) |
| `Numerals.v` | `strconv.Atoi`, `strconv.ParseFloat`; schema/parser.go `parseValue` |
| `SpecLexer.v` | the lexical grammar, as a relation between text and tokens |
| `SpecReadback.v`, `SpecNumerals.v` | quoting notions; what numerals denote |
| `ProofLexer.v`, `ProofScan.v`, `ProofTokens.v`, `ProofReadback.v`, `ProofCase.v`, `ProofNumerals.v`, `PropsLexer.v` | C36-C41, C51-C53 |
| `SqlAst.v` | the part of sqlparser/ast.go below `DDL` |
| `SchemaParse.v` | schema/parser.go: `parseDDL`, `parseTable`, `parseIndex` and helpers, from `SqlAst.v` to `Ast.v` |
| `ParserTables.v`, `ParserActions.v`, `ParserValues.v`, `Parser.v` | sqlparser/parser.go: the goyacc tables, the actions of the 998 productions of parser.y, the values they build (with how ast.go prints expressions and select statements), the driver and `ParseStrictDDLWithMode` |
| `SpecGrammar.v` | The grammar of parser.y as a relation between words, parse and value, independent of the tables |
| `ParserCert.v`, `ProofGrammar.v`, `ProofActions.v`, `ProofParser.v`, `ProofParse.v` | A certificate for the tables (which symbols each state has read, a measure), checked by computation; the driver halts, never uses a bad index or value, and accepts only what the grammar derives |
| `SpecLayout.v`, `ProofRun.v` | The words of a text; the parser driven by words instead of text, and that both agree |
| `Planner.v`, `PropsParser.v`, `PropsSchema.v` | From files to plan; C65-C67; C68-C76 |
| `Catalog.v` | what the four databases hold, as far as the export queries read it |
| `AdapterPostgres.v`, `AdapterMssql.v`, `AdapterSqlite.v` | adapter/postgres, adapter/mssql, adapter/sqlite3 and the text building of adapter/mysql |
| `SpecShown.v` | databases and what PostgreSQL's catalogue shows of them (`pg_get_indexdef`, `pg_get_viewdef`, ... as texts) |
| `ProofPieces.v`, `ProofLead.v`, `ProofRead*.v`, `ProofUntold.v`, `ProofEndToEnd.v`, `DemoReadBack.v`, `PropsReadBack.v` | the exported texts as tokens, the runs of the parser on them, the whole export read back: C77-C79 |
| `CatalogMysql.v`, `AdapterMysql.v` | adapter/mysql/mysql.go over the rows its queries return |
| `SpecShownMysql.v` | databases and what MySQL shows of them (SHOW CREATE TABLE, INFORMATION_SCHEMA.VIEWS, SHOW TRIGGERS as texts) |
| `ProofPiecesMysql.v`, `ProofReadMy*.v`, `ProofMyEndToEnd.v`, `DemoReadMysql.v`, `PropsReadMysql.v` | the same for MySQL: C80-C82 |
| `SpecSqlite.v` | an ideal SQLite: a catalogue of texts, and which statements it accepts |
| `ProofSqlite.v`, `ProofSqliteRun.v`, `DemoSqlite.v`, `PropsSqlite.v` | the same for SQLite: C83, C84 |
| `ExportMssql.v` | the export of a whole SQL Server database, with the indexes in any order |
| `SpecShownMssql.v` | databases and what SQL Server's catalogue says of them |
| `SpecMssql.v`, `SpecConvergeMs.v`, `ProofMs.v`, `ProofMsShown.v`, `ProofMsKept.v`, `ProofMsTable.v`, `ProofMsSettle.v`, `ProofMsCheck.v`, `DemoConvergeMs.v`, `PropsConvergeMs.v` | an ideal SQL Server and C88 |
| `SpecWordsMysql.v`, `ProofWordsMysql.v`, `ProofWordsMysqlPlan.v`, `DemoWordsMysql.v`, `PropsWordsMysql.v` | MySQL's words for planned statements and C89 |
| `CommandLine.v` | `parseOptions` and `main` of the four commands, `readFile`, the connection strings of MySQL and SQL Server; go-flags from its documentation |
| `SpecCommand.v`, `ProofCommand.v`, `ProofCommandRun.v`, `DemoCommand.v`, `PropsCommand.v` | command lines: C90-C93 |
| `SpecSource.v`, `SpecNoticed.v`, `ProofSource.v`, `ProofSaid.v`, `ProofNoticed.v`, `DemoSource.v`, `PropsSource.v` | where definitions in a plan come from: C94; what holds of C68, C70, C71, C73, C74 |
| `SpecKeep.v`, `SpecAccepted.v`, `ProofKeep.v`, `ProofAccepted.v`, `ProofRunnable.v`, `DemoKeep.v`, `PropsKeep.v` | what is kept with --skip-drop and which files and statements are accepted: what holds of C12, C50, C69, C75, C76 |
| `ProofPiecesMssql.v`, `ProofReadMs*.v`, `ProofMsEndToEnd.v`, `ProofMsTexts.v`, `DemoReadMssql.v`, `PropsReadMssql.v` | the same for SQL Server: C85-C87 |
| `QueryMssql.v` | the catalogue queries of adapter/mssql/mssql.go over the sys views, rows in any order |
| `SpecSysMssql.v`, `ProofSysMssql.v`, `ProofSysDump.v`, `ProofSysRun.v`, `DemoSysMssql.v`, `PropsSysMssql.v` | what the sys views tell of a database; export and runs from there on: C95 |
| `SpecTwoRuns.v`, `ProofTwoRuns.v`, `ProofAlike.v`, `ProofTwoRunsAll.v`, `DemoTwoRuns.v`, `PropsTwoRuns.v` | one run of the command on a server with a state, and the next run: C96 |
| `SpecClustered.v`, `ProofClustered.v`, `PropsClustered.v` | CLUSTERED in the statements for SQL Server: C97 |
| `SpecPlannable.v`, `ProofPlannable.v`, `ProofPlannableRun.v`, `PropsPlannable.v` | schemas that are planned, not refused, and runs that are applied: C98 |
| `SpecFault.v`, `ProofFault.v`, `PropsFault.v` | what is wrong when the planner gives an error: C99 |
| `SpecLine.v`, `ProofLine.v`, `DemoLine.v`, `PropsLine.v` | from the words typed to the state of the database: C100 |
| `SpecCopy.v`, `SpecCopyPg.v`, `SpecCopyMs.v`, `ProofCopy.v`, `ProofCopyPg.v`, `ProofCopyLite.v`, `ProofCopyMs.v`, `DemoCopy.v`, `DemoCopyMs.v`, `PropsCopy.v`, `PropsCopyMs.v` | a database is copied by its export: C101 |
| `SpecAgree.v`, `ProofAgree.v`, `DemoAgree.v`, `PropsAgree.v` | databases brought to the same file agree: C102 |
| `ProofRearrange.v`, `DemoRearrange.v`, `PropsRearrange.v` | the order of the statements of a file does not matter: C103 |
| `SpecHistory.v`, `ProofHistory.v`, `DemoHistory.v`, `PropsHistory.v` | only the last file applied counts: C104 |
| `SpecEdit.v`, `ProofEdit.v`, `DemoEdit.v`, `PropsEdit.v` | editing one object of a file touches no other: C105 |
| `SpecEditLite.v`, `ProofEditLite.v`, `DemoEditLite.v`, `PropsEditLite.v` | the same on SQLite catalogues: C105 |
| `SpecResume.v`, `ProofResume.v`, `DemoResume.v`, `PropsResume.v` | a run that stopped is resumed by running again: C106 |
| `SpecResumeMy.v`, `ProofResumeMy.v`, `DemoResumeMy.v`, `PropsResumeMy.v` | the same on MySQL, stopped anywhere but after the statements excluded by `may_stop_after`: C106 |
| `SpecTypes.v`, `ProofTypes.v`, `DemoTypes.v`, `PropsTypes.v` | C34, C35 |
| `SpecUrl.v`, `SpecExport.v` | how a connection URL is read; what an export must tell |
| `ProofUrl.v`, `ProofExport.v`, `ProofExport2.v`, `ProofExport3.v`, `ProofCatalog.v`, `DemoExport.v`, `PropsExport.v` | C42-C45, C54-C64 |

`Spec*.v` are specifications, written without the model's helper functions. `Proof*.v` are lemmas. `Demo*.v` hold
the inputs of the examples. `Props*.v` contain only property theorems, each with `Print Assumptions` and an example.

## Modelling conventions

* Go strings are byte strings (`string`). `ToLower`/`TrimSpace` act on ASCII only.
* A nilable pointer is an `option`; a slice a `list` (nil = empty); `int` is `Z`; `float64` is `SpecFloat.spec_float`.
* Error returns, panics and `log.Fatal` are explicit outcomes (`res`). Error messages are structured, not rendered.
* A planned statement is its exact text plus a ghost `effect`. The text never depends on the effect.
* The outside world is a record of answers that may depend on the whole event history, so theorems about `Run` hold for every database, failure pattern and concurrent writer.
* External parsers are parameters of the functions (never axioms): theorems about planning hold for every parser.

## Deliberate simplifications

* Slice backing arrays: `append` aliasing is not modelled. The only slices shared between two tables are those of a table created by the desired schema and its copy in the list of desired tables; both copies receive the same appended element at the same place, except when the same table is created twice in one schema; then at most an index of the file takes the place of another index of the file, so that what C99 says of the origin of names is unaffected.
* `areSameIndexes` writes "asc" for an empty direction in the desired index; only "desc" is ever printed and comparison treats both alike, so the model leaves it.
* `areSamePolicies` sorts roles in place; the order of roles is never printed and is re-sorted before each comparison.
* `current.check == desired.check` (MySQL) compares pointers from two parses: equal only if both nil.
* Text on standard error is not modelled.
* Command lines: go-flags v1.4.0 (not in the repository) is modelled from its documentation, with `strconv.Unquote` as a parameter; so are `net/url`'s escaping and `term.ReadPassword` (succeeds only on a terminal). Shell completion, help texts and a closed standard input are left out.
* Catalogue queries: rows the queries sort by a key that does not determine their order are taken in catalogue order (SQL Server indexes come in any order: `index_order`). SQL Server's queries (joins over sys.*) are modelled for C95 only, in `QueryMssql.v`; the other properties start from the rows. SHOW CREATE TABLE (MySQL) is the database's.
* Expressions and select statements are represented by the text `String` would print for them (`SqlAst.v`, `ParserValues.v`), computed by the actions that build them; `None` is an expression whose printing panics. Statements other than DDL keep no structure beyond that.
* `ParserTables.v` and `ParserActions.v` were transcribed by a script from parser.go and parser.y and are then plain definitions.
* The ideal MySQL (`SpecMysql.v`) has columns, keys, foreign keys, views and triggers, but no rows: statements fail on missing or duplicate objects, on keys over missing columns and on AUTO_INCREMENT columns without a key, never because of data. References between tables are not checked, foreign keys create no implicit index, no server defaults (display widths, charsets) are filled in.
* The catalogue is read back as syntax trees (`dump`): printing by SHOW CREATE TABLE and parsing it again are outside C29, C31-C33; C80 proves it for the databases of `SpecShownMysql.v`.
* The ideal PostgreSQL (`SpecPostgres.v`): `pg_dump` is what the exporter's text parses to (proved by C77 for the databases of `SpecShown.v`, assumed for others), names of tables and constraints are unique over all schemas, expressions are read back as they were written, constraint names are unique per kind, serial columns stay NOT NULL. Which types can be cast and which views replaced is a parameter. No rows, no dependencies between tables.
* The ideal SQL Server (`SpecMssql.v`): names given to constraints, the way conditions and values are kept, the names accepted without brackets, the values accepted after DEFAULT as the planner writes them and replaceable views are parameters. Not modelled: data, references between tables, clashes between names of constraints of different tables, CLUSTERED, filters and partitions of indexes, collations; UNIQUE and REFERENCES in column definitions and foreign keys of several columns are rejected; indexes in CREATE TABLE are kept. `ms_shown` is what the exporter's text parses to (proved by C85 for the databases of `SpecShownMssql.v`, assumed for others).

## Properties: plan

C01-C09 (runner): trace semantics of `run` over arbitrary worlds; induction over the statement list. C04 adds an abstract transactional store.
C10-C12 (text): algebra of splitting and joining.
C13-C28 (planner): induction over statement lists with invariants on the simulated state; exact characterisation of the emitted effects.
C29 (MySQL): the plan's effects are executed on an ideal catalogue (`run_all`). Proved: under `mysql_schema` and `convertible` no statement fails, the final catalogue has the schema, the second plan is empty. The proof follows one table through the phases of the plan; statements about other tables commute. Refuted for all well-formed pairs.
C30 (PostgreSQL): the same over `SpecPostgres.v`, with the table-independent part (`ProofDatabase.v`) proved once for any kind of table. The conditions are testable (`C30_convertible_is_testable`). Refuted for all well-formed pairs by ten witnesses.
C31: the column order after the CHANGE/ADD ... AFTER statements, by an invariant on the prefix already placed.
C32: the invariant "every AUTO_INCREMENT column leads a key" over every prefix of the plan. C33: refuted by a witness.
C36-C41, C51-C53: model of token.go with fuel, shown to be enough for every input; the tokenizer is proved equal to the grammar of `SpecLexer.v`, and read-back follows by deriving the written text in the grammar. C38: error bounds of binary64 rounding against the six printed decimals.
C34, C35: case analysis on the planner's type rules.
C46-C50: witnesses and exact characterisation of planned texts.
C42-C45, C54-C64: models of the adapters. The catalogue queries are SQL inside Go strings; their joins are modelled over the records of `Catalog.v`, and the export text is modelled exactly. URLs are read by an independent reader (`SpecUrl.v`). Splitting uses the layout grammar of C11.

A property whose full statement is false of the faithful model gets a theorem `..._refuted` with a concrete witness, and what does hold as `..._partial`.

C65-C67: the tables are checked against the grammar by a certificate (an annotation of every state) computed outside and verified in Coq; then the driver loop is proved correct for all texts.

C68-C76: end-to-end statements about two files. Each is false of the code; the refutations run the whole modelled planner (lexer, tables, actions, comparison, printing) on two small files. What does hold is in PropsSource and PropsKeep: C68, C71 and C73 combine C94 with the words of C89; C70 and C74 are read off the exact plans of C18 and C47; C69 and C75 combine C66 (same words, same meaning) with the read-back theorems C77, C80, C85; C76 is the execution part of C29, C30 and C88; C50 is an invariant of each effect that occurs in a plan and whose text has no DROP, executed on the ideal databases in any order.

C77-C79: `SpecShown.v` says what the catalogue relations hold of a database, in PostgreSQL's spelling (taken from its documentation, part of the trusted base). The exporter's text is split (C54), each statement is a known list of tokens (grammar of C36), and the LR parser is run symbolically on each: one lemma per shape, by induction over lists of columns, index columns, roles and over expressions. `ProofUntold.v` shows that the planner never reads the text of current statements. With C13 and C30 this gives C78 and C79.

C80-C82: the same for MySQL. `SpecShownMysql.v` writes tables as MySQL does (part of the trusted base): all integer, decimal, float, time, character, binary, text, blob, spatial, JSON, ENUM and SET types with character sets and collations, defaults (numbers without quotes, as MariaDB shows them, among them), ON UPDATE, AUTO_INCREMENT, comments, keys of all five kinds with prefixes, directions and options, foreign keys with actions, table options; names with any characters but backquotes, semicolons and control characters. Views are columns of one table, triggers one INSERT. Not covered are the constructs refuted beside C80, and other view and trigger bodies.

C83, C84: SQLite keeps the text of each CREATE statement, so the catalogue of `SpecSqlite.v` (part of the trusted base) is a list of texts; for a statement it may keep any text of the same words, and rows of its own beside. The objects of a catalogue are what sqldef's own reader finds in those texts, so nothing is assumed about which tables or views these are, only that they are read; C67 carries the meaning from the planned text to the kept one. A plan is proved to be a sequence of creations and drops about single names, by induction over the file and the current tables and views; each step preserves the readability of the catalogue. ALTER TABLE (a table that gains or loses columns) is left out.

C85-C87: as C77-C82. `SpecShownMssql.v` gives the rows of sys.columns, sys.indexes, sys.foreign_keys and the texts of the modules (part of the trusted base): 25 types, defaults (NULL, integers, strings, getdate()), identities, checks over comparisons, IS NULL, AND, OR and parentheses, primary key and one further index with directions, INCLUDE and all options, foreign keys of one column with actions. Views are columns of one table with an optional condition, over any lines that keep a blank; triggers one INSERT of numbers. `ms_dump` is a relation because the indexes come from a Go map. Column names, table names and names of default constraints are exported without brackets, so they are words that are no keywords. Beyond that, see the refutations.

C88: as C30, over `SpecMssql.v` and with `ProofDatabase.v`. A kept table is followed through the statements on its columns, primary key, foreign keys, standalone indexes and the drops at the end (`ms_kept_run`); a new table through its CREATE statements (`ms_new_run`). The conditions are testable (`C88_conditions_are_testable`). With C85 this gives the rest of C87. Refuted for all well-formed pairs by 17 witnesses.

C89: `SpecWordsMysql.v` gives ALTER TABLE its words with the definitions as `SpecShownMysql.v` shows them (so part of the trusted base); two texts have the same words when SpecLayout's `says` holds of both with one list of tokens. The texts of the plan come from C49; they are taken apart into the same pieces as MySQL's (`ProofWordsMysql.v`). Reading the definitions back uses C67 and the table lemma of C80.

C90-C93: a list of items (option with value in one of five spellings, switch, name) is spelled into words; `parse_args` is proved to accept exactly the words of proper items and to return what they say (`parse_items`, `parsed_written`). The rest follows the branches of `parseOptions`; runs come from C01, C02; URLs are read as in C42 (`ProofUrl.v`) and by `read_sqlserver_url`.

C94: `asked_for` looks each definition up in the statements of the file; the loop over the desired statements keeps the invariant that the tables it works on have only columns, keys and foreign keys of one of the two files, and each emitted effect is traced to its place in the file.

C95: each query is a join over lists; the keys of the views make every join find the one row meant, so an answer is a permutation of the rows of the table, and scanning keeps it one. The text depends on a permuted index only through its key and included columns, so the export is that of a permuted database, to which C85, C87 and C88 apply; their conditions do not look at the order.

C96: a world (`Runner.v`) whose catalogue answers do not change before the first statement is sent, and whose server is a state with a function from texts to effects (`serves`). By induction on the loop of `RunDDLs` the statements of the plan are all accepted when executing them one after another is defined, which the convergence theorems say (C79, C82, C84, C87); so the run commits and the state it leaves has the schema. The second run is on any database told apart from that state by nothing that is printed (`catalogue_alike`, `pg_alike`, `ms_alike`: CLUSTERED and a written ASC). Partial: the link from text to effect is a hypothesis (`does`, `allows`), begin and commit succeed, and the conditions of those theorems.

C97: from the shapes of the planned statements (`plan_says`), every added index or key is one of the file and its text has the word of the parsed index. What the full statement asks for is false: `clustered_opt` (parser.y:1848-1859) makes a silent inline index CLUSTERED, the unnamed PRIMARY KEY is NONCLUSTERED, and `areSameIndexes` does not compare the word; three refutations on databases and files of C88. The ideal SQL Server does not count clustered indexes.

C98: the plan is the sum of the plans of its statements (`plan_eq`, from the simulation of C13-C19), and each of these is a value under the conditions of `plannable`, which speak of the two schemas only and can be tested (`plannable_b`). With the convergence theorems (C29, C30, C88) and reading back (C77, C80, C85) a run of the command is applied; the alternative `refused` of C96 is gone. Boolean defaults and a primary key on another column are refused: refutations.

C99: `fault` says in the words of the two files what each error value claims; the proof follows the simulated state (`told`: names, origins of columns and indexes) through every statement, with no condition on the schemas, so that duplicate tables are covered. The message texts (`fmt.Errorf`) are not modelled, only the values put into them.

C100: the composition of C90 (the line opens the database and file it names), C98 (the plan is made) and C96 (it reaches the schema, and the next run is empty), stated on `CommandLine.main`, the outermost function of the model.

C101: `plan_fresh` gives the plan of any well-formed schema for an empty database in every dialect (everything as written, except foreign keys added by ALTER TABLE, which give nothing); on MySQL the export read back (C80) is such a schema, and CREATE TABLE of an exported table makes that table again. The server of this property also refuses references to missing tables (`run_checked`); references of views and triggers, and data, are not modelled. On PostgreSQL the tables are rebuilt statement by statement on the ideal server of `SpecPostgres`, whatever their number; foreign keys are shown to be missing from every copy. On SQLite the export of a catalogue is shown to be a schema of C84, so the run of C100 on an empty file applies; tables come back as sqldef reads them, views up to letter case as sqldef compares them. On SQL Server the tables are rebuilt on the ideal server of `SpecMssql`, which for this property also refuses references to missing tables and fill factors outside 1 to 100 (`ms_checked`; the server of C87 does not look at fill factors); schemas of tables are not part of the copy.

C102: the convergence theorems (C29, C30, C84, C88) are applied to two databases and one file; what both then have of the file is joined, object by object, to relations between the two databases (`my_agree`, `pg_agree`, `ms_agree`, `lite_agree`) that ask for equal names, types, defaults, keys, foreign keys, views and triggers wherever the file says something. Partial: what the file leaves out and an earlier one said may stay (collation, index option, unique index beginning with a UNIQUE column), and a MySQL scale is not compared; each is refuted with a witness.

C103: the domains of the convergence theorems are shown to be closed under permutation of the file, so both arrangements converge; what both databases then have of the file is joined as in C102, and the idempotence theorems are applied across. Partial: conditions of C29, C30, C84, C88; the rearranged file must be well formed (`well_formed`, each statement after its table) and, except on SQLite, have a plan, which rearranged plannable files (C98) do. An index before its table is refused, with a witness for every dialect.

C104: `history` is the sequence of files applied one after the other; by induction on it, each database met stays in the domain of the convergence theorems and has the schema of the file just applied, and two ends are joined as in C102. Partial: every file must be in the domain of C29, C30, C84 or C88 for the database it meets; what the last file leaves out may stay, refuted with a collation.

C105: the frame theorem of C26 is applied to the file the database agrees with, whose plan is empty, and to the edited file; for views the exact plan of C21 is. On the ideal databases a statement about another table is shown to leave a table as it is, so every prefix of the plan does. On SQLite the rows of the table, its indexes and triggers are the same.

C106: an attempt executes the first statements of the plan made for the catalogue as it is. Every statement of a plan that makes an object makes one of the file, so after any prefix the catalogue is again in the domain of C84, and so by induction after any number of attempts. On MySQL the domain of C29 is shown to be kept by each planned statement, except one that changes a column to one with AUTO_INCREMENT and one that drops a key of a table with such a column in the file; a file without AUTO_INCREMENT may so be stopped anywhere. Partial: MySQL runs stopped after one of those two statements, PostgreSQL and SQL Server are missing.

## Checked against the project's tests

`oracle/run.py` plays the project's integration tests (`/repo/cmd/*/*_test.go`, read as text) on the model and compares the printed plans with the recorded ones: lexer, parser, planner and printing together, on 113 tests with about 450 expected outputs. All agree except where the real server shows a schema otherwise than the ideal one (`oracle/README.md`). These are tests of the transcription, not proofs.

## Trusted base

Coq's kernel; the transcription of Go into Gallina (cited by file and line at each definition); the listed simplifications; for each theorem the output of `Print Assumptions` (below).

### Print Assumptions

Every theorem of `Props*.v` is followed by `Print Assumptions`; each prints "Closed under the global context": no axiom is used. `coqchk` also lists the axioms of `Coq.ssr.ssrunder`, part of the standard library loaded by `ssreflect`; no theorem depends on them.
