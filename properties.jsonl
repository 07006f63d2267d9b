{"id": "C01", "title": "Dry run and export never change the database", "statement": "With --dry-run, and with --export, the command issues only catalogue reads to the database: it never opens a transaction, executes a statement, commits or rolls back. With --export it does not even read the schema file.", "quantifier": "every database (any answers to the catalogue queries, any failing call), every option combination, every schema file, every parser behaviour", "why_tests_cant": "A test observes a handful of databases and option sets; the claim is about all of them and about every early-exit path, including the ones reached only when a query fails.", "anchors": ["sqldef.go:Run", "sqldef.go:showDDLs", "adapter/database.go:DumpDDLs"]}
{"id": "C02", "title": "The dry run shows exactly what apply would do", "statement": "For the same database and schema file, the statement lines --dry-run prints are, after the header, the lines apply prints (same statements, same order, same 'Skipped' marks); if apply stops at a failing statement its output is a prefix of the dry run's, ending with the failing statement.", "quantifier": "every list of statements, every failing point, both settings of --skip-drop", "why_tests_cant": "The two loops are separate copies of each other in two packages; tests compare them on a few outputs, not for all statement texts and failure points.", "anchors": ["sqldef.go:showDDLs", "adapter/database.go:RunDDLs"]}
{"id": "C03", "title": "Apply executes the plan in order, once each, inside one transaction, and stops at the first failure", "statement": "Apply opens one transaction, executes the non-skipped statements of the plan in order, each exactly once, stops at the first one the database rejects, rolls back in that case and commits exactly when all succeeded; nothing is executed outside the transaction.", "quantifier": "every plan, every pattern of database failures", "why_tests_cant": "Failure points are unboundedly many; tests exercise the success path and perhaps one failure.", "anchors": ["adapter/database.go:RunDDLs"]}
{"id": "C04", "title": "Apply is all-or-nothing at every crash point on a database with transactional DDL", "statement": "If the process or connection dies between any two events of an apply, a database whose DDL is transactional holds either the schema before the run or the schema after all executed statements; on a database with auto-committing DDL it holds the result of a prefix of the plan.", "quantifier": "every plan, every crash point of the event trace, every state-transformer semantics of the statements", "why_tests_cant": "Crash points cannot be enumerated by unit tests and the real driver cannot be killed between two chosen events deterministically.", "anchors": ["adapter/database.go:RunDDLs"]}
{"id": "C05", "title": "--skip-drop never executes a statement that removes an object", "statement": "With --skip-drop no executed statement drops a table, column, index, primary key, constraint, foreign key, policy, view or trigger, nor drops a default, check, identity or NOT NULL by itself; every planned removal is printed as skipped.", "quantifier": "every current and desired schema in the four dialects, every plan produced from them", "why_tests_cant": "The guard is a substring test on rendered SQL text; only a proof over all plans shows that every removing statement is covered by it.", "anchors": ["sqldef.go:showDDLs", "adapter/database.go:RunDDLs", "schema/generator.go:generateDDLs"]}
{"id": "C06", "title": "--skip-drop skips nothing but removals", "statement": "With --skip-drop every planned statement that removes nothing is executed.", "quantifier": "every current and desired schema, including object names, default texts, comments and view bodies that contain the letters DROP", "why_tests_cant": "A test with ordinary names passes; the failing inputs are names or texts containing the substring.", "anchors": ["sqldef.go:showDDLs", "adapter/database.go:RunDDLs"]}
{"id": "C07", "title": "An empty plan touches nothing", "statement": "If the plan is empty the command prints that nothing is modified and issues no transaction and no statement.", "quantifier": "every database and schema file with an empty plan, every option combination", "why_tests_cant": "Needs the absence of an effect on all paths.", "anchors": ["sqldef.go:Run"]}
{"id": "C08", "title": "Any error before apply leaves the database untouched", "statement": "If dumping the current schema, reading the file, parsing either side or planning fails, the command exits unsuccessfully without opening a transaction or executing a statement.", "quantifier": "every input on which any of these steps fails or panics", "why_tests_cant": "Error sites are many (each object kind, each dialect); tests cover a few.", "anchors": ["sqldef.go:Run", "schema/generator.go:GenerateIdempotentDDLs"]}
{"id": "C09", "title": "The command reports success only if the change was committed", "statement": "If apply finishes with a success exit then the database acknowledged the commit.", "quantifier": "every database behaviour, including a failing COMMIT", "why_tests_cant": "A failing COMMIT is a driver state tests do not produce.", "anchors": ["adapter/database.go:RunDDLs", "sqldef.go:Run"]}
{"id": "C10", "title": "The export is a faithful concatenation", "statement": "The export consists of the table definitions in catalogue order, then the views, then the triggers; splitting it the way the schema file is split gives back exactly those definitions, provided none contains a semicolon or a line starting with two dashes.", "quantifier": "every list of catalogue answers", "why_tests_cant": "Unbounded number and shape of definitions.", "anchors": ["adapter/database.go:DumpDDLs", "schema/parser.go:parseDDLs"]}
{"id": "C11", "title": "Schema text is split into statements faithfully", "statement": "For statements that contain no semicolon and no line starting with two dashes, a schema text that lists them separated by semicolons, with arbitrary white space and comment lines between them, is read as exactly those statements in that order, and an empty text as no statement.", "quantifier": "every list of statements, every layout of white space and comment lines", "why_tests_cant": "Layouts are unbounded.", "anchors": ["schema/parser.go:parseDDLs"]}
{"id": "C12", "title": "A semicolon or a dash line inside a string literal does not break a statement", "statement": "A statement whose string literals contain a semicolon or a line starting with two dashes is read as one statement with its text intact.", "quantifier": "every statement text", "why_tests_cant": "Only adversarial literals expose it.", "anchors": ["schema/parser.go:parseDDLs"]}
{"id": "C13", "title": "Diffing a schema against itself is a no-op", "statement": "If the desired schema equals the current schema and is well formed (no duplicate object, objects follow their table, supported kinds), the plan is empty.", "quantifier": "every well-formed schema, of any size, in each of the four dialects", "why_tests_cant": "The statement quantifies over all schemas; a suite tests a few dozen.", "anchors": ["schema/generator.go:generateDDLs", "schema/generator.go:generateDDLsForCreateTable"]}
{"id": "C14", "title": "DROP TABLE is planned for exactly the tables that left the schema", "statement": "A table is dropped iff it is in the current schema and not created by the desired schema, exactly once, and a desired table is never dropped.", "quantifier": "every current and desired schema", "why_tests_cant": "Data-loss claim over all inputs.", "anchors": ["schema/generator.go:generateDDLs", "schema/generator.go:removeTableByName"]}
{"id": "C15", "title": "DROP COLUMN is planned for exactly the columns that left a kept table", "statement": "For a kept table, a column is dropped iff it is in the current and not in the desired definition; a desired column is never dropped, except on SQL Server when its current version has an IDENTITY that differs from the desired one.", "quantifier": "every pair of table definitions, in the four dialects", "why_tests_cant": "Data-loss claim over all inputs.", "anchors": ["schema/generator.go:generateDDLs", "schema/generator.go:generateDDLsForAbsentColumn"]}
{"id": "C16", "title": "ADD COLUMN is planned for exactly the new columns", "statement": "For a kept table, a column is added iff it is in the desired and not in the current definition, exactly once and in desired order (on MySQL right after its desired predecessor), except that on SQL Server a column whose desired IDENTITY differs from the current one is added too.", "quantifier": "every pair of table definitions", "why_tests_cant": "All inputs.", "anchors": ["schema/generator.go:generateDDLsForCreateTable"]}
{"id": "C17", "title": "New objects are created with the user's own text", "statement": "A table, index, policy, view or trigger absent from the current schema is created by one statement that is the user's own statement text (for views the view name and parsed definition).", "quantifier": "every schema pair", "why_tests_cant": "All inputs.", "anchors": ["schema/generator.go:generateDDLs", "schema/generator.go:generateDDLsForCreateIndex", "schema/generator.go:generateDDLsForCreatePolicy"]}
{"id": "C18", "title": "Indexes: created, re-created or dropped exactly as needed", "statement": "For a kept table an index is added iff it is new or differs from the current one of that name, dropped iff it differs or left the schema (indexes that back a unique column or a foreign key are kept), and a drop of a re-created index precedes its re-creation.", "quantifier": "every pair of table definitions, every list of index statements, each dialect", "why_tests_cant": "All inputs and order of statements.", "anchors": ["schema/generator.go:generateDDLsForCreateTable", "schema/generator.go:generateDDLsForCreateIndex", "schema/generator.go:generateDDLsForAbsentIndex"]}
{"id": "C19", "title": "Foreign keys: added, re-created or dropped exactly as needed", "statement": "For a kept table a foreign key is added iff it is new or compared different, dropped iff compared different or absent from the desired definition; all foreign key drops of the clean-up precede index and column drops of that table.", "quantifier": "every pair of table definitions", "why_tests_cant": "All inputs and order.", "anchors": ["schema/generator.go:generateDDLsForCreateTable", "schema/generator.go:generateDDLsForAbsentForeignKey"]}
{"id": "C20", "title": "A change of a foreign key's columns or target is applied", "statement": "If a foreign key of a kept table keeps its name but references other columns or another table, the plan re-creates it.", "quantifier": "every pair of foreign keys with the same name", "why_tests_cant": "Needs the comparison to be sensitive in every component.", "anchors": ["schema/generator.go:areSameForeignKeys"]}
{"id": "C21", "title": "Views: exact create/replace/drop plan", "statement": "A view is created iff new, replaced iff its definition text differs case-insensitively, dropped iff it left the schema; other views are untouched.", "quantifier": "every list of current and desired views, each dialect", "why_tests_cant": "All inputs.", "anchors": ["schema/generator.go:generateDDLsForCreateView", "schema/generator.go:generateDDLs"]}
{"id": "C22", "title": "Triggers: exact create/alter plan", "statement": "A trigger is created iff new, and replaced iff timing, event, table or body differ up to spaces and (for the body) letter case; untouched triggers produce nothing.", "quantifier": "every list of current and desired triggers, each dialect", "why_tests_cant": "All inputs.", "anchors": ["schema/generator.go:generateDDLsForCreateTrigger", "schema/generator.go:areSameTriggerDefinition"]}
{"id": "C23", "title": "A trigger that left the schema is dropped", "statement": "Objects removed from the desired schema disappear from the database; in particular triggers.", "quantifier": "every schema pair with an obsolete trigger", "why_tests_cant": "Absence of code for one object kind.", "anchors": ["schema/generator.go:generateDDLs"]}
{"id": "C24", "title": "Policies: exact create/re-create/drop plan", "statement": "A policy is created iff new for its table, dropped and re-created iff it compares different, dropped iff it left the schema.", "quantifier": "every pair of schemas with policies", "why_tests_cant": "All inputs.", "anchors": ["schema/generator.go:generateDDLsForCreatePolicy", "schema/generator.go:areSamePolicies"]}
{"id": "C25", "title": "Policy comparison sees every clause", "statement": "Two policies that differ in scope, permissiveness, roles (as a set), USING or WITH CHECK are planned to be re-created.", "quantifier": "every pair of policies", "why_tests_cant": "Needs sensitivity in every component and combination.", "anchors": ["schema/generator.go:areSamePolicies"]}
{"id": "C26", "title": "Tables do not influence each other's plan", "statement": "The statements planned for one table depend only on the current and desired statements about that table: adding, removing or changing other tables leaves them unchanged, in the same relative order.", "quantifier": "every pair of schemas and every unrelated change of them", "why_tests_cant": "A frame property over all pairs.", "anchors": ["schema/generator.go:generateDDLs"]}
{"id": "C27", "title": "Planning is total: it ends in a plan or an error, never in a crash", "statement": "For inputs satisfying the parser's guarantees planning returns a plan or an error value; it never dereferences nil, indexes out of range or aborts the process.", "quantifier": "every pair of parsed schemas", "why_tests_cant": "Crash freedom on all inputs.", "anchors": ["schema/generator.go"]}
{"id": "C28", "title": "Ill-formed schemas are rejected with an error", "statement": "Creating the same index, view, policy or trigger twice in the desired schema, or attaching an index, policy or foreign key to a table not created before it, is an error and no plan is produced; a foreign key without a constraint name on a kept table is an error.", "quantifier": "every schema containing such a defect at any position", "why_tests_cant": "All positions.", "anchors": ["schema/generator.go:generateDDLs", "schema/generator.go:convertDDLsToTables"]}
{"id": "C29", "title": "MySQL: one run reaches the desired schema and the next run is a no-op", "statement": "Executing the plan on an ideal MySQL database never fails on a missing or duplicate object, yields the desired columns (names, order, definitions), keys and foreign keys, and planning again gives the empty plan.", "quantifier": "every pair of well-formed schemas in the stated fragment", "why_tests_cant": "Convergence over all pairs and an execution semantics is out of reach of tests.", "anchors": ["schema/generator.go:generateDDLsForCreateTable", "schema/generator.go:generateDDLs"]}
{"id": "C30", "title": "PostgreSQL: one run reaches the desired schema and the next run is a no-op", "statement": "Same as C29 with PostgreSQL semantics of ALTER TABLE (types, NOT NULL, defaults, identity, primary key constraint, policies).", "quantifier": "every pair of well-formed schemas in the stated fragment", "why_tests_cant": "As C29.", "anchors": ["schema/generator.go:generateDDLsForCreateTable", "schema/generator.go:generateDDLs"]}
{"id": "C31", "title": "MySQL column order converges", "statement": "Repeatedly planning and applying reaches the desired column order, from any current order, in at most as many runs as there are desired columns; one run suffices when the kept columns are already in relative order.", "quantifier": "every pair of duplicate-free column lists", "why_tests_cant": "Induction on runs and positions.", "anchors": ["schema/generator.go:generateDDLsForCreateTable"]}
{"id": "C32", "title": "MySQL: an AUTO_INCREMENT column is keyed at every intermediate point", "statement": "When a plan that adds or removes AUTO_INCREMENT or the primary key is executed statement by statement, no intermediate table has an AUTO_INCREMENT column that is not the first column of a key.", "quantifier": "every pair of tables, every prefix of the plan", "why_tests_cant": "Every intermediate state of every plan.", "anchors": ["schema/generator.go:generateDDLsForCreateTable"]}
{"id": "C33", "title": "Changing the type and removing AUTO_INCREMENT together is applied in one run", "statement": "If a MySQL column loses AUTO_INCREMENT and changes its definition, the executed plan leaves the column with the desired definition.", "quantifier": "every pair of such columns", "why_tests_cant": "Interaction of two features.", "anchors": ["schema/generator.go:generateDDLsForCreateTable"]}
{"id": "C34", "title": "Type aliases do not cause changes", "statement": "Spelling a type by a documented alias (integer/int, boolean/tinyint on MySQL, character varying/varchar, timestamptz, ...) or in other letter case never plans a type change.", "quantifier": "every pair of columns, each dialect", "why_tests_cant": "All columns.", "anchors": ["schema/generator.go:normalizeDataType", "schema/generator.go:haveSameDataType"]}
{"id": "C35", "title": "A PostgreSQL type change installs the declared type", "statement": "If a column's type changes, the ALTER statement names the declared type including time zone, length, scale and array marker.", "quantifier": "every pair of columns", "why_tests_cant": "All attribute combinations.", "anchors": ["schema/generator.go:generateDataType", "schema/generator.go:haveSameDataType"]}
{"id": "C36", "title": "Quoted identifiers in planned SQL denote the names", "statement": "Every table, column, index and constraint name written by the planner between quotes is read back by the same lexer as that very name.", "quantifier": "every name, each dialect", "why_tests_cant": "All byte strings as names.", "anchors": ["schema/generator.go:escapeSQLName", "schema/generator.go:escapeTableName", "sqlparser/token.go"]}
{"id": "C37", "title": "A string default in planned SQL denotes the string", "statement": "DEFAULT clauses generated for string defaults are read back as the same string.", "quantifier": "every string", "why_tests_cant": "All byte strings.", "anchors": ["schema/generator.go:generateDefaultDefinition", "sqlparser/token.go:scanString"]}
{"id": "C38", "title": "Numeric defaults keep their value", "statement": "An integer or float default is written back with the same numeric value.", "quantifier": "every numeric literal", "why_tests_cant": "All literals, including large and tiny ones.", "anchors": ["schema/generator.go:generateDefaultDefinition", "schema/parser.go:parseValue"]}
{"id": "C39", "title": "The tokenizer terminates and accounts for every byte", "statement": "On every input the tokenizer yields finitely many tokens, each call consumes at least one byte or reports end of input, and it does not crash.", "quantifier": "every byte string, each dialect", "why_tests_cant": "All inputs.", "anchors": ["sqlparser/token.go:Scan", "sqlparser/token.go:Lex"]}
{"id": "C40", "title": "Keywords are recognised in any letter case", "statement": "Changing the letter case of an unquoted word does not change the token kind it is read as.", "quantifier": "every word", "why_tests_cant": "All words.", "anchors": ["sqlparser/token.go:scanIdentifier"]}
{"id": "C41", "title": "String literals written by the SQL formatter read back", "statement": "The escaped form the formatter prints for a string value is read by the tokenizer as exactly that string.", "quantifier": "every byte string", "why_tests_cant": "All byte strings.", "anchors": ["sqlparser/dependency/sqltypes", "sqlparser/token.go:scanString"]}
{"id": "C42", "title": "Connection credentials survive URL building", "statement": "The PostgreSQL connection URL decodes to the configured user, password, host and database.", "quantifier": "every configuration", "why_tests_cant": "All byte strings.", "anchors": ["adapter/postgres/postgres.go:postgresBuildDSN"]}
{"id": "C43", "title": "Column character set detection", "statement": "For a BINARY-attributed column with option charset=X the detected character set is X.", "quantifier": "every character set name", "why_tests_cant": "All names.", "anchors": ["schema/parser.go:detectCharset"]}
{"id": "C44", "title": "SQL Server: the dump of a table with several indexes is readable", "statement": "The text exported for a table with any number of secondary indexes splits into one statement per object.", "quantifier": "every number of indexes", "why_tests_cant": "Unbounded.", "anchors": ["adapter/mssql/mssql.go:buildDumpTableDDL"]}
{"id": "C45", "title": "Table names are qualified consistently", "statement": "On PostgreSQL an unqualified table name and the same name qualified by public denote the same table in both schemas; other dialects compare by plain name.", "quantifier": "every name and qualifier", "why_tests_cant": "All names.", "anchors": ["schema/parser.go:normalizedTableName"]}
{"id": "C46", "title": "SQL Server: changing IDENTITY does not lose the column", "statement": "If a SQL Server column loses or gains IDENTITY the executed plan leaves a column of that name.", "quantifier": "every schema with such a column", "why_tests_cant": "All tables and columns; the plan of a single column looks plausible in isolation.", "anchors": ["schema/generator.go:generateDDLsForCreateTable"]}
{"id": "C47", "title": "Existing columns are changed exactly as needed", "statement": "For every column both versions of a table have, the plan contains exactly the changes its dialect needs: MySQL one CHANGE COLUMN iff type, nullability, charset, collation, ON UPDATE, CHECK, default or (by the displacement rule) position differ, plus a unique key iff it became unique; PostgreSQL ALTER TYPE / NOT NULL / IDENTITY / DEFAULT / CHECK each iff that aspect differs; SQL Server DEFAULT and CHECK; SQLite nothing; AUTO_INCREMENT is removed before and added after the key changes.", "quantifier": "every pair of tables, every dialect", "why_tests_cant": "All combinations of attributes, all positions.", "anchors": ["schema/generator.go:generateDDLsForCreateTable", "schema/generator.go:haveSameColumnDefinition"]}
{"id": "C48", "title": "The primary key is changed exactly as needed", "statement": "For a kept table the primary key is dropped (MySQL, PostgreSQL) and the desired one added iff the two differ in columns, direction or options; SQL Server drops an obsolete primary key constraint in the clean-up iff no desired column is marked PRIMARY KEY.", "quantifier": "every pair of tables, every dialect", "why_tests_cant": "All key column lists.", "anchors": ["schema/generator.go:generateDDLsForCreateTable", "schema/generator.go:generateDDLsForAbsentIndex"]}
{"id": "C49", "title": "Every planned statement is the SQL of its operation", "statement": "The text of every planned statement is exactly the dialect's SQL for the operation the planner decided on: the words of the manual, names quoted, types with length, scale and array marker, defaults, keys, options, in the right order and separated by single spaces.", "quantifier": "every current and desired schema, every dialect, every operation", "why_tests_cant": "All names, attribute combinations and dialects.", "anchors": ["schema/generator.go:generateColumnDefinition", "schema/generator.go:generateAddIndex", "schema/generator.go:generateForeignKeyDefinition", "schema/generator.go:escapeSQLName"]}
{"id": "C50", "title": "--skip-drop sends only statements that can run and lose nothing", "statement": "With --skip-drop the statements sent do not take away a default, NOT NULL or key definition, and do not create an object whose old version was kept.", "quantifier": "every current and desired schema", "why_tests_cant": "All schemas; needs the interplay of the planner's statement pairs with the filter.", "anchors": ["adapter/database.go:RunDDLs", "schema/generator.go:generateDDLsForCreateTable"]}
{"id": "C51", "title": "The tokens read from a text are those of the lexical grammar", "statement": "The tokenizer reads a text as a list of tokens without a lexical error exactly when the lexical grammar (words, keywords, quoted names, strings with escapes, numbers, operators, comments, comments for MySQL only) derives that list from the text.", "quantifier": "every byte string, each dialect", "why_tests_cant": "All inputs; both directions, with the longest-match and follow conditions.", "anchors": ["sqlparser/token.go:Scan", "sqlparser/token.go:Lex", "sqlparser/comments.go:ExtractMysqlComment"]}
{"id": "C52", "title": "Names written by the SQL formatter read back", "statement": "A name printed by the formatter (views, policies, checks, generated columns) is read by the tokenizer of the same dialect as that very name.", "quantifier": "every ASCII name, each dialect", "why_tests_cant": "All names, keywords included.", "anchors": ["sqlparser/ast.go:formatID", "sqlparser/token.go:scanIdentifier"]}
{"id": "C53", "title": "Bit defaults keep their value", "statement": "A bit string default is written back as the same bit string.", "quantifier": "every bit string", "why_tests_cant": "All bit strings.", "anchors": ["schema/parser.go:parseValue", "schema/generator.go:generateDefaultDefinition"]}
{"id": "C54", "title": "The PostgreSQL export splits into the statements of its objects", "statement": "The text exported for a whole PostgreSQL database is split into exactly the statements written for its tables, indexes, foreign keys, policies and views, in order.", "quantifier": "every database whose texts hold no semicolons, line breaks or comment lines", "why_tests_cant": "All databases.", "anchors": ["adapter/postgres/postgres.go:buildDumpTableDDL", "adapter/database.go:DumpDDLs", "schema/parser.go:parseDDLs"]}
{"id": "C55", "title": "Every PostgreSQL column is exported once and as it is", "statement": "The export of a table has one row per column, in order, with its name, type, length, nullability, default, uniqueness, check and identity.", "quantifier": "every database", "why_tests_cant": "All catalogues, including tables of the same name in other schemas and several constraints per column.", "anchors": ["adapter/postgres/postgres.go:getColumns"]}
{"id": "C56", "title": "The PostgreSQL primary key is exported as declared", "statement": "The exported PRIMARY KEY clause lists the key columns in their order; tables without a key get none.", "quantifier": "every database", "why_tests_cant": "All catalogues; constraint names need not be unique.", "anchors": ["adapter/postgres/postgres.go:getPrimaryKeyColumns"]}
{"id": "C57", "title": "PostgreSQL foreign keys are exported as declared", "statement": "For every foreign key of a table there is exactly one exported ALTER TABLE ... ADD CONSTRAINT with its columns, target and actions.", "quantifier": "every database", "why_tests_cant": "All catalogues; constraint names need not be unique.", "anchors": ["adapter/postgres/postgres.go:getForeginDefs"]}
{"id": "C58", "title": "PostgreSQL indexes are exported once", "statement": "Every index that does not belong to the primary key is exported as its own statement, and none that does.", "quantifier": "every table", "why_tests_cant": "All index names.", "anchors": ["adapter/postgres/postgres.go:getIndexDefs"]}
{"id": "C59", "title": "MySQL triggers survive export", "statement": "The exported text of a trigger is read back as one statement with its body.", "quantifier": "every trigger", "why_tests_cant": "All bodies.", "anchors": ["adapter/mysql/mysql.go:Triggers", "schema/parser.go:parseDDLs"]}
{"id": "C60", "title": "SQLite objects are exported", "statement": "Every table, index and view the user created is in the export; SQLite's own tables are not.", "quantifier": "every sqlite_master", "why_tests_cant": "All names.", "anchors": ["adapter/sqlite3/sqlite3.go:TableNames", "adapter/sqlite3/sqlite3.go:DumpTableDDL", "adapter/sqlite3/sqlite3.go:Views"]}
{"id": "C61", "title": "PostgreSQL views are exported with their definition", "statement": "The export has one CREATE VIEW per view whose definition is the one the database prints, up to white space between words.", "quantifier": "every set of views", "why_tests_cant": "All definitions, including literals and names in several schemas.", "anchors": ["adapter/postgres/postgres.go:Views"]}
{"id": "C62", "title": "SQL Server column types are exported completely", "statement": "The exported type of a column includes its length or precision.", "quantifier": "every column", "why_tests_cant": "All types.", "anchors": ["adapter/mssql/mssql.go:buildDumpTableDDL"]}
{"id": "C63", "title": "Exporting the same SQL Server database twice gives the same text", "statement": "The export text is a function of the database.", "quantifier": "every database, every iteration order of Go maps", "why_tests_cant": "Map order is random.", "anchors": ["adapter/mssql/mssql.go:getIndexDefs"]}
{"id": "C64", "title": "CHECK constraints keep their names", "statement": "The name under which the planner knows a CHECK constraint is the declared one.", "quantifier": "every name", "why_tests_cant": "All names.", "anchors": ["schema/parser.go:parseTable", "sqlparser/ast.go:formatID"]}
{"id": "C65", "title": "The SQL parser ends on every text and never crashes", "statement": "For every text, the SQL parser accepts or rejects after finitely many steps, without an index out of range, a value of the wrong kind or a nil dereference.", "quantifier": "every mode and text", "why_tests_cant": "All texts; the parser is a table of thousands of states.", "anchors": ["sqlparser/parser.go:yyParserImpl.Parse", "sqlparser/parser.y", "sqlparser/ast.go:ParseStrictDDLWithMode"]}
{"id": "C66", "title": "Nothing in an accepted statement is ignored", "statement": "If a statement is accepted, all its words (but comments) are derived from the grammar, and the declared object is the value the grammar gives them: no word is skipped.", "quantifier": "every mode and text", "why_tests_cant": "All texts; the parser has error recovery and skips to the end of unknown statements.", "anchors": ["sqlparser/parser.y:skip_to_end", "sqlparser/parser.go:yyParserImpl.Parse", "schema/parser.go:parseDDL"]}
{"id": "C67", "title": "Layout, letter case of keywords and comments do not matter", "statement": "Two texts with the same words declare the same object, apart from the copy of the text kept for CREATE statements.", "quantifier": "every mode and every two texts of the same words", "why_tests_cant": "All texts.", "anchors": ["sqlparser/token.go:Scan", "sqlparser/parser.go:yyParserImpl.Parse", "schema/parser.go:parseDDL"]}
{"id": "C68", "title": "The default written in the schema is the default planned", "statement": "When a column with a DEFAULT is added, the planned ADD COLUMN declares that default.", "quantifier": "every schema file", "why_tests_cant": "All default expressions.", "anchors": ["sqlparser/parser.y:column_type", "schema/parser.go:parseValue", "schema/generator.go:generateDefaultDefinition"]}
{"id": "C69", "title": "Names are compared as the database compares them", "statement": "Two spellings of one name (unquoted names in other letter case) never plan a DROP and a CREATE.", "quantifier": "every two schema files that declare the same objects", "why_tests_cant": "All spellings.", "anchors": ["schema/generator.go:findTableByName", "schema/generator.go:findColumnByName"]}
{"id": "C70", "title": "A change of an index is noticed", "statement": "If an index of the same name is declared differently (method, prefix length, clustering), a statement is planned.", "quantifier": "every pair of schema files", "why_tests_cant": "All combinations of index options.", "anchors": ["schema/generator.go:areSameIndexes", "schema/generator.go:areSamePrimaryKeys"]}
{"id": "C71", "title": "A foreign key refers to the table it names", "statement": "A planned foreign key names the schema of the table it refers to, and keys that refer to tables in different schemas are different.", "quantifier": "every pair of schema files", "why_tests_cant": "All names.", "anchors": ["schema/parser.go:parseTable", "schema/generator.go:generateForeignKeyDefinition"]}
{"id": "C72", "title": "The planned definition of a view or check is the one written", "statement": "A view or check planned from a parsed definition is SQL of the database in use and means what was written.", "quantifier": "every pair of schema files", "why_tests_cant": "All expressions.", "anchors": ["sqlparser/ast.go:Format", "schema/generator.go:generateDDLsForCreateView"]}
{"id": "C73", "title": "A planned column has the declared type", "statement": "ADD COLUMN declares the type of the schema file, with all its parameters.", "quantifier": "every pair of schema files", "why_tests_cant": "All types.", "anchors": ["schema/generator.go:generateDataType", "schema/parser.go:parseTable"]}
{"id": "C74", "title": "A change of a column or of table options is noticed", "statement": "If a column's type, nullability or comment or a table's options differ, a statement is planned.", "quantifier": "every pair of schema files", "why_tests_cant": "All pairs.", "anchors": ["schema/generator.go:generateDDLsForCreateTable", "schema/generator.go:haveSameColumnDefinition"]}
{"id": "C75", "title": "Valid schema files are accepted", "statement": "A statement the database accepts is accepted by the planner.", "quantifier": "every schema file", "why_tests_cant": "All statements of four dialects.", "anchors": ["sqlparser/parser.y", "adapter/database.go", "schema/parser.go:parseDDLs"]}
{"id": "C76", "title": "Every planned statement can be executed", "statement": "Each statement of a plan is not empty and is accepted by the database in the state the earlier ones leave.", "quantifier": "every pair of schema files", "why_tests_cant": "All pairs.", "anchors": ["schema/generator.go:generateDropIndex", "schema/generator.go:generateDDLsForCreateTable"]}
{"id": "C77", "title": "What PostgreSQL exports is read back as the database", "statement": "Reading the text that psqldef exports of a database gives the definitions of exactly the tables, columns, keys, indexes, foreign keys, policies and views of that database; nothing of the spelling of the exported statements influences a plan.", "quantifier": "every PostgreSQL database", "why_tests_cant": "Quantifies over all databases.", "anchors": ["adapter/postgres/postgres.go:DumpTableDDL", "schema/parser.go:ParseDDLs", "sqlparser/parser.y"]}
{"id": "C78", "title": "One's own export changes nothing", "statement": "A database's own export, used as the desired schema file for that database, gives an empty plan.", "quantifier": "every PostgreSQL database", "why_tests_cant": "Quantifies over all databases.", "anchors": ["adapter/database.go:DumpDDLs", "schema/generator.go:GenerateIdempotentDDLs"]}
{"id": "C79", "title": "From schema file and database to the schema", "statement": "Given the text of a schema file and a PostgreSQL database, executing the texts that psqldef plans from the file and the database's export brings the database to the schema in the file, and the next run plans nothing.", "quantifier": "every schema file and every PostgreSQL database", "why_tests_cant": "Quantifies over all files and databases; tests try selected pairs.", "anchors": ["cmd/psqldef", "sqldef.go:Run", "schema/generator.go:GenerateIdempotentDDLs", "adapter/postgres/postgres.go"]}
{"id": "C80", "title": "What MySQL exports is read back as the database", "statement": "Reading the text that mysqldef exports of a database gives the definitions of exactly the tables, columns, keys, foreign keys, views and triggers of that database.", "quantifier": "every MySQL database", "why_tests_cant": "Quantifies over all databases.", "anchors": ["adapter/mysql/mysql.go:DumpTableDDL", "adapter/mysql/mysql.go:Views", "adapter/mysql/mysql.go:Triggers", "schema/parser.go:ParseDDLs", "sqlparser/parser.y"]}
{"id": "C81", "title": "One's own MySQL export changes nothing", "statement": "A MySQL database's own export, used as the desired schema file for that database, gives an empty plan.", "quantifier": "every MySQL database", "why_tests_cant": "Quantifies over all databases.", "anchors": ["adapter/database.go:DumpDDLs", "schema/generator.go:GenerateIdempotentDDLs"]}
{"id": "C82", "title": "From schema file and MySQL database to the schema", "statement": "Given the text of a schema file and a MySQL database, executing the texts that mysqldef plans from the file and the database's export brings the database to the schema in the file, and the next run plans nothing.", "quantifier": "every schema file and every MySQL database", "why_tests_cant": "Quantifies over all files and databases; tests try selected pairs.", "anchors": ["cmd/mysqldef", "sqldef.go:Run", "schema/generator.go:GenerateIdempotentDDLs", "adapter/mysql/mysql.go"]}
{"id": "C83", "title": "One's own SQLite export changes nothing", "statement": "A SQLite database's own export, used as the desired schema file for that database, gives an empty plan.", "quantifier": "every SQLite database", "why_tests_cant": "Quantifies over all databases.", "anchors": ["adapter/sqlite3/sqlite3.go", "adapter/database.go:DumpDDLs", "schema/generator.go:GenerateIdempotentDDLs"]}
{"id": "C84", "title": "From schema file and SQLite database to the schema", "statement": "Given the text of a schema file and a SQLite database, SQLite accepts every statement that sqlite3def plans from the file and the database's export; executed, they bring the database to the tables and views of the file and no others, and the next run plans nothing.", "quantifier": "every schema file and every SQLite database", "why_tests_cant": "Quantifies over all files and databases; tests try selected pairs.", "anchors": ["cmd/sqlite3def", "sqldef.go:Run", "schema/generator.go:GenerateIdempotentDDLs", "adapter/sqlite3/sqlite3.go"]}
{"id": "C85", "title": "What SQL Server exports is read back as the database", "statement": "Reading the text that mssqldef exports of a database gives the definitions of exactly the tables, columns, indexes, foreign keys, views and triggers of that database, whatever the iteration order of Go maps.", "quantifier": "every SQL Server database", "why_tests_cant": "Quantifies over all databases.", "anchors": ["adapter/mssql/mssql.go:DumpTableDDL", "adapter/mssql/mssql.go:getIndexDefs", "adapter/mssql/mssql.go:Views", "adapter/mssql/mssql.go:Triggers", "schema/parser.go:ParseDDLs", "sqlparser/parser.y"]}
{"id": "C86", "title": "One's own SQL Server export changes nothing", "statement": "A SQL Server database's own export, made now or earlier, used as the desired schema file for that database, gives an empty plan.", "quantifier": "every SQL Server database, every iteration order of Go maps", "why_tests_cant": "Quantifies over all databases; map order is random.", "anchors": ["adapter/database.go:DumpDDLs", "schema/generator.go:GenerateIdempotentDDLs"]}
{"id": "C87", "title": "From schema file and SQL Server database to the schema", "statement": "Given the text of a schema file and a SQL Server database, the texts that mssqldef plans from the file and the database's export are those for the database's own definitions; executed, they bring the database to the schema in the file.", "quantifier": "every schema file and every SQL Server database", "why_tests_cant": "Quantifies over all files and databases; tests try selected pairs.", "anchors": ["cmd/mssqldef", "sqldef.go:Run", "schema/generator.go:generateDDLsForCreateTable", "adapter/mssql/mssql.go"]}
{"id": "C88", "title": "SQL Server: one run reaches the desired schema and the next run is a no-op", "statement": "Executing the plan mssqldef makes for a desired schema and a SQL Server database is accepted by the server statement by statement and leaves a database that has the desired schema: its tables, columns with types, NOT NULL, identities, defaults and checks, primary keys, indexes, foreign keys, views and triggers, and no others. A second run plans nothing.", "quantifier": "every desired schema and every SQL Server database, every way the server has of naming constraints and keeping expressions", "why_tests_cant": "Quantifies over all pairs of schema and database; tests run selected pairs.", "anchors": ["schema/generator.go:generateDDLsForCreateTable", "schema/generator.go:generateDDLsForCreateIndex", "schema/generator.go:GenerateIdempotentDDLs", "cmd/mssqldef"]}
{"id": "C89", "title": "What sqldef sends to MySQL is said in MySQL's own words", "statement": "A statement mysqldef plans to add, change or drop a column, key or foreign key has, word for word, the form ALTER TABLE documents, with the definition as SHOW CREATE TABLE shows it for the same column, key or foreign key; and the definitions sent for a table, put together in a CREATE TABLE, are read by sqldef itself as that table: nothing is lost or changed in writing.", "quantifier": "every pair of schemas and every statement of the plan", "why_tests_cant": "Quantifies over all definitions MySQL can show; tests compare selected statements with their expected texts.", "anchors": ["schema/generator.go:generateColumnDefinition", "schema/generator.go:generateAddIndex", "schema/generator.go:generateForeignKeyDefinition", "schema/generator.go:generateDataType", "schema/generator.go:generateDefaultDefinition"]}
{"id": "C90", "title": "A command line means what its words say", "statement": "A database is opened only when the line consists of documented options and exactly one database name and asks for neither help nor version; otherwise nothing is contacted, read or changed and the exit code is 0 exactly for help and version. The server, port, user and database connected to are those given last (or the documented defaults), the password is the one typed at the prompt, else the one of the environment variable, else the option, and --file, --dry-run, --export and --skip-drop reach the run. Neither the order of the options nor the way they are spelled (-uX, -u X, -u=X, --user X, --user=X) matters. mysqldef takes options as mysql(1) does.", "quantifier": "every command, argument list, environment, standard input and database", "why_tests_cant": "Quantifies over all argument lists and environments; the commands' main functions have no unit tests of their own.", "anchors": ["cmd/mysqldef/mysqldef.go:parseOptions", "cmd/psqldef/psqldef.go:parseOptions", "cmd/mssqldef/mssqldef.go:parseOptions", "cmd/sqlite3def/sqlite3def.go:parseOptions", "adapter/mysql/mysql.go:mysqlBuildDSN"]}
{"id": "C91", "title": "--dry-run, --export and --skip-drop count wherever they stand on the line", "statement": "If the word --dry-run or --export is anywhere among the arguments, the command begins no transaction and executes nothing; if --skip-drop is, no statement containing DROP is sent. No other argument can swallow the word.", "quantifier": "every command, argument list, environment and database", "why_tests_cant": "Quantifies over all argument lists and databases.", "anchors": ["cmd/mysqldef/mysqldef.go:parseOptions", "sqldef.go:Run", "adapter/database.go:RunDDLs"]}
{"id": "C92", "title": "A password prompt and a schema on standard input exclude each other safely", "statement": "With --password-prompt and without --file (and without --export) the command fails with exit code 1 and changes nothing, whatever standard input is: the prompt needs a terminal and the schema needs a pipe.", "quantifier": "every such command line, environment, standard input and database", "why_tests_cant": "Depends on the interplay of the prompt, readFile and the kind of standard input, which no test sets up.", "anchors": ["cmd/mysqldef/mysqldef.go:parseOptions", "sqldef.go:readFile"]}
{"id": "C93", "title": "The SQL Server URL denotes the configuration", "statement": "Reading the URL mssqldef builds, as net/url and the driver do, gives back the configured user, password, host, port and database, whatever characters they contain.", "quantifier": "every configuration", "why_tests_cant": "Quantifies over all strings.", "anchors": ["adapter/mssql/mssql.go:mssqlBuildDSN"]}
{"id": "C94", "title": "Nothing in a plan is made up", "statement": "Every definition a planned statement contains comes from the schema file: columns added or changed, types, defaults, NOT NULL, checks, identities, indexes, keys, foreign keys, views and triggers are those the file gives the table of that statement; the one exception is taking AUTO_INCREMENT from a column as the database has it.", "quantifier": "every dialect, every pair of parsed schemas", "why_tests_cant": "Quantifies over all schemas and all plans.", "anchors": ["schema/generator.go:generateDDLsForCreateTable", "schema/generator.go:generateDDLs"]}
{"id": "C95", "title": "The catalogue queries tell the database", "statement": "From the rows its queries find in the sys views, however the server orders them, mssqldef exports a text that reads as the database those views describe: every table, column, default, identity, check, key with its columns in their order, foreign key, view and trigger. A run then reaches the schema of the file, and the next one plans nothing.", "quantifier": "every SQL Server database, every order of the rows of each answer", "why_tests_cant": "The order of rows without ORDER BY is the server's; the statement is about all of them and all databases.", "anchors": ["adapter/mssql/mssql.go:getColumns", "adapter/mssql/mssql.go:getIndexDefs", "adapter/mssql/mssql.go:getForeignDefs", "adapter/mssql/mssql.go:Views"]}
{"id": "C96", "title": "One run is enough, the second does nothing", "statement": "Running the command with a schema file reads the catalogue and the file and then either stops with a non-zero status without having sent a statement, or sends all statements of its plan in one transaction, commits, exits with 0 and leaves the database with the schema of the file. Run again on what it left, it prints \"-- Nothing is modified --\", sends nothing and exits with 0.", "quantifier": "every dialect, every database and file within the conditions of the convergence theorems, every server that does what the statements say", "why_tests_cant": "Needs the whole path from catalogue answers over export, parser, planner and transaction loop to the state of a server, for all of them, and twice.", "anchors": ["sqldef.go:Run", "adapter/database.go:DumpDDLs", "adapter/database.go:RunDDLs", "schema/generator.go:GenerateIdempotentDDLs"]}
{"id": "C97", "title": "CLUSTERED on SQL Server is what the file says", "statement": "On SQL Server, whenever an index or a primary key is added to an existing table, the statement says CLUSTERED if and only if the file asks for it: by the word CLUSTERED, or, for a primary key, by saying neither CLUSTERED nor NONCLUSTERED. A run never asks for a second clustered index on a table, and a change of the word in the file is carried out.", "quantifier": "for all desired and current schemas, every added index and key", "why_tests_cant": "The word comes from the parser's defaults and passes through the planner; tests name a few combinations only, and a second clustered index is rejected by the server, not by the tool.", "anchors": ["schema/generator.go:generateAddIndex", "schema/generator.go:areSameIndexes", "sqlparser/parser.y:clustered_opt"]}
{"id": "C98", "title": "A sound schema file is planned, not refused", "statement": "For every schema file that is valid SQL, refers to tables after they are created and names its objects once, and for every database, sqldef finds a plan: it does not end with an error. On MySQL, PostgreSQL and SQL Server the run is then applied and the database has the schema of the file.", "quantifier": "for all dialects, desired and current schemas; all servers and files", "why_tests_cant": "Whether planning can fail depends on every definition of both schemas and on their order; a planner that refuses everything passes any test of the form 'if there is a plan then ...'.", "anchors": ["schema/generator.go:generateDDLs", "schema/generator.go:generateDefaultDefinition", "schema/generator.go:generateDDLsForAbsentIndex", "schema/generator.go:convertDDLsToTables", "sqldef.go:Run"]}
{"id": "C99", "title": "An error of the planner names a real fault", "statement": "When sqldef refuses to plan, the error it gives is true: an object said to be created twice is declared earlier in the file for the same table, a table said not to exist is neither in the database nor created before, a column, default or foreign key said to be unsupported is one of the named table, and a primary key said to be renamed begins with another column than the one declared. Table names, object names and statements in the message are those of the fault.", "quantifier": "for all dialects, desired and current schemas, however malformed", "why_tests_cant": "The errors depend on everything simulated so far; tests pin a few messages for one file each, not that no sound statement is ever blamed.", "anchors": ["schema/generator.go:generateDDLsForCreateIndex", "schema/generator.go:generateDDLsForAddForeignKey", "schema/generator.go:generateDDLsForCreatePolicy", "schema/generator.go:generateDDLsForCreateView", "schema/generator.go:generateDDLsForAbsentIndex", "schema/generator.go:convertDDLsToTables"]}
{"id": "C100", "title": "A line typed applies its file to its database, and typed again does nothing", "statement": "Typing mysqldef, psqldef, mssqldef or sqlite3def with options that name a database and a schema file, without --dry-run, --export or --skip-drop, opens that database and no other, brings it to the schema of the file in one committed transaction and exits with 0. Typing a line that names the same database and file again, in any order and style of the options, opens the same database, sends nothing, prints that nothing is modified and exits with 0.", "quantifier": "for all command lines, machines, servers, databases and files in the domain of the dialect", "why_tests_cant": "Joins the command line, the export, the parser, the planner and the execution; tests use one line, one server version and a few files.", "anchors": ["cmd/mysqldef/mysqldef.go:main", "cmd/psqldef/psqldef.go:main", "cmd/mssqldef/mssqldef.go:main", "cmd/sqlite3def/sqlite3def.go:main", "sqldef.go:Run", "adapter/database.go:RunDDLs", "schema/generator.go:GenerateIdempotentDDLs"]}
{"id": "C101", "title": "A database is copied by its export", "statement": "Applying the export of a database to an empty database makes the empty one equal to the first: the same tables in the same order with the same columns, keys, indexes, foreign keys and policies, the same views and the same triggers; every statement is accepted, in one committed transaction, and the command exits with 0.", "quantifier": "for all databases, command lines, machines and servers that refuse references to tables that are not there", "why_tests_cant": "Needs the texts of the export to be read back, planned for an empty catalogue and executed in an order in which every reference is met; tests export small tables and compare texts, they never rebuild a database from its export.", "anchors": ["adapter/database.go:DumpDDLs", "sqldef.go:Run", "schema/generator.go:generateDDLs", "schema/generator.go:generateDDLsForAddForeignKey", "schema/generator.go:generateDDLsForCreateIndex", "adapter/mysql/mysql.go:DumpTableDDL", "adapter/postgres/postgres.go:DumpTableDDL", "adapter/sqlite3/sqlite3.go:DumpTableDDL", "adapter/mssql/mssql.go:buildDumpTableDDL", "adapter/mssql/mssql.go:getIndexDefs"]}
{"id": "C102", "title": "Databases brought to the same file agree", "statement": "Two databases to which the same schema file is applied end with the same tables, columns, types, defaults, keys, indexes, foreign keys, policies, views and triggers, whatever earlier files left in them: applying a file after any history gives what applying it to an empty database gives.", "quantifier": "for all schema files and all pairs of databases", "why_tests_cant": "Needs two histories to be compared for the same file; tests apply a file to one prepared database and look at the statements, so they cannot see what an earlier file left behind.", "anchors": ["schema/generator.go:generateDDLs", "schema/generator.go:haveSameColumnDefinition", "schema/generator.go:haveSameDataType", "schema/generator.go:areSameIndexes", "schema/generator.go:areSameForeignKeys", "schema/generator.go:generateDDLsForAbsentIndex"]}
{"id": "C103", "title": "The order of the statements of a file does not matter", "statement": "Rearranging the statements of a schema file, each statement about a table still after the CREATE TABLE of that table, does not change what applying it leads to: the two databases agree on everything the file says, and once one arrangement has been applied, the other changes nothing.", "quantifier": "for all schema files, all their arrangements and all databases", "why_tests_cant": "A planner that simulates the file statement by statement can depend on the order in many ways; the number of arrangements is factorial and tests fix one of them.", "anchors": ["schema/generator.go:generateDDLs", "schema/generator.go:generateDDLsForCreateTable", "schema/generator.go:generateDDLsForCreateIndex", "schema/generator.go:mergeTable", "schema/generator.go:convertDDLsToTables"]}
{"id": "C104", "title": "Only the last file applied counts", "statement": "After any sequence of schema files has been applied to a database, what the last file says of tables, columns, keys, indexes, foreign keys, views and triggers is the same as after any other sequence, on any other database, that ends with this file. In particular applying an earlier file again undoes what the later files changed.", "quantifier": "for all sequences of schema files of any length and all databases", "why_tests_cant": "Speaks about histories of any length; tests apply at most two or three files to one database.", "anchors": ["schema/generator.go:generateDDLs", "schema/generator.go:generateDDLsForCreateTable", "schema/generator.go:generateDDLsForAbsentIndex", "schema/generator.go:haveSameColumnDefinition", "sqldef.go:Run"]}
{"id": "C105", "title": "Editing one object of a file touches no other", "statement": "When a database agrees with its schema file and the file is edited, a table or view of which the edited file says the same is not named by any planned statement; at every point of the run, also when it stops early, that table is exactly as it was.", "quantifier": "for all dialects, files, edits, databases and prefixes of the plan", "why_tests_cant": "What must not happen ranges over all other objects and all points of the run; tests compare the plan of one edit with an expected text.", "anchors": ["schema/generator.go:generateDDLs", "schema/generator.go:generateDDLsForCreateTable", "schema/generator.go:generateDDLsForCreateView", "schema/generator.go:findTableByName", "schema/generator.go:convertDDLsToTables"]}
{"id": "C106", "title": "A run that stopped is resumed by running again", "statement": "When a run of a schema file stops after any of its statements, any number of times, the next run of the same file is planned, every statement of it is accepted, and at its end the database has the schema of the file.", "quantifier": "for all files, databases, points at which a run stops, and numbers of stopped runs", "why_tests_cant": "Every point of every plan, and plans made for half-changed databases, which no test fixture contains.", "anchors": ["schema/generator.go:generateDDLs", "schema/generator.go:generateDDLsForCreateView", "adapter/database.go:RunDDLs", "sqldef.go:Run"]}
