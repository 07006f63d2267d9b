(** Properties C85 to C87: what sqldef reads in the export of a SQL Server database is that
    database, an export applied to its own database changes nothing, and a plan is made for what
    the database has. *)
From Coq Require Import String Ascii List ZArith Bool.
From Verif Require Import GoStr GoStrFacts Ast Generator Catalog AdapterMssql ExportMssql SchemaText SchemaParse Parser Planner SpecPlan SpecLayout SpecDatabase
  SpecShown SpecShownMssql SpecMssql SpecConvergeMs DemoReadBack DemoReadMssql DemoConvergeMs ProofReadMsExport ProofMsEndToEnd ProofMsSettle ProofMsTexts.
Import ListNotations.
Local Open Scope string_scope.
Local Open Scope list_scope.

(** ** C85: the export is read back as the database *)

(** [mq_readable] says which databases: the types, defaults, identities, checks, keys and foreign
    keys of SpecShownMssql in any combination, at most one index beside the primary key; views and
    triggers of one form.  [mq_server] is what SQL Server says of them.  An export is any text
    [DumpDDLs] may give: Go does not fix the order of the indexes.  The full statement asks this
    of every database; it is false, see below. *)
Theorem C85_sql_server_export_is_read_back_partial d text :
  mq_readable d = true -> ms_dump (mq_server d) text ->
  exists l, parse_file Mssql text = Ok l /\ map without_text l = mq_definitions d.
Proof. exact (ms_dump_read d text). Qed.
Print Assumptions C85_sql_server_export_is_read_back_partial.

Example C85_example :
  mq_readable shop = true /\ ms_dump (mq_server shop) (ms_export (mq_server shop)) /\
  ms_view_text (mq_view_text (hd (mkMqView (mkShownView "" "" [] "" None) "" false) (mqd_views shop))) =
    "CREATE VIEW [dbo].[people] AS SELECT [users].[id], [users].[name] FROM [users] WHERE ([age]>(17))" /\
  ms_build_dump "sales.orders" [mkMsColumn "id" "int" "4" false None None None] [] [] = ("CREATE TABLE sales.orders (" ++ nl ++ "    id int NOT NULL" ++ nl ++ ")")%string /\
  List.length (mq_definitions shop) = 5 /\
  nth 3 (mq_definitions shop) (DView (mkView "" "" "")) = DView (mkView "" "people" "select users.id, users.name from users where (age > (17))").
Proof. split; [exact shop_readable|]. split; [exact (ms_export_is _)|]. repeat split; vm_compute; reflexivity. Qed.

(** One column of these types, or with one of these names, and no export of the database is read. *)
Theorem C85_columns_refuted : forall c text,
  In c (map (fun t => row "b" t "16") ["uniqueidentifier"; "xml"; "image"; "hierarchyid"; "geography"; "sql_variant"; "sysname"] ++
        map (fun n => row n "int" "4") ["order"; "my col"; "2nd"; "key"; "status"; "text"; "date"; "level"]) ->
  ms_dump (with_column c) text -> fails (parse_file Mssql text) = true.
Proof.
  intros c text H D. apply ms_export_only in D; [|reflexivity]. subst text. repeat (destruct H as [<-|H]; [vm_compute; reflexivity|]). destruct H.
Qed.
Print Assumptions C85_columns_refuted.

(** So with these defaults and checks. *)
Theorem C85_expressions_refuted :
  (forall v text, In v ["(newid())"; "(N'x')"; "(CONVERT([date],getdate()))"; "((1)+(2))"; "(0x00)"; "(user_name())"; "(sysdatetime())"; "(getutcdate())"; "('a;b')"] ->
    ms_dump (with_default "d" v) text -> fails (parse_file Mssql text) = true) /\
  (forall n text, In n ["default"; "my default"] -> ms_dump (with_default n "((1))") text -> fails (parse_file Mssql text) = true) /\
  (forall v text, In v ["([b]=N'x')"; "([b]=';')"] -> ms_dump (with_check "c" v) text -> fails (parse_file Mssql text) = true).
Proof.
  split; [|split]; intros x text H D; (apply ms_export_only in D; [|reflexivity]); subst text; (repeat (destruct H as [<-|H]; [vm_compute; reflexivity|])); destruct H.
Qed.
Print Assumptions C85_expressions_refuted.

(** So with these views and triggers. *)
Theorem C85_modules_refuted :
  (forall v text, In v ["CREATE VIEW v WITH SCHEMABINDING AS select a from dbo.t"; "CREATE VIEW v (x) AS select a from t"; "CREATE VIEW v AS select top 1 a from t";
                        "CREATE VIEW v AS" ++ nl ++ "select a from t"]%string ->
    ms_dump (with_view v) text -> fails (parse_file Mssql text) = true) /\
  (forall v text, In v ["CREATE TRIGGER [dbo].[x] ON [dbo].[t] AFTER INSERT AS delete from u"; "CREATE TRIGGER x ON t AFTER INSERT, UPDATE AS delete from u";
                        "CREATE TRIGGER x ON t AFTER INSERT AS BEGIN delete from u END"; "CREATE TRIGGER x ON t INSTEAD OF DELETE AS delete from u"] ->
    ms_dump (with_trigger v) text -> fails (parse_file Mssql text) = true).
Proof.
  split; intros x text H D; (apply ms_export_only in D; [|reflexivity]); subst text; (repeat (destruct H as [<-|H]; [vm_compute; reflexivity|])); destruct H.
Qed.
Print Assumptions C85_modules_refuted.

(** The export puts the lines of a view together: a view of two lines, in the database as it
    stands in the file, is read as another one and made anew by every run. *)
Theorem C85_lines_of_views_refuted : exists v text,
  ms_dump (with_view v) text /\ v = ("CREATE VIEW v AS select a" ++ nl ++ "from t")%string /\
  text = "CREATE VIEW v AS select afrom t" /\
  plan_text Mssql v text = Ok ["DROP VIEW [dbo].[v]"; "CREATE VIEW [dbo].[v] AS select a from t"].
Proof. eexists _, _. split; [apply ms_export_is|]. split; [reflexivity|]. split; vm_compute; reflexivity. Qed.
Print Assumptions C85_lines_of_views_refuted.

(** ** C86: one's own export changes nothing *)

(** [mq_consistent] holds of every database: names are used once.  The export may have been made
    earlier, with the indexes in another order. *)
Theorem C86_own_sql_server_export_changes_nothing_partial d earlier text :
  mq_readable d = true -> mq_consistent d = true -> ms_dump (mq_server d) earlier -> ms_dump (mq_server d) text ->
  plan_text Mssql earlier text = Ok [].
Proof. exact (fun R C E D => ms_own_export d text R D earlier C E). Qed.
Print Assumptions C86_own_sql_server_export_changes_nothing_partial.

Example C86_example :
  mq_readable shop = true /\ mq_consistent shop = true /\ ms_dump (mq_server shop) (ms_export (mq_server shop)).
Proof. split; [exact shop_readable|]. split; [exact shop_consistent|]. exact (ms_export_is _). Qed.

(** ** C87: a plan is made for what the database has *)

(** The texts planned are those of a plan against the definitions of the database. *)
Theorem C87_sql_server_plan_is_made_for_the_database_partial d current desired l texts :
  mq_readable d = true -> ms_dump (mq_server d) current -> parse_file Mssql desired = Ok l ->
  (plan_text Mssql desired current = Ok texts <->
   exists out, plan Mssql l (mq_definitions d) = Ok out /\ texts = map s_text out).
Proof. exact (fun R D => ms_plan_from_texts d current R D desired l texts). Qed.
Print Assumptions C87_sql_server_plan_is_made_for_the_database_partial.

Example C87_example : exists l,
  mq_readable shop = true /\ ms_dump (mq_server shop) (ms_export (mq_server shop)) /\
  parse_file Mssql "CREATE TABLE users (id bigint NOT NULL IDENTITY(1000,10) NOT FOR REPLICATION, name varchar(40) NOT NULL CONSTRAINT DF_users_name DEFAULT 'you', email varchar(80))" = Ok l /\
  exists out, plan Mssql l (mq_definitions shop) = Ok out /\
  map s_text out =
    ["ALTER TABLE [dbo].[users] DROP CONSTRAINT [DF_users_name]";
     "ALTER TABLE [dbo].[users] ADD CONSTRAINT [DF_users_name] DEFAULT 'you' FOR [name]";
     "ALTER TABLE [dbo].[users] ADD [email] varchar(80)";
     "ALTER TABLE [dbo].[users] DROP CONSTRAINT [PK_users]";
     "DROP INDEX [by name] ON [dbo].[users]";
     "ALTER TABLE [dbo].[users] DROP CONSTRAINT [DF_users_age]";
     "ALTER TABLE [dbo].[users] DROP COLUMN [age]";
     "ALTER TABLE [dbo].[users] DROP CONSTRAINT [DF_users_since]";
     "ALTER TABLE [dbo].[users] DROP COLUMN [since]";
     "DROP TABLE [dbo].[orders]"; "DROP VIEW [dbo].[people]"].
Proof.
  eexists. split; [exact shop_readable|]. split; [exact (ms_export_is _)|]. split; [vm_compute; reflexivity|]. eexists. split; vm_compute; reflexivity.
Qed.

(** Executing the texts planned brings the database to the schema of the file.  The conditions are
    those of C85 on the export and those of C88 on schema and database. *)
Theorem C87_file_reaches_the_sql_server_database_partial w replaceable d current desired l texts :
  ms_names_given w -> mq_readable d = true -> ms_dump (mq_server d) current -> ms_database_ok (mq_ideal d) ->
  parse_file Mssql desired = Ok l -> ms_schema w l -> ms_convertible w l (mq_ideal d) ->
  plan_text Mssql desired current = Ok texts ->
  exists out db', texts = map s_text out /\ execute_all m_name (ms_create w) (ms_alter w) replaceable out (mq_ideal d) = Some db' /\
                  ms_db_reached l db' /\ ms_database_ok db'.
Proof. exact (fun W R D O P S => ms_texts_converge w d current W R D O desired l P S replaceable texts). Qed.
Print Assumptions C87_file_reaches_the_sql_server_database_partial.

(** A database that has the schema of the file is left alone. *)
Theorem C87_next_sql_server_run_is_empty_partial w d current desired l :
  mq_readable d = true -> ms_dump (mq_server d) current -> ms_database_ok (mq_ideal d) ->
  parse_file Mssql desired = Ok l -> ms_schema w l -> ms_db_reached l (mq_ideal d) ->
  plan_text Mssql desired current = Ok [].
Proof. exact (fun R D O P S => ms_texts_settled w d current R D O desired l P S). Qed.
Print Assumptions C87_next_sql_server_run_is_empty_partial.

Example C87_file_example :
  ms_names_given some_ways /\ mq_readable market = true /\ ms_dump (mq_server market) (ms_export (mq_server market)) /\ ms_database_ok (mq_ideal market) /\
  parse_file Mssql market_wants = Ok market_schema /\ ms_schema some_ways market_schema /\ ms_convertible some_ways market_schema (mq_ideal market) /\
  exists texts, plan_text Mssql market_wants (ms_export (mq_server market)) = Ok texts /\ List.length texts = 26.
Proof.
  split; [exact some_names|]. split; [exact market_readable|]. split; [exact (ms_export_is _)|]. split; [exact market_ok|]. split; [exact market_parses|]. split; [exact market_wanted|]. split; [exact market_convertible|].
  eexists. split.
  - apply (C87_sql_server_plan_is_made_for_the_database_partial _ _ _ _ _ market_readable (ms_export_is _) market_parses). eexists. split; [|reflexivity].
    rewrite <- ms_shown_ideal. exact market_planned.
  - vm_compute. reflexivity.
Qed.

Example C87_next_example :
  mq_readable market_there = true /\ ms_dump (mq_server market_there) (ms_export (mq_server market_there)) /\ ms_database_ok (mq_ideal market_there) /\
  parse_file Mssql market_small = Ok small_schema /\ ms_schema some_ways small_schema /\ ms_db_reached small_schema (mq_ideal market_there).
Proof.
  split; [exact there_readable|]. split; [exact (ms_export_is _)|]. split; [exact there_ok|]. split; [exact small_parses|]. split; [exact small_wanted|].
  destruct (ms_converges some_ways every_ms_view small_schema (mq_ideal market_there) [] some_names small_wanted there_ok there_convertible) as (c & E & D & _); [vm_compute; reflexivity|].
  injection E as <-. exact D.
Qed.

(** These differences are never removed: the type of a column, its length, NULL and NOT NULL, the
    names of constraints, the seed and the increment of an identity, CLUSTERED, the schema of a
    table. *)
Theorem C87_unseen_differences_refuted : forall a b,
  In (a, b) [(with_column (row "b" "varchar" "20"), with_column (row "b" "varchar" "40"));
             (with_column (row "b" "nvarchar" "20"), with_column (row "b" "nvarchar" "40"));
             (with_column (mkMsColumn "b" "int" "4" false None None None), with_column (mkMsColumn "b" "int" "4" true None None None));
             (with_column (mkMsColumn "b" "int" "4" true None None None), with_column (mkMsColumn "b" "int" "4" false None None None));
             (with_column (mkMsColumn "b" "int" "4" false (Some (mkMsIdentity "1" "1" false)) None None),
              with_column (mkMsColumn "b" "int" "4" false (Some (mkMsIdentity "5" "2" false)) None None));
             (with_check "c" "([b]>(0))", with_check "d" "([b]>(0))");
             (with_default "c" "((1))", with_default "d" "((1))");
             (with_index true "CLUSTERED", with_index true "NONCLUSTERED");
             (with_index false "CLUSTERED", with_index false "NONCLUSTERED");
             (mkMsServer [mkMsTable "dbo" "t" [int_column] [] []] [] [], mkMsServer [mkMsTable "sales" "t" [int_column] [] []] [] [])] ->
  planned a b = Ok [].
Proof. intros a b H. repeat (destruct H as [E|H]; [injection E as <- <-; vm_compute; reflexivity|]). destruct H. Qed.
Print Assumptions C87_unseen_differences_refuted.

(** A foreign key of two columns is exported as two, each of one column; the next run compares
    with one of them. *)
Theorem C87_foreign_key_of_two_columns_refuted :
  plan_text Mssql "CREATE TABLE t (a int, b int, CONSTRAINT f FOREIGN KEY (a) REFERENCES u (x))" (ms_export pair_key) = Ok [].
Proof. vm_compute. reflexivity. Qed.
Print Assumptions C87_foreign_key_of_two_columns_refuted.
