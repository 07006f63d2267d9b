(** Property C88: on an ideal SQL Server one run of the plan reaches the desired schema and the
    next run has nothing to do. *)
From Coq Require Import String Ascii List ZArith Bool.
From Verif Require Import GoStr Ast Generator Parser SpecPlan SpecColumns SpecMysql SpecDatabase SpecShownMssql SpecMssql SpecConvergeMs
  DemoPlan DemoConvergeMs ProofMsCheck ProofMsSettle.
Import ListNotations.
Local Open Scope string_scope.
Local Open Scope list_scope.

(** The full statement asks this of every pair of well-formed schemas.  It is false of the
    program, see the refutations below; [ms_schema], [ms_database_ok] and [ms_convertible] state
    what is asked of the desired schema, of the database and of the two together, clause by
    clause.  How the server names constraints, keeps conditions and values, which names it takes
    without brackets, which defaults as they are written and which views it can replace is left
    open. *)
Theorem C88_one_run_reaches_the_schema_on_sql_server_partial w replaceable desired db out :
  ms_names_given w -> ms_schema w desired -> ms_database_ok db -> ms_convertible w desired db ->
  plan Mssql desired (ms_shown db) = Ok out ->
  exists db', execute_all m_name (ms_create w) (ms_alter w) replaceable out db = Some db' /\
              ms_db_reached desired db' /\ ms_database_ok db' /\
              plan Mssql desired (ms_shown db') = Ok [].
Proof. exact (ms_converges w replaceable desired db out). Qed.
Print Assumptions C88_one_run_reaches_the_schema_on_sql_server_partial.

(** A database that has the schema, however it came to have it, is left alone. *)
Theorem C88_nothing_to_do_when_reached_partial w desired db :
  ms_schema w desired -> ms_database_ok db -> ms_db_reached desired db ->
  plan Mssql desired (ms_shown db) = Ok [].
Proof. exact (ms_nothing_more w desired db). Qed.
Print Assumptions C88_nothing_to_do_when_reached_partial.

(** The conditions can be tested. *)
Theorem C88_conditions_are_testable w desired db :
  ms_schema_b w desired = true -> ms_database_b db = true -> ms_convertible_b w desired db = true ->
  ms_schema w desired /\ ms_database_ok db /\ ms_convertible w desired db.
Proof. exact (fun A B C => conj (ms_schema_b_ok w desired A) (conj (ms_database_b_ok db B) (ms_convertible_b_ok w desired db C))). Qed.
Print Assumptions C88_conditions_are_testable.

(** Defaults, checks, primary keys, indexes, foreign keys, columns, views, triggers and tables
    changed, added and removed. *)
Example C88_example :
  ms_names_given some_ways /\ ms_schema some_ways market_schema /\ ms_database_ok (mq_ideal market) /\
  ms_convertible some_ways market_schema (mq_ideal market) /\
  plan Mssql market_schema (ms_shown (mq_ideal market)) = Ok (ms_plan market_schema (mq_ideal market)) /\
  map s_text (ms_plan market_schema (mq_ideal market)) =
    ["ALTER TABLE [dbo].[users] DROP CONSTRAINT [DF_users_name]";
     "ALTER TABLE [dbo].[users] ADD CONSTRAINT [DF_new] DEFAULT 'you' FOR [name]";
     "ALTER TABLE [dbo].[users] DROP CONSTRAINT CK_age";
     "ALTER TABLE [dbo].[users] ADD CONSTRAINT CK_older CHECK (age > (17))";
     "ALTER TABLE [dbo].[users] DROP CONSTRAINT [DF_users_age]";
     "ALTER TABLE [dbo].[users] ADD [email] varchar(80) NOT NULL DEFAULT '' CHECK (email != 'none')";
     "CREATE CLUSTERED INDEX [by_since] ON [dbo].[users] ([since] desc, [email]) WITH (fillfactor = 70)";
     "DROP INDEX [by name] ON [dbo].[users]";
     "CREATE INDEX [by name] ON users (name DESC) INCLUDE (age) WITH (PAD_INDEX = ON, FILLFACTOR = 90)";
     "CREATE UNIQUE INDEX by_email ON users (email)";
     "DROP INDEX [by_seller] ON [dbo].[orders]";
     "CREATE UNIQUE CLUSTERED INDEX [by_seller] ON [dbo].[orders] ([buyer])";
     "ALTER TABLE [dbo].[orders] DROP CONSTRAINT [FK_buyer]";
     "ALTER TABLE [dbo].[orders] ADD CONSTRAINT [FK_buyer] FOREIGN KEY ([buyer]) REFERENCES [users] ([id]) ON DELETE NO ACTION";
     "CREATE TABLE tags (id int PRIMARY KEY IDENTITY(1,1), tag varchar(10) NOT NULL DEFAULT 'x' CHECK (tag <> ''), buyer bigint,CONSTRAINT FK_tag FOREIGN KEY (buyer) REFERENCES users (id) ON DELETE SET NULL, INDEX by_tag (tag))";
     "DROP VIEW [dbo].[people]";
     "CREATE VIEW [dbo].[people] AS select users.id from users";
     "CREATE VIEW grown AS select users.id from users where users.age > 17";
     "CREATE OR ALTER TRIGGER [log] ON [dbo].[orders] after insert AS insert into audit(a, b) values (1, 3)";
     "ALTER TABLE [dbo].[users] DROP CONSTRAINT [DF_nick]";
     "ALTER TABLE [dbo].[users] DROP COLUMN [nick]";
     "ALTER TABLE [dbo].[orders] DROP CONSTRAINT [FK_seller]";
     "ALTER TABLE [dbo].[orders] DROP CONSTRAINT [PK_orders]";
     "ALTER TABLE [dbo].[orders] DROP COLUMN [seller]";
     "DROP TABLE [dbo].[old]";
     "DROP VIEW [dbo].[gone]"].
Proof.
  split; [exact some_names|]. split; [exact market_wanted|]. split; [exact market_ok|]. split; [exact market_convertible|].
  split; [exact market_planned|]. vm_compute. reflexivity.
Qed.

Example C88_reached_example :
  ms_db_reached market_schema (ms_after market_schema (mq_ideal market)) /\ ms_database_ok (ms_after market_schema (mq_ideal market)) /\
  ms_after market_schema (mq_ideal market) <> mq_ideal market.
Proof.
  destruct (C88_one_run_reaches_the_schema_on_sql_server_partial some_ways every_ms_view market_schema (mq_ideal market) _ some_names market_wanted market_ok market_convertible market_planned)
    as (c & Hr & H1 & H2 & _).
  rewrite (ms_after_run _ _ _ Hr). split; [exact H1|]. split; [exact H2|]. intros ->.
  apply ms_after_run in Hr. pose proof market_after as E. rewrite Hr in E. discriminate.
Qed.

(** ** What keeps the full statement from holding *)

(** The first run makes the table, the second one drops its primary key, the third one adds it. *)
Theorem C88_unnamed_primary_key_comes_and_goes_refuted : exists desired,
  desired = ms_parsed "CREATE TABLE t (a int NOT NULL, PRIMARY KEY (a))" /\
  let one := ms_after desired ms_none in
  let two := ms_after desired one in
  ms_texts desired one = Some ["ALTER TABLE [dbo].[t] DROP CONSTRAINT [PK__t__]"] /\
  ms_texts desired two = Some ["ALTER TABLE [dbo].[t] ADD primary key NONCLUSTERED ([a])"] /\
  map m_key (db_tables two) = [None] /\ ms_texts desired (ms_after desired two) = ms_texts desired one.
Proof. eexists. split; [reflexivity|]. repeat split; vm_compute; reflexivity. Qed.
Print Assumptions C88_unnamed_primary_key_comes_and_goes_refuted.

(** A renamed primary key is dropped. *)
Theorem C88_renamed_primary_key_is_lost_refuted : exists desired db,
  ms_schema some_ways desired /\ ms_database_ok db /\ db = ms_made "CREATE TABLE t (a int NOT NULL, CONSTRAINT p PRIMARY KEY (a))" /\
  desired = ms_parsed "CREATE TABLE t (a int NOT NULL, CONSTRAINT q PRIMARY KEY (a))" /\
  ms_texts desired db = Some ["ALTER TABLE [dbo].[t] DROP CONSTRAINT [p]"] /\
  map m_key (db_tables (ms_after desired db)) = [None].
Proof.
  eexists _, _. split; [|split; [|split; [reflexivity|split; [reflexivity|split; vm_compute; reflexivity]]]].
  - apply ms_schema_b_ok. vm_compute. reflexivity.
  - apply ms_database_b_ok. vm_compute. reflexivity.
Qed.
Print Assumptions C88_renamed_primary_key_is_lost_refuted.

(** These changes are planned with statements the server rejects: another primary key, no column
    with a CHECK constraint any more, an identity for a column there is, a default with a function
    or a quote, a CHECK constraint with brackets in its name, a primary key of a new column that
    does not say NOT NULL. *)
Theorem C88_rejected_changes_refuted : forall made wanted texts,
  In (made, wanted, texts)
    [("CREATE TABLE t (a int NOT NULL, b int NOT NULL, CONSTRAINT p PRIMARY KEY (a))", "CREATE TABLE t (a int NOT NULL, b int NOT NULL, CONSTRAINT p PRIMARY KEY (a, b))",
      ["ALTER TABLE [dbo].[t] ADD CONSTRAINT [p] primary key CLUSTERED ([a], [b])"]);
     ("CREATE TABLE t (a int, b int CHECK (b > (0)))", "CREATE TABLE t (a int)", ["ALTER TABLE [dbo].[t] DROP COLUMN [b]"]);
     ("CREATE TABLE t (a int, b int)", "CREATE TABLE t (a int, b int NOT NULL IDENTITY(1,1))", ["ALTER TABLE [dbo].[t] ADD [b] int IDENTITY(1,1)"]);
     ("CREATE TABLE t (a datetime)", "CREATE TABLE t (a datetime DEFAULT getdate())", ["ALTER TABLE [dbo].[t] ADD DEFAULT getdate FOR [a]"]);
     ("CREATE TABLE t (a varchar(10))", "CREATE TABLE t (a varchar(10) DEFAULT 'it''s')", ["ALTER TABLE [dbo].[t] ADD DEFAULT 'it's' FOR [a]"]);
     ("CREATE TABLE t (a int CONSTRAINT [my check] CHECK (a > (0)))", "CREATE TABLE t (a int)", ["ALTER TABLE [dbo].[t] DROP CONSTRAINT `my check`"]);
     ("CREATE TABLE t (a int)", "CREATE TABLE t (a int, b int, CONSTRAINT k PRIMARY KEY (b))",
      ["ALTER TABLE [dbo].[t] ADD [b] int"; "ALTER TABLE [dbo].[t] ADD CONSTRAINT [k] primary key CLUSTERED ([b])"])] ->
  ms_schema some_ways (ms_parsed wanted) /\ ms_database_ok (ms_made made) /\ length (db_tables (ms_made made)) = 1 /\
  next_run wanted (ms_made made) = (Some texts, false).
Proof.
  intros made wanted texts H.
  repeat (destruct H as [E|H];
    [injection E as <- <- <-; split; [apply ms_schema_b_ok; vm_compute; reflexivity|]; split; [apply ms_database_b_ok; vm_compute; reflexivity|]; split; vm_compute; reflexivity|]).
  destruct H.
Qed.
Print Assumptions C88_rejected_changes_refuted.

(** These changes are not planned: another type, NOT NULL, no trigger any more, another column
    and table for a foreign key. *)
Theorem C88_ignored_changes_refuted : forall made wanted,
  In (made, wanted)
    [("CREATE TABLE t (a int)", "CREATE TABLE t (a bigint)"); ("CREATE TABLE t (a int)", "CREATE TABLE t (a int NOT NULL)");
     ("CREATE TABLE t (a int); CREATE TRIGGER g ON t AFTER INSERT AS insert into u(x) values (1)", "CREATE TABLE t (a int)");
     ("CREATE TABLE t (a int, b int, CONSTRAINT f FOREIGN KEY (a) REFERENCES u (x))", "CREATE TABLE t (a int, b int, CONSTRAINT f FOREIGN KEY (b) REFERENCES v (y))")] ->
  ms_schema some_ways (ms_parsed wanted) /\ ms_database_ok (ms_made made) /\ length (db_tables (ms_made made)) = 1 /\
  next_run wanted (ms_made made) = (Some [], true) /\ ms_made made <> ms_made wanted.
Proof.
  intros made wanted H.
  repeat (destruct H as [E|H];
    [injection E as <- <-; split; [apply ms_schema_b_ok; vm_compute; reflexivity|]; split; [apply ms_database_b_ok; vm_compute; reflexivity|]; split; [vm_compute; reflexivity|];
     split; [vm_compute; reflexivity|vm_compute; discriminate]|]).
  destruct H.
Qed.
Print Assumptions C88_ignored_changes_refuted.

(** A column that shall lose its identity is lost itself; the next run adds it. *)
Theorem C88_identity_takes_the_column_with_it_refuted : exists desired db,
  ms_schema some_ways desired /\ ms_database_ok db /\ db = ms_made "CREATE TABLE t (a int, b int NOT NULL IDENTITY(1,1))" /\ desired = ms_parsed "CREATE TABLE t (a int, b int NOT NULL)" /\
  map m_names (db_tables (ms_after desired db)) = [["a"]] /\ map m_names (db_tables (ms_after desired (ms_after desired db))) = [["a"; "b"]].
Proof.
  eexists _, _. split; [|split; [|split; [reflexivity|split; [reflexivity|split; vm_compute; reflexivity]]]].
  - apply ms_schema_b_ok. vm_compute. reflexivity.
  - apply ms_database_b_ok. vm_compute. reflexivity.
Qed.
Print Assumptions C88_identity_takes_the_column_with_it_refuted.

(** These schemas are never settled, although every run gets through: a filtered index, and a
    condition that the server writes in its own way. *)
Theorem C88_never_settled_refuted : forall text texts,
  In (text, texts)
    [("CREATE TABLE t (a int); CREATE INDEX i ON t (a) WHERE a > 0", ["DROP INDEX [i] ON [dbo].[t]"; "CREATE INDEX i ON t (a) WHERE a > 0"]);
     ("CREATE TABLE t (a int CONSTRAINT c CHECK (a > 0))", ["ALTER TABLE [dbo].[t] DROP CONSTRAINT c"; "ALTER TABLE [dbo].[t] ADD CONSTRAINT c CHECK (a > 0)"])] ->
  next_run text (ms_made text) = (Some texts, true) /\ length (db_tables (ms_made text)) = 1 /\ ms_after (ms_parsed text) (ms_made text) = ms_made text.
Proof.
  intros text texts H. repeat (destruct H as [E|H]; [injection E as <- <-; split; [vm_compute; reflexivity|split; vm_compute; reflexivity]|]). destruct H.
Qed.
Print Assumptions C88_never_settled_refuted.

(** An index named like a foreign key stays. *)
Theorem C88_index_named_like_a_foreign_key_stays_refuted : exists desired db,
  ms_schema some_ways desired /\ ms_database_ok db /\ db = ms_made "CREATE TABLE t (a int); CREATE INDEX f ON t (a)" /\
  desired = ms_parsed "CREATE TABLE t (a int, CONSTRAINT f FOREIGN KEY (a) REFERENCES u (x))" /\
  plan Mssql desired (ms_shown (ms_after desired db)) = Ok [] /\ map (fun g => map i_name (m_indexes g)) (db_tables (ms_after desired db)) = [["f"]].
Proof.
  eexists _, _. split; [|split; [|split; [reflexivity|split; [reflexivity|split; vm_compute; reflexivity]]]].
  - apply ms_schema_b_ok. vm_compute. reflexivity.
  - apply ms_database_b_ok. vm_compute. reflexivity.
Qed.
Print Assumptions C88_index_named_like_a_foreign_key_stays_refuted.
