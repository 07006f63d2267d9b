(** What the planner does with schema files, from text to text: changes it does not notice,
    texts that mean something else, valid files it refuses.  Every theorem runs the model of the
    whole planner on two files. *)
From Coq Require Import String Ascii List ZArith Bool.
From Verif Require Import GoStr Ast Generator Planner.
Import ListNotations.
Local Open Scope string_scope.
Local Open Scope list_scope.

Ltac planned := eexists; eexists; repeat (split; [reflexivity|]); vm_compute; reflexivity.

(** ** C68: the default written in the schema is the default planned *)

(** The default [now()] becomes a bit string. *)
Theorem C68_now_refuted : exists desired current,
  desired = "CREATE TABLE t (a int, b timestamp DEFAULT now())" /\ current = "CREATE TABLE t (a int)" /\
  plan_text Postgres desired current = Ok ["ALTER TABLE ""public"".""t"" ADD COLUMN ""b"" timestamp DEFAULT b'0'"].
Proof. planned. Qed.
Print Assumptions C68_now_refuted.

(** The default [getdate()] loses its parentheses and is no longer a call. *)
Theorem C68_getdate_refuted : exists desired current,
  desired = "CREATE TABLE t (a int, b datetime DEFAULT getdate())" /\ current = "CREATE TABLE t (a int)" /\
  plan_text Mssql desired current = Ok ["ALTER TABLE [dbo].[t] ADD [b] datetime DEFAULT getdate"].
Proof. planned. Qed.
Print Assumptions C68_getdate_refuted.

(** Truth values cannot be planned at all. *)
Theorem C68_boolean_refuted : exists desired current,
  desired = "CREATE TABLE t (a int, b boolean DEFAULT true)" /\ current = "CREATE TABLE t (a int)" /\
  plan_text Postgres desired current = Err (EUnsupportedDefault VBool).
Proof. planned. Qed.
Print Assumptions C68_boolean_refuted.

(** ** C69: names are compared as the database compares them

    PostgreSQL reads unquoted names in lower case: the file declares the existing table, and the
    plan drops it with its rows. *)
Theorem C69_unquoted_table_refuted : exists desired current,
  desired = "CREATE TABLE Users (id int)" /\ current = "CREATE TABLE public.users (""id"" int)" /\
  plan_text Postgres desired current = Ok ["CREATE TABLE Users (id int)"; "DROP TABLE ""public"".""users"""].
Proof. planned. Qed.
Print Assumptions C69_unquoted_table_refuted.

(** MySQL does not distinguish case in column names. *)
Theorem C69_column_case_refuted : exists desired current,
  desired = "CREATE TABLE t (Id int)" /\ current = "CREATE TABLE t (id int)" /\
  plan_text Mysql desired current = Ok ["ALTER TABLE `t` ADD COLUMN `Id` int FIRST"; "ALTER TABLE `t` DROP COLUMN `id`"].
Proof. planned. Qed.
Print Assumptions C69_column_case_refuted.

(** ** C70: a change of an index is noticed *)
Theorem C70_index_method_refuted : exists desired current,
  desired = "CREATE TABLE t (a jsonb); CREATE INDEX i ON t USING gin (a)" /\
  current = "CREATE TABLE t (a jsonb); CREATE INDEX i ON t USING btree (a)" /\
  plan_text Postgres desired current = Ok [].
Proof. planned. Qed.
Print Assumptions C70_index_method_refuted.
Theorem C70_prefix_length_refuted : exists desired current,
  desired = "CREATE TABLE t (a text, KEY k (a(10)))" /\ current = "CREATE TABLE t (a text, KEY k (a(200)))" /\
  plan_text Mysql desired current = Ok [].
Proof. planned. Qed.
Print Assumptions C70_prefix_length_refuted.
(** The key of a SQL Server table stays clustered. *)
Theorem C70_clustering_refuted : exists desired current,
  desired = "CREATE TABLE t (a int, CONSTRAINT pk PRIMARY KEY NONCLUSTERED (a))" /\
  current = "CREATE TABLE t (a int, CONSTRAINT pk PRIMARY KEY CLUSTERED (a))" /\
  plan_text Mssql desired current = Ok [].
Proof. planned. Qed.
Print Assumptions C70_clustering_refuted.

(** ** C71: a foreign key refers to the table it names *)
Theorem C71_schema_lost_refuted : exists desired current,
  desired = "CREATE TABLE t (a int, CONSTRAINT f FOREIGN KEY (a) REFERENCES x.u (id))" /\ current = "CREATE TABLE t (a int)" /\
  plan_text Postgres desired current =
    Ok ["ALTER TABLE ""public"".""t"" ADD CONSTRAINT ""f"" FOREIGN KEY (""a"") REFERENCES ""u"" (""id"")"].
Proof. planned. Qed.
Print Assumptions C71_schema_lost_refuted.
Theorem C71_other_schema_unnoticed_refuted : exists desired current,
  desired = "CREATE TABLE t (a int, CONSTRAINT f FOREIGN KEY (a) REFERENCES x.u (id))" /\
  current = "CREATE TABLE t (a int, CONSTRAINT f FOREIGN KEY (a) REFERENCES y.u (id))" /\
  plan_text Postgres desired current = Ok [].
Proof. planned. Qed.
Print Assumptions C71_other_schema_unnoticed_refuted.

(** ** C72: the planned definition of a view or check is the one written *)
Theorem C72_cast_in_view_refuted : exists desired current,
  desired = "CREATE VIEW v AS SELECT a::text AS b FROM t" /\ current = "CREATE VIEW v AS SELECT a AS b FROM t" /\
  plan_text Postgres desired current = Ok ["CREATE OR REPLACE VIEW ""public"".""v"" AS select convert(a, text) as b from t"].
Proof. planned. Qed.
Print Assumptions C72_cast_in_view_refuted.
Theorem C72_dual_refuted : exists desired current,
  desired = "CREATE VIEW v AS SELECT 2 AS b" /\ current = "CREATE VIEW v AS SELECT 1 AS b" /\
  plan_text Postgres desired current = Ok ["CREATE OR REPLACE VIEW ""public"".""v"" AS select 2 as b from dual"].
Proof. planned. Qed.
Print Assumptions C72_dual_refuted.
(** Quoted names in a check lose their quotes, or get MySQL's. *)
Theorem C72_names_in_check_refuted : exists desired current,
  desired = "CREATE TABLE t (""order"" int CHECK (""order"" > 0), ""Size"" int CHECK (""Size"" > 0))" /\
  current = "CREATE TABLE t (""order"" int, ""Size"" int)" /\
  plan_text Postgres desired current =
    Ok ["ALTER TABLE ""public"".""t"" ADD CONSTRAINT t_order_check CHECK (`order` > 0)";
        "ALTER TABLE ""public"".""t"" ADD CONSTRAINT t_Size_check CHECK (Size > 0)"].
Proof. planned. Qed.
Print Assumptions C72_names_in_check_refuted.

(** ** C73: a planned column has the declared type *)
Theorem C73_set_members_refuted : exists desired current,
  desired = "CREATE TABLE t (a int, b set('x', 'y'))" /\ current = "CREATE TABLE t (a int)" /\
  plan_text Mysql desired current = Ok ["ALTER TABLE `t` ADD COLUMN `b` set AFTER `a`"].
Proof. planned. Qed.
Print Assumptions C73_set_members_refuted.
Theorem C73_quotes_in_enum_refuted : exists desired current,
  desired = "CREATE TABLE t (a int, b enum('it''s'))" /\ current = "CREATE TABLE t (a int)" /\
  plan_text Mysql desired current = Ok ["ALTER TABLE `t` ADD COLUMN `b` enum('it's') AFTER `a`"].
Proof. planned. Qed.
Print Assumptions C73_quotes_in_enum_refuted.
Theorem C73_zerofill_refuted : exists desired current,
  desired = "CREATE TABLE t (a int, b int zerofill)" /\ current = "CREATE TABLE t (a int)" /\
  plan_text Mysql desired current = Ok ["ALTER TABLE `t` ADD COLUMN `b` int AFTER `a`"].
Proof. planned. Qed.
Print Assumptions C73_zerofill_refuted.

(** ** C74: a change of a column is noticed *)
Theorem C74_comment_refuted : exists desired current,
  desired = "CREATE TABLE t (a int COMMENT 'new')" /\ current = "CREATE TABLE t (a int COMMENT 'old')" /\
  plan_text Mysql desired current = Ok [].
Proof. planned. Qed.
Print Assumptions C74_comment_refuted.
(** SQLite and SQL Server: neither the type nor NOT NULL of a column is ever changed. *)
Theorem C74_sqlite_refuted : exists desired current,
  desired = "CREATE TABLE t (a text, b integer NOT NULL)" /\ current = "CREATE TABLE t (a integer, b integer)" /\
  plan_text SQLite3 desired current = Ok [].
Proof. planned. Qed.
Print Assumptions C74_sqlite_refuted.
Theorem C74_sql_server_refuted : exists desired current,
  desired = "CREATE TABLE t (a varchar(20), b int NOT NULL)" /\ current = "CREATE TABLE t (a int, b int)" /\
  plan_text Mssql desired current = Ok [].
Proof. planned. Qed.
Print Assumptions C74_sql_server_refuted.
(** Options of a table are not compared either. *)
Theorem C74_table_options_refuted : exists desired current,
  desired = "CREATE TABLE t (a text) ENGINE=InnoDB DEFAULT CHARSET=utf8mb4" /\
  current = "CREATE TABLE t (a text) ENGINE=MyISAM DEFAULT CHARSET=latin1" /\
  plan_text Mysql desired current = Ok [].
Proof. planned. Qed.
Print Assumptions C74_table_options_refuted.

(** ** C75: valid schema files are accepted *)
Theorem C75_valid_files_refuted : forall m sql, In (m, sql)
    [(Postgres, "CREATE TABLE t (a bytea)"); (Postgres, "CREATE TABLE t (a inet)"); (Postgres, "CREATE TABLE t (a interval)");
     (Postgres, "CREATE TABLE t (a int, CONSTRAINT u UNIQUE (a))");
     (Postgres, "CREATE TABLE t (a text); CREATE INDEX i ON t (lower(a))");
     (Postgres, "CREATE TABLE t (a jsonb DEFAULT '{}'::jsonb)");
     (Mysql, "CREATE TABLE t (a int, KEY (a))"); (Mysql, "CREATE TABLE t (a int, FOREIGN KEY (a) REFERENCES u (b))");
     (Mysql, "CREATE TABLE t (a int, b int GENERATED ALWAYS AS (a + 1))");
     (SQLite3, "CREATE TABLE t (a integer, UNIQUE (a))");
     (Mssql, "CREATE TABLE t (a [int])"); (Mssql, "CREATE TABLE t (a nvarchar(max))")] ->
  plan_text m sql "" = Err (EParse "found syntax error when parsing DDL").
Proof.
  intros m sql H. cbn [In] in H.
  repeat (destruct H as [H|H]; [injection H as <- <-; vm_compute; reflexivity|]). destruct H.
Qed.
Print Assumptions C75_valid_files_refuted.
(** Two dashes begin a comment anywhere, but not for the splitter. *)
Theorem C75_semicolon_in_comment_refuted : exists desired,
  desired = "CREATE TABLE t (a int) -- first; then" /\
  plan_text Postgres desired "" = Err (EParse "found syntax error when parsing DDL").
Proof. eexists. split; [reflexivity|]. vm_compute. reflexivity. Qed.
Print Assumptions C75_semicolon_in_comment_refuted.

(** ** C76: every planned statement can be executed *)

(** SQLite: a changed index gives an empty statement and then a CREATE INDEX that fails, for the
    old one is still there. *)
Theorem C76_sqlite_index_refuted : exists desired current,
  desired = "CREATE TABLE t (a int, b int); CREATE INDEX i ON t (b)" /\
  current = "CREATE TABLE t (a int, b int); CREATE INDEX i ON t (a)" /\
  plan_text SQLite3 desired current = Ok [""; "CREATE INDEX i ON t (b)"].
Proof. planned. Qed.
Print Assumptions C76_sqlite_index_refuted.
(** SQLite cannot add a primary key to a table. *)
Theorem C76_sqlite_primary_key_refuted : exists desired current,
  desired = "CREATE TABLE t (a int PRIMARY KEY)" /\ current = "CREATE TABLE t (a int)" /\
  plan_text SQLite3 desired current = Ok ["ALTER TABLE `t` ADD primary key (`a`)"].
Proof. planned. Qed.
Print Assumptions C76_sqlite_primary_key_refuted.
(** SQL Server: the old primary key is not dropped before the new one is added. *)
Theorem C76_sql_server_primary_key_refuted : exists desired current,
  desired = "CREATE TABLE t (a int, b int, CONSTRAINT pk PRIMARY KEY CLUSTERED (b))" /\
  current = "CREATE TABLE t (a int, b int, CONSTRAINT pk PRIMARY KEY CLUSTERED (a))" /\
  plan_text Mssql desired current = Ok ["ALTER TABLE [dbo].[t] ADD CONSTRAINT [pk] primary key CLUSTERED ([b])"].
Proof. planned. Qed.
Print Assumptions C76_sql_server_primary_key_refuted.
(** PostgreSQL: an index outside the search path is dropped by its bare name. *)
Theorem C76_index_in_schema_refuted : exists desired current,
  desired = "CREATE TABLE x.t (a int, b int); CREATE INDEX i ON x.t (b)" /\
  current = "CREATE TABLE x.t (a int, b int); CREATE INDEX i ON x.t (a)" /\
  plan_text Postgres desired current = Ok ["DROP INDEX ""i"""; "CREATE INDEX i ON x.t (b)"].
Proof. planned. Qed.
Print Assumptions C76_index_in_schema_refuted.
