(** Properties C50 (what --skip-drop keeps), C76 (planned statements run), C75 and C69 (files that
    say the same), C12 (literals): the parts that hold. *)
From Coq Require Import String Ascii List ZArith Bool.
From Verif Require Import GoStr GoStrFacts Ast Generator SchemaText SchemaParse Parser Planner SpecText SpecPlan SpecColumns SpecMysql SpecConverge SpecDatabase SpecPostgres SpecConvergePg SpecMssql SpecConvergeMs
  SpecShown SpecShownMysql SpecShownMssql AdapterMysql AdapterPostgres AdapterMssql ExportMssql DemoReadMysql SpecLayout SpecWordsMysql SpecSource SpecKeep SpecAccepted
  DemoPlan DemoConverge DemoConvergePg DemoConvergeMs DemoKeep ProofKeep ProofAccepted ProofRunnable ProofText.
Import ListNotations.
Local Open Scope string_scope.
Local Open Scope list_scope.

(** ** C50: what is kept with --skip-drop *)

(** The full statement has it that no default, NOT NULL or key definition is taken away, and that
    all statements run; it is false on MySQL (see PropsSql) and, for defaults, on PostgreSQL (see
    below).  Whatever part of what is sent is executed, in whatever order: *)
Theorem C50_mysql_keeps_partial desired current sent c c' :
  let_through Mysql desired current sent -> run_all sent c = Some c' -> mysql_kept c c'.
Proof. exact (mysql_nothing_lost desired current sent c c'). Qed.
Print Assumptions C50_mysql_keeps_partial.

Theorem C50_postgres_keeps_partial castable replaceable desired current sent db db' :
  no_null_defaults desired -> let_through Postgres desired current sent ->
  execute_all g_name pg_create (pg_alter castable) replaceable sent db = Some db' -> kept g_name pg_table_kept db db'.
Proof. exact (pg_nothing_lost castable replaceable desired current sent db db'). Qed.
Print Assumptions C50_postgres_keeps_partial.

Theorem C50_sql_server_keeps_partial w replaceable desired current sent db db' :
  let_through Mssql desired current sent ->
  execute_all m_name (ms_create w) (ms_alter w) replaceable sent db = Some db' -> kept m_name ms_table_kept db db'.
Proof. exact (ms_nothing_lost w replaceable desired current sent db db'). Qed.
Print Assumptions C50_sql_server_keeps_partial.

Example C50_keeps_example :
  let_through Mysql shop_desired (dump shop) shop_sent /\ length shop_sent = 11 /\
  match run_all shop_sent shop with Some c => map t_name (cat_tables c) = ["users"; "posts"; "old"; "tags"] | None => False end /\
  let_through Mssql market_schema (ms_shown (mq_ideal market)) market_sent /\ length market_sent = 6 /\
  match ms_run market_sent (mq_ideal market) with Some _ => True | None => False end.
Proof.
  split; [apply accepted_let_through; vm_compute; reflexivity|]. split; [vm_compute; reflexivity|]. split; [vm_compute; reflexivity|].
  split; [apply accepted_let_through; exact market_planned|]. split; [vm_compute; reflexivity|vm_compute; exact I].
Qed.
Example C50_postgres_example :
  no_null_defaults store_desired /\ let_through Postgres store_desired (pg_dump store) store_sent /\ length store_sent = 16 /\
  match pg_run store_sent store with Some _ => True | None => False end.
Proof.
  split; [apply no_null_defaults_test; vm_compute; reflexivity|].
  split; [apply accepted_let_through; vm_compute; reflexivity|]. split; [vm_compute; reflexivity|vm_compute; exact I].
Qed.

(** Defaults of PostgreSQL: the file says DEFAULT NULL, and the statement is sent although the
    column has a default. *)
Theorem C50_default_null_refuted : exists desired db out db',
  plan Postgres desired (pg_dump db) = Ok out /\ let_through Postgres desired (pg_dump db) out /\ pg_run out db = Some db' /\
  map s_text out = ["ALTER TABLE ""public"".""t"" ALTER COLUMN ""a"" SET DEFAULT null"] /\ ~ kept g_name pg_table_kept db db'.
Proof. exact default_forgotten. Qed.
Print Assumptions C50_default_null_refuted.

(** ** C76: the statements of a plan can be executed *)

(** The full statement asks this of every schema file and every database; it is false, see
    PropsSchema.  Under the conditions of C29, C30 and C88 every statement is accepted in the
    state in which those before it leave the database. *)
Theorem C76_mysql_statements_run_partial desired c out before st after :
  mysql_schema desired -> catalogue_ok c -> convertible desired c ->
  plan Mysql desired (dump c) = Ok out -> out = before ++ st :: after ->
  exists x y, run_all before c = Some x /\ run (s_eff st) x = Some y.
Proof. exact (mysql_statements_run desired c out before st after). Qed.
Print Assumptions C76_mysql_statements_run_partial.

Theorem C76_postgres_statements_run_partial castable replaceable desired db out before st after :
  pg_schema desired -> database_ok db -> pg_convertible castable replaceable desired db ->
  plan Postgres desired (pg_dump db) = Ok out -> out = before ++ st :: after ->
  exists x y, execute_all g_name pg_create (pg_alter castable) replaceable before db = Some x /\
              execute g_name pg_create (pg_alter castable) replaceable (s_eff st) x = Some y.
Proof. exact (pg_statements_run castable replaceable desired db out before st after). Qed.
Print Assumptions C76_postgres_statements_run_partial.

Theorem C76_sql_server_statements_run_partial w replaceable desired db out before st after :
  ms_names_given w -> ms_schema w desired -> ms_database_ok db -> ms_convertible w desired db ->
  plan Mssql desired (ms_shown db) = Ok out -> out = before ++ st :: after ->
  exists x y, execute_all m_name (ms_create w) (ms_alter w) replaceable before db = Some x /\
              execute m_name (ms_create w) (ms_alter w) replaceable (s_eff st) x = Some y.
Proof. exact (ms_statements_run w replaceable desired db out before st after). Qed.
Print Assumptions C76_sql_server_statements_run_partial.

Example C76_run_example :
  (mysql_schema shop_desired /\ catalogue_ok shop /\ convertible shop_desired shop /\ length (mysql_plan shop_desired shop) = 26) /\
  (pg_schema store_desired /\ database_ok store /\ pg_convertible every_cast every_view store_desired store /\ length (pg_plan store_desired store) = 34) /\
  (ms_schema some_ways market_schema /\ ms_database_ok (mq_ideal market) /\ ms_convertible some_ways market_schema (mq_ideal market)).
Proof.
  split; [split; [exact shop_schema|split; [exact shop_ok|split; [exact shop_convertible|vm_compute; reflexivity]]]|].
  split; [split; [exact store_schema|split; [exact store_ok|split; [exact store_convertible|vm_compute; reflexivity]]]|].
  split; [exact market_wanted|]. split; [exact market_ok|exact market_convertible].
Qed.

(** ** C75: files the database accepts are read *)

(** The full statement asks this of every valid file; it is false, see PropsSchema.  A file with
    the words of what the database exports, in any layout, any quoting, any letter case of
    keywords and with comments, is read as that database. *)
Theorem C75_postgres_files_are_read_partial quoted d text :
  database_readable quoted d = true -> same_file Postgres text (dump_database (catalogue quoted d)) ->
  exists l, parse_file Postgres text = Ok l /\ map without_text l = pg_dump (ideal d).
Proof. exact (pg_file_read quoted d text). Qed.
Print Assumptions C75_postgres_files_are_read_partial.

Theorem C75_mysql_files_are_read_partial d s current text :
  my_readable d = true -> my_shows d s -> my_dump s = Some current -> same_file Mysql text current ->
  exists l, parse_file Mysql text = Ok l /\ map without_text l = dump (my_ideal d).
Proof. exact (my_file_read d s current text). Qed.
Print Assumptions C75_mysql_files_are_read_partial.

Theorem C75_sql_server_files_are_read_partial d current text :
  mq_readable d = true -> ms_dump (mq_server d) current -> same_file Mssql text current ->
  exists l, parse_file Mssql text = Ok l /\ map without_text l = mq_definitions d.
Proof. exact (ms_file_read d current text). Qed.
Print Assumptions C75_sql_server_files_are_read_partial.

Example C75_read_example :
  my_readable yard = true /\ my_shows yard (server_of yard) /\ my_dump (server_of yard) = Some exported /\ same_file Mysql typed exported /\
  exported = ("CREATE TABLE `users` (" ++ nl ++ "  `id` bigint NOT NULL AUTO_INCREMENT," ++ nl ++ "  `age` int DEFAULT '18'," ++ nl ++ "  `nick` varchar(20) DEFAULT NULL," ++ nl ++
              "  PRIMARY KEY (`id`)," ++ nl ++ "  KEY `by_nick` (`nick`)" ++ nl ++ ") ENGINE=InnoDB")%string /\
  typed = ("create table users (id BIGINT not null auto_increment, -- the key" ++ nl ++ "  `age` INT default '18', nick VARCHAR ( 20 ) Default null," ++ nl ++
              "  primary key (id), key by_nick (nick)) ENGINE = InnoDB;")%string.
Proof.
  split; [exact yard_readable|]. split; [exact yard_shown|]. split; [exact yard_exported|]. split; [exact typed_exported|]. split; reflexivity.
Qed.

(** ** C69: how names are written makes no difference *)

(** The full statement also speaks of letter case, where it is false (PropsSchema).  Quoting,
    layout, comments and the letter case of keywords do not count: two files that say the same
    give the empty plan. *)
Theorem C69_same_words_nothing_to_do_partial m a b l :
  same_file m a b -> parse_file m a = Ok l -> settled m l -> well_formed l = true -> plan_text m a b = Ok [].
Proof. exact (same_file_nothing m a b l). Qed.
Print Assumptions C69_same_words_nothing_to_do_partial.

Example C69_same_words_example :
  same_file Mysql typed exported /\ typed <> exported /\
  exists l, parse_file Mysql typed = Ok l /\ settled Mysql l /\ well_formed l = true.
Proof. split; [exact typed_exported|]. split; [discriminate|]. exact typed_settled. Qed.

(** ** C12: literals in statements *)

(** The full statement asks this of every literal; it is false, see PropsText.  A literal without
    a semicolon, in which no line begins with two dashes, stays whole: [a] and [b] are what is
    before and behind it, [t] the rest of the file. *)
Theorem C12_other_literals_stay_whole_partial a lit b t l :
  plain_statement (a ++ "''" ++ b) -> has_char semicolon lit = false -> contains lit (String newline "--") = false ->
  schema_text false t l ->
  split_statements ((a ++ "'" ++ lit ++ "'" ++ b) ++ ";" ++ t) = (a ++ "'" ++ lit ++ "'" ++ b)%string :: l.
Proof. exact (literal_stays_whole a lit b t l). Qed.
Print Assumptions C12_other_literals_stay_whole_partial.

Example C12_other_literals_example :
  plain_statement ("CREATE TABLE a (x text DEFAULT " ++ "''" ++ ")") /\
  has_char semicolon ("it''s -- a" ++ nl ++ " /* note */") = false /\ contains ("it''s -- a" ++ nl ++ " /* note */") (String newline "--") = false /\
  schema_text false nl [].
Proof.
  split; [constructor; try reflexivity; eexists; split; reflexivity|]. split; [reflexivity|]. split; [reflexivity|].
  apply (st_end false nl true). apply gap_newline, gap_nil.
Qed.
