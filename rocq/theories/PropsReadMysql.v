(** Properties C80 to C82: what sqldef reads in the export of a MySQL database is that database,
    an export applied to its own database changes nothing, and a schema file applied to a
    database reaches the schema, from the texts on. *)
From Coq Require Import String Ascii List ZArith Bool.
From Verif Require Import GoStr GoStrFacts Ast Generator Catalog CatalogMysql AdapterSqlite AdapterMysql SchemaText SchemaParse Parser Planner SpecPlan SpecLayout SpecMysql SpecConverge
  SpecShownMysql DemoConverge DemoReadBack DemoReadMysql ProofNoop ProofReadMyExport ProofMyEndToEnd.
Import ListNotations.
Local Open Scope string_scope.
Local Open Scope list_scope.

(** ** C80: the export is read back as the database *)

(** [my_readable] says which databases: the types, defaults, keys, foreign keys and table options
    of SpecShownMysql in any combination; views and triggers of one form.  [my_shows] is what
    MySQL says of them.  The full statement asks this of every database; it is false, see below. *)
Theorem C80_mysql_export_is_read_back_partial d s :
  my_readable d = true -> my_shows d s ->
  exists text l, my_dump s = Some text /\ parse_file Mysql text = Ok l /\ map without_text l = dump (my_ideal d).
Proof.
  exact (fun R S => let (l, H) := my_dump_read d s _ R S (my_dump_shown d s R S) in ex_intro _ _ (ex_intro _ l (conj (my_dump_shown d s R S) H))).
Qed.
Print Assumptions C80_mysql_export_is_read_back_partial.

Example C80_example :
  my_readable warehouse = true /\ my_shows warehouse (server_of warehouse) /\
  option_map (fun text => length (split_statements text)) (my_dump (server_of warehouse)) = Some 4 /\
  option_map (fun text => last (split_statements text) "") (my_dump (server_of warehouse)) =
    Some "CREATE TRIGGER log AFTER INSERT ON users FOR EACH ROW insert into posts(id, author) values (1, NEW.id)" /\
  last (dump (my_ideal warehouse)) (DView (mkView "" "" "")) =
    DTrigger (mkTrigger "" "log" "users" "after" "insert" ["insert into posts(id, author) values (1, NEW.id)"]).
Proof. split; [exact warehouse_readable|]. split; [exact warehouse_shown|]. split; [|split]; vm_compute; reflexivity. Qed.

(** One of these in a table, and no export of the database is read: generated columns, YEAR of
    MySQL 5.7, CHECK, defaults of expressions, keys on expressions, attributes in special
    comments, a semicolon in a comment. *)
Theorem C80_tables_refuted : forall item,
  In item ["`b` int GENERATED ALWAYS AS ((`a` + 1)) VIRTUAL"; "`b` year(4) DEFAULT NULL"; "CONSTRAINT `t_chk_1` CHECK ((`a` > 0))";
           "`b` int DEFAULT (uuid())"; "KEY `i` ((lower(`a`)))"; "KEY `i` (`a`) /*!80000 INVISIBLE */"; "`b` point NOT NULL /*!80003 SRID 4326 */";
           "`b` int DEFAULT NULL /*!80023 INVISIBLE */"; "`b` int DEFAULT NULL COMMENT 'in cm; rounded'"; "`b` binary(2) DEFAULT 0x00"] ->
  fails (read_back (one_table item)) = true.
Proof. intros item H. repeat (destruct H as [<-|H]; [vm_compute; reflexivity|]). destruct H. Qed.
Print Assumptions C80_tables_refuted.

(** So with a view or a trigger the name of which must be written in backquotes, with a trigger of
    more than one statement, and with one that sets the row. *)
Theorem C80_names_refuted :
  (forall name, In name ["my-view"; "order"; "2020"] -> fails (read_back (one_view name "select 1 AS `1`" [])) = true) /\
  (forall table, In table ["order"; "my-table"] -> fails (read_back (one_trigger table "insert into x(a) values (1)")) = true) /\
  (forall body, In body ["begin insert into x(a) values (1); end"; "set NEW.a = 1"] -> fails (read_back (one_trigger "t" body)) = true).
Proof.
  split; [|split]; intros x H; (repeat (destruct H as [<-|H]; [vm_compute; reflexivity|])); destruct H.
Qed.
Print Assumptions C80_names_refuted.

(** A table or view the name of which has the quote in which it is asked for is not found. *)
Theorem C80_quoted_names_refuted :
  my_dump (mkMyServer [("a`b", "CREATE TABLE `a``b` (" ++ nl ++ "  `x` int DEFAULT NULL" ++ nl ++ ")")%string] [] [] []) = None /\
  my_dump (one_view "it's" "select 1 AS `1`" []) = None.
Proof. split; vm_compute; reflexivity. Qed.
Print Assumptions C80_quoted_names_refuted.

(** The definition of a view is asked for by its name alone: with a view of that name in another
    database the export shows the definition of that one, and the plan does not see the
    difference between the schema and the database. *)
Theorem C80_view_of_other_database_refuted :
  let mine := one_view "v" "select 1 AS `a`" [] in
  let shared := one_view "v" "select 1 AS `a`" [mkMyViewRow "other" "v" "select 2 AS `a`"] in
  let changed := one_view "v" "select 3 AS `a`" [mkMyViewRow "other" "v" "select 1 AS `a`"] in
  planned mine mine = Ok [] /\
  planned mine shared = Ok ["CREATE OR REPLACE VIEW `v` AS select 1 as a from dual"] /\
  planned mine changed = Ok [].
Proof. split; [|split]; vm_compute; reflexivity. Qed.
Print Assumptions C80_view_of_other_database_refuted.

(** These differences are not read: ZEROFILL, comments, the method of an index, the database of
    the referenced table. *)
Theorem C80_unread_refuted : forall a b,
  In (a, b) [("`b` int(5) unsigned zerofill DEFAULT NULL", "`b` int(5) unsigned DEFAULT NULL");
             ("`b` int DEFAULT NULL COMMENT 'cm'", "`b` int DEFAULT NULL COMMENT 'inches'");
             ("KEY `i` (`a`) USING HASH", "KEY `i` (`a`) USING BTREE");
             ("CONSTRAINT `f` FOREIGN KEY (`a`) REFERENCES `x`.`u` (`a`)", "CONSTRAINT `f` FOREIGN KEY (`a`) REFERENCES `u` (`a`)")] ->
  planned (one_table a) (one_table b) = Ok [].
Proof. intros a b H. repeat (destruct H as [E|H]; [injection E as <- <-; vm_compute; reflexivity|]). destruct H. Qed.
Print Assumptions C80_unread_refuted.

(** ** C81: one's own export changes nothing *)

(** [my_consistent] holds of every database: names are used once in a table. *)
Theorem C81_own_mysql_export_changes_nothing_partial d s text :
  my_readable d = true -> my_consistent d = true -> my_shows d s -> my_dump s = Some text ->
  plan_text Mysql text text = Ok [].
Proof. exact (fun R C S D => my_own_export d s text R S D C). Qed.
Print Assumptions C81_own_mysql_export_changes_nothing_partial.

Example C81_example :
  my_readable warehouse = true /\ my_consistent warehouse = true /\ my_shows warehouse (server_of warehouse) /\
  exists text, my_dump (server_of warehouse) = Some text.
Proof.
  split; [exact warehouse_readable|]. split; [exact warehouse_consistent|]. split; [exact warehouse_shown|].
  eexists. exact (my_dump_shown _ _ warehouse_readable warehouse_shown).
Qed.

(** ** C82: from the texts to the schema *)

(** The texts planned are those of a plan against the database itself. *)
Theorem C82_mysql_plan_is_made_for_the_database_partial d s current desired l texts :
  my_readable d = true -> my_shows d s -> my_dump s = Some current -> parse_file Mysql desired = Ok l ->
  (plan_text Mysql desired current = Ok texts <->
   exists out, plan Mysql l (dump (my_ideal d)) = Ok out /\ texts = map s_text out).
Proof. exact (fun R S D => my_plan_from_texts d s current R S D desired l texts). Qed.
Print Assumptions C82_mysql_plan_is_made_for_the_database_partial.

(** Executing the texts planned brings the database to the schema of the file. *)
Theorem C82_file_reaches_the_mysql_database_partial d s current desired l texts :
  my_readable d = true -> my_shows d s -> my_dump s = Some current -> catalogue_ok (my_ideal d) ->
  parse_file Mysql desired = Ok l -> mysql_schema l -> convertible l (my_ideal d) ->
  plan_text Mysql desired current = Ok texts ->
  exists out cat', texts = map s_text out /\ run_all out (my_ideal d) = Some cat' /\ reached l cat' /\ catalogue_ok cat'.
Proof. exact (fun R S D => my_texts_converge d s current R S D desired l texts). Qed.
Print Assumptions C82_file_reaches_the_mysql_database_partial.

(** A database that has the schema of the file is left alone. *)
Theorem C82_next_mysql_run_is_empty_partial d s current desired l :
  my_readable d = true -> my_shows d s -> my_dump s = Some current -> catalogue_ok (my_ideal d) ->
  parse_file Mysql desired = Ok l -> mysql_schema l -> reached l (my_ideal d) ->
  plan_text Mysql desired current = Ok [].
Proof. exact (fun R S D => my_texts_settled d s current R S D desired l). Qed.
Print Assumptions C82_next_mysql_run_is_empty_partial.

Example C82_example :
  my_readable yard = true /\ my_shows yard (server_of yard) /\ catalogue_ok (my_ideal yard) /\ parse_file Mysql yard_wants = Ok yard_parsed /\
  mysql_schema yard_parsed /\ convertible yard_parsed (my_ideal yard) /\
  exists current, my_dump (server_of yard) = Some current /\
  plan_text Mysql yard_wants current =
    Ok ["ALTER TABLE `users` CHANGE COLUMN `age` `age` bigint NOT NULL DEFAULT '20'";
        "ALTER TABLE `users` ADD COLUMN `name` varchar(40) NOT NULL AFTER `age`";
        "ALTER TABLE `users` ADD key `by_age` (`age`)";
        "ALTER TABLE `users` DROP INDEX `by_nick`";
        "ALTER TABLE `users` DROP COLUMN `nick`"].
Proof.
  split; [exact yard_readable|]. split; [exact yard_shown|]. split; [exact yard_ok|]. split; [exact yard_parses|]. split; [exact yard_schema|]. split; [exact yard_convertible|].
  eexists. split; [exact (my_dump_shown _ _ yard_readable yard_shown)|].
  apply (C82_mysql_plan_is_made_for_the_database_partial _ _ _ _ _ _ yard_readable yard_shown (my_dump_shown _ _ yard_readable yard_shown) yard_parses). eexists. split; vm_compute; reflexivity.
Qed.

Example C82_next_example :
  my_readable yard_after = true /\ my_shows yard_after (server_of yard_after) /\ catalogue_ok (my_ideal yard_after) /\ reached yard_parsed (my_ideal yard_after).
Proof.
  split; [exact yard_after_readable|]. split; [exact yard_after_shown|]. split; [exact yard_after_ok|].
  destruct (converges yard_parsed (my_ideal yard_after) [] yard_schema yard_after_ok yard_after_convertible) as (c & E & D & _); [vm_compute; reflexivity|]. injection E as <-. exact D.
Qed.
