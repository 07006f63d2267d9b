(** Property C89: what sqldef sends to MySQL is said in MySQL's own words. *)
From Coq Require Import String Ascii List ZArith Bool.
From Verif Require Import GoStr GoStrFacts Ast Generator SchemaText SchemaParse Parser SpecPlan SpecMysql SpecLayout SpecShown SpecShownMysql SpecWordsMysql DemoPlan DemoReadMysql DemoWordsMysql
  ProofWordsMysqlPlan.
Import ListNotations.
Local Open Scope string_scope.
Local Open Scope list_scope.

(** ** C89: a statement has the words of ALTER TABLE and of SHOW CREATE TABLE *)

(** [my_words] covers adding, changing and dropping columns, keys and foreign keys and dropping
    tables, for definitions SHOW CREATE TABLE has the words for ([sayable_column] and so on say
    which).  The full statement asks this of every definition; it is false, see below. *)
Theorem C89_planned_in_the_words_of_mysql_partial desired current out st l :
  plan Mysql desired current = Ok out -> In st out -> my_words (s_eff st) l ->
  same_words Mysql (s_text st) (spell l).
Proof. exact (plan_words desired current out st l). Qed.
Print Assumptions C89_planned_in_the_words_of_mysql_partial.

Example C89_words_example :
  plan Mysql [declared club] [declared club_before] = Ok club_out /\ Forall2 (fun st l => my_words (s_eff st) l) club_out club_said /\
  nth 3 (map s_text club_out) "" =
    "ALTER TABLE `club` ADD COLUMN `since` timestamp(6) NOT NULL DEFAULT current_timestamp(6) ON UPDATE current_timestamp(6) AFTER `mood`" /\
  spell (nth 3 club_said []) =
    "ALTER TABLE `club` ADD COLUMN `since` timestamp(6) NOT NULL DEFAULT CURRENT_TIMESTAMP(6) ON UPDATE CURRENT_TIMESTAMP(6) AFTER `mood`".
Proof. split; [vm_compute; reflexivity|]. split; [exact club_said_plan|]. split; vm_compute; reflexivity. Qed.

(** The definitions sent for a table, put together, are read by sqldef as that table. *)
Theorem C89_definitions_are_the_table_partial desired current out t l :
  plan Mysql desired current = Ok out ->
  my_name (my_table_name t) = true -> my_options t = [] -> forallb sayable_item (my_items t) = true ->
  Forall2 (sent out (my_table_name t)) (my_items t) l ->
  exists d, parse_ddl parse_strict_ddl Mysql ("CREATE TABLE `" ++ my_table_name t ++ "` (" ++ join ", " l ++ ")") = Ok d /\
    without_text d = CreateTable "" (with_columns (SpecMysql.number 0 (t_columns (my_ideal_table t))) (my_ideal_table t)).
Proof. exact (definitions_read desired current out t l). Qed.
Print Assumptions C89_definitions_are_the_table_partial.

Example C89_definitions_example :
  plan Mysql [declared club] [declared club_before] = Ok club_out /\ forallb sayable_item (my_items club) = true /\
  Forall2 (sent club_out "club") (my_items club) club_definitions /\ length (my_items club) = 11.
Proof. split; [vm_compute; reflexivity|]. split; [vm_compute; reflexivity|]. split; [exact club_sent|reflexivity]. Qed.

(** Not so for columns: the values of a SET are not sent, nor is a quote or a backslash in a text
    protected, and of a default of several bits one is sent. *)
Theorem C89_columns_refuted : forall c,
  In c [ mkMyColumn "b" (MyEnum "set" "x" ["y"] None None) None (Some MyNull) None false None;
         mkMyColumn "b" (MyChars "varchar" 10 None None) None (Some (MyText "it's")) None false None;
         mkMyColumn "b" (MyChars "varchar" 10 None None) None (Some (MyText "a\b")) None false None;
         mkMyColumn "b" (MyEnum "enum" "it's" ["y"] None None) None (Some MyNull) None false None;
         mkMyColumn "b" (MyInteger "bit" (Some 2%Z) false) None (Some (MyBits "10")) None false None ] ->
  my_column_ok c = true /\ (exists d, sent_definition (small [c] []) = Some d) /\ read_column (small [c] []) <> Some [my_ideal_column c].
Proof.
  intros c H. repeat (destruct H as [<-|H]; [split; [vm_compute; reflexivity|]; split; [eexists; vm_compute; reflexivity|]; intros E; vm_compute in E; discriminate E|]). destruct H.
Qed.
Print Assumptions C89_columns_refuted.

(** Nor for keys: no plan is made for a key that names its method, and a comment is sent without
    its quotes. *)
Theorem C89_keys_refuted :
  let key o := small [] [mkMyKey KPlain "k" (on_column "a") [] [o]] in
  my_table_ok (key (KUsing "BTREE")) = true /\ add_plan (key (KUsing "BTREE")) = Panic /\
  my_table_ok (key (KComment "fast")) = true /\ sent_definition (key (KComment "fast")) = Some "key `k` (`a`) comment fast" /\
  read_key (key (KComment "fast")) = None.
Proof. vm_compute. repeat split; reflexivity. Qed.
Print Assumptions C89_keys_refuted.
