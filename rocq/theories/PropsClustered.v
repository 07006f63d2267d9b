(** Property C97: CLUSTERED on SQL Server is planned as the file has it. *)
From Coq Require Import String Ascii List ZArith Bool.
From Verif Require Import GoStr Ast Generator SpecPlan SpecColumns SpecMysql SpecDatabase SpecSource SpecShownMssql SpecMssql SpecConvergeMs SpecClustered
  DemoPlan DemoConvergeMs ProofMsCheck ProofClustered.
Import ListNotations.
Local Open Scope string_scope.
Local Open Scope list_scope.

(** The full statement says of every plan that an index which is added is CLUSTERED exactly if
    the file asks for it, by the word or, for primary keys, by saying nothing.  It is false, see
    below: the word of the parsed index is kept, and the parser fills in the wrong one. *)
Theorem C97_added_index_keeps_its_word_partial desired current out st t i :
  plan Mssql desired current = Ok out -> In st out -> s_eff st = EffAddIndex t i ->
  In i (table_indexes_of t desired) /\ creates_index (i_clustered i) (i_unique i) (i_name i) (s_text st).
Proof. exact (added_index_word desired current out st t i). Qed.
Print Assumptions C97_added_index_keeps_its_word_partial.

Theorem C97_added_key_keeps_its_word_partial desired current out st t i :
  plan Mssql desired current = Ok out -> In st out -> s_eff st = EffAddPrimaryKey t i ->
  (In i (table_indexes_of t desired) \/ exists x, In x (tables_in desired) /\ t_name x = t /\ key_of_columns x i) /\
  adds_key (i_clustered i) (i_type i) (s_text st).
Proof. exact (added_key_word desired current out st t i). Qed.
Print Assumptions C97_added_key_keeps_its_word_partial.

Example C97_example : exists desired out st i,
  desired = ms_parsed "CREATE TABLE t (a int NOT NULL, b int, CONSTRAINT p PRIMARY KEY NONCLUSTERED (a), INDEX by_b UNIQUE NONCLUSTERED (b))" /\
  plan Mssql desired (ms_shown (ms_made "CREATE TABLE t (a int NOT NULL, b int)")) = Ok out /\ In st out /\ s_eff st = EffAddIndex "t" i /\
  map s_text out = ["ALTER TABLE [dbo].[t] ADD CONSTRAINT [p] primary key NONCLUSTERED ([a])"; "CREATE UNIQUE NONCLUSTERED INDEX [by_b] ON [dbo].[t] ([b])"].
Proof. do 4 eexists. split; [reflexivity|]. split; [vm_compute; reflexivity|]. split; [right; left; reflexivity|]. split; reflexivity. Qed.
Example C97_key_example : exists desired out st i,
  desired = ms_parsed "CREATE TABLE t (a int NOT NULL PRIMARY KEY, b int)" /\
  plan Mssql desired (ms_shown (ms_made "CREATE TABLE t (a int NOT NULL, b int)")) = Ok out /\ In st out /\ s_eff st = EffAddPrimaryKey "t" i /\
  map s_text out = ["ALTER TABLE [dbo].[t] ADD primary key CLUSTERED ([a])"].
Proof. do 4 eexists. split; [reflexivity|]. split; [vm_compute; reflexivity|]. split; [left; reflexivity|]. split; reflexivity. Qed.

(** ** What keeps the full statement from holding *)

(** An index without either word is added as the second clustered index of its table, which SQL
    Server rejects; in a new table the same words make an index that is not clustered. *)
Theorem C97_silent_index_becomes_clustered_refuted : exists desired db,
  ms_schema some_ways desired /\ ms_database_ok db /\ ms_convertible some_ways desired db /\
  db = ms_made "CREATE TABLE t (a int NOT NULL, b int, CONSTRAINT p PRIMARY KEY CLUSTERED (a))" /\
  desired = ms_parsed "CREATE TABLE t (a int NOT NULL, b int, CONSTRAINT p PRIMARY KEY CLUSTERED (a), INDEX by_b (b))" /\
  map clustered_indexes (db_tables db) = [["p"]] /\
  ms_texts desired db = Some ["CREATE CLUSTERED INDEX [by_b] ON [dbo].[t] ([b])"].
Proof.
  eexists _, _. split; [|split; [|split; [|split; [reflexivity|split; [reflexivity|split; vm_compute; reflexivity]]]]].
  - apply ms_schema_b_ok. vm_compute. reflexivity.
  - apply ms_database_b_ok. vm_compute. reflexivity.
  - apply ms_convertible_b_ok. vm_compute. reflexivity.
Qed.
Print Assumptions C97_silent_index_becomes_clustered_refuted.

(** A primary key without name and word is added as NONCLUSTERED; SQL Server makes it CLUSTERED. *)
Theorem C97_silent_key_becomes_nonclustered_refuted : exists desired db,
  ms_database_ok db /\ db = ms_made "CREATE TABLE t (a int NOT NULL, b int)" /\
  desired = ms_parsed "CREATE TABLE t (a int NOT NULL, b int, PRIMARY KEY (a))" /\
  ms_texts desired db = Some ["ALTER TABLE [dbo].[t] ADD primary key NONCLUSTERED ([a])"].
Proof.
  eexists _, _. split; [|split; [reflexivity|split; [reflexivity|vm_compute; reflexivity]]].
  apply ms_database_b_ok. vm_compute. reflexivity.
Qed.
Print Assumptions C97_silent_key_becomes_nonclustered_refuted.

(** A change of the word is not noticed; with a new clustered index the table is asked to have two. *)
Theorem C97_changed_word_is_ignored_refuted : exists db,
  ms_database_ok db /\ db = ms_made "CREATE TABLE t (a int NOT NULL, b int, CONSTRAINT p PRIMARY KEY CLUSTERED (a))" /\
  ms_texts (ms_parsed "CREATE TABLE t (a int NOT NULL, b int, CONSTRAINT p PRIMARY KEY NONCLUSTERED (a))") db = Some [] /\
  ms_texts (ms_parsed "CREATE TABLE t (a int NOT NULL, b int, CONSTRAINT p PRIMARY KEY NONCLUSTERED (a), INDEX by_b CLUSTERED (b))") db =
    Some ["CREATE CLUSTERED INDEX [by_b] ON [dbo].[t] ([b])"] /\
  map clustered_indexes (db_tables db) = [["p"]].
Proof.
  eexists. split; [|split; [reflexivity|repeat split; vm_compute; reflexivity]].
  apply ms_database_b_ok. vm_compute. reflexivity.
Qed.
Print Assumptions C97_changed_word_is_ignored_refuted.
