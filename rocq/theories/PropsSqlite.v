(** Properties C83 and C84: an export of SQLite applied to its own database changes nothing, and a
    schema file applied to a SQLite database reaches the schema, from the texts on. *)
From Coq Require Import String Ascii List ZArith Bool.
From Verif Require Import GoStr GoStrFacts Ast Generator SchemaText SchemaParse Parser Planner Catalog AdapterSqlite SpecText SpecExport SpecPlan SpecLayout SpecSqlite
  DemoSqlite ProofSqlite ProofSqliteRun.
Import ListNotations.
Local Open Scope string_scope.
Local Open Scope list_scope.

(** ** C83: an export applied to its own database *)

(** For any catalogue of tables and views sqldef reads, whatever indexes, triggers and hidden
    tables it has beside them.  The full statement asks this of every catalogue; it is false, see
    below. *)
Theorem C83_own_sqlite_export_changes_nothing_partial master :
  lite_ok master -> (forall n t, holds master n (LTable t) -> settled SQLite3 [CreateTable "" t]) ->
  exists current, lite_dump master = Some current /\ plan_text SQLite3 current current = Ok [].
Proof. exact (fun K S => let (c, D) := sqlite_exported master K in ex_intro _ c (conj D (sqlite_own master c K S D))). Qed.
Print Assumptions C83_own_sqlite_export_changes_nothing_partial.

Example C83_example :
  lite_ok shop /\ (forall n t, holds shop n (LTable t) -> settled SQLite3 [CreateTable "" t]) /\
  option_map (fun c => length (split_statements c)) (lite_dump shop) = Some 5.
Proof.
  split; [exact shop_ok|]. split; [|vm_compute; reflexivity]. intros n t H.
  assert (n = "users" \/ n = "logs") as N.
  { destruct H as (r & x & R & O & T & E & _). apply objectb_object in O. vm_compute in R.
    repeat (destruct R as [<-|R]; [try (vm_compute in O; discriminate O); try discriminate T; cbn in E; auto|]); destruct R. }
  apply (holds_at_name _ _ _ shop_ok shop_rows) in H. destruct N as [-> | ->]; vm_compute in H; injection H as <-; (split; [names_once|split; [constructor|]]);
    intros d [<-|[]]; (split; [names_once|]); (split; [names_once|]); (split; [names_once|]); (split; [names_once|]); (split; [|split; intros ? []]);
    intros c C; cbn in C; destruct C as [<-|[<-|[]]]; repeat split; discriminate.
Qed.

(** Tables SQLite has, the export of which stops sqldef. *)
Theorem C83_tables_refuted : forall sql,
  In sql ["CREATE TABLE t (a)"; "CREATE VIRTUAL TABLE t USING fts5(a)"; "CREATE TABLE [t] ([a] integer)"; "CREATE TABLE t (a integer GENERATED ALWAYS AS (b) STORED)";
          "CREATE TABLE t (a integer, UNIQUE (a))"; "CREATE TABLE t (a integer, CHECK (a > 0))"; "CREATE TABLE t (a integer, FOREIGN KEY (a) REFERENCES u (id))";
          "CREATE TABLE t (a unsigned big int)"; "CREATE TABLE t (a text DEFAULT ';')"] ->
  exists e, own_plan (alone sql) = Err e.
Proof. intros sql H. repeat (destruct H as [<-|H]; [vm_compute; eexists; reflexivity|]). destruct H. Qed.
Print Assumptions C83_tables_refuted.

(** ** C84: a schema file reaches the database *)

(** The plan made for a catalogue is executed by SQLite to its end, and whatever texts SQLite
    keeps, it then has the tables and views of the file and no others.  Missing: tables that
    change (ALTER TABLE), and the objects of the refutations below. *)
Theorem C84_file_reaches_the_sqlite_database_partial file l master current :
  parse_file SQLite3 file = Ok l -> lite_schema l -> lite_ok master -> lite_convertible l master -> lite_dump master = Some current ->
  exists ds out, parse_file SQLite3 current = Ok ds /\ plan SQLite3 l ds = Ok out /\ plan_text SQLite3 file current = Ok (map s_text out) /\
    (forall pre s post m1, out = pre ++ s :: post -> executes_all pre master m1 -> exists m2, executes s m1 m2) /\
    (forall m', executes_all out master m' -> lite_ok m' /\ lite_reached l m').
Proof. exact (sqlite_run file l master current). Qed.
Print Assumptions C84_file_reaches_the_sqlite_database_partial.

(** The next run plans nothing. *)
Theorem C84_next_sqlite_run_is_empty_partial file l master :
  parse_file SQLite3 file = Ok l -> lite_schema l -> lite_ok master -> lite_reached l master ->
  exists current, lite_dump master = Some current /\ plan_text SQLite3 file current = Ok [].
Proof. exact (fun R S K H => let (c, D) := sqlite_exported master K in ex_intro _ c (conj D (sqlite_again file l master c R S K H D))). Qed.
Print Assumptions C84_next_sqlite_run_is_empty_partial.

Example C84_example :
  parse_file SQLite3 shop_file = Ok shop_parsed /\ lite_schema shop_parsed /\ lite_ok shop /\ lite_convertible shop_parsed shop /\
  option_map (plan_text SQLite3 shop_file) (lite_dump shop) = Some (Ok (map s_text shop_plan)) /\ length shop_plan = 6 /\
  executes_all shop_plan shop shop_after /\
  option_map (plan_text SQLite3 shop_file) (lite_dump shop_after) = Some (Ok []).
Proof.
  split; [exact shop_parses|]. split; [exact shop_schema|]. split; [exact shop_ok|]. split; [exact shop_convertible|].
  split; [vm_compute; reflexivity|]. split; [reflexivity|]. split; [exact shop_executed|vm_compute; reflexivity].
Qed.

(** An index stays in every plan: the export does not tell the indexes a catalogue has. *)
Theorem C84_index_refuted :
  option_map (plan_text SQLite3 indexed_file) (lite_dump indexed) = Some (Ok ["CREATE INDEX i ON t (a)"]).
Proof. vm_compute. reflexivity. Qed.
Print Assumptions C84_index_refuted.

(** A trigger of the file is never created. *)
Theorem C84_trigger_refuted : exists file, exists t,
  parse_file SQLite3 file = Ok [DTrigger t] /\ option_map (plan_text SQLite3 file) (lite_dump []) = Some (Ok []).
Proof. exists "CREATE TRIGGER g AFTER INSERT ON t FOR EACH ROW INSERT INTO u (a) VALUES (1);". eexists. split; vm_compute; reflexivity. Qed.
Print Assumptions C84_trigger_refuted.

(** A table cannot become a view: the view is created before the table is dropped. *)
Theorem C84_table_to_view_refuted :
  map s_text view_plan = ["CREATE VIEW t AS select 1"; "DROP TABLE `t`"] /\
  option_map (plan_text SQLite3 became_view) (lite_dump (alone x_t)) = Some (Ok (map s_text view_plan)) /\
  ~ exists m', executes_all view_plan (alone x_t) m'.
Proof.
  split; [reflexivity|]. split; [vm_compute; reflexivity|]. intros (m' & X). inversion X as [|s o a b c E _]; subst. inversion E as [|x v y a F K| | |]; subst.
  exact (F _ (or_introl eq_refl) eq_refl).
Qed.
Print Assumptions C84_table_to_view_refuted.
