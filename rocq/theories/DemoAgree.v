(** Databases for the examples of C102. *)
From Coq Require Import String Ascii List ZArith Bool Lia.
From Verif Require Import GoStr Ast Generator Catalog AdapterSqlite Parser Planner SpecPlan SpecColumns SpecOrder SpecMysql SpecDatabase SpecPostgres SpecMssql
  SpecConverge SpecConvergePg SpecConvergeMs SpecSqlite DemoPlan DemoConverge DemoConvergePg DemoConvergeMs DemoSqlite ProofMsCheck ProofPgCheck.
Import ListNotations.
Local Open Scope string_scope.
Local Open Scope list_scope.

Definition bare : catalogue := mkCatalogue [] [] [].
Lemma bare_ok : catalogue_ok bare.
Proof. constructor; cbn; try constructor; contradiction. Qed.
Lemma bare_convertible l : convertible l bare.
Proof. split; cbn; [intros t s _ []|intros n []]. Qed.

Definition with_scale (z : Z) (s : string) (c : column) : column :=
  mkColumn (c_name c) (c_position c) (c_type c) (c_unsigned c) (c_notnull c) (c_autoinc c) (c_array c) (c_default c)
    (c_length c) (Some (int_value z s)) (c_check c) (c_check_no_inherit c) (c_charset c) (c_collate c) (c_timezone c) (c_key c)
    (c_onupdate c) (c_enum c) (c_references c) (c_identity c) (c_sequence c).
Definition with_collation (s : string) (c : column) : column :=
  mkColumn (c_name c) (c_position c) (c_type c) (c_unsigned c) (c_notnull c) (c_autoinc c) (c_array c) (c_default c)
    (c_length c) (c_scale c) (c_check c) (c_check_no_inherit c) (c_charset c) s (c_timezone c) (c_key c)
    (c_onupdate c) (c_enum c) (c_references c) (c_identity c) (c_sequence c).

(** A price with two or four digits after the point. *)
Definition priced (z : Z) (s : string) : column := with_scale z s (with_length 10 "10" (col "price" 0 "decimal")).
Definition prices (z : Z) (s : string) : catalogue := one (mkTable "t" [priced z s] [] [] []).
Definition price_file : list ddl := only (mkTable "t" [priced 2 "2"] [] [] []).
Lemma price_schema : mysql_schema price_file.
Proof. schema_ok. Qed.
Lemma prices2_ok : catalogue_ok (prices 2 "2").
Proof. cat_ok. Qed.
Lemma prices4_ok : catalogue_ok (prices 4 "4").
Proof. cat_ok. Qed.

(** A name for which an earlier file gave a collation. *)
Definition named_col (c : string) : column := with_collation c (with_length 10 "10" (col "name" 0 "varchar")).
Definition plain_file : list ddl := only (mkTable "t" [named_col ""] [] [] []).
Definition collated_file : list ddl := only (mkTable "t" [named_col "utf8mb4_bin"] [] [] []).
Definition collated : catalogue := one (mkTable "t" [named_col "utf8mb4_bin"] [] [] []).
Definition uncollated : catalogue := one (mkTable "t" [named_col ""] [] [] []).
Lemma plain_file_schema : mysql_schema plain_file.
Proof. schema_ok. Qed.
Lemma collated_file_schema : mysql_schema collated_file.
Proof. schema_ok. Qed.

(** PostgreSQL. *)
Lemma pg_empty_ok : database_ok pg_empty.
Proof. constructor; cbn; try constructor; contradiction. Qed.

Lemma ms_none_ok : ms_database_ok ms_none.
Proof. constructor; cbn; try constructor; contradiction. Qed.
Lemma ms_none_convertible l : ms_convertible some_ways l ms_none.
Proof. constructor; cbn; [intros t s _ []|intros n []]. Qed.

Lemma no_rows_ok : lite_ok [].
Proof. constructor; cbn; try contradiction. intros [|? ?] r b E; discriminate. Qed.
Lemma no_rows_convertible l : lite_convertible l [].
Proof.
  constructor; cbn; try contradiction.
  - intros t o _ (r & x & [] & _).
  - intros v o _ (r & x & [] & _).
Qed.

(** A UNIQUE column, with and without another unique index that begins with it. *)
Definition unique_file : list ddl := t_only [key KeyUnique (col "a" 0 "integer"); col "b" 1 "integer"].
Definition unique_one : database pg_tab :=
  pg_one (mkPg "public.t" [col "a" 0 "integer"; col "b" 0 "integer"] None [pg_unique "public.t" "a"] ["t_a_key"] [] []).
Definition unique_two : database pg_tab :=
  pg_one (mkPg "public.t" [col "a" 0 "integer"; col "b" 0 "integer"] None [pg_unique "public.t" "a"; idx "a_b" true ["a"; "b"]] ["t_a_key"] [] []).
Lemma unique_schema : pg_schema unique_file.
Proof. pg_schema_ok. Qed.
Lemma unique_one_ok : database_ok unique_one.
Proof. pg_database_ok. Qed.
Lemma unique_two_ok : database_ok unique_two.
Proof. pg_database_ok. Qed.

(** An index for which an earlier file gave a fill factor. *)
Definition filled_file : string := "CREATE TABLE t (a int); CREATE INDEX i ON t (a) WITH (FILLFACTOR = 70);".
Definition unfilled_file : string := "CREATE TABLE t (a int); CREATE INDEX i ON t (a);".
Definition fill_factors (c : database ms_tab) : list (option string) :=
  flat_map (fun g => flat_map (fun i => flat_map (fun o => if String.eqb (io_name o) "fillfactor" then [option_map v_raw (io_value o)] else [])
                                          (i_options i)) (m_indexes g)) (db_tables c).
