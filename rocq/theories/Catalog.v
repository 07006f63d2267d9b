(** What the databases hold, as far as the catalogue queries of /repo/adapter read it.

    The queries are SQL text inside the program; their meaning is that of the database.  These
    records are the catalogue relations; the query functions of AdapterPostgres.v,
    AdapterMssql.v and AdapterSqlite.v read them as the joins in the query texts do. *)
From Coq Require Import String Ascii List ZArith Bool.
Import ListNotations.
Local Open Scope string_scope.

(** ** PostgreSQL *)

(** A column as [information_schema.columns] shows it, and its type as [format_type] prints it. *)
Record pg_column := mkPgColumn {
  pc_name : string; pc_default : option string; pc_nullable : bool;
  pc_max_length : option Z; pc_type : string; pc_format : string; pc_identity : option string }.

(** [pg_constraint] and the constraint views of [information_schema].  The last five fields are
    those of a foreign key. *)
Inductive con_kind := ConPrimary | ConUnique | ConCheck | ConForeign.
Record pg_constraint := mkPgConstraint {
  con_name : string; con_kind_of : con_kind; con_columns : list string; con_def : string;
  con_ref_schema : string; con_ref_table : string; con_ref_columns : list string;
  con_on_update : string; con_on_delete : string }.

(** [pg_indexes] and [pg_policies]. *)
Record pg_index := mkPgIndex { pi_name : string; pi_def : string }.
Record pg_policy := mkPgPolicy {
  pp_name : string; pp_permissive : string; pp_roles : string; pp_cmd : string;
  pp_using : option string; pp_check : option string }.

Record pg_table := mkPgTable {
  pt_schema : string; pt_name : string; pt_columns : list pg_column;
  pt_constraints : list pg_constraint; pt_indexes : list pg_index; pt_policies : list pg_policy }.
Record pg_view := mkPgView { pv_schema : string; pv_name : string; pv_definition : string }.
Record pg_database := mkPgDatabase { pd_tables : list pg_table; pd_views : list pg_view }.

(** ** SQL Server: [sys.columns], [sys.indexes] with their columns, [sys.foreign_keys] *)
Record ms_identity := mkMsIdentity { mi_seed : string; mi_increment : string; mi_not_for_replication : bool }.
Record ms_check := mkMsCheck { mk_name : string; mk_definition : string; mk_not_for_replication : bool }.
Record ms_column := mkMsColumn {
  mc_name : string; mc_type : string; mc_max_length : string; mc_nullable : bool;
  mc_identity : option ms_identity; mc_default : option (string * string); mc_check : option ms_check }.
Record ms_index_column := mkMsIndexColumn { mx_name : string; mx_descending : bool; mx_included : bool }.
Record ms_index := mkMsIndex {
  mi_name : string; mi_primary : bool; mi_unique : bool; mi_type : string;
  mi_options : list (string * string); mi_columns : list ms_index_column }.
Record ms_fk_row := mkMsFkRow {
  mf_name : string; mf_column : string; mf_ref_table : string; mf_ref_column : string;
  mf_on_update : string; mf_on_delete : string; mf_not_for_replication : bool }.

(** ** SQLite: [sqlite_master] *)
Record lite_row := mkLiteRow { lr_type : string; lr_name : string; lr_table : string; lr_sql : option string }.

(** ** MySQL: the rows of [show triggers] and [show full tables] *)
Record my_trigger := mkMyTrigger {
  my_name : string; my_event : string; my_table : string; my_statement : string; my_timing : string }.
