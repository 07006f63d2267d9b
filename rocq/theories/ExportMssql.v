(** Model of /repo/adapter/mssql/mssql.go 33-67, 266-353, 394-472 and /repo/adapter/database.go
    29-58: the export of a whole SQL Server database.  Errors of the connection are not
    modelled.  [OBJECT_ID] finds the table of a schema and a name; names that mean something
    else between quotes or brackets are not modelled. *)
From Coq Require Import String Ascii List ZArith Bool Permutation.
From Verif Require Import GoStr SchemaParse Catalog AdapterPostgres AdapterMssql.
Import ListNotations.
Local Open Scope string_scope.

(** 279-298: what sys.indexes and sys.stats tell of an index, and the rows of
    sys.index_columns (314-324). *)
Record ms_index_row := mkMsIndexRow {
  mir_name : string; mir_primary : bool; mir_unique : bool; mir_type : string; mir_padded : bool; mir_fill : string; mir_ignore_dup : bool;
  mir_no_recompute : bool; mir_incremental : bool; mir_row_locks : bool; mir_page_locks : bool; mir_columns : list ms_index_column }.
Record ms_table := mkMsTable {
  mst_schema : string; mst_name : string; mst_columns : list ms_column; mst_indexes : list ms_index_row; mst_fks : list ms_fk_row }.
(** sys.objects of type U, sys.sql_modules of views, sys.all_sql_modules of triggers. *)
Record ms_server := mkMsServer { mss_tables : list ms_table; mss_views : list string; mss_triggers : list string }.

(** 394-400: [boolToOnOff]. *)
Definition on_off (b : bool) : string := if b then "ON" else "OFF".
(** 299-311: the options, shown for every index. *)
Definition ms_index_of (r : ms_index_row) : ms_index :=
  mkMsIndex (mir_name r) (mir_primary r) (mir_unique r) (mir_type r)
    [("PAD_INDEX", on_off (mir_padded r)); ("FILLFACTOR", mir_fill r); ("IGNORE_DUP_KEY", on_off (mir_ignore_dup r));
     ("STATISTICS_NORECOMPUTE", on_off (mir_no_recompute r)); ("STATISTICS_INCREMENTAL", on_off (mir_incremental r));
     ("ALLOW_ROW_LOCKS", on_off (mir_row_locks r)); ("ALLOW_PAGE_LOCKS", on_off (mir_page_locks r))]
    (mir_columns r).

(** 33-52: [TableNames]. *)
Definition ms_table_names (s : ms_server) : list string := map (fun t => mst_schema t ++ "." ++ mst_name t) (mss_tables s).

(** 54-67: [DumpTableDDL].  [getIndexDefs] gives the indexes in the order of a Go map, which is
    any order; a table that is not found has no rows. *)
Definition ms_find (s : ms_server) (table : string) : option ms_table :=
  let (schema, name) := split_table_name "dbo" table in
  List.find (fun t => String.eqb (mst_schema t) schema && String.eqb (mst_name t) name) (mss_tables s).
Definition ms_dump_table (s : ms_server) (table text : string) : Prop :=
  match ms_find s table with
  | Some t => exists shown, index_order (map ms_index_of (mst_indexes t)) shown /\ text = ms_build_dump table (mst_columns t) shown (mst_fks t)
  | None => text = ms_build_dump table [] [] []
  end.

(** 409-445: [Views]: white space at the ends, line breaks, a last semicolon and repeated blanks
    are removed; this is what postgres.go does with the definition of a view. *)
Definition ms_view_text (definition : string) : string := clean_definition definition.

(** database.go 29-58: [DumpDDLs]; triggers as they are (447-472). *)
Definition ms_dump (s : ms_server) (text : string) : Prop :=
  exists tables, Forall2 (ms_dump_table s) (ms_table_names s) tables /\
    text = join (";" ++ nl ++ nl) (tables ++ map ms_view_text (mss_views s) ++ mss_triggers s).
