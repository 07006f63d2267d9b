(** The parser's result for the statements sqldef reads: the part of /repo/sqlparser/ast.go
    below [DDL], field by field.

    Conventions as in Ast.v.  [ColIdent] and [TableIdent] are their texts.  An expression and
    a select statement are represented by what the rest of sqldef sees of them: the text
    [sqlparser.String] prints, and for a parenthesised expression that of its inside.  [None]
    is an expression whose printing panics.  Fields
    that only the parser's own formatter reads ([Comment], [Zerofill], [PartitionSpec],
    [VindexSpec], ...) are left out. *)
From Coq Require Import String Ascii List ZArith Bool.
From Verif Require Import GoStr Numerals.
Import ListNotations.
Local Open Scope string_scope.

(** [Expr]; [ParenExpr] 2224-2227. *)
Record expr := mkExpr { ex_text : option string; ex_inside : option (option string) }.

(** 2021-2025: [Where]. *)
Record where_clause := mkWhere { w_type : string; w_expr : expr }.

(** 1864-1867: [TableName]. *)
Record table_name := mkTableName { tn_name : string; tn_qualifier : string }.

(** 907-922: [Sequence]. *)
Record sql_sequence := mkSqlSequence {
  ss_name : string; ss_if_not_exists : bool; ss_type : string;
  ss_increment_by : option sql_val; ss_min_value : option sql_val; ss_no_min_value : option bool;
  ss_max_value : option sql_val; ss_no_max_value : option bool; ss_start_with : option sql_val;
  ss_cache : option sql_val; ss_cycle : option bool; ss_no_cycle : option bool; ss_owned_by : string }.

(** 929-933: [IdentityOpt]. *)
Record identity_opt := mkIdentityOpt {
  io_behavior : string; io_sequence : option sql_sequence; io_not_for_replication : bool }.

(** 978-987: [DefaultDefinition], [CheckDefinition]. *)
Record sql_default := mkSqlDefault { sd_value : option sql_val; sd_constraint : string }.
Record sql_check := mkSqlCheck { sc_where : where_clause; sc_constraint : string; sc_not_for_replication : bool }.

(** 1288-1299: [ColumnKeyOption], in the order of the constants. *)
Inductive col_key := ColKeyNone | ColKeyPrimary | ColKeySpatialKey | ColKeyUnique | ColKeyUniqueKey | ColKey.

(** 935-976: [ColumnType]. *)
Record column_type := mkColumnType {
  ct_type : string; ct_not_null : option bool; ct_autoincrement : bool;
  ct_default : option sql_default; ct_on_update : option sql_val;
  ct_check : option sql_check; ct_check_no_inherit : bool; ct_array : bool;
  ct_length : option sql_val; ct_unsigned : bool; ct_scale : option sql_val;
  ct_charset : string; ct_collate : string; ct_timezone : bool;
  ct_enum_values : list string; ct_key_opt : col_key;
  ct_references : string; ct_identity : option identity_opt }.

(** 885-889: [ColumnDefinition]. *)
Record column_definition := mkColumnDefinition { cd_name : string; cd_type : column_type }.

(** 1238-1247: [IndexInfo]; 1262-1267: [IndexColumn]; 1276-1286: [IndexOption],
    [IndexPartition]; 1191-1197: [IndexDefinition]. *)
Record index_info := mkIndexInfo {
  ii_type : string; ii_name : string; ii_primary : bool; ii_unique : bool; ii_clustered : bool }.
Record sql_index_column := mkSqlIndexColumn {
  sic_column : string; sic_length : option sql_val; sic_direction : string }.
Record sql_index_option := mkSqlIndexOption { sio_name : string; sio_value : option sql_val }.
Record sql_index_partition := mkSqlIndexPartition { sip_name : string; sip_column : string }.
Record index_definition := mkIndexDefinition {
  xd_info : index_info; xd_columns : list sql_index_column;
  xd_options : list sql_index_option; xd_partition : option sql_index_partition }.

(** 1301-1311: [IndexSpec]. *)
Record index_spec := mkIndexSpec {
  xs_name : string; xs_unique : bool; xs_clustered : bool; xs_included : list string;
  xs_where : option where_clause; xs_options : list sql_index_option;
  xs_partition : option sql_index_partition }.

(** 1389-1398: [ForeignKeyDefinition]. *)
Record fk_definition := mkFkDefinition {
  fd_constraint : string; fd_index_name : string; fd_index_columns : list string;
  fd_ref_name : string; fd_ref_columns : list string;
  fd_on_delete : string; fd_on_update : string; fd_not_for_replication : bool }.

(** 1400-1407: [Policy]. *)
Record sql_policy := mkSqlPolicy {
  sp_name : string; sp_permissive : string; sp_scope : string; sp_to : list string;
  sp_using : option where_clause; sp_with_check : option where_clause }.

(** 1590-1602: [View] and [Trigger]. *)
Record sql_view := mkSqlView { sv_name : table_name; sv_definition : option string }.
Record sql_trigger := mkSqlTrigger {
  st_name : string; st_table : table_name; st_time : string; st_event : string; st_body : list (option string) }.

(** 826-832: [TableSpec]. *)
Record table_spec := mkTableSpec {
  ts_columns : list column_definition; ts_indexes : list index_definition;
  ts_fks : list fk_definition; ts_options : string }.

(** 654-674: [DDL]. *)
Record sql_ddl := mkDDL {
  dd_action : string; dd_table : table_name; dd_new_name : table_name;
  dd_table_spec : option table_spec; dd_index_spec : option index_spec;
  dd_index_cols : list sql_index_column; dd_fk : option fk_definition;
  dd_policy : option sql_policy; dd_view : option sql_view; dd_trigger : option sql_trigger }.

(** What a parse returns: a DDL statement, or something else. *)
Inductive statement := SDdl (d : sql_ddl) | SOther.
