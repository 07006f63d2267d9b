(** The planner's view of a schema: /repo/schema/ast.go, field by field.

    Conventions: a Go pointer that may be nil is an [option]; a slice is a [list]; an [int]
    is a [Z]; [float64] is [GoNum.float64]; [[]byte] is a [string].  A nil slice and an empty
    slice are the same list. *)
From Coq Require Import String Ascii List ZArith Bool SpecFloat.
From Verif Require Import GoStr GoNum.
Import ListNotations.
Local Open Scope string_scope.

(** generator.go 16-23: [GeneratorMode]. *)
Inductive mode := Mysql | Postgres | SQLite3 | Mssql.

Definition mode_eqb (a b : mode) : bool :=
  match a, b with
  | Mysql, Mysql | Postgres, Postgres | SQLite3, SQLite3 | Mssql, Mssql => true
  | _, _ => false
  end.

(** ast.go [ValueType]. *)
Inductive value_type := VStr | VInt | VFloat | VHexNum | VHex | VValArg | VBit | VBool.

Definition value_type_eqb (a b : value_type) : bool :=
  match a, b with
  | VStr, VStr | VInt, VInt | VFloat, VFloat | VHexNum, VHexNum | VHex, VHex
  | VValArg, VValArg | VBit, VBit | VBool, VBool => true
  | _, _ => false
  end.

(** ast.go [Value]. *)
Record value := mkValue {
  v_type : value_type; v_raw : string;
  v_str : string; v_int : Z; v_float : float64; v_bit : bool }.

(** ast.go [ColumnKeyOption]. *)
Inductive key_option := KeyNone | KeyPrimary | KeySpatial | KeyUnique | KeyUniqueKey | KeyKey.

(** ast.go [isUnique] (last lines of the file). *)
Definition is_unique (k : key_option) : bool :=
  match k with KeyUnique | KeyUniqueKey => true | _ => false end.

Definition is_key_primary (k : key_option) : bool :=
  match k with KeyPrimary => true | _ => false end.

(** ast.go [Identity], [Sequence], [DefaultDefinition], [CheckDefinition]. *)
Record identity := mkIdentity { id_behavior : string; id_not_for_replication : bool }.

Record sequence := mkSequence {
  sq_name : string; sq_if_not_exists : bool; sq_type : string;
  sq_increment_by : option Z; sq_min_value : option Z; sq_no_min_value : bool;
  sq_max_value : option Z; sq_no_max_value : bool; sq_start_with : option Z;
  sq_cache : option Z; sq_cycle : bool; sq_no_cycle : bool; sq_owned_by : string }.

Record default_def := mkDefault { df_value : option value; df_constraint : string }.

Record check_def := mkCheck {
  ck_definition : string; ck_constraint : string; ck_not_for_replication : bool }.

(** ast.go [Column]. *)
Record column := mkColumn {
  c_name : string; c_position : Z; c_type : string; c_unsigned : bool;
  c_notnull : option bool; c_autoinc : bool; c_array : bool;
  c_default : option default_def; c_length : option value; c_scale : option value;
  c_check : option check_def; c_check_no_inherit : bool;
  c_charset : string; c_collate : string; c_timezone : bool;
  c_key : key_option; c_onupdate : option value; c_enum : list string;
  c_references : string; c_identity : option identity; c_sequence : option sequence }.

(** The two in-place updates of a (copied) column the planner performs. *)
Definition set_autoinc (b : bool) (c : column) : column :=
  mkColumn (c_name c) (c_position c) (c_type c) (c_unsigned c) (c_notnull c) b (c_array c)
    (c_default c) (c_length c) (c_scale c) (c_check c) (c_check_no_inherit c) (c_charset c)
    (c_collate c) (c_timezone c) (c_key c) (c_onupdate c) (c_enum c) (c_references c)
    (c_identity c) (c_sequence c).

Definition set_key (k : key_option) (c : column) : column :=
  mkColumn (c_name c) (c_position c) (c_type c) (c_unsigned c) (c_notnull c) (c_autoinc c)
    (c_array c) (c_default c) (c_length c) (c_scale c) (c_check c) (c_check_no_inherit c)
    (c_charset c) (c_collate c) (c_timezone c) k (c_onupdate c) (c_enum c) (c_references c)
    (c_identity c) (c_sequence c).

(** ast.go [IndexColumn], [IndexOption], [IndexPartition], [Index]. *)
Record index_column := mkIndexColumn {
  ic_column : string; ic_length : option Z; ic_direction : string }.

Record index_option := mkIndexOption { io_name : string; io_value : option value }.

Record index := mkIndex {
  i_name : string; i_type : string; i_columns : list index_column;
  i_primary : bool; i_unique : bool; i_where : string; i_included : list string;
  i_clustered : bool; i_partition_name : string; i_partition_column : string;
  i_options : list index_option }.

(** ast.go [ForeignKey], [Policy], [Table], [View], [Trigger]. *)
Record foreign_key := mkForeignKey {
  fk_constraint : string; fk_index_name : string; fk_index_columns : list string;
  fk_ref_name : string; fk_ref_columns : list string;
  fk_on_delete : string; fk_on_update : string; fk_not_for_replication : bool }.

Record policy := mkPolicy {
  p_name : string; p_ref_name : string; p_permissive : string; p_scope : string;
  p_roles : list string; p_using : string; p_with_check : string }.

Record table := mkTable {
  t_name : string; t_columns : list column; t_indexes : list index;
  t_fks : list foreign_key; t_policies : list policy }.

Record view := mkView { vw_statement : string; vw_name : string; vw_definition : string }.

Record trigger := mkTrigger {
  tr_statement : string; tr_name : string; tr_table : string;
  tr_time : string; tr_event : string; tr_body : list string }.

(** ast.go [DDL]: the parsed statements. *)
Inductive ddl :=
| CreateTable (statement : string) (t : table)
| CreateIndex (statement : string) (table_name : string) (i : index)
| AddIndex (statement : string) (table_name : string) (i : index)
| AddPrimaryKey (statement : string) (table_name : string) (i : index)
| AddForeignKey (statement : string) (table_name : string) (fk : foreign_key)
| AddPolicy (statement : string) (table_name : string) (p : policy)
| DView (v : view)
| DTrigger (t : trigger).

(** ast.go [Statement()]. *)
Definition ddl_statement (d : ddl) : string :=
  match d with
  | CreateTable s _ | CreateIndex s _ _ | AddIndex s _ _ | AddPrimaryKey s _ _
  | AddForeignKey s _ _ | AddPolicy s _ _ => s
  | DView v => vw_statement v
  | DTrigger t => tr_statement t
  end.

(** ast.go [PrimaryKey()]: the first primary index, else one made of the columns declared
    PRIMARY KEY, else nil. *)
Definition primary_key (t : table) : option index :=
  match find i_primary (t_indexes t) with
  | Some i => Some i
  | None =>
      match map (fun c => mkIndexColumn (c_name c) None "")
                (filter (fun c => is_key_primary (c_key c)) (t_columns t)) with
      | [] => None
      | cols => Some (mkIndex "PRIMARY" "primary key" cols true true "" [] true "" "" [])
      end
  end.
