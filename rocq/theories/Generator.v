(** Function-by-function model of /repo/schema/generator.go (the planner).

    Conventions
    - A Go function that may return an error, panic or call [log.Fatal] returns [res].
      The partial list Go returns together with an error is dropped: the only caller
      (sqldef.go 50-54) prints the error and exits.  Error values are structured; their
      message text is not rendered.
    - Every planned statement is a [stmt]: the exact SQL text the code produces, together with
      a ghost [effect] naming what the statement asks the database to do.  The text never
      depends on the effect; the effect is only used to state specifications.
    - Mutation of a table through a pointer is an update of the first table of that name in
      the list (the one [findTableByName] returns).  Sharing of slice backing arrays is not
      modelled; see DESIGN.md for why it is unobservable unless one table is created twice. *)
From Coq Require Import String Ascii List ZArith Bool SpecFloat.
From Verif Require Import GoStr GoNum Ast.
Import ListNotations.
Local Open Scope string_scope.
Local Open Scope list_scope.

(** ** Outcomes *)

(** The error values of generator.go, by the place that creates them. *)
Inductive gerror :=
| EUnexpectedDesired (d : ddl)                   (* 138 *)
| EUnexpectedCurrent (d : ddl)                   (* 1148 *)
| EBeforeCreateTable (statement : string)        (* 1112, 1118, 1132, 1139 *)
| EInexistentTable (table statement : string)    (* 532, 594 *)
| ENotYetCreated (table statement : string)      (* 561, 579, 612 *)
| EDoublyCreated (name table statement : string) (* 564, 582, 615, 643 *)
| ENoForeignKeySymbol (table index : string)     (* 493-498 *)
| EPrimaryKeyRename (table desired current : string) (* 735-739 *)
| EUnsupportedKey (c : column)                   (* 850 *)
| EUnsupportedDefault (t : value_type)           (* 1627 *)
| EParse (message : string).                     (* errors of the parser, not of this file *)

Inductive res (A : Type) :=
| Ok (a : A)
| Err (e : gerror)
| Panic              (* nil dereference or index out of range *)
| Fatal.             (* log.Fatal *)
Arguments Ok {A} a. Arguments Err {A} e. Arguments Panic {A}. Arguments Fatal {A}.

Definition bind {A B} (x : res A) (f : A -> res B) : res B :=
  match x with Ok a => f a | Err e => Err e | Panic => Panic | Fatal => Fatal end.

Notation "'do' x <- a ; b" := (bind a (fun x => b))
  (at level 200, x pattern, a at level 100, b at level 200, right associativity).

(** Run [f] over a list, collecting the lists it returns; the first failure wins. *)
Fixpoint concat_map {A B} (f : A -> res (list B)) (l : list A) : res (list B) :=
  match l with
  | [] => Ok []
  | x :: l' => do a <- f x; do b <- concat_map f l'; Ok (a ++ b)
  end.

(** ** Planned statements *)

Inductive col_pos := PosNone | PosFirst | PosAfter (c : string).

(** What a planned statement asks the database to do. *)
Inductive effect :=
| EffVerbatim (d : ddl)                        (* the user's own statement *)
| EffDropTable (t : string)
| EffDropView (v : string)
| EffCreateView (v def : string)
| EffReplaceView (v def : string)
| EffDropPolicy (p t : string)
| EffDropTrigger (n : string)
| EffCreateTrigger (tr : trigger)
| EffCreateOrAlterTrigger (tr : trigger)
| EffAddColumn (t : string) (c : column) (p : col_pos)
| EffChangeColumn (t : string) (old : string) (c : column) (p : col_pos)
| EffDropColumn (t c : string)
| EffAddUniqueKey (t c : string)
| EffAlterType (t c : string) (ty : column)
| EffDropNotNull (t c : string)
| EffSetNotNull (t c : string)
| EffAddIdentity (t c : string) (i : identity) (s : option sequence)
| EffDropIdentity (t c : string)
| EffSetIdentity (t c : string) (i : identity)
| EffDropDefault (t c : string)
| EffSetDefault (t c : string) (d : default_def)
| EffAddDefault (t c : string) (d : default_def)      (* SQL Server *)
| EffDropDefaultConstraint (t c n : string)           (* SQL Server: default of column c *)
| EffDropCheck (t c n : string)                       (* check constraint n of column c *)
| EffAddCheck (t c n : string) (k : check_def) (no_inherit : bool)
| EffDropPrimaryKey (t : string)
| EffDropPrimaryConstraint (t n : string)             (* SQL Server clean-up *)
| EffAddPrimaryKey (t : string) (i : index)
| EffAddIndex (t : string) (i : index)
| EffDropIndex (t i : string)
| EffNothing (t : string)                             (* the empty statement, for table t *)
| EffDropForeignKey (t f : string)
| EffAddForeignKey (t : string) (f : foreign_key).

Record stmt := mkStmt { s_text : string; s_eff : effect }.

(** ** Escaping, 1024-1055 *)

(** 1046-1055 [escapeSQLName] *)
Definition escape_sql_name (m : mode) (name : string) : string :=
  match m with
  | Postgres => dq ++ name ++ dq
  | Mssql => "[" ++ name ++ "]"
  | _ => "`" ++ name ++ "`"
  end.

(** 1024-1044 [escapeTableName] *)
Definition escape_table_name (m : mode) (name : string) : string :=
  match m with
  | Postgres | Mssql =>
      let '(schema, tbl) :=
        match split_first "." name with
        | None => (match m with Postgres => "public" | _ => "dbo" end, name)
        | Some p => p
        end in
      escape_sql_name m schema ++ "." ++ escape_sql_name m tbl
  | _ => escape_sql_name m name
  end.

(** ** Values and definitions *)

(** 1610-1629 [generateDefaultDefinition] *)
Definition generate_default_definition (v : value) : res string :=
  match v_type v with
  | VStr => Ok ("DEFAULT '" ++ v_str v ++ "'")%string
  | VInt => Ok ("DEFAULT " ++ show_Z (v_int v))%string
  | VFloat => Ok ("DEFAULT " ++ show_f (v_float v))%string
  | VBit => Ok (if v_bit v then "DEFAULT b'1'" else "DEFAULT b'0'")
  | VValArg => Ok ("DEFAULT " ++ v_raw v)%string
  | t => Err (EUnsupportedDefault t)
  end.

Definition opt_clause (word : string) (z : option Z) : string :=
  match z with Some n => (word ++ " " ++ show_Z n ++ " ")%string | None => "" end.

(** 1574-1608 [generateSequenceClause] *)
Definition generate_sequence_clause (s : sequence) : string :=
  trim_space (
    (if String.eqb (sq_name s) "" then "" else "SEQUENCE NAME " ++ sq_name s ++ " ") ++
    opt_clause "START WITH" (sq_start_with s) ++
    opt_clause "INCREMENT BY" (sq_increment_by s) ++
    opt_clause "MINVALUE" (sq_min_value s) ++
    (if sq_no_min_value s then "NO MINVALUE " else "") ++
    opt_clause "MAXVALUE" (sq_max_value s) ++
    (if sq_no_max_value s then "NO MAXVALUE " else "") ++
    opt_clause "CACHE" (sq_cache s) ++
    (if sq_cycle s then "CYCLE " else "") ++
    (if sq_no_cycle s then "NO CYCLE " else ""))%string.

(** 759-779 [generateDataType] *)
Definition generate_data_type (c : column) : string :=
  let suffix := if c_array c then "[]" else "" in
  match c_length c with
  | Some l =>
      match c_scale c with
      | Some s => (c_type c ++ "(" ++ v_raw l ++ ", " ++ v_raw s ++ ")" ++ suffix)%string
      | None => (c_type c ++ "(" ++ v_raw l ++ ")" ++ suffix)%string
      end
  | None =>
      if String.eqb (c_type c) "enum"
      then (c_type c ++ "(" ++ join ", " (c_enum c) ++ ")" ++ suffix)%string
      else (c_type c ++ suffix)%string
  end.

(** 781-865 [generateColumnDefinition] *)
Definition generate_column_definition (m : mode) (c : column) (enable_unique : bool)
  : res string :=
  let d1 := (escape_sql_name m (c_name c) ++ " " ++ generate_data_type c ++ " ")%string in
  let d2 := if c_unsigned c then "UNSIGNED " else "" in
  let d3 := if c_timezone c then "WITH TIME ZONE " else "" in
  let d4 := if String.eqb (c_charset c) "" then ""
            else ("CHARACTER SET " ++ c_charset c ++ " ")%string in
  let d5 := if String.eqb (c_collate c) "" then ""
            else ("COLLATE " ++ c_collate c ++ " ")%string in
  let is_not_null := match c_notnull c with Some true => true | _ => false end in
  let no_identity := match c_identity c with None => true | Some _ => false end in
  let d6 := if no_identity && (is_not_null || is_key_primary (c_key c)) then "NOT NULL "
            else match c_notnull c with Some false => "NULL " | _ => "" end in
  do d7 <- match c_default c with
           | Some d => match df_value d with
                       | Some v => do s <- generate_default_definition v; Ok (s ++ " ")%string
                       | None => Ok ""
                       end
           | None => Ok ""
           end;
  let d8 := if c_autoinc c then "AUTO_INCREMENT " else "" in
  let d9 := match c_onupdate c with
            | Some v => ("ON UPDATE " ++ v_raw v ++ " ")%string | None => "" end in
  let d10 := match c_check c with
             | Some k => ("CHECK " ++
                          (if ck_not_for_replication k then "NOT FOR REPLICATION " else "") ++
                          "(" ++ ck_definition k ++ ") ")%string
             | None => ""
             end in
  let d11 := if c_check_no_inherit c then "NO INHERIT " else "" in
  do d12 <- match c_key c with
            | KeyNone | KeyPrimary => Ok ""
            | KeyUnique => Ok (if enable_unique then "UNIQUE " else "")
            | KeyUniqueKey => Ok (if enable_unique then "UNIQUE KEY " else "")
            | KeySpatial | KeyKey => Err (EUnsupportedKey c)
            end;
  let generated := match c_identity c with
                   | Some i => if String.eqb (id_behavior i) "" then None else Some i
                   | None => None
                   end in
  do d13 <- match generated with
            | Some i =>
                Ok ("GENERATED " ++ id_behavior i ++ " AS IDENTITY " ++
                    match c_sequence c with
                    | Some s => "(" ++ generate_sequence_clause s ++ ") "
                    | None => ""
                    end)%string
            | None =>
                match m, c_sequence c with
                | Mssql, Some s =>
                    match sq_start_with s, sq_increment_by s, c_identity c with
                    | Some a, Some b, Some i =>
                        Ok ("IDENTITY(" ++ show_Z a ++ "," ++ show_Z b ++ ")" ++
                            if id_not_for_replication i then " NOT FOR REPLICATION" else "")%string
                    | _, _, _ => Panic
                    end
                | _, _ => Ok ""
                end
            end;
  Ok (trim_suffix_space
        (d1 ++ d2 ++ d3 ++ d4 ++ d5 ++ d6 ++ d7 ++ d8 ++ d9 ++ d10 ++ d11 ++ d12 ++ d13)%string).

(** ** Indexes and foreign keys as text *)

(** 953-966, the loop over the options in [generateIndexOptionDefinition] for SQL Server. *)
Fixpoint mssql_options (l : list index_option) : res (list string) :=
  match l with
  | [] => Ok []
  | o :: l' =>
      match io_value o with
      | None => Panic
      | Some v =>
          let x := if value_type_eqb (v_type v) VBool
                   then (if String.eqb (v_raw v) "true" then "ON" else "OFF")
                   else v_raw v in
          do r <- mssql_options l';
          Ok ((io_name o ++ " = " ++ x)%string :: r)
      end
  end.

(** 940-971 [generateIndexOptionDefinition] *)
Definition generate_index_option_definition (m : mode) (opts : list index_option) : res string :=
  match opts with
  | [] => Ok ""
  | o :: _ =>
      match m with
      | Mysql =>
          let n := if String.eqb (io_name o) "parser" then ("WITH " ++ io_name o)%string
                   else io_name o in
          match io_value o with
          | None => Panic
          | Some v => Ok (" " ++ n ++ " " ++ v_raw v)%string
          end
      | Mssql => do l <- mssql_options opts; Ok (" WITH (" ++ join ", " l ++ ")")%string
      | _ => Ok ""
      end
  end.

(** 880-889, one column of [generateAddIndex]. *)
Definition index_column_text (m : mode) (c : index_column) : string :=
  (escape_sql_name m (ic_column c) ++
   match ic_length c with Some n => "(" ++ show_Z n ++ ")" | None => "" end ++
   if String.eqb (ic_direction c) "desc" then " " ++ ic_direction c else "")%string.

(** 867-938 [generateAddIndex] *)
Definition generate_add_index (m : mode) (tbl : string) (i : index) : res string :=
  let unique_option := if i_unique i then " UNIQUE" else "" in
  let clustered_option := if i_clustered i then " CLUSTERED" else " NONCLUSTERED" in
  let columns := map (index_column_text m) (i_columns i) in
  do option_definition <- generate_index_option_definition m (i_options i);
  let tail := (" (" ++ join ", " columns ++ ")" ++ option_definition)%string in
  match m with
  | Mssql =>
      if i_primary i then
        Ok ("ALTER TABLE " ++ escape_table_name m tbl ++ " ADD" ++
            (if String.eqb (i_name i) "PRIMARY" then ""
             else " CONSTRAINT " ++ escape_sql_name m (i_name i)) ++
            " " ++ i_type i ++ clustered_option ++ tail)%string
      else
        let partition :=
          if String.eqb (i_partition_name i) "" then ""
          else (" ON " ++ escape_sql_name m (i_partition_name i) ++
                if String.eqb (i_partition_column i) "" then ""
                else " (" ++ escape_sql_name m (i_partition_column i) ++ ")")%string in
        Ok ("CREATE" ++ unique_option ++ clustered_option ++ " INDEX " ++
            escape_sql_name m (i_name i) ++ " ON " ++ escape_table_name m tbl ++
            tail ++ partition)%string
  | _ =>
      Ok ("ALTER TABLE " ++ escape_table_name m tbl ++ " ADD " ++ i_type i ++
          (if i_primary i then "" else " " ++ escape_sql_name m (i_name i)) ++ tail)%string
  end.

Definition stmt_add_index (m : mode) (tbl : string) (i : index) : res stmt :=
  do s <- generate_add_index m tbl i;
  Ok (mkStmt s (if i_primary i then EffAddPrimaryKey tbl i else EffAddIndex tbl i)).

(** 973-1009 [generateForeignKeyDefinition] *)
Definition generate_foreign_key_definition (m : mode) (f : foreign_key) : string :=
  trim_suffix_space
    ("CONSTRAINT " ++ escape_sql_name m (fk_constraint f) ++ " FOREIGN KEY " ++
     (if String.eqb (fk_index_name f) "" then "" else escape_sql_name m (fk_index_name f) ++ " ") ++
     "(" ++ join "," (map (escape_sql_name m) (fk_index_columns f)) ++ ") REFERENCES " ++
     escape_sql_name m (fk_ref_name f) ++ " (" ++
     join "," (map (escape_sql_name m) (fk_ref_columns f)) ++ ") " ++
     (if String.eqb (fk_on_delete f) "" then "" else "ON DELETE " ++ fk_on_delete f ++ " ") ++
     (if String.eqb (fk_on_update f) "" then "" else "ON UPDATE " ++ fk_on_update f ++ " ") ++
     (if fk_not_for_replication f then "NOT FOR REPLICATION " else ""))%string.

(** 1011-1022 [generateDropIndex].  For SQLite the text is empty. *)
Definition stmt_drop_index (m : mode) (tbl i : string) : stmt :=
  match m with
  | Mysql => mkStmt ("ALTER TABLE " ++ escape_table_name m tbl ++ " DROP INDEX " ++
                     escape_sql_name m i)%string (EffDropIndex tbl i)
  | Postgres => mkStmt ("DROP INDEX " ++ escape_sql_name m i)%string (EffDropIndex tbl i)
  | Mssql => mkStmt ("DROP INDEX " ++ escape_sql_name m i ++ " ON " ++
                     escape_table_name m tbl)%string (EffDropIndex tbl i)
  | SQLite3 => mkStmt "" (EffNothing tbl)
  end.

(** ** Lookup by name, 1175-1254: the first element of that name. *)
Definition find_table (l : list table) (n : string) : option table :=
  find (fun t => String.eqb (t_name t) n) l.
Definition find_column (l : list column) (n : string) : option column :=
  find (fun c => String.eqb (c_name c) n) l.
Definition find_index (l : list index) (n : string) : option index :=
  find (fun i => String.eqb (i_name i) n) l.
Definition find_option (l : list index_option) (n : string) : option index_option :=
  find (fun o => String.eqb (io_name o) n) l.
Definition find_fk (l : list foreign_key) (n : string) : option foreign_key :=
  find (fun f => String.eqb (fk_constraint f) n) l.
Definition find_policy (l : list policy) (n : string) : option policy :=
  find (fun p => String.eqb (p_name p) n) l.
Definition find_view (l : list view) (n : string) : option view :=
  find (fun v => String.eqb (vw_name v) n) l.
Definition find_trigger (l : list trigger) (n : string) : option trigger :=
  find (fun t => String.eqb (tr_name t) n) l.

(** Mutation through the pointer [findTableByName] returns. *)
Fixpoint update_table (f : table -> table) (n : string) (l : list table) : list table :=
  match l with
  | [] => []
  | t :: l' => if String.eqb (t_name t) n then f t :: l' else t :: update_table f n l'
  end.

Definition set_columns (cs : list column) (t : table) : table :=
  mkTable (t_name t) cs (t_indexes t) (t_fks t) (t_policies t).
Definition set_indexes (is : list index) (t : table) : table :=
  mkTable (t_name t) (t_columns t) is (t_fks t) (t_policies t).
Definition set_fks (fs : list foreign_key) (t : table) : table :=
  mkTable (t_name t) (t_columns t) (t_indexes t) fs (t_policies t).
Definition set_policies (ps : list policy) (t : table) : table :=
  mkTable (t_name t) (t_columns t) (t_indexes t) (t_fks t) ps.

(** 1497-1545 [convert*Names]. *)
Definition column_names (l : list column) : list string := map c_name l.
Definition index_names (l : list index) : list string := map i_name l.
Definition fk_names (l : list foreign_key) : list string := map fk_constraint l.
Definition policy_names (l : list policy) : list string := map p_name l.
Definition view_names (l : list view) : list string := map vw_name l.

(** 1521-1531 [convertForeignKeysToIndexNames] *)
Fixpoint fk_index_names (l : list foreign_key) : list string :=
  match l with
  | [] => []
  | f :: l' =>
      if negb (String.eqb (fk_index_name f) "") then fk_index_name f :: fk_index_names l'
      else if negb (String.eqb (fk_constraint f) "") then fk_constraint f :: fk_index_names l'
      else fk_index_names l'
  end.

(** ** Comparisons, 1256-1483 *)

(** 1057-1068 [notNull] *)
Definition not_null (m : mode) (c : column) : bool :=
  match c_notnull c with
  | None => match m with
            | Postgres => String.eqb (c_type c) "serial" || String.eqb (c_type c) "bigserial"
            | _ => false
            end
  | Some b => b
  end.

(** 1070-1085 [isPrimaryKey] *)
Definition is_primary_key (c : column) (t : table) : bool :=
  is_key_primary (c_key c) ||
  existsb (fun i => i_primary i &&
                    existsb (fun ic => String.eqb (ic_column ic) (c_name c)) (i_columns i))
          (t_indexes t).

(** 22-32 [dataTypeAliases], [mysqlDataTypeAliases]; 1355-1367 [normalizeDataType] *)
Definition data_type_alias (s : string) : string :=
  if String.eqb s "bool" then "boolean"
  else if String.eqb s "int" then "integer"
  else if String.eqb s "char" then "character"
  else if String.eqb s "varchar" then "character varying"
  else s.

Definition normalize_data_type (m : mode) (s : string) : string :=
  let s' := data_type_alias s in
  match m with
  | Mysql => if String.eqb s' "boolean" then "tinyint" else s'
  | _ => s'
  end.

(** [reflect.DeepEqual] on two [*Value]. *)
Definition value_eqb (a b : value) : bool :=
  value_type_eqb (v_type a) (v_type b) && String.eqb (v_raw a) (v_raw b) &&
  String.eqb (v_str a) (v_str b) && Z.eqb (v_int a) (v_int b) &&
  SFeqb (v_float a) (v_float b) && Bool.eqb (v_bit a) (v_bit b).

Definition opt_value_eqb (a b : option value) : bool :=
  match a, b with
  | None, None => true
  | Some x, Some y => value_eqb x y
  | _, _ => false
  end.

(** 1268-1274 [haveSameDataType] *)
Definition have_same_data_type (m : mode) (cur des : column) : bool :=
  String.eqb (normalize_data_type m (c_type cur)) (normalize_data_type m (c_type des)) &&
  strings_eqb (c_enum cur) (c_enum des) &&
  match c_length cur, c_length des with
  | Some a, Some b => Z.eqb (v_int a) (v_int b)
  | _, _ => true
  end &&
  Bool.eqb (c_array cur) (c_array des).

(** [x.notNull != nil && *x.notNull] *)
Definition declared_not_null (c : column) : bool :=
  match c_notnull c with Some true => true | _ => false end.

(** 1256-1266 [haveSameColumnDefinition].  [current.check == desired.check] compares
    pointers; the two columns come from different parses, so the pointers are equal only
    when both are nil. *)
Definition have_same_column_definition (m : mode) (cur des : column) : bool :=
  have_same_data_type m cur des &&
  Bool.eqb (c_unsigned cur) (c_unsigned des) &&
  Bool.eqb (declared_not_null cur) (declared_not_null des || is_key_primary (c_key des)) &&
  Bool.eqb (c_timezone cur) (c_timezone des) &&
  match c_check cur, c_check des with None, None => true | _, _ => false end &&
  (String.eqb (c_charset des) "" || String.eqb (c_charset cur) (c_charset des)) &&
  (String.eqb (c_collate des) "" || String.eqb (c_collate cur) (c_collate des)) &&
  opt_value_eqb (c_onupdate cur) (c_onupdate des).

(** 1276-1284 [areSameCheckDefinition] *)
Definition are_same_check (a b : option check_def) : bool :=
  match a, b with
  | None, None => true
  | Some x, Some y => String.eqb (ck_definition x) (ck_definition y) &&
                      Bool.eqb (ck_not_for_replication x) (ck_not_for_replication y)
  | _, _ => false
  end.

(** 1286-1294 [areSameIdentityDefinition] *)
Definition are_same_identity (a b : option identity) : bool :=
  match a, b with
  | None, None => true
  | Some x, Some y => String.eqb (id_behavior x) (id_behavior y) &&
                      Bool.eqb (id_not_for_replication x) (id_not_for_replication y)
  | _, _ => false
  end.

(** 1311-1328 [areSameValue] *)
Definition are_same_value (cur des : option value) : bool :=
  match cur, des with
  | None, None => true
  | Some a, Some b =>
      let raw_a :=
        if value_type_eqb (v_type b) VFloat && (String.length (v_raw b) <? String.length (v_raw a))%nat
        then take (String.length (v_raw b)) (v_raw a) else v_raw a in
      String.eqb raw_a (v_raw b)
  | _, _ => false
  end.

(** 1351-1353 [isNullValue] *)
Definition is_null_value (v : option value) : bool :=
  match v with
  | Some x => value_type_eqb (v_type x) VValArg && String.eqb (v_raw x) "null"
  | None => false
  end.

(** The value of a default, nil when there is none or it is NULL (1297-1306). *)
Definition effective_default (d : option default_def) : option value :=
  match d with
  | Some x => if is_null_value (df_value x) then None else df_value x
  | None => None
  end.

(** 1296-1309 [areSameDefaultValue] *)
Definition are_same_default (cur des : option default_def) : bool :=
  are_same_value (effective_default cur) (effective_default des).

(** 1330-1349 [areSameTriggerDefinition] *)
Definition squash (s : string) : string := to_lower (remove_char " " s).

Definition are_same_trigger (a b : trigger) : bool :=
  String.eqb (tr_time a) (tr_time b) && String.eqb (tr_event a) (tr_event b) &&
  String.eqb (tr_table a) (tr_table b) &&
  strings_eqb (map squash (tr_body a)) (map squash (tr_body b)).

(** 1377-1424 [areSameIndexes].  The function also stores "asc" for an empty direction in
    the desired index; nothing reads the difference (directions are printed only when they
    are "desc"), so the model leaves the index unchanged. *)
Definition direction_or_asc (d : string) : string := if String.eqb d "" then "asc" else d.

Fixpoint same_index_columns (a b : list index_column) : bool :=
  match a, b with
  | [], [] => true
  | x :: a', y :: b' =>
      String.eqb (ic_column x) (ic_column y) &&
      String.eqb (direction_or_asc (ic_direction x)) (direction_or_asc (ic_direction y)) &&
      same_index_columns a' b'
  | _, _ => false
  end.

Definition are_same_indexes (a b : index) : bool :=
  Bool.eqb (i_unique a) (i_unique b) && Bool.eqb (i_primary a) (i_primary b) &&
  same_index_columns (i_columns a) (i_columns b) &&
  String.eqb (i_where a) (i_where b) &&
  strings_eqb (i_included a) (i_included b) &&
  forallb (fun ob => match find_option (i_options a) (io_name ob) with
                     | Some oa => are_same_value (io_value oa) (io_value ob)
                     | None => false
                     end) (i_options b).

(** 1369-1375 [areSamePrimaryKeys] *)
Definition are_same_primary_keys (a b : option index) : bool :=
  match a, b with
  | Some x, Some y => are_same_indexes x y
  | None, None => true
  | _, _ => false
  end.

(** 1469-1483 [normalizeOnUpdate], [normalizeOnDelete] *)
Definition normalize_action (m : mode) (a : string) : string :=
  match m with
  | Postgres | Mssql => if String.eqb a "" then "NO ACTION" else a
  | _ => a
  end.

(** 1426-1438 [areSameForeignKeys] *)
Definition are_same_foreign_keys (m : mode) (a b : foreign_key) : bool :=
  String.eqb (normalize_action m (fk_on_update a)) (normalize_action m (fk_on_update b)) &&
  String.eqb (normalize_action m (fk_on_delete a)) (normalize_action m (fk_on_delete b)) &&
  Bool.eqb (fk_not_for_replication a) (fk_not_for_replication b).

(** 1440-1467 [areSamePolicies].  The roles are sorted in place by the code; the order of
    roles is never printed. *)
Definition are_same_policies (a b : policy) : bool :=
  if negb (String.eqb (to_lower (p_scope a)) (to_lower (p_scope b))) then false
  else if negb (String.eqb (to_lower (p_permissive a)) (to_lower (p_permissive b))) then false
  else if negb (String.eqb (to_lower (p_using a)) (to_lower (p_using b)))
  then String.eqb ("(" ++ p_using a ++ ")")%string (p_using b)
  else if negb (String.eqb (to_lower (p_with_check a)) (to_lower (p_with_check b)))
  then String.eqb ("(" ++ p_with_check a ++ ")")%string (p_with_check b)
  else strings_eqb (map to_lower (sort_strings (p_roles a)))
                   (map to_lower (sort_strings (p_roles b))).

(** ** Planning for one existing table, 232-523 *)

Definition alter (m : mode) (tbl : string) : string :=
  ("ALTER TABLE " ++ escape_table_name m tbl)%string.

Definition pos_text (m : mode) (p : col_pos) : string :=
  match p with
  | PosNone => ""
  | PosFirst => " FIRST"
  | PosAfter c => (" AFTER " ++ escape_sql_name m c)%string
  end.

(** [" FIRST"] when [i = 0], else [" AFTER " + previous column] (256-262, 280-286). *)
Definition pos_of (prev : option string) : col_pos :=
  match prev with None => PosFirst | Some p => PosAfter p end.

(** 243-264: the column is new. *)
Definition ddls_new_column (m : mode) (des : table) (prev : option string) (c : column)
  : res (list stmt) :=
  do def <- generate_column_definition m c true;
  let p := match m with Mysql => pos_of prev | _ => PosNone end in
  Ok [mkStmt (alter m (t_name des) ++ (match m with Mssql => " ADD " | _ => " ADD COLUMN " end) ++
              def ++ pos_text m p)%string
             (EffAddColumn (t_name des) c p)].

(** 268-295: the column exists, MySQL. *)
Definition change_order (cur des : table) (cc dc : column) : bool :=
  Z.ltb (c_position dc) (c_position cc) &&
  Z.ltb (Z.of_nat (length (t_columns cur)) - Z.of_nat (length (t_columns des)))
        (c_position cc - c_position dc).

Definition ddls_column_mysql (cur des : table) (prev : option string) (cc dc : column)
  : res (list stmt) :=
  let m := Mysql in
  let order := change_order cur des cc dc in
  do ch <- (if negb (have_same_column_definition m cc dc) ||
               negb (are_same_default (c_default cc) (c_default dc)) || order
            then do def <- generate_column_definition m dc false;
                 let p := if order then pos_of prev else PosNone in
                 Ok [mkStmt (alter m (t_name des) ++ " CHANGE COLUMN " ++
                             escape_sql_name m (c_name cc) ++ " " ++ def ++ pos_text m p)%string
                            (EffChangeColumn (t_name des) (c_name cc) dc p)]
            else Ok []);
  let uq := if is_unique (c_key dc) && negb (is_unique (c_key cc)) &&
               match find_index (t_indexes cur) (c_name dc) with None => true | _ => false end
            then [mkStmt (alter m (t_name des) ++ " ADD UNIQUE KEY " ++
                          escape_sql_name m (c_name dc) ++ "(" ++
                          escape_sql_name m (c_name dc) ++ ")")%string
                         (EffAddUniqueKey (t_name des) (c_name dc))]
            else [] in
  Ok (ch ++ uq).

Definition alter_column (m : mode) (tbl c : string) : string :=
  (alter m tbl ++ " ALTER COLUMN " ++ escape_sql_name m c)%string.

(** 297-362: the column exists, PostgreSQL. *)
Definition pg_type (cur des : table) (cc dc : column) : list stmt :=
  if have_same_data_type Postgres cc dc then []
  else [mkStmt (alter_column Postgres (t_name des) (c_name cc) ++ " TYPE " ++
                generate_data_type dc)%string
               (EffAlterType (t_name des) (c_name cc) dc)].

Definition pg_null (cur des : table) (cc dc : column) : list stmt :=
  let m := Postgres in
  if is_primary_key cc cur then []
  else if not_null m cc && negb (not_null m dc)
  then [mkStmt (alter_column m (t_name des) (c_name cc) ++ " DROP NOT NULL")%string
               (EffDropNotNull (t_name des) (c_name cc))]
  else if negb (not_null m cc) && not_null m dc
  then [mkStmt (alter_column m (t_name des) (c_name cc) ++ " SET NOT NULL")%string
               (EffSetNotNull (t_name des) (c_name cc))]
  else [].

Definition pg_identity (cur des : table) (cc dc : column) : list stmt :=
  let m := Postgres in
  if are_same_identity (c_identity cc) (c_identity dc) then []
  else match c_identity cc, c_identity dc with
       | None, Some i =>
           [mkStmt (alter_column m (t_name des) (c_name dc) ++ " ADD GENERATED " ++
                    id_behavior i ++ " AS IDENTITY" ++
                    match c_sequence dc with
                    | Some s => " (" ++ generate_sequence_clause s ++ ")"
                    | None => ""
                    end)%string
                   (EffAddIdentity (t_name des) (c_name dc) i (c_sequence dc))]
       | Some _, None =>
           [mkStmt (alter_column m (t_name cur) (c_name cc) ++ " DROP IDENTITY IF EXISTS")%string
                   (EffDropIdentity (t_name cur) (c_name cc))]
       | Some _, Some i =>
           [mkStmt (alter_column m (t_name des) (c_name dc) ++ " SET GENERATED " ++
                    id_behavior i)%string
                   (EffSetIdentity (t_name des) (c_name dc) i)]
       | None, None => []
       end.

Definition pg_default (cur des : table) (cc dc : column) : res (list stmt) :=
  let m := Postgres in
  if are_same_default (c_default cc) (c_default dc) then Ok []
  else match c_default dc with
       | None => Ok [mkStmt (alter_column m (t_name cur) (c_name cc) ++ " DROP DEFAULT")%string
                            (EffDropDefault (t_name cur) (c_name cc))]
       | Some d =>
           match df_value d with
           | None => Panic
           | Some v =>
               do def <- generate_default_definition v;
               Ok [mkStmt (alter_column m (t_name cur) (c_name cc) ++ " SET " ++ def)%string
                          (EffSetDefault (t_name cur) (c_name cc) d)]
           end
       end.

Definition pg_check (cur des : table) (cc dc : column) : list stmt :=
  let m := Postgres in
  if are_same_check (c_check cc) (c_check dc) &&
     Bool.eqb (c_check_no_inherit cc) (c_check_no_inherit dc) then []
  else
    let n := (replace_first (t_name des) "public." "" ++ "_" ++ c_name dc ++ "_check")%string in
    match c_check cc with
    | Some _ => [mkStmt (alter m (t_name des) ++ " DROP CONSTRAINT " ++ n)%string
                        (EffDropCheck (t_name des) (c_name cc) n)]
    | None => []
    end ++
    match c_check dc with
    | Some k => [mkStmt (alter m (t_name des) ++ " ADD CONSTRAINT " ++ n ++ " CHECK (" ++
                         ck_definition k ++ ")" ++
                         if c_check_no_inherit dc then " NO INHERIT" else "")%string
                        (EffAddCheck (t_name des) (c_name cc) n k (c_check_no_inherit dc))]
    | None => []
    end.

Definition ddls_column_postgres (cur des : table) (cc dc : column) : res (list stmt) :=
  do df <- pg_default cur des cc dc;
  Ok (pg_type cur des cc dc ++ pg_null cur des cc dc ++ pg_identity cur des cc dc ++ df ++
      pg_check cur des cc dc).

(** 363-419: the column exists, SQL Server. *)
Definition ms_check (cur des : table) (cc dc : column) : list stmt :=
  let m := Mssql in
  if are_same_check (c_check cc) (c_check dc) &&
     Bool.eqb (c_check_no_inherit cc) (c_check_no_inherit dc) then []
  else
    let n := (replace_first (t_name des) "dbo." "" ++ "_" ++ c_name dc ++ "_check")%string in
    match c_check cc with
    | Some k => [mkStmt (alter m (t_name des) ++ " DROP CONSTRAINT " ++ ck_constraint k)%string
                        (EffDropCheck (t_name des) (c_name cc) (ck_constraint k))]
    | None => []
    end ++
    match c_check dc with
    | Some k =>
        let n' := if String.eqb (ck_constraint k) "" then n else ck_constraint k in
        [mkStmt (alter m (t_name des) ++ " ADD CONSTRAINT " ++ n' ++ " CHECK" ++
                 (if ck_not_for_replication k then " NOT FOR REPLICATION" else "") ++ " (" ++
                 ck_definition k ++ ")")%string
                (EffAddCheck (t_name des) (c_name cc) n' k false)]
    | None => []
    end.

Definition ms_identity (cur des : table) (cc dc : column) : res (list stmt) :=
  let m := Mssql in
  if are_same_identity (c_identity cc) (c_identity dc) then Ok []
  else
    do add <- match c_identity dc with
              | Some _ =>
                  do def <- generate_column_definition m dc true;
                  Ok [mkStmt (alter m (t_name des) ++ " ADD " ++ def)%string
                             (EffAddColumn (t_name des) dc PosNone)]
              | None => Ok []
              end;
    Ok (match c_identity cc with
        | Some _ => [mkStmt (alter m (t_name cur) ++ " DROP COLUMN " ++
                             escape_sql_name m (c_name cc))%string
                            (EffDropColumn (t_name cur) (c_name cc))]
        | None => []
        end ++ add).

Definition ms_default (cur des : table) (cc dc : column) : res (list stmt) :=
  let m := Mssql in
  if are_same_default (c_default cc) (c_default dc) then Ok []
  else
    do add <- match c_default dc with
              | Some d =>
                  match df_value d with
                  | None => Panic
                  | Some v =>
                      do def <- generate_default_definition v;
                      Ok [mkStmt (alter m (t_name cur) ++ " ADD " ++
                                  (if String.eqb (df_constraint d) "" then ""
                                   else "CONSTRAINT " ++ escape_sql_name m (df_constraint d) ++ " ") ++
                                  def ++ " FOR " ++ escape_sql_name m (c_name cc))%string
                                 (EffAddDefault (t_name cur) (c_name cc) d)]
                  end
              | None => Ok []
              end;
    Ok (match c_default cc with
        | Some d => [mkStmt (alter m (t_name cur) ++ " DROP CONSTRAINT " ++
                             escape_sql_name m (df_constraint d))%string
                            (EffDropDefaultConstraint (t_name cur) (c_name cc) (df_constraint d))]
        | None => []
        end ++ add).

Definition ddls_column_mssql (cur des : table) (cc dc : column) : res (list stmt) :=
  do i <- ms_identity cur des cc dc;
  do d <- ms_default cur des cc dc;
  Ok (ms_check cur des cc dc ++ i ++ d).

(** 236-421: one turn of the loop over the desired columns. *)
Definition ddls_column (m : mode) (cur des : table) (prev : option string) (dc0 : column)
  : res (list stmt) :=
  match find_column (t_columns cur) (c_name dc0) with
  | None => ddls_new_column m des prev (set_autoinc false dc0)
  | Some cc =>
      let dc := if c_autoinc cc then dc0 else set_autoinc false dc0 in
      match m with
      | Mysql => ddls_column_mysql cur des prev cc dc
      | Postgres => ddls_column_postgres cur des cc dc
      | Mssql => ddls_column_mssql cur des cc dc
      | SQLite3 => Ok []
      end
  end.

Fixpoint ddls_columns (m : mode) (cur des : table) (prev : option string) (l : list column)
  : res (list stmt) :=
  match l with
  | [] => Ok []
  | c :: l' =>
      do a <- ddls_column m cur des prev c;
      do b <- ddls_columns m cur des (Some (c_name c)) l';
      Ok (a ++ b)
  end.

(** 424-436: remove AUTO_INCREMENT (MySQL). *)
Definition ddls_remove_autoinc (m : mode) (cur des : table) : res (list stmt) :=
  match m with
  | Mysql =>
      concat_map (fun cc =>
        let gone := match find_column (t_columns des) (c_name cc) with
                    | None => true
                    | Some dc => negb (c_autoinc dc)
                    end in
        if c_autoinc cc && gone then
          do def <- generate_column_definition m (set_autoinc false cc) false;
          Ok [mkStmt (alter m (t_name cur) ++ " CHANGE COLUMN " ++
                      escape_sql_name m (c_name cc) ++ " " ++ def)%string
                     (EffChangeColumn (t_name cur) (c_name cc) (set_autoinc false cc) PosNone)]
        else Ok []) (t_columns cur)
  | _ => Ok []
  end.

(** 439-457: primary key. *)
Definition ddls_primary_key (m : mode) (cur des : table) : res (list stmt) :=
  let cpk := primary_key cur in
  let dpk := primary_key des in
  if are_same_primary_keys cpk dpk then Ok []
  else
    do drop <- match cpk with
               | None => Ok []
               | Some _ =>
                   match m with
                   | Mysql => Ok [mkStmt (alter m (t_name des) ++ " DROP PRIMARY KEY")%string
                                         (EffDropPrimaryKey (t_name des))]
                   | Postgres =>
                       match split_first "." (t_name des) with
                       | None => Panic
                       | Some (_, n) =>
                           Ok [mkStmt (alter m (t_name des) ++ " DROP CONSTRAINT " ++
                                       escape_sql_name m (n ++ "_pkey"))%string
                                      (EffDropPrimaryKey (t_name des))]
                       end
                   | _ => Ok []
                   end
               end;
    do add <- match dpk with
              | None => Ok []
              | Some i => do s <- stmt_add_index m (t_name des) i; Ok [s]
              end;
    Ok (drop ++ add).

(** 460-475: secondary indexes declared inside CREATE TABLE. *)
Definition ddls_index (m : mode) (cur des : table) (di : index) : res (list stmt) :=
  if i_primary di then Ok []
  else match find_index (t_indexes cur) (i_name di) with
       | Some ci =>
           if are_same_indexes ci di then Ok []
           else do s <- stmt_add_index m (t_name des) di;
                Ok [stmt_drop_index m (t_name des) (i_name di); s]
       | None => do s <- stmt_add_index m (t_name des) di; Ok [s]
       end.

(** 478-489: add AUTO_INCREMENT (MySQL). *)
Definition ddls_add_autoinc (m : mode) (cur des : table) : res (list stmt) :=
  match m with
  | Mysql =>
      concat_map (fun dc =>
        let missing := match find_column (t_columns cur) (c_name dc) with
                       | None => true
                       | Some cc => negb (c_autoinc cc)
                       end in
        if c_autoinc dc && missing then
          do def <- generate_column_definition m dc false;
          Ok [mkStmt (alter m (t_name cur) ++ " CHANGE COLUMN " ++
                      escape_sql_name m (c_name dc) ++ " " ++ def)%string
                     (EffChangeColumn (t_name cur) (c_name dc) dc PosNone)]
        else Ok []) (t_columns des)
  | _ => Ok []
  end.

Definition stmt_add_fk (m : mode) (tbl : string) (f : foreign_key) : stmt :=
  mkStmt (alter m tbl ++ " ADD " ++ generate_foreign_key_definition m f)%string
         (EffAddForeignKey tbl f).

Definition stmt_drop_fk_mysql (tbl n : string) : stmt :=
  mkStmt (alter Mysql tbl ++ " DROP FOREIGN KEY " ++ escape_sql_name Mysql n)%string
         (EffDropForeignKey tbl n).

Definition stmt_drop_fk_constraint (m : mode) (tbl n : string) : stmt :=
  mkStmt (alter m tbl ++ " DROP CONSTRAINT " ++ escape_sql_name m n)%string
         (EffDropForeignKey tbl n).

(** 492-520: foreign keys declared inside CREATE TABLE. *)
Definition ddls_fk (m : mode) (cur des : table) (df : foreign_key) : res (list stmt) :=
  if String.eqb (fk_constraint df) "" then Err (ENoForeignKeySymbol (t_name des) (fk_index_name df))
  else match find_fk (t_fks cur) (fk_constraint df) with
       | Some cf =>
           if are_same_foreign_keys m cf df then Ok []
           else Ok (match m with
                    | Mysql => [stmt_drop_fk_mysql (t_name des) (fk_constraint cf)]
                    | Postgres | Mssql => [stmt_drop_fk_constraint m (t_name des) (fk_constraint cf)]
                    | SQLite3 => []
                    end ++ [stmt_add_fk m (t_name des) df])
       | None => Ok [stmt_add_fk m (t_name des) df]
       end.

(** 232-523 [generateDDLsForCreateTable] *)
Definition ddls_for_create_table (m : mode) (cur des : table) : res (list stmt) :=
  do a <- ddls_columns m cur des None (t_columns des);
  do b <- ddls_remove_autoinc m cur des;
  do c <- ddls_primary_key m cur des;
  do d <- concat_map (ddls_index m cur des) (t_indexes des);
  do e <- ddls_add_autoinc m cur des;
  do f <- concat_map (ddls_fk m cur des) (t_fks des);
  Ok (a ++ b ++ c ++ d ++ e ++ f).

(** ** The simulated state, 33-44 *)
Record gstate := mkG {
  g_cur : list table; g_des : list table;
  g_cur_views : list view; g_des_views : list view;
  g_cur_triggers : list trigger; g_des_triggers : list trigger }.

Definition set_cur (l : list table) (g : gstate) : gstate :=
  mkG l (g_des g) (g_cur_views g) (g_des_views g) (g_cur_triggers g) (g_des_triggers g).
Definition set_des (l : list table) (g : gstate) : gstate :=
  mkG (g_cur g) l (g_cur_views g) (g_des_views g) (g_cur_triggers g) (g_des_triggers g).
Definition set_des_views (l : list view) (g : gstate) : gstate :=
  mkG (g_cur g) (g_des g) (g_cur_views g) l (g_cur_triggers g) (g_des_triggers g).
Definition set_des_triggers (l : list trigger) (g : gstate) : gstate :=
  mkG (g_cur g) (g_des g) (g_cur_views g) (g_des_views g) (g_cur_triggers g) l.

(** 1088-1100 [mergeTable]: appends the columns (indexes) of [t2] whose name [t1] already has. *)
Definition merge_table (t1 t2 : table) : table :=
  let cols := fold_left (fun acc c => if contains_string (column_names acc) (c_name c)
                                      then acc ++ [c] else acc) (t_columns t2) (t_columns t1) in
  let idxs := fold_left (fun acc i => if contains_string (index_names acc) (i_name i)
                                      then acc ++ [i] else acc) (t_indexes t2) (t_indexes t1) in
  set_indexes idxs (set_columns cols t1).

Definition verbatim (d : ddl) : stmt := mkStmt (ddl_statement d) (EffVerbatim d).

(** 545-553: replace the indexes of that name. *)
Definition replace_index (i : index) (l : list index) : list index :=
  map (fun x => if String.eqb (i_name x) (i_name i) then i else x) l.

(** 527-569 [generateDDLsForCreateIndex] *)
Definition step_index (m : mode) (tbl : string) (i : index) (d : ddl) (g : gstate)
  : res (gstate * list stmt) :=
  match find_table (g_cur g) tbl with
  | None => Err (EInexistentTable tbl (ddl_statement d))
  | Some ct =>
      let '(cur', out) :=
        match find_index (t_indexes ct) (i_name i) with
        | None => (update_table (fun t => set_indexes (t_indexes t ++ [i]) t) tbl (g_cur g),
                   [verbatim d])
        | Some ci =>
            if are_same_indexes ci i then (g_cur g, [])
            else (update_table (fun t => set_indexes (replace_index i (t_indexes t)) t) tbl (g_cur g),
                  [stmt_drop_index m (t_name ct) (i_name ci); verbatim d])
        end in
      match find_table (g_des g) tbl with
      | None => Err (ENotYetCreated tbl (ddl_statement d))
      | Some dt =>
          if contains_string (index_names (t_indexes dt)) (i_name i)
          then Err (EDoublyCreated (i_name i) tbl (ddl_statement d))
          else Ok (set_des (update_table (fun t => set_indexes (t_indexes t ++ [i]) t) tbl (g_des g))
                     (set_cur cur' g), out)
      end
  end.

(** 571-587 [generateDDLsForAddForeignKey] *)
Definition step_fk (tbl : string) (f : foreign_key) (d : ddl) (g : gstate)
  : res (gstate * list stmt) :=
  match find_table (g_des g) tbl with
  | None => Err (ENotYetCreated tbl (ddl_statement d))
  | Some dt =>
      if contains_string (fk_names (t_fks dt)) (fk_constraint f)
      then Err (EDoublyCreated (fk_constraint f) tbl (ddl_statement d))
      else Ok (set_des (update_table (fun t => set_fks (t_fks t ++ [f]) t) tbl (g_des g)) g, [])
  end.

Definition stmt_drop_policy (m : mode) (p tbl : string) : stmt :=
  mkStmt ("DROP POLICY " ++ escape_sql_name m p ++ " ON " ++ escape_table_name m tbl)%string
         (EffDropPolicy p tbl).

(** 589-621 [generateDDLsForCreatePolicy] *)
Definition step_policy (m : mode) (tbl : string) (p : policy) (d : ddl) (g : gstate)
  : res (gstate * list stmt) :=
  match find_table (g_cur g) tbl with
  | None => Err (EInexistentTable tbl (ddl_statement d))
  | Some ct =>
      let '(cur', out) :=
        match find_policy (t_policies ct) (p_name p) with
        | None => (update_table (fun t => set_policies (t_policies t ++ [p]) t) tbl (g_cur g),
                   [verbatim d])
        | Some cp =>
            if are_same_policies cp p then (g_cur g, [])
            else (g_cur g, [stmt_drop_policy m (p_name cp) (t_name ct); verbatim d])
        end in
      match find_table (g_des g) tbl with
      | None => Err (ENotYetCreated tbl (ddl_statement d))
      | Some dt =>
          if contains_string (policy_names (t_policies dt)) (p_name p)
          then Err (EDoublyCreated (p_name p) tbl (ddl_statement d))
          else Ok (set_des (update_table (fun t => set_policies (t_policies t ++ [p]) t) tbl (g_des g))
                     (set_cur cur' g), out)
      end
  end.

Definition stmt_drop_view (m : mode) (v : string) : stmt :=
  mkStmt ("DROP VIEW " ++ escape_table_name m v)%string (EffDropView v).

(** 623-649 [generateDDLsForCreateView] *)
Definition step_view (m : mode) (v : view) (g : gstate) : res (gstate * list stmt) :=
  let out :=
    match find_view (g_cur_views g) (vw_name v) with
    | None => [verbatim (DView v)]
    | Some cv =>
        if String.eqb (to_lower (vw_definition cv)) (to_lower (vw_definition v)) then []
        else match m with
             | SQLite3 | Mssql =>
                 [stmt_drop_view m (vw_name v);
                  mkStmt ("CREATE VIEW " ++ escape_table_name m (vw_name v) ++ " AS " ++
                          vw_definition v)%string (EffCreateView (vw_name v) (vw_definition v))]
             | _ => [mkStmt ("CREATE OR REPLACE VIEW " ++ escape_table_name m (vw_name v) ++ " AS " ++
                             vw_definition v)%string (EffReplaceView (vw_name v) (vw_definition v))]
             end
    end in
  if contains_string (view_names (g_des_views g)) (vw_name v)
  then Err (EDoublyCreated (vw_name v) "" (vw_statement v))
  else Ok (set_des_views (g_des_views g ++ [v]) g, out).

(** 655-663: the body of the trigger statement; [None] for the dialects without triggers. *)
Definition trigger_definition (m : mode) (t : trigger) : option string :=
  match m with
  | Mssql => Some ("TRIGGER " ++ escape_sql_name m (tr_name t) ++ " ON " ++
                   escape_table_name m (tr_table t) ++ " " ++ tr_time t ++ " " ++ tr_event t ++
                   " AS " ++ join " " (tr_body t))%string
  | Mysql => Some ("TRIGGER " ++ escape_sql_name m (tr_name t) ++ " " ++ tr_time t ++ " " ++
                   tr_event t ++ " ON " ++ escape_table_name m (tr_table t) ++ " FOR EACH ROW " ++
                   join " " (tr_body t))%string
  | _ => None
  end.

(** 651-684 [generateDDLsForCreateTrigger] *)
Definition step_trigger (m : mode) (t : trigger) (g : gstate) : res (gstate * list stmt) :=
  match trigger_definition m t with
  | None => Ok (g, [])
  | Some def =>
      let out :=
        match find_trigger (g_cur_triggers g) (tr_name t) with
        | None => [mkStmt ("CREATE " ++ def)%string (EffCreateTrigger t)]
        | Some ct =>
            if are_same_trigger ct t then []
            else match m with
                 | Mssql => [mkStmt ("CREATE OR ALTER " ++ def)%string (EffCreateOrAlterTrigger t)]
                 | _ => [mkStmt ("DROP TRIGGER " ++ escape_sql_name m (tr_name t))%string
                                (EffDropTrigger (tr_name t));
                         mkStmt ("CREATE " ++ def)%string (EffCreateTrigger t)]
                 end
        end in
      Ok (set_des_triggers (g_des_triggers g ++ [t]) g, out)
  end.

(** 85-106: CREATE TABLE. *)
Definition step_create_table (m : mode) (t : table) (d : ddl) (g : gstate)
  : res (gstate * list stmt) :=
  match find_table (g_cur g) (t_name t) with
  | Some ct =>
      do out <- ddls_for_create_table m ct t;
      Ok (set_des (g_des g ++ [t])
            (set_cur (update_table (fun x => merge_table x t) (t_name t) (g_cur g)) g), out)
  | None =>
      Ok (set_des (g_des g ++ [t]) (set_cur (g_cur g ++ [t]) g), [verbatim d])
  end.

(** 83-140: one desired statement. *)
Definition step (m : mode) (g : gstate) (d : ddl) : res (gstate * list stmt) :=
  match d with
  | CreateTable _ t => step_create_table m t d g
  | CreateIndex _ tbl i => step_index m tbl i d g
  | AddIndex _ tbl i => step_index m tbl i d g
  | AddForeignKey _ tbl f => step_fk tbl f d g
  | AddPolicy _ tbl p => step_policy m tbl p d g
  | DView v => step_view m v g
  | DTrigger t => step_trigger m t g
  | AddPrimaryKey _ _ _ => Err (EUnexpectedDesired d)
  end.

Fixpoint steps (m : mode) (g : gstate) (l : list ddl) : res (gstate * list stmt) :=
  match l with
  | [] => Ok (g, [])
  | d :: l' =>
      do (g1, a) <- step m g d;
      do (g2, b) <- steps m g1 l';
      Ok (g2, a ++ b)
  end.

(** ** Clean-up, 142-212 *)

(** 688-710 [generateDDLsForAbsentForeignKey] *)
Definition absent_fk (m : mode) (cur des : table) (f : foreign_key) : list stmt :=
  match m with
  | Mysql => [stmt_drop_fk_mysql (t_name cur) (fk_constraint f)]
  | Postgres | Mssql =>
      if existsb (fun c => String.eqb (c_references c) (fk_ref_name f)) (t_columns des) then []
      else [stmt_drop_fk_constraint m (t_name cur) (fk_constraint f)]
  | SQLite3 => []
  end.

(** 714-757 [generateDDLsForAbsentIndex] *)
Definition absent_index (m : mode) (cur des : table) (i : index) : res (list stmt) :=
  if i_primary i then
    match find (fun c => is_key_primary (c_key c)) (t_columns des) with
    | None =>
        match m with
        | Mssql => Ok [mkStmt (alter m (t_name cur) ++ " DROP CONSTRAINT " ++
                               escape_sql_name m (i_name i))%string
                              (EffDropPrimaryConstraint (t_name cur) (i_name i))]
        | _ => Ok []
        end
    | Some pc =>
        match i_columns i with
        | [] => Panic
        | ic :: _ => if String.eqb (c_name pc) (ic_column ic) then Ok []
                     else Err (EPrimaryKeyRename (t_name cur) (c_name pc) (ic_column ic))
        end
    end
  else if i_unique i then
    (* the loop body reads columns[0] only if there is a desired column *)
    match t_columns des, i_columns i with
    | [], _ => Ok [stmt_drop_index m (t_name cur) (i_name i)]
    | _ :: _, [] => Panic
    | _ :: _, ic :: _ =>
        if existsb (fun c => String.eqb (c_name c) (ic_column ic) && is_unique (c_key c)) (t_columns des)
        then Ok []
        else Ok [stmt_drop_index m (t_name cur) (i_name i)]
    end
  else Ok [stmt_drop_index m (t_name cur) (i_name i)].

(** 214-229 [generateDDLsForAbsentColumn] *)
Definition absent_column (m : mode) (cur : table) (n : string) : list stmt :=
  match m with
  | Mssql =>
      flat_map (fun c =>
        match c_default c with
        | Some d => if String.eqb (c_name c) n && negb (String.eqb (df_constraint d) "")
                    then [mkStmt (alter m (t_name cur) ++ " DROP CONSTRAINT " ++
                                  escape_sql_name m (df_constraint d))%string
                                 (EffDropDefaultConstraint (t_name cur) n (df_constraint d))]
                    else []
        | None => []
        end) (t_columns cur)
  | _ => []
  end ++
  [mkStmt (alter m (t_name cur) ++ " DROP COLUMN " ++ escape_sql_name m n)%string
          (EffDropColumn (t_name cur) n)].

(** 153-200: the clean-up of one kept table. *)
Definition cleanup_fks (m : mode) (cur des : table) : list stmt :=
  flat_map (fun f => if contains_string (fk_names (t_fks des)) (fk_constraint f) then []
                     else absent_fk m cur des f) (t_fks cur).

Definition cleanup_indexes (m : mode) (cur des : table) : res (list stmt) :=
  concat_map (fun i => if contains_string (index_names (t_indexes des)) (i_name i) ||
                          contains_string (fk_index_names (t_fks des)) (i_name i) then Ok []
                       else absent_index m cur des i) (t_indexes cur).

Definition cleanup_columns (m : mode) (cur des : table) : list stmt :=
  flat_map (fun c => if contains_string (column_names (t_columns des)) (c_name c) then []
                     else absent_column m cur (c_name c)) (t_columns cur).

Definition cleanup_policies (m : mode) (cur des : table) : list stmt :=
  flat_map (fun p => if contains_string (policy_names (t_policies des)) (p_name p) then []
                     else [stmt_drop_policy m (p_name p) (t_name cur)]) (t_policies cur).

Definition cleanup_kept (m : mode) (cur des : table) : res (list stmt) :=
  do ix <- cleanup_indexes m cur des;
  Ok (cleanup_fks m cur des ++ ix ++ cleanup_columns m cur des ++ cleanup_policies m cur des).

Definition stmt_drop_table (m : mode) (t : string) : stmt :=
  mkStmt ("DROP TABLE " ++ escape_table_name m t)%string (EffDropTable t).

(** 1556-1572 [removeTableByName]: [None] when it calls log.Fatal. *)
Definition remove_table (n : string) (l : list table) : option (list table) :=
  if existsb (fun t => String.eqb n (t_name t)) l
  then Some (filter (fun t => negb (String.eqb n (t_name t))) l)
  else None.

(** 143-200: the loop over the current tables; [live] is [g.currentTables], which the loop
    shrinks while it ranges over the original slice. *)
Fixpoint cleanup_tables (m : mode) (des : list table) (live : list table) (l : list table)
  : res (list stmt) :=
  match l with
  | [] => Ok []
  | ct :: l' =>
      match find_table des (t_name ct) with
      | None =>
          match remove_table (t_name ct) live with
          | None => Fatal
          | Some live' => do r <- cleanup_tables m des live' l';
                          Ok (stmt_drop_table m (t_name ct) :: r)
          end
      | Some dt =>
          do a <- cleanup_kept m ct dt;
          do b <- cleanup_tables m des live l';
          Ok (a ++ b)
      end
  end.

(** 203-209: obsolete views. *)
Definition cleanup_views (m : mode) (g : gstate) : list stmt :=
  flat_map (fun v => if contains_string (view_names (g_des_views g)) (vw_name v) then []
                     else [stmt_drop_view m (vw_name v)]) (g_cur_views g).

(** 80-212 [generateDDLs] *)
Definition generate_ddls (m : mode) (g : gstate) (desired : list ddl) : res (list stmt) :=
  do (g', a) <- steps m g desired;
  do b <- cleanup_tables m (g_des g') (g_cur g') (g_cur g');
  Ok (a ++ b ++ cleanup_views m g').

(** ** The current schema, 1102-1173 *)

(** 1124: [stmt.index.columns[0]] is evaluated once per column of the table. *)
Definition mark_primary (i : index) (t : table) : res table :=
  match t_columns t, i_columns i with
  | [], _ => Ok t
  | _ :: _, [] => Panic
  | _ :: _, ic :: _ =>
      Ok (set_columns (map (fun c => if String.eqb (c_name c) (ic_column ic)
                                     then set_key KeyPrimary c else c) (t_columns t)) t)
  end.

Definition convert_step (tables : list table) (d : ddl) : res (list table) :=
  match d with
  | CreateTable _ t => Ok (tables ++ [t])
  | CreateIndex s tbl i =>
      match find_table tables tbl with
      | None => Err (EBeforeCreateTable s)
      | Some _ => Ok (update_table (fun t => set_indexes (t_indexes t ++ [i]) t) tbl tables)
      end
  | AddPrimaryKey s tbl i =>
      match find_table tables tbl with
      | None => Err (EBeforeCreateTable s)
      | Some t => do t' <- mark_primary i t; Ok (update_table (fun _ => t') tbl tables)
      end
  | AddForeignKey s tbl f =>
      match find_table tables tbl with
      | None => Err (EBeforeCreateTable s)
      | Some _ => Ok (update_table (fun t => set_fks (t_fks t ++ [f]) t) tbl tables)
      end
  | AddPolicy s tbl p =>
      match find_table tables tbl with
      | None => Err (EBeforeCreateTable s)
      | Some _ => Ok (update_table (fun t => set_policies (t_policies t ++ [p]) t) tbl tables)
      end
  | DView _ | DTrigger _ => Ok tables
  | AddIndex _ _ _ => Err (EUnexpectedCurrent d)
  end.

(** 1102-1153 [convertDDLsToTables] *)
Fixpoint convert_from (tables : list table) (l : list ddl) : res (list table) :=
  match l with
  | [] => Ok tables
  | d :: l' => do t <- convert_step tables d; convert_from t l'
  end.

Definition convert_ddls_to_tables (l : list ddl) : res (list table) := convert_from [] l.

(** 1155-1163 [convertDDLsToViews], 1165-1173 [convertDDLsToTriggers] *)
Definition convert_ddls_to_views (l : list ddl) : list view :=
  flat_map (fun d => match d with DView v => [v] | _ => [] end) l.
Definition convert_ddls_to_triggers (l : list ddl) : list trigger :=
  flat_map (fun d => match d with DTrigger t => [t] | _ => [] end) l.

(** 58-76, the part of [GenerateIdempotentDDLs] after parsing. *)
Definition init_state (tables : list table) (current : list ddl) : gstate :=
  mkG tables [] (convert_ddls_to_views current) [] (convert_ddls_to_triggers current) [].

Definition plan (m : mode) (desired current : list ddl) : res (list stmt) :=
  do tables <- convert_ddls_to_tables current;
  generate_ddls m (init_state tables current) desired.

(** 47-77 [GenerateIdempotentDDLs], for any parser. *)
Definition generate_idempotent_ddls (parse : mode -> string -> res (list ddl))
  (m : mode) (desired_sql current_sql : string) : res (list string) :=
  do desired <- parse m desired_sql;
  do current <- parse m current_sql;
  do out <- plan m desired current;
  Ok (map s_text out).
