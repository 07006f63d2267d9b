(** Model of /repo/adapter/postgres/postgres.go: the catalogue queries, the export text and the
    connection string. *)
From Coq Require Import String Ascii List ZArith Bool.
From Verif Require Import GoStr SchemaParse Catalog.
Import ListNotations.
Local Open Scope string_scope.

(** ** Go library functions *)

(** [strings.Trim(s, cutset)] *)
Fixpoint trim_right_set (cutset s : string) : string :=
  match s with
  | EmptyString => EmptyString
  | String a s' =>
      match trim_right_set cutset s' with
      | EmptyString => if has_ascii a cutset then EmptyString else String a EmptyString
      | t => String a t
      end
  end.
Definition trim_set (cutset s : string) : string := trim_left_set cutset (trim_right_set cutset s).

(** [strings.HasSuffix], [strings.TrimSuffix] *)
Fixpoint has_suffix (s p : string) : bool :=
  String.eqb s p || match s with EmptyString => false | String _ s' => has_suffix s' p end.

Fixpoint trim_suffix (s p : string) : string :=
  if String.eqb s p then EmptyString
  else match s with EmptyString => EmptyString | String a s' => String a (trim_suffix s' p) end.

(** [regexp] [ [ ]+ ] replaced by one space; [after] says that a space has just been written. *)
Fixpoint collapse_spaces (after : bool) (s : string) : string :=
  match s with
  | EmptyString => EmptyString
  | String a s' =>
      if Ascii.eqb a " " then
        if after then collapse_spaces true s' else String a (collapse_spaces true s')
      else String a (collapse_spaces false s')
  end.

(** A LEFT JOIN: one row without a partner if there is none. *)
Definition left_join {A} (l : list A) : list (option A) :=
  match l with [] => [None] | _ => map Some l end.

Definition string_in (x : string) (l : list string) : bool := existsb (String.eqb x) l.

Definition kind_eqb (a b : con_kind) : bool :=
  match a, b with
  | ConPrimary, ConPrimary | ConUnique, ConUnique | ConCheck, ConCheck | ConForeign, ConForeign => true
  | _, _ => false
  end.

(** 438-446: [splitTableName]. *)
Definition split_table_name (default table : string) : string * string :=
  match split_first "." table with Some (s, t) => (s, t) | None => (default, table) end.

(** ** Columns *)

(** 167-177: [column]. *)
Record dump_column := mkDumpColumn {
  dc_name : string; dc_type : string; dc_length : Z; dc_nullable : bool; dc_default : string;
  dc_autoinc : bool; dc_unique : bool; dc_check : string; dc_identity : string }.

(** 211-223: the rows of the query.  [information_schema.columns] is joined by column and
    table name only; the unique and check constraints that contain the column are joined one
    by one.  Among equal [attnum] the order is left to the database; here it is that of the
    catalogue. *)
Record column_row := mkColumnRow {
  cr_column : pg_column; cr_format : string; cr_unique : bool; cr_check : option string }.

Definition is_table (schema name : string) (t : pg_table) : bool :=
  String.eqb (pt_schema t) schema && String.eqb (pt_name t) name.

Definition constraints_on (k : con_kind) (column : string) (t : pg_table) : list pg_constraint :=
  filter (fun c => kind_eqb (con_kind_of c) k && string_in column (con_columns c)) (pt_constraints t).

Definition information_columns (db : pg_database) (table column : string) : list pg_column :=
  flat_map (fun t => filter (fun s => String.eqb (pc_name s) column) (pt_columns t))
           (filter (fun t => String.eqb (pt_name t) table) (pd_tables db)).

Definition column_rows (db : pg_database) (schema table : string) : list column_row :=
  flat_map (fun t =>
    flat_map (fun f =>
      flat_map (fun p =>
        flat_map (fun pc =>
          map (fun s => mkColumnRow s (pc_format f) (is_set p) (option_map con_def pc))
              (information_columns db (pt_name t) (pc_name f)))
          (left_join (constraints_on ConCheck (pc_name f) t)))
        (left_join (constraints_on ConUnique (pc_name f) t)))
      (pt_columns t))
    (filter (is_table schema table) (pd_tables db)).

(** 232-267: one row.  [character_maximum_length] is scanned as text and read by [Atoi]; here
    it is the number. *)
Definition or_empty (o : option string) : string := match o with Some s => s | None => "" end.

(** 212: information_schema calls all arrays ARRAY. *)
Definition type_shown (data_type format : string) : string :=
  if string_in data_type ["ARRAY"; "USER-DEFINED"] then format else data_type.

Definition dump_column_of (r : column_row) : dump_column :=
  let c := cr_column r in
  mkDumpColumn (trim_set (dq ++ " ") (pc_name c)) (type_shown (pc_type c) (cr_format r))
    (match pc_max_length c with Some z => z | None => 0%Z end) (pc_nullable c)
    (or_empty (pc_default c))
    (match pc_default c with Some d => has_prefix d "nextval(" | None => false end)
    (cr_unique r) (or_empty (cr_check r)) (or_empty (pc_identity c)).

(** 210-269: [getColumns]. *)
Definition get_columns (db : pg_database) (table : string) : list dump_column :=
  let (s, t) := split_table_name "public" table in map dump_column_of (column_rows db s t).

(** 180-208: [GetDataType]. *)
Definition get_data_type (c : dump_column) : string :=
  let t := dc_type c in
  if String.eqb t "smallint" then if dc_autoinc c then "smallserial" else t
  else if String.eqb t "integer" then if dc_autoinc c then "serial" else t
  else if String.eqb t "bigint" then if dc_autoinc c then "bigserial" else t
  else if String.eqb t "timestamp without time zone" then "timestamp"
  else if String.eqb t "time without time zone" then "time"
  else t.

(** ** Indexes, primary key, foreign keys, policies *)

(** 271-294: [getIndexDefs]. *)
Definition get_index_defs (db : pg_database) (table : string) : list string :=
  let (s, t) := split_table_name "public" table in
  map pi_def
    (filter (fun i => negb (has_suffix (trim_set (dq ++ " ") (pi_name i)) "_pkey"))
       (flat_map pt_indexes (filter (is_table s t) (pd_tables db)))).

Definition all_constraints (db : pg_database) : list pg_constraint := flat_map pt_constraints (pd_tables db).

(** [information_schema.key_column_usage]: the columns of primary, unique and foreign keys. *)
Definition is_key (k : con_kind) : bool := match k with ConCheck => false | _ => true end.

(** 296-322: [getPrimaryKeyColumns].  The two views are joined by constraint name only; the rows
    are ordered by the position of the column in its constraint. *)
Fixpoint numbered {A} (n : nat) (l : list A) : list (nat * A) :=
  match l with [] => [] | x :: l' => (n, x) :: numbered (S n) l' end.

Fixpoint insert_by_position (x : nat * string) (l : list (nat * string)) : list (nat * string) :=
  match l with
  | [] => [x]
  | y :: l' => if Nat.leb (fst x) (fst y) then x :: l else y :: insert_by_position x l'
  end.
Fixpoint sort_by_position (l : list (nat * string)) : list (nat * string) :=
  match l with [] => [] | x :: l' => insert_by_position x (sort_by_position l') end.

Definition get_primary_key_columns (db : pg_database) (table : string) : list string :=
  let (s, t) := split_table_name "public" table in
  map snd (sort_by_position
    (flat_map (fun T =>
      flat_map (fun tc =>
        flat_map (fun kcu => numbered 1 (con_columns kcu))
          (filter (fun c => is_key (con_kind_of c) && String.eqb (con_name c) (con_name tc)) (all_constraints db)))
        (filter (fun c => kind_eqb (con_kind_of c) ConPrimary) (pt_constraints T)))
      (filter (is_table s t) (pd_tables db)))).

(** [information_schema.constraint_column_usage]: the columns a constraint uses, with their
    table: of a foreign key the referenced ones, of the others their own. *)
Definition column_usage (t : pg_table) (c : pg_constraint) : list (string * string * string) :=
  match con_kind_of c with
  | ConForeign => map (fun x => (con_ref_schema c, con_ref_table c, x)) (con_ref_columns c)
  | _ => map (fun x => (pt_schema t, pt_name t, x)) (con_columns c)
  end.

(** 325-363: [getForeginDefs].  Four views joined by constraint name only. *)
Definition foreign_def (schema table name column ref_schema ref_table ref_column upd del : string) : string :=
  "ALTER TABLE ONLY " ++ schema ++ "." ++ table ++ " ADD CONSTRAINT " ++ name ++
  " FOREIGN KEY (" ++ column ++ ") REFERENCES " ++ ref_schema ++ "." ++ ref_table ++ "(" ++ ref_column ++
  ") ON UPDATE " ++ upd ++ " ON DELETE " ++ del.

Definition get_foreign_defs (db : pg_database) (table : string) : list string :=
  let (s, t) := split_table_name "public" table in
  let named n := filter (fun p : pg_table * pg_constraint => String.eqb (con_name (snd p)) n)
                   (flat_map (fun T => map (pair T) (pt_constraints T)) (pd_tables db)) in
  flat_map (fun T =>
    flat_map (fun tc =>
      flat_map (fun kcu =>
        flat_map (fun column =>
          flat_map (fun ccu =>
            flat_map (fun u : string * string * string =>
              map (fun rc => foreign_def (pt_schema T) (pt_name T) (con_name tc) column
                               (fst (fst u)) (snd (fst u)) (snd u)
                               (con_on_update (snd rc)) (con_on_delete (snd rc)))
                  (filter (fun p => kind_eqb (con_kind_of (snd p)) ConForeign) (named (con_name tc))))
              (column_usage (fst ccu) (snd ccu)))
            (named (con_name tc)))
          (con_columns (snd kcu)))
        (filter (fun p => is_key (con_kind_of (snd p))) (named (con_name tc))))
      (filter (fun c => kind_eqb (con_kind_of c) ConForeign) (pt_constraints T)))
    (filter (is_table s t) (pd_tables db)).

(** 365-404: [getPolicyDefs]; [table] is the name without its schema. *)
Definition strip_braces (roles : string) : string :=
  trim_suffix (match roles with String "{" r => r | r => r end) "}".

Definition policy_def (table : string) (p : pg_policy) : string :=
  "CREATE POLICY " ++ pp_name p ++ " ON " ++ table ++ " AS " ++ pp_permissive p ++ " FOR " ++ pp_cmd p ++
  " TO " ++ strip_braces (pp_roles p) ++
  match pp_using p with Some u => " USING " ++ u | None => "" end ++
  match pp_check p with Some u => " WITH CHECK " ++ u | None => "" end.

Definition get_policy_defs (db : pg_database) (table : string) : list string :=
  let (s, t) := split_table_name "public" table in
  map (policy_def t) (flat_map pt_policies (filter (is_table s t) (pd_tables db))).

(** ** The export text *)

Definition indent : string := "    ".

(** 126-150: one column. *)
Definition column_text (c : dump_column) : string :=
  dq ++ dc_name c ++ dq ++ " " ++ get_data_type c ++
  (if (0 <? dc_length c)%Z then "(" ++ show_Z (dc_length c) ++ ")" else "") ++
  (if dc_unique c then " UNIQUE" else "") ++
  (if dc_nullable c then "" else " NOT NULL") ++
  (if negb (String.eqb (dc_default c) "") && negb (dc_autoinc c) then " DEFAULT " ++ dc_default c else "") ++
  (if String.eqb (dc_identity c) "" then "" else " GENERATED " ++ dc_identity c ++ " AS IDENTITY") ++
  (if String.eqb (dc_check c) "" then "" else " " ++ dc_check c).

(** 123-154: the CREATE TABLE statement, without its final semicolon. *)
Definition create_text (table : string) (cols : list dump_column) (pkey : list string) : string :=
  "CREATE TABLE " ++ table ++ " (" ++
  join "," (map (fun c => nl ++ indent ++ column_text c) cols) ++
  (match pkey with
   | [] => ""
   | _ => "," ++ nl ++ indent ++ "PRIMARY KEY (" ++ dq ++ join (dq ++ ", " ++ dq) pkey ++ dq ++ ")"
   end) ++ nl ++ ")".

(** 154-164: each statement with a semicolon and a newline; the last two characters are cut. *)
Definition ended (l : list string) : string := fold_right (fun v r => v ++ ";" ++ nl ++ r) "" l.

Definition build_dump (table : string) (cols : list dump_column) (pkey indexes fks policies : list string) : string :=
  trim_suffix (create_text table cols pkey ++ ";" ++ nl ++ ended indexes ++ ended fks ++ ended policies)
              (";" ++ nl).

(** 99-121: [DumpTableDDL]. *)
Definition dump_table_ddl (db : pg_database) (table : string) : string :=
  build_dump table (get_columns db table) (get_primary_key_columns db table)
    (get_index_defs db table) (get_foreign_defs db table) (get_policy_defs db table).

(** 35-55: [TableNames]; the catalogue holds no system tables. *)
Definition table_names (db : pg_database) : list string :=
  map (fun t => pt_schema t ++ "." ++ pt_name t) (pd_tables db).

(** 77-90: the text of a view. *)
Definition clean_definition (d : string) : string :=
  collapse_spaces false (trim_suffix (remove_char (ascii_of_nat 10) (trim_space d)) ";").

Definition view_ddl (schema name definition : string) : string :=
  "CREATE VIEW " ++ schema ++ "." ++ name ++ " AS " ++ clean_definition definition.

(** 63-92: [Views]; [pg_views] is joined by name only. *)
Definition views (db : pg_database) : list string :=
  flat_map (fun v =>
    map (fun d => view_ddl (pv_schema v) (pv_name v) (pv_definition d))
      (filter (fun d => String.eqb (pv_name v) (pv_name d)) (pd_views db)))
    (pd_views db).

(** adapter/database.go 29-58: [DumpDDLs] with this adapter; [Triggers] is always empty
    (95-97). *)
Definition dump_database (db : pg_database) : string :=
  join (";" ++ nl ++ nl) (map (dump_table_ddl db) (table_names db) ++ views db)%list.

(** ** The connection string *)

(** adapter/database.go [Config]; the two environment variables as options. *)
Record config := mkConfig {
  cf_database : string; cf_user : string; cf_password : string; cf_host : string; cf_port : Z; cf_socket : string }.

(** [url.QueryEscape], byte by byte. *)
Definition unreserved (c : ascii) : bool :=
  let n := N_of_ascii c in
  ((97 <=? n) && (n <=? 122) || (65 <=? n) && (n <=? 90) || (48 <=? n) && (n <=? 57))%N ||
  has_ascii c "-_.~".

Definition hex_digit (n : N) : ascii := if (n <? 10)%N then ascii_of_N (48 + n) else ascii_of_N (55 + n).

Fixpoint query_escape (s : string) : string :=
  match s with
  | EmptyString => EmptyString
  | String c s' =>
      if unreserved c then String c (query_escape s')
      else if Ascii.eqb c " " then String "+" (query_escape s')
      else let n := N_of_ascii c in
           String "%" (String (hex_digit (n / 16)) (String (hex_digit (n mod 16)) (query_escape s')))
  end.

(** 414-436: [postgresBuildDSN]. *)
Definition build_dsn (sslmode sslrootcert : option string) (c : config) : string :=
  let host := if String.eqb (cf_socket c) "" then cf_host c ++ ":" ++ show_Z (cf_port c) else cf_socket c in
  let options := app (match sslmode with Some x => ["sslmode=" ++ x] | None => [] end)
                     (match sslrootcert with Some x => ["sslrootcert=" ++ x] | None => [] end) in
  "postgres://" ++ query_escape (cf_user c) ++ ":" ++ query_escape (cf_password c) ++ "@" ++ host ++ "/" ++
  cf_database c ++ "?" ++ join "&" options.
