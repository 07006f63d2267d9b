(** What the catalogue of SQL Server tells of a database, and the definitions the database
    consists of.  A [mq_database] is a description of a database; [mq_server] are the rows of
    sys.objects, sys.columns, sys.indexes, sys.foreign_keys and the modules, [mq_definitions] is
    the database itself as a schema defines it.  Of sqldef only the types of its schemas and the
    list of its keywords are used. *)
From Coq Require Import String Ascii List ZArith Bool SpecFloat.
From Verif Require Import GoStr GoStrFacts Ast Keywords Catalog ExportMssql SpecPlan SpecPostgres SpecShown.
Import ListNotations.
Local Open Scope string_scope.
Local Open Scope list_scope.

(** ** Names and numbers *)

(** Names between brackets. *)
Definition bracket_char (c : ascii) : bool :=
  negb (Ascii.eqb c "]") && negb (Ascii.eqb c ";") && Nat.leb 32 (nat_of_ascii c).
Definition mq_name (n : string) : bool := negb (String.eqb n "") && all_chars bracket_char n.
(** Names that are written as they are: no keywords of sqldef in any letter case. *)
Definition mq_word_start (c : ascii) : bool :=
  let n := nat_of_ascii c in (Nat.leb 97 n && Nat.leb n 122) || (Nat.leb 65 n && Nat.leb n 90) || Nat.eqb n 95.
Definition mq_word_part (c : ascii) : bool := mq_word_start c || let n := nat_of_ascii c in Nat.leb 48 n && Nat.leb n 57.
Definition mq_word (n : string) : bool :=
  match n with String c _ => mq_word_start c | EmptyString => false end && all_chars mq_word_part n &&
  negb (is_keyword (to_lower n)) && negb (String.eqb (to_lower n) "dual").
Definition mq_size (z : Z) : bool := (1 <=? z)%Z && (z <? 2 ^ 63)%Z.
Definition mq_integer (z : Z) : bool := (- 2 ^ 63 <=? z)%Z && (z <? 2 ^ 63)%Z.
Definition all_some {A} (f : A -> bool) (o : option A) : bool := match o with Some x => f x | None => true end.

(** ** Columns *)
Inductive mq_type :=
| QPlain (w : string) (bytes : string)     (* [bytes]: what max_length says of it *)
| QSized (w : string) (n : Z).
Definition mq_plain_types : list string :=
  ["bit"; "tinyint"; "smallint"; "int"; "bigint"; "real"; "float"; "money"; "smallmoney"; "decimal"; "numeric"; "date"; "time";
   "datetime"; "datetime2"; "datetimeoffset"; "smalldatetime"; "text"; "ntext"; "nchar"; "nvarchar"].
Definition mq_sized_types : list string := ["char"; "varchar"; "binary"; "varbinary"].
Definition mq_type_word (t : mq_type) : string := match t with QPlain w _ | QSized w _ => w end.
Definition mq_type_ok (t : mq_type) : bool :=
  match t with QPlain w _ => mem w mq_plain_types | QSized w n => mem w mq_sized_types && mq_size n end.

(** The values of defaults, as SQL Server keeps them. *)
Inductive mq_value :=
| QNull                                    (* (NULL) *)
| QInt (z : Z)                             (* ((z)) *)
| QString (s : string)                     (* ('s') *)
| QGetdate.                                (* (getdate()) *)
Definition mq_value_text (v : mq_value) : string :=
  match v with
  | QNull => "(NULL)"
  | QInt z => "((" ++ show_Z z ++ "))"
  | QString s => "('" ++ quote_twice s ++ "')"
  | QGetdate => "(getdate())"
  end%string.
Definition mq_value_ok (v : mq_value) : bool :=
  match v with QInt z => mq_integer z | QString s => all_chars text_char s | _ => true end.

Record mq_identity := mkMqIdentity { mqn_seed : Z; mqn_increment : Z; mqn_not_for_replication : bool }.
Record mq_check := mkMqCheck { mqk_name : string; mqk_condition : ex; mqk_not_for_replication : bool }.
Record mq_column := mkMqColumn {
  mqc_name : string; mqc_type : mq_type; mqc_nullable : bool; mqc_default : option (string * mq_value);
  mqc_identity : option mq_identity; mqc_check : option mq_check }.

(** Conditions as SQL Server keeps them. *)
Fixpoint mq_text (e : ex) : string :=
  match e with
  | EColumn n => "[" ++ n ++ "]"
  | EField t n => "[" ++ t ++ "].[" ++ n ++ "]"
  | EInt z => show_Z z
  | EString s => "'" ++ s ++ "'"
  | EGroup e => "(" ++ mq_text e ++ ")"
  | ECompare o a b => mq_text a ++ pg_operator o ++ mq_text b
  | ENull e => mq_text e ++ " IS NULL"
  | ENotNull e => mq_text e ++ " IS NOT NULL"
  | EAnd a b => mq_text a ++ " AND " ++ mq_text b
  | EOr a b => mq_text a ++ " OR " ++ mq_text b
  | EText _ | EAsText _ => ""
  end%string.
(** A number stands in parentheses of its own; no casts. *)
Fixpoint mq_shown (e : ex) : bool :=
  match e with
  | EText _ | EAsText _ | EInt _ => false
  | EGroup (EInt _) => true
  | EGroup e | ENull e | ENotNull e => mq_shown e
  | ECompare _ a b | EAnd a b | EOr a b => mq_shown a && mq_shown b
  | _ => true
  end.
Definition mq_condition_ok (e : ex) : bool := ex_fits e && mq_shown e.
Definition mq_check_ok (k : mq_check) : bool := mq_word (mqk_name k) && mq_condition_ok (mqk_condition k).
Definition mq_identity_ok (i : mq_identity) : bool := mq_integer (mqn_seed i) && mq_integer (mqn_increment i).
Definition mq_column_ok (c : mq_column) : bool :=
  mq_word (mqc_name c) && mq_type_ok (mqc_type c) && all_some (fun d => mq_word (fst d) && mq_value_ok (snd d)) (mqc_default c) &&
  all_some mq_identity_ok (mqc_identity c) && all_some mq_check_ok (mqc_check c).
Definition mq_column_row (c : mq_column) : ms_column :=
  mkMsColumn (mqc_name c) (mq_type_word (mqc_type c)) match mqc_type c with QPlain _ b => b | QSized _ n => show_Z n end (mqc_nullable c)
    (option_map (fun i => mkMsIdentity (show_Z (mqn_seed i)) (show_Z (mqn_increment i)) (mqn_not_for_replication i)) (mqc_identity c))
    (option_map (fun d => (fst d, mq_value_text (snd d))) (mqc_default c))
    (option_map (fun k => mkMsCheck (mqk_name k) ("(" ++ mq_text (mqk_condition k) ++ ")") (mqk_not_for_replication k)) (mqc_check c)).

Definition mq_ideal_value (v : mq_value) : value :=
  match v with
  | QNull => mkValue VValArg "null" "" 0 (S754_zero false) false
  | QInt z => integer_value z
  | QString s => mkValue VStr s s 0 (S754_zero false) false
  | QGetdate => mkValue VValArg "getdate" "" 0 (S754_zero false) false
  end.
Definition mq_sequence (seed increment : Z) : sequence :=
  mkSequence "" false "" (Some increment) None false None false (Some seed) None false false "".
Definition mq_ideal_column (p : Z) (c : mq_column) : column :=
  mkColumn (mqc_name c) p (mq_type_word (mqc_type c)) false (if mqc_nullable c then None else Some true) false false
    (option_map (fun d => mkDefault (Some (mq_ideal_value (snd d))) (fst d)) (mqc_default c))
    match mqc_type c with QSized _ n => Some (integer_value n) | QPlain _ _ => None end None
    (option_map (fun k => mkCheck (sql_text (mqk_condition k)) (mqk_name k) (mqk_not_for_replication k)) (mqc_check c))
    false "" "" false KeyNone None [] ""
    (option_map (fun i => mkIdentity "" (mqn_not_for_replication i)) (mqc_identity c))
    (option_map (fun i => mq_sequence (mqn_seed i) (mqn_increment i)) (mqc_identity c)).
Fixpoint mq_ideal_columns (p : Z) (l : list mq_column) : list column :=
  match l with [] => [] | c :: l' => mq_ideal_column p c :: mq_ideal_columns (p + 1) l' end.

(** ** Indexes *)
Record mq_options := mkMqOptions {
  mqo_padded : bool; mqo_fill : Z; mqo_ignore_dup : bool; mqo_no_recompute : bool; mqo_incremental : bool; mqo_row_locks : bool; mqo_page_locks : bool }.
Record mq_index := mkMqIndex {
  mqi_name : string; mqi_unique : bool; mqi_clustered : bool; mqi_first : string * bool; mqi_others : list (string * bool);   (* true: descending *)
  mqi_included : list string; mqi_options : mq_options }.
Definition mqi_columns (i : mq_index) : list (string * bool) := mqi_first i :: mqi_others i.
Definition mq_index_row (primary : bool) (i : mq_index) : ms_index_row :=
  let o := mqi_options i in
  mkMsIndexRow (mqi_name i) primary (mqi_unique i) (if mqi_clustered i then "CLUSTERED" else "NONCLUSTERED")
    (mqo_padded o) (show_Z (mqo_fill o)) (mqo_ignore_dup o) (mqo_no_recompute o) (mqo_incremental o) (mqo_row_locks o) (mqo_page_locks o)
    (map (fun c : string * bool => mkMsIndexColumn (fst c) (snd c) false) (mqi_columns i) ++ map (fun n => mkMsIndexColumn n false true) (mqi_included i)).
Definition mq_index_ok (i : mq_index) : bool :=
  mq_name (mqi_name i) && forallb (fun c : string * bool => mq_name (fst c)) (mqi_columns i) && forallb mq_name (mqi_included i) &&
  (0 <=? mqo_fill (mqi_options i))%Z && (mqo_fill (mqi_options i) <=? 100)%Z.
Definition switch (b : bool) : value := mkValue VBool (if b then "true" else "false") "" 0 (S754_zero false) false.
Definition mq_ideal_options (o : mq_options) : list index_option :=
  [mkIndexOption "pad_index" (Some (switch (mqo_padded o))); mkIndexOption "fillfactor" (Some (integer_value (mqo_fill o)));
   mkIndexOption "ignore_dup_key" (Some (switch (mqo_ignore_dup o))); mkIndexOption "statistics_norecompute" (Some (switch (mqo_no_recompute o)));
   mkIndexOption "statistics_incremental" (Some (switch (mqo_incremental o))); mkIndexOption "allow_row_locks" (Some (switch (mqo_row_locks o)));
   mkIndexOption "allow_page_locks" (Some (switch (mqo_page_locks o)))].
Definition mq_ideal_index (primary : bool) (i : mq_index) : index :=
  mkIndex (mqi_name i) (if primary then "primary key" else "")
    (map (fun c : string * bool => mkIndexColumn (fst c) None (if snd c then "desc" else "asc")) (mqi_columns i))
    primary (mqi_unique i) "" (mqi_included i) (mqi_clustered i) "" "" (mq_ideal_options (mqi_options i)).

(** ** Foreign keys: of one column *)
Inductive mq_action := QNoAction | QCascade | QSetNull.
Definition mq_action_row (a : mq_action) : string := match a with QNoAction => "NO_ACTION" | QCascade => "CASCADE" | QSetNull => "SET_NULL" end.
Definition mq_action_words (a : mq_action) : string := match a with QNoAction => "NO ACTION" | QCascade => "CASCADE" | QSetNull => "SET NULL" end.
Record mq_fk := mkMqFk {
  mqf_name : string; mqf_column : string; mqf_table : string; mqf_ref_column : string; mqf_update : mq_action; mqf_delete : mq_action; mqf_not_for_replication : bool }.
Definition mq_fk_row (f : mq_fk) : ms_fk_row :=
  mkMsFkRow (mqf_name f) (mqf_column f) (mqf_table f) (mqf_ref_column f) (mq_action_row (mqf_update f)) (mq_action_row (mqf_delete f)) (mqf_not_for_replication f).
Definition mq_fk_ok (f : mq_fk) : bool := mq_name (mqf_name f) && mq_name (mqf_column f) && mq_name (mqf_table f) && mq_name (mqf_ref_column f).
Definition mq_ideal_fk (f : mq_fk) : foreign_key :=
  mkForeignKey (mqf_name f) "" [mqf_column f] (mqf_table f) [mqf_ref_column f] (mq_action_words (mqf_delete f)) (mq_action_words (mqf_update f)) (mqf_not_for_replication f).

(** ** Tables: with at most one index beside the primary key *)
Record mq_table := mkMqTable {
  mqt_schema : string; mqt_name : string; mqt_first : mq_column; mqt_columns : list mq_column; mqt_key : option mq_index; mqt_index : option mq_index;
  mqt_fks : list mq_fk }.
Definition listed {A} (o : option A) : list A := match o with Some x => [x] | None => [] end.
(** A primary key is unique and has no included columns. *)
Definition mq_key_ok (i : mq_index) : bool := mq_index_ok i && mqi_unique i && Nat.eqb (List.length (mqi_included i)) 0.
Definition mq_table_ok (t : mq_table) : bool :=
  mq_word (mqt_schema t) && mq_word (mqt_name t) && forallb mq_column_ok (mqt_first t :: mqt_columns t) && all_some mq_key_ok (mqt_key t) &&
  all_some mq_index_ok (mqt_index t) && forallb mq_fk_ok (mqt_fks t).
Definition mq_table_row (t : mq_table) : ms_table :=
  mkMsTable (mqt_schema t) (mqt_name t) (map mq_column_row (mqt_first t :: mqt_columns t))
    (map (mq_index_row true) (listed (mqt_key t)) ++ map (mq_index_row false) (listed (mqt_index t))) (map mq_fk_row (mqt_fks t)).
(** The schema of a table is not part of what sqldef manages. *)
Definition mq_ideal_table (t : mq_table) : table :=
  mkTable (mqt_name t) (mq_ideal_columns 0 (mqt_first t :: mqt_columns t)) (map (mq_ideal_index true) (listed (mqt_key t))) (map mq_ideal_fk (mqt_fks t)) [].
Definition mq_table_definitions (t : mq_table) : list ddl :=
  CreateTable "" (mq_ideal_table t) :: map (fun i => CreateIndex "" (mqt_name t) (mq_ideal_index false i)) (listed (mqt_index t)).

(** ** Views: columns of one table.  The text is the one of the user; this is one way to write
    it: [gap] stands where a new line is begun. *)
Record mq_view := mkMqView { mqv_view : shown_view; mqv_gap : string; mqv_semicolon : bool }.
(** Line breaks go away, so there is a blank too. *)
Definition gap_char (c : ascii) : bool := Ascii.eqb c " " || Ascii.eqb c "010".
Definition mq_gap_ok (s : string) : bool := all_chars gap_char s && has_char " " s.
Definition bracketed (n : string) : string := ("[" ++ n ++ "]")%string.
Definition mq_view_text (v : mq_view) : string :=
  let w := mqv_view v in let g := mqv_gap v in
  ("CREATE VIEW " ++ bracketed (sv_schema w) ++ "." ++ bracketed (sv_view w) ++ " AS" ++ g ++
   "SELECT " ++ join ("," ++ g) (map (fun c : string * string => bracketed (fst c) ++ "." ++ bracketed (snd c)) (sv_columns w)) ++ g ++
   "FROM " ++ bracketed (sv_from w) ++
   match sv_where w with Some e => g ++ "WHERE (" ++ mq_text e ++ ")" | None => "" end ++ (if mqv_semicolon v then ";" else ""))%string.
Definition mq_view_ok (v : mq_view) : bool :=
  view_ok (mqv_view v) && all_some mq_shown (sv_where (mqv_view v)) && mq_gap_ok (mqv_gap v).
Definition mq_ideal_view (v : mq_view) : view := ideal_view (mqv_view v).

(** ** Triggers: one INSERT of numbers *)
Inductive mq_event := QInsert | QUpdate | QDelete.
Definition mq_event_word (e : mq_event) : string := match e with QInsert => "INSERT" | QUpdate => "UPDATE" | QDelete => "DELETE" end.
Record mq_trigger := mkMqTrigger {
  mqg_name : string; mqg_table : string; mqg_event : mq_event; mqg_into : string; mqg_columns : list string; mqg_values : list Z }.
Definition mq_insert_text (t : mq_trigger) : string :=
  ("insert into " ++ mqg_into t ++ "(" ++ join ", " (mqg_columns t) ++ ") values (" ++ join ", " (map show_Z (mqg_values t)) ++ ")")%string.
Definition mq_trigger_text (t : mq_trigger) : string :=
  ("CREATE TRIGGER " ++ mqg_name t ++ " ON " ++ mqg_table t ++ " AFTER " ++ mq_event_word (mqg_event t) ++ " AS " ++ mq_insert_text t)%string.
Definition mq_trigger_ok (t : mq_trigger) : bool :=
  simple_name (mqg_name t) && simple_name (mqg_table t) && simple_name (mqg_into t) && forallb simple_name (mqg_columns t) &&
  negb (Nat.eqb (List.length (mqg_columns t)) 0) && forallb (fun z => (0 <=? z)%Z) (mqg_values t) && negb (Nat.eqb (List.length (mqg_values t)) 0).
Definition mq_ideal_trigger (t : mq_trigger) : trigger :=
  mkTrigger "" (mqg_name t) (mqg_table t) "after" (to_lower (mq_event_word (mqg_event t))) [mq_insert_text t].

(** ** Databases *)
Record mq_database := mkMqDatabase { mqd_tables : list mq_table; mqd_views : list mq_view; mqd_triggers : list mq_trigger }.
(** Tables are told apart by their names alone. *)
Definition mq_readable (d : mq_database) : bool :=
  forallb mq_table_ok (mqd_tables d) && forallb mq_view_ok (mqd_views d) && forallb mq_trigger_ok (mqd_triggers d) &&
  distinct (map mqt_name (mqd_tables d)).
Definition mq_server (d : mq_database) : ms_server :=
  mkMsServer (map mq_table_row (mqd_tables d)) (map mq_view_text (mqd_views d)) (map mq_trigger_text (mqd_triggers d)).
Definition mq_definitions (d : mq_database) : list ddl :=
  flat_map mq_table_definitions (mqd_tables d) ++ map (fun v => DView (mq_ideal_view v)) (mqd_views d) ++ map (fun t => DTrigger (mq_ideal_trigger t)) (mqd_triggers d).

(** What holds of every database: no two columns, indexes, foreign keys of a table, no two views
    and no two triggers have one name. *)
Definition mq_table_consistent (t : mq_table) : bool :=
  distinct (map mqc_name (mqt_first t :: mqt_columns t)) && distinct (map mqi_name (listed (mqt_key t) ++ listed (mqt_index t))) && distinct (map mqf_name (mqt_fks t)).
Definition mq_consistent (d : mq_database) : bool :=
  forallb mq_table_consistent (mqd_tables d) && distinct (map (fun v => sv_view (mqv_view v)) (mqd_views d)) && distinct (map mqg_name (mqd_triggers d)).
