(** Model of the catalogue queries of /repo/adapter/mssql/mssql.go: the views of the sys schema
    and the rows the queries ask them for.  A query has no ORDER BY, so its rows come in any
    order.  Errors of the connection are not modelled; the types of the columns of the views are
    those Go scans them into.  Names that mean something else to [OBJECT_ID] are not modelled. *)
From Coq Require Import String Ascii List ZArith Bool Permutation.
From Verif Require Import GoStr Generator Catalog AdapterPostgres AdapterMssql ExportMssql.
Import ListNotations.
Local Open Scope string_scope.
Local Open Scope list_scope.

(** ** The views, as far as the queries read them.  [None] is NULL. *)
Record sys_object := mkSysObject { so_id : Z; so_schema : string; so_name : string; so_type : string; so_definition : option string }.
Record sys_column := mkSysColumn {
  sc_object : Z; sc_id : Z; sc_name : string; sc_user_type : Z; sc_max_length : string; sc_nullable : bool; sc_identity : bool; sc_default : Z }.
Record sys_type := mkSysType { sy_id : Z; sy_name : string }.
Record sys_check := mkSysCheck { sk_name : string; sk_parent : Z; sk_column : Z; sk_definition : option string; sk_not_for_replication : bool }.
Record sys_identity := mkSysIdentity { sd_object : Z; sd_column : Z; sd_seed : option string; sd_increment : option string; sd_not_for_replication : option bool }.
Record sys_index := mkSysIndex {
  sx_object : Z; sx_id : Z; sx_name : option string; sx_primary : bool; sx_unique : bool; sx_type : string; sx_padded : bool; sx_fill : string;
  sx_ignore_dup : bool; sx_row_locks : bool; sx_page_locks : bool }.
Record sys_stat := mkSysStat { ss_object : Z; ss_id : Z; ss_no_recompute : bool; ss_incremental : bool }.
Record sys_index_column := mkSysIndexColumn { sxc_object : Z; sxc_index : Z; sxc_column : Z; sxc_descending : bool; sxc_included : bool }.
Record sys_fk := mkSysFk { sf_id : Z; sf_name : string; sf_parent : Z; sf_referenced : Z; sf_update : string; sf_delete : string; sf_not_for_replication : bool }.
Record sys_fk_column := mkSysFkColumn { sfc_constraint : Z; sfc_parent_column : Z; sfc_referenced_column : Z }.
Record sys := mkSys {
  sys_objects : list sys_object; sys_columns : list sys_column; sys_types : list sys_type; sys_checks : list sys_check; sys_identities : list sys_identity;
  sys_indexes : list sys_index; sys_stats : list sys_stat; sys_index_columns : list sys_index_column; sys_fks : list sys_fk; sys_fk_columns : list sys_fk_column;
  sys_views : list Z; sys_triggers : list Z; sys_modules : list (Z * option string) }.

(** ** Joins and functions of SQL Server *)
Definition inner_join {A B} (on : A -> B -> bool) (l : list A) (r : list B) : list (A * B) :=
  flat_map (fun a => map (pair a) (filter (on a) r)) l.
Definition left_join {A B} (on : A -> B -> bool) (l : list A) (r : list B) : list (A * option B) :=
  flat_map (fun a => match filter (on a) r with [] => [(a, None)] | m => map (fun b => (a, Some b)) m end) l.
Definition object_of (s : sys) (id : Z) : option sys_object := List.find (fun o => Z.eqb (so_id o) id) (sys_objects s).
Definition object_name (s : sys) (id : Z) : option string := option_map so_name (object_of s id).
Definition object_definition (s : sys) (id : Z) : option string := match object_of s id with Some o => so_definition o | None => None end.
Definition object_id (s : sys) (schema name : string) : option Z :=
  option_map so_id (List.find (fun o => String.eqb (so_schema o) schema && String.eqb (so_name o) name) (sys_objects s)).
(** With the type 'U'. *)
Definition table_id (s : sys) (schema name : string) : option Z :=
  option_map so_id (List.find (fun o => String.eqb (so_schema o) schema && String.eqb (so_name o) name && String.eqb (so_type o) "U") (sys_objects s)).
Definition col_name (s : sys) (object column : Z) : option string :=
  option_map sc_name (List.find (fun c => Z.eqb (sc_object c) object && Z.eqb (sc_id c) column) (sys_columns s)).
(** [WHERE x = OBJECT_ID(...)]: nothing is equal to NULL. *)
Definition is_id (id : option Z) (x : Z) : bool := match id with Some y => Z.eqb x y | None => false end.

(** The rows arrive in any order. *)
Definition answer {A} (rows got : list A) : Prop := Permutation rows got.
Definition scan_error {A} : res A := Err (EParse "converting NULL to string is unsupported").
Definition not_null {A} (o : option A) : res A := match o with Some x => Ok x | None => scan_error end.
Definition not_nil {A} (o : option A) : res A := match o with Some x => Ok x | None => Panic end.
Fixpoint scan_all_rows {A B} (f : A -> res B) (l : list A) : res (list B) :=
  match l with [] => Ok [] | a :: l' => bind (f a) (fun b => bind (scan_all_rows f l') (fun r => Ok (b :: r))) end.

(** 33-52: [TableNames]. *)
Definition table_names_read (s : sys) (r : res (list string)) : Prop :=
  exists got, answer (filter (fun o => String.eqb (so_type o) "U") (sys_objects s)) got /\ r = Ok (map (fun o => (so_schema o ++ "." ++ so_name o)%string) got).

(** ** 186-260: [getColumns] *)
Definition column_query (s : sys) (schema name : string) : list (sys_column * sys_type * option sys_check * option sys_identity) :=
  left_join (fun x (i : sys_identity) => let c := fst (fst x) in Z.eqb (sc_object c) (sd_object i) && Z.eqb (sd_column i) (sc_id c))
    (left_join (fun x (k : sys_check) => let c := fst x in Z.eqb (sc_object c) (sk_parent k) && Z.eqb (sk_column k) (sc_id c))
       (inner_join (fun c t => Z.eqb (sc_user_type c) (sy_id t)) (filter (fun c => is_id (table_id s schema name) (sc_object c)) (sys_columns s)) (sys_types s))
       (sys_checks s))
    (sys_identities s).
(** 220-257; what is dereferenced must not be NULL. *)
Definition scan_column (s : sys) (row : sys_column * sys_type * option sys_check * option sys_identity) : res ms_column :=
  let '(c, t, k, i) := row in
  bind (if Z.eqb (sc_default c) 0 then Ok None
        else bind (not_nil (object_name s (sc_default c))) (fun n => bind (not_nil (object_definition s (sc_default c))) (fun v => Ok (Some (n, v)))))
  (fun default =>
  bind (if sc_identity c then
          bind (not_nil i) (fun i => bind (not_nil (sd_seed i)) (fun seed => bind (not_nil (sd_increment i)) (fun inc =>
          bind (not_nil (sd_not_for_replication i)) (fun n => Ok (Some (mkMsIdentity seed inc n))))))
        else Ok None)
  (fun identity =>
  bind (match k with
        | None => Ok None
        | Some k => bind (not_nil (sk_definition k)) (fun d => Ok (Some (mkMsCheck (sk_name k) d (sk_not_for_replication k))))
        end)
  (fun check => Ok (mkMsColumn (sc_name c) (sy_name t) (sc_max_length c) (sc_nullable c) identity default check)))).
Definition columns_read (s : sys) (schema name : string) (r : res (list ms_column)) : Prop :=
  exists got, answer (column_query s schema name) got /\ r = scan_all_rows (scan_column s) got.

(** ** 277-353: [getIndexDefs] *)
Definition index_query (s : sys) (schema name : string) : list (sys_index * sys_stat) :=
  inner_join (fun x t => Z.eqb (sx_object x) (ss_object t) && Z.eqb (sx_id x) (ss_id t))
    (filter (fun x => is_id (object_id s schema name) (sx_object x)) (sys_indexes s)) (sys_stats s).
Definition scan_index (row : sys_index * sys_stat) : res ms_index_row :=
  let (x, t) := row in
  bind (not_null (sx_name x)) (fun n =>
  Ok (mkMsIndexRow n (sx_primary x) (sx_unique x) (sx_type x) (sx_padded x) (sx_fill x) (sx_ignore_dup x) (ss_no_recompute t) (ss_incremental t)
        (sx_row_locks x) (sx_page_locks x) [])).
(** 313: [indexDefMap[indexName] = definition]. *)
Fixpoint set_index (r : ms_index_row) (l : list ms_index_row) : list ms_index_row :=
  match l with [] => [r] | x :: l' => if String.eqb (mir_name x) (mir_name r) then r :: l' else x :: set_index r l' end.
Definition index_column_query (s : sys) (schema name : string) : list (sys_index * sys_index_column) :=
  inner_join (fun x c => Z.eqb (sx_object x) (sxc_object c) && Z.eqb (sx_id x) (sxc_index c))
    (filter (fun x => is_id (object_id s schema name) (sx_object x)) (sys_indexes s)) (sys_index_columns s).
Definition scan_index_column (s : sys) (row : sys_index * sys_index_column) : res (string * ms_index_column) :=
  let (x, c) := row in
  bind (not_null (sx_name x)) (fun n => bind (not_null (col_name s (sxc_object c) (sxc_column c))) (fun k =>
  Ok (n, mkMsIndexColumn k (sxc_descending c) (sxc_included c)))).
(** 337-346: the entry of the map; a missing one is a nil pointer. *)
Definition with_index_column (c : ms_index_column) (r : ms_index_row) : ms_index_row :=
  mkMsIndexRow (mir_name r) (mir_primary r) (mir_unique r) (mir_type r) (mir_padded r) (mir_fill r) (mir_ignore_dup r) (mir_no_recompute r) (mir_incremental r)
    (mir_row_locks r) (mir_page_locks r) (mir_columns r ++ [c]).
Fixpoint add_index_column (n : string) (c : ms_index_column) (l : list ms_index_row) : res (list ms_index_row) :=
  match l with
  | [] => Panic
  | x :: l' => if String.eqb (mir_name x) n then Ok (with_index_column c x :: l') else bind (add_index_column n c l') (fun r => Ok (x :: r))
  end.
Fixpoint add_index_columns (s : sys) (got : list (sys_index * sys_index_column)) (l : list ms_index_row) : res (list ms_index_row) :=
  match got with
  | [] => Ok l
  | row :: got' => bind (scan_index_column s row) (fun nc => bind (add_index_column (fst nc) (snd nc) l) (fun l' => add_index_columns s got' l'))
  end.
(** The order of the values of the map is that of [index_order] in [sys_dump_table]. *)
Definition indexes_read (s : sys) (schema name : string) (r : res (list ms_index_row)) : Prop :=
  exists got columns, answer (index_query s schema name) got /\ answer (index_column_query s schema name) columns /\
    r = bind (scan_all_rows scan_index got) (fun rows => add_index_columns s columns (fold_left (fun l x => set_index x l) rows [])).

(** ** 355-392: [getForeignDefs] *)
Definition fk_query (s : sys) (schema name : string) : list (sys_fk * sys_fk_column) :=
  inner_join (fun f c => Z.eqb (sf_id f) (sfc_constraint c)) (filter (fun f => is_id (object_id s schema name) (sf_parent f)) (sys_fks s)) (sys_fk_columns s).
Definition scan_fk (s : sys) (row : sys_fk * sys_fk_column) : res ms_fk_row :=
  let (f, c) := row in
  bind (not_null (col_name s (sf_parent f) (sfc_parent_column c))) (fun k =>
  bind (not_null (object_name s (sf_referenced f))) (fun t =>
  bind (not_null (col_name s (sf_referenced f) (sfc_referenced_column c))) (fun r =>
  Ok (mkMsFkRow (sf_name f) k t r (sf_update f) (sf_delete f) (sf_not_for_replication f))))).
Definition fks_read (s : sys) (schema name : string) (r : res (list ms_fk_row)) : Prop :=
  exists got, answer (fk_query s schema name) got /\ r = scan_all_rows (scan_fk s) got.

(** 54-67: [DumpTableDDL]. *)
Definition sys_dump_table (s : sys) (table : string) (r : res string) : Prop :=
  let (schema, name) := split_table_name "dbo" table in
  exists cols indexes fks, columns_read s schema name cols /\ indexes_read s schema name indexes /\ fks_read s schema name fks /\
  exists shown, match indexes with Ok l => index_order (map ms_index_of l) shown | _ => shown = [] end /\
  r = bind cols (fun cols => bind indexes (fun _ => bind fks (fun fks => Ok (ms_build_dump table cols shown fks)))).

(** 409-445: [Views] and 447-472: [Triggers]. *)
Definition module_query (s : sys) (ids : list Z) : list (Z * option string) := map snd (inner_join (fun id m => Z.eqb (fst m) id) ids (sys_modules s)).
Definition modules_read (s : sys) (ids : list Z) (r : res (list string)) : Prop :=
  exists got, answer (module_query s ids) got /\ r = scan_all_rows (fun m : Z * option string => not_null (snd m)) got.
(** A view is in sys.objects too (417-418). *)
Definition view_ids (s : sys) : list Z := map fst (inner_join (fun id o => Z.eqb (so_id o) id) (sys_views s) (sys_objects s)).

(** database.go 29-58: [DumpDDLs]. *)
Inductive dump_tables (s : sys) : list string -> res (list string) -> Prop :=
| no_tables : dump_tables s [] (Ok [])
| one_table_more n l r rest : sys_dump_table s n r -> dump_tables s l rest ->
    dump_tables s (n :: l) (bind r (fun text => bind rest (fun texts => Ok (text :: texts)))).
Definition sys_dump (s : sys) (r : res string) : Prop :=
  exists names tables views triggers,
    table_names_read s (Ok names) /\ dump_tables s names tables /\ modules_read s (view_ids s) views /\ modules_read s (sys_triggers s) triggers /\
    r = bind tables (fun tables => bind views (fun views => bind triggers (fun triggers =>
          Ok (join (";" ++ nl ++ nl) (tables ++ map ms_view_text views ++ triggers))))).
