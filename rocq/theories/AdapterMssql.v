(** Model of /repo/adapter/mssql/mssql.go: the export text. *)
From Coq Require Import String Ascii List ZArith Bool Permutation.
From Verif Require Import GoStr SchemaParse Catalog AdapterPostgres.
Import ListNotations.
Local Open Scope string_scope.

(** 77-104: one column. *)
Definition has_length (t : string) : bool := string_in t ["char"; "varchar"; "binary"; "varbinary"].

Definition ms_column_text (c : ms_column) : string :=
  mc_name c ++ " " ++ mc_type c ++
  (if has_length (mc_type c) then "(" ++ mc_max_length c ++ ")" else "") ++
  (if mc_nullable c then "" else " NOT NULL") ++
  match mc_default c with
  | Some (name, v) => if String.eqb name "" then "" else " CONSTRAINT " ++ name ++ " DEFAULT " ++ v
  | None => ""
  end ++
  match mc_identity c with
  | Some i => " IDENTITY(" ++ mi_seed i ++ "," ++ mi_increment i ++ ")" ++
              (if mi_not_for_replication i then " NOT FOR REPLICATION" else "")
  | None => ""
  end ++
  match mc_check c with
  | Some k => " CONSTRAINT [" ++ mk_name k ++ "] CHECK" ++
              (if mk_not_for_replication k then " NOT FOR REPLICATION" else "") ++ " " ++ mk_definition k
  | None => ""
  end.

(** 335-347: index columns as the second query of [getIndexDefs] collects them. *)
Definition key_columns (i : ms_index) : list string :=
  map (fun c => "[" ++ mx_name c ++ "]" ++ (if mx_descending c then " DESC" else ""))
      (filter (fun c => negb (mx_included c)) (mi_columns i)).
Definition included_columns (i : ms_index) : list string :=
  map (fun c => "[" ++ mx_name c ++ "]") (filter mx_included (mi_columns i)).

(** 112-114, 142-144: the index type. *)
Definition type_text (i : ms_index) : string :=
  if string_in (mi_type i) ["CLUSTERED"; "NONCLUSTERED"] then " " ++ mi_type i else "".

(** 116-125, 149-158: the options. *)
Definition options_text (i : ms_index) : string :=
  match mi_options i with
  | [] => ""
  | l => " WITH (" ++ join "," (map (fun o => " " ++ fst o ++ " = " ++ snd o) l) ++ " )"
  end.

(** 107-126: a primary key inside CREATE TABLE. *)
Definition primary_text (i : ms_index) : string :=
  "," ++ nl ++ indent ++ "CONSTRAINT [" ++ mi_name i ++ "] PRIMARY KEY" ++ type_text i ++
  " (" ++ join ", " (key_columns i) ++ ")" ++ options_text i.

(** 134-158: the statement of another index. *)
Definition index_text (table : string) (i : ms_index) : string :=
  "CREATE" ++ (if mi_unique i then " UNIQUE" else "") ++ type_text i ++
  " INDEX [" ++ mi_name i ++ "] ON " ++ table ++ " (" ++ join ", " (key_columns i) ++ ")" ++
  (match included_columns i with [] => "" | l => " INCLUDE (" ++ join ", " l ++ ")" end) ++ options_text i.

(** 379-390: one foreign key row; [strings.Replace(rule, "_", " ", -1)]. *)
Fixpoint underscores_to_spaces (s : string) : string :=
  match s with
  | EmptyString => EmptyString
  | String a s' => String (if Ascii.eqb a "_" then " "%char else a) (underscores_to_spaces s')
  end.

Definition fk_text (r : ms_fk_row) : string :=
  "," ++ nl ++ indent ++
  "CONSTRAINT [" ++ mf_name r ++ "] FOREIGN KEY ([" ++ mf_column r ++ "]) REFERENCES [" ++ mf_ref_table r ++
  "] ([" ++ mf_ref_column r ++ "]) ON UPDATE " ++ underscores_to_spaces (mf_on_update r) ++
  " ON DELETE " ++ underscores_to_spaces (mf_on_delete r) ++
  (if mf_not_for_replication r then " NOT FOR REPLICATION" else "").

(** 69-132: CREATE TABLE without its semicolon. *)
Definition ms_create_text (table : string) (cols : list ms_column) (indexes : list ms_index)
    (fks : list ms_fk_row) : string :=
  "CREATE TABLE " ++ table ++ " (" ++
  join "," (map (fun c => nl ++ indent ++ ms_column_text c) cols) ++
  join "" (map primary_text (filter mi_primary indexes)) ++
  join "" (map fk_text fks) ++ nl ++ ")".

(** 69-161: [buildDumpTableDDL].  The statements of the indexes follow each other without
    anything between them. *)
Definition ms_build_dump (table : string) (cols : list ms_column) (indexes : list ms_index)
    (fks : list ms_fk_row) : string :=
  trim_suffix
    (ms_create_text table cols indexes fks ++ ";" ++ nl ++
     join "" (map (index_text table) (filter (fun i => negb (mi_primary i)) indexes)))
    (";" ++ nl).

(** 266-353: [getIndexDefs] returns the values of a Go map, in any order; names are the keys. *)
Definition index_order (catalogue shown : list ms_index) : Prop := Permutation catalogue shown.
