(** Models of the export queries of /repo/adapter/sqlite3/sqlite3.go and of the parts of
    /repo/adapter/mysql/mysql.go that build text. *)
From Coq Require Import String Ascii List ZArith Bool.
From Verif Require Import GoStr Catalog.
Import ListNotations.
Local Open Scope string_scope.

(** SQLite's LIKE operator for the pattern [sqlite_%]: case is ignored, [_] is any one
    character, [%] any text. *)
Definition like_sqlite (s : string) : bool :=
  has_prefix (to_lower s) "sqlite" && Nat.ltb 6 (String.length s).

(** sqlite3.go 27-45: [TableNames]. *)
Definition lite_table_names (master : list lite_row) : list string :=
  map lr_table (filter (fun r => String.eqb (lr_type r) "table" && negb (like_sqlite (lr_table r))) master).

(** 47-52: [DumpTableDDL]: the first row whose table has the name; [None]: no row, or its text
    is NULL, which are errors. *)
Definition lite_dump_table (master : list lite_row) (table : string) : option string :=
  match find (fun r => String.eqb (lr_table r) table) master with
  | Some r => lr_sql r
  | None => None
  end.

(** 54-72: [Views]. *)
Definition lite_views (master : list lite_row) : list (option string) :=
  map lr_sql (filter (fun r => String.eqb (lr_type r) "view") master).

Fixpoint all_some {A} (l : list (option A)) : option (list A) :=
  match l with
  | [] => Some []
  | x :: r => match x, all_some r with Some x, Some r => Some (x :: r) | _, _ => None end
  end.

(** What [DumpDDLs] (adapter/database.go 28-58) joins. *)
Definition lite_statements (master : list lite_row) : option (list string) :=
  match all_some (map (lite_dump_table master) (lite_table_names master)), all_some (lite_views master) with
  | Some t, Some v => Some (t ++ v)%list
  | _, _ => None
  end.

(** database.go 28-58: [DumpDDLs] itself; [None] is an error. *)
Definition lite_dump (master : list lite_row) : option string :=
  option_map (join (";" ++ nl ++ nl)) (lite_statements master).

(** mysql.go 81-97: one row of [show triggers]. *)
Definition my_trigger_text (t : my_trigger) : string :=
  "CREATE TRIGGER " ++ my_name t ++ " " ++ my_timing t ++ " " ++ my_event t ++ " ON " ++ my_table t ++
  " FOR EACH ROW " ++ my_statement t ++ ";".

(** mysql.go 75: one view. *)
Definition my_view_text (name definition : string) : string := "CREATE VIEW " ++ name ++ " AS " ++ definition.
