(** Model of /repo/adapter/mysql/mysql.go 28-98 and /repo/adapter/database.go 29-58: what the
    export of a MySQL database says.  Errors of the connection are not modelled, a query without a row is [None] (Go: an error,
    sql.ErrNoRows). *)
From Coq Require Import String Ascii List ZArith Bool.
From Verif Require Import GoStr GoStrFacts Ast Catalog CatalogMysql AdapterSqlite.
Import ListNotations.
Local Open Scope string_scope.

(** mysql.go 28-44: [TableNames]. *)
Definition my_table_names (s : my_server) : list string := map fst (srv_tables s).

(** mysql.go 46-56: [DumpTableDDL].  The name is put between backquotes as it is, so a name
    with a backquote is another name or no name at all; here it has no row. *)
Definition my_dump_table (s : my_server) (table : string) : option string :=
  if has_char "`" table then None
  else option_map snd (List.find (fun t => String.eqb (fst t) table) (srv_tables s)).

(** mysql.go 58-79: [Views].  The definition is asked for by the name of the view alone, the
    first row is taken.  As above for a name with a quote. *)
Definition my_view_ddl (s : my_server) (view : string) : option string :=
  if has_char "'" view then None
  else option_map (fun r => my_view_text view (vr_definition r)) (List.find (fun r => String.eqb (vr_name r) view) (srv_view_rows s)).

(** mysql.go 81-98: [Triggers]. *)
Definition my_triggers (s : my_server) : list string := map my_trigger_text (srv_triggers s).

Fixpoint all_or_none {A} (l : list (option A)) : option (list A) :=
  match l with
  | [] => Some []
  | Some x :: l' => option_map (cons x) (all_or_none l')
  | None :: _ => None
  end.

(** database.go 29-58: [DumpDDLs]: tables, then views, then triggers. *)
Definition my_dump (s : my_server) : option string :=
  match all_or_none (map (my_dump_table s) (my_table_names s)), all_or_none (map (my_view_ddl s) (srv_views s)) with
  | Some tables, Some views => Some (join (";" ++ nl ++ nl) (tables ++ views ++ my_triggers s))
  | _, _ => None
  end.
