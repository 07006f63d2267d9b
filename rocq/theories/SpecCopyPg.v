(** Copying a PostgreSQL database.  Only the syntax trees of [Ast] and the ideal PostgreSQL of
    [SpecPostgres] are used. *)
From Coq Require Import String List ZArith Bool.
From Verif Require Import GoStr Ast Generator SpecPlan SpecColumns SpecMysql SpecDatabase SpecPostgres SpecCopy.
Import ListNotations.
Local Open Scope string_scope.
Local Open Scope list_scope.

Definition pg_nothing : database pg_tab := mkDatabase [] [] [].

(** The same tables, without any foreign key, and the same views; there are no triggers. *)
Definition unlinked (g : pg_tab) : pg_tab :=
  mkPg (g_name g) (g_columns g) (g_pk g) (g_indexes g) (g_owned g) [] (g_policies g).
Definition unlinked_copy_of (a b : database pg_tab) : Prop :=
  db_tables a = map unlinked (db_tables b) /\ Forall2 same_view (db_views a) (db_views b) /\ db_triggers a = [].

(** The same tables with their foreign keys. *)
Definition pg_copy_of (a b : database pg_tab) : Prop :=
  db_tables a = db_tables b /\ Forall2 same_view (db_views a) (db_views b) /\ db_triggers a = [].

(** So is every table of PostgreSQL: identity columns are integers, and keys and indexes are on
    columns of the table, a primary key on different ones. *)
Definition pg_natural (g : pg_tab) : bool :=
  let there := map c_name (g_columns g) in
  forallb (fun c => match c_identity c with Some _ => is_integer (c_type c) && negb (c_array c) | None => true end) (g_columns g) &&
  match g_pk g with Some (_, l) => distinct l && forallb (fun x => mem x there) l | None => true end &&
  forallb (fun i => negb (Nat.eqb (length (i_columns i)) 0) && forallb (fun x => mem x there) (map ic_column (i_columns i) ++ i_included i)) (g_indexes g).

(** No UNIQUE constraints, and CHECK constraints have the names PostgreSQL gives them. *)
Definition pg_unnamed (g : pg_tab) : bool :=
  match g_owned g with [] => true | _ => false end &&
  forallb (fun c => match c_check c with Some k => String.eqb (ck_constraint k) (auto_check (g_name g) (c_name c)) | None => true end) (g_columns g) &&
  distinct (flat_map (fun c => match c_check c with Some k => [ck_constraint k] | None => [] end) (g_columns g)).
