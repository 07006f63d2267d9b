(** What a SQLite catalogue says of one table: the row of the table and those of its indexes and triggers. *)
From Coq Require Import String List Bool.
From Verif Require Import GoStr Ast Generator Catalog.
Import ListNotations.

Definition rows_of (n : string) (master : list lite_row) : list lite_row :=
  filter (fun r => String.eqb (lr_table r) n) master.
