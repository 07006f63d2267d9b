(** Concrete worlds for the examples beside the runner theorems. *)
From Coq Require Import String Ascii List ZArith Bool.
From Verif Require Import GoStr Ast Generator SchemaText Runner SpecRunner.
Import ListNotations.
Local Open Scope string_scope.

(** A toy parser: a statement is a table whose name is the text. *)
Definition demo_parse (m : mode) (s : string) : res ddl :=
  if String.eqb s "bad" then Err (EParse s) else Ok (CreateTable s (mkTable s [] [] [] [])).

(** A database holding the tables "a" and "b", a file asking for "b" and "c". *)
Definition demo_world (begin_ok : bool) (exec_ok : string -> bool) (commit_ok : bool) (file : string) : world :=
  mkWorld (fun _ => Some ["a"; "b"]) (fun _ n => Some n) (fun _ => Some []) (fun _ => Some [])
          (fun _ _ => Some file) (fun _ => begin_ok) (fun _ => exec_ok) (fun _ => commit_ok) (fun _ => true).

Definition apply_opts : options := mkOptions "schema.sql" false false false.
Definition dry_opts : options := mkOptions "schema.sql" true false false.
Definition skip_opts : options := mkOptions "schema.sql" false false true.
Definition export_opts : options := mkOptions "schema.sql" false true false.
