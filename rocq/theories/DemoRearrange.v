(** Rearranged files for the examples of C103. *)
From Coq Require Import String Ascii List ZArith Bool Permutation.
From Verif Require Import GoStr Ast Generator Parser Planner SchemaText SpecPlan DemoPlan DemoConverge DemoConvergePg DemoConvergeMs DemoSqlite.
Import ListNotations.
Local Open Scope string_scope.
Local Open Scope list_scope.

(** The last statements first. *)
Definition rotated {A} (n : nat) (l : list A) : list A := skipn n l ++ firstn n l.
Lemma rotated_same {A} n (l : list A) : Permutation l (rotated n l).
Proof. unfold rotated. rewrite <- (firstn_skipn n l) at 1. apply Permutation_app_comm. Qed.

Definition shop_rotated : string :=
  "CREATE VIEW names AS select name from users;" ++ nl ++
  "CREATE VIEW people AS select id, name from users;" ++ nl ++
  "CREATE VIEW written AS select author from posts;" ++ nl ++
  "CREATE TABLE users (id integer PRIMARY KEY AUTOINCREMENT, name text NOT NULL UNIQUE);" ++ nl ++
  "create table posts (id integer primary key, author integer not null, -- who" ++ nl ++
  " constraint of_user foreign key (author) references users (id));".
Lemma rotated_parses : parse_file SQLite3 shop_rotated = Ok (rotated 2 shop_parsed).
Proof. vm_compute. reflexivity. Qed.

(** An index before its table. *)
Definition index_after : string := "CREATE TABLE t (a int); CREATE INDEX i ON t (a);".
Definition index_before : string := "CREATE INDEX i ON t (a); CREATE TABLE t (a int);".
