(** Parsed schemas used by the examples beside the planning theorems. *)
From Coq Require Import String Ascii List ZArith Bool SpecFloat.
From Verif Require Import GoStr GoNum Ast Generator SpecPlan.
Import ListNotations.
Local Open Scope string_scope.
Local Open Scope list_scope.

Definition col (n : string) (pos : Z) (ty : string) : column :=
  mkColumn n pos ty false None false false None None None None false "" "" false KeyNone None []
    "" None None.
Definition int_value (z : Z) (s : string) : value := mkValue VInt s "" z (S754_zero false) false.
Definition str_value (s : string) : value := mkValue VStr s s 0 (S754_zero false) false.
Definition key (k : key_option) (c : column) : column := set_key k c.
Definition with_length (z : Z) (s : string) (c : column) : column :=
  mkColumn (c_name c) (c_position c) (c_type c) (c_unsigned c) (c_notnull c) (c_autoinc c)
    (c_array c) (c_default c) (Some (int_value z s)) (c_scale c) (c_check c) (c_check_no_inherit c)
    (c_charset c) (c_collate c) (c_timezone c) (c_key c) (c_onupdate c) (c_enum c) (c_references c)
    (c_identity c) (c_sequence c).
Definition not_null_col (c : column) : column :=
  mkColumn (c_name c) (c_position c) (c_type c) (c_unsigned c) (Some true) (c_autoinc c)
    (c_array c) (c_default c) (c_length c) (c_scale c) (c_check c) (c_check_no_inherit c)
    (c_charset c) (c_collate c) (c_timezone c) (c_key c) (c_onupdate c) (c_enum c) (c_references c)
    (c_identity c) (c_sequence c).
Definition with_default (v : value) (c : column) : column :=
  mkColumn (c_name c) (c_position c) (c_type c) (c_unsigned c) (c_notnull c) (c_autoinc c)
    (c_array c) (Some (mkDefault (Some v) "")) (c_length c) (c_scale c) (c_check c) (c_check_no_inherit c)
    (c_charset c) (c_collate c) (c_timezone c) (c_key c) (c_onupdate c) (c_enum c) (c_references c)
    (c_identity c) (c_sequence c).
Definition with_check (d : string) (c : column) : column :=
  mkColumn (c_name c) (c_position c) (c_type c) (c_unsigned c) (c_notnull c) (c_autoinc c)
    (c_array c) (c_default c) (c_length c) (c_scale c) (Some (mkCheck d "" false)) (c_check_no_inherit c)
    (c_charset c) (c_collate c) (c_timezone c) (c_key c) (c_onupdate c) (c_enum c) (c_references c)
    (c_identity c) (c_sequence c).
Definition with_identity (i : option identity) (s : option sequence) (c : column) : column :=
  mkColumn (c_name c) (c_position c) (c_type c) (c_unsigned c) (c_notnull c) (c_autoinc c)
    (c_array c) (c_default c) (c_length c) (c_scale c) (c_check c) (c_check_no_inherit c)
    (c_charset c) (c_collate c) (c_timezone c) (c_key c) (c_onupdate c) (c_enum c) (c_references c)
    i s.
Definition idx (n : string) (u : bool) (cols : list string) : index :=
  mkIndex n (if u then "UNIQUE" else "") (map (fun c => mkIndexColumn c None "") cols) false u "" []
    false "" "" [].
Definition pk (cols : list string) : index :=
  mkIndex "PRIMARY" "primary key" (map (fun c => mkIndexColumn c None "") cols) true true "" []
    true "" "" [].
Definition fk (n : string) (c : string) (r : string) (rc : string) (del : string) : foreign_key :=
  mkForeignKey n "" [c] r [rc] del "" false.
Definition pol (n tbl using_ : string) (roles : list string) : policy :=
  mkPolicy n tbl "PERMISSIVE" "ALL" roles using_ "".

(** The texts of a plan. *)
Definition texts (r : res (list stmt)) : option (list string) :=
  match r with Ok out => Some (map s_text out) | _ => None end.
Definition failed {A} (r : res A) : bool := match r with Err _ => true | _ => false end.
Definition crashed {A} (r : res A) : bool := match r with Panic => true | _ => false end.

(** A blog; [q] qualifies table names (PostgreSQL and SQL Server). *)
Definition blog_current (q : string) : list ddl :=
  let users := (q ++ "users")%string in
  let posts := (q ++ "posts")%string in
  [ CreateTable "CREATE TABLE users (...)"
      (mkTable users
         [set_autoinc true (not_null_col (col "id" 0 "int")); with_length 40 "40" (col "name" 1 "varchar");
          col "age" 2 "int"; col "nick" 3 "text"]
         [pk ["id"]; idx "by_name" false ["name"]] [] []);
    CreateTable "CREATE TABLE posts (...)"
      (mkTable posts
         [not_null_col (col "id" 0 "int"); col "user_id" 1 "int"; col "body" 2 "text"]
         [pk ["id"]; idx "by_user" false ["user_id"]; idx "by_body" false ["body"]]
         [fk "fk_user" "user_id" "users" "id" "CASCADE"; fk "fk_self" "id" "posts" "id" ""] []);
    CreateIndex "CREATE INDEX by_age ON users (age)" users (idx "by_age" false ["age"]);
    AddPolicy "CREATE POLICY own ON users ..." users (pol "own" users "(id = 1)" ["a"; "b"]);
    AddPolicy "CREATE POLICY gone ON users ..." users (pol "gone" users "(true)" ["a"]);
    CreateTable "CREATE TABLE old (...)" (mkTable (q ++ "old")%string [col "x" 0 "int"] [] [] []);
    DView (mkView "CREATE VIEW v1 AS select 1" "v1" "select 1");
    DView (mkView "CREATE VIEW v2 AS select 2" "v2" "select 2");
    DTrigger (mkTrigger "CREATE TRIGGER t1 ..." "t1" users "BEFORE" "INSERT" ["SET NEW.age = 1"]);
    DTrigger (mkTrigger "CREATE TRIGGER t2 ..." "t2" users "BEFORE" "DELETE" ["SELECT 1"]) ].

Definition blog_desired (q : string) : list ddl :=
  let users := (q ++ "users")%string in
  let posts := (q ++ "posts")%string in
  [ CreateTable "CREATE TABLE users (id ...)"
      (mkTable users
         [set_autoinc true (not_null_col (col "id" 0 "integer")); with_length 80 "80" (col "name" 1 "varchar");
          not_null_col (col "age" 2 "int"); with_default (str_value "x") (col "email" 3 "text")]
         [pk ["id"]; idx "by_name" true ["name"]] [] []);
    CreateTable "CREATE TABLE posts (id ...)"
      (mkTable posts
         [not_null_col (col "id" 0 "int"); col "user_id" 1 "int"]
         [pk ["id"; "user_id"]; idx "by_user" false ["user_id"]]
         [fk "fk_user" "user_id" "users" "id" "SET NULL"; fk "fk_new" "id" "users" "id" ""] []);
    CreateIndex "CREATE INDEX by_age ON users (age, name)" users (idx "by_age" false ["age"; "name"]);
    AddPolicy "CREATE POLICY own ON users USING (id = 2)" users (pol "own" users "(id = 2)" ["b"; "a"]);
    CreateTable "CREATE TABLE tags (id int)" (mkTable (q ++ "tags")%string [col "id" 0 "int"] [] [] []);
    CreateIndex "CREATE INDEX tag_id ON tags (id)" (q ++ "tags")%string (idx "tag_id" false ["id"]);
    DView (mkView "CREATE VIEW v1 AS select 10" "v1" "select 10");
    DView (mkView "CREATE VIEW v3 AS select 3" "v3" "select 3");
    DTrigger (mkTrigger "CREATE TRIGGER t1 ..." "t1" users "BEFORE" "INSERT" ["SET NEW.age = 2"]);
    DTrigger (mkTrigger "CREATE TRIGGER t3 ..." "t3" users "AFTER" "DELETE" ["SELECT 1"]) ].

(** The tables of the blog that both versions have. *)
Definition nth_table (k : nat) (l : list ddl) : table := nth k (schema l) (mkTable "" [] [] [] []).
Definition nth_created (k : nat) (l : list ddl) : table := nth k (tables_in l) (mkTable "" [] [] [] []).
Definition plan_of (m : mode) (q : string) : list stmt :=
  match plan m (blog_desired q) (blog_current q) with Ok out => out | _ => [] end.

(** The hypotheses of the theorems about kept tables, on the blog. *)
Definition kept_example (m : mode) (q : string) (k : nat) : Prop :=
  let desired := blog_desired q in let current := blog_current q in
  NoDup (created desired) /\ NoDup (created current) /\
  plan m desired current = Ok (plan_of m q) /\
  In (nth_created k desired) (tables_in desired) /\ In (nth_table k current) (schema current) /\
  t_name (nth_table k current) = t_name (nth_created k desired).

(** Duplicate freedom, decided. *)
Fixpoint distinct (l : list string) : bool :=
  match l with [] => true | x :: l' => negb (mem x l') && distinct l' end.

(** IDENTITY(1,1) *)
Definition with_serial (c : column) : column :=
  with_identity (Some (mkIdentity "" false))
    (Some (mkSequence "" false "" (Some 1%Z) None false None false (Some 1%Z) None false false "")) c.
