(** Databases and schemas used by the examples beside the convergence theorems for PostgreSQL. *)
From Coq Require Import String Ascii List ZArith Bool Lia SpecFloat.
From Verif Require Import GoStr Ast Generator SpecPlan SpecColumns SpecMysql SpecDatabase SpecPostgres SpecConvergePg
  DemoPlan DemoConverge ProofCompare ProofColumns ProofPgCheck.
Import ListNotations.
Local Open Scope string_scope.
Local Open Scope list_scope.

(** This database changes every type and replaces every view. *)
Definition every_cast (_ _ : column) : bool := true.
Definition every_view (_ : view) (_ : string) : bool := true.

Definition pg_run (out : list stmt) (c : database pg_tab) : option (database pg_tab) :=
  execute_all g_name pg_create (pg_alter every_cast) every_view out c.
Definition pg_plan (l : list ddl) (c : database pg_tab) : list stmt :=
  match plan Postgres l (pg_dump c) with Ok out => out | _ => [] end.
Definition pg_after (l : list ddl) (c : database pg_tab) : database pg_tab :=
  match pg_run (pg_plan l c) c with Some c' => c' | None => c end.
Definition pg_texts (l : list ddl) (c : database pg_tab) : option (list string) := texts (plan Postgres l (pg_dump c)).

(** Columns as the database has them. *)
Definition checked (n d : string) (c : column) : column := set_check (Some (mkCheck d n false)) false c.
Definition counting (b : string) (c : column) : column := set_identity (Some (mkIdentity b false)) c.
Definition referencing (r : string) (c : column) : column :=
  mkColumn (c_name c) (c_position c) (c_type c) (c_unsigned c) (c_notnull c) (c_autoinc c)
    (c_array c) (c_default c) (c_length c) (c_scale c) (c_check c) (c_check_no_inherit c)
    (c_charset c) (c_collate c) (c_timezone c) (c_key c) (c_onupdate c) (c_enum c) r
    (c_identity c) (c_sequence c).

Definition store : database pg_tab :=
  mkDatabase
    [ mkPg "public.users"
        [counting "ALWAYS" (not_null_col (col "id" 0 "bigint")); with_length 40 "40" (col "name" 0 "character varying");
         checked "users_age_check" "age > 0" (col "age" 0 "integer"); col "nick" 0 "text";
         with_default (int_value 1 "1") (col "level" 0 "smallint"); not_null_col (col "email" 0 "text")]
        (Some ("users_pkey", ["id"]))
        [pg_unique "public.users" "email"; idx "by_name" false ["name"]; idx "by_nick" false ["nick"]; idx "by_age" false ["age"]]
        ["users_email_key"] []
        [pol "own" "users" "(id = 1)" ["app"]; pol "gone" "users" "(true)" ["app"]];
      mkPg "public.posts"
        [not_null_col (col "id" 0 "integer"); col "user_id" 0 "bigint"; col "body" 0 "text"]
        (Some ("posts_pkey", ["id"])) [idx "by_user" false ["user_id"]] []
        [fk "fk_user" "user_id" "users" "id" "CASCADE"; fk "fk_self" "id" "posts" "id" ""] [];
      mkPg "public.log" [not_null_col (col "n" 0 "serial"); col "line" 0 "text"] None [] [] [] [];
      mkPg "public.old" [col "x" 0 "integer"] None [] [] [] [] ]
    [mkView "" "public.v1" "select 1"; mkView "" "public.v2" "select 2"] [].

(** The schema its owner wants. *)
Definition store_desired : list ddl :=
  [ CreateTable "CREATE TABLE users (...)"
      (mkTable "public.users"
         [counting "BY DEFAULT" (not_null_col (col "id" 0 "bigint")); with_length 80 "80" (not_null_col (col "name" 1 "varchar"));
          with_check "age > 18" (col "age" 2 "int");
          with_default (int_value 2 "2") (col "level" 3 "bigint"); key KeyUnique (col "email" 4 "text");
          key KeyUnique (with_check "phone <> ''" (col "phone" 5 "text"))]
         [pk ["id"]] [] []);
    CreateIndex "CREATE UNIQUE INDEX by_name ON users (name)" "public.users" (idx "by_name" true ["name"]);
    CreateIndex "CREATE INDEX by_age ON users (age)" "public.users" (idx "by_age" false ["age"]);
    CreateIndex "CREATE INDEX by_level ON users (level)" "public.users" (idx "by_level" false ["level"]);
    AddPolicy "CREATE POLICY own ON users USING (id = 2)" "public.users" (pol "own" "public.users" "(id = 2)" ["app"]);
    AddPolicy "CREATE POLICY new ON users USING (true)" "public.users" (pol "new" "public.users" "(true)" ["app"]);
    CreateTable "CREATE TABLE posts (...)"
      (mkTable "public.posts"
         [not_null_col (col "id" 0 "integer"); not_null_col (col "user_id" 1 "bigint")]
         [pk ["id"; "user_id"]]
         [fk "fk_user" "user_id" "users" "id" "SET NULL"; fk "fk_new" "id" "users" "id" ""] []);
    CreateIndex "CREATE INDEX by_user ON posts (user_id)" "public.posts" (idx "by_user" false ["user_id"]);
    CreateTable "CREATE TABLE log (...)"
      (mkTable "public.log" [not_null_col (col "n" 0 "serial"); col "line" 1 "text"] [pk ["n"]] [] []);
    CreateTable "CREATE TABLE tags (...)"
      (mkTable "public.tags"
         [key KeyPrimary (col "id" 0 "serial"); key KeyUnique (col "tag" 1 "text");
          referencing "posts" (with_check "post > 0" (col "post" 2 "integer"))]
         [] [fk "fk_tag" "tag" "users" "email" ""] []);
    CreateIndex "CREATE INDEX tag_id ON tags (id)" "public.tags" (idx "tag_id" false ["id"]);
    AddPolicy "CREATE POLICY t ON tags USING (true)" "public.tags" (pol "t" "public.tags" "(true)" ["app"]);
    DView (mkView "CREATE VIEW v1 AS select 10" "public.v1" "select 10");
    DView (mkView "CREATE VIEW v3 AS select 3" "public.v3" "select 3") ].

(** Deciding the comparisons. *)
Lemma yes_type a b : normalize_data_type Postgres a = normalize_data_type Postgres b -> same_type Postgres a b.
Proof. apply same_type_spec. Qed.

Ltac in_pk := apply in_primary_key_spec; vm_compute; reflexivity.
Ltac needed := first [left; left; reflexivity | left; right; split; [reflexivity|auto]; fail | right; in_pk].

Ltac pg_table_ok :=
  constructor;
  [ eexists; vm_compute; reflexivity
  | each; (split; [apply yes_type; vm_compute; reflexivity|let H := fresh in intros H; first [discriminate H|needed]])
  | each; unfold pg_primary; repeat split; try (vm_compute; tauto); each; cbn; auto
  | each; (split; [split; [vm_compute; reflexivity|discriminate]
                  |split; [reflexivity|split; [discriminate|split; [distinct_names|each; vm_compute; tauto]]]])
  | distinct_names | distinct_names | each | distinct_names
  | let H := fresh in intros H; vm_compute in H |- *; solve [reflexivity|now elim H] ].
Ltac pg_schema_ok :=
  constructor; [vm_compute; reflexivity
    | let d := fresh in let H := fresh in intros d H; vm_compute in H; repeat (destruct H as [<-|H]; [exact I|]); destruct H
    | distinct_names
    | each; pg_table_ok ].

Ltac stored_ok :=
  each; (split; [|split]; vm_compute;
  [ intros; first [discriminate|split; reflexivity]
  | let i := fresh in let E := fresh in intros i E; first [discriminate E | injection E as <-; split; reflexivity]
  | intros; first [discriminate|reflexivity] ]).
Lemma key_columns_ok (g : pg_tab) :
  match g_pk g with
  | Some (_, l) => forallb (fun x => existsb (fun c => String.eqb (c_name c) x &&
                     match c_notnull c with Some true => true | _ => false end) (g_columns g)) l = true
  | None => True
  end -> forall k l x, g_pk g = Some (k, l) -> In x l ->
    exists c, In c (g_columns g) /\ c_name c = x /\ c_notnull c = Some true.
Proof.
  intros H k l x E Hx. rewrite E in H. rewrite forallb_forall in H. apply H in Hx. apply existsb_exists in Hx as (c & Hc & Hx).
  apply andb_true_iff in Hx as [H1 H2]. apply String.eqb_eq in H1. exists c. split; [exact Hc|]. split; [exact H1|].
  destruct (c_notnull c) as [[]|]; (reflexivity || discriminate).
Qed.

Ltac sound_ok :=
  constructor; [distinct_names|distinct_names|distinct_names|distinct_names|stored_ok
    |apply key_columns_ok; vm_compute; trivial; fail|intros; discriminate|each; reflexivity|each; repeat split; discriminate].
Ltac exportable_ok :=
  constructor;
  [ let k := fresh in let l := fresh in let E := fresh in intros k l E; vm_compute in E;
    first [discriminate E | injection E as <- <-; reflexivity]
  | each; (split; [vm_compute; reflexivity|discriminate])
  | let H := fresh in intros H; vm_compute in H |- *; solve [reflexivity|now elim H] ].
Ltac pg_database_ok := constructor; [distinct_names|distinct_names|reflexivity|each; sound_ok|each; exportable_ok].

Lemma store_ok : database_ok store.
Proof. pg_database_ok. Qed.

Lemma store_schema : pg_schema store_desired.
Proof. pg_schema_ok. Qed.

Lemma store_convertible : pg_convertible every_cast every_view store_desired store.
Proof. apply pg_convertible_b_ok. vm_compute. reflexivity. Qed.

(** Small databases for the refutations. *)
Definition pg_one (g : pg_tab) : database pg_tab := mkDatabase [g] [] [].
Definition pg_empty : database pg_tab := mkDatabase [] [] [].
Definition pg_t (cols : list column) : pg_tab := mkPg "public.t" cols None [] [] [] [].
Definition t_only (cols : list column) : list ddl := only (mkTable "public.t" cols [] [] []).
Definition with_zone (c : column) : column :=
  mkColumn (c_name c) (c_position c) (c_type c) (c_unsigned c) (c_notnull c) (c_autoinc c)
    (c_array c) (c_default c) (c_length c) (c_scale c) (c_check c) (c_check_no_inherit c)
    (c_charset c) (c_collate c) true (c_key c) (c_onupdate c) (c_enum c) (c_references c)
    (c_identity c) (c_sequence c).
Definition with_unique : database pg_tab :=
  pg_one (mkPg "public.t" [col "a" 0 "integer"] None [pg_unique "public.t" "a"] ["t_a_key"] [] []).
Definition pair_fk : database pg_tab :=
  pg_one (mkPg "public.t" [col "a" 0 "integer"; col "b" 0 "integer"] None [] []
            [mkForeignKey "f" "" ["a"; "b"] "u" ["x"; "y"] "" "" false] []).
Definition app_checked (d : string) : database pg_tab :=
  pg_one (mkPg "app.t" [checked "t_a_check" d (col "a" 0 "integer")] None [] [] [] []).
Definition app_only (d : string) : list ddl :=
  only (mkTable "app.t" [with_check d (col "a" 0 "integer")] [] [] []).

Lemma pg_after_run l c c' :
  execute_all g_name pg_create (pg_alter every_cast) every_view (pg_plan l c) c = Some c' -> pg_after l c = c'.
Proof. unfold pg_after, pg_run. intros ->. reflexivity. Qed.
Lemma store_after :
  map g_name (db_tables (pg_after store_desired store)) = ["public.users"; "public.posts"; "public.log"; "public.tags"].
Proof. vm_compute. reflexivity. Qed.
Definition adds_reference : list ddl := t_only [col "a" 0 "integer"; referencing "u" (col "b" 1 "integer")].
Lemma column_b_added :
  pg_after adds_reference (pg_one (pg_t [col "a" 0 "integer"])) = pg_one (pg_t [col "a" 0 "integer"; col "b" 0 "integer"]).
Proof. vm_compute. reflexivity. Qed.
