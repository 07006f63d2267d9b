(** Databases used by the examples and refutations beside the theorems on exports read back. *)
From Coq Require Import String Ascii List ZArith Bool.
From Verif Require Import GoStr Ast Generator Catalog AdapterPostgres Parser Planner SpecPlan SpecMysql SpecDatabase SpecPostgres SpecShown
  SpecConvergePg DemoPlan DemoConverge DemoConvergePg ProofPgCheck.
Import ListNotations.
Local Open Scope string_scope.
Local Open Scope list_scope.

(** PostgreSQL shows this name in quotes. *)
Definition is_quoted (n : string) : bool := String.eqb n "Full Name".

Definition shown (n : string) (t : shown_type) : shown_column := mkShownColumn n t false None None None.
Definition blog : shown_database :=
  mkShown
    [ mkShownTable "public" "users"
        [ mkShownColumn "id" (TBase (BWord "bigint")) true None (Some true) None;
          mkShownColumn "Full Name" (TBase (BVarying (Some 40%Z))) true (Some (DText "it's me" "character varying")) None None;
          mkShownColumn "age" (TBase (BWord "integer")) false (Some (DInt 18)) None
            (Some (mkShownCheck "users_age_check"
                     (EAnd (EGroup (ECompare CmpGe (EColumn "age") (EInt 18))) (EGroup (ENotNull (EColumn "mail")))) false));
          shown "mail" (TUser "citext"); shown "tags" (TArray (BVarying None));
          mkShownColumn "since" (TTimestamp true) true (Some DNow) None None ]
        (Some ("users_pkey", ["id"]))
        [ mkShownIndex "users_mail_key" true [("mail", false)] None;
          mkShownIndex "by_name" false [("Full Name", false); ("age", true)] (Some (ECompare CmpNe (EAsText "mail") (EText ""))) ]
        ["users_mail_key"] []
        [ mkShownPolicy "own" true ForUpdate ["app"; "web"] (Some (ECompare CmpGt (EColumn "age") (EInt 17))) None ];
      mkShownTable "app" "posts"
        [ mkShownColumn "id" (TSerial "integer") true None None None; shown "author" (TBase (BWord "bigint"));
          mkShownColumn "hidden" (TBase (BWord "boolean")) true (Some (DBool false)) None None ]
        (Some ("posts_pkey", ["id"])) [] []
        [ mkShownFk "posts_author" "author" "public" "users" "id" NoAction Cascade ] [] ]
    [ mkShownView "public" "adults" [("users", "id"); ("users", "mail")] "users"
        (Some (ECompare CmpGt (EField "users" "age") (EInt 20))) ].

Lemma blog_readable : database_readable is_quoted blog = true.
Proof. vm_compute. reflexivity. Qed.
Lemma blog_ok : database_ok (ideal blog).
Proof. pg_database_ok. Qed.

(** A smaller one and what its owner wants. *)
Definition club : shown_database :=
  mkShown
    [ mkShownTable "public" "users"
        [ mkShownColumn "id" (TBase (BWord "bigint")) true None None None;
          mkShownColumn "age" (TBase (BWord "integer")) false (Some (DInt 18)) None None;
          shown "nick" (TBase (BWord "text")) ]
        (Some ("users_pkey", ["id"])) [mkShownIndex "by_nick" false [("nick", false)] None] [] [] [] ] [].
Definition club_wants : string :=
  "CREATE TABLE users (id bigint NOT NULL, age bigint NOT NULL DEFAULT 20, PRIMARY KEY (id)); CREATE INDEX by_age ON users (age);".
Definition club_parsed : list ddl :=
  Eval vm_compute in match parse_file Postgres club_wants with Ok l => l | _ => [] end.
Lemma club_parses : parse_file Postgres club_wants = Ok club_parsed.
Proof. vm_compute. reflexivity. Qed.
Lemma club_readable : database_readable is_quoted club = true.
Proof. vm_compute. reflexivity. Qed.
Lemma club_ok : database_ok (ideal club).
Proof. pg_database_ok. Qed.
Lemma club_schema : pg_schema club_parsed.
Proof. pg_schema_ok. Qed.
Lemma club_convertible : pg_convertible every_cast every_view club_parsed (ideal club).
Proof. apply pg_convertible_b_ok. vm_compute. reflexivity. Qed.
(** The club as the run leaves it. *)
Definition club_after : shown_database :=
  mkShown
    [ mkShownTable "public" "users"
        [ mkShownColumn "id" (TBase (BWord "bigint")) true None None None;
          mkShownColumn "age" (TBase (BWord "bigint")) true (Some (DInt 20)) None None ]
        (Some ("users_pkey", ["id"])) [mkShownIndex "by_age" false [("age", false)] None] [] [] [] ] [].

(** Databases with one table, as their catalogues. *)
Definition int_column (n : string) : Catalog.pg_column := mkPgColumn n None true None "integer" "integer" None.
Definition just (schema : string) (columns : list Catalog.pg_column) (constraints : list pg_constraint) (indexes : list string)
    (policies : list pg_policy) : pg_database :=
  mkPgDatabase [mkPgTable schema "t" columns constraints (map (mkPgIndex "i") indexes) policies] [].
Definition typed_column (ty : string) (default : option string) : pg_database :=
  just "public" [mkPgColumn "a" default true None ty ty None] [] [] [].
Definition indexed (columns : string) : pg_database :=
  just "public" [int_column "a"; int_column "b"] [] ["CREATE INDEX i ON public.t USING " ++ columns]%string [].
Definition fk_constraint_on (columns refs : list string) (delete : string) : pg_database :=
  just "public" [int_column "a"; int_column "b"] [mkPgConstraint "f" ConForeign columns "" "public" "u" refs "NO ACTION" delete] [] [].
Definition app_policy : pg_database :=
  just "app" [int_column "a"] [] [] [mkPgPolicy "p" "PERMISSIVE" "{public}" "ALL" (Some "(a > 1)") None].

Definition fails {A} (r : res A) : bool := match r with Err _ => true | _ => false end.
Lemma club_after_readable : database_readable is_quoted club_after = true.
Proof. vm_compute. reflexivity. Qed.
Lemma club_after_ok : database_ok (ideal club_after).
Proof. pg_database_ok. Qed.
Lemma club_after_convertible : pg_convertible every_cast every_view club_parsed (ideal club_after).
Proof. apply pg_convertible_b_ok. vm_compute. reflexivity. Qed.
