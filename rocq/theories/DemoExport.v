(** Catalogues used by the examples of PropsExport.v. *)
From Coq Require Import String Ascii List ZArith Bool.
From Verif Require Import GoStr SqlAst SchemaParse Catalog AdapterPostgres AdapterMssql AdapterSqlite SpecUrl SpecExport.
Import ListNotations.
Local Open Scope string_scope.

Definition pgcol (n ty : string) : pg_column := mkPgColumn n None true None ty ty None.
Definition pgcon (n : string) (k : con_kind) (cols : list string) (def : string) : pg_constraint :=
  mkPgConstraint n k cols def "" "" [] "" "".
Definition pgfk (n : string) (cols : list string) (t : string) (refs : list string) : pg_constraint :=
  mkPgConstraint n ConForeign cols "" "public" t refs "NO ACTION" "CASCADE".

Definition users : pg_table := mkPgTable "public" "users"
  [mkPgColumn "id" (Some "nextval('users_id_seq'::regclass)") false None "bigint" "bigint" None;
   mkPgColumn "name" (Some "'x'::character varying") true (Some 40%Z) "character varying" "character varying(40)" None;
   pgcol "age" "integer"]
  [pgcon "users_pkey" ConPrimary ["id"] ""; pgcon "users_name_key" ConUnique ["name"] "";
   pgcon "users_age_check" ConCheck ["age"] "CHECK (age > 20)"]
  [mkPgIndex "users_pkey" "CREATE UNIQUE INDEX users_pkey ON public.users USING btree (id)";
   mkPgIndex "users_by_age" "CREATE INDEX users_by_age ON public.users USING btree (age)"]
  [mkPgPolicy "own" "PERMISSIVE" "{a,b}" "ALL" (Some "(id = 1)") None].
Definition posts : pg_table := mkPgTable "public" "posts"
  [mkPgColumn "id" None false None "integer" "integer" None; pgcol "user_id" "bigint"]
  [pgcon "posts_pkey" ConPrimary ["id"; "user_id"] ""; pgfk "posts_user" ["user_id"] "users" ["id"]]
  [mkPgIndex "posts_pkey" "CREATE UNIQUE INDEX posts_pkey ON public.posts USING btree (id, user_id)"] [].
Definition adults : pg_view := mkPgView "public" "adults"
  (" SELECT users.id," ++ nl ++ "    users.name" ++ nl ++ "   FROM users" ++ nl ++ "  WHERE (users.age > 20);").
Definition shop : pg_database := mkPgDatabase [users; posts] [adults].

Definition mscol (n ty len : string) : ms_column := mkMsColumn n ty len true None None None.
Definition msidx (n : string) (pk : bool) (cols : list string) : ms_index :=
  mkMsIndex n pk false (if pk then "CLUSTERED" else "NONCLUSTERED") []
    (map (fun c => mkMsIndexColumn c false false) cols).

Definition conf (user password host db : string) (port : Z) (socket : string) : config :=
  mkConfig db user password host port socket.

(** A column with the attribute BINARY. *)
Definition binary_column : column_definition :=
  mkColumnDefinition "a" (mkColumnType "varchar" None false None None None false false None false None "" "binary"
                            false [] ColKeyNone "" None).

(** The column [a varchar CONSTRAINT name CHECK (a > 0)]. *)
Definition checked_column (name : string) : column_definition :=
  mkColumnDefinition "a" (mkColumnType "varchar" None false None None
     (Some (mkSqlCheck (mkWhere "where" (mkExpr (Some "a > 0") None)) name false)) false false None false None "" "" false [] ColKeyNone "" None).
