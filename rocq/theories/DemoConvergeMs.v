(** Databases and schemas used by the examples beside the convergence theorems for SQL Server. *)
From Coq Require Import String Ascii List ZArith Bool.
From Verif Require Import GoStr GoStrFacts Ast Generator Catalog AdapterMssql ExportMssql SchemaText SchemaParse Parser Planner SpecPlan SpecColumns SpecMysql SpecDatabase
  SpecShown SpecShownMssql SpecMssql SpecConvergeMs DemoPlan DemoReadMssql ProofMsCheck.
Import ListNotations.
Local Open Scope string_scope.
Local Open Scope list_scope.

(** This server names constraints after tables and columns, writes a number in a condition
    in parentheses and keeps values as they are.  [getdate] without parentheses is no default. *)
Definition some_ways : ms_ways :=
  mkWays (fun kind tbl c => kind ++ "__" ++ tbl ++ "__" ++ c)%string
    (fun s => if String.eqb s "a > 0" then "a > (0)" else s) (fun v => v) mq_word
    (fun v => match v_type v with VStr => negb (has_char "'" (v_str v)) | VInt => true | VValArg => negb (String.eqb (v_raw v) "getdate") | _ => false end).
Lemma some_names : ms_names_given some_ways.
Proof. intros kind tbl c. cbn. intros H. destruct kind; discriminate. Qed.
Definition every_ms_view (_ : view) (_ : string) : bool := true.

Definition ms_parsed (text : string) : list ddl := match parse_file Mssql text with Ok l => l | _ => [] end.
Definition ms_run (out : list stmt) (c : database ms_tab) : option (database ms_tab) :=
  execute_all m_name (ms_create some_ways) (ms_alter some_ways) every_ms_view out c.
Definition ms_plan (l : list ddl) (c : database ms_tab) : list stmt :=
  match plan Mssql l (ms_shown c) with Ok out => out | _ => [] end.
Definition ms_after (l : list ddl) (c : database ms_tab) : database ms_tab :=
  match ms_run (ms_plan l c) c with Some c' => c' | None => c end.
Definition ms_texts (l : list ddl) (c : database ms_tab) : option (list string) := texts (plan Mssql l (ms_shown c)).

Definition market : mq_database :=
  mkMqDatabase
    [ mkMqTable "dbo" "users"
        (mkMqColumn "id" (QPlain "bigint" "8") false None (Some (mkMqIdentity 1000 10 true)) None)
        [ mkMqColumn "name" (QSized "varchar" 40) false (Some ("DF_users_name", QString "it's me")) None None;
          mkMqColumn "age" (QPlain "int" "4") true (Some ("DF_users_age", QInt (-1))) None
            (Some (mkMqCheck "CK_age" (ECompare CmpGt (EColumn "age") (EGroup (EInt 0))) false));
          mkMqColumn "since" (QPlain "datetime" "8") false (Some ("DF_since", QGetdate)) None None;
          mkMqColumn "nick" (QSized "varchar" 20) true (Some ("DF_nick", QString "?")) None None ]
        (Some (mkMqIndex "PK_users" true true ("id", false) [] [] usual))
        (Some (mkMqIndex "by name" true false ("name", true) [("since", false)] ["age"] (mkMqOptions true 80 true false false true false)))
        [];
      mkMqTable "dbo" "orders"
        (plain_column "id" "int" "4") [plain_column "buyer" "bigint" "8"; plain_column "seller" "bigint" "8"]
        (Some (mkMqIndex "PK_orders" true false ("id", true) [("buyer", false)] [] usual)) (Some (mkMqIndex "by_seller" false false ("seller", false) [] [] usual))
        [ mkMqFk "FK_buyer" "buyer" "users" "id" QNoAction QCascade false; mkMqFk "FK_seller" "seller" "users" "id" QNoAction QNoAction false ];
      mkMqTable "dbo" "old" (plain_column "x" "int" "4") [] None None [] ]
    [ mkMqView (mkShownView "dbo" "people" [("users", "id"); ("users", "name")] "users" (Some (ECompare CmpGt (EColumn "age") (EGroup (EInt 17))))) (nl ++ "  ") true;
      mkMqView (mkShownView "dbo" "gone" [("old", "x")] "old" None) " " false ]
    [ mkMqTrigger "log" "orders" QInsert "audit" ["a"; "b"] [1%Z; 2%Z] ].

Definition market_wants : string :=
  ("CREATE TABLE users (" ++
   "id bigint NOT NULL IDENTITY(1000,10) NOT FOR REPLICATION," ++
   "name varchar(40) NOT NULL CONSTRAINT DF_new DEFAULT 'you'," ++
   "age int CONSTRAINT CK_older CHECK (age > (17))," ++
   "since datetime NOT NULL DEFAULT getdate()," ++
   "email varchar(80) NOT NULL DEFAULT '' CHECK (email <> 'none')," ++
   "CONSTRAINT PK_users PRIMARY KEY CLUSTERED (id ASC)," ++
   "INDEX by_since (since DESC, email) WITH (FILLFACTOR = 70)" ++
   ");" ++
   "CREATE INDEX [by name] ON users (name DESC) INCLUDE (age) WITH (PAD_INDEX = ON, FILLFACTOR = 90);" ++
   "CREATE UNIQUE INDEX by_email ON users (email);" ++
   "CREATE TABLE orders (id int NOT NULL, buyer bigint NOT NULL," ++
   "CONSTRAINT FK_buyer FOREIGN KEY (buyer) REFERENCES users (id) ON DELETE NO ACTION," ++
   "INDEX by_seller UNIQUE (buyer));" ++
   "CREATE TABLE tags (id int PRIMARY KEY IDENTITY(1,1), tag varchar(10) NOT NULL DEFAULT 'x' CHECK (tag <> ''), buyer bigint," ++
   "CONSTRAINT FK_tag FOREIGN KEY (buyer) REFERENCES users (id) ON DELETE SET NULL, INDEX by_tag (tag));" ++
   "CREATE VIEW people AS select users.id from users;" ++
   "CREATE VIEW grown AS select users.id from users where users.age > 17;" ++
   "CREATE TRIGGER log ON orders AFTER INSERT AS insert into audit(a, b) values (1, 3);")%string.
Definition market_schema : list ddl := Eval vm_compute in ms_parsed market_wants.
Lemma market_parses : parse_file Mssql market_wants = Ok market_schema.
Proof. vm_compute. reflexivity. Qed.
Lemma market_readable : mq_readable market = true.
Proof. vm_compute. reflexivity. Qed.
Lemma market_wanted : ms_schema some_ways market_schema.
Proof. apply ms_schema_b_ok. vm_compute. reflexivity. Qed.
Lemma market_ok : ms_database_ok (mq_ideal market).
Proof. apply ms_database_b_ok. vm_compute. reflexivity. Qed.
Lemma market_convertible : ms_convertible some_ways market_schema (mq_ideal market).
Proof. apply ms_convertible_b_ok. vm_compute. reflexivity. Qed.
Lemma market_planned : plan Mssql market_schema (ms_shown (mq_ideal market)) = Ok (ms_plan market_schema (mq_ideal market)).
Proof. vm_compute. reflexivity. Qed.
Lemma ms_after_run l c c' :
  execute_all m_name (ms_create some_ways) (ms_alter some_ways) every_ms_view (ms_plan l c) c = Some c' -> ms_after l c = c'.
Proof. unfold ms_after, ms_run. intros ->. reflexivity. Qed.
Lemma market_after : map m_name (db_tables (ms_after market_schema (mq_ideal market))) = ["users"; "orders"; "tags"].
Proof. vm_compute. reflexivity. Qed.

(** A database as the user left it after the run: with one index, as C85 asks. *)
Definition market_small : string :=
  ("CREATE TABLE users (id bigint IDENTITY(1,1) PRIMARY KEY, name varchar(40) NOT NULL DEFAULT 'you', age int CHECK (age > (17)));" ++
   "CREATE INDEX by_name ON users (name DESC);")%string.
Definition market_there : mq_database :=
  mkMqDatabase
    [ mkMqTable "dbo" "users"
        (mkMqColumn "id" (QPlain "bigint" "8") false None (Some (mkMqIdentity 1 1 false)) None)
        [ mkMqColumn "name" (QSized "varchar" 40) false (Some ("DF__users__name", QString "you")) None None;
          mkMqColumn "age" (QPlain "int" "4") true None None (Some (mkMqCheck "CK__users__age" (ECompare CmpGt (EColumn "age") (EGroup (EInt 17))) false)) ]
        (Some (mkMqIndex "PK__users" true true ("id", false) [] [] usual))
        (Some (mkMqIndex "by_name" false false ("name", true) [] [] usual)) [] ] [] [].
Definition small_schema : list ddl := Eval vm_compute in ms_parsed market_small.
Lemma small_parses : parse_file Mssql market_small = Ok small_schema.
Proof. vm_compute. reflexivity. Qed.
Lemma small_wanted : ms_schema some_ways small_schema.
Proof. apply ms_schema_b_ok. vm_compute. reflexivity. Qed.
Lemma there_readable : mq_readable market_there = true.
Proof. vm_compute. reflexivity. Qed.
Lemma there_ok : ms_database_ok (mq_ideal market_there).
Proof. apply ms_database_b_ok. vm_compute. reflexivity. Qed.
Lemma there_convertible : ms_convertible some_ways small_schema (mq_ideal market_there).
Proof. apply ms_convertible_b_ok. vm_compute. reflexivity. Qed.

(** ** For the refutations *)
Definition ms_none : database ms_tab := mkDatabase [] [] [].
(** The database that [text] makes. *)
Definition ms_made (text : string) : database ms_tab := ms_after (ms_parsed text) ms_none.
(** What a run plans on the database that the first text made, and whether it gets through. *)
Definition next_run (text : string) (c : database ms_tab) : option (list string) * bool :=
  (ms_texts (ms_parsed text) c, match ms_run (ms_plan (ms_parsed text) c) c with Some _ => true | None => false end).
