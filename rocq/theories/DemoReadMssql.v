(** Databases used by the examples and refutations beside the theorems on SQL Server exports read back. *)
From Coq Require Import String Ascii List ZArith Bool Permutation Lia.
From Verif Require Import GoStr GoStrFacts Ast Generator Catalog SchemaParse AdapterPostgres AdapterMssql ExportMssql Parser Planner SpecPlan SpecShown SpecShownMssql.
Import ListNotations.
Local Open Scope string_scope.
Local Open Scope list_scope.

(** The export of a server with the indexes in the order of the catalogue. *)
Definition ms_export (s : ms_server) : string :=
  join (";" ++ nl ++ nl)
    (map (fun n => match ms_find s n with
                   | Some t => ms_build_dump n (mst_columns t) (map ms_index_of (mst_indexes t)) (mst_fks t)
                   | None => ms_build_dump n [] [] []
                   end) (ms_table_names s) ++ map ms_view_text (mss_views s) ++ mss_triggers s).
Lemma ms_export_is s : ms_dump s (ms_export s).
Proof.
  eexists. split; [|reflexivity]. induction (ms_table_names s) as [|n l IH]; [constructor|]. cbn [map]. constructor; [|exact IH].
  unfold ms_dump_table. destruct (ms_find s n) as [t|]; [|reflexivity]. eexists. split; [apply Permutation_refl|reflexivity].
Qed.
(** There is one export where no table has two indexes. *)
Definition few_indexes (s : ms_server) : bool := forallb (fun t => Nat.leb (List.length (mst_indexes t)) 1) (mss_tables s).
Lemma ms_export_only s text : few_indexes s = true -> ms_dump s text -> text = ms_export s.
Proof.
  intros F (tables & D & ->). unfold ms_export. do 2 f_equal. revert D. generalize (ms_table_names s). intros l. revert tables.
  induction l as [|n l IH]; intros tables D; inversion D as [|? x ? y A B]; subst; [reflexivity|]. cbn [map]. f_equal; [|now apply IH].
  unfold ms_dump_table in A. destruct (ms_find s n) as [t|] eqn:E; [|exact A]. destruct A as (shown & P & ->). f_equal.
  unfold ms_find in E. destruct (split_table_name "dbo" n) in E. apply find_some in E as [I _]. unfold few_indexes in F. rewrite forallb_forall in F. specialize (F t I).
  apply Nat.leb_le in F. unfold index_order in P. destruct (mst_indexes t) as [|i [|j k]]; cbn [map] in *.
  - now apply Permutation_nil in P.
  - now apply Permutation_length_1_inv in P.
  - cbn in F. lia.
Qed.

Definition usual : mq_options := mkMqOptions false 0 false false false true true.
Definition plain_column (n t bytes : string) : mq_column := mkMqColumn n (QPlain t bytes) false None None None.
Definition shop : mq_database :=
  mkMqDatabase
    [ mkMqTable "dbo" "users"
        (mkMqColumn "id" (QPlain "bigint" "8") false None (Some (mkMqIdentity 1000 10 true)) None)
        [ mkMqColumn "name" (QSized "varchar" 40) false (Some ("DF_users_name", QString "it's me")) None None;
          mkMqColumn "age" (QPlain "int" "4") true (Some ("DF_users_age", QInt (-1))) None
            (Some (mkMqCheck "CK_age" (EAnd (ECompare CmpGt (EColumn "age") (EGroup (EInt 0))) (ENotNull (EColumn "age"))) true));
          mkMqColumn "since" (QPlain "datetime" "8") false (Some ("DF_users_since", QGetdate)) None None ]
        (Some (mkMqIndex "PK_users" true true ("id", false) [] [] usual))
        (Some (mkMqIndex "by name" true false ("name", true) [("since", false)] ["age"] (mkMqOptions true 80 true false false true false)))
        [];
      mkMqTable "sales" "orders"
        (plain_column "id" "int" "4") [plain_column "buyer" "bigint" "8"]
        (Some (mkMqIndex "PK_orders" true false ("id", true) [("buyer", false)] [] usual)) None
        [ mkMqFk "FK_buyer" "buyer" "users" "id" QNoAction QCascade false ] ]
    [ mkMqView (mkShownView "dbo" "people" [("users", "id"); ("users", "name")] "users" (Some (ECompare CmpGt (EColumn "age") (EGroup (EInt 17))))) (nl ++ "  ") true ]
    [ mkMqTrigger "log" "orders" QInsert "audit" ["a"; "b"] [1%Z; 2%Z] ].

Lemma shop_readable : mq_readable shop = true.
Proof. vm_compute. reflexivity. Qed.
Lemma shop_consistent : mq_consistent shop = true.
Proof. vm_compute. reflexivity. Qed.

(** ** For the refutations: servers with one table and columns, a view or a trigger *)
Definition row (n t bytes : string) : ms_column := mkMsColumn n t bytes true None None None.
Definition one_table (columns : list ms_column) (indexes : list ms_index_row) (fks : list ms_fk_row) : ms_server :=
  mkMsServer [mkMsTable "dbo" "t" columns indexes fks] [] [].
Definition with_view (text : string) : ms_server := mkMsServer [] [text] [].
Definition with_trigger (text : string) : ms_server := mkMsServer [] [] [text].
(** What is planned to bring the second server to the first. *)
Definition planned (desired current : ms_server) : res (list string) := plan_text Mssql (ms_export desired) (ms_export current).
Definition int_column : ms_column := row "a" "int" "4".
Definition with_column (c : ms_column) : ms_server := one_table [int_column; c] [] [].
Definition with_default (name value : string) : ms_server := with_column (mkMsColumn "b" "int" "4" true None (Some (name, value)) None).
Definition with_check (name condition : string) : ms_server := with_column (mkMsColumn "b" "int" "4" true None None (Some (mkMsCheck name condition false))).
Definition with_index (primary : bool) (kind : string) : ms_server :=
  one_table [int_column] [mkMsIndexRow "i" primary primary kind false "0" false false false true true [mkMsIndexColumn "a" false false]] [].
(** [UPDATE NO ACTION DELETE NO ACTION] of (a, b) to (x, y). *)
Definition pair_key : ms_server :=
  one_table [int_column; row "b" "int" "4"] []
    [mkMsFkRow "f" "a" "u" "x" "NO_ACTION" "NO_ACTION" false; mkMsFkRow "f" "b" "u" "y" "NO_ACTION" "NO_ACTION" false].
