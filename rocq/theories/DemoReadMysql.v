(** Databases used by the examples and refutations beside the theorems on MySQL exports read back. *)
From Coq Require Import String Ascii List ZArith Bool.
From Verif Require Import GoStr GoStrFacts Ast Generator Catalog CatalogMysql AdapterSqlite AdapterMysql Parser Planner SpecPlan SpecColumns SpecOrder SpecMysql SpecDatabase SpecConverge SpecShown SpecShownMysql
  DemoPlan DemoConverge ProofReadMyExport.
Import ListNotations.
Local Open Scope string_scope.
Local Open Scope list_scope.

(** A server that has the database, and a view of another one. *)
Definition server_of (d : my_database) : my_server :=
  mkMyServer (map (fun t => (my_table_name t, show_create_table t)) (md_tables d)) (map mv_name (md_views d))
    (mkMyViewRow "sys" "metrics" "select 1 AS `1`" :: map (fun v => mkMyViewRow (mv_schema v) (mv_name v) (view_definition v)) (md_views d))
    (map (fun t => mkMyTrigger (mt_name t) (event_word (mt_event t)) (mt_table t) (trigger_statement t) (timing_word (mt_timing t))) (md_triggers d)).

Definition no_default (n : string) (t : my_type) : my_column := mkMyColumn n t (Some true) None None false None.
Definition nullable (n : string) (t : my_type) : my_column := mkMyColumn n t None (Some MyNull) None false None.
Definition on_column (n : string) : my_key_column := mkMyKeyColumn n None false.
Definition key_on (k : my_kind) (n c : string) : my_key := mkMyKey k n (on_column c) [] [].

Definition warehouse : my_database :=
  mkMyDatabase
    [ mkMyTable "users"
        (mkMyColumn "id" (MyInteger "bigint" (Some 20%Z) true) (Some true) None None true None)
        [ mkMyColumn "name" (MyChars "varchar" 40 (Some "utf8mb4") (Some "utf8mb4_bin")) (Some true) (Some (MyText "it's me")) None false (Some "the full name");
          mkMyColumn "mood" (MyEnum "enum" "happy" ["sad"] None None) None (Some (MyText "sad")) None false None;
          mkMyColumn "since" (MyTime "timestamp" None) (Some true) (Some (MyNow None)) (Some None) false None;
          mkMyColumn "seen" (MyTime "datetime" (Some 6%Z)) None (Some (MyNow (Some 6%Z))) (Some (Some 6%Z)) false None;
          mkMyColumn "active" (MyInteger "bit" (Some 1%Z) false) (Some true) (Some (MyBits "1")) None false None;
          nullable "Money spent" (MyDecimal 10 2 true);
          mkMyColumn "at" (MyPlain "point") (Some true) None None false None;
          mkMyColumn "bio" (MyTexts "text" None None) None None None false None ]
        [ key_on KPrimary "PRIMARY" "id";
          mkMyKey KUnique "by_name" (mkMyKeyColumn "name" (Some 10%Z) false) [mkMyKeyColumn "since" None true] [KUsing "BTREE"; KComment "for login"];
          key_on KFulltext "words" "bio"; key_on KSpatial "place" "at" ]
        []
        [ mkMyOption "ENGINE" (OWord "InnoDB"); mkMyOption "AUTO_INCREMENT" (ONumber 17); mkMyOption "DEFAULT CHARSET" (OWord "utf8mb4");
          mkMyOption "COMMENT" (OText "people") ];
      mkMyTable "posts" (no_default "id" (MyInteger "int" None false)) [no_default "author" (MyInteger "bigint" (Some 20%Z) true)]
        [ key_on KPrimary "PRIMARY" "id"; key_on KPlain "posts_author" "author" ]
        [ mkMyFk "posts_author" "author" [] "users" "id" [] (Some ACascade) None ]
        [ mkMyOption "ENGINE" (OWord "InnoDB") ] ]
    [ mkMyView "people" "app" "users" ("id", "id") [("name", "called")] ]
    [ mkShownTrigger "log" TAfter TInsert "users" (mkMyInsert "posts" "id" ["author"] (GNumber 1) [GField RNew "id"]) ].

Lemma warehouse_readable : my_readable warehouse = true.
Proof. vm_compute. reflexivity. Qed.
Lemma warehouse_consistent : my_consistent warehouse = true.
Proof. vm_compute. reflexivity. Qed.
Lemma server_shows d : (forall v, In v (md_views d) -> mv_name v <> "metrics") -> NoDup (map mv_name (md_views d)) -> my_shows d (server_of d).
Proof.
  intros M N. constructor; try reflexivity.
  - intros v I. right. apply in_map_iff. now exists v.
  - intros v r I [<-|J] E; [cbn in E; exfalso; symmetry in E; now apply M in E|]. apply in_map_iff in J as (w & <- & J). cbn [vr_name vr_definition] in *.
    revert N I J E. generalize (md_views d). intros l. induction l as [|x l IH]; [easy|]. cbn [map]. intros N I J E. inversion N as [|? ? N1 N2]; subst.
    destruct I as [->|I], J as [->|J]; [reflexivity| | |now apply IH]; exfalso; apply N1; [rewrite <- E|rewrite E]; now apply in_map.
Qed.
Lemma warehouse_shown : my_shows warehouse (server_of warehouse).
Proof. apply server_shows; [|vm_compute; repeat constructor; intros []]. intros v [<-|[]]. discriminate. Qed.

(** A smaller one and what its owner wants. *)
Definition yard : my_database :=
  mkMyDatabase
    [ mkMyTable "users" (mkMyColumn "id" (MyInteger "bigint" None false) (Some true) None None true None)
        [ mkMyColumn "age" (MyInteger "int" None false) None (Some (MyText "18")) None false None; nullable "nick" (MyChars "varchar" 20 None None) ]
        [ key_on KPrimary "PRIMARY" "id"; key_on KPlain "by_nick" "nick" ] [] [mkMyOption "ENGINE" (OWord "InnoDB")] ] [] [].
Definition yard_wants : string :=
  "CREATE TABLE users (id bigint NOT NULL AUTO_INCREMENT, age bigint NOT NULL DEFAULT '20', name varchar(40) NOT NULL, PRIMARY KEY (id), KEY by_age (age));".
Definition yard_parsed : list ddl :=
  Eval vm_compute in match parse_file Mysql yard_wants with Ok l => l | _ => [] end.
Lemma yard_parses : parse_file Mysql yard_wants = Ok yard_parsed.
Proof. vm_compute. reflexivity. Qed.
Lemma yard_readable : my_readable yard = true.
Proof. vm_compute. reflexivity. Qed.
Lemma yard_shown : my_shows yard (server_of yard).
Proof. apply server_shows; [intros v []|constructor]. Qed.
Lemma yard_ok : catalogue_ok (my_ideal yard).
Proof. cat_ok. Qed.
Lemma yard_schema : mysql_schema yard_parsed.
Proof. schema_ok. Qed.
Lemma yard_convertible : convertible yard_parsed (my_ideal yard).
Proof.
  split.
  - each; try discriminate; constructor; try (vm_compute; reflexivity); each; try discriminate.
    all: match goal with
         | |- exists _ _ _, _ => eexists _, _, []; split; [left; reflexivity|]; split; [reflexivity|]; split; [left; reflexivity|]; vm_compute; repeat split; auto; intros ? []
         | |- says_not_null _ => left; reflexivity
         | H : key_tolerated _ _ |- _ =>
             solve [cbn; auto | exfalso; destruct H as [_ [(? & H & _)|[H _]]]; cbn in H; (discriminate || intuition discriminate)]
         end.
  - each; cbn; auto.
Qed.
(** The yard as the run leaves it. *)
Definition yard_after : my_database :=
  mkMyDatabase
    [ mkMyTable "users" (mkMyColumn "id" (MyInteger "bigint" None false) (Some true) None None true None)
        [ mkMyColumn "age" (MyInteger "bigint" None false) (Some true) (Some (MyText "20")) None false None; no_default "name" (MyChars "varchar" 40 None None) ]
        [ key_on KPrimary "PRIMARY" "id"; key_on KPlain "by_age" "age" ] [] [mkMyOption "ENGINE" (OWord "InnoDB")] ] [] [].
Lemma yard_after_readable : my_readable yard_after = true.
Proof. vm_compute. reflexivity. Qed.
Lemma yard_after_shown : my_shows yard_after (server_of yard_after).
Proof. apply server_shows; [intros v []|constructor]. Qed.
Lemma yard_after_ok : catalogue_ok (my_ideal yard_after).
Proof. cat_ok. Qed.
Lemma yard_after_convertible : convertible yard_parsed (my_ideal yard_after).
Proof.
  split.
  - each; try discriminate; constructor; try (vm_compute; reflexivity); each; try discriminate.
    all: match goal with
         | |- exists _ _ _, _ => eexists _, _, []; split; [left; reflexivity|]; split; [reflexivity|]; split; [left; reflexivity|]; vm_compute; repeat split; auto; intros ? []
         | |- says_not_null _ => left; reflexivity
         | H : key_tolerated _ _ |- _ =>
             solve [cbn; auto | exfalso; destruct H as [_ [(? & H & _)|[H _]]]; cbn in H; (discriminate || intuition discriminate)]
         end.
  - each; cbn; auto.
Qed.

(** ** For the refutations: servers with one table of two items, a view or a trigger *)
Definition one_table (item : string) : my_server :=
  mkMyServer [("t", "CREATE TABLE `t` (" ++ nl ++ "  `a` int NOT NULL," ++ nl ++ "  " ++ item ++ nl ++ ") ENGINE=InnoDB DEFAULT CHARSET=utf8mb4")%string] [] [] [].
Definition one_view (view definition : string) (others : list my_view_row) : my_server :=
  mkMyServer [] [view] (others ++ [mkMyViewRow "app" view definition]) [].
Definition one_trigger (table statement : string) : my_server := mkMyServer [] [] [] [mkMyTrigger "log" "INSERT" table statement "AFTER"].
(** What is read of the export of a server. *)
Definition read_back (s : my_server) : res (list ddl) :=
  match my_dump s with Some text => parse_file Mysql text | None => Err (EParse "no rows") end.
Definition planned (desired current : my_server) : res (list string) :=
  match my_dump desired, my_dump current with Some d, Some c => plan_text Mysql d c | _, _ => Err (EParse "no rows") end.
