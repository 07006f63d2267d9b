(** Databases and worlds for the examples and refutations beside the theorems on copies. *)
From Coq Require Import String Ascii List ZArith Bool.
From Verif Require Import GoStr GoStrFacts Ast Generator Catalog CatalogMysql AdapterPostgres AdapterSqlite AdapterMysql Parser Planner SpecPlan SpecMysql SpecDatabase SpecPostgres SpecShown SpecConverge SpecConvergePg SpecShownMysql
  DemoPlan DemoConverge DemoConvergePg DemoReadBack DemoReadMysql Runner SpecRunner SpecTwoRuns DemoTwoRuns SpecCopy SpecCopyPg SpecExport SpecLayout SpecSqlite ProofExport3 ProofSqlite DemoSqlite.
Import ListNotations.
Local Open Scope string_scope.
Local Open Scope list_scope.

(** ** MySQL *)
Lemma warehouse_ok : catalogue_ok (my_ideal warehouse).
Proof. cat_ok. Qed.
Definition warehouse_text : string := Eval vm_compute in match my_dump (server_of warehouse) with Some t => t | None => "" end.
Lemma warehouse_dump : my_dump (server_of warehouse) = Some warehouse_text.
Proof. vm_compute. reflexivity. Qed.
Definition warehouse_plan : list stmt :=
  Eval vm_compute in match parse_file Mysql warehouse_text with Ok l => match plan Mysql l [] with Ok out => out | _ => [] end | _ => [] end.
Definition checked_effect (st : stmt) := run_checked (s_eff st).
Definition copy_step := by_text checked_effect warehouse_plan.
(** A server with an empty database. *)
Definition copy_world : world := serving copy_step nothing [] [] [] "schema.sql" warehouse_text.
Lemma warehouse_does l out : parse_file Mysql warehouse_text = Ok l -> plan Mysql l [] = Ok out -> does copy_step checked_effect out.
Proof.
  intros P. assert (X : match parse_file Mysql warehouse_text with Ok l => plan Mysql l [] = Ok warehouse_plan | _ => False end) by (vm_compute; reflexivity).
  rewrite P in X. rewrite X. intros E. injection E as <-. apply by_text_does. vm_compute. reflexivity.
Qed.

(** MySQL lists tables by name: the table that refers comes first. *)
Definition family : my_database :=
  mkMyDatabase
    [ mkMyTable "children" (no_default "id" (MyInteger "int" None false)) [no_default "parent" (MyInteger "int" None false)]
        [ key_on KPrimary "PRIMARY" "id"; key_on KPlain "of_parent" "parent" ] [ mkMyFk "of_parent" "parent" [] "parents" "id" [] None None ] [];
      mkMyTable "parents" (no_default "id" (MyInteger "int" None false)) [] [ key_on KPrimary "PRIMARY" "id" ] [] [] ] [] [].
Lemma family_ok : catalogue_ok (my_ideal family).
Proof. cat_ok. Qed.
Lemma family_shown : my_shows family (server_of family).
Proof. apply server_shows; [intros v []|constructor]. Qed.

(** ** PostgreSQL *)
Definition pg_export (d : SpecShown.shown_database) : string := dump_database (SpecShown.catalogue is_quoted d).
(** What the plan of a file for an empty database does to it; [None] when a statement is refused. *)
Definition pg_made (text : string) : res (option (database pg_tab)) :=
  match parse_file Postgres text with
  | Ok l => match plan Postgres l [] with
            | Ok out => Ok (execute_all g_name pg_create (pg_alter every_cast) every_view out pg_nothing)
            | Err e => Err e | Panic => Panic | Fatal => Fatal
            end
  | Err e => Err e | Panic => Panic | Fatal => Fatal
  end.
Definition people : SpecShown.shown_table :=
  mkShownTable "public" "users" [mkShownColumn "id" (TBase (BWord "bigint")) true None None None] (Some ("users_pkey", ["id"])) [] [] [] [].
Definition written (fks : list SpecShown.shown_fk) : SpecShown.shown_database :=
  mkShown [people; mkShownTable "public" "posts" [DemoReadBack.shown "author" (TBase (BWord "bigint"))] None [] [] fks []] [].
Definition by_author : SpecShown.shown_fk := mkShownFk "posts_author" "author" "public" "users" "id" NoAction Cascade.
Lemma written_ok fks : fks = [] \/ fks = [by_author] -> database_ok (ideal (written fks)).
Proof. intros [-> | ->]; pg_database_ok. Qed.
Definition mailing : SpecShown.shown_database :=
  mkShown [mkShownTable "public" "users" [DemoReadBack.shown "mail" (TBase (BWord "text"))] None
             [mkShownIndex "users_mail_key" true [("mail", false)] None] ["users_mail_key"] [] []] [].
Lemma mailing_ok : database_ok (ideal mailing).
Proof. pg_database_ok. Qed.

(** The blog without its UNIQUE constraint. *)
Definition journal : SpecShown.shown_database :=
  mkShown (map (fun t => SpecShown.mkShownTable (st_schema t) (SpecShown.st_name t) (st_columns t) (st_pk t) (filter (fun i => negb (mem (six_name i) (st_uniques t))) (st_indexes t)) [] (st_fks t) (st_policies t)) (sd_tables blog))
    (sd_views blog).
Lemma journal_readable : database_readable is_quoted journal = true.
Proof. vm_compute. reflexivity. Qed.
Lemma journal_ok : database_ok (ideal journal).
Proof. pg_database_ok. Qed.
Definition journal_plan : list stmt :=
  Eval vm_compute in match parse_file Postgres (pg_export journal) with Ok l => match plan Postgres l [] with Ok out => out | _ => [] end | _ => [] end.
Definition journal_effect (st : stmt) := execute g_name pg_create (pg_alter every_cast) every_view (s_eff st).
Definition journal_step := by_text journal_effect journal_plan.
Definition journal_text : string := Eval vm_compute in pg_export journal.
Lemma journal_exports : dump_database (SpecShown.catalogue is_quoted journal) = journal_text.
Proof. vm_compute. reflexivity. Qed.
Definition journal_world : world := serving journal_step pg_nothing [] [] [] "schema.sql" journal_text.
Lemma journal_does l out : parse_file Postgres journal_text = Ok l -> plan Postgres l [] = Ok out -> does journal_step journal_effect out.
Proof.
  intros P. assert (X : match parse_file Postgres journal_text with Ok l => plan Postgres l [] = Ok journal_plan | _ => False end) by (vm_compute; reflexivity).
  rewrite P in X. rewrite X. intros E. injection E as <-. apply by_text_does. vm_compute. reflexivity.
Qed.

(** ** SQLite *)
Lemma shop_settled n t : holds shop n (LTable t) -> settled SQLite3 [CreateTable "" t].
Proof.
  intros H. assert (n = "users" \/ n = "logs") as N.
  { destruct H as (r & x & R & O & T & E & _). apply objectb_object in O. vm_compute in R.
    repeat (destruct R as [<-|R]; [try (vm_compute in O; discriminate O); try discriminate T; cbn in E; auto|]); destruct R. }
  apply (holds_at_name _ _ _ shop_ok shop_rows) in H. destruct N as [-> | ->]; vm_compute in H; injection H as <-; (split; [names_once|split; [constructor|]]);
    intros d [<-|[]]; (split; [names_once|]); (split; [names_once|]); (split; [names_once|]); (split; [names_once|]); (split; [|split; intros ? []]);
    intros c C; cbn in C; destruct C as [<-|[<-|[]]]; repeat split; discriminate.
Qed.
Lemma shop_says r x : In r shop -> object_row r -> lr_sql r = Some x -> ~ lite_hidden (lr_table r) /\ exists w, SpecLayout.says SQLite3 x w.
Proof.
  intros R O E. apply objectb_object in O. unfold shop in R. cbn [In] in R.
  repeat (destruct R as [<-|R]; [first [discriminate O | cbn [row_table row_view lr_sql] in E; injection E as <-; split; [rewrite <- like_sqlite_spec; vm_compute; discriminate|apply wordsb_words; vm_compute; reflexivity]]|]).
  destruct R.
Qed.
Definition shop_text : string := Eval vm_compute in match lite_dump shop with Some t => t | None => "" end.
Lemma shop_dump : lite_dump shop = Some shop_text.
Proof. vm_compute. reflexivity. Qed.
Definition shop_copy_plan : list stmt :=
  Eval vm_compute in match parse_file SQLite3 shop_text with Ok l => match plan SQLite3 l [] with Ok out => out | _ => [] end | _ => [] end.
Definition shop_copy_step := by_text lite_effect shop_copy_plan.
Definition shop_copy_world : world := serving shop_copy_step [] [] [] [] "schema.sql" shop_text.
Lemma shop_copy_allows l out : parse_file SQLite3 shop_text = Ok l -> plan SQLite3 l [] = Ok out -> allows shop_copy_step executes out.
Proof.
  intros P. assert (X : match parse_file SQLite3 shop_text with Ok l => plan SQLite3 l [] = Ok shop_copy_plan | _ => False end) by (vm_compute; reflexivity).
  rewrite P in X. rewrite X. intros E. injection E as <-. intros st I a.
  assert (B : shop_copy_step (s_text st) a = lite_effect st a) by (apply by_text_does; [vm_compute; reflexivity|exact I]). rewrite B.
  apply lite_effect_executes. assert (K : forallb (fun st => keepsb (s_text st) (kept_text (s_text st))) shop_copy_plan = true) by (vm_compute; reflexivity).
  rewrite forallb_forall in K. exact (K st I).
Qed.

Lemma indexed_ok : lite_ok indexed.
Proof. apply rows_ok; vm_compute; reflexivity. Qed.
Lemma index_lost : exists master text i,
  lite_ok master /\ In i master /\ lr_type i = "index" /\ ~ lite_hidden (lr_name i) /\ lite_dump master = Some text /\
  exists l out, parse_file SQLite3 text = Ok l /\ plan SQLite3 l [] = Ok out /\
    (exists c, executes_all out [] c) /\ forall c, executes_all out [] c -> forall r, In r c -> lr_name r <> lr_name i.
Proof.
  exists indexed. eexists. eexists. split; [exact indexed_ok|]. split; [right; left; reflexivity|]. split; [reflexivity|].
  split; [rewrite <- like_sqlite_spec; vm_compute; discriminate|]. split; [vm_compute; reflexivity|]. eexists _, _. split; [vm_compute; reflexivity|]. split; [vm_compute; reflexivity|]. split.
  - eexists. eapply ea_cons; [|apply ea_nil]. apply ex_create_table with (own := []) (y := x_t); [intros r []|apply keepsb_keeps; vm_compute; reflexivity|constructor].
  - intros c H. inversion H as [|st rest a b c' X Y]; subst. inversion X; subst. inversion Y; subst. cbn [app]. intros r [<-|R]; [discriminate|].
    assert (W : lite_hidden (lr_name r)) by (match goal with F : Forall _ _ |- _ => rewrite Forall_forall in F; exact (proj1 (F r R)) end). intros E. rewrite E in W. revert W. rewrite <- like_sqlite_spec. vm_compute. discriminate.
Qed.
