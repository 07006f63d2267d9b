(** A run of SQLite that stops, used by the example of C106. *)
From Coq Require Import String Ascii List ZArith Bool.
From Verif Require Import GoStr Ast Generator SchemaText SchemaParse Parser Planner Catalog AdapterSqlite SpecText SpecExport SpecPlan SpecLayout SpecSqlite SpecResume
  DemoSqlite.
Import ListNotations.
Local Open Scope string_scope.
Local Open Scope list_scope.

(** The table is created, the view dropped and not yet created again. *)
Definition x_posts : string := "CREATE TABLE posts (id integer primary key, author integer not null, -- who" ++ nl ++
  " constraint of_user foreign key (author) references users (id))".
Definition shop_half : list lite_row := without_object "people" (shop ++ [row_table "posts" x_posts]).
Definition shop_export : string := Eval vm_compute in match lite_dump shop with Some c => c | None => "" end.
Definition shop_read : list ddl := Eval vm_compute in match parse_file SQLite3 shop_export with Ok ds => ds | _ => [] end.

Lemma half_done : executes_all (firstn 2 shop_plan) shop shop_half.
Proof.
  unfold shop_plan. cbn [firstn].
  eapply ea_cons. { apply ex_create_table with (own := []) (y := x_posts); [|apply keepsb_keeps; vm_compute; reflexivity|constructor].
    intros r R E. vm_compute in R. repeat (destruct R as [<-|R]; [vm_compute in E; discriminate E|]); destruct R. }
  eapply ea_cons. { eapply ex_drop_view with (r := row_view "people" x_people); [vm_compute; tauto|reflexivity|reflexivity]. }
  constructor.
Qed.
Lemma stopped : attempt shop_parsed shop shop_half.
Proof.
  exists shop_export, shop_read, shop_plan, (firstn 2 shop_plan), (skipn 2 shop_plan). split; [vm_compute; reflexivity|]. split; [vm_compute; reflexivity|].
  split; [vm_compute; reflexivity|]. split; [reflexivity|exact half_done].
Qed.
Definition shop_again : res (list string) := match lite_dump shop_half with Some c => plan_text SQLite3 shop_file c | None => Panic end.
