(** Command lines and machines for the examples beside the theorems on whole lines. *)
From Coq Require Import String Ascii List ZArith Bool.
From Verif Require Import GoStr GoStrFacts Ast Generator Runner SpecRunner SpecTwoRuns CommandLine AdapterPostgres SpecUrl SpecCommand SpecLine DemoCommand.
Import ListNotations.
Local Open Scope string_scope.

(** A machine with the file schema.sql. *)
Definition desk (text : string) : machine :=
  mkMachine (fun v => if String.eqb v "MYSQL_PWD" then Some "from env" else None)
    (fun _ => false) (fun f => if String.eqb f "schema.sql" then Some text else None) Device plain_unquote.

Definition once_typed : list item := [Give "user" "me" LongEqual; Name "shop"; Give "file" "schema.sql" LongEqual; Give "port" "3307" LongApart].
Definition again_typed : list item := [Give "file" "schema.sql" LongApart; Give "port" "3307" LongEqual; Give "user" "me" LongApart; Name "shop"].

(** What both lines name. *)
Definition the_shop (m : mode) : connection :=
  mkConnection "me" match m with Mysql => "from env" | _ => "" end "127.0.0.1" "3307" "shop".

Ltac last_said a b := left; eexists a, _, _, b; split; [reflexivity|]; split; [right; split; [intros [? ?]; discriminate|reflexivity]|cbn; intuition discriminate].
Ltac not_said := right; split; [intros v s; cbn; intuition discriminate|reflexivity].

Lemma once_names m text : m <> SQLite3 -> line_names m (desk text) once_typed (the_shop m) "schema.sql".
Proof.
  intros M. constructor; [exact M| | | |].
  - unfold once_typed. destruct m; try congruence; proper_items.
  - unfold plainly. cbn. intuition discriminate.
  - last_said [Give "user" "me" LongEqual; Name "shop"] [Give "port" "3307" LongApart].
  - exists "shop", "me", match m with Mysql => "from env" | _ => "" end, "127.0.0.1", "3307".
    split; [reflexivity|]. split; [last_said (@nil item) (skipn 1 once_typed)|].
    split. { right. split; [cbn; intuition discriminate|]. destruct m; try congruence; [left; reflexivity|right; split; [reflexivity|not_said]..]. }
    split; [not_said|]. split; [last_said (firstn 3 once_typed) (@nil item)|]. split; [not_said|].
    split; [reflexivity|]. split; [right; reflexivity|]. split; [intros ->; repeat split; reflexivity|reflexivity].
Qed.

Lemma again_names m text : m <> SQLite3 -> line_names m (desk text) again_typed (the_shop m) "schema.sql".
Proof.
  intros M. constructor; [exact M| | | |].
  - unfold again_typed. destruct m; try congruence; proper_items.
  - unfold plainly. cbn. intuition discriminate.
  - last_said (@nil item) (skipn 1 again_typed).
  - exists "shop", "me", match m with Mysql => "from env" | _ => "" end, "127.0.0.1", "3307".
    split; [reflexivity|]. split; [last_said (firstn 2 again_typed) [Name "shop"]|].
    split. { right. split; [cbn; intuition discriminate|]. destruct m; try congruence; [left; reflexivity|right; split; [reflexivity|not_said]..]. }
    split; [not_said|]. split; [last_said (firstn 1 again_typed) (skipn 2 again_typed)|]. split; [not_said|].
    split; [reflexivity|]. split; [right; reflexivity|]. split; [intros ->; repeat split; reflexivity|reflexivity].
Qed.

Definition lite_typed_line : list item := [Give "file" "schema.sql" LongEqual; Name "shop.db"].
Lemma lite_names text : line_names_file (desk text) lite_typed_line "shop.db" "schema.sql".
Proof.
  constructor; [unfold lite_typed_line; proper_items|unfold plainly; cbn; intuition discriminate| |reflexivity].
  last_said (@nil item) [Name "shop.db"].
Qed.

Lemma desk_answers w text current : answers w "schema.sql" text current -> answers (on_machine (desk text) w) "schema.sql" text current.
Proof.
  intros (n & t & v & g & A & B & C). exists n, t, v, g. split; [|split; [exact B|exact C]].
  intros h H. destruct (A h H) as (A1 & A2 & A3 & A4). simpl. auto.
Qed.
Lemma desk_serves {S} (step : string -> S -> option S) w text s : serves step w s -> serves step (on_machine (desk text) w) s.
Proof. intros H. exact H. Qed.
