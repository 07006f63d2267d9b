(** Catalogues and schemas used by the examples beside the convergence theorems. *)
From Coq Require Import String Ascii List ZArith Bool Lia SpecFloat.
From Verif Require Import GoStr Ast Generator SpecPlan SpecColumns SpecOrder SpecMysql SpecConverge DemoPlan.
Import ListNotations.
Local Open Scope string_scope.
Local Open Scope list_scope.

(** A shop database, as the catalogue has it. *)
Definition shop : catalogue :=
  mkCatalogue
    [ mkTable "users"
        [set_autoinc true (not_null_col (col "id" 0 "bigint")); with_length 40 "40" (col "name" 0 "varchar");
         col "age" 0 "int"; col "nick" 0 "text"]
        [pk ["id"]; idx "by_name" false ["name"]; idx "by_nick" false ["nick"]] [] [];
      mkTable "posts"
        [not_null_col (col "id" 0 "int"); col "user_id" 0 "bigint"; col "body" 0 "text"]
        [pk ["id"]; idx "by_user" false ["user_id"]]
        [fk "fk_user" "user_id" "users" "id" "CASCADE"; fk "fk_self" "id" "posts" "id" ""] [];
      mkTable "old" [col "x" 0 "int"] [] [] [] ]
    [mkView "" "v1" "select 1"; mkView "" "v2" "select 2"]
    [mkTrigger "" "t1" "users" "BEFORE" "INSERT" ["SET NEW.age = 1"]].

(** The schema its owner wants. *)
Definition shop_desired : list ddl :=
  [ CreateTable "CREATE TABLE users (...)"
      (mkTable "users"
         [set_autoinc true (not_null_col (col "id" 0 "bigint")); with_length 80 "80" (col "name" 1 "varchar");
          key KeyUnique (with_length 200 "200" (col "email" 2 "varchar"));
          with_default (int_value 0 "0") (not_null_col (col "age" 3 "int"))]
         [pk ["id"]; idx "by_name" true ["name"]] [] []);
    CreateTable "CREATE TABLE posts (...)"
      (mkTable "posts"
         [not_null_col (col "id" 0 "int"); not_null_col (col "user_id" 1 "bigint")]
         [pk ["id"; "user_id"]]
         [fk "fk_user" "user_id" "users" "id" "SET NULL"; fk "fk_new" "id" "users" "id" ""] []);
    CreateIndex "CREATE INDEX by_age ON users (age, name)" "users" (idx "by_age" false ["age"; "name"]);
    CreateTable "CREATE TABLE tags (...)"
      (mkTable "tags" [key KeyPrimary (col "id" 0 "int"); col "label" 1 "text"] [] [] []);
    CreateIndex "CREATE INDEX tag_label ON tags (label)" "tags" (idx "tag_label" false ["label"]);
    DView (mkView "CREATE VIEW v1 AS select 10" "v1" "select 10");
    DView (mkView "CREATE VIEW v3 AS select 3" "v3" "select 3");
    DTrigger (mkTrigger "CREATE TRIGGER t1 ..." "t1" "users" "BEFORE" "INSERT" ["SET NEW.age = 2"]);
    DTrigger (mkTrigger "CREATE TRIGGER t3 ..." "t3" "users" "AFTER" "DELETE" ["SELECT 1"]) ].

Definition mysql_plan (l : list ddl) (c : catalogue) : list stmt :=
  match plan Mysql l (dump c) with Ok out => out | _ => [] end.

Ltac each :=
  intros;
  repeat match goal with
         | H : In _ _ |- _ => vm_compute in H
         | H : _ \/ _ |- _ => destruct H as [<-|H]
         | H : False |- _ => destruct H
         end.
Ltac distinct_names := vm_compute; repeat (constructor; [cbv; intuition discriminate|]); constructor.
Ltac fact := solve [ distinct_names | vm_compute; auto 10
                   | vm_compute; repeat split; auto; intros; (discriminate || congruence || intuition (discriminate || congruence)) ].

Lemma shop_ok : catalogue_ok shop.
Proof. constructor; [fact|fact|fact|]. each; constructor; try fact; each; fact. Qed.

Lemma nth_cases {A} (P : nat -> A -> Prop) (l : list A) : 
  (fix go (k : nat) (r : list A) : Prop := match r with [] => True | x :: r' => P k x /\ go (S k) r' end) 0 l ->
  forall i c, nth_error l i = Some c -> P i c.
Proof.
  assert (G : forall l k, (fix go (k : nat) (r : list A) : Prop := match r with [] => True | x :: r' => P k x /\ go (S k) r' end) k l ->
    forall i c, nth_error l i = Some c -> P (k + i) c); [|intros H; exact (G l 0 H)].
  induction l0 as [|x r IH]; intros k H [|i] c E; try discriminate; destruct H as [H1 H2]; cbn [nth_error] in E.
  - injection E as <-. now rewrite Nat.add_0_r.
  - rewrite Nat.add_succ_r. now apply (IH (S k)).
Qed.

Lemma shop_schema : mysql_schema shop_desired.
Proof.
  constructor; [reflexivity| |fact|fact|].
  - intros d Hd. vm_compute in Hd. repeat (destruct Hd as [<-|Hd]; [exact I|]). destruct Hd.
  - each; constructor; try fact; try (unfold numbered; apply (nth_cases (fun i c => c_position c = Z.of_nat i)); vm_compute; repeat split; fail); each; try fact.
    all: match goal with
         | |- mysql_key _ => split; [distinct_names|split; intros; (reflexivity || discriminate)]
         | |- short_key _ => split; [reflexivity|split; [reflexivity|split; [cbn; lia|each; cbn; auto]]]
         end.
Qed.

Lemma shop_convertible : convertible shop_desired shop.
Proof.
  split.
  - each; try discriminate; constructor; try (vm_compute; reflexivity); each; try discriminate.
    all: match goal with
         | |- exists _ _ _, _ => exists (pk ["id"]), (pk ["id"]), []; vm_compute; repeat split; auto; intros ? []
         | |- says_not_null _ => left; reflexivity
         | H : fk_matches _ _ _ |- _ => exfalso; destruct H as (_ & [H|[[H|H] _]] & _); discriminate
         | H : key_tolerated _ _ |- _ =>
             solve [cbn; auto | exfalso; destruct H as [_ [(? & H & _)|[H _]]]; cbn in H; (discriminate || intuition discriminate)
                   | exfalso; destruct H as [_ [(? & H & _ & [E|[_ E]])|[H _]]]; cbn in H; [each; discriminate|each; discriminate|discriminate]]
         end.
  - each; cbn; auto.
Qed.

(** Small catalogues for the refutations. *)
Definition one (t : table) : catalogue := mkCatalogue [t] [] [].
Definition only (t : table) : list ddl := [CreateTable "CREATE TABLE ..." t].
Definition plan_texts (l : list ddl) (c : catalogue) : option (list string) := texts (plan Mysql l (dump c)).
Definition after_run (l : list ddl) (c : catalogue) : catalogue :=
  match run_all (mysql_plan l c) c with Some c' => c' | None => c end.

Ltac schema_ok :=
  constructor; [reflexivity | | fact | fact | ];
  [ let d := fresh in let H := fresh in intros d H; vm_compute in H; repeat (destruct H as [<-|H]; [exact I|]); destruct H
  | each; constructor; try fact;
    try (unfold numbered; apply (nth_cases (fun i c => c_position c = Z.of_nat i)); vm_compute; repeat split; fail); each; try fact;
    match goal with
    | |- mysql_key _ => split; [distinct_names|split; intros; (reflexivity || discriminate)]
    | |- short_key _ => split; [reflexivity|split; [reflexivity|split; [cbn; lia|each; cbn; auto]]]
    end ].
Ltac cat_ok := constructor; [fact|fact|fact|]; each; constructor; try fact; each; fact.

(** Tables for the refutations, and that they meet the hypotheses. *)
Definition leaves_pk : list ddl :=
  only (mkTable "t" [not_null_col (col "a" 0 "int"); col "b" 1 "int"] [pk ["a"]] [] []).
Definition in_old_pk : catalogue :=
  one (mkTable "t" [not_null_col (col "a" 0 "int"); not_null_col (col "b" 0 "int")] [pk ["a"; "b"]] [] []).
Lemma leaves_pk_schema : mysql_schema leaves_pk.
Proof. schema_ok. Qed.
Lemma in_old_pk_ok : catalogue_ok in_old_pk.
Proof. cat_ok. Qed.

Definition moves_pk : list ddl :=
  only (mkTable "t" [set_autoinc true (not_null_col (col "a" 0 "int")); not_null_col (col "b" 1 "int")]
          [pk ["b"]; idx "a" true ["a"]] [] []).
Definition auto_in_pk : catalogue :=
  one (mkTable "t" [set_autoinc true (not_null_col (col "a" 0 "int")); not_null_col (col "b" 0 "int")] [pk ["a"]] [] []).
Lemma moves_pk_schema : mysql_schema moves_pk.
Proof. schema_ok. Qed.
Lemma auto_in_pk_ok : catalogue_ok auto_in_pk.
Proof. cat_ok. Qed.

Definition wider_id : list ddl := only (mkTable "t" [not_null_col (col "id" 0 "bigint")] [pk ["id"]] [] []).
Definition counted_id : catalogue :=
  one (mkTable "t" [set_autoinc true (not_null_col (col "id" 0 "int"))] [pk ["id"]] [] []).
Lemma wider_id_schema : mysql_schema wider_id.
Proof. schema_ok. Qed.
Lemma counted_id_ok : catalogue_ok counted_id.
Proof. cat_ok. Qed.
Lemma counted_id_after : cat_tables (after_run wider_id counted_id) =
  [mkTable "t" [not_null_col (col "id" 0 "int")] [pk ["id"]] [] []].
Proof. vm_compute. reflexivity. Qed.
