(** A MySQL run that stops, used by the example of C106. *)
From Coq Require Import String Ascii List ZArith Bool.
From Verif Require Import GoStr Ast Generator SpecPlan SpecMysql SpecConverge SpecResumeMy DemoPlan DemoConverge DemoAgree.
Import ListNotations.
Local Open Scope string_scope.
Local Open Scope list_scope.

(** [may_stop_after] by computation, for plans that drop no key. *)
Definition stops_well (out : list stmt) : bool :=
  forallb (fun s => match s_eff s with
    | EffChangeColumn _ _ c _ => negb (c_autoinc c)
    | EffDropIndex _ _ | EffDropPrimaryKey _ => false
    | _ => true end) out.
Lemma stops_well_ok l out : stops_well out = true -> forall s, In s out -> may_stop_after l (s_eff s).
Proof.
  intros H s S. unfold stops_well in H. rewrite forallb_forall in H. specialize (H s S). destruct (s_eff s); try discriminate H; try exact I. now apply negb_true_iff.
Qed.

(** Two tables are created, the index of the first is not. *)
Definition first_plan : list stmt := Eval vm_compute in mysql_plan shop_desired bare.
Definition shop_begun : catalogue := Eval vm_compute in match run_all (firstn 2 first_plan) bare with Some c => c | None => bare end.
(** The second attempt stops after the index and another table. *)
Definition second_plan : list stmt := Eval vm_compute in mysql_plan shop_desired shop_begun.
Definition shop_more : catalogue := Eval vm_compute in match run_all (firstn 2 second_plan) shop_begun with Some c => c | None => bare end.
Definition third_plan : list stmt := Eval vm_compute in mysql_plan shop_desired shop_more.

Lemma attempted l a b out k : plan Mysql l (dump a) = Ok out -> stops_well (firstn k out) = true -> run_all (firstn k out) a = Some b -> my_attempt l a b.
Proof.
  intros P A R. exists out, (firstn k out), (skipn k out). split; [exact P|]. split; [symmetry; apply firstn_skipn|]. split; [exact (stops_well_ok _ _ A)|exact R].
Qed.
Lemma begun : my_attempt shop_desired bare shop_begun.
Proof. apply (attempted _ _ _ first_plan 2); vm_compute; reflexivity. Qed.
Lemma more : my_attempt shop_desired shop_begun shop_more.
Proof. apply (attempted _ _ _ second_plan 2); vm_compute; reflexivity. Qed.
Lemma thirdly : plan Mysql shop_desired (dump shop_more) = Ok third_plan.
Proof. vm_compute. reflexivity. Qed.

(** A kept table: a column, a UNIQUE column, an index and a foreign key are added, a column becomes UNIQUE, another
    one changes, a column and a foreign key are dropped. *)
Definition grows : list ddl :=
  [CreateTable "CREATE TABLE ..." (mkTable "u" [not_null_col (col "id" 0 "int")] [pk ["id"]] [] []);
   CreateTable "CREATE TABLE ..." (mkTable "t" [key KeyUnique (col "a" 0 "int"); col "b" 1 "int"; key KeyUnique (col "c" 2 "int"); col "d" 3 "bigint"]
     [idx "ab" false ["a"; "b"]] [fk "t_d" "d" "u" "id" ""] [])].
Definition grown_from : catalogue :=
  mkCatalogue [mkTable "u" [not_null_col (col "id" 0 "int")] [pk ["id"]] [] [];
               mkTable "t" [col "a" 0 "int"; col "gone" 0 "int"; col "d" 0 "int"] [] [fk "t_gone" "gone" "u" "id" ""] []] [] [].
Lemma grows_schema : mysql_schema grows.
Proof. schema_ok. Qed.
Lemma grown_from_ok : catalogue_ok grown_from.
Proof. cat_ok. Qed.
Lemma grows_convertible : convertible grows grown_from.
Proof.
  split; [|each]. each; try discriminate; constructor; try (vm_compute; reflexivity); each; try discriminate; left; reflexivity.
Qed.
Definition growing : list stmt := Eval vm_compute in mysql_plan grows grown_from.
(** It is stopped after five of its eight statements, and again after two of the other three. *)
Definition half_grown : catalogue := Eval vm_compute in match run_all (firstn 5 growing) grown_from with Some c => c | None => bare end.
Definition still_growing : list stmt := Eval vm_compute in mysql_plan grows half_grown.
Definition nearly_grown : catalogue := Eval vm_compute in match run_all (firstn 2 still_growing) half_grown with Some c => c | None => bare end.
Definition last_growth : list stmt := Eval vm_compute in mysql_plan grows nearly_grown.
Lemma grown_half : my_attempt grows grown_from half_grown.
Proof. apply (attempted _ _ _ growing 5); vm_compute; reflexivity. Qed.
Lemma grown_more : my_attempt grows half_grown nearly_grown.
Proof. apply (attempted _ _ _ still_growing 2); vm_compute; reflexivity. Qed.
Lemma growth_ends : plan Mysql grows (dump nearly_grown) = Ok last_growth.
Proof. vm_compute. reflexivity. Qed.

(** Another primary key and another index, without AUTO_INCREMENT. *)
Definition rekeyed : list ddl :=
  only (mkTable "t" [not_null_col (col "id" 0 "int"); not_null_col (col "a" 1 "int")] [pk ["a"]; idx "new" false ["id"]] [] []).
Definition old_keys : catalogue :=
  one (mkTable "t" [not_null_col (col "id" 0 "int"); not_null_col (col "a" 0 "int")] [pk ["id"]; idx "old" false ["a"]] [] []).
Lemma rekeyed_schema : mysql_schema rekeyed.
Proof. schema_ok. Qed.
Lemma old_keys_ok : catalogue_ok old_keys.
Proof. cat_ok. Qed.
Lemma rekeyed_convertible : convertible rekeyed old_keys.
Proof.
  split; [|each]. each; try discriminate; constructor; try (vm_compute; reflexivity); each; try discriminate; try (left; reflexivity); cbn; auto.
Qed.
Lemma rekeyed_counts_nothing t c : In t (tables_in rekeyed) -> In c (t_columns t) -> c_autoinc c = false.
Proof. each; reflexivity. Qed.
Definition rekeying : list stmt := Eval vm_compute in mysql_plan rekeyed old_keys.
(** Stopped without a primary key, and again before the old index is dropped. *)
Definition keyless : catalogue := Eval vm_compute in match run_all (firstn 1 rekeying) old_keys with Some c => c | None => bare end.
Definition rekeying_on : list stmt := Eval vm_compute in mysql_plan rekeyed keyless.
Definition three_keys : catalogue := Eval vm_compute in match run_all (firstn 2 rekeying_on) keyless with Some c => c | None => bare end.
Definition last_key : list stmt := Eval vm_compute in mysql_plan rekeyed three_keys.
Lemma stopped_after k l a b out : plan Mysql l (dump a) = Ok out -> run_all (firstn k out) a = Some b -> my_stopped l a b.
Proof. intros P R. exists out, (firstn k out), (skipn k out). split; [exact P|]. split; [symmetry; apply firstn_skipn|exact R]. Qed.
Lemma stopped_keyless : my_stopped rekeyed old_keys keyless.
Proof. apply (stopped_after 1 _ _ _ rekeying); vm_compute; reflexivity. Qed.
Lemma stopped_three : my_stopped rekeyed keyless three_keys.
Proof. apply (stopped_after 2 _ _ _ rekeying_on); vm_compute; reflexivity. Qed.
Lemma rekeyed_ends : plan Mysql rekeyed (dump three_keys) = Ok last_key.
Proof. vm_compute. reflexivity. Qed.
