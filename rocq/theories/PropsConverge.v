(** Properties C29, C32, C33: on an ideal MySQL one run of the plan reaches the desired schema
    and the next run has nothing to do. *)
From Coq Require Import String Ascii List ZArith Bool.
From Verif Require Import GoStr Ast Generator SpecPlan SpecColumns SpecOrder SpecMysql SpecConverge
  DemoPlan DemoConverge ProofColumns ProofNoop.
Import ListNotations.
Local Open Scope string_scope.
Local Open Scope list_scope.

(** The full statement asks this of every pair of well-formed schemas.  It is false of the
    program, see the refutations below; [mysql_schema] and [convertible] state what is asked of
    the desired schema and of the two together, clause by clause. *)
Theorem C29_one_run_reaches_the_schema_partial desired cat out :
  mysql_schema desired -> catalogue_ok cat -> convertible desired cat ->
  plan Mysql desired (dump cat) = Ok out ->
  exists cat', run_all out cat = Some cat' /\ reached desired cat' /\ catalogue_ok cat' /\
               plan Mysql desired (dump cat') = Ok [].
Proof. exact (converges desired cat out). Qed.
Print Assumptions C29_one_run_reaches_the_schema_partial.

(** A catalogue that has the schema, however it came to have it, is left alone. *)
Theorem C29_nothing_to_do_when_reached_partial desired cat :
  mysql_schema desired -> catalogue_ok cat -> reached desired cat ->
  plan Mysql desired (dump cat) = Ok [].
Proof. exact (nothing_more desired cat). Qed.
Print Assumptions C29_nothing_to_do_when_reached_partial.

(** Before and after every statement of the plan every AUTO_INCREMENT column is the first
    column of some key. *)
Theorem C32_autoincrement_columns_stay_keyed_partial desired cat out before after :
  mysql_schema desired -> catalogue_ok cat -> convertible desired cat ->
  plan Mysql desired (dump cat) = Ok out -> out = before ++ after ->
  exists c, run_all before cat = Some c /\
    forall t x, In t (cat_tables c) -> In x (t_columns t) -> c_autoinc x = true ->
      exists k rest, In k (t_indexes t) /\ key_columns k = c_name x :: rest.
Proof. exact (always_keyed desired cat out before after). Qed.
Print Assumptions C32_autoincrement_columns_stay_keyed_partial.

(** Columns, keys, foreign keys, indexes, views and triggers changed, added and removed. *)
Example C29_example :
  mysql_schema shop_desired /\ catalogue_ok shop /\ convertible shop_desired shop /\
  plan Mysql shop_desired (dump shop) = Ok (mysql_plan shop_desired shop) /\
  length (mysql_plan shop_desired shop) = 26.
Proof.
  split; [exact shop_schema|]. split; [exact shop_ok|]. split; [exact shop_convertible|].
  split; vm_compute; reflexivity.
Qed.

(** The catalogue it leaves behind is not the one it began with. *)
Example C29_reached_example :
  reached shop_desired (after_run shop_desired shop) /\ catalogue_ok (after_run shop_desired shop) /\
  after_run shop_desired shop <> shop.
Proof.
  destruct (C29_one_run_reaches_the_schema_partial shop_desired shop (mysql_plan shop_desired shop))
    as (c & Hr & H1 & H2 & _);
    [exact shop_schema|exact shop_ok|exact shop_convertible|vm_compute; reflexivity|].
  unfold after_run. rewrite Hr. split; [exact H1|]. split; [exact H2|]. intros ->.
  assert (E : option_map (fun c => map t_name (cat_tables c)) (run_all (mysql_plan shop_desired shop) shop) =
              Some ["users"; "posts"; "tags"]) by (vm_compute; reflexivity).
  rewrite Hr in E. discriminate.
Qed.

(** ** What keeps the full statement from holding *)

(** A column that only the table's PRIMARY KEY clause makes NOT NULL is changed at every run. *)
Theorem C29_primary_key_clause_is_never_settled_refuted : exists desired cat out,
  NoDup (created desired) /\ well_formed desired = true /\ catalogue_ok cat /\
  plan Mysql desired (dump (mkCatalogue [] [] [])) = Ok [verbatim (hd (DView (mkView "" "" "")) desired)] /\
  run_all [verbatim (hd (DView (mkView "" "" "")) desired)] (mkCatalogue [] [] []) = Some cat /\
  plan Mysql desired (dump cat) = Ok out /\ out <> [] /\ run_all out cat = Some cat.
Proof.
  exists (only (mkTable "t" [col "id" 0 "int"] [pk ["id"]] [] [])),
    (one (mkTable "t" [not_null_col (col "id" 0 "int")] [pk ["id"]] [] [])).
  eexists. split; [distinct_names|]. split; [reflexivity|]. split.
  { constructor; [fact|fact|fact|]. each; constructor; try fact; each; fact. }
  split; [vm_compute; reflexivity|]. split; [vm_compute; reflexivity|]. split; [vm_compute; reflexivity|].
  split; [discriminate|]. vm_compute; reflexivity.
Qed.
Print Assumptions C29_primary_key_clause_is_never_settled_refuted.

(** An index with two options: ALTER TABLE ADD INDEX writes only the first. *)
Theorem C29_second_index_option_is_never_settled_refuted : exists desired cat out,
  NoDup (created desired) /\ well_formed desired = true /\
  plan Mysql desired (dump cat) = Ok out /\ out <> [] /\ run_all out cat = Some cat.
Proof.
  exists (only (mkTable "t" [col "a" 0 "text"]
            [mkIndex "i" "fulltext key" [mkIndexColumn "a" None ""] false false "" [] false "" ""
               [mkIndexOption "with parser" (Some (str_value "ngram"));
                mkIndexOption "comment" (Some (str_value "full text"))]] [] [])),
    (one (mkTable "t" [col "a" 0 "text"]
            [mkIndex "i" "fulltext key" [mkIndexColumn "a" None ""] false false "" [] false "" ""
               [mkIndexOption "with parser" (Some (str_value "ngram"))]] [] [])).
  eexists. split; [distinct_names|]. split; [reflexivity|]. split; [vm_compute; reflexivity|].
  split; [discriminate|]. vm_compute; reflexivity.
Qed.
Print Assumptions C29_second_index_option_is_never_settled_refuted.

(** A desired ALTER TABLE ... ADD FOREIGN KEY is never executed. *)
Theorem C29_added_foreign_key_is_never_reached_refuted : exists desired cat,
  NoDup (created desired) /\ well_formed desired = true /\ catalogue_ok cat /\
  plan Mysql desired (dump cat) = Ok [] /\
  exists f t, In f (fks_on (t_name t) desired) /\ In t (cat_tables cat) /\ t_fks t = [].
Proof.
  set (t := mkTable "t" [col "a" 0 "int"] [] [] []).
  exists (only t ++ [AddForeignKey "ALTER TABLE t ADD CONSTRAINT f ..." "t" (fk "f" "a" "t" "a" "")]), (one t).
  split; [distinct_names|]. split; [reflexivity|]. split.
  { constructor; [fact|fact|fact|]. each; constructor; try fact; each; fact. }
  split; [vm_compute; reflexivity|]. exists (fk "f" "a" "t" "a" ""), t. vm_compute; auto.
Qed.
Print Assumptions C29_added_foreign_key_is_never_reached_refuted.

(** A column that leaves the primary key and loses NOT NULL needs a second run. *)
Theorem C29_leaving_the_primary_key_takes_two_runs_refuted : exists desired cat cat' cat'' out out',
  mysql_schema desired /\ catalogue_ok cat /\
  plan Mysql desired (dump cat) = Ok out /\ run_all out cat = Some cat' /\
  plan Mysql desired (dump cat') = Ok out' /\ out' <> [] /\ run_all out' cat' = Some cat'' /\
  plan Mysql desired (dump cat'') = Ok [].
Proof.
  exists leaves_pk, in_old_pk, (after_run leaves_pk in_old_pk), (after_run leaves_pk (after_run leaves_pk in_old_pk)),
    (mysql_plan leaves_pk in_old_pk), (mysql_plan leaves_pk (after_run leaves_pk in_old_pk)).
  split; [exact leaves_pk_schema|]. split; [exact in_old_pk_ok|]. repeat (split; [vm_compute; reflexivity|]).
  split; [vm_compute; discriminate|]. split; vm_compute; reflexivity.
Qed.
Print Assumptions C29_leaving_the_primary_key_takes_two_runs_refuted.

(** Moving the primary key to another column while the table keeps its AUTO_INCREMENT column:
    DROP PRIMARY KEY comes before the new key of that column. *)
Theorem C32_primary_key_change_fails_refuted : exists desired cat out,
  mysql_schema desired /\ catalogue_ok cat /\ plan Mysql desired (dump cat) = Ok out /\
  run_all out cat = None.
Proof.
  exists moves_pk, auto_in_pk, (mysql_plan moves_pk auto_in_pk).
  split; [exact moves_pk_schema|]. split; [exact auto_in_pk_ok|]. split; vm_compute; reflexivity.
Qed.
Print Assumptions C32_primary_key_change_fails_refuted.

(** The statement that removes AUTO_INCREMENT repeats the old definition and undoes the change
    just made; the next run makes it again. *)
Theorem C33_old_definition_is_restored_refuted : exists desired cat cat' out,
  mysql_schema desired /\ catalogue_ok cat /\
  plan Mysql desired (dump cat) = Ok out /\ run_all out cat = Some cat' /\
  ~ reached desired cat' /\ plan Mysql desired (dump cat') <> Ok [].
Proof.
  exists wider_id, counted_id, (after_run wider_id counted_id), (mysql_plan wider_id counted_id).
  split; [exact wider_id_schema|]. split; [exact counted_id_ok|]. repeat (split; [vm_compute; reflexivity|]). split.
  - intros H. destruct (re_table _ _ H _ (or_introl eq_refl)) as (s & Hin & _ & Hr). rewrite counted_id_after in Hin. destruct Hin as [<-|[]].
    apply tr_columns in Hr. inversion Hr as [|? ? ? ? (_ & ((H1 & _) & _) & _)]. apply same_type_spec in H1. vm_compute in H1. discriminate.
  - vm_compute. discriminate.
Qed.
Print Assumptions C33_old_definition_is_restored_refuted.
