(** Properties C34 and C35: how types are compared and changed. *)
From Coq Require Import String Ascii List ZArith Bool Relation_Operators.
From Verif Require Import GoStr GoNum Ast Generator SpecPlan SpecColumns SpecSql SpecTypes DemoPlan ProofDemo DemoTypes ProofTypes.
Import ListNotations.
Local Open Scope string_scope.
Local Open Scope list_scope.

(** C34: a table whose columns are spelled with other aliases of the same types is not
    changed.  Partial: only the aliases of [alias]; others are below. *)
Theorem C34_aliases_change_nothing_partial m desired current out t ct :
  NoDup (created desired) -> NoDup (created current) -> plan m desired current = Ok out ->
  In t (tables_in desired) -> In ct (schema current) -> t_name ct = t_name t ->
  NoDup (map c_name (t_columns ct)) -> Forall (steady m) (t_columns ct) ->
  Forall2 (respelled m) (t_columns ct) (t_columns t) ->
  effects (column_ops (t_name t)) out = [].
Proof. exact (respelled_nothing m desired current out t ct). Qed.
Print Assumptions C34_aliases_change_nothing_partial.

Example C34_example : forall m : mode,
  plan m (spelled "integer") (spelled "int") = Ok [] /\
  Forall (steady m) (t_columns (the_columns (spelled "int"))) /\
  Forall2 (respelled m) (t_columns (the_columns (spelled "int"))) (t_columns (the_columns (spelled "integer"))) /\
  the_columns (spelled "int") <> the_columns (spelled "integer").
Proof.
  intros m. split; [destruct m; reflexivity|]. split; [|split; [|discriminate]].
  - repeat constructor; cbn; intuition (try discriminate); apply rst_refl.
  - constructor; [|constructor; [|constructor]].
    + exists "integer". split; [reflexivity|]. apply rst_step. constructor.
    + exists "text". split; [reflexivity|]. apply rst_refl.
Qed.

Example C34_mysql_boolean_example : plan Mysql (spelled "bool") (spelled "tinyint") = Ok [].
Proof. reflexivity. Qed.

(** DECIMAL and NUMERIC are the same type for PostgreSQL and MySQL, which report one of them;
    the other one is changed again on every run. *)
Theorem C34_decimal_refuted : exists desired current,
  texts (plan Postgres desired current) = Some ["ALTER TABLE ""public"".""t"" ALTER COLUMN ""a"" TYPE decimal"] /\
  desired = spelled "decimal" /\ current = spelled "numeric".
Proof. eexists _, _. split; [|split; reflexivity]. vm_compute. reflexivity. Qed.
Print Assumptions C34_decimal_refuted.

(** C35: the statement that changes a type names it completely exactly when it has no time
    zone. *)
Theorem C35_type_changes_name_the_type_partial desired current out t ct c cc :
  NoDup (created desired) -> NoDup (created current) -> plan Postgres desired current = Ok out ->
  In t (tables_in desired) -> In ct (schema current) -> t_name ct = t_name t ->
  In c (t_columns t) -> named c_name (c_name c) (t_columns ct) = Some cc -> ~ data_type_matches Postgres cc c ->
  exists st, In st out /\ s_eff st = EffAlterType (t_name t) (c_name c) (first_version cc c) /\
    (s_text st = sentence ["ALTER TABLE"; table_ref Postgres (t_name t); "ALTER COLUMN"; quoted Postgres (c_name c);
                           "TYPE"; full_type c] <-> c_timezone c = false).
Proof. exact (type_change desired current out t ct c cc). Qed.
Print Assumptions C35_type_changes_name_the_type_partial.

Example C35_example : kept_example Postgres "public." 0 /\
  exists c cc, In c (t_columns (nth_created 0 (blog_desired "public."))) /\
    named c_name (c_name c) (t_columns (nth_table 0 (blog_current "public."))) = Some cc /\
    ~ data_type_matches Postgres cc c /\ full_type c = "varchar(80)".
Proof.
  split; [blog_example|].
  exists (with_length 80 "80" (col "name" 1 "varchar")), (with_length 40 "40" (col "name" 1 "varchar")).
  split; [vm_compute; auto|]. split; [reflexivity|]. split; [|reflexivity].
  intros (_ & _ & H & _). specialize (H _ _ eq_refl eq_refl). discriminate.
Qed.

(** [date] becomes [timestamp] although [timestamp with time zone] is declared. *)
Theorem C35_time_zone_refuted : exists desired current c,
  In (mkTable "public.t" [c] [] [] []) (tables_in desired) /\ full_type c = "timestamp WITH TIME ZONE" /\
  texts (plan Postgres desired current) = Some ["ALTER TABLE ""public"".""t"" ALTER COLUMN ""a"" TYPE timestamp"].
Proof.
  exists (one_column (zoned (col "a" 0 "timestamp"))), (one_column (col "a" 0 "date")), (zoned (col "a" 0 "timestamp")).
  split; [now left|]. split; [reflexivity|]. vm_compute. reflexivity.
Qed.
Print Assumptions C35_time_zone_refuted.

(** A time zone that is added or removed, a changed scale and a length that only one side has
    are not noticed at all. *)

Theorem C35_unnoticed_changes_refuted : forall m, exists l,
  map (fun p => (full_type (fst p), full_type (snd p))) l =
    [("numeric(10, 2)", "numeric(10, 4)"); ("varchar(40)", "varchar")] /\
  Forall (fun p => plan m (one_column (snd p)) (one_column (fst p)) = Ok []) l.
Proof.
  intros m. exists [(with_scale 10 2 (col "a" 0 "numeric"), with_scale 10 4 (col "a" 0 "numeric"));
                    (with_length 40 "40" (col "a" 0 "varchar"), col "a" 0 "varchar")].
  split; [reflexivity|]. repeat constructor; destruct m; vm_compute; reflexivity.
Qed.
Print Assumptions C35_unnoticed_changes_refuted.

Theorem C35_time_zone_change_unnoticed_refuted : exists desired current,
  desired = one_column (zoned (col "a" 0 "timestamp")) /\ current = one_column (col "a" 0 "timestamp") /\
  plan Postgres desired current = Ok [].
Proof. eexists _, _. split; [reflexivity|]. split; [reflexivity|]. vm_compute. reflexivity. Qed.
Print Assumptions C35_time_zone_change_unnoticed_refuted.
