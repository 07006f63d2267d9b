(** Property C31: repeated runs reach the desired column order on MySQL. *)
From Coq Require Import String Ascii List ZArith Bool Lia Permutation.
From Verif Require Import GoStr Ast Generator SpecPlan SpecOrder DemoPlan ProofOrder DemoOrder.
Import ListNotations.
Local Open Scope string_scope.
Local Open Scope list_scope.

(** One run: no statement names a missing column or a duplicate one, the table ends with
    exactly the desired columns, in the desired order if the kept columns were already in
    relative order. *)
Theorem C31_one_run desired current out t ct :
  NoDup (created desired) -> NoDup (created current) -> plan Mysql desired current = Ok out ->
  In t (tables_in desired) -> In ct (schema current) -> t_name ct = t_name t ->
  NoDup (names t) -> NoDup (names ct) ->
  exists l, order_after (t_name t) out (names ct) = Some l /\ Permutation l (names t) /\
            (same_relative_order (names ct) (names t) -> l = names t).
Proof. exact (one_run desired current out t ct). Qed.
Print Assumptions C31_one_run.

(** Repeated runs, whatever else the database reports of the table between them: after as many
    runs as there are desired columns the order is the desired one, and it stays. *)
Theorem C31_column_order_converges desired t current out ct :
  NoDup (created desired) -> In t (tables_in desired) -> NoDup (names t) -> numbered t ->
  (forall k, NoDup (created (current k)) /\ In (ct k) (schema (current k)) /\ t_name (ct k) = t_name t /\
     NoDup (names (ct k)) /\ numbered (ct k) /\ plan Mysql desired (current k) = Ok (out k) /\
     order_after (t_name t) (out k) (names (ct k)) = Some (names (ct (S k)))) ->
  forall k, 1 <= k -> length (names t) <= k -> names (ct k) = names t.
Proof. exact (runs_converge desired t current out ct). Qed.
Print Assumptions C31_column_order_converges.

(** A new column, an obsolete one, kept columns in relative order. *)
Example C31_one_run_example :
  let d := ["a"; "n"; "b"; "c"] in let c := ["a"; "x"; "b"; "y"; "c"] in
  NoDup (created (as_schema d)) /\ NoDup (created (as_schema c)) /\
  plan Mysql (as_schema d) (as_schema c) = Ok (planned d c) /\ planned d c <> [] /\
  In (letters d) (tables_in (as_schema d)) /\ In (letters c) (schema (as_schema c)) /\
  NoDup (names (letters d)) /\ NoDup (names (letters c)) /\
  same_relative_order (names (letters c)) (names (letters d)) /\
  order_after "t" (planned d c) c = Some d.
Proof.
  cbv zeta. repeat split; try (vm_compute; auto; fail); try distinct. vm_compute. discriminate.
Qed.

(** Four columns to be reversed need two runs. *)
Example C31_converges_example :
  let d := ["d"; "c"; "b"; "a"] in
  let c k := match k with 0 => ["a"; "b"; "c"; "d"] | 1 => ["d"; "c"; "a"; "b"] | _ => d end in
  forall k, NoDup (created (as_schema (c k))) /\ In (letters (c k)) (schema (as_schema (c k))) /\
    NoDup (names (letters (c k))) /\ numbered (letters (c k)) /\
    plan Mysql (as_schema d) (as_schema (c k)) = Ok (planned d (c k)) /\
    order_after "t" (planned d (c k)) (names (letters (c k))) = Some (names (letters (c (S k)))).
Proof.
  cbv zeta. intros [|[|k]]; (repeat split; try (apply letters_numbered); try (vm_compute; auto; fail); try distinct).
Qed.

(** One run is not enough in general, even for the same set of columns. *)
Theorem C31_one_run_reaches_the_order_refuted : exists desired current out t ct,
  NoDup (created desired) /\ NoDup (created current) /\ plan Mysql desired current = Ok out /\
  In t (tables_in desired) /\ In ct (schema current) /\ t_name ct = t_name t /\
  NoDup (names t) /\ NoDup (names ct) /\ numbered t /\ numbered ct /\
  order_after (t_name t) out (names ct) <> Some (names t).
Proof.
  pose (d := ["d"; "c"; "b"; "a"]). pose (c := ["a"; "b"; "c"; "d"]).
  exists (as_schema d), (as_schema c), (planned d c), (letters d), (letters c).
  repeat split; try (apply letters_numbered); try (vm_compute; auto; fail); try distinct. vm_compute. discriminate.
Qed.
Print Assumptions C31_one_run_reaches_the_order_refuted.
