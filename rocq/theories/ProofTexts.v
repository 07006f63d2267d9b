(** Texts of the statements about obsolete tables. *)
From Coq Require Import String Ascii List ZArith Bool.
From Verif Require Import GoStr Ast Generator SpecPlan SpecSql ProofTables ProofSql ProofDrop.
Import ListNotations.
Local Open Scope string_scope.
Local Open Scope list_scope.

Lemma obsolete_part_text m desired current out n :
  NoDup (created desired) -> NoDup (created current) -> plan m desired current = Ok out ->
  In n (created current) -> ~ In n (created desired) ->
  map s_text (table_part n out) = [sentence ["DROP TABLE"; table_ref m n]].
Proof.
  intros H1 H2 H3 H4 H5. rewrite (obsolete_part m desired current out H1 H2 H3 n H4 H5).
  pose proof (drop_table_says m n) as H. unfold says in H. cbn [map]. f_equal.
  destruct m; cbn [stmt_drop_table s_eff sql_of] in H; now apply some_inj in H.
Qed.

Lemma unknown_part_plan m desired current out n :
  NoDup (created desired) -> NoDup (created current) -> plan m desired current = Ok out ->
  ~ In n (created current) -> ~ In n (created desired) -> table_part n out = [].
Proof. intros H1 H2 H3. exact (unknown_part m desired current out H1 H2 H3 n). Qed.
