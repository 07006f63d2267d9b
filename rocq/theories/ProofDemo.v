(** Helpers for the examples. *)
From Coq Require Import String Ascii List ZArith Bool.
From Verif Require Import GoStr Ast Generator SpecPlan ProofPlan DemoPlan.
Import ListNotations.

Lemma distinct_NoDup l : distinct l = true -> NoDup l.
Proof.
  induction l as [|x l IH]; simpl; intros H; constructor; apply andb_true_iff in H as [H1 H2]; auto.
  apply mem_false. now apply negb_true_iff.
Qed.

Ltac blog_example := unfold kept_example; repeat (split; [first [apply distinct_NoDup; vm_compute; reflexivity | vm_compute; auto 10]|]); vm_compute; auto 10.
