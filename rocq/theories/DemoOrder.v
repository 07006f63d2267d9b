(** Tables used by the examples beside the column order theorems. *)
From Coq Require Import String Ascii List ZArith Bool Lia.
From Verif Require Import GoStr Ast Generator SpecPlan SpecOrder DemoPlan.
Import ListNotations.
Local Open Scope string_scope.
Local Open Scope list_scope.

(** Tables of integer columns. *)
Fixpoint ints (i : Z) (l : list string) : list column :=
  match l with [] => [] | n :: l' => col n i "int" :: ints (i + 1) l' end.
Definition letters (l : list string) : table := mkTable "t" (ints 0 l) [] [] [].
Definition as_schema (l : list string) : list ddl := [CreateTable "CREATE TABLE t (...)" (letters l)].
Definition planned (d c : list string) : list stmt :=
  match plan Mysql (as_schema d) (as_schema c) with Ok out => out | _ => [] end.

Lemma letters_numbered l : numbered (letters l).
Proof.
  assert (H : forall l z i c, nth_error (ints z l) i = Some c -> c_position c = (z + Z.of_nat i)%Z).
  { clear. induction l as [|n l IH]; intros z [|i] c H; try discriminate; simpl in H.
    - injection H as <-. simpl. lia.
    - apply IH in H. rewrite H. lia. }
  intros i c H0. apply H in H0. simpl in H0. lia.
Qed.

Ltac distinct := vm_compute; repeat (constructor; [cbv; intuition discriminate|]); constructor.
