(** Objects that two files describe alike.  Only the vocabulary of [SpecPlan] is used. *)
From Coq Require Import String List Bool.
From Verif Require Import GoStr Ast Generator SpecPlan.
Import ListNotations.

(** The name of the view an operation is about. *)
Definition view_op_name (o : view_op) : string :=
  match o with
  | ViewAsWritten v => vw_name v
  | ViewCreate n _ | ViewReplace n _ | ViewDrop n => n
  end.

(** [out] begins with [pre]: what has been executed when a run stops. *)
Definition executed_first {A} (pre out : list A) : Prop := exists post, out = pre ++ post.

(** Both files have the same view called [n], and [l'] no other of that name. *)
Definition same_view_in (n : string) (l l' : list ddl) : Prop :=
  exists v, In v (views_in l) /\ vw_name v = n /\
    forall v', In v' (views_in l') -> vw_name v' = n -> vw_definition v' = vw_definition v.
