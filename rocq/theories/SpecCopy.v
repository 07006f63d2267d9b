(** Copying a database: what it takes to be the same database, and servers that refuse a reference
    to a table they do not have.  Only the syntax trees of [Ast] and the ideal MySQL of [SpecMysql]
    are used. *)
From Coq Require Import String List ZArith Bool.
From Verif Require Import GoStr Ast Generator SpecPlan SpecMysql.
Import ListNotations.
Local Open Scope string_scope.
Local Open Scope list_scope.

(** A database without anything in it. *)
Definition nothing : catalogue := mkCatalogue [] [] [].

(** Equal tables in the same order, and the same views and triggers: only the text kept from the
    statement that made a view or trigger may differ. *)
Definition same_view (a b : view) : Prop := vw_name a = vw_name b /\ vw_definition a = vw_definition b.
Definition same_trigger (a b : trigger) : Prop :=
  tr_name a = tr_name b /\ tr_table a = tr_table b /\ tr_time a = tr_time b /\ tr_event a = tr_event b /\ tr_body a = tr_body b.
Definition copy_of (a b : catalogue) : Prop :=
  cat_tables a = cat_tables b /\ Forall2 same_view (cat_views a) (cat_views b) /\ Forall2 same_trigger (cat_triggers a) (cat_triggers b).

(** The tables a foreign key of [t] refers to are there or are [t] itself. *)
Definition refers_to (there : list string) (t : table) : bool :=
  forallb (fun f => mem (fk_ref_name f) (t_name t :: there)) (t_fks t).

(** MySQL with foreign_key_checks: a table that refers to one that does not exist is not created. *)
Definition run_checked (e : effect) (c : catalogue) : option catalogue :=
  match e with
  | EffVerbatim (CreateTable _ t) => if refers_to (map t_name (cat_tables c)) t then run e c else None
  | EffAddForeignKey _ f => if mem (fk_ref_name f) (map t_name (cat_tables c)) then run e c else None
  | _ => run e c
  end.
Fixpoint run_all_checked (out : list stmt) (c : catalogue) : option catalogue :=
  match out with
  | [] => Some c
  | s :: out' => match run_checked (s_eff s) c with Some c' => run_all_checked out' c' | None => None end
  end.

(** Every table refers only to itself and to tables before it. *)
Fixpoint refers_back (there : list string) (l : list table) : bool :=
  match l with
  | [] => true
  | t :: l' => refers_to there t && refers_back (there ++ [t_name t]) l'
  end.
