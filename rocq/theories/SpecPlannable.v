(** Which pairs of schemas are planned rather than refused.  Only the syntax trees of [Ast] and the
    vocabulary of [SpecPlan] are used. *)
From Coq Require Import String List ZArith Bool.
From Verif Require Import GoStr Ast Generator SpecPlan.
Import ListNotations.
Local Open Scope string_scope.
Local Open Scope list_scope.

(** The definition can be written: the default is a text, a number, a bit or a word, and the column
    is not declared KEY or SPATIAL KEY. *)
Definition writable (c : column) : Prop :=
  (forall d v, c_default c = Some d -> df_value d = Some v -> In (v_type v) [VStr; VInt; VFloat; VBit; VValArg]) /\
  c_key c <> KeySpatial /\ c_key c <> KeyKey.

(** [t] is a table of the schema [desired], [s] the table of that name in [current]. *)
Record changeable (m : mode) (desired current : list ddl) (t s : table) : Prop := {
  ch_columns : forall c, In c (t_columns t) -> writable c;
  (* MySQL: a column that loses AUTO_INCREMENT is written as it is *)
  ch_current : m = Mysql -> forall c, In c (t_columns s) -> writable c;
  (* foreign keys of the CREATE TABLE have a name *)
  ch_fks : forall f, In f (t_fks t) -> fk_constraint f <> "";
  (* a column is PRIMARY KEY only if it begins the primary key there is, or that key is declared *)
  ch_key : forall i c, In i (t_indexes s ++ indexes_on (t_name s) current) -> i_primary i = true ->
    In c (t_columns t) -> c_key c = KeyPrimary ->
    In (i_name i) (map i_name (t_indexes t ++ indexes_on (t_name t) desired)) \/
    backs_fk (t_fks t ++ fks_on (t_name t) desired) (i_name i) \/
    exists ic rest, i_columns i = ic :: rest /\ ic_column ic = c_name c }.

Record plannable (m : mode) (desired current : list ddl) : Prop := {
  pl_desired : forall d, In d desired -> sane_ddl m d;
  pl_current : forall d, In d current -> sane_ddl m d;
  pl_desired_once : NoDup (created desired);
  pl_current_once : NoDup (created current);
  pl_well_formed : well_formed desired = true;
  pl_readable : readable current = true;
  pl_kept : forall t s, In t (tables_in desired) -> In s (tables_in current) -> t_name s = t_name t ->
    changeable m desired current t s }.
