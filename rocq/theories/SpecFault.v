(** What is wrong with a pair of schemas when the planner gives an error.  Only the syntax trees of
    [Ast], the errors of [Generator] and the vocabulary of [SpecPlan] are used. *)
From Coq Require Import String List ZArith Bool.
From Verif Require Import GoStr Ast Generator SpecPlan.
Import ListNotations.
Local Open Scope string_scope.
Local Open Scope list_scope.

(** The table and the name of the object a statement adds to an existing table. *)
Definition adds (d : ddl) : option (string * string) :=
  match d with
  | CreateIndex _ n i | AddIndex _ n i => Some (n, i_name i)
  | AddForeignKey _ n f => Some (n, fk_constraint f)
  | AddPolicy _ n p => Some (n, p_name p)
  | _ => None
  end.

(** The names of the objects of that kind which [before] gives to table [n]. *)
Definition siblings (d : ddl) (n : string) (before : list ddl) : list string :=
  match d with
  | CreateIndex _ _ _ | AddIndex _ _ _ => index_names_of n before
  | AddForeignKey _ _ _ => fk_names_of n before
  | AddPolicy _ _ _ => policy_names_of n before
  | _ => []
  end.

(** The defaults that can be written. *)
Definition printable : list value_type := [VStr; VInt; VFloat; VBit; VValArg].

(** Table [t] of the file exists, in the database or by an earlier statement, with the columns [olds]:
    what makes the change impossible. *)
Inductive bad_table (m : mode) (t : table) (olds : list column) : gerror -> Prop :=
| bad_default : forall c d v,
    In c (t_columns t) \/ (m = Mysql /\ In c olds) ->
    c_default c = Some d -> df_value d = Some v -> ~ In (v_type v) printable ->
    bad_table m t olds (EUnsupportedDefault (v_type v))
| bad_key : forall c c',
    In c (t_columns t) \/ (m = Mysql /\ In c olds) ->
    c_key c = KeySpatial \/ c_key c = KeyKey ->
    c_name c' = c_name c -> c_key c' = c_key c ->
    bad_table m t olds (EUnsupportedKey c')
| bad_foreign_key : forall f,
    In f (t_fks t) -> fk_constraint f = "" ->
    bad_table m t olds (ENoForeignKeySymbol (t_name t) (fk_index_name f)).

(** The fault an error names. *)
Inductive fault (m : mode) (desired current : list ddl) : gerror -> Prop :=
(* an object of a table which neither the database nor an earlier statement has *)
| fault_no_table : forall before d after n,
    desired = before ++ d :: after -> ddl_table d = Some n ->
    ~ In n (created current) -> ~ In n (created before) ->
    fault m desired current (EInexistentTable n (ddl_statement d))
(* an object before the CREATE TABLE of its table *)
| fault_too_early : forall before d after n,
    desired = before ++ d :: after -> ddl_table d = Some n -> ~ In n (created before) ->
    fault m desired current (ENotYetCreated n (ddl_statement d))
(* an object declared twice *)
| fault_twice : forall before d after n k,
    desired = before ++ d :: after -> adds d = Some (n, k) -> In k (siblings d n before) ->
    fault m desired current (EDoublyCreated k n (ddl_statement d))
| fault_view_twice : forall before v after,
    desired = before ++ DView v :: after -> In (vw_name v) (map vw_name (views_in before)) ->
    fault m desired current (EDoublyCreated (vw_name v) "" (vw_statement v))
(* a statement the file may not hold *)
| fault_desired : forall s n i,
    In (AddPrimaryKey s n i) desired ->
    fault m desired current (EUnexpectedDesired (AddPrimaryKey s n i))
(* statements the exported schema may not hold *)
| fault_export_order : forall before d after n,
    current = before ++ d :: after -> ddl_table d = Some n -> ~ In n (created before) ->
    fault m desired current (EBeforeCreateTable (ddl_statement d))
| fault_current : forall s n i,
    In (AddIndex s n i) current ->
    fault m desired current (EUnexpectedCurrent (AddIndex s n i))
(* a table that exists and cannot be brought to its definition *)
| fault_table : forall before s t after e,
    desired = before ++ CreateTable s t :: after ->
    In (t_name t) (created (current ++ before)) ->
    bad_table m t (inline t_columns (t_name t) (current ++ before)) e ->
    fault m desired current e
(* a column is PRIMARY KEY, another column begins the primary key there is *)
| fault_primary_key : forall n c i ic rest,
    In c (inline t_columns n desired) -> c_key c = KeyPrimary ->
    In i (inline t_indexes n (current ++ desired) ++ indexes_on n (current ++ desired)) ->
    i_primary i = true -> i_columns i = ic :: rest -> ic_column ic <> c_name c ->
    (NoDup (created desired) -> ~ In (i_name i) (index_names_of n desired)) ->
    fault m desired current (EPrimaryKeyRename n (c_name c) (ic_column ic)).
