(** Specification of convergence on SQL Server: which desired schemas and databases are meant,
    which differences one run settles, and what it means that a database has a schema.  Only the
    syntax trees of [Ast], the comparison predicates of [SpecPlan] and [SpecColumns] and the ideal
    database of [SpecMssql] and [SpecDatabase] are used. *)
From Coq Require Import String Ascii List ZArith Bool.
From Verif Require Import GoStr Ast Generator SpecPlan SpecColumns SpecMysql SpecDatabase SpecPostgres SpecShownMssql SpecMssql.
Import ListNotations.
Local Open Scope string_scope.
Local Open Scope list_scope.

Section Converge.
Variable w : ms_ways.

(** Every constraint has a name. *)
Definition ms_names_given : Prop := forall kind tbl c, w_name w kind tbl c <> "".

(** ** Desired schemas *)

(** Conditions and values of defaults are written as the server keeps them. *)
Definition ms_definition (c : column) : Prop :=
  (forall k, c_check c = Some k -> w_condition w (ck_definition k) = ck_definition k) /\
  (forall d, c_default c = Some d -> value_matches (real_default (Some (kept_ms_default w "" d))) (real_default (Some d))).

Definition ms_index_columns (i : index) : Prop :=
  forall c, In c (i_columns i) -> In (ic_direction c) [""; "asc"; "desc"].
Definition ms_index_options (i : index) : Prop :=
  NoDup (map io_name (i_options i)) /\ forall o, In o (i_options i) -> In (io_name o) (map io_name ms_option_defaults).

(** A primary key that is not part of a column definition has a name. *)
Definition ms_primary (i : index) : Prop :=
  i_name i <> "PRIMARY" /\ i_unique i = true /\ i_where i = "" /\ i_included i = [] /\ ms_index_columns i /\ ms_index_options i.

Definition ms_secondary (t : table) (i : index) : Prop :=
  i_name i <> "" /\ i_primary i = false /\ i_where i = "" /\ i_columns i <> [] /\ ms_index_columns i /\ ms_index_options i /\
  forall x, In x (index_columns i) -> In x (map c_name (t_columns t)).

(** The indexes of a table, in its CREATE TABLE statement or by statements of their own. *)
Definition ms_indexes (l : list ddl) (t : table) : list index := inline_indexes t ++ indexes_on (t_name t) l.

Record ms_table (l : list ddl) (t : table) : Prop := {
  (* the CREATE TABLE statement is one SQL Server accepts *)
  mt_create : exists g, ms_create w t = Some g;
  mt_columns : forall c, In c (t_columns t) -> ms_definition c;
  mt_primary : forall i, In i (t_indexes t) -> i_primary i = true -> ms_primary i;
  mt_index : forall i, In i (ms_indexes l t) -> ms_secondary t i;
  (* INCLUDE is for indexes with statements of their own *)
  mt_inline : forall i, In i (inline_indexes t) -> i_included i = [];
  mt_indexes : NoDup (map i_name (ms_indexes l t));
  mt_key_name : forall k i, declares_pk t (Some k) -> In i (ms_indexes l t) -> i_name i <> key_name w (t_name t) k }.

(** Only tables, indexes, views and triggers. *)
Definition ms_statement (d : ddl) : Prop :=
  match d with AddIndex _ _ _ | AddPrimaryKey _ _ _ | AddForeignKey _ _ _ | AddPolicy _ _ _ => False | _ => True end.

Record ms_schema (l : list ddl) : Prop := {
  mc_well_formed : well_formed l = true;
  mc_statements : forall d, In d l -> ms_statement d;
  mc_created : NoDup (created l);
  mc_triggers : NoDup (map tr_name (triggers_in l));
  mc_tables : forall t, In t (tables_in l) -> ms_table l t }.

(** ** Databases *)
Record ms_sound (g : ms_tab) : Prop := {
  mo_names : NoDup (m_names g);
  mo_indexes : NoDup (map i_name (listed (m_key g) ++ m_indexes g));
  mo_fks : NoDup (map fk_constraint (m_fks g));
  mo_default : forall c d, In c (m_columns g) -> c_default c = Some d -> df_constraint d <> "";
  mo_column : forall c, In c (m_columns g) -> c_check_no_inherit c = false /\ c_autoinc c = false /\ c_key c = KeyNone /\
    forall i, c_identity c = Some i -> id_behavior i = "" /\ c_default c = None;
  mo_key : forall k, m_key g = Some k -> i_primary k = true /\ i_columns k <> [];
  mo_index : forall i, In i (m_indexes g) -> i_primary i = false /\ i_columns i <> [];
  mo_fk : forall f, In f (m_fks g) -> fk_ref_name f <> "" }.

Record ms_database_ok (c : database ms_tab) : Prop := {
  mo_tables : NoDup (map m_name (db_tables c));
  mo_views : NoDup (map vw_name (db_views c));
  mo_triggers : NoDup (map tr_name (db_triggers c));
  mo_sound : forall g, In g (db_tables c) -> ms_sound g }.

(** ** What a database has of a schema *)
Definition ms_required (t : table) (c : column) : Prop :=
  c_notnull c = Some true \/ c_identity c <> None \/ in_primary_key t c.

(** What the planner never changes. *)
Definition ms_same_kind (t : table) (s c : column) : Prop :=
  c_type s = c_type c /\ option_map v_raw (c_length s) = option_map v_raw (c_length c) /\
  option_map v_raw (c_scale s) = option_map v_raw (c_scale c) /\
  (c_notnull s = Some true <-> ms_required t c) /\
  option_map id_not_for_replication (c_identity s) = option_map id_not_for_replication (c_identity c) /\
  option_map sq_start_with (c_sequence s) = option_map sq_start_with (c_sequence c) /\
  option_map sq_increment_by (c_sequence s) = option_map sq_increment_by (c_sequence c).

Definition ms_column_reached (t : table) (s c : column) : Prop :=
  c_name s = c_name c /\ ms_same_kind t s c /\ default_matches s c /\ check_matches s c.

Definition ms_fk_same (a b : foreign_key) : Prop :=
  fk_matches Mssql a b /\ fk_index_columns a = fk_index_columns b /\ fk_ref_name a = fk_ref_name b /\ fk_ref_columns a = fk_ref_columns b.

(** The primary key, under the name it was given if it was given one. *)
Definition ms_key_reached (g : ms_tab) (k : option index) : Prop :=
  match k with
  | None => m_key g = None
  | Some i => exists k', m_key g = Some k' /\ index_matches k' i /\ (i_name i = "PRIMARY" \/ i_name k' = i_name i)
  end.

Record ms_reached (l : list ddl) (t : table) (g : ms_tab) : Prop := {
  mr_column : forall c, In c (t_columns t) -> exists s, In s (m_columns g) /\ ms_column_reached t s c;
  mr_other_columns : forall s, In s (m_columns g) -> In (c_name s) (map c_name (t_columns t));
  mr_key : forall k, declares_pk t k -> ms_key_reached g k;
  mr_index : forall i, In i (ms_indexes l t) ->
    exists k, In k (m_indexes g) /\ i_name k = i_name i /\ index_matches k i;
  mr_other_indexes : forall k, In k (m_indexes g) -> In (i_name k) (map i_name (ms_indexes l t));
  mr_fk : forall f, In f (t_fks t) -> exists f', In f' (m_fks g) /\ fk_constraint f' = fk_constraint f /\ ms_fk_same f' f;
  mr_other_fks : forall f, In f (m_fks g) -> In (fk_constraint f) (map fk_constraint (t_fks t)) }.

Record ms_db_reached (l : list ddl) (c : database ms_tab) : Prop := {
  md_tables : forall n, In n (map m_name (db_tables c)) <-> In n (created l);
  md_table : forall t, In t (tables_in l) -> exists s, In s (db_tables c) /\ m_name s = t_name t /\ ms_reached l t s;
  md_views : forall n, In n (map vw_name (db_views c)) <-> In n (map vw_name (views_in l));
  md_view : forall v, In v (views_in l) ->
    exists v', In v' (db_views c) /\ vw_name v' = vw_name v /\ same_letters (vw_definition v') (vw_definition v);
  md_triggers : forall n, In n (map tr_name (db_triggers c)) <-> In n (map tr_name (triggers_in l));
  md_trigger : forall t, In t (triggers_in l) -> exists t', In t' (db_triggers c) /\ tr_name t' = tr_name t /\ trigger_matches t' t }.

(** ** Differences one run settles *)

(** The name the planner gives to a CHECK constraint without one. *)
Definition ms_planned_check (t : table) (c : column) (k : check_def) : string :=
  if String.eqb (ck_constraint k) "" then check_name "dbo." (t_name t) (c_name c) else ck_constraint k.

(** [t] is desired, [s] is the table of that name in the database. *)
Record ms_settles (l : list ddl) (t : table) (s : ms_tab) : Prop := {
  (* types, NOT NULL and identities are as they should be *)
  ss_kind : forall c cc, In c (t_columns t) -> In cc (m_columns s) -> c_name cc = c_name c -> ms_same_kind t cc c;
  (* a new column of the primary key says that it is NOT NULL; there is one identity *)
  ss_new : forall c, In c (t_columns t) -> ~ In (c_name c) (m_names s) -> in_primary_key t c -> ms_says_required c = true;
  ss_identity : forall c cc, In c (t_columns t) -> ~ In (c_name c) (m_names s) -> c_identity c <> None -> In cc (m_columns s) -> c_identity cc = None;
  (* the values of new and changed defaults can be written *)
  ss_new_default : forall c, In c (t_columns t) -> ~ In (c_name c) (m_names s) -> default_written w (c_default c) = true;
  ss_default : forall c cc, In c (t_columns t) -> In cc (m_columns s) -> c_name cc = c_name c -> ~ default_matches cc c -> default_written w (c_default c) = true;
  (* the names of changed CHECK constraints need no brackets *)
  ss_check : forall c cc, In c (t_columns t) -> In cc (m_columns s) -> c_name cc = c_name c -> ~ check_matches cc c ->
    (forall k, c_check cc = Some k -> w_bare w (ck_constraint k) = true) /\
    (forall k, c_check c = Some k -> w_bare w (ms_planned_check t c k) = true);
  (* a dropped column has no CHECK constraint *)
  ss_dropped : forall cc, In cc (m_columns s) -> ~ In (c_name cc) (map c_name (t_columns t)) -> c_check cc = None;
  (* a primary key is added or dropped, not changed and not renamed *)
  ss_key : forall k i, m_key s = Some k -> declares_pk t (Some i) ->
    index_matches k i /\ (i_name i = "PRIMARY" \/ i_name k = i_name i);
  ss_key_name : forall k, m_key s = Some k -> ~ In (i_name k) (map i_name (ms_indexes l t));
  ss_new_key_name : forall i, m_key s = None -> declares_pk t (Some i) -> ~ In (key_name w (t_name t) i) (map i_name (m_indexes s));
  (* an index is not named like a foreign key: such an index is never dropped *)
  ss_names : forall k, In k (listed (m_key s) ++ m_indexes s) -> ~ In (i_name k) (map fk_constraint (t_fks t));
  (* a foreign key with new columns or a new target has a new name, see C20 *)
  ss_fks : forall f cf, In f (t_fks t) -> In cf (m_fks s) -> fk_constraint cf = fk_constraint f -> fk_matches Mssql cf f -> ms_fk_same cf f }.

Record ms_convertible (l : list ddl) (c : database ms_tab) : Prop := {
  mv_kept : forall t s, In t (tables_in l) -> In s (db_tables c) -> m_name s = t_name t -> ms_settles l t s;
  (* triggers are never dropped *)
  mv_triggers : forall n, In n (map tr_name (db_triggers c)) -> In n (map tr_name (triggers_in l)) }.
End Converge.
