(** Specification of convergence on PostgreSQL: which desired schemas and databases are meant,
    which differences one run settles, and what it means that a database has a schema.  Only the
    syntax trees of [Ast], the comparison predicates of [SpecPlan] and [SpecColumns] and the ideal
    database of [SpecPostgres] and [SpecDatabase] are used. *)
From Coq Require Import String Ascii List ZArith Bool.
From Verif Require Import GoStr Ast Generator SpecPlan SpecColumns SpecMysql SpecDatabase SpecPostgres.
Import ListNotations.
Local Open Scope string_scope.
Local Open Scope list_scope.

(** Foreign keys of the CREATE TABLE and of ALTER TABLE ... ADD statements. *)
Definition all_fks (l : list ddl) (t : table) : list foreign_key := t_fks t ++ fks_on (t_name t) l.

(** ** Desired schemas *)

(** The type is written as the database reports it, or as one of the aliases the planner knows;
    a column that is NOT NULL by its type, identity or key says so or is in the primary key. *)
Definition pg_definition (t : table) (c : column) : Prop :=
  same_type Postgres (wanted_type c) (c_type c) /\
  (says_required c = true -> required c \/ in_primary_key t c).

Definition pg_primary (t : table) (i : index) : Prop :=
  In (i_name i) ["PRIMARY"; pkey_name (t_name t)] /\ to_lower (i_type i) = "primary key" /\
  i_unique i = true /\ i_where i = "" /\ i_included i = [] /\ i_options i = [] /\
  forall c, In c (i_columns i) -> ic_length c = None /\ (ic_direction c = "" \/ ic_direction c = "asc").

Definition index_name_ok (n : string) : Prop := ends_with "_pkey" n = false /\ n <> "PRIMARY".

Definition pg_index (t : table) (i : index) : Prop :=
  index_name_ok (i_name i) /\ i_primary i = false /\ i_columns i <> [] /\ NoDup (map io_name (i_options i)) /\
  forall x, In x (index_columns i) -> In x (map c_name (t_columns t)).

Record pg_table (l : list ddl) (t : table) : Prop := {
  (* the CREATE TABLE statement is one PostgreSQL accepts *)
  pt_create : exists g, pg_create t = Some g;
  pt_columns : forall c, In c (t_columns t) -> pg_definition t c;
  pt_primary : forall i, In i (t_indexes t) -> pg_primary t i;
  pt_index : forall i, In i (indexes_on (t_name t) l) -> pg_index t i;
  pt_indexes : NoDup (map i_name (indexes_on (t_name t) l));
  pt_fks : NoDup (map fk_constraint (all_fks l t));
  pt_fk_columns : forall f x, In f (fks_on (t_name t) l) -> In x (fk_index_columns f) ->
    In x (map c_name (t_columns t));
  pt_policies : NoDup (map p_name (policies_on (t_name t) l));
  pt_policy : policies_on (t_name t) l <> [] -> exported_name (t_name t) = t_name t }.

(** Only tables, indexes, foreign keys, policies and views; triggers are ignored. *)
Definition pg_statement (d : ddl) : Prop :=
  match d with AddIndex _ _ _ | AddPrimaryKey _ _ _ => False | _ => True end.

Record pg_schema (l : list ddl) : Prop := {
  ps_well_formed : well_formed l = true;
  ps_statements : forall d, In d l -> pg_statement d;
  ps_created : NoDup (created l);
  ps_tables : forall t, In t (tables_in l) -> pg_table l t }.

(** ** Databases *)

(** Serial and identity columns have no other default; serial columns are NOT NULL; NO INHERIT is
    a property of a CHECK constraint. *)
Definition stored (c : column) : Prop :=
  (is_serial (c_type c) = true -> c_notnull c = Some true /\ c_default c = None) /\
  (forall i, c_identity c = Some i -> c_default c = None /\ id_not_for_replication i = false) /\
  (c_check c = None -> c_check_no_inherit c = false).

Record sound (g : pg_tab) : Prop := {
  so_names : NoDup (map c_name (g_columns g));
  so_indexes : NoDup (map i_name (g_indexes g));
  so_fks : NoDup (map fk_constraint (g_fks g));
  so_policies : NoDup (map p_name (g_policies g));
  so_column : forall c, In c (g_columns g) -> stored c;
  so_pk : forall k l x, g_pk g = Some (k, l) -> In x l ->
    exists c, In c (g_columns g) /\ c_name c = x /\ c_notnull c = Some true;
  so_pk_columns : forall k, g_pk g = Some (k, []) -> False;
  so_index : forall i, In i (g_indexes g) -> i_primary i = false;
  so_fk : forall f, In f (g_fks g) ->
    fk_index_columns f <> [] /\ fk_ref_columns f <> [] /\ fk_not_for_replication f = false }.

(** The export shows the table as it is: primary keys have the name PostgreSQL gives them, other
    indexes do not, and policies are on tables of the schema public. *)
Record exportable (g : pg_tab) : Prop := {
  ex_pk : forall k l, g_pk g = Some (k, l) -> k = pkey_name (g_name g);
  ex_index : forall i, In i (g_indexes g) -> index_name_ok (i_name i);
  ex_policies : g_policies g <> [] -> exported_name (g_name g) = g_name g }.

Record database_ok (c : database pg_tab) : Prop := {
  do_tables : NoDup (map g_name (db_tables c));
  do_views : NoDup (map vw_name (db_views c));
  do_triggers : db_triggers c = [];
  do_sound : forall g, In g (db_tables c) -> sound g;
  do_exportable : forall g, In g (db_tables c) -> exportable g }.

(** ** What a database has of a schema *)
Definition same_as_wanted (s c : column) : Prop :=
  c_type s = wanted_type c /\ c_timezone s = wanted_zone c /\ c_array s = c_array c /\
  c_length s = wanted_length c /\ c_scale s = c_scale c /\ c_collate s = c_collate c.

Definition pg_column_reached (t : table) (s c : column) : Prop :=
  c_name s = c_name c /\ same_as_wanted s c /\
  (c_notnull s = Some true <-> required c \/ in_primary_key t c) /\
  option_map id_behavior (c_identity s) = option_map id_behavior (c_identity c) /\
  default_matches s c /\
  option_map ck_definition (c_check s) = option_map ck_definition (c_check c) /\
  c_check_no_inherit s = c_check_no_inherit c.

Definition pg_fk_same (a b : foreign_key) : Prop :=
  fk_matches Postgres a b /\ fk_index_columns a = fk_index_columns b /\
  fk_ref_name a = fk_ref_name b /\ fk_ref_columns a = fk_ref_columns b.

Definition policy_same (a b : policy) : Prop :=
  same_letters (p_scope a) (p_scope b) /\ same_letters (p_permissive a) (p_permissive b) /\
  same_letters (p_using a) (p_using b) /\ same_letters (p_with_check a) (p_with_check b) /\
  Forall2 same_letters (sort_strings (p_roles a)) (sort_strings (p_roles b)).

(** The index of a UNIQUE column. *)
Definition unique_on (x : string) (g : pg_tab) (k : index) : Prop :=
  In k (g_indexes g) /\ In (i_name k) (g_owned g) /\ i_unique k = true /\ index_columns k = [x].

(** Indexes that are not dropped although the schema does not declare them: a foreign key has
    their name, or they are unique and begin with a UNIQUE column. *)
Definition pg_tolerated (l : list ddl) (t : table) (k : index) : Prop :=
  backs_fk (all_fks l t) (i_name k) \/
  (i_unique k = true /\ exists c ic rest, In c (t_columns t) /\ is_unique (c_key c) = true /\
     i_columns k = ic :: rest /\ c_name c = ic_column ic).

(** Foreign keys are not dropped when some desired column references the same table. *)
Definition fk_tolerated (t : table) (f : foreign_key) : Prop :=
  exists c, In c (t_columns t) /\ c_references c = fk_ref_name f.

Record pg_reached (l : list ddl) (t : table) (g : pg_tab) : Prop := {
  pr_column : forall c, In c (t_columns t) -> exists s, In s (g_columns g) /\ pg_column_reached t s c;
  pr_other_columns : forall s, In s (g_columns g) -> In (c_name s) (map c_name (t_columns t));
  pr_pk : forall k, declares_pk t k ->
    g_pk g = option_map (fun i => (pkey_name (t_name t), key_columns i)) k;
  pr_index : forall i, In i (indexes_on (t_name t) l) ->
    exists k, In k (g_indexes g) /\ i_name k = i_name i /\ index_matches k i;
  pr_other_indexes : forall k, In k (g_indexes g) ->
    In (i_name k) (map i_name (indexes_on (t_name t) l)) \/ pg_tolerated l t k;
  pr_unique : forall c, In c (t_columns t) -> is_unique (c_key c) = true ->
    exists k, unique_on (c_name c) g k;
  pr_fk : forall f, In f (all_fks l t) ->
    exists f', In f' (g_fks g) /\ fk_constraint f' = fk_constraint f /\ pg_fk_same f' f;
  pr_references : forall c, In c (t_columns t) -> c_references c <> "" ->
    exists f, In f (g_fks g) /\ fk_index_columns f = [c_name c] /\ fk_ref_name f = c_references c;
  pr_other_fks : forall f, In f (g_fks g) ->
    In (fk_constraint f) (map fk_constraint (all_fks l t)) \/ fk_tolerated t f;
  pr_policy : forall p, In p (policies_on (t_name t) l) ->
    exists p', In p' (g_policies g) /\ p_name p' = p_name p /\ policy_same p' p;
  pr_other_policies : forall p, In p (g_policies g) ->
    In (p_name p) (map p_name (policies_on (t_name t) l)) }.

Record db_reached (l : list ddl) (c : database pg_tab) : Prop := {
  dr_tables : forall n, In n (map g_name (db_tables c)) <-> In n (created l);
  dr_table : forall t, In t (tables_in l) ->
    exists s, In s (db_tables c) /\ g_name s = t_name t /\ pg_reached l t s;
  dr_views : forall n, In n (map vw_name (db_views c)) <-> In n (map vw_name (views_in l));
  dr_view : forall v, In v (views_in l) ->
    exists v', In v' (db_views c) /\ vw_name v' = vw_name v /\ same_letters (vw_definition v') (vw_definition v) }.

(** ** Differences one run settles *)
Section Settles.
Variable castable : column -> column -> bool.
Variable replaceable : view -> string -> bool.

(** The name the planner gives to the CHECK constraint of a column. *)
Definition planned_check (t : table) (c : column) : string := check_name "public." (t_name t) (c_name c).

(** [t] is desired, [s] is the table of that name in the database. *)
Record pg_settles (l : list ddl) (t : table) (s : pg_tab) : Prop := {
  (* a type is left alone when it is right, and changed when the planner sees the difference and
     ALTER TYPE can make the change *)
  sp_type : forall c cc, In c (t_columns t) -> In cc (g_columns s) -> c_name cc = c_name c ->
    same_as_wanted cc c \/
    (~ data_type_matches Postgres (exported_column s cc) c /\ castable cc c = true /\
     is_serial (wanted_type c) = false /\ is_serial (c_type cc) = false /\
     (c_identity cc <> None -> is_integer (wanted_type c) = true /\ c_array c = false) /\
     c_timezone c = false /\ c_collate c = "");
  (* a column of the old primary key stays NOT NULL *)
  sp_null : forall c, In c (t_columns t) -> in_key s (c_name c) = true -> required c \/ in_primary_key t c;
  (* a column that is serial, or has or gets an identity, is NOT NULL by itself or by the old
     primary key *)
  sp_identity : forall c cc, In c (t_columns t) -> In cc (g_columns s) -> c_name cc = c_name c ->
    c_identity cc <> None \/ c_identity c <> None \/ is_serial (c_type cc) = true -> required c \/ in_key s (c_name c) = true;
  (* an identity does not replace a default *)
  sp_add_identity : forall c cc, In c (t_columns t) -> In cc (g_columns s) -> c_name cc = c_name c ->
    c_identity cc = None -> c_identity c <> None -> c_default cc = None;
  (* a changed CHECK constraint has the name the planner expects, and it needs no quotes *)
  sp_check : forall c cc, In c (t_columns t) -> In cc (g_columns s) -> c_name cc = c_name c ->
    ~ check_matches (exported_column s cc) c ->
    plain (planned_check t c) = true /\ to_lower (planned_check t c) = planned_check t c /\
    planned_check t c = auto_check (t_name t) (c_name c) /\
    (forall d, c_check cc = Some d -> ck_constraint d = planned_check t c) /\
    (forall x, In x (g_columns s) -> c_name x <> c_name c -> has_check (planned_check t c) x = false);
  (* the name of a new CHECK constraint is free *)
  sp_new_check : forall c x, In c (t_columns t) -> ~ In (c_name c) (map c_name (g_columns s)) ->
    c_check c <> None -> In x (g_columns s) -> has_check (auto_check (t_name t) (c_name c)) x = false;
  (* UNIQUE is added only with the column, and the name of its index is free *)
  sp_unique : forall c, In c (t_columns t) -> is_unique (c_key c) = true ->
    In (c_name c) (map c_name (g_columns s)) -> exists k, unique_on (c_name c) s k;
  sp_new_unique : forall c, In c (t_columns t) -> is_unique (c_key c) = true ->
    ~ In (c_name c) (map c_name (g_columns s)) ->
    ~ In (unique_name (t_name t) (c_name c)) (map i_name (g_indexes s)) /\
    ~ In (unique_name (t_name t) (c_name c)) (map i_name (indexes_on (t_name t) l));
  (* an index that has to go is not that of a UNIQUE column, and its table is public *)
  sp_index : forall k, In k (g_indexes s) ->
    (exists i, In i (indexes_on (t_name t) l) /\ i_name i = i_name k /\ index_matches k i) \/
    (~ In (i_name k) (map i_name (indexes_on (t_name t) l)) /\ pg_tolerated l t k) \/
    (is_public (t_name t) = true /\ ~ In (i_name k) (g_owned s));
  (* REFERENCES in a column definition is executed only with CREATE TABLE *)
  sp_references : forall c, In c (t_columns t) -> c_references c <> "" ->
    exists f, In f (g_fks s) /\ fk_index_columns f = [c_name c] /\ fk_ref_name f = c_references c /\
              ~ In (fk_constraint f) (map fk_constraint (t_fks t));
  (* a foreign key with new columns or a new target has a new name, see C20 *)
  sp_fks : forall f cf, In f (t_fks t) -> In cf (g_fks s) -> fk_constraint cf = fk_constraint f ->
    fk_matches Postgres cf f -> pg_fk_same cf f;
  (* ALTER TABLE ... ADD FOREIGN KEY is never executed *)
  sp_added_fks : forall f, In f (fks_on (t_name t) l) ->
    exists cf, In cf (g_fks s) /\ fk_constraint cf = fk_constraint f /\ pg_fk_same cf f;
  (* an obsolete foreign key over several columns is dropped several times *)
  sp_obsolete_fks : forall cf, In cf (g_fks s) -> ~ In (fk_constraint cf) (map fk_constraint (all_fks l t)) ->
    ~ fk_tolerated t cf -> length (fk_index_columns cf) = 1 /\ length (fk_ref_columns cf) = 1;
  (* what the planner takes for the same policy is, see C25 *)
  sp_policies : forall p cp, In p (policies_on (t_name t) l) -> In cp (g_policies s) -> p_name cp = p_name p ->
    policy_matches cp p -> policy_same cp p }.

(** A table the database lacks. *)
Record pg_starts (l : list ddl) (t : table) : Prop := {
  sn_unique : forall c, In c (t_columns t) -> is_unique (c_key c) = true ->
    ~ In (unique_name (t_name t) (c_name c)) (map i_name (indexes_on (t_name t) l));
  sn_fks : fks_on (t_name t) l = [] }.

Record pg_convertible (l : list ddl) (c : database pg_tab) : Prop := {
  cv_kept : forall t s, In t (tables_in l) -> In s (db_tables c) -> g_name s = t_name t -> pg_settles l t s;
  cv_new : forall t, In t (tables_in l) -> ~ In (t_name t) (map g_name (db_tables c)) -> pg_starts l t;
  (* CREATE OR REPLACE VIEW is accepted for every changed view *)
  cv_views : forall v v', In v (views_in l) -> In v' (db_views c) -> vw_name v' = vw_name v ->
    ~ same_letters (vw_definition v') (vw_definition v) -> replaceable v' (vw_definition v) = true }.
End Settles.
