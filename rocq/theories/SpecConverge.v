(** Specification of convergence on MySQL: which desired schemas and catalogues are meant,
    which differences one run settles, and what it means that a catalogue has a schema.
    Only the syntax trees of [Ast], the comparison predicates of [SpecPlan] and [SpecColumns]
    and the ideal database of [SpecMysql] are used. *)
From Coq Require Import String Ascii List ZArith Bool SpecFloat.
From Verif Require Import GoStr Ast Generator SpecPlan SpecColumns SpecOrder SpecMysql.
Import ListNotations.
Local Open Scope string_scope.
Local Open Scope list_scope.

(** ** Desired schemas *)

(** All keys a schema declares for a table: PRIMARY KEY and UNIQUE columns, keys of the CREATE
    TABLE, separate CREATE INDEX and ALTER TABLE ADD INDEX statements. *)
Definition all_keys (l : list ddl) (t : table) : list index :=
  t_indexes (created_table t) ++ indexes_on (t_name t) l.

Definition says_not_null (c : column) : Prop := c_notnull c = Some true \/ c_key c = KeyPrimary.

(** No CHECK and no identity; only ENUM types have members; NaN is not a literal. *)
Definition mysql_definition (c : column) : Prop :=
  c_check c = None /\ c_identity c = None /\
  (c_enum c <> [] -> c_type c = "enum" /\ c_length c = None) /\
  (forall v, c_onupdate c = Some v -> v_float v <> S754_nan).

Definition mysql_key (i : index) : Prop :=
  NoDup (map io_name (i_options i)) /\ (i_primary i = true <-> i_name i = "PRIMARY").

(** ALTER TABLE ADD INDEX can say all of it: at most one option. *)
Definition short_key (i : index) : Prop :=
  i_where i = "" /\ i_included i = [] /\ length (i_options i) <= 1 /\
  forall c, In c (i_columns i) -> In (ic_direction c) [""; "asc"; "desc"].

Record mysql_table (l : list ddl) (t : table) : Prop := {
  mt_names : NoDup (names t);
  mt_keys : NoDup (map i_name (all_keys l t));
  mt_numbered : numbered t;
  mt_fks : NoDup (map fk_constraint (t_fks t));
  mt_fk_names : forall f, In f (t_fks t) -> fk_constraint f <> "";
  mt_policies : t_policies t = [];
  mt_columns : forall c, In c (t_columns t) -> mysql_definition c;
  mt_key : forall i, In i (all_keys l t) -> mysql_key i;
  mt_key_columns : forall i x, In i (all_keys l t) -> In x (key_columns i) -> In x (names t);
  mt_inline : forall i, In i (t_indexes t) -> short_key i;
  mt_separate : forall i, In i (indexes_on (t_name t) l) -> i_primary i = false;
  mt_primary : forall c, In c (t_columns t) -> in_pk t (c_name c) = true -> c_notnull c = Some true;
  mt_integrity : integrity (created_table t) = true }.

(** Only tables, their indexes, views and triggers. *)
Definition mysql_statement (d : ddl) : Prop :=
  match d with AddForeignKey _ _ _ | AddPrimaryKey _ _ _ | AddPolicy _ _ _ => False | _ => True end.

Record mysql_schema (l : list ddl) : Prop := {
  ms_well_formed : well_formed l = true;
  ms_statements : forall d, In d l -> mysql_statement d;
  ms_created : NoDup (created l);
  ms_triggers : NoDup (map tr_name (triggers_in l));
  ms_tables : forall t, In t (tables_in l) -> mysql_table l t }.

(** ** Catalogues *)
Record catalogue_table (t : table) : Prop := {
  ct_names : NoDup (names t);
  ct_keys : NoDup (map i_name (t_indexes t));
  ct_fks : NoDup (map fk_constraint (t_fks t));
  ct_policies : t_policies t = [];
  ct_integrity : integrity t = true;
  ct_columns : forall c, In c (t_columns t) ->
    c_key c = KeyNone /\ c_position c = 0%Z /\ (c_enum c <> [] -> c_type c = "enum" /\ c_length c = None);
  ct_primary_name : forall i, In i (t_indexes t) -> (i_primary i = true <-> i_name i = "PRIMARY");
  ct_primary : forall c, In c (t_columns t) -> in_pk t (c_name c) = true -> c_notnull c = Some true }.

Record catalogue_ok (c : catalogue) : Prop := {
  co_tables : NoDup (map t_name (cat_tables c));
  co_views : NoDup (map vw_name (cat_views c));
  co_triggers : NoDup (map tr_name (cat_triggers c));
  co_table : forall t, In t (cat_tables c) -> catalogue_table t }.

(** ** What a catalogue has of a schema *)
Definition column_reached (s c : column) : Prop :=
  c_name s = c_name c /\ definition_matches s c /\ default_matches s c /\ c_autoinc s = c_autoinc c.

Definition fk_same (a b : foreign_key) : Prop :=
  fk_matches Mysql a b /\ fk_index_columns a = fk_index_columns b /\
  fk_ref_name a = fk_ref_name b /\ fk_ref_columns a = fk_ref_columns b.

(** Keys other than the primary key that are not dropped although the schema does not declare them: a foreign key gives
    them its name, or they are unique and begin with a UNIQUE column. *)
Definition key_tolerated (t : table) (k : index) : Prop :=
  i_primary k = false /\
  (backs_fk (t_fks t) (i_name k) \/
   (i_unique k = true /\ exists c ic rest, In c (t_columns t) /\ is_unique (c_key c) = true /\
      i_columns k = ic :: rest /\ c_name c = ic_column ic)).

Record table_reached (l : list ddl) (t s : table) : Prop := {
  tr_columns : Forall2 column_reached (t_columns s) (t_columns t);
  tr_keys : forall i, In i (all_keys l t) ->
    exists k, In k (t_indexes s) /\ i_name k = i_name i /\ index_matches k i;
  tr_other_keys : forall k, In k (t_indexes s) ->
    In (i_name k) (map i_name (all_keys l t)) \/ key_tolerated t k;
  tr_fks : forall f, In f (t_fks t) ->
    exists f', In f' (t_fks s) /\ fk_constraint f' = fk_constraint f /\ fk_same f' f;
  tr_other_fks : forall f, In f (t_fks s) -> In (fk_constraint f) (map fk_constraint (t_fks t)) }.

Record reached (l : list ddl) (c : catalogue) : Prop := {
  re_tables : forall n, In n (map t_name (cat_tables c)) <-> In n (created l);
  re_table : forall t, In t (tables_in l) ->
    exists s, In s (cat_tables c) /\ t_name s = t_name t /\ table_reached l t s;
  re_views : forall n, In n (map vw_name (cat_views c)) <-> In n (map vw_name (views_in l));
  re_view : forall v, In v (views_in l) ->
    exists v', In v' (cat_views c) /\ vw_name v' = vw_name v /\ same_letters (vw_definition v') (vw_definition v);
  re_triggers : forall n, In n (map tr_name (cat_triggers c)) <-> In n (map tr_name (triggers_in l));
  re_trigger : forall t, In t (triggers_in l) ->
    exists t', In t' (cat_triggers c) /\ tr_name t' = tr_name t /\ trigger_matches t' t }.

(** ** Differences one run settles *)

(** [t] is desired, [s] is the table of that name in the catalogue. *)
Record settles (l : list ddl) (t s : table) : Prop := {
  (* the kept columns are in the right relative order, see C31 *)
  se_order : same_relative_order (names s) (names t);
  (* a column that loses AUTO_INCREMENT changes in nothing else *)
  se_loses : forall c cc, In c (t_columns t) -> In cc (t_columns s) -> c_name cc = c_name c ->
    c_autoinc cc = true -> c_autoinc c = false -> definition_matches cc c /\ default_matches cc c;
  (* a column that keeps AUTO_INCREMENT keeps a key beginning with it *)
  se_keeps : forall c cc, In c (t_columns t) -> In cc (t_columns s) -> c_name cc = c_name c ->
    c_autoinc cc = true -> c_autoinc c = true ->
    exists k i rest, In k (t_indexes s) /\ key_columns k = c_name c :: rest /\
      In i (all_keys l t) /\ i_name i = i_name k /\ index_matches k i;
  (* a key named like a UNIQUE column is the key of that column *)
  se_unique : forall c k, In c (t_columns t) -> is_unique (c_key c) = true -> In k (t_indexes s) ->
    i_name k = c_name c -> In (c_name c) (names s) /\ index_matches k (unique_index (c_name c));
  (* keys that stay undeclared are on columns that stay *)
  se_tolerated : forall k x, In k (t_indexes s) -> ~ In (i_name k) (map i_name (all_keys l t)) ->
    key_tolerated t k -> In x (key_columns k) -> In x (names t);
  (* a column of the old primary key stays NOT NULL *)
  se_primary : forall c, In c (t_columns t) -> in_pk s (c_name c) = true -> says_not_null c;
  (* a foreign key with new columns or a new target has a new name, see C20 *)
  se_fks : forall f cf, In f (t_fks t) -> In cf (t_fks s) -> fk_constraint cf = fk_constraint f ->
    fk_matches Mysql cf f -> fk_same cf f }.

Definition convertible (l : list ddl) (c : catalogue) : Prop :=
  (forall t s, In t (tables_in l) -> In s (cat_tables c) -> t_name s = t_name t -> settles l t s) /\
  (* obsolete triggers are never dropped, see C23 *)
  (forall n, In n (map tr_name (cat_triggers c)) -> In n (map tr_name (triggers_in l))).
