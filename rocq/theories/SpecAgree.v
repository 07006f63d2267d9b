(** When two databases agree in what a schema file says.  Everything the file says of an object is the same on
    both sides; what it leaves out (a character set, an option of an index, a length) may differ.  Only the
    syntax trees of [Ast] and the ideal databases are used; nothing is said of how the file was applied. *)
From Coq Require Import String Ascii List ZArith Bool.
From Verif Require Import GoStr Ast Generator Catalog SpecPlan SpecColumns SpecOrder SpecMysql SpecDatabase SpecPostgres SpecMssql
  SpecConverge SpecConvergePg SpecConvergeMs SpecSqlite.
Import ListNotations.
Local Open Scope string_scope.
Local Open Scope list_scope.

(** ** Parts *)

(** Two values for which the file says [d]: none if it says none; else the same text, or, for a float, two
    texts that begin with it. *)
Definition value_said (d x y : option value) : Prop :=
  match d with
  | None => x = None /\ y = None
  | Some v => exists a b, x = Some a /\ y = Some b /\
      (v_type v <> VFloat -> v_raw a = v_raw b) /\
      (exists s, v_raw a = (v_raw v ++ s)%string) /\ (exists s, v_raw b = (v_raw v ++ s)%string)
  end.

Definition default_said (c a b : column) : Prop :=
  value_said (real_default (c_default c)) (real_default (c_default a)) (real_default (c_default b)).

(** Ascending is the same with or without the word. *)
Definition key_part (a b : index_column) : Prop :=
  ic_column a = ic_column b /\ (ic_direction a = ic_direction b \/ incl [ic_direction a; ic_direction b] [""; "asc"]).

(** Two keys for which the file says [i]. *)
Record key_said (i a b : index) : Prop := {
  ks_unique : i_unique a = i_unique b;
  ks_primary : i_primary a = i_primary b;
  ks_columns : Forall2 key_part (i_columns a) (i_columns b);
  ks_where : i_where a = i_where b;
  ks_included : i_included a = i_included b;
  ks_options : forall o, In o (i_options i) -> exists x y, In x (i_options a) /\ In y (i_options b) /\
    io_name x = io_name o /\ io_name y = io_name o /\ value_said (io_value o) (io_value x) (io_value y) }.

(** Among [la] and [lb] there are keys with the name of [i], and they agree. *)
Definition both_keys (i : index) (la lb : list index) : Prop :=
  exists a b, In a la /\ In b lb /\ i_name a = i_name i /\ i_name b = i_name i /\ key_said i a b.

(** No clause is NO ACTION, but not for MySQL. *)
Definition same_action (m : mode) (a b : string) : Prop :=
  a = b \/ (m <> Mysql /\ incl [a; b] [""; "NO ACTION"]).

Definition both_fks (m : mode) (f : foreign_key) (la lb : list foreign_key) : Prop :=
  exists a b, In a la /\ In b lb /\ fk_constraint a = fk_constraint f /\ fk_constraint b = fk_constraint f /\
    fk_index_columns a = fk_index_columns b /\ fk_ref_name a = fk_ref_name b /\ fk_ref_columns a = fk_ref_columns b /\
    same_action m (fk_on_update a) (fk_on_update b) /\ same_action m (fk_on_delete a) (fk_on_delete b) /\
    fk_not_for_replication a = fk_not_for_replication b.

(** The same names; under each the same definition, up to letter case. *)
Definition same_views (la lb : list view) : Prop :=
  (forall n, In n (map vw_name la) <-> In n (map vw_name lb)) /\
  forall n, In n (map vw_name la) -> exists a b, In a la /\ In b lb /\ vw_name a = n /\ vw_name b = n /\
    to_lower (vw_definition a) = to_lower (vw_definition b).

Definition same_triggers (la lb : list trigger) : Prop :=
  (forall n, In n (map tr_name la) <-> In n (map tr_name lb)) /\
  forall n, In n (map tr_name la) -> exists a b, In a la /\ In b lb /\ tr_name a = n /\ tr_name b = n /\
    tr_time a = tr_time b /\ tr_event a = tr_event b /\ tr_table a = tr_table b /\
    Forall2 (fun x y => to_lower (remove_char " " x) = to_lower (remove_char " " y)) (tr_body a) (tr_body b).

(** ** MySQL *)

(** Two columns for which the file says [c]. *)
Record column_said (c a b : column) : Prop := {
  cs_name : c_name a = c_name b;
  cs_type : same_type Mysql (c_type a) (c_type b);
  cs_enum : c_enum a = c_enum b;
  cs_unsigned : c_unsigned a = c_unsigned b;
  cs_notnull : c_notnull a = Some true <-> c_notnull b = Some true;
  cs_autoinc : c_autoinc a = c_autoinc b;
  cs_onupdate : option_map v_raw (c_onupdate a) = option_map v_raw (c_onupdate b);
  cs_default : default_said c a b;
  cs_length : c_length c <> None -> forall x y, c_length a = Some x -> c_length b = Some y -> v_int x = v_int y;
  cs_charset : c_charset c <> "" -> c_charset a = c_charset b;
  cs_collate : c_collate c <> "" -> c_collate a = c_collate b }.

Inductive columns_said : list column -> list column -> list column -> Prop :=
| cs_nil : columns_said [] [] []
| cs_cons c a b lc la lb : column_said c a b -> columns_said lc la lb -> columns_said (c :: lc) (a :: la) (b :: lb).

(** Two tables for which the file says [t]: the columns in the same order, every key and foreign key of the
    file; another key is one that is tolerated (C18, C29), and there is no other foreign key. *)
Record table_said (l : list ddl) (t a b : table) : Prop := {
  td_columns : columns_said (t_columns t) (t_columns a) (t_columns b);
  td_names : names a = names b;
  td_keys : forall i, In i (all_keys l t) -> both_keys i (t_indexes a) (t_indexes b);
  td_other_keys : forall k, In k (t_indexes a ++ t_indexes b) -> In (i_name k) (map i_name (all_keys l t)) \/ key_tolerated t k;
  td_fks : forall f, In f (t_fks t) -> both_fks Mysql f (t_fks a) (t_fks b);
  td_fk_names : forall n, In n (map fk_constraint (t_fks a)) <-> In n (map fk_constraint (t_fks b)) }.

Record my_agree (l : list ddl) (a b : catalogue) : Prop := {
  ag_tables : forall n, In n (map t_name (cat_tables a)) <-> In n (map t_name (cat_tables b));
  ag_table : forall x, In x (cat_tables a) -> exists y t, In y (cat_tables b) /\ In t (tables_in l) /\
    t_name x = t_name t /\ t_name y = t_name t /\ table_said l t x y;
  ag_views : same_views (cat_views a) (cat_views b);
  ag_triggers : same_triggers (cat_triggers a) (cat_triggers b) }.

(** ** PostgreSQL *)
Record pg_column_said (c a b : column) : Prop := {
  gs_name : c_name a = c_name b;
  gs_type : c_type a = c_type b;
  gs_zone : c_timezone a = c_timezone b;
  gs_array : c_array a = c_array b;
  gs_length : c_length a = c_length b;
  gs_scale : c_scale a = c_scale b;
  gs_collate : c_collate a = c_collate b;
  gs_notnull : c_notnull a = Some true <-> c_notnull b = Some true;
  gs_identity : option_map id_behavior (c_identity a) = option_map id_behavior (c_identity b);
  gs_default : default_said c a b;
  gs_check : option_map ck_definition (c_check a) = option_map ck_definition (c_check b);
  gs_inherit : c_check_no_inherit a = c_check_no_inherit b }.

Definition same_policy (a b : policy) : Prop :=
  to_lower (p_scope a) = to_lower (p_scope b) /\ to_lower (p_permissive a) = to_lower (p_permissive b) /\
  to_lower (p_using a) = to_lower (p_using b) /\ to_lower (p_with_check a) = to_lower (p_with_check b) /\
  map to_lower (sort_strings (p_roles a)) = map to_lower (sort_strings (p_roles b)).

(** Columns are in any order: new ones come last. *)
Record pg_table_said (l : list ddl) (t : table) (a b : pg_tab) : Prop := {
  gt_names : forall n, In n (map c_name (g_columns a)) <-> In n (map c_name (g_columns b));
  gt_columns : forall x, In x (g_columns a) -> exists y c, In y (g_columns b) /\ In c (t_columns t) /\
    c_name x = c_name c /\ pg_column_said c x y;
  gt_key : g_pk a = g_pk b;
  gt_indexes : forall i, In i (indexes_on (t_name t) l) -> both_keys i (g_indexes a) (g_indexes b);
  gt_other_indexes : forall k, In k (g_indexes a ++ g_indexes b) ->
    In (i_name k) (map i_name (indexes_on (t_name t) l)) \/ pg_tolerated l t k;
  gt_fks : forall f, In f (all_fks l t) -> both_fks Postgres f (g_fks a) (g_fks b);
  gt_other_fks : forall f, In f (g_fks a ++ g_fks b) -> In (fk_constraint f) (map fk_constraint (all_fks l t)) \/ fk_tolerated t f;
  gt_policy_names : forall n, In n (map p_name (g_policies a)) <-> In n (map p_name (g_policies b));
  gt_policies : forall x, In x (g_policies a) -> exists y, In y (g_policies b) /\ p_name y = p_name x /\ same_policy x y }.

Record pg_agree (l : list ddl) (a b : database pg_tab) : Prop := {
  pa_tables : forall n, In n (map g_name (db_tables a)) <-> In n (map g_name (db_tables b));
  pa_table : forall x, In x (db_tables a) -> exists y t, In y (db_tables b) /\ In t (tables_in l) /\
    g_name x = t_name t /\ g_name y = t_name t /\ pg_table_said l t x y;
  pa_views : same_views (db_views a) (db_views b) }.

(** ** SQL Server *)
Record ms_column_said (c a b : column) : Prop := {
  os_name : c_name a = c_name b;
  os_type : c_type a = c_type b;
  os_length : option_map v_raw (c_length a) = option_map v_raw (c_length b);
  os_scale : option_map v_raw (c_scale a) = option_map v_raw (c_scale b);
  os_notnull : c_notnull a = Some true <-> c_notnull b = Some true;
  os_identity : option_map id_not_for_replication (c_identity a) = option_map id_not_for_replication (c_identity b);
  os_start : option_map sq_start_with (c_sequence a) = option_map sq_start_with (c_sequence b);
  os_increment : option_map sq_increment_by (c_sequence a) = option_map sq_increment_by (c_sequence b);
  os_default : default_said c a b;
  os_check : option_map ck_definition (c_check a) = option_map ck_definition (c_check b);
  os_check_replication : option_map ck_not_for_replication (c_check a) = option_map ck_not_for_replication (c_check b) }.

Record ms_table_said (l : list ddl) (t : table) (a b : ms_tab) : Prop := {
  ot_names : forall n, In n (map c_name (m_columns a)) <-> In n (map c_name (m_columns b));
  ot_columns : forall x, In x (m_columns a) -> exists y c, In y (m_columns b) /\ In c (t_columns t) /\
    c_name x = c_name c /\ ms_column_said c x y;
  ot_key : m_key a = None /\ m_key b = None \/
    exists i x y, m_key a = Some x /\ m_key b = Some y /\ declares_pk t (Some i) /\ key_said i x y;
  ot_indexes : forall i, In i (ms_indexes l t) -> both_keys i (m_indexes a) (m_indexes b);
  ot_index_names : forall n, In n (map i_name (m_indexes a)) <-> In n (map i_name (m_indexes b));
  ot_fks : forall f, In f (t_fks t) -> both_fks Mssql f (m_fks a) (m_fks b);
  ot_fk_names : forall n, In n (map fk_constraint (m_fks a)) <-> In n (map fk_constraint (m_fks b)) }.

Record ms_agree (l : list ddl) (a b : database ms_tab) : Prop := {
  oa_tables : forall n, In n (map m_name (db_tables a)) <-> In n (map m_name (db_tables b));
  oa_table : forall x, In x (db_tables a) -> exists y t, In y (db_tables b) /\ In t (tables_in l) /\
    m_name x = t_name t /\ m_name y = t_name t /\ ms_table_said l t x y;
  oa_views : same_views (db_views a) (db_views b);
  oa_triggers : same_triggers (db_triggers a) (db_triggers b) }.

(** ** SQLite *)

(** The same objects, read as the same tables and, up to letter case, the same views. *)
Definition lite_agree (a b : list lite_row) : Prop :=
  (forall n t, holds a n (LTable t) <-> holds b n (LTable t)) /\
  (forall n, (exists d, holds a n (LView d)) <-> (exists d, holds b n (LView d))) /\
  (forall n x y, holds a n (LView x) -> holds b n (LView y) -> to_lower x = to_lower y).
