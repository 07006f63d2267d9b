(** What the views of the sys schema tell of a SQL Server database.  [sys_tells s d]: the views [s]
    are those of the database whose tables, views and triggers are [d].  Nothing of the queries of
    sqldef is used. *)
From Coq Require Import String Ascii List ZArith Bool Permutation.
From Verif Require Import GoStr GoStrFacts Catalog ExportMssql QueryMssql SpecShownMssql.
Import ListNotations.
Local Open Scope string_scope.
Local Open Scope list_scope.

(** Identifiers are unique, and so are names within a schema. *)
Record sys_keys (s : sys) : Prop := {
  sq_objects : NoDup (map so_id (sys_objects s));
  sq_names : NoDup (map (fun o => (so_schema o, so_name o)) (sys_objects s));
  sq_columns : NoDup (map (fun c => (sc_object c, sc_id c)) (sys_columns s));
  sq_types : NoDup (map sy_id (sys_types s));
  sq_identities : NoDup (map (fun i => (sd_object i, sd_column i)) (sys_identities s));
  sq_stats : NoDup (map (fun t => (ss_object t, ss_id t)) (sys_stats s));
  sq_modules : NoDup (map fst (sys_modules s)) }.

(** The column [x] of the table [o] is [c]: of the type of that name, with the default object,
    the identity and the one check that are listed for it. *)
Definition tells_column (s : sys) (o : Z) (x : sys_column) (c : ms_column) : Prop :=
  mc_name c = sc_name x /\ mc_max_length c = sc_max_length x /\ mc_nullable c = sc_nullable x /\
  In (mkSysType (sc_user_type x) (mc_type c)) (sys_types s) /\
  match mc_default c with
  | None => sc_default x = 0%Z
  | Some (n, v) => sc_default x <> 0%Z /\ exists ob, In ob (sys_objects s) /\ so_id ob = sc_default x /\ so_name ob = n /\ so_definition ob = Some v
  end /\
  match mc_identity c with
  | None => sc_identity x = false
  | Some i => sc_identity x = true /\ In (mkSysIdentity o (sc_id x) (Some (mi_seed i)) (Some (mi_increment i)) (Some (mi_not_for_replication i))) (sys_identities s)
  end /\
  filter (fun k => Z.eqb (sk_parent k) o && Z.eqb (sk_column k) (sc_id x)) (sys_checks s) =
    match mc_check c with None => [] | Some k => [mkSysCheck (mk_name k) o (sc_id x) (Some (mk_definition k)) (mk_not_for_replication k)] end.

(** The column [id] of the table [o] is called [n]. *)
Definition column_called (s : sys) (o id : Z) (n : string) : Prop :=
  exists x, In x (sys_columns s) /\ sc_object x = o /\ sc_id x = id /\ sc_name x = n.

Definition index_column_rows (s : sys) (o id : Z) : list sys_index_column :=
  filter (fun c => Z.eqb (sxc_object c) o && Z.eqb (sxc_index c) id) (sys_index_columns s).
Definition tells_index (s : sys) (o : Z) (x : sys_index) (r : ms_index_row) : Prop :=
  sx_name x = Some (mir_name r) /\ sx_primary x = mir_primary r /\ sx_unique x = mir_unique r /\ sx_type x = mir_type r /\ sx_padded x = mir_padded r /\
  sx_fill x = mir_fill r /\ sx_ignore_dup x = mir_ignore_dup r /\ sx_row_locks x = mir_row_locks r /\ sx_page_locks x = mir_page_locks r /\
  In (mkSysStat o (sx_id x) (mir_no_recompute r) (mir_incremental r)) (sys_stats s) /\
  Forall2 (fun c k => column_called s o (sxc_column c) (mx_name k) /\ sxc_descending c = mx_descending k /\ sxc_included c = mx_included k)
    (index_column_rows s o (sx_id x)) (mir_columns r).

(** A table without clustered index has a row 0 for its heap, of which nothing else is told. *)
Definition heap_silent (s : sys) (o : Z) : Prop :=
  (forall t, In t (sys_stats s) -> ss_object t = o -> ss_id t <> 0%Z) /\ (forall c, In c (sys_index_columns s) -> sxc_object c = o -> sxc_index c <> 0%Z).

(** One row for each column of a foreign key. *)
Definition tells_fk_row (s : sys) (f : sys_fk) (c : sys_fk_column) (r : ms_fk_row) : Prop :=
  mf_name r = sf_name f /\ mf_on_update r = sf_update f /\ mf_on_delete r = sf_delete f /\ mf_not_for_replication r = sf_not_for_replication f /\
  column_called s (sf_parent f) (sfc_parent_column c) (mf_column r) /\ column_called s (sf_referenced f) (sfc_referenced_column c) (mf_ref_column r) /\
  exists ob, In ob (sys_objects s) /\ so_id ob = sf_referenced f /\ so_name ob = mf_ref_table r.
Definition tells_fks (s : sys) (o : Z) (rows : list ms_fk_row) : Prop :=
  exists groups, Forall2 (fun f g => Forall2 (tells_fk_row s f) (filter (fun c => Z.eqb (sfc_constraint c) (sf_id f)) (sys_fk_columns s)) g)
                   (filter (fun f => Z.eqb (sf_parent f) o) (sys_fks s)) groups /\ rows = concat groups.

Definition tells_table (s : sys) (ob : sys_object) (t : ms_table) : Prop :=
  let o := so_id ob in
  mst_schema t = so_schema ob /\ mst_name t = so_name ob /\
  Forall2 (tells_column s o) (filter (fun x => Z.eqb (sc_object x) o) (sys_columns s)) (mst_columns t) /\
  Forall2 (tells_index s o) (filter (fun x => Z.eqb (sx_object x) o && negb (Z.eqb (sx_id x) 0)) (sys_indexes s)) (mst_indexes t) /\
  NoDup (map mir_name (mst_indexes t)) /\ heap_silent s o /\ tells_fks s o (mst_fks t).
Definition tells_module (s : sys) (id : Z) (text : string) : Prop := In (id, Some text) (sys_modules s).
Record sys_tells (s : sys) (d : ms_server) : Prop := {
  te_keys : sys_keys s;
  te_tables : Forall2 (tells_table s) (filter (fun o => String.eqb (so_type o) "U") (sys_objects s)) (mss_tables d);
  te_views : Forall2 (tells_module s) (sys_views s) (mss_views d);
  te_view_objects : forall id, In id (sys_views s) -> In id (map so_id (sys_objects s));
  te_triggers : Forall2 (tells_module s) (sys_triggers s) (mss_triggers d) }.

(** ** The same database in another order *)
Definition key_permuted (i j : mq_index) : Prop :=
  mqi_name i = mqi_name j /\ mqi_unique i = mqi_unique j /\ mqi_clustered i = mqi_clustered j /\ mqi_options i = mqi_options j /\
  Permutation (mqi_columns i) (mqi_columns j) /\ Permutation (mqi_included i) (mqi_included j).
Definition option_related {A} (R : A -> A -> Prop) (a b : option A) : Prop :=
  match a, b with Some x, Some y => R x y | None, None => True | _, _ => False end.
Definition table_permuted (t u : mq_table) : Prop :=
  mqt_schema t = mqt_schema u /\ mqt_name t = mqt_name u /\ Permutation (mqt_first t :: mqt_columns t) (mqt_first u :: mqt_columns u) /\
  option_related key_permuted (mqt_key t) (mqt_key u) /\ option_related key_permuted (mqt_index t) (mqt_index u) /\ Permutation (mqt_fks t) (mqt_fks u).
Definition database_permuted (d e : mq_database) : Prop :=
  (exists l, Permutation (mqd_tables d) l /\ Forall2 table_permuted l (mqd_tables e)) /\
  Permutation (mqd_views d) (mqd_views e) /\ Permutation (mqd_triggers d) (mqd_triggers e).

(** Every index is on one column and includes one at most. *)
Definition short_key (i : mq_index) : bool :=
  match mqi_others i, mqi_included i with [], [] | [], [_] => true | _, _ => false end.
Definition short_keys (d : mq_database) : bool :=
  forallb (fun t => forallb short_key (listed (mqt_key t) ++ listed (mqt_index t))) (mqd_tables d).
