(** Properties C13-C19, C21, C22, C24, C26-C28, C47, C48: what is planned. *)
From Coq Require Import String Ascii List ZArith Bool.
From Verif Require Import GoStr Ast Generator SpecPlan SpecColumns SpecSql DemoPlan ProofDemo
  ProofTables ProofExact ProofObjects ProofFrame ProofTotal ProofSelf ProofColumns ProofRules ProofTexts.
Import ListNotations.
Local Open Scope string_scope.
Local Open Scope list_scope.

(** C13: a schema whose comparison with itself is meaningful needs nothing.  Missing from the
    full statement: MySQL CHECK clauses and inline primary keys, see the refutations. *)
Theorem C13_self_diff_is_empty_partial m l :
  settled m l -> well_formed l = true -> plan m l l = Ok [].
Proof. exact (plan_self m l). Qed.
Print Assumptions C13_self_diff_is_empty_partial.

Example C13_example : settled Mysql (blog_current "") /\ well_formed (blog_current "") = true.
Proof.
  split; [|vm_compute; reflexivity].
  split; [apply distinct_NoDup; vm_compute; reflexivity|].
  split; [apply distinct_NoDup; vm_compute; reflexivity|].
  intros d Hd. simpl in Hd.
  repeat (destruct Hd as [<-|Hd]); try (now destruct Hd); try exact I;
    try (split; [apply distinct_NoDup|]; reflexivity).
  all: cbn [settled_ddl]; do 4 (split; [apply distinct_NoDup; vm_compute; reflexivity|]); split; [|split].
  all: intros c Hc; simpl in Hc; repeat (destruct Hc as [<-|Hc]); try (now destruct Hc).
  all: try (apply distinct_NoDup; reflexivity); try discriminate.
  all: intros _; repeat split; try reflexivity; discriminate.
Qed.

(** MySQL: a CHECK clause makes every run plan a change. *)
Theorem C13_mysql_check_refuted : exists l,
  well_formed l = true /\ readable l = true /\ NoDup (created l) /\
  texts (plan Mysql l l) = Some ["ALTER TABLE `t` CHANGE COLUMN `a` `a` int CHECK (a > 0)"].
Proof.
  exists [CreateTable "CREATE TABLE t (a int CHECK (a > 0))"
            (mkTable "t" [with_check "a > 0" (col "a" 0 "int")] [] [] [])].
  split; [reflexivity|]. split; [reflexivity|]. split; [apply distinct_NoDup; reflexivity|]. vm_compute. reflexivity.
Qed.
Print Assumptions C13_mysql_check_refuted.

(** MySQL: so does a column declared PRIMARY KEY without NOT NULL. *)
Theorem C13_mysql_inline_primary_key_refuted : exists l,
  well_formed l = true /\ readable l = true /\ NoDup (created l) /\
  texts (plan Mysql l l) = Some ["ALTER TABLE `t` CHANGE COLUMN `a` `a` int NOT NULL"].
Proof.
  exists [CreateTable "CREATE TABLE t (a int PRIMARY KEY)"
            (mkTable "t" [key KeyPrimary (col "a" 0 "int")] [] [] [])].
  split; [reflexivity|]. split; [reflexivity|]. split; [apply distinct_NoDup; reflexivity|]. vm_compute. reflexivity.
Qed.
Print Assumptions C13_mysql_inline_primary_key_refuted.

(** C14 *)
Theorem C14_drop_table_exactly_the_obsolete_tables m desired current out :
  plan m desired current = Ok out ->
  effects dropped_tables out = filter (fun n => negb (mem n (created desired))) (created current).
Proof. exact (dropped_tables_any m desired current out). Qed.
Print Assumptions C14_drop_table_exactly_the_obsolete_tables.

(** ... and that is all that is planned about them, while nothing is planned about other tables. *)
Theorem C14_an_obsolete_table_is_only_dropped m desired current out n :
  NoDup (created desired) -> NoDup (created current) -> plan m desired current = Ok out ->
  In n (created current) -> ~ In n (created desired) ->
  map s_text (table_part n out) = [sentence ["DROP TABLE"; table_ref m n]].
Proof. exact (obsolete_part_text m desired current out n). Qed.
Print Assumptions C14_an_obsolete_table_is_only_dropped.

Theorem C14_an_unknown_table_is_left_alone m desired current out n :
  NoDup (created desired) -> NoDup (created current) -> plan m desired current = Ok out ->
  ~ In n (created current) -> ~ In n (created desired) -> table_part n out = [].
Proof. exact (unknown_part_plan m desired current out n). Qed.
Print Assumptions C14_an_unknown_table_is_left_alone.

Example C14_example :
  plan Mysql (blog_desired "") (blog_current "") = Ok (plan_of Mysql "") /\
  effects dropped_tables (plan_of Mysql "") = ["old"] /\
  map s_text (table_part "public.old" (plan_of Postgres "public.")) = ["DROP TABLE ""public"".""old"""].
Proof. vm_compute. auto. Qed.

(** C15 *)
Theorem C15_drop_column_exactly_the_obsolete_columns m desired current out t ct :
  NoDup (created desired) -> NoDup (created current) -> plan m desired current = Ok out ->
  In t (tables_in desired) -> In ct (schema current) -> t_name ct = t_name t ->
  exists identity_drops,
    contrib (desired_column_drop m ct) (t_columns t) identity_drops /\
    effects (dropped_columns (t_name t)) out =
      identity_drops ++ map c_name (without c_name c_name (t_columns t) (t_columns ct)).
Proof. intros H1 H2 H3 H4 H5 H6. exact (dropped_columns_exact m desired current out H1 H2 H3 t ct H4 H5 H6). Qed.
Print Assumptions C15_drop_column_exactly_the_obsolete_columns.

Theorem C15_drop_column_except_sql_server m desired current out t ct :
  m <> Mssql ->
  NoDup (created desired) -> NoDup (created current) -> plan m desired current = Ok out ->
  In t (tables_in desired) -> In ct (schema current) -> t_name ct = t_name t ->
  effects (dropped_columns (t_name t)) out =
    map c_name (without c_name c_name (t_columns t) (t_columns ct)).
Proof. exact (dropped_columns_not_mssql m desired current out t ct). Qed.
Print Assumptions C15_drop_column_except_sql_server.

Example C15_example : kept_example Mysql "" 0 /\ kept_example Mssql "dbo." 1 /\
  effects (dropped_columns "users") (plan_of Mysql "") = ["nick"] /\
  effects (dropped_columns "dbo.posts") (plan_of Mssql "dbo.") = ["body"].
Proof. split; [blog_example|]. split; [blog_example|]. vm_compute. auto. Qed.

(** C16 *)
Theorem C16_add_column_exactly_the_new_columns m desired current out t ct :
  NoDup (created desired) -> NoDup (created current) -> plan m desired current = Ok out ->
  In t (tables_in desired) -> In ct (schema current) -> t_name ct = t_name t ->
  contrib (desired_column_add m ct) (with_previous None (t_columns t))
          (effects (added_columns (t_name t)) out).
Proof. intros H1 H2 H3 H4 H5 H6. exact (added_columns_exact m desired current out H1 H2 H3 t ct H4 H5 H6). Qed.
Print Assumptions C16_add_column_exactly_the_new_columns.

Theorem C16_add_column_names_except_sql_server m desired current out t ct :
  m <> Mssql ->
  NoDup (created desired) -> NoDup (created current) -> plan m desired current = Ok out ->
  In t (tables_in desired) -> In ct (schema current) -> t_name ct = t_name t ->
  map (fun x => c_name (fst x)) (effects (added_columns (t_name t)) out) =
    map c_name (without c_name c_name (t_columns ct) (t_columns t)).
Proof. exact (added_columns_not_mssql m desired current out t ct). Qed.
Print Assumptions C16_add_column_names_except_sql_server.

Example C16_example : kept_example Mysql "" 0 /\
  map (fun x => (c_name (fst x), snd x)) (effects (added_columns "users") (plan_of Mysql "")) =
    [("email", PosAfter "age")].
Proof. split; [blog_example|]. vm_compute. auto. Qed.

(** C17 *)
Theorem C17_new_objects_use_the_users_text m desired current out :
  NoDup (created desired) -> NoDup (created current) -> plan m desired current = Ok out ->
  contrib (as_written current) desired (effects executed_as_written out).
Proof. intros H1 H2 H3. exact (as_written_exact m desired current out H1 H3 H2). Qed.
Print Assumptions C17_new_objects_use_the_users_text.

Theorem C17_new_table_is_created_by_its_own_statements m desired current out n :
  NoDup (created desired) -> NoDup (created current) -> plan m desired current = Ok out ->
  In n (created desired) -> ~ In n (created current) ->
  map s_text (table_part n out) =
    map ddl_statement
      (filter (fun d => match d with AddForeignKey _ _ _ => false | _ => true end)
              (statements_on n desired)).
Proof. exact (new_part_texts m desired current out n). Qed.
Print Assumptions C17_new_table_is_created_by_its_own_statements.

Example C17_example :
  effects executed_as_written (plan_of Postgres "public.") <> [] /\
  map s_text (table_part "public.tags" (plan_of Postgres "public.")) =
    ["CREATE TABLE tags (id int)"; "CREATE INDEX tag_id ON tags (id)"].
Proof. vm_compute. split; [discriminate|reflexivity]. Qed.

(** C18 *)
Theorem C18_indexes_exactly_as_needed m desired current out t ct :
  NoDup (created desired) -> NoDup (created current) -> plan m desired current = Ok out ->
  In t (tables_in desired) -> In ct (schema current) -> t_name ct = t_name t ->
  exists inline separate cleanup,
    contrib (desired_inline_index m ct) (t_indexes t) inline /\
    contrib (desired_index m ct) (indexes_on (t_name t) desired) separate /\
    contrib (current_index m (full_table desired t)) (t_indexes ct) cleanup /\
    effects (index_ops (t_name t)) out = inline ++ separate ++ cleanup.
Proof. intros H1 H2 H3 H4 H5 H6. exact (index_ops_exact m desired current out H1 H2 H3 t ct H4 H5 H6). Qed.
Print Assumptions C18_indexes_exactly_as_needed.

Example C18_example : kept_example Mysql "" 0 /\ kept_example Mysql "" 1 /\
  map (fun o => match o with Drop n => ("drop", n) | Add i => ("add", i_name i) end)
      (effects (index_ops "users") (plan_of Mysql "")) =
    [("drop", "by_name"); ("add", "by_name"); ("drop", "by_age"); ("add", "by_age")] /\
  effects (index_ops "posts") (plan_of Mysql "") = [Drop "by_body"].
Proof. split; [blog_example|]. split; [blog_example|]. vm_compute. auto. Qed.

(** C19 *)
Theorem C19_foreign_keys_exactly_as_needed m desired current out t ct :
  NoDup (created desired) -> NoDup (created current) -> plan m desired current = Ok out ->
  In t (tables_in desired) -> In ct (schema current) -> t_name ct = t_name t ->
  exists inline cleanup,
    contrib (desired_fk m ct) (t_fks t) inline /\
    contrib (current_fk m (full_table desired t)) (t_fks ct) cleanup /\
    effects (fk_ops (t_name t)) out = inline ++ cleanup.
Proof. intros H1 H2 H3 H4 H5 H6. exact (fk_ops_exact m desired current out H1 H2 H3 t ct H4 H5 H6). Qed.
Print Assumptions C19_foreign_keys_exactly_as_needed.

(** After the drop of an obsolete column or index of a table no foreign key of it is touched. *)
Theorem C19_foreign_keys_before_columns m desired current out t ct x s y c :
  NoDup (created desired) -> NoDup (created current) -> plan m desired current = Ok out ->
  In t (tables_in desired) -> In ct (schema current) -> t_name ct = t_name t ->
  out = x ++ s :: y -> s_eff s = EffDropColumn (t_name t) c -> ~ In c (map c_name (t_columns t)) ->
  effects (fk_ops (t_name t)) y = [].
Proof.
  intros H1 H2 H3 H4 H5 H6. exact (fks_before_columns m desired current out H1 H2 H3 t ct H4 H5 H6 x s y c).
Qed.
Print Assumptions C19_foreign_keys_before_columns.

Theorem C19_foreign_keys_before_indexes m desired current out t ct x s y i :
  NoDup (created desired) -> NoDup (created current) -> plan m desired current = Ok out ->
  In t (tables_in desired) -> In ct (schema current) -> t_name ct = t_name t ->
  out = x ++ s :: y -> s_eff s = EffDropIndex (t_name t) i ->
  ~ In i (map i_name (t_indexes (full_table desired t))) ->
  effects (fk_ops (t_name t)) y = [].
Proof.
  intros H1 H2 H3 H4 H5 H6. exact (fks_before_indexes m desired current out H1 H2 H3 t ct H4 H5 H6 x s y i).
Qed.
Print Assumptions C19_foreign_keys_before_indexes.

Example C19_example : kept_example Mysql "" 1 /\
  map (fun o => match o with Drop n => ("drop", n) | Add f => ("add", fk_constraint f) end)
      (effects (fk_ops "posts") (plan_of Mysql "")) =
    [("drop", "fk_user"); ("add", "fk_user"); ("add", "fk_new"); ("drop", "fk_self")].
Proof. split; [blog_example|]. vm_compute. auto. Qed.

(** C21 *)
Theorem C21_views_exactly_as_needed m desired current out :
  NoDup (created desired) -> plan m desired current = Ok out ->
  exists replaced,
    contrib (desired_view m (views_in current)) (views_in desired) replaced /\
    effects view_ops out = replaced ++
      map (fun v => ViewDrop (vw_name v)) (without vw_name vw_name (views_in desired) (views_in current)).
Proof. exact (view_ops_exact m desired current out). Qed.
Print Assumptions C21_views_exactly_as_needed.

Example C21_example :
  effects view_ops (plan_of SQLite3 "") =
    [ViewDrop "v1"; ViewCreate "v1" "select 10";
     ViewAsWritten (mkView "CREATE VIEW v3 AS select 3" "v3" "select 3"); ViewDrop "v2"].
Proof. reflexivity. Qed.

(** C22 *)
Theorem C22_triggers_exactly_as_needed m desired current out :
  NoDup (created desired) -> plan m desired current = Ok out ->
  contrib (desired_trigger m (triggers_in current)) (triggers_in desired) (effects trigger_ops out).
Proof. exact (trigger_ops_exact m desired current out). Qed.
Print Assumptions C22_triggers_exactly_as_needed.

Example C22_example :
  map (fun o => match o with TriggerDrop n => ("drop", n) | TriggerCreate t => ("create", tr_name t)
                | TriggerAlter t => ("alter", tr_name t) end)
      (effects trigger_ops (plan_of Mysql "")) =
    [("drop", "t1"); ("create", "t1"); ("create", "t3")].
Proof. reflexivity. Qed.

(** C24 *)
Theorem C24_policies_exactly_as_needed m desired current out t ct :
  NoDup (created desired) -> NoDup (created current) -> plan m desired current = Ok out ->
  In t (tables_in desired) -> In ct (schema current) -> t_name ct = t_name t ->
  exists separate,
    contrib (desired_policy ct) (policies_on (t_name t) desired) separate /\
    effects (policy_ops (t_name t)) out = separate ++
      map (fun p => Drop (p_name p))
          (without p_name p_name (t_policies (full_table desired t)) (t_policies ct)).
Proof. intros H1 H2 H3 H4 H5 H6. exact (policy_ops_exact m desired current out H1 H2 H3 t ct H4 H5 H6). Qed.
Print Assumptions C24_policies_exactly_as_needed.

Example C24_example : kept_example Postgres "public." 0 /\
  map (fun o => match o with Drop n => ("drop", n) | Add p => ("add", p_name p) end)
      (effects (policy_ops "public.users") (plan_of Postgres "public.")) =
    [("drop", "own"); ("add", "own"); ("drop", "gone")].
Proof. split; [blog_example|]. vm_compute. auto. Qed.

(** C26: the part of the plan about a table is the plan of the statements about that table. *)
Theorem C26_tables_are_planned_independently m n desired current out :
  NoDup (created desired) -> plan m desired current = Ok out ->
  plan m (statements_on n desired) (statements_on n current) = Ok (table_part n out).
Proof. exact (plan_on n m desired current out). Qed.
Print Assumptions C26_tables_are_planned_independently.

Theorem C26_unrelated_changes_do_not_matter m n desired current out desired' current' out' :
  NoDup (created desired) -> NoDup (created desired') ->
  plan m desired current = Ok out -> plan m desired' current' = Ok out' ->
  statements_on n desired = statements_on n desired' ->
  statements_on n current = statements_on n current' ->
  table_part n out = table_part n out'.
Proof. exact (plan_frame m n desired current out desired' current' out'). Qed.
Print Assumptions C26_unrelated_changes_do_not_matter.

Example C26_example :
  map s_text (table_part "posts" (plan_of Mysql "")) =
  match texts (plan Mysql (statements_on "posts" (blog_desired "")) (statements_on "posts" (blog_current "")))
  with Some l => l | None => [] end /\ table_part "posts" (plan_of Mysql "") <> [].
Proof. vm_compute. split; [reflexivity|discriminate]. Qed.

(** C27 *)
Theorem C27_planning_never_crashes m desired current :
  (forall d, In d desired -> sane_ddl m d) -> (forall d, In d current -> sane_ddl m d) ->
  NoDup (created current) -> returns (plan m desired current).
Proof. exact (plan_returns m desired current). Qed.
Print Assumptions C27_planning_never_crashes.

Example C27_example : (forall d, In d (blog_desired "public.") -> sane_ddl Postgres d) /\
  (forall d, In d (blog_current "public.") -> sane_ddl Postgres d).
Proof.
  split; intros d Hd; simpl in Hd; repeat (destruct Hd as [<-|Hd]); try (now destruct Hd); try exact I; simpl.
  all: try (split; [discriminate|intros o Ho; now destruct Ho]).
  all: split; [|split]; [..|discriminate].
  all: intros c Hc; simpl in Hc; repeat (destruct Hc as [<-|Hc]); try (now destruct Hc); try (split; [discriminate|intros o Ho; now destruct Ho]).
  all: split; [intros x Hx; simpl in Hx; try discriminate; injection Hx as <-; discriminate|discriminate].
Qed.

(** An index option without a value, as the parser returns for USING BTREE, crashes it. *)
Theorem C27_option_without_value_refuted : exists desired current,
  well_formed desired = true /\ readable current = true /\ crashed (plan Mysql desired current) = true.
Proof.
  exists [CreateTable "CREATE TABLE t (a int, KEY k (a) USING BTREE)"
            (mkTable "t" [col "a" 0 "int"]
               [mkIndex "k" "key" [mkIndexColumn "a" None ""] false false "" [] false "" ""
                  [mkIndexOption "using" None]] [] [])],
         [CreateTable "CREATE TABLE t (a int)" (mkTable "t" [col "a" 0 "int"] [] [] [])].
  vm_compute. auto.
Qed.
Print Assumptions C27_option_without_value_refuted.

(** C28 *)
Theorem C28_ill_formed_schemas_are_rejected m desired current :
  NoDup (created desired) ->
  (well_formed desired = false \/
   exists s t f, In (CreateTable s t) desired /\ In f (t_fks t) /\ fk_constraint f = "" /\
                 In (t_name t) (created current)) ->
  forall out, plan m desired current <> Ok out.
Proof. exact (plan_rejected m desired current). Qed.
Print Assumptions C28_ill_formed_schemas_are_rejected.

Theorem C28_rejection_is_an_error_value m desired current :
  (forall d, In d desired -> sane_ddl m d) -> (forall d, In d current -> sane_ddl m d) ->
  NoDup (created desired) -> NoDup (created current) ->
  (well_formed desired = false \/
   exists s t f, In (CreateTable s t) desired /\ In f (t_fks t) /\ fk_constraint f = "" /\
                 In (t_name t) (created current)) ->
  exists e, plan m desired current = Err e.
Proof. exact (plan_rejected_err m desired current). Qed.
Print Assumptions C28_rejection_is_an_error_value.

Example C28_example :
  let twice := blog_desired "" ++ [CreateIndex "CREATE INDEX tag_id ON tags (id)" "tags" (idx "tag_id" false ["id"])] in
  let early := CreateIndex "CREATE INDEX i ON users (id)" "users" (idx "i" false ["id"]) :: blog_desired "" in
  let view2 := blog_desired "" ++ [DView (mkView "CREATE VIEW v3 AS select 4" "v3" "select 4")] in
  map (fun l => (well_formed l, failed (plan Mysql l (blog_current "")))) [twice; early; view2] =
  [(false, true); (false, true); (false, true)].
Proof. vm_compute. reflexivity. Qed.

(** Duplicate triggers and duplicate tables are not rejected. *)
Theorem C28_duplicate_trigger_refuted : exists t desired out,
  desired = [DTrigger t; DTrigger t] /\ plan Mysql desired [] = Ok out /\ length out = 2.
Proof.
  exists (mkTrigger "CREATE TRIGGER t1 ..." "t1" "users" "BEFORE" "INSERT" ["SET NEW.age = 1"]).
  eexists _, _. split; [reflexivity|]. split; [vm_compute; reflexivity|reflexivity].
Qed.
Print Assumptions C28_duplicate_trigger_refuted.

Theorem C28_duplicate_table_refuted : exists t desired out,
  desired = [CreateTable "CREATE TABLE t (a int)" t; CreateTable "CREATE TABLE t (a int)" t] /\
  plan Mysql desired [] = Ok out /\ map s_text out = ["CREATE TABLE t (a int)"].
Proof.
  exists (mkTable "t" [col "a" 0 "int"] [] [] []).
  eexists _, _. split; [reflexivity|]. split; [vm_compute; reflexivity|reflexivity].
Qed.
Print Assumptions C28_duplicate_table_refuted.

(** C47 *)
Theorem C47_columns_changed_exactly_as_needed m desired current out t ct :
  NoDup (created desired) -> NoDup (created current) -> plan m desired current = Ok out ->
  In t (tables_in desired) -> In ct (schema current) -> t_name ct = t_name t ->
  exists changes removals additions,
    contrib (desired_column m ct t) (with_previous None (t_columns t)) changes /\
    contrib (loses_autoinc m t) (t_columns ct) removals /\
    contrib (gains_autoinc m ct) (t_columns t) additions /\
    effects (column_ops (t_name t)) out = changes ++ removals ++ additions ++
      flat_map (fun c => column_cleanup m ct (c_name c))
               (without c_name c_name (t_columns t) (t_columns ct)).
Proof. intros H1 H2 H3 H4 H5 H6. exact (column_ops_exact m desired current out H1 H2 H3 t ct H4 H5 H6). Qed.
Print Assumptions C47_columns_changed_exactly_as_needed.

Example C47_example : kept_example Postgres "public." 0 /\
  map fst (effects (column_ops "public.users") (plan_of Postgres "public.")) = ["name"; "age"].
Proof. split; [blog_example|]. vm_compute. auto. Qed.

(** C48 *)
Theorem C48_primary_key_exactly_as_needed m desired current out t ct cur des :
  NoDup (created desired) -> NoDup (created current) -> plan m desired current = Ok out ->
  In t (tables_in desired) -> In ct (schema current) -> t_name ct = t_name t ->
  declares_pk ct cur -> declares_pk t des ->
  exists change cleanup,
    pk_change m cur des change /\
    contrib (pk_cleanup m (full_table desired t)) (t_indexes ct) cleanup /\
    effects (pk_ops (t_name t)) out = change ++ cleanup.
Proof. intros H1 H2 H3 H4 H5 H6. exact (pk_ops_exact m desired current out H1 H2 H3 t ct H4 H5 H6 cur des). Qed.
Print Assumptions C48_primary_key_exactly_as_needed.

Example C48_example : kept_example Mysql "" 1 /\
  declares_pk (nth_table 1 (blog_current "")) (Some (pk ["id"])) /\
  declares_pk (nth_created 1 (blog_desired "")) (Some (pk ["id"; "user_id"])) /\
  effects (pk_ops "posts") (plan_of Mysql "") = [PkDrop; PkAdd (pk ["id"; "user_id"])].
Proof.
  split; [blog_example|]. split; [|split; [|reflexivity]].
  - left. exists []. eexists _, _. vm_compute. auto.
  - left. exists []. eexists _, _. vm_compute. auto.
Qed.
