(** A test for plannable pairs of schemas; runs of the command that are not refused (C98). *)
From Coq Require Import String Ascii List ZArith Bool.
From Verif Require Import GoStr GoStrFacts Ast Generator SchemaText SchemaParse Parser Planner Catalog CatalogMysql AdapterPostgres AdapterSqlite AdapterMysql AdapterMssql ExportMssql
  SpecPlan SpecLayout SpecMysql SpecDatabase SpecPostgres SpecMssql SpecShown SpecShownMysql SpecShownMssql SpecConverge SpecConvergePg SpecConvergeMs SpecPlannable
  Runner SpecRunner SpecTwoRuns ProofPlan ProofPg ProofPgCheck ProofMsCheck ProofPlannable ProofTwoRuns ProofTwoRunsAll ProofNoop ProofPgSettle ProofMsSettle ProofReadExport ProofEndToEnd ProofMyEndToEnd ProofMsEndToEnd ProofMsTexts.
Import ListNotations.
Local Open Scope string_scope.
Local Open Scope list_scope.

(** ** The test *)
Definition sane_column_b (m : mode) (c : column) : bool :=
  all_of (fun d => is_some (df_value d)) (c_default c) &&
  match m with Mssql => all_of (fun s => is_some (sq_start_with s) && is_some (sq_increment_by s) && is_some (c_identity c)) (c_sequence c) | _ => true end.
Lemma some_ok {A} (o : option A) : is_some o = true -> o <> None.
Proof. now destruct o. Qed.
Lemma sane_column_b_ok m c : sane_column_b m c = true -> sane_column m c.
Proof.
  unfold sane_column_b. intros H. apply andb_prop in H as [A B]. split.
  - intros d D. apply some_ok. exact (all_of_ok _ _ A d D).
  - intros -> s S. pose proof (all_of_ok _ _ B s S) as H. rewrite !andb_true_iff in H. destruct H as ((H1 & H2) & H3). repeat split; now apply some_ok.
Qed.
Definition sane_index_b (i : index) : bool := negb (Nat.eqb (length (i_columns i)) 0) && forallb (fun o => is_some (io_value o)) (i_options i).
Lemma sane_index_b_ok i : sane_index_b i = true -> sane_index i.
Proof.
  unfold sane_index_b. rewrite andb_true_iff, forallb_forall. intros [A B]. split; [now apply nat_not_nil|]. intros o O. apply some_ok. auto.
Qed.
Definition sane_ddl_b (m : mode) (d : ddl) : bool :=
  match d with
  | CreateTable _ t => forallb (sane_column_b m) (t_columns t) && forallb sane_index_b (t_indexes t) &&
                       match m with Postgres => is_some (split_first "." (t_name t)) | _ => true end
  | CreateIndex _ _ i | AddIndex _ _ i | AddPrimaryKey _ _ i => sane_index_b i
  | _ => true
  end.
Lemma sane_ddl_b_ok m d : sane_ddl_b m d = true -> sane_ddl m d.
Proof.
  destruct d; cbn [sane_ddl_b sane_ddl]; try exact (fun _ => I); try apply sane_index_b_ok.
  rewrite !andb_true_iff, !forallb_forall. intros ((A & B) & C). split; [|split].
  - intros c H. apply sane_column_b_ok. auto.
  - intros i H. apply sane_index_b_ok. auto.
  - intros ->. now apply some_ok.
Qed.
Definition writable_b (c : column) : bool :=
  all_of (fun d => all_of (fun v => match v_type v with VStr | VInt | VFloat | VBit | VValArg => true | _ => false end) (df_value d)) (c_default c) &&
  match c_key c with KeySpatial | KeyKey => false | _ => true end.
Lemma writable_b_ok c : writable_b c = true -> writable c.
Proof.
  unfold writable_b. intros H. apply andb_prop in H as [A B]. split; [|split; intros E; rewrite E in B; discriminate].
  intros d v D V. pose proof (all_of_ok _ _ (all_of_ok _ _ A d D) v V) as H. cbv beta in H. destruct (v_type v); try discriminate; simpl; tauto.
Qed.
Definition changeable_b (m : mode) (desired current : list ddl) (t s : table) : bool :=
  forallb writable_b (t_columns t) && (match m with Mysql => forallb writable_b (t_columns s) | _ => true end) &&
  forallb (fun f => negb (String.eqb (fk_constraint f) "")) (t_fks t) &&
  forallb (fun i => negb (i_primary i) || mem (i_name i) (map i_name (t_indexes t ++ indexes_on (t_name t) desired)) ||
    forallb (fun c => negb (is_key_primary (c_key c)) || match i_columns i with ic :: _ => String.eqb (ic_column ic) (c_name c) | [] => false end) (t_columns t))
    (t_indexes s ++ indexes_on (t_name s) current).
Lemma changeable_b_ok m desired current t s : changeable_b m desired current t s = true -> changeable m desired current t s.
Proof.
  unfold changeable_b. rewrite !andb_true_iff. intros (((A & B) & C) & D). constructor.
  - rewrite forallb_forall in A. intros c H. apply writable_b_ok. auto.
  - intros -> c H. rewrite forallb_forall in B. apply writable_b_ok. auto.
  - rewrite forallb_forall in C. intros f F E. specialize (C f F). rewrite E in C. discriminate.
  - rewrite forallb_forall in D. intros i c I P H K. specialize (D i I). rewrite P in D. cbn [negb orb] in D. apply orb_prop in D as [D|D].
    + left. now apply mem_spec.
    + right. right. rewrite forallb_forall in D. specialize (D c H). rewrite K in D. cbn [is_key_primary negb orb] in D.
      destruct (i_columns i) as [|ic rest]; [discriminate|]. apply String.eqb_eq in D. eauto.
Qed.
Definition plannable_b (m : mode) (desired current : list ddl) : bool :=
  forallb (sane_ddl_b m) desired && forallb (sane_ddl_b m) current && distinct (created desired) && distinct (created current) &&
  well_formed desired && readable current &&
  forallb (fun t => forallb (fun s => negb (String.eqb (t_name s) (t_name t)) || changeable_b m desired current t s) (tables_in current)) (tables_in desired).
Theorem plannable_b_ok m desired current : plannable_b m desired current = true -> plannable m desired current.
Proof.
  unfold plannable_b. rewrite !andb_true_iff, !distinct_spec. intros ((((((A & B) & C) & D) & E) & F) & G). constructor; auto.
  - rewrite forallb_forall in A. intros d H. apply sane_ddl_b_ok. auto.
  - rewrite forallb_forall in B. intros d H. apply sane_ddl_b_ok. auto.
  - intros t s T S N. rewrite forallb_forall in G. specialize (G t T). rewrite forallb_forall in G. specialize (G s S).
    rewrite N, String.eqb_refl in G. now apply changeable_b_ok.
Qed.

(** ** Runs *)
Section Runs.
Lemma run_reaches {S} (step : string -> S -> option S) w s0 m file desired current texts (Q : S -> Prop) :
  answers w file desired current -> serves step w s0 -> plan_text m desired current = Ok texts ->
  (exists s, steps step texts s0 = Some s /\ Q s) -> exists s, applied step (command w m file) s0 s /\ Q s.
Proof.
  intros A V G (s & E & H). exists s. split; [|exact H]. exact (proj1 (run_applies step w s0 (parse_ddl parse_strict_ddl) m file desired current texts s A V G E)).
Qed.

Lemma my_run step w file d s current desired l :
  my_readable d = true -> my_shows d s -> my_dump s = Some current -> catalogue_ok (my_ideal d) ->
  parse_file Mysql desired = Ok l -> mysql_schema l -> convertible l (my_ideal d) -> plannable Mysql l (dump (my_ideal d)) ->
  answers w file desired current -> serves step w (my_ideal d) ->
  (forall out, plan Mysql l (dump (my_ideal d)) = Ok out -> does step (fun st => SpecMysql.run (s_eff st)) out) ->
  exists c, applied step (command w Mysql file) (my_ideal d) c /\ reached l c /\ catalogue_ok c.
Proof.
  intros R H D O P M V N A Z U. destruct (plannable_planned _ _ _ N) as (out & F).
  apply (run_reaches step w (my_ideal d) Mysql file desired current (map s_text out) (fun c => reached l c /\ catalogue_ok c) A Z).
  - apply (my_plan_from_texts d s current R H D desired l _ P). eauto.
  - destruct (converges l (my_ideal d) out M O V F) as (c & E & Y1 & Y2 & _). exists c. split; [|now split]. now rewrite (steps_my step out (U out F)).
Qed.

Lemma pg_run quoted castable replaceable step w file d desired l :
  database_readable quoted d = true -> database_ok (ideal d) ->
  parse_file Postgres desired = Ok l -> pg_schema l -> pg_convertible castable replaceable l (ideal d) -> plannable Postgres l (pg_dump (ideal d)) ->
  answers w file desired (dump_database (SpecShown.catalogue quoted d)) -> serves step w (ideal d) ->
  (forall out, plan Postgres l (pg_dump (ideal d)) = Ok out -> does step (fun st => execute g_name pg_create (pg_alter castable) replaceable (s_eff st)) out) ->
  exists c, applied step (command w Postgres file) (ideal d) c /\ db_reached l c /\ database_ok c.
Proof.
  intros R O P M V N A Z U. destruct (plannable_planned _ _ _ N) as (out & F).
  apply (run_reaches step w (ideal d) Postgres file desired (dump_database (SpecShown.catalogue quoted d)) (map s_text out) (fun c => db_reached l c /\ database_ok c) A Z).
  - apply (plan_from_texts quoted d desired l _ R P). eauto.
  - destruct (pg_converges castable replaceable l (ideal d) out M O V F) as (c & E & Y1 & Y2 & _). exists c. split; [|now split]. now rewrite (steps_db _ _ _ _ step out (U out F)).
Qed.

Lemma ms_run ways replaceable step w file d current desired l :
  ms_names_given ways -> mq_readable d = true -> ms_dump (mq_server d) current -> ms_database_ok (mq_ideal d) ->
  parse_file Mssql desired = Ok l -> ms_schema ways l -> ms_convertible ways l (mq_ideal d) -> plannable Mssql l (mq_definitions d) ->
  answers w file desired current -> serves step w (mq_ideal d) ->
  (forall out, plan Mssql l (mq_definitions d) = Ok out -> does step (fun st => execute m_name (ms_create ways) (ms_alter ways) replaceable (s_eff st)) out) ->
  exists c, applied step (command w Mssql file) (mq_ideal d) c /\ ms_db_reached l c /\ ms_database_ok c.
Proof.
  intros W R D O P M V N A Z U. destruct (plannable_planned _ _ _ N) as (out & F).
  apply (run_reaches step w (mq_ideal d) Mssql file desired current (map s_text out) (fun c => ms_db_reached l c /\ ms_database_ok c) A Z).
  - apply (ms_plan_from_texts d current R D desired l _ P). eauto.
  - pose proof F as F'. rewrite <- ms_shown_ideal in F'.
    destruct (ms_converges ways replaceable l (mq_ideal d) out W M O V F') as (c & E & Y1 & Y2 & _). exists c. split; [|now split]. now rewrite (steps_db _ _ _ _ step out (U out F)).
Qed.
End Runs.
