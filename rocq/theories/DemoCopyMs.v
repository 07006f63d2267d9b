(** Databases of SQL Server for the examples and refutations beside the theorem on copies of them. *)
From Coq Require Import String Ascii List ZArith Bool.
From Verif Require Import GoStr GoStrFacts Ast Generator Catalog AdapterMssql ExportMssql Parser Planner SpecPlan SpecColumns SpecMysql SpecDatabase SpecPostgres SpecShown SpecShownMssql SpecMssql
  SpecConvergeMs DemoReadMssql DemoConvergeMs Runner SpecRunner SpecTwoRuns DemoTwoRuns SpecCopy SpecCopyMs.
Import ListNotations.
Local Open Scope string_scope.
Local Open Scope list_scope.

(** The market with a fill factor for every index. *)
Definition refill (i : mq_index) : mq_index :=
  let o := mqi_options i in
  mkMqIndex (mqi_name i) (mqi_unique i) (mqi_clustered i) (mqi_first i) (mqi_others i) (mqi_included i)
    (mkMqOptions (mqo_padded o) 90 (mqo_ignore_dup o) (mqo_no_recompute o) (mqo_incremental o) (mqo_row_locks o) (mqo_page_locks o)).
Definition depot : mq_database :=
  mkMqDatabase (map (fun t => mkMqTable (mqt_schema t) (mqt_name t) (mqt_first t) (mqt_columns t) (option_map refill (mqt_key t)) (option_map refill (mqt_index t)) (mqt_fks t)) (mqd_tables market))
    (mqd_views market) (mqd_triggers market).
Definition depot_text : string := Eval vm_compute in ms_export (mq_server depot).
Lemma depot_exports : ms_export (mq_server depot) = depot_text.
Proof. vm_compute. reflexivity. Qed.
Lemma depot_dump : ms_dump (mq_server depot) depot_text.
Proof. rewrite <- depot_exports. apply ms_export_is. Qed.

(** Values and conditions are kept. *)
Definition keptb (g : ms_tab) : bool :=
  forallb (fun c => match c_check c with Some k => negb (String.eqb (ck_definition k) "a > 0") | None => true end) (m_columns g) &&
  match m_key g with Some k => negb (String.eqb (i_name k) "PRIMARY") | None => true end.
Lemma keptb_kept g : keptb g = true -> ms_kept some_ways g.
Proof.
  unfold keptb. intros H. apply andb_true_iff in H as [A B]. rewrite forallb_forall in A. split; [reflexivity|]. split.
  - intros c k I E. specialize (A c I). rewrite E in A. apply negb_true_iff in A. cbn [some_ways w_condition]. now rewrite A.
  - intros k E. rewrite E in B. apply negb_true_iff, String.eqb_neq in B. exact B.
Qed.
Lemma all_kept l : forallb keptb l = true -> forall g, In g l -> ms_kept some_ways g.
Proof. intros H g G. apply keptb_kept. rewrite forallb_forall in H. now apply H. Qed.

Definition depot_plan : list stmt :=
  Eval vm_compute in match parse_file Mssql depot_text with Ok l => match plan Mssql l [] with Ok out => out | _ => [] end | _ => [] end.
Definition ms_checked_effect (st : stmt) := ms_checked some_ways every_ms_view (s_eff st).
Definition depot_step := by_text ms_checked_effect depot_plan.
(** A server with an empty database. *)
Definition depot_world : world := serving depot_step ms_nothing [] [] [] "schema.sql" depot_text.
Lemma depot_does l out : parse_file Mssql depot_text = Ok l -> plan Mssql l [] = Ok out -> does depot_step ms_checked_effect out.
Proof.
  intros P. assert (X : match parse_file Mssql depot_text with Ok l => plan Mssql l [] = Ok depot_plan | _ => False end) by (vm_compute; reflexivity).
  rewrite P in X. rewrite X. intros E. injection E as <-. apply by_text_does. vm_compute. reflexivity.
Qed.

(** One table with a primary key that was given no fill factor. *)
Definition keyed (fill : Z) : mq_database :=
  mkMqDatabase [mkMqTable "dbo" "t" (plain_column "id" "int" "4") [] (Some (mkMqIndex "PK_t" true true ("id", false) [] [] (mkMqOptions false fill false false false true true))) None []] [] [].
(** A table that refers to a later one. *)
Definition offspring : mq_database :=
  mkMqDatabase [mkMqTable "dbo" "children" (plain_column "parent" "int" "4") [] None None [mkMqFk "of_parent" "parent" "parents" "id" QNoAction QNoAction false];
                mkMqTable "dbo" "parents" (plain_column "id" "int" "4") [] (Some (refill (mkMqIndex "PK_parents" true true ("id", false) [] [] usual))) None []] [] [].
(** A column for 40 characters, or for one. *)
Definition wide (bytes : string) : mq_database := mkMqDatabase [mkMqTable "dbo" "t" (plain_column "name" "nvarchar" bytes) [] None None []] [] [].
