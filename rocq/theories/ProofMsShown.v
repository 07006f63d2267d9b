(** What the export of an ideal SQL Server is read as. *)
From Coq Require Import String Ascii List ZArith Bool Lia.
From Verif Require Import GoStr GoStrFacts Ast Generator SpecPlan ProofPlan ProofSteps ProofTables ProofSelf SpecColumns
  ProofColumns SpecOrder ProofOrder SpecMysql ProofMysql ProofConverge ProofSettle SpecDatabase ProofDatabase SpecPostgres ProofPg ProofPgDump
  SpecShownMssql SpecMssql SpecConvergeMs ProofMs.
Import ListNotations.
Local Open Scope string_scope.
Local Open Scope list_scope.

Definition ms_full (g : ms_tab) : table :=
  mkTable (m_name g) (number 0 (m_columns g)) (listed (m_key g) ++ m_indexes g) (m_fks g) [].

Section Shown.
Variable db : database ms_tab.

Lemma shown_parts {A} (f : ddl -> list A) : (forall v, f (DView v) = []) -> (forall v, f (DTrigger v) = []) -> flat_map f (ms_shown db) =
  flat_map (fun g => f (CreateTable "" (ms_shown_table g)) ++ flat_map (fun i => f (CreateIndex "" (m_name g) i)) (m_indexes g)) (db_tables db).
Proof.
  intros Hv Ht. unfold ms_shown. rewrite !flat_map_app, !flat_map_map, (flat_map_nil _ (db_views db)), (flat_map_nil _ (db_triggers db)) by auto. rewrite !app_nil_r.
  induction (db_tables db) as [|g l IH]; [reflexivity|]. cbn [flat_map]. rewrite flat_map_app, IH. f_equal. unfold ms_shown_statements.
  cbn [flat_map]. rewrite !flat_map_map. reflexivity.
Qed.

Lemma ms_shown_tables : tables_in (ms_shown db) = map ms_shown_table (db_tables db).
Proof.
  unfold tables_in. rewrite shown_parts by reflexivity. rewrite <- flat_map_single. apply flat_map_ext. intros g.
  rewrite !flat_map_nil by reflexivity. reflexivity.
Qed.
Lemma ms_shown_created : created (ms_shown db) = map m_name (db_tables db).
Proof. unfold created. now rewrite ms_shown_tables, map_map. Qed.
Lemma ms_shown_not_others d g : In d (ms_shown_statements g) -> (exists t, d = CreateTable "" t) \/ exists i, d = CreateIndex "" (m_name g) i.
Proof. intros [<-|H]; [left; eauto|]. apply in_map_iff in H as (i & <- & _). right. eauto. Qed.
Lemma ms_shown_views : views_in (ms_shown db) = db_views db.
Proof.
  unfold views_in, ms_shown. rewrite !flat_map_app, !flat_map_map, flat_map_single, map_id, (flat_map_nil _ (db_triggers db)) by reflexivity.
  rewrite flat_map_nil; [apply app_nil_r|]. intros d Hd. apply in_flat_map in Hd as (g & _ & Hd). destruct (ms_shown_not_others d g Hd) as [[x ->]|[x ->]]; reflexivity.
Qed.
Lemma ms_shown_triggers : triggers_in (ms_shown db) = db_triggers db.
Proof.
  unfold triggers_in, ms_shown. rewrite !flat_map_app, !flat_map_map, flat_map_single, map_id, (flat_map_nil _ (db_views db)) by reflexivity.
  rewrite flat_map_nil; [reflexivity|]. intros d Hd. apply in_flat_map in Hd as (g & _ & Hd). destruct (ms_shown_not_others d g Hd) as [[x ->]|[x ->]]; reflexivity.
Qed.
Lemma ms_shown_marks n : pk_marks n (ms_shown db) = [].
Proof.
  unfold pk_marks. rewrite shown_parts by reflexivity. apply flat_map_nil. intros g _. rewrite !flat_map_nil by reflexivity. reflexivity.
Qed.
Lemma ms_shown_fks n : fks_on n (ms_shown db) = [].
Proof.
  unfold fks_on. rewrite shown_parts by reflexivity. apply flat_map_nil. intros g _. rewrite !flat_map_nil by reflexivity. reflexivity.
Qed.
Lemma ms_shown_policies n : policies_on n (ms_shown db) = [].
Proof.
  unfold policies_on. rewrite shown_parts by reflexivity. apply flat_map_nil. intros g _. rewrite !flat_map_nil by reflexivity. reflexivity.
Qed.

Hypothesis Hok : ms_database_ok db.

Lemma ms_shown_indexes g : In g (db_tables db) -> indexes_on (m_name g) (ms_shown db) = m_indexes g.
Proof.
  intros Hg. unfold indexes_on. rewrite shown_parts by reflexivity.
  rewrite <- (only_one m_name m_indexes m_name (db_tables db) g (mo_tables _ Hok) Hg) by auto.
  apply flat_map_ext. intros x. cbn [app].
  destruct (String.eqb (m_name x) (m_name g)); [rewrite flat_map_single; apply map_id|now apply flat_map_nil].
Qed.

Lemma ms_shown_full g : In g (db_tables db) -> full_table (ms_shown db) (ms_shown_table g) = ms_full g.
Proof.
  intros Hg. unfold full_table, ms_full. cbn [ms_shown_table t_name t_columns t_indexes t_fks t_policies app].
  rewrite ms_shown_indexes, ms_shown_fks, ms_shown_policies, ms_shown_marks, app_nil_r by assumption. f_equal.
  rewrite <- (map_id (number _ _)) at 2. apply map_ext. reflexivity.
Qed.
Lemma ms_shown_schema : schema (ms_shown db) = map ms_full (db_tables db).
Proof.
  unfold schema. rewrite ms_shown_tables, map_map. apply map_ext_in. intros g Hg. now apply ms_shown_full.
Qed.

Lemma ms_shown_readable : readable (ms_shown db) = true.
Proof.
  unfold readable, ms_shown. rewrite !readable_app.
  assert (G : forall l b, readable_after b (flat_map ms_shown_statements l) = true).
  { induction l as [|g l IH]; intros b; [reflexivity|]. cbn [flat_map]. rewrite readable_app, IH, andb_true_r.
    unfold ms_shown_statements. cbn [readable_after may_follow_current andb].
    apply readable_map; intros x r Hx; cbn [may_follow_current]; rewrite <- ?app_assoc.
    apply mem_in. unfold created, tables_in. rewrite !flat_map_app, !map_app, !in_app_iff. right. left. now left. }
  rewrite (G _ []). cbn [andb app]. rewrite andb_true_iff. split; now apply readable_map.
Qed.
Lemma ms_shown_convert : convert_ddls_to_tables (ms_shown db) = Ok (schema (ms_shown db)).
Proof. apply convert_readable; [rewrite ms_shown_created; apply (mo_tables _ Hok)|exact ms_shown_readable]. Qed.
End Shown.
