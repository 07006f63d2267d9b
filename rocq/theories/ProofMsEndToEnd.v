(** SQL Server from texts: the export of a database against itself. *)
From Coq Require Import String Ascii List ZArith Bool Lia.
From Verif Require Import GoStr GoStrFacts Ast Generator SchemaText SchemaParse Parser Planner Catalog AdapterMssql ExportMssql SpecPlan SpecPostgres
  SpecLayout SpecShown SpecShownMssql ProofOrder ProofPlan ProofSelf ProofPg ProofPgDump ProofUntold ProofEndToEnd ProofReadMsExport.
From Verif Require ProofMyEndToEnd.
Import ListNotations.
Local Open Scope string_scope.
Local Open Scope list_scope.
Notation flat_map_none := ProofMyEndToEnd.flat_map_none.

Section Own.
Variable d : mq_database.
Hypothesis Hr : mq_readable d = true.
Hypothesis Hc : mq_consistent d = true.
Notation defs := (mq_definitions d).

Lemma ms_consistent_table t : In t (mqd_tables d) -> mq_table_ok t = true /\ NoDup (map mqc_name (mqt_first t :: mqt_columns t)) /\
  NoDup (map mqi_name (listed (mqt_key t) ++ listed (mqt_index t))) /\ NoDup (map mqf_name (mqt_fks t)).
Proof.
  intros T. destruct (mq_readable_parts d Hr) as (O & _). split; [auto|]. unfold mq_consistent in Hc. rewrite !andb_true_iff in Hc. destruct Hc as [[A _] _]. rewrite forallb_forall in A. specialize (A t T).
  unfold mq_table_consistent in A. rewrite !andb_true_iff in A. destruct A as [[A B] C]. repeat split; now apply distinct_spec.
Qed.
Lemma flat_in_flat {A B C} (f : B -> list C) (g : A -> list B) l : flat_map f (flat_map g l) = flat_map (fun x => flat_map f (g x)) l.
Proof. induction l as [|x l IH]; [reflexivity|]. cbn [flat_map]. now rewrite flat_map_app, IH. Qed.
Lemma ms_parts {A} (f : ddl -> list A) : flat_map f defs =
  flat_map (fun t => flat_map f (mq_table_definitions t)) (mqd_tables d) ++ flat_map (fun v => f (DView (mq_ideal_view v))) (mqd_views d) ++ flat_map (fun t => f (DTrigger (mq_ideal_trigger t))) (mqd_triggers d).
Proof. unfold mq_definitions. rewrite !flat_map_app, flat_in_flat. now rewrite !flat_map_concat_map, !map_map, <- !flat_map_concat_map. Qed.
Lemma ms_tables : tables_in defs = map mq_ideal_table (mqd_tables d).
Proof.
  unfold tables_in. rewrite ms_parts. cbv beta iota. rewrite (flat_map_none _ (mqd_views d)), (flat_map_none _ (mqd_triggers d)), !app_nil_r by reflexivity. rewrite <- flat_single.
  apply flat_map_ext. intros t. unfold mq_table_definitions. cbn [flat_map app]. now destruct (mqt_index t).
Qed.
Lemma ms_views : views_in defs = map mq_ideal_view (mqd_views d).
Proof.
  unfold views_in. rewrite ms_parts. cbv beta iota. rewrite flat_single, (flat_map_none _ (mqd_tables d)), (flat_map_none _ (mqd_triggers d)), app_nil_r by (reflexivity || (intros t _; unfold mq_table_definitions; cbn [flat_map app]; now destruct (mqt_index t))).
  reflexivity.
Qed.
Lemma ms_triggers : triggers_in defs = map mq_ideal_trigger (mqd_triggers d).
Proof.
  unfold triggers_in. rewrite ms_parts. cbv beta iota. rewrite flat_single, (flat_map_none _ (mqd_tables d)), (flat_map_none _ (mqd_views d)) by (reflexivity || (intros t _; unfold mq_table_definitions; cbn [flat_map app]; now destruct (mqt_index t))).
  reflexivity.
Qed.
Lemma ms_created : created defs = map mqt_name (mqd_tables d).
Proof. unfold created. rewrite ms_tables, map_map. reflexivity. Qed.
Lemma ms_indexes t : In t (mqd_tables d) -> indexes_on (mqt_name t) defs = map (mq_ideal_index false) (listed (mqt_index t)).
Proof.
  intros T. destruct (mq_readable_parts d Hr) as (_ & _ & _ & N). unfold indexes_on. rewrite ms_parts. cbv beta iota. rewrite (flat_map_none _ (mqd_views d)), (flat_map_none _ (mqd_triggers d)), !app_nil_r by reflexivity.
  rewrite <- (only_one mqt_name (fun x => map (mq_ideal_index false) (listed (mqt_index x))) mqt_name (mqd_tables d) t N T) by reflexivity.
  apply flat_map_ext. intros x. unfold mq_table_definitions. cbn [flat_map app]. destruct (mqt_index x); cbn [listed map flat_map]; destruct (String.eqb (mqt_name x) (mqt_name t)); reflexivity.
Qed.
Lemma ms_fks n : fks_on n defs = [].
Proof. unfold fks_on. rewrite ms_parts. cbv beta iota. rewrite !flat_map_none; try reflexivity. intros t _. unfold mq_table_definitions. cbn [flat_map app]. now destruct (mqt_index t). Qed.
Lemma ms_policies n : policies_on n defs = [].
Proof. unfold policies_on. rewrite ms_parts. cbv beta iota. rewrite !flat_map_none; try reflexivity. intros t _. unfold mq_table_definitions. cbn [flat_map app]. now destruct (mqt_index t). Qed.
Lemma ms_inline {A} (f : table -> list A) t : In t (mqd_tables d) -> inline f (mqt_name t) defs = f (mq_ideal_table t).
Proof.
  intros T. destruct (mq_readable_parts d Hr) as (_ & _ & _ & N). unfold inline. rewrite ms_tables. rewrite flat_map_concat_map, map_map, <- flat_map_concat_map.
  apply (only_one mqt_name (fun x => f (mq_ideal_table x)) mqt_name (mqd_tables d) t N T). reflexivity.
Qed.
Lemma ms_names_once t : In t (mqd_tables d) ->
  NoDup (index_names_of (mqt_name t) defs) /\ NoDup (fk_names_of (mqt_name t) defs) /\ NoDup (policy_names_of (mqt_name t) defs).
Proof.
  intros T. destruct (ms_consistent_table t T) as (_ & _ & K & F). unfold index_names_of, fk_names_of, policy_names_of.
  rewrite ms_fks, ms_policies, !ms_inline, ms_indexes, !app_nil_r by assumption. cbn [mq_ideal_table t_indexes t_fks t_policies]. rewrite map_app, !map_map. rewrite map_app in K.
  split; [exact K|]. split; [exact F|constructor].
Qed.
Lemma ms_settled_index b i : settled_index (mq_ideal_index b i).
Proof. unfold settled_index. cbn. repeat constructor; cbn; intuition discriminate. Qed.
Lemma ideal_names l : forall p, map c_name (mq_ideal_columns p l) = map mqc_name l.
Proof. induction l as [|c l IH]; intros p; [reflexivity|]. cbn [mq_ideal_columns map]. now rewrite IH. Qed.
Lemma in_definitions x : In x defs -> (exists t, In t (mqd_tables d) /\ x = CreateTable "" (mq_ideal_table t)) \/
  (exists t i, In t (mqd_tables d) /\ mqt_index t = Some i /\ x = CreateIndex "" (mqt_name t) (mq_ideal_index false i)) \/ (exists v, x = DView v) \/ exists t, x = DTrigger t.
Proof.
  unfold mq_definitions. rewrite !in_app_iff, in_flat_map, !in_map_iff. intros [(t & T & I)|[(v & <- & _)|(t & <- & _)]]; [|right; right; left; now eexists|right; right; right; now eexists].
  unfold mq_table_definitions in I. destruct I as [<-|I]; [left; now exists t|]. right. left. destruct (mqt_index t) as [i|] eqn:E; [|contradiction]. destruct I as [<-|[]]. now exists t, i.
Qed.
Lemma ms_settled : settled Mssql defs.
Proof.
  split; [rewrite ms_created; exact (proj2 (proj2 (proj2 (mq_readable_parts d Hr))))|].
  split; [rewrite ms_triggers, map_map; unfold mq_consistent in Hc; apply andb_true_iff in Hc as [_ A]; now apply distinct_spec|].
  intros x X. apply in_definitions in X as [(t & T & ->)|[(t & i & T & E & ->)|[(v & ->)|(t & ->)]]]; try exact Logic.I.
  - destruct (ms_consistent_table t T) as (O & C & K & F). destruct (ms_names_once t T) as (N1 & N2 & N3).
    cbn [settled_ddl t_name t_columns t_indexes t_fks mq_ideal_table]. split; [|split; [exact N1|split; [exact N2|split; [exact N3|split; [|split]]]]].
    + rewrite ideal_names. exact C.
    + intros c _. discriminate.
    + intros i I. apply in_map_iff in I as (k & <- & _). apply ms_settled_index.
    + intros f I. apply in_map_iff in I as (g & <- & I). unfold mq_table_ok in O. rewrite !andb_true_iff in O. destruct O as [_ O]. rewrite forallb_forall in O. specialize (O g I).
      unfold mq_fk_ok, mq_name in O. rewrite !andb_true_iff in O. destruct O as [[[[O _] _] _] _]. cbn [mq_ideal_fk fk_constraint]. intros E. rewrite E in O. discriminate.
  - split; [apply ms_settled_index|reflexivity].
Qed.
Lemma ms_well_formed : well_formed defs = true.
Proof.
  apply well_formed_from.
  - unfold readable, mq_definitions. generalize (@nil ddl).
    assert (Q : forall l, (forall x, In x l -> match x with DView _ | DTrigger _ => True | _ => False end) -> forall b, readable_after b l = true).
    { induction l as [|x l IH]; intros H b; [reflexivity|]. cbn [readable_after]. rewrite IH by (intros y Y; apply H; now right). specialize (H x (or_introl eq_refl)). now destruct x. }
    assert (P : forall ts r, (forall b, readable_after b r = true) -> forall b, readable_after b (flat_map mq_table_definitions ts ++ r) = true).
    { intros ts r R. induction ts as [|t ts IH]; intros b; [apply R|]. cbn [flat_map]. rewrite <- app_assoc. unfold mq_table_definitions at 1. cbn [app readable_after may_follow_current]. cbn [andb].
      destruct (mqt_index t) as [i|]; cbn [listed map app]; [|apply IH]. cbn [readable_after may_follow_current]. rewrite IH, andb_true_r. apply mem_in. unfold created, tables_in. rewrite flat_map_app, map_app.
      apply in_or_app. right. now left. }
    apply P. apply Q. intros x X. rewrite in_app_iff, !in_map_iff in X. destruct X as [(v & <- & _)|(t & <- & _)]; exact Logic.I.
  - intros x X. now apply in_definitions in X as [(t & T & ->)|[(t & i & T & E & ->)|[(v & ->)|(t & ->)]]].
  - intros n N. rewrite ms_created in N. apply in_map_iff in N as (t & <- & T). now apply ms_names_once.
  - rewrite ms_views, map_map. unfold mq_consistent in Hc. rewrite !andb_true_iff in Hc. destruct Hc as [[_ B] _]. now apply distinct_spec.
Qed.
End Own.

Section Texts.
Variables (d : mq_database) (current : string).
Hypothesis Hr : mq_readable d = true.
Hypothesis Hd : ms_dump (mq_server d) current.
Lemma ms_plan_from_texts desired l texts : parse_file Mssql desired = Ok l ->
  (plan_text Mssql desired current = Ok texts <-> exists out, plan Mssql l (mq_definitions d) = Ok out /\ texts = map s_text out).
Proof.
  intros P. destruct (ms_dump_read d current Hr Hd) as (c & C & E). unfold plan_text, generate_idempotent_ddls. rewrite P, C. cbn [bind]. rewrite <- E. split.
  - destruct (plan Mssql l c) as [out| | |] eqn:F; try discriminate. cbn [bind]. intros X. injection X as <-. exists out. split; [|reflexivity]. now apply plan_untold.
  - intros (out & F & ->). apply (proj1 (plan_untold _ _ _ _)) in F. now rewrite F.
Qed.
Theorem ms_own_export earlier : mq_consistent d = true -> ms_dump (mq_server d) earlier -> plan_text Mssql earlier current = Ok [].
Proof.
  intros O D. destruct (ms_dump_read d earlier Hr D) as (c & C & E). apply (ms_plan_from_texts _ c _ C). exists []. split; [|reflexivity]. rewrite <- E. apply plan_untold. apply plan_self.
  - apply settled_untold. rewrite E. now apply ms_settled.
  - rewrite <- well_formed_untold, E. now apply ms_well_formed.
Qed.
End Texts.
