(** One run on an ideal SQL Server reaches the schema, and then nothing is left to do. *)
From Coq Require Import String Ascii List ZArith Bool Lia.
From Verif Require Import GoStr GoStrFacts Ast Generator SpecPlan ProofPlan ProofSteps ProofTables ProofCompare ProofExact ProofSelf SpecColumns
  ProofColumns SpecOrder ProofOrder SpecMysql ProofMysql ProofConverge ProofSettle SpecDatabase ProofDatabase SpecPostgres
  ProofPg ProofPgDump ProofPgColumn ProofPgKept ProofPgRest ProofPgTable ProofPgSettle ProofNoop SpecShownMssql SpecMssql SpecConvergeMs ProofMs ProofMsShown ProofMsKept ProofMsTable.
Import ListNotations.
Local Open Scope string_scope.
Local Open Scope list_scope.

Lemma trigger_matches_refl v : trigger_matches v v.
Proof. unfold trigger_matches. split; [reflexivity|]. split; [reflexivity|]. split; [reflexivity|]. induction (tr_body v); constructor; [reflexivity|assumption]. Qed.

(** ** A new table *)
Section New.
Variable w : ms_ways.
Hypothesis Hgiven : ms_names_given w.
Notation run := (alters (ms_alter w)).
Variables (l : list ddl) (t : table).
Hypothesis Hmt : ms_table w l t.
Let empty := mkMs (t_name t) [] None [] [].

Lemma ms_new_statements r : (forall d, In d r -> ms_statement d /\ ddl_table d = Some (t_name t)) ->
  Forall (fun d => match d with CreateTable _ _ => False | _ => True end) r ->
  map verbatim (filter (fun d => match d with AddForeignKey _ _ _ => false | _ => true end) r) = flat_map (standalone Mssql (ms_full empty)) r.
Proof.
  induction r as [|d r IH]; intros H1 H2; [reflexivity|]. inversion H2 as [|? ? H3 H4]; subst. destruct (H1 d (or_introl eq_refl)) as [H5 H6].
  specialize (IH (fun d Hd => H1 d (or_intror Hd)) H4). cbn [filter flat_map]. rewrite <- IH. destruct d; try reflexivity; try discriminate; try (destruct H3; fail); try (destruct H5; fail).
Qed.

Lemma ms_new_run rest : indexes_on (t_name t) rest = indexes_on (t_name t) l ->
  (forall d, In d rest -> ms_statement d /\ ddl_table d = Some (t_name t)) ->
  exists g0 g, ms_create w t = Some g0 /\ run (flat_map (standalone Mssql (ms_full empty)) rest) g0 = Some g /\ ms_reached l t g /\ ms_sound g /\ m_name g = t_name t.
Proof.
  intros Ei Hr. destruct (mt_create _ _ _ Hmt) as (g0 & Eg). destruct (ms_create_accepted w t g0 Eg) as [Eg0 Hac].
  assert (S0 : ms_sound g0) by (rewrite Eg0; now apply (created_sound w Hgiven t)).
  assert (Hk0 : forall k, m_key g0 = Some k -> exists i, primary_key t = Some i /\ k = ms_key (key_name w (t_name t) i) i).
  { intros k. rewrite Eg0. cbn [created_tab_ms m_key]. rewrite <- (primary_key_created _ _ Hac). destruct (primary_key t) as [i|]; [|discriminate]. intros E. injection E as <-. eauto. }
  assert (Hn0 : m_names g0 = map c_name (t_columns t)).
  { rewrite Eg0. unfold m_names. cbn [created_tab_ms m_columns]. rewrite !map_map. apply map_ext. intros c. rewrite require_name. reflexivity. }
  pose proof (mt_indexes _ _ _ Hmt) as Nix. unfold ms_indexes in Nix. rewrite map_app in Nix.
  assert (Hi0 : m_indexes g0 = map ms_index (inline_indexes t)) by now rewrite Eg0.
  assert (Hin0 : map i_name (m_indexes g0) = map i_name (inline_indexes t)) by (rewrite Hi0, map_map; reflexivity).
  assert (Hout : forall x, In x (map i_name (indexes_on (t_name t) l)) -> named i_name x (m_indexes g0) = None).
  { intros x Hx. apply (mem_false_none i_name), mem_not_in. rewrite Hin0. intros X. exact (nodup_app_disjoint _ _ Nix x X Hx). }
  destruct (ms_standalone_run w t empty (t_name t) rest g0) as (il & Rs & Ks & Os); auto.
  - rewrite Ei. intros i Hi0'. assert (Hi : In i (ms_indexes l t)) by (apply in_or_app; now right). split; [now apply (mt_index _ _ _ Hmt)|]. split; [now rewrite Hn0|]. intros k Hk. destruct (Hk0 k Hk) as (i0 & Ep & ->). cbn [ms_key i_name].
    intros X. symmetry in X. revert X. apply (mt_key_name _ _ _ Hmt); [|exact Hi]. rewrite <- Ep. apply primary_key_declared.
  - rewrite Ei. eapply NoDup_app_r. exact Nix.
  - rewrite Ei. intros i Hi. rewrite Hout by now apply in_map. reflexivity.
  - rewrite Ei in Ks, Os.
    assert (Ki : forall i, In i (ms_indexes l t) -> exists k, named i_name (i_name i) il = Some k /\ index_matches k i).
    { intros i Hi. pose proof (mt_index _ _ _ Hmt i Hi) as Hsec. apply in_app_iff in Hi as [Hi|Hi]; [|now apply Ks].
      assert (X : ~ In (i_name i) (map i_name (indexes_on (t_name t) l))) by (intros X; apply (nodup_app_disjoint _ _ Nix (i_name i)); [now apply in_map|exact X]).
      exists (ms_index i). split; [|now apply (secondary_matches t)]. rewrite (Os _ X). change (i_name i) with (i_name (ms_index i)). apply named_self.
      - rewrite Hin0. eapply NoDup_app_l. exact Nix.
      - rewrite Hi0. now apply in_map. }
    assert (Oi : forall x, ~ In x (map i_name (ms_indexes l t)) -> named i_name x il = None).
    { intros x Hx. unfold ms_indexes in Hx. rewrite map_app, in_app_iff in Hx. rewrite Os by tauto. apply (mem_false_none i_name), mem_not_in. rewrite Hin0. tauto. }
    set (g := with_m_indexes il g0) in *. exists g0, g. split; [exact Eg|]. split; [exact Rs|].
    assert (S : ms_sound g) by (eapply ms_alters_sound; [exact Hgiven|exact S0|exact Rs]).
    assert (Nil : NoDup (map i_name il)). { pose proof (mo_indexes _ S) as X. change (m_indexes g) with il in X. destruct (m_key g); cbn [listed app map] in X; [now inversion X|exact X]. }
    split; [|split; [exact S|cbn [g with_m_indexes m_name]; now rewrite Eg0]].
    constructor.
    + intros c Hc. exists (require (created_need t) (ms_recorded w (default_name w (t_name t) c) (check_constraint_name w (t_name t) c) c)). split.
      * cbn [g with_m_indexes m_columns]. rewrite Eg0. cbn [created_tab_ms m_columns]. rewrite map_map. apply in_map_iff. eauto.
      * assert (Hiff : mem (c_name c) (created_need t) = true <-> in_primary_key t c).
        { rewrite mem_in, (in_primary_created w t c Hac Hc). unfold created_need. destruct (created_key t) as [i|]; [|split; [intros []|intros (i & E & _); discriminate]].
          split; [eauto|]. intros (i' & E & X). now injection E as ->. }
        apply (required_reached w l t Hac Hmt); [exact Hc|apply Hiff|]. intros X. right. now apply Hiff.
    + intros y Hy. apply (in_map c_name) in Hy. change (In (c_name y) (m_names g0)) in Hy. now rewrite Hn0 in Hy.
    + intros k Hk. assert (Ek : primary_key t = k) by (eapply declares_pk_fun; [apply primary_key_declared|exact Hk]).
      assert (Em : m_key g = option_map (fun i => ms_key (key_name w (t_name t) i) i) k) by (cbn [g with_m_indexes m_key]; rewrite Eg0; cbn [created_tab_ms m_key]; now rewrite <- (primary_key_created _ _ Hac), Ek).
      destruct k as [i|]; cbn [ms_key_reached option_map] in *; [|exact Em]. eexists. split; [exact Em|]. split; [now apply (key_matches w l t Hac Hmt)|].
      cbn [ms_key i_name]. unfold key_name. destruct (String.eqb_spec (i_name i) "PRIMARY"); auto.
    + intros i Hi. destruct (Ki i Hi) as (k & Ek & Hm). apply named_some in Ek as [Hk En]. exists k. auto.
    + intros k Hk. destruct (in_dec string_dec (i_name k) (map i_name (ms_indexes l t))) as [|N]; [assumption|]. exfalso.
      pose proof (Oi _ N) as E. change (m_indexes g) with il in Hk. rewrite (in_named i_name il k Nil Hk) in E. discriminate.
    + intros f Hf. exists (ms_fk f). split; [|split; [reflexivity|apply ms_fk_same_kept]]. cbn [g with_m_indexes m_fks]. rewrite Eg0. cbn [created_tab_ms m_fks]. now apply in_map.
    + intros f Hf. cbn [g with_m_indexes m_fks] in Hf. rewrite Eg0 in Hf. cbn [created_tab_ms m_fks] in Hf. apply in_map_iff in Hf as (f0 & <- & Hf). cbn [ms_fk fk_constraint]. now apply in_map.
Qed.
End New.

(** ** A table that needs nothing *)
Section Still.
Variable w : ms_ways.
Variables (l : list ddl) (t : table) (s : ms_tab).
Hypothesis Hstm : forall d, In d l -> ms_statement d.
Hypothesis Hac : ms_accepted w t.
Hypothesis Hmt : ms_table w l t.
Hypothesis Hs : ms_sound s.
Hypothesis Hname : m_name s = t_name t.
Hypothesis Hre : ms_reached l t s.
Let ct := ms_full s.
Let dt := full_table l t.

Lemma ms_columns_rest : forall r prev, (forall c, In c r -> In c (t_columns t)) -> ddls_columns Mssql ct t prev r = Ok [].
Proof.
  induction r as [|c r IH]; intros prev H; [reflexivity|]. cbn [ddls_columns].
  assert (ddls_column Mssql ct t prev c = Ok []) as ->; [|rewrite IH; [reflexivity|intros; apply H; now right]].
  pose proof (H c (or_introl eq_refl)) as Hc. destruct (mr_column _ _ _ Hre c Hc) as (y & Hy & (R1 & R2 & R3 & R4)).
  pose proof (in_named c_name _ y (mo_names _ Hs) Hy) as En. rewrite R1 in En. destruct (ms_find_some s (c_name c) y En) as (z & Ef).
  unfold ddls_column. fold ct in Ef. rewrite Ef. set (cc := set_position z y).
  assert (c_autoinc cc = false) as -> by (apply (mo_column _ Hs y Hy)). rewrite (set_autoinc_valid w t Hac c Hc). unfold ddls_column_mssql.
  assert (Hi : c_identity y = c_identity c).
  { destruct R2 as (_ & _ & _ & _ & R2 & _). pose proof (valid_parts c (ma_valid _ _ Hac c Hc)) as (_ & _ & _ & _ & _ & Hi).
    destruct (mo_column _ Hs y Hy) as (_ & _ & _ & Hj). destruct (c_identity y) as [[a b]|], (c_identity c) as [[a' b']|]; try discriminate; [|reflexivity].
    cbn [option_map id_not_for_replication] in R2. injection R2 as ->. destruct (Hi _ eq_refl) as [E _]. destruct (Hj _ eq_refl) as [E' _]. cbn [id_behavior] in *. now subst. }
  assert (ms_identity ct t cc c = Ok []) as ->.
  { unfold ms_identity. cbv zeta. assert (are_same_identity (c_identity cc) (c_identity c) = true) as ->; [|reflexivity]. apply are_same_identity_spec. exact Hi. }
  cbn [bind]. assert (ms_default ct t cc c = Ok []) as ->.
  { unfold ms_default. cbv zeta. assert (are_same_default (c_default cc) (c_default c) = true) as ->; [|reflexivity]. apply (default_spec cc c). exact R3. }
  cbn [bind]. assert (ms_check ct t cc c = []) as ->; [|reflexivity].
  unfold ms_check. assert (are_same_check (c_check cc) (c_check c) && Bool.eqb (c_check_no_inherit cc) (c_check_no_inherit c) = true) as ->; [|reflexivity]. apply check_spec. exact R4.
Qed.

Lemma ms_primary_rest : ddls_primary_key Mssql ct t = Ok [].
Proof.
  unfold ddls_primary_key. cbv zeta. unfold ct. rewrite (ms_current_key s Hs). pose proof (mr_key _ _ _ Hre _ (primary_key_declared t)) as Hk.
  destruct (primary_key t) as [i|]; cbn [ms_key_reached] in Hk; [|now rewrite Hk]. destruct Hk as (k & -> & Hm & _). cbn [are_same_primary_keys]. now rewrite (proj2 (are_same_indexes_spec k i) Hm).
Qed.

Lemma ms_index_found i : In i (ms_indexes l t) -> exists k, find_index (t_indexes ct) (i_name i) = Some k /\ are_same_indexes k i = true.
Proof.
  intros Hi. destruct (mr_index _ _ _ Hre i Hi) as (k & Hk & Ek & Hx). exists k. split; [|now apply are_same_indexes_spec].
  rewrite <- Ek. apply (in_named i_name (listed (m_key s) ++ m_indexes s)); [apply (mo_indexes _ Hs)|apply in_or_app; now right].
Qed.

Lemma ms_inline_rest : concat_map (ddls_index Mssql ct t) (t_indexes t) = Ok [].
Proof.
  apply concat_map_nil. intros i Hi. unfold ddls_index. apply primary_or_inline in Hi as [Hi|Hi].
  - apply filter_In in Hi as [_ ->]. reflexivity.
  - destruct (ms_index_found i) as (k & -> & ->); [apply in_or_app; now left|]. now destruct (i_primary i).
Qed.

Lemma ms_create_table_rest : ddls_for_create_table Mssql ct t = Ok [].
Proof.
  unfold ddls_for_create_table. rewrite ms_columns_rest by auto. cbn [bind ddls_remove_autoinc]. rewrite ms_primary_rest. cbn [bind].
  rewrite ms_inline_rest. cbn [bind ddls_add_autoinc]. rewrite concat_map_nil; [reflexivity|].
  intros f Hf. unfold ddls_fk. destruct (fk_valid_parts w t Hac f Hf) as (N & _). destruct (String.eqb_spec (fk_constraint f) "") as [E|_]; [contradiction|].
  destruct (mr_fk _ _ _ Hre f Hf) as (f' & Hf' & En & Hsame). change (find_fk (t_fks ct) (fk_constraint f)) with (named fk_constraint (fk_constraint f) (m_fks s)).
  rewrite <- En at 1. rewrite (in_named fk_constraint _ f' (mo_fks _ Hs) Hf'). rewrite (proj2 (are_same_foreign_keys_spec Mssql f' f)); [reflexivity|]. apply Hsame.
Qed.

Lemma ms_index_rest k : In k (listed (m_key s) ++ m_indexes s) ->
  (if contains_string (index_names (t_indexes dt)) (i_name k) || contains_string (fk_index_names (t_fks dt)) (i_name k) then Ok []
   else absent_index Mssql ct dt k) = Ok [].
Proof.
  intros Hk. destruct (_ || _) eqn:E; [reflexivity|]. apply orb_false_iff in E as [E1 _]. apply contains_string_false in E1.
  unfold index_names, dt, full_table in E1. cbn [t_indexes] in E1. rewrite map_app, in_app_iff in E1.
  apply in_app_iff in Hk as [Hk|Hk].
  - unfold absent_index. unfold dt. rewrite (ms_dt_columns l t Hstm). destruct (m_key s) as [k0|] eqn:Ek; cbn [listed] in Hk; [|destruct Hk]. destruct Hk as [->|[]]. rewrite (proj1 (mo_key _ Hs k Ek)).
    pose proof (mr_key _ _ _ Hre _ (primary_key_declared t)) as Hk. destruct (ms_primary_cases w l t Hac Hmt) as [(A & B & C)|[(i & A & B & C & D)|(c & A & B & C)]]; rewrite A in Hk; cbn [ms_key_reached] in Hk.
    + congruence.
    + destruct Hk as (k' & E' & _ & [X|X]); [contradiction|]. exfalso. apply E1. left. assert (k' = k) as -> by congruence. rewrite X. apply in_map.
      apply primary_or_inline. left. rewrite C. now left.
    + destruct Hk as (k' & E' & M & _). assert (k' = k) as -> by congruence. rewrite C. apply index_matches_columns in M. unfold SpecMysql.key_columns in M. destruct (i_columns k) as [|ic r]; [discriminate|].
      cbn in M. injection M as -> _. now rewrite String.eqb_refl.
  - exfalso. pose proof (mr_other_indexes _ _ _ Hre k Hk) as X. unfold ms_indexes in X. rewrite map_app, in_app_iff in X. apply E1. destruct X as [X|X]; [left|now right].
    apply in_map_iff in X as (i & <- & X). apply in_map, primary_or_inline. now right.
Qed.

Lemma ms_cleanup_rest : cleanup_kept Mssql ct dt = Ok [].
Proof.
  unfold cleanup_kept. assert (cleanup_indexes Mssql ct dt = Ok []) as ->.
  { unfold cleanup_indexes. apply concat_map_nil. intros k Hk. now apply ms_index_rest. }
  cbn [bind]. unfold cleanup_fks, cleanup_columns, cleanup_policies. rewrite !flat_map_nil; [reflexivity|..].
  - intros p [].
  - intros c Hc. assert (contains_string (column_names (t_columns dt)) (c_name c) = true) as ->; [|reflexivity]. apply contains_string_spec. unfold dt. rewrite (ms_dt_columns l t Hstm). unfold column_names.
    change (t_columns ct) with (number 0 (m_columns s)) in Hc. apply in_number in Hc as (z & y & Hy & ->). apply (mr_other_columns _ _ _ Hre _ Hy).
  - intros f Hf. assert (contains_string (fk_names (t_fks dt)) (fk_constraint f) = true) as ->; [|reflexivity]. apply contains_string_spec. unfold dt. rewrite (ms_dt_fks l t Hstm). now apply (mr_other_fks _ _ _ Hre).
Qed.
End Still.

(** ** Nothing more to do *)
Section Noop.
Variable w : ms_ways.
Variables (l : list ddl) (db : database ms_tab).
Hypothesis Hps : ms_schema w l.
Hypothesis Hok : ms_database_ok db.
Hypothesis Hre : ms_db_reached l db.

Lemma ms_schema_accepted t : In t (tables_in l) -> ms_accepted w t.
Proof. intros Ht. destruct (mt_create _ _ _ (mc_tables _ _ Hps t Ht)) as (g & Eg). apply (ms_create_accepted w t g Eg). Qed.

Lemma ms_found t : In t (tables_in l) ->
  exists s, find_table (schema (ms_shown db)) (t_name t) = Some (ms_full s) /\ In s (db_tables db) /\ m_name s = t_name t /\ ms_reached l t s.
Proof.
  intros Ht. destruct (md_table _ _ Hre t Ht) as (s & Hs & En & Hr). exists s. split; [|auto].
  rewrite <- En. change (m_name s) with (t_name (ms_full s)). rewrite (ms_shown_schema db Hok). apply find_table_unique.
  - rewrite map_map. apply (mo_tables _ Hok).
  - now apply in_map.
Qed.

Lemma ms_local_rest d : In d l -> local Mssql (schema (ms_shown db)) (views_in (ms_shown db)) (triggers_in (ms_shown db)) d = Ok [].
Proof.
  intros Hd. pose proof (mc_statements _ _ Hps d Hd) as Hm. pose proof (pg_well_formed_on l [] (mc_well_formed _ _ Hps) d Hd) as Hw.
  destruct d as [q t|q n i|q n i|q n i|q n f|q n p|v|t]; cbn [local]; try (destruct Hm; fail).
  - assert (Ht : In t (tables_in l)) by (unfold tables_in; apply in_flat_map; exists (CreateTable q t); split; [exact Hd|now left]).
    destruct (ms_found t Ht) as (s & -> & Hs & En & Hr). apply (ms_create_table_rest w l t s); auto; [now apply ms_schema_accepted|apply (mo_sound _ Hok s Hs)].
  - destruct Hw as [[]|Hn]. destruct (pg_created_on l n Hn) as (t & Ht & <-). destruct (ms_found t Ht) as (s & -> & Hs & En & Hr).
    assert (Hi : In i (indexes_on (t_name t) l)).
    { unfold indexes_on. apply in_flat_map. exists (CreateIndex q (t_name t) i). split; [exact Hd|]. rewrite String.eqb_refl. now left. }
    destruct (ms_index_found l t s (mo_sound _ Hok s Hs) Hr i) as (k & -> & ->); [apply in_or_app; now right|]. reflexivity.
  - rewrite ms_shown_views. assert (Hv : In v (views_in l)) by (unfold views_in; apply in_flat_map; exists (DView v); split; [exact Hd|now left]).
    destruct (md_view _ _ Hre v Hv) as (v' & Hv' & En & Hs). assert (find_view (db_views db) (vw_name v) = Some v') as ->.
    { unfold find_view. rewrite <- En. apply (find_self vw_name); [apply (mo_views _ Hok)|exact Hv']. }
    unfold same_letters in Hs. now rewrite Hs, String.eqb_refl.
  - rewrite ms_shown_triggers. destruct (trigger_definition Mssql t) as [def|]; [|reflexivity].
    assert (Hv : In t (triggers_in l)) by (unfold triggers_in; apply in_flat_map; exists (DTrigger t); split; [exact Hd|now left]).
    destruct (md_trigger _ _ Hre t Hv) as (t' & Ht' & En & Hs). assert (find_trigger (db_triggers db) (tr_name t) = Some t') as ->.
    { unfold find_trigger. rewrite <- En. apply (find_self tr_name); [apply (mo_triggers _ Hok)|exact Ht']. }
    now rewrite (proj2 (are_same_trigger_spec t' t) Hs).
Qed.

Lemma ms_cleanup_tables_rest live : forall r, (forall s, In s r -> In s (db_tables db)) -> cleanup_tables Mssql (schema l) live (map ms_full r) = Ok [].
Proof.
  induction r as [|s r IH]; intros H; [reflexivity|]. cbn [map cleanup_tables]. pose proof (H s (or_introl eq_refl)) as Hs.
  assert (Hn : In (m_name s) (created l)) by (apply (md_tables _ _ Hre); now apply in_map).
  destruct (pg_created_on l _ Hn) as (t & Ht & En). change (t_name (ms_full s)) with (m_name s). rewrite <- En.
  rewrite (find_schema l (t_name t)), (find_table_unique (tables_in l) t (mc_created _ _ Hps) Ht). cbn [option_map].
  destruct (md_table _ _ Hre t Ht) as (s' & Hs' & En' & Hr). assert (s' = s) as ->.
  { pose proof (mo_tables _ Hok) as Hc. pose proof (named_self m_name _ s Hc Hs) as A1. pose proof (named_self m_name _ s' Hc Hs') as A2. congruence. }
  rewrite (ms_cleanup_rest w l t s); auto using ms_schema_accepted, (mc_statements _ _ Hps), (mo_sound _ Hok s Hs), (mc_tables _ _ Hps t Ht). cbn [bind].
  rewrite IH by (intros; apply H; now right). reflexivity.
Qed.

Theorem ms_nothing_more : plan Mssql l (ms_shown db) = Ok [].
Proof.
  rewrite (plan_eq Mssql l (ms_shown db) (schema (ms_shown db)) (mc_created _ _ Hps) (mc_well_formed _ _ Hps) (ms_shown_convert db Hok)).
  rewrite concat_map_nil by apply ms_local_rest. cbn [bind].
  rewrite (ms_shown_schema db Hok) at 2. rewrite ms_cleanup_tables_rest by auto. cbn [bind app]. f_equal. unfold obsolete_views. apply flat_map_nil.
  intros v Hv. rewrite ms_shown_views in Hv. assert (mem (vw_name v) (map vw_name (views_in l)) = true) as ->; [|reflexivity].
  apply mem_in. apply (md_views _ _ Hre). now apply in_map.
Qed.
End Noop.

Theorem ms_converges w replaceable l db out : ms_names_given w -> ms_schema w l -> ms_database_ok db -> ms_convertible w l db ->
  plan Mssql l (ms_shown db) = Ok out ->
  exists db', execute_all m_name (ms_create w) (ms_alter w) replaceable out db = Some db' /\
    ms_db_reached l db' /\ ms_database_ok db' /\ plan Mssql l (ms_shown db') = Ok [].
Proof.
  intros Hgiven Hps Hok Hcv Hplan.
  assert (Hdc : created (ms_shown db) = map m_name (db_tables db)) by apply ms_shown_created.
  assert (Hnc : NoDup (created (ms_shown db))) by (rewrite Hdc; apply (mo_tables _ Hok)).
  destruct (database_runs m_name (ms_create w) (ms_alter w) replaceable (ms_create_name w) (ms_alter_name w) Mssql l (ms_shown db) out db
     (fun t g => ms_reached l t g /\ ms_sound g)) as (db' & Er & N1 & N2 & N3 & T1 & T2 & V1 & V2 & Tr & _).
  - apply (mc_created _ _ Hps).
  - apply (mc_well_formed _ _ Hps).
  - exact Hplan.
  - exact Hdc.
  - apply (mo_tables _ Hok).
  - apply ms_shown_views.
  - apply (mo_views _ Hok).
  - intros [H|H]; discriminate.
  - apply ms_shown_triggers.
  - apply (mo_triggers _ Hok).
  - intros _. apply (mc_triggers _ _ Hps).
  - intros t s Hin Hs Hn. assert (Hso := mo_sound _ Hok s Hs).
    destruct (kept_sections Mssql l (ms_shown db) out (mc_created _ _ Hps) Hnc Hplan t (ms_full s) Hin) as (cols & rem & pk & idx & ainc & fks & cix & K1 & K2 & K3 & K4 & K5 & K6 & K7 & ->).
    + rewrite (ms_shown_schema db Hok). now apply in_map.
    + exact Hn.
    + cbn [ddls_remove_autoinc] in K2. injection K2 as <-. cbn [ddls_add_autoinc] in K5. injection K5 as <-.
      destruct (ms_kept_run w Hgiven l t s (mc_statements _ _ Hps) (ms_schema_accepted w l Hps t Hin) (mc_tables _ _ Hps t Hin) Hso (mv_kept _ _ _ Hcv t s Hin Hs Hn) Hn
         cols pk idx fks cix K1 K3 K4 K6 K7) as (g & Eg & Rg). exists g. split; [|split; [split; [exact Rg|]|]].
      * cbn [app]. apply alters_steps; [|exact Eg]. eapply ms_altering. exact Eg.
      * eapply ms_alters_sound; [exact Hgiven|exact Hso|exact Eg].
      * rewrite <- Hn. eapply (alters_name m_name (ms_alter w)); [|exact Eg]. apply ms_alter_name.
  - intros t Hin Hn. apply (named_none m_name) in Hn.
    assert (Hd : In (t_name t) (created l)) by (unfold created; now apply in_map).
    rewrite (new_part Mssql l (ms_shown db) out (mc_created _ _ Hps) Hnc Hplan (t_name t) Hd) by (now rewrite Hdc).
    destruct (statements_on_head (t_name t) l [] t (mc_well_formed _ _ Hps) (fun H => H) (mc_created _ _ Hps) Hin eq_refl) as (q & rest & Es & Hrest).
    assert (Hon : forall d, In d rest -> ms_statement d /\ ddl_table d = Some (t_name t)) by (intros d Hx; apply (ms_on_table l t (mc_statements _ _ Hps)); rewrite Es; now right).
    rewrite Es. cbn [filter map]. rewrite (ms_new_statements t rest Hon Hrest).
    destruct (ms_new_run w Hgiven l t (mc_tables _ _ Hps t Hin) rest) as (g0 & g & E0 & Eg & Rg & Sg & Ng).
    + rewrite <- (indexes_on_statements (t_name t) l), Es. reflexivity.
    + exact Hon.
    + exists g. split; [|auto]. cbn [db_steps verbatim s_eff db_step]. rewrite E0. apply alters_steps; [|exact Eg]. eapply ms_altering. exact Eg.
  - destruct (Tr (or_intror eq_refl)) as [Tr1 Tr2].
    assert (Hr : ms_db_reached l db').
    { constructor; [exact T1| |exact V1|exact V2| |exact Tr1]; [intros t Hin; destruct (T2 t Hin) as (s & A & B & C & _); eauto|].
      intros n. split.
      - intros Hn. destruct (in_dec string_dec n (map tr_name (triggers_in l))) as [|X]; [assumption|]. specialize (Tr2 n X). destruct (named_in tr_name _ _ Hn) as (x & Ex). rewrite Ex in Tr2. symmetry in Tr2.
        apply named_some in Tr2 as [Y <-]. apply (mv_triggers _ _ _ Hcv). now apply in_map.
      - intros Hn. apply in_map_iff in Hn as (x & <- & Hx). destruct (Tr1 x Hx) as (x' & Hx' & <- & _). now apply in_map. }
    assert (Hok' : ms_database_ok db').
    { constructor; [exact N1|exact N2|exact N3|]. intros g Hg. assert (Hn : In (m_name g) (created l)) by (apply T1; now apply in_map). destruct (pg_created_on l _ Hn) as (t & Hin & En).
      destruct (T2 t Hin) as (s & A & B & _ & C). assert (s = g) as ->; [|exact C].
      pose proof (named_self m_name _ s N1 A) as A1. pose proof (named_self m_name _ g N1 Hg) as A2. congruence. }
    exists db'. split; [exact Er|]. split; [exact Hr|]. split; [exact Hok'|]. now apply (ms_nothing_more w).
Qed.
