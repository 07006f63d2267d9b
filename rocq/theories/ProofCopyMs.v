(** A SQL Server database is copied by its export (C101). *)
From Coq Require Import String Ascii List ZArith Bool Lia.
From Verif Require Import GoStr GoStrFacts Ast Generator SchemaText SchemaParse Parser Planner Catalog AdapterMssql ExportMssql SpecPlan SpecColumns SpecMysql SpecDatabase SpecPostgres
  SpecLayout SpecShown SpecShownMssql SpecMssql ProofPlan ProofSteps ProofPg ProofUntold ProofEndToEnd ProofReadMsExport ProofMsEndToEnd Runner SpecRunner SpecTwoRuns ProofTwoRuns ProofTwoRunsAll ProofPlannableRun
  CommandLine SpecUrl SpecCommand SpecLine ProofLine SpecCopy SpecCopyMs ProofCopy.
Import ListNotations.
Local Open Scope string_scope.
Local Open Scope list_scope.

Section Ways.
Variable w : ms_ways.

Lemma word_given n : mq_word n = true -> String.eqb n "" = false.
Proof. destruct n; [discriminate|reflexivity]. Qed.
Lemma name_given n : mq_name n = true -> String.eqb n "" = false.
Proof. destruct n; [discriminate|reflexivity]. Qed.
Lemma in_mem x l : mem x l = true -> In x l.
Proof. unfold mem. intros H. apply existsb_exists in H as (y & Y & E). apply String.eqb_eq in E. now subst. Qed.

(** ** Columns *)
Lemma column_kept n p x : mq_column_ok x = true ->
  (forall d v, c_default (mq_ideal_column 0 x) = Some d -> df_value d = Some v -> w_value w v = v) ->
  (forall k, c_check (mq_ideal_column 0 x) = Some k -> w_condition w (ck_definition k) = ck_definition k) ->
  negb (has_identity (mq_ideal_column 0 x)) || is_required (mq_ideal_column 0 x) && match c_default (mq_ideal_column 0 x) with None => true | Some _ => false end = true ->
  ms_valid (mq_ideal_column p x) = true /\ declared_null (mq_ideal_column p x) = false /\
  ms_recorded w (default_name w n (mq_ideal_column p x)) (check_constraint_name w n (mq_ideal_column p x)) (mq_ideal_column p x) = mq_ideal_column 0 x.
Proof.
  destruct x as [nm ty nu de id ck]. unfold mq_column_ok. cbn [mqc_name mqc_type mqc_default mqc_identity mqc_check]. rewrite !andb_true_iff. intros ((((_ & _) & Hd) & _) & Hk) Vd Vk Hi.
  unfold mq_ideal_column in *. cbn [mqc_name mqc_type mqc_nullable mqc_default mqc_identity mqc_check c_default c_check c_identity has_identity] in *.
  assert (Dd : match de with Some d => String.eqb (fst d) "" = false /\ w_value w (mq_ideal_value (snd d)) = mq_ideal_value (snd d) | None => True end).
  { destruct de as [[a v]|]; [|exact I]. cbn in *. apply andb_true_iff in Hd as [Hd _]. split; [now apply word_given|]. now apply (Vd _ _ eq_refl). }
  assert (Dk : match ck with Some k => String.eqb (mqk_name k) "" = false /\ w_condition w (sql_text (mqk_condition k)) = sql_text (mqk_condition k) | None => True end).
  { destruct ck as [k|]; [|exact I]. cbn in *. unfold mq_check_ok in Hk. apply andb_true_iff in Hk as [Hk _]. split; [now apply word_given|]. exact (Vk _ eq_refl). }
  clear Vd Vk Hd Hk.
  unfold ms_valid, declared_null, ms_recorded, default_name, check_constraint_name, or_given, ms_says_required, kept_ms_default, kept_check, has_identity, is_required in *.
  cbn [c_name c_position c_type c_unsigned c_notnull c_autoinc c_array c_default c_length c_scale c_check c_check_no_inherit c_charset c_collate c_timezone c_key c_onupdate c_enum c_references c_identity c_sequence] in *.
  destruct nu, de as [[a v]|], id as [i|], ck as [k|]; cbn in Hi; try discriminate Hi; cbn in Dd, Dk; cbn;
    repeat match goal with H : _ /\ _ |- _ => destruct H as [? ?] end;
    repeat match goal with H : String.eqb _ "" = false |- _ => rewrite H; clear H end;
    repeat match goal with H : w_value w _ = _ |- _ => rewrite H; clear H | H : w_condition w _ = _ |- _ => rewrite H; clear H end;
    repeat split.
Qed.

Lemma columns_kept n l : forall p, forallb mq_column_ok l = true ->
  (forall c d v, In c (map (mq_ideal_column 0) l) -> c_default c = Some d -> df_value d = Some v -> w_value w v = v) ->
  (forall c k, In c (map (mq_ideal_column 0) l) -> c_check c = Some k -> w_condition w (ck_definition k) = ck_definition k) ->
  forallb (fun c => negb (has_identity c) || is_required c && match c_default c with None => true | Some _ => false end) (map (mq_ideal_column 0) l) = true ->
  forallb ms_valid (mq_ideal_columns p l) = true /\ (forall c, In c (mq_ideal_columns p l) -> declared_null c = false) /\
  map (fun c => ms_recorded w (default_name w n c) (check_constraint_name w n c) c) (mq_ideal_columns p l) = map (mq_ideal_column 0) l.
Proof.
  induction l as [|x l IH]; intros p O Vd Vk Hi; [repeat split; intros c []|]. cbn [forallb map mq_ideal_columns] in *. apply andb_true_iff in O as [O1 O2]. apply andb_true_iff in Hi as [I1 I2].
  destruct (column_kept n p x O1) as (A & B & C); [intros d v; apply Vd; now left|intros k; apply Vk; now left|exact I1|].
  destruct (IH (p + 1)%Z O2) as (A' & B' & C'); [intros c d v H; apply Vd; now right|intros c k H; apply Vk; now right|exact I2|].
  rewrite A, A', C, C'. split; [reflexivity|]. split; [|reflexivity]. intros c [<-|H]; [exact B|now apply B'].
Qed.
Lemma identities l : forall p, length (filter has_identity (mq_ideal_columns p l)) = length (filter has_identity (map (mq_ideal_column 0) l)).
Proof.
  induction l as [|x l IH]; intros p; [reflexivity|]. cbn [mq_ideal_columns map filter]. change (has_identity (mq_ideal_column p x)) with (has_identity (mq_ideal_column 0 x)).
  destruct (has_identity (mq_ideal_column 0 x)); cbn [length]; now rewrite IH.
Qed.
Lemma no_inline_keys l : forall p, filter (fun c => is_key_primary (c_key c)) (mq_ideal_columns p l) = [].
Proof. induction l as [|x l IH]; intros p; [reflexivity|]. cbn [mq_ideal_columns filter]. apply IH. Qed.

(** ** Indexes *)
Lemma options_kept o : kept_options (mq_ideal_options o) = mq_ideal_options o.
Proof. reflexivity. Qed.
Lemma columns_of_index_kept (l : list (string * bool)) :
  map kept_index_column (map (fun c : string * bool => mkIndexColumn (fst c) None (if snd c then "desc" else "asc")) l) = map (fun c : string * bool => mkIndexColumn (fst c) None (if snd c then "desc" else "asc")) l.
Proof. induction l as [|[c []] l IH]; [reflexivity| |]; cbn [map]; now rewrite IH. Qed.
Lemma index_kept i : ms_index (mq_ideal_index false i) = mq_ideal_index false i.
Proof. unfold ms_index, mq_ideal_index. cbn [i_name i_columns i_unique i_included i_clustered i_options]. now rewrite columns_of_index_kept, options_kept. Qed.
Lemma key_kept i : mq_key_ok i = true -> ms_key (mqi_name i) (mq_ideal_index true i) = mq_ideal_index true i.
Proof.
  unfold mq_key_ok. rewrite !andb_true_iff. intros ((_ & U) & N). unfold ms_key, mq_ideal_index. cbn [i_name i_columns i_unique i_included i_clustered i_options].
  rewrite columns_of_index_kept, options_kept, U. destruct (mqi_included i); [reflexivity|discriminate].
Qed.
Lemma fk_kept f : ms_fk (mq_ideal_fk f) = mq_ideal_fk f.
Proof. destruct f as [a b c e [] [] g]; reflexivity. Qed.

(** ** Tables *)
Section Table.
Variable t : mq_table.
Hypothesis Hok : mq_table_ok t = true.
Hypothesis Hc : mq_table_consistent t = true.
Hypothesis Hn : ms_natural (mq_tab t) = true.
Hypothesis Hk : ms_kept w (mq_tab t).
Notation g := (mq_tab t).

Definition without_indexes : ms_tab := with_m_indexes [] g.

Lemma require_kept need l : forallb (fun c => negb (mem (c_name c) need) || is_required c) l = true -> map (require need) l = l.
Proof.
  induction l as [|c l IH]; [reflexivity|]. cbn [forallb map]. intros H. apply andb_true_iff in H as [H1 H2]. rewrite (IH H2). f_equal. unfold require. destruct (mem (c_name c) need); [|reflexivity].
  cbn [negb orb] in H1. destruct c as [nm ps ty un nn au ar de le sc ch ni cs co tz ke ou en re id sq]. unfold is_required in H1. cbn [c_notnull] in H1. destruct nn as [[|]|]; try discriminate. reflexivity.
Qed.

Lemma table_made : ms_create w (mq_ideal_table t) = Some without_indexes.
Proof.
  unfold mq_table_ok in Hok. rewrite !andb_true_iff in Hok. destruct Hok as (((((_ & _) & O1) & O2) & _) & O4).
  unfold mq_table_consistent in Hc. rewrite !andb_true_iff in Hc. destruct Hc as ((C1 & C2) & C3).
  unfold ms_natural in Hn. rewrite !andb_true_iff in Hn. destruct Hn as ((((N1 & N2) & N3) & _) & N5).
  destruct Hk as (K1 & K2 & K3).
  unfold mq_tab in N1, N2, N3, N5, K1, K2, K3. cbn [m_columns m_key m_fks] in N1, N2, N3, N5, K1, K2, K3.
  unfold m_names in N3, N5. cbn [m_columns] in N3, N5.
  set (cs := mqt_first t :: mqt_columns t) in *.
  destruct (columns_kept (mqt_name t) cs 0 O1 K1 K2 N1) as (A & B & C).
  assert (Nm : map c_name (map (mq_ideal_column 0) cs) = map mqc_name cs) by (rewrite map_map; reflexivity). rewrite Nm in N3, N5.
  unfold ms_create, key_declarations, created_key, key_declarations, inline_indexes. unfold mq_ideal_table. cbn [t_name t_columns t_indexes t_fks t_policies]. fold cs.
  rewrite no_inline_keys. cbn [map app]. rewrite ideal_names, A, C1. rewrite identities, N2. cbn [andb].
  assert (F1 : distinct (map fk_constraint (map mq_ideal_fk (mqt_fks t))) = true) by (rewrite map_map; exact C3).
  assert (F2 : forallb (ms_fk_valid (map mqc_name cs)) (map mq_ideal_fk (mqt_fks t)) = true).
  { clear - O4 N5. revert N5 O4. generalize (map mqc_name cs). intros L. induction (mqt_fks t) as [|f r IH]; [reflexivity|]. cbn [map forallb]. rewrite !andb_true_iff. intros [P1 P2] [Q1 Q2].
    split; [|now apply IH]. unfold mq_fk_ok in Q1. rewrite !andb_true_iff in Q1. destruct Q1 as (((Q1 & _) & Q3) & _). unfold ms_fk_valid, mq_ideal_fk in *. cbn [fk_constraint fk_index_name fk_ref_name fk_index_columns fk_ref_columns] in *.
    rewrite (name_given _ Q1), (name_given _ Q3), P1. reflexivity. }
  assert (F3 : map ms_fk (map mq_ideal_fk (mqt_fks t)) = map mq_ideal_fk (mqt_fks t)) by (rewrite map_map; apply map_ext; exact fk_kept).
  assert (F4 : forall need, forallb (fun c => negb (mem (c_name c) need) || negb (declared_null c)) (mq_ideal_columns 0 cs) = true).
  { intros need. apply forallb_forall. intros c I. rewrite (B c I). apply orb_true_r. }
  destruct (mqt_key t) as [k|] eqn:Ek; cbn [listed map filter option_map] in *.
  - change (i_primary (mq_ideal_index true k)) with true. cbn [negb map app listed forallb length Nat.leb filter option_map]. rewrite !andb_true_iff in N3. destruct N3 as ((P1 & P2) & P3).
    assert (Kv : ms_key_valid (mq_ideal_index true k) (map mqc_name cs) = true).
    { unfold ms_key_valid. rewrite P1, P2. reflexivity. }
    rewrite Kv, F4, F1, F2. cbn [distinct mem existsb negb andb]. rewrite C. rewrite (require_kept _ _ P3), F3. unfold key_name. cbn [mq_ideal_index i_name].
    destruct (String.eqb_spec (mqi_name k) "PRIMARY") as [E|_]; [destruct (K3 _ eq_refl E)|]. rewrite (key_kept k) by exact O2. unfold without_indexes, with_m_indexes, mq_tab. cbn [m_name m_columns m_key m_fks]. now rewrite Ek.
  - cbn [negb map app listed forallb length Nat.leb filter option_map distinct andb]. rewrite F4, F1, F2. cbn [andb]. rewrite C, F3. rewrite require_kept by (apply forallb_forall; reflexivity).
    unfold without_indexes, with_m_indexes, mq_tab. cbn [m_name m_columns m_key m_fks]. now rewrite Ek.
Qed.

Lemma index_made i : mqt_index t = Some i -> ms_indexed (mq_ideal_index false i) without_indexes = Some g.
Proof.
  intros E. unfold mq_table_consistent in Hc. rewrite !andb_true_iff in Hc. destruct Hc as ((_ & C2) & _). unfold ms_natural in Hn. rewrite !andb_true_iff in Hn. destruct Hn as ((_ & N4) & _).
  unfold mq_table_ok in Hok. rewrite !andb_true_iff in Hok. destruct Hok as ((_ & O3) & _). rewrite E in O3, C2. cbn [all_some listed] in O3, C2.
  assert (Gi : m_indexes g = [mq_ideal_index false i]) by (unfold mq_tab; cbn [m_indexes]; now rewrite E). rewrite Gi in N4. cbn [forallb] in N4. rewrite andb_true_r in N4.
  unfold ms_indexed, without_indexes. cbn [with_m_indexes m_key m_indexes m_name]. rewrite app_nil_r.
  assert (M : mem (i_name (mq_ideal_index false i)) (map i_name (listed (m_key g))) = false).
  { unfold mq_tab. cbn [m_key]. destruct (mqt_key t) as [k|]; [|reflexivity]. cbn [option_map listed map]. cbn [listed app map] in C2. apply ProofPg.distinct_spec in C2. inversion C2 as [|? ? X _]; subst. apply mem_false.
    intros [H|[]]. apply X. left. cbn [mq_ideal_index i_name] in H. now rewrite H. }
  rewrite M. assert (V : ms_index_valid (m_names (with_m_indexes [] g)) (mq_ideal_index false i) = true).
  { unfold ms_index_valid. change (m_names (with_m_indexes [] g)) with (m_names g). rewrite N4. unfold mq_index_ok in O3. rewrite !andb_true_iff in O3. destruct O3 as ((((O3 & _) & _) & _) & _).
    cbn [mq_ideal_index i_primary i_name i_columns mqi_columns map length Nat.eqb negb]. now rewrite (name_given _ O3). }
  rewrite V. cbn [orb negb app]. rewrite index_kept. unfold with_m_indexes, mq_tab. cbn [m_name m_columns m_key m_fks m_indexes]. now rewrite E.
Qed.
End Table.

(** ** The plan *)
Variable replaceable : view -> string -> bool.
Notation exec := (ms_checked_all w replaceable).

Lemma exec_app a b c : exec (a ++ b) c = match exec a c with Some c' => exec b c' | None => None end.
Proof. revert c. induction a as [|s a IH]; intros c; [reflexivity|]. cbn [app ms_checked_all]. destruct (ms_checked w replaceable (s_eff s) c); auto. Qed.
Lemma named_last T (x : ms_tab) : ~ In (m_name x) (map m_name T) -> named m_name (m_name x) (T ++ [x]) = Some x.
Proof.
  intros N. unfold named. induction T as [|y T IH]; cbn [app find]; [now rewrite String.eqb_refl|]. destruct (String.eqb_spec (m_name y) (m_name x)) as [E|]; [exfalso; apply N; left; exact E|].
  apply IH. intros X. apply N. now right.
Qed.
Lemma replace_last T (x h : ms_tab) : ~ In (m_name x) (map m_name T) -> replace_named m_name (m_name x) h (T ++ [x]) = T ++ [h].
Proof.
  intros N. unfold replace_named. induction T as [|y T IH]; cbn [app map]; [now rewrite String.eqb_refl|]. destruct (String.eqb_spec (m_name y) (m_name x)) as [E|]; [exfalso; apply N; left; exact E|].
  f_equal. apply IH. intros X. apply N. now right.
Qed.

Lemma table_again T V R l t : mq_table_ok t = true -> mq_table_consistent t = true -> ms_natural (mq_tab t) = true -> ms_kept w (mq_tab t) ->
  ~ In (mqt_name t) (map m_name T) -> forallb (fun f => mem (fk_ref_name f) (mqt_name t :: map m_name T)) (m_fks (mq_tab t)) = true ->
  ms_filled (mq_tab t) = true -> map without_text l = mq_table_definitions t ->
  exec (flat_map (fresh Mssql) l) (mkDatabase T V R) = Some (mkDatabase (T ++ [mq_tab t]) V R).
Proof.
  intros Hok Hc Hn Hk N F Fill E. unfold ms_filled in Fill. rewrite forallb_app in Fill. apply andb_true_iff in Fill as [Fill1 Fill2]. unfold mq_table_definitions in E. destruct l as [|d l]; [discriminate|]. cbn [map] in E. injection E as E0 E.
  destruct d as [s u| | | | | | |]; try discriminate. cbn [without_text] in E0. assert (u = mq_ideal_table t) as -> by congruence. clear E0.
  cbn [flat_map fresh app ms_checked_all verbatim s_eff]. unfold ms_checked. cbn [db_tables ms_accepts]. unfold refers_to. cbn [mq_ideal_table t_name t_fks t_indexes]. cbn [mq_tab m_fks m_key m_indexes] in F, Fill1, Fill2. rewrite F.
  assert (Fill : forallb fill_valid (map (mq_ideal_index true) (listed (mqt_key t))) = true) by (now destruct (mqt_key t)). rewrite Fill. cbn [andb].
  unfold execute. cbn [eff_table ddl_table db_tables db_views db_triggers t_name]. unfold table_run. apply mem_false in N as M. cbn [mq_ideal_table t_name]. rewrite M.
  rewrite (table_made t Hok Hc Hn Hk). destruct (mqt_index t) as [i|] eqn:Ei.
  - cbn [listed map] in E. destruct l as [|d l]; [discriminate|]. cbn [map] in E. injection E as E0 E. apply map_eq_nil in E as ->. destruct d as [|s' n j| | | | | |]; try discriminate. cbn [without_text] in E0.
    assert (n = mqt_name t) as -> by congruence. assert (j = mq_ideal_index false i) as -> by congruence. clear E0.
    cbn [listed map forallb] in Fill2. rewrite andb_true_r in Fill2.
    cbn [flat_map fresh app ms_checked_all verbatim s_eff]. unfold ms_checked, execute. cbn [ms_accepts eff_table ddl_table db_tables db_views db_triggers]. rewrite Fill2. unfold table_run.
    change (mqt_name t) with (m_name (without_indexes t)) at 1. rewrite (named_last T (without_indexes t) N). cbn [ms_alter]. rewrite (index_made t Hok Hc Hn i Ei).
    change (mqt_name t) with (m_name (without_indexes t)) at 1. now rewrite (replace_last T (without_indexes t) _ N).
  - cbn [listed map] in E. apply map_eq_nil in E as ->. cbn [flat_map ms_checked_all]. unfold without_indexes, with_m_indexes, mq_tab. cbn [m_name m_columns m_key m_fks]. now rewrite Ei.
Qed.
Lemma tables_again L : forall l T V R, (forall t, In t L -> mq_table_ok t = true /\ mq_table_consistent t = true /\ ms_natural (mq_tab t) = true /\ ms_kept w (mq_tab t) /\ ms_filled (mq_tab t) = true) ->
  NoDup (map m_name T ++ map mqt_name L) -> ms_refers_back (map m_name T) (map mq_tab L) = true ->
  map without_text l = flat_map mq_table_definitions L ->
  exec (flat_map (fresh Mssql) l) (mkDatabase T V R) = Some (mkDatabase (T ++ map mq_tab L) V R).
Proof.
  induction L as [|t L IH]; intros l T V R I N B E.
  - cbn [flat_map] in E. apply map_eq_nil in E as ->. cbn. now rewrite app_nil_r.
  - cbn [flat_map] in E. apply map_eq_app in E as (a & b & -> & Ea & Eb). rewrite flat_map_app, exec_app. cbn [map ms_refers_back] in B. apply andb_true_iff in B as [B1 B2].
    destruct (I t (or_introl eq_refl)) as (I1 & I2 & I3 & I4 & I5). rewrite (table_again T V R a t I1 I2 I3 I4).
    + cbv beta iota. rewrite IH.
      * cbn [map]. now rewrite <- app_assoc.
      * intros x X. apply I. now right.
      * rewrite map_app, <- app_assoc. exact N.
      * rewrite map_app. exact B2.
      * exact Eb.
    + cbn [map] in N. apply NoDup_remove_2 in N. intros X. apply N. apply in_or_app. now left.
    + exact B1.
    + exact I5.
    + exact Ea.
Qed.
Lemma views_again T R l : forall V W, map without_text l = map DView W -> NoDup (map vw_name V ++ map vw_name W) ->
  exists Y, exec (flat_map (fresh Mssql) l) (mkDatabase T V R) = Some (mkDatabase T (V ++ Y) R) /\ Forall2 same_view Y W.
Proof.
  induction l as [|d l IH]; intros V W E N; destruct W as [|x W]; try discriminate.
  - exists []. cbn. rewrite app_nil_r. split; [reflexivity|constructor].
  - cbn [map] in E. injection E as E0 E. destruct d as [| | | | | |v|]; try discriminate. injection E0 as E0.
    assert (En : vw_name v = vw_name x) by (now rewrite <- E0). assert (Ed : vw_definition v = vw_definition x) by (now rewrite <- E0).
    cbn [flat_map fresh app ms_checked_all verbatim s_eff]. unfold ms_checked, execute. cbn [ms_accepts eff_table ddl_table view_ops db_tables db_views db_triggers view_run].
    assert (M : mem (vw_name v) (map vw_name V) = false).
    { apply mem_false. rewrite En. intros X. cbn [map] in N. apply NoDup_remove_2 in N. apply N. apply in_or_app. now left. }
    unfold view_run. rewrite M. destruct (IH (V ++ [v]) W E) as (Y & F & S).
    + rewrite map_app, <- app_assoc. cbn [map app]. rewrite En. exact N.
    + exists (v :: Y). rewrite <- app_assoc in F. cbn [app] in F. split; [exact F|]. constructor; [now split|exact S].
Qed.
Lemma triggers_again T V l : forall R W, map without_text l = map DTrigger W -> NoDup (map tr_name R ++ map tr_name W) ->
  exists Y, exec (flat_map (fresh Mssql) l) (mkDatabase T V R) = Some (mkDatabase T V (R ++ Y)) /\ Forall2 same_trigger Y W.
Proof.
  induction l as [|d l IH]; intros R W E N; destruct W as [|x W]; try discriminate.
  - exists []. cbn. rewrite app_nil_r. split; [reflexivity|constructor].
  - cbn [map] in E. injection E as E0 E. destruct d as [| | | | | | |v]; try discriminate. injection E0 as E0.
    assert (S0 : same_trigger v x) by (rewrite <- E0; repeat split). pose proof (proj1 S0) as En.
    cbn [flat_map fresh trigger_definition app ms_checked_all s_eff]. unfold ms_checked, execute. cbn [ms_accepts eff_table view_ops trigger_ops db_tables db_views db_triggers].
    assert (M : mem (tr_name v) (map tr_name R) = false).
    { apply mem_false. rewrite En. intros X. cbn [map] in N. apply NoDup_remove_2 in N. apply N. apply in_or_app. now left. }
    unfold trigger_run. rewrite M. destruct (IH (R ++ [v]) W E) as (Y & F & S).
    + rewrite map_app, <- app_assoc. cbn [map app]. rewrite En. exact N.
    + exists (v :: Y). rewrite <- app_assoc in F. cbn [app] in F. split; [exact F|]. constructor; [exact S0|exact S].
Qed.

Section Copy.
Variables (d : mq_database) (text : string).
Hypothesis Hr : mq_readable d = true.
Hypothesis Hc : mq_consistent d = true.
Hypothesis Hd : ms_dump (mq_server d) text.
Hypothesis Hn : forallb ms_natural (db_tables (mq_ideal d)) = true.
Hypothesis Hk : forall g, In g (db_tables (mq_ideal d)) -> ms_kept w g.
Hypothesis Hf : forallb ms_filled (db_tables (mq_ideal d)) = true.
Hypothesis Hb : ms_refers_back [] (db_tables (mq_ideal d)) = true.

Theorem ms_copied l : map without_text l = mq_definitions d ->
  exists out c, plan Mssql l [] = Ok out /\ exec out ms_nothing = Some c /\ ms_copy_of c (mq_ideal d).
Proof.
  intros E. assert (W : well_formed l = true) by (rewrite <- well_formed_untold, E; now apply ms_well_formed).
  destruct (mq_readable_parts d Hr) as (R1 & _ & _ & R4).
  assert (N : NoDup (created l)) by (unfold created; rewrite <- tables_untold, E; change (NoDup (created (mq_definitions d))); rewrite ms_created; exact R4).
  exists (flat_map (fresh Mssql) l). unfold mq_definitions in E. destruct (untold_split _ _ _ _ E) as (a & b & c & -> & Ea & Eb & Ec). rewrite <- (map_map mq_ideal_view DView) in Eb. rewrite <- (map_map mq_ideal_trigger DTrigger) in Ec.
  pose proof Hc as Hc'. unfold mq_consistent in Hc'. rewrite !andb_true_iff in Hc'. destruct Hc' as ((C1 & C2) & C3). apply ProofPg.distinct_spec in C2, C3.
  destruct (views_again (map mq_tab (mqd_tables d)) [] b [] (map mq_ideal_view (mqd_views d)) Eb) as (Y & F & S); [cbn [map app]; rewrite map_map; exact C2|].
  destruct (triggers_again (map mq_tab (mqd_tables d)) Y c [] (map mq_ideal_trigger (mqd_triggers d)) Ec) as (Z & F' & S'); [cbn [map app]; rewrite map_map; exact C3|].
  eexists. split; [now apply plan_fresh|]. split.
  - rewrite !flat_map_app, !exec_app. unfold ms_nothing. rewrite (tables_again (mqd_tables d)); [| |exact R4|exact Hb|exact Ea].
    + cbv beta iota. cbn [app] in *. rewrite exec_app, F. exact F'.
    + intros t T. rewrite forallb_forall in C1. assert (G : In (mq_tab t) (db_tables (mq_ideal d))) by (cbn [mq_ideal db_tables]; now apply in_map).
      split; [now apply R1|]. split; [now apply C1|]. split; [exact (proj1 (forallb_forall _ _) Hn _ G)|]. split; [exact (Hk _ G)|exact (proj1 (forallb_forall _ _) Hf _ G)].
  - split; [reflexivity|]. split; [exact S|exact S'].
Qed.

Lemma steps_ms (step : string -> database ms_tab -> option (database ms_tab)) out : does step (fun st => ms_checked w replaceable (s_eff st)) out ->
  forall c, ProofTwoRuns.steps step (map s_text out) c = exec out c.
Proof.
  intros D c. rewrite (steps_fold _ _ _ D). clear D. revert c. induction out as [|st out IH]; intros c; simpl; [reflexivity|].
  destruct (ms_checked w replaceable (s_eff st) c); [apply IH|reflexivity].
Qed.
Theorem ms_copy_run step world file : answers world file text "" -> serves step world ms_nothing ->
  (forall l out, parse_file Mssql text = Ok l -> plan Mssql l [] = Ok out -> does step (fun st => ms_checked w replaceable (s_eff st)) out) ->
  exists c, applied step (command world Mssql file) ms_nothing c /\ ms_copy_of c (mq_ideal d).
Proof.
  intros A V U. destruct (ms_dump_read d text Hr Hd) as (l & P & E). destruct (ms_copied l E) as (out & c & F & R & Q).
  apply (run_reaches step world ms_nothing Mssql file text "" (map s_text out) (fun c => ms_copy_of c (mq_ideal d)) A V).
  - unfold plan_text, generate_idempotent_ddls. rewrite P. cbn [bind]. change (parse_file Mssql "") with (Ok (@nil ddl)). cbn [bind]. now rewrite F.
  - exists c. split; [|exact Q]. now rewrite (steps_ms step out (U l out P F)).
Qed.
Theorem ms_copy_typed step connect mc words conn file db :
  line_names Mssql mc words conn file -> found_at connect conn db ->
  answers (on_machine mc db) file text "" -> serves step (on_machine mc db) ms_nothing ->
  (forall l out, parse_file Mssql text = Ok l -> plan Mssql l [] = Ok out -> does step (fun st => ms_checked w replaceable (s_eff st)) out) ->
  opens (typed connect Mssql mc words) conn /\
  exists c, applied step (doings (typed connect Mssql mc words)) ms_nothing c /\ ms_copy_of c (mq_ideal d).
Proof. intros Hl Ha A Z U. destruct (line_runs _ _ _ _ _ _ _ Hl Ha) as [H1 H2]. split; [exact H1|]. rewrite H2. exact (ms_copy_run step _ file A Z U). Qed.
End Copy.
End Ways.
