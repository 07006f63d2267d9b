(** One run on an ideal PostgreSQL reaches the schema, and then nothing is left to do. *)
From Coq Require Import String Ascii List ZArith Bool Lia.
From Verif Require Import GoStr GoStrFacts Ast Generator SpecPlan ProofPlan ProofSteps ProofTables ProofCompare ProofExact ProofSelf SpecColumns
  ProofColumns SpecOrder ProofOrder SpecMysql ProofMysql ProofConverge ProofSettle SpecDatabase ProofDatabase SpecPostgres SpecConvergePg
  ProofPg ProofPgDump ProofPgColumn ProofPgKept ProofPgRest ProofPgTable ProofNoop.
Import ListNotations.
Local Open Scope string_scope.
Local Open Scope list_scope.

Lemma alters_altering castable out : forall g g', alters (pg_alter castable) out g = Some g' -> forall s, In s out -> altering (s_eff s).
Proof.
  induction out as [|s out IH]; intros g g' H x Hx; [destruct Hx|]. cbn [alters] in H. destruct (pg_alter castable (s_eff s) g) as [g1|] eqn:E; [|discriminate].
  destruct Hx as [<-|Hx]; [|eapply IH; eauto]. destruct (s_eff s) eqn:Es; try exact I; cbn [pg_alter] in E; try discriminate. destruct d; try exact I; discriminate.
Qed.

Lemma policy_same_refl p : policy_same p p.
Proof. unfold policy_same, same_letters. repeat split; auto. induction (sort_strings (p_roles p)); constructor; auto. Qed.

(** ** A new table *)
Section New.
Variable castable : column -> column -> bool.
Notation run := (alters (pg_alter castable)).
Variables (l : list ddl) (t : table).
Hypothesis Hstm : forall d, In d l -> pg_statement d.
Hypothesis Hpt : pg_table l t.
Hypothesis Hst : pg_starts l t.
Let none := mkTable (t_name t) [] [] [] [].

Lemma new_statements r : (forall d, In d r -> pg_statement d /\ ddl_table d = Some (t_name t)) ->
  Forall (fun d => match d with CreateTable _ _ => False | _ => True end) r ->
  map verbatim (filter (fun d => match d with AddForeignKey _ _ _ => false | _ => true end) r) = flat_map (standalone Postgres none) r.
Proof.
  induction r as [|d r IH]; intros H1 H2; [reflexivity|]. inversion H2 as [|? ? H3 H4]; subst. destruct (H1 d (or_introl eq_refl)) as [H5 H6].
  specialize (IH (fun d Hd => H1 d (or_intror Hd)) H4). cbn [filter flat_map]. rewrite <- IH. destruct d; try reflexivity; try discriminate; try (destruct H3; fail); try (destruct H5; fail).
Qed.

Lemma new_run rest : indexes_on (t_name t) rest = indexes_on (t_name t) l -> policies_on (t_name t) rest = policies_on (t_name t) l ->
  (forall d, In d rest -> pg_statement d /\ ddl_table d = Some (t_name t)) ->
  exists g0 g, pg_create t = Some g0 /\ run (flat_map (standalone Postgres none) rest) g0 = Some g /\ pg_reached l t g /\ exportable g /\ sound g /\ g_name g = t_name t.
Proof.
  intros Ei Ep Hr. destruct (pt_create _ _ Hpt) as (g0 & Eg). destruct (create_accepted t g0 Eg) as [Eg0 Hac]. pose proof (create_sound t g0 Eg) as S0.
  exists g0. destruct (wanted_shape l t Hac Hpt) as [Hkey Hshape].
  assert (Huni : forall x, In x (map i_name (indexes_on (t_name t) l)) -> named i_name x (g_indexes g0) = None).
  { intros x Hx. apply named_none. intros X. rewrite Eg0 in X. cbn [created_tab g_indexes] in X. unfold uniques in X. rewrite map_map in X. apply in_map_iff in X as (c & <- & Hc).
    unfold unique_columns in Hc. apply filter_In in Hc as [Hc Hu]. apply (sn_unique _ _ Hst c Hc Hu). exact Hx. }
  destruct (standalone_run castable (t_name t) none rest g0) as (il & pl & Rs & Ki & Oi & Kp & Op); auto.
  - rewrite Ei. intros i Hi. destruct (pt_index _ _ Hpt i Hi) as (A1 & A2 & A3 & A4 & A5). unfold index_fits. repeat split; try apply A1; auto. intros x Hx. rewrite Eg0. unfold column_names_of. cbn [created_tab g_columns].
    rewrite created_names. auto.
  - rewrite Ei. apply (pt_indexes _ _ Hpt).
  - rewrite Ep. apply (pt_policies _ _ Hpt).
  - rewrite Ei. intros i Hi. symmetry. apply Huni. now apply in_map.
  - rewrite Ei. intros i k Hi. rewrite Huni by (now apply in_map). discriminate.
  - rewrite Ep. intros p Hp. now rewrite Eg0.
  - rewrite Eg0. cbn [created_tab g_pk]. rewrite Hkey. unfold wanted_pk. destruct (primary_key t); [|discriminate]. intros k ks E. injection E as <- <-. eauto.
  - rewrite Ei in Ki, Oi. rewrite Ep in Kp, Op. set (g := with_policies pl (with_idx il (g_owned g0) g0)) in *. exists g. split; [exact Eg|]. split; [exact Rs|].
    assert (S : sound g) by (eapply alters_sound; [exact S0|exact Rs]).
    assert (Fn : g_name g = t_name t) by (cbn [g with_policies with_idx g_name]; now rewrite Eg0).
    assert (Fc : g_columns g = created_columns t) by (cbn [g with_policies with_idx g_columns]; now rewrite Eg0).
    assert (Fp : g_pk g = wanted_pk t) by (cbn [g with_policies with_idx g_pk]; rewrite Eg0; exact Hkey).
    assert (Ff : g_fks g = created_fks t) by (cbn [g with_policies with_idx g_fks]; now rewrite Eg0).
    assert (Ff' : all_fks l t = t_fks t) by (unfold all_fks; rewrite (sn_fks _ _ Hst), app_nil_r; reflexivity).
    assert (Fo : g_owned g = map i_name (uniques t)) by (cbn [g with_policies with_idx g_owned]; now rewrite Eg0).
    assert (Nil : NoDup (map i_name il)) by apply (so_indexes _ S). assert (Npl : NoDup (map p_name pl)) by apply (so_policies _ S).
    assert (Hold : forall k, In k il -> ~ In (i_name k) (map i_name (indexes_on (t_name t) l)) -> In k (uniques t)).
    { intros k Hk Hn. pose proof (Oi _ Hn) as E. rewrite (in_named i_name il k Nil Hk) in E. symmetry in E. apply named_some in E as [E _]. rewrite Eg0 in E. exact E. }
    split; [|split; [|split; [exact S|exact Fn]]].
    + constructor.
      * intros c Hc. exists (require (key_names t) (pg_recorded (created_check (t_name t) c) c)). split; [rewrite Fc; unfold created_columns; rewrite map_map; apply in_map_iff; eauto|].
        pose proof (recorded_half l t Hpt (created_check (t_name t) c) c Hc (ac_valid _ Hac c Hc)) as (D1 & D2 & D3 & D4 & D5 & D6 & D7 & D8).
        set (y := pg_recorded (created_check (t_name t) c) c) in *. unfold pg_column_reached. split; [now rewrite require_name|].
        split; [unfold require; destruct (mem (c_name y) _); exact D2|].
        assert (Hm : mem (c_name y) (key_names t) = true <-> in_primary_key t c).
        { rewrite (in_key_spec t Hac c Hc), mem_in. unfold key_names. rewrite Hkey. unfold wanted_pk. destruct (primary_key t) as [i|]; cbn [option_map].
          - change (c_name y) with (c_name c). split; [eauto|]. intros (i' & E & H). now injection E as ->.
          - split; [intros []|]. intros (i' & E & _). discriminate. }
        split; [|unfold require; destruct (mem (c_name y) _); auto]. unfold require. destruct (mem (c_name y) (key_names t)) eqn:Em.
        -- split; [intros _; right; now apply Hm|reflexivity].
        -- split; [exact D4|]. intros [H|H]; [now apply D3|apply Hm in H; discriminate].
      * intros y Hy. rewrite Fc in Hy. apply (in_map c_name) in Hy. now rewrite created_names in Hy.
      * intros k Hk. rewrite Fp. unfold wanted_pk. f_equal. eapply declares_pk_fun; [apply primary_key_declared|exact Hk].
      * intros i Hi. destruct (Ki i Hi) as (k & Ek & Hm). apply named_some in Ek as [Hk En]. exists k. auto.
      * intros k Hk. destruct (in_dec string_dec (i_name k) (map i_name (indexes_on (t_name t) l))) as [|N]; [now left|right].
        apply (Hold k Hk) in N. unfold uniques in N. apply in_map_iff in N as (c & <- & Hc). unfold unique_columns in Hc. apply filter_In in Hc as [Hc Hu].
        right. split; [reflexivity|]. exists c, (mkIndexColumn (c_name c) None "asc"), []. repeat split; auto.
      * intros c Hc Hu. set (k := pg_unique (t_name t) (c_name c)). assert (Hk : In k (uniques t)) by (unfold uniques; apply in_map_iff; exists c; split; [reflexivity|]; apply filter_In; auto).
        assert (N : ~ In (i_name k) (map i_name (indexes_on (t_name t) l))) by (apply (sn_unique _ _ Hst c Hc Hu)).
        exists k. split; [|split; [rewrite Fo; now apply in_map|split; reflexivity]]. pose proof (Oi _ N) as E. rewrite (in_named i_name (g_indexes g0) k) in E; [now apply named_some in E as [E _]|apply (so_indexes _ S0)|now rewrite Eg0].
      * intros f Hf. rewrite Ff' in Hf. exists f. rewrite Ff. split; [unfold created_fks; apply in_app_iff; now left|]. split; [reflexivity|apply pg_fk_same_refl].
      * intros c Hc Hn. exists (column_fk (t_name t) c). split; [|split; reflexivity]. rewrite Ff. unfold created_fks. apply in_app_iff. right. apply in_map, filter_In. split; [exact Hc|]. now apply negb_true_iff, String.eqb_neq.
      * intros f Hf. rewrite Ff in Hf. unfold created_fks in Hf. apply in_app_iff in Hf as [Hf|Hf]; [left; rewrite Ff'; now apply in_map|right].
        apply in_map_iff in Hf as (c & <- & Hc). apply filter_In in Hc as [Hc _]. exists c. auto.
      * intros p Hp. destruct (Kp p Hp) as (p' & Ep' & X). apply named_some in Ep' as [Hp' En]. exists p'. split; [exact Hp'|]. split; [exact En|].
        destruct X as [->|[_ X]]; [apply policy_same_refl|]. rewrite Eg0 in X. discriminate.
      * intros p Hp. destruct (in_dec string_dec (p_name p) (map p_name (policies_on (t_name t) l))) as [|N]; [assumption|]. exfalso.
        pose proof (Op _ N) as E. rewrite (in_named p_name pl p Npl Hp) in E. rewrite Eg0 in E. discriminate.
    + constructor.
      * intros k ks E. rewrite Fp in E. unfold wanted_pk in E. rewrite Fn. destruct (primary_key t); [|discriminate]. now injection E as <- <-.
      * intros k Hk. destruct (in_dec string_dec (i_name k) (map i_name (indexes_on (t_name t) l))) as [N|N].
        -- apply in_map_iff in N as (i & <- & Hi). apply (pt_index _ _ Hpt i Hi).
        -- apply (Hold k Hk) in N. unfold uniques in N. apply in_map_iff in N as (c & <- & _). apply unique_name_ok.
      * rewrite Fn. intros X. apply (pt_policy _ _ Hpt). intros Y. apply X. change (g_policies g) with pl. destruct pl as [|p r] eqn:E; [reflexivity|]. exfalso.
        pose proof (Op (p_name p)) as O. rewrite Y in O. specialize (O (fun F => F)). rewrite named_cons, String.eqb_refl, Eg0 in O. discriminate.
Qed.
End New.

(** ** A table that needs nothing *)
Section Still.
Variables (l : list ddl) (t : table) (s : pg_tab).
Hypothesis Hstm : forall d, In d l -> pg_statement d.
Hypothesis Hac : accepted t.
Hypothesis Hpt : pg_table l t.
Hypothesis Hs : sound s.
Hypothesis Hex : exportable s.
Hypothesis Hname : g_name s = t_name t.
Hypothesis Hre : pg_reached l t s.
Let ct := exported_table s.
Let dt := full_table l t.

Lemma pk_is : g_pk s = wanted_pk t.
Proof. apply (pr_pk _ _ _ Hre). apply primary_key_declared. Qed.

Lemma columns_rest : forall r prev, (forall c, In c r -> In c (t_columns t)) -> ddls_columns Postgres ct t prev r = Ok [].
Proof.
  induction r as [|c r IH]; intros prev H; [reflexivity|]. cbn [ddls_columns].
  assert (ddls_column Postgres ct t prev c = Ok []) as ->; [|rewrite IH; [reflexivity|intros; apply H; now right]].
  pose proof (H c (or_introl eq_refl)) as Hc. destruct (pr_column _ _ _ Hre c Hc) as (y & Hy & (R1 & R2 & R3 & R4 & R5 & R6 & R7)).
  pose proof (in_named c_name _ y (so_names _ Hs) Hy) as En. rewrite R1 in En. destruct (find_current_some s (c_name c) y En) as (z & Ef).
  pose proof (ac_valid _ Hac c Hc) as Hv. destruct (valid_autoinc c Hv) as [Hai1 Hai2].
  unfold ddls_column. fold ct in Ef. rewrite Ef. set (cc := set_position z (exported_column s y)).
  change (c_autoinc cc) with false. cbv iota. rewrite Hai2. unfold ddls_column_postgres.
  assert (pg_default ct t cc c = Ok []) as ->.
  { unfold pg_default. assert (are_same_default (c_default cc) (c_default c) = true) as ->; [|reflexivity]. apply (default_spec cc c). exact R5. }
  cbn [bind]. assert (pg_type ct t cc c = []) as ->.
  { unfold pg_type. assert (have_same_data_type Postgres cc c = true) as ->; [|reflexivity]. apply data_type_spec. apply (wanted_matches t s c y Hv (pt_columns _ _ Hpt c Hc) R2). }
  assert (pg_null ct t cc c = []) as ->.
  { unfold pg_null. unfold cc, ct. rewrite (current_key s Hs Hex c y z R1). destruct (in_key s (c_name c)) eqn:Ek; [reflexivity|].
    assert (Hnk : ~ in_primary_key t c).
    { rewrite (in_key_spec t Hac c Hc). intros (i & Ei & Hi). unfold in_key in Ek. rewrite pk_is in Ek. unfold wanted_pk in Ek. rewrite Ei in Ek. cbn [option_map] in Ek. apply mem_not_in in Ek. contradiction. }
    pose proof (current_required s Hs y z Hy) as Q1. pose proof (required_spec c) as Q2. fold cc in Q1 |- *.
    destruct (not_null Postgres cc) eqn:E1, (not_null Postgres c) eqn:E2; cbn [andb negb]; try reflexivity; exfalso.
    - assert (required c \/ in_primary_key t c) as [X|X] by (apply R3, Q1; reflexivity); [|contradiction]. apply Q2 in X. discriminate.
    - assert (c_notnull y = Some true) as X by (apply R3; left; now apply Q2). apply Q1 in X. discriminate. }
  assert (pg_identity ct t cc c = []) as ->.
  { unfold pg_identity. assert (are_same_identity (c_identity cc) (c_identity c) = true) as ->; [|reflexivity]. cbn [cc set_position exported_column c_identity].
    destruct (c_identity y) as [a|] eqn:Ea, (c_identity c) as [b|] eqn:Eb; try discriminate; [|reflexivity]. cbn [option_map] in R4. injection R4 as R4.
    destruct (so_column _ Hs y Hy) as (_ & So & _). destruct (So a Ea) as [_ Sa]. destruct (valid_identity c b Hv Eb) as (_ & _ & _ & _ & Hb' & _).
    unfold are_same_identity.
    rewrite R4, Sa, Hb', String.eqb_refl. reflexivity. }
  assert (pg_check ct t cc c = []) as ->; [|reflexivity].
  unfold pg_check. assert (are_same_check (c_check cc) (c_check c) && Bool.eqb (c_check_no_inherit cc) (c_check_no_inherit c) = true) as ->; [|reflexivity].
  apply andb_true_iff. split; [|apply eqb_true_iff; exact R7]. cbn [cc set_position exported_column c_check].
  destruct (c_check y) as [a|] eqn:Ea, (c_check c) as [b|] eqn:Eb; try discriminate; [|reflexivity]. cbn [option_map] in *. injection R6 as R6.
  assert (ck_not_for_replication b = false) as Hb. { clear -Hv Eb. unfold valid_definition in Hv. apply andb_true_iff in Hv as [_ Hv]. rewrite Eb in Hv. now apply negb_true_iff. }
  unfold are_same_check. cbn [ck_definition ck_not_for_replication]. now rewrite R6, Hb, String.eqb_refl.
Qed.

Lemma primary_rest : ddls_primary_key Postgres ct t = Ok [].
Proof.
  unfold ddls_primary_key. cbv zeta. unfold ct. rewrite (current_pk s Hs Hex), pk_is. unfold wanted_pk. destruct (wanted_shape l t Hac Hpt) as [_ Hw].
  destruct (primary_key t) as [i|] eqn:Ei; cbn [option_map are_same_primary_keys]; [|reflexivity]. rewrite (proj2 (shown_matches t _ i (Hw i eq_refl)) eq_refl). reflexivity.
Qed.

Lemma fk_found f : In f (all_fks l t) -> exists p, find_fk (t_fks ct) (fk_constraint f) = Some p /\ are_same_foreign_keys Postgres p f = true.
Proof.
  intros Hf. destruct (pr_fk _ _ _ Hre f Hf) as (f' & Hf' & En & Hsame). change (t_fks ct) with (exported_fks s). rewrite exported_pieces.
  pose proof (find_exported (fk_constraint f) (g_fks s)) as HF. rewrite <- En in HF at 1. rewrite (in_named fk_constraint _ f' (so_fks _ Hs) Hf') in HF.
  destruct HF as (x & y & HF). { intros f0 H0. destruct (so_fk _ Hs f0 H0) as (? & ? & _). auto. }
  rewrite HF. eexists. split; [reflexivity|]. rewrite same_piece by apply (so_fk _ Hs f' Hf'). apply are_same_foreign_keys_spec. apply Hsame.
Qed.

Lemma create_table_rest : ddls_for_create_table Postgres ct t = Ok [].
Proof.
  unfold ddls_for_create_table. rewrite columns_rest by auto. cbn [bind ddls_remove_autoinc]. rewrite primary_rest. cbn [bind].
  rewrite concat_map_primary by apply (ac_primary _ Hac). cbn [bind ddls_add_autoinc]. rewrite concat_map_nil; [reflexivity|].
  intros f Hf. unfold ddls_fk. assert (Hok : fk_ok t f) by (apply (ac_fk _ Hac); unfold created_fks; apply in_app_iff; now left).
  destruct (String.eqb_spec (fk_constraint f) "") as [E|_]; [destruct Hok as [X _]; contradiction|].
  destruct (fk_found f) as (p & -> & ->); [unfold all_fks; apply in_app_iff; now left|reflexivity].
Qed.

Lemma index_rest k : In k (exported_pk s ++ g_indexes s) ->
  (if contains_string (index_names (t_indexes dt)) (i_name k) || contains_string (fk_index_names (t_fks dt)) (i_name k) then Ok []
   else absent_index Postgres ct dt k) = Ok [].
Proof.
  intros Hk. destruct (_ || _) eqn:E; [reflexivity|]. apply orb_false_iff in E as [E1 E2]. apply contains_string_false in E1. apply contains_string_false in E2.
  assert (Hdc : t_columns dt = t_columns t) by exact (dt_columns l t Hstm). unfold absent_index. rewrite !Hdc. apply in_app_iff in Hk as [Hk|Hk].
  - unfold exported_pk in Hk. pose proof pk_is as Hp. unfold wanted_pk, primary_key in Hp. destruct (g_pk s) as [[k0 ks]|]; [|destruct Hk]. destruct Hk as [<-|[]]. cbn [i_primary].
    destruct (find (fun c => is_key_primary (c_key c)) (t_columns t)) as [pc|] eqn:Ef; [|reflexivity]. cbn [i_columns].
    apply find_some in Ef as Ef'. destruct Ef' as [Hpc Hpk]. pose proof (ac_keys _ Hac) as HK. unfold pk_declarations in HK. rewrite app_length, !map_length in HK.
    assert (Hin : In pc (filter (fun c => is_key_primary (c_key c)) (t_columns t))) by (apply filter_In; auto).
    destruct (filter (fun c => is_key_primary (c_key c)) (t_columns t)) as [|c0 [|]] eqn:Efl; [destruct Hin| |cbn [length] in HK; lia].
    destruct (t_indexes t) as [|i0 ?]; [|cbn [length] in HK; lia]. destruct Hin as [->|[]]. cbn [find map option_map] in Hp. unfold key_columns in Hp. cbn [i_columns map ic_column] in Hp. injection Hp as _ ->.
    cbn [map ic_column]. now rewrite String.eqb_refl.
  - rewrite (so_index _ Hs k Hk). destruct (pr_other_indexes _ _ _ Hre k Hk) as [H|[H|[Hu (c & ic & rest & Hc & Huc & Eic & En)]]].
    + exfalso. apply E1. unfold index_names, dt, full_table. cbn [t_indexes]. rewrite map_app. apply in_app_iff. now right.
    + exfalso. apply E2. apply fk_index_names_spec. exact H.
    + rewrite Hu, Eic. destruct (t_columns t) as [|c0 cs] eqn:Ec; [destruct Hc|].
      assert (existsb (fun c => String.eqb (c_name c) (ic_column ic) && is_unique (c_key c)) (c0 :: cs) = true) as ->; [|reflexivity].
      apply existsb_exists. exists c. split; [exact Hc|]. now rewrite En, String.eqb_refl, Huc.
Qed.

Lemma cleanup_rest : cleanup_kept Postgres ct dt = Ok [].
Proof.
  unfold cleanup_kept. assert (cleanup_indexes Postgres ct dt = Ok []) as ->.
  { unfold cleanup_indexes. apply concat_map_nil. intros k Hk. apply index_rest. change (t_indexes ct) with (exported_pk s ++ exported_indexes s) in Hk. now rewrite (exported_indexes_eq _ Hex) in Hk. }
  cbn [bind]. unfold cleanup_fks, cleanup_columns, cleanup_policies. rewrite !flat_map_nil; [reflexivity|..].
  - intros p Hp. assert (contains_string (policy_names (t_policies dt)) (p_name p) = true) as ->; [|reflexivity]. apply contains_string_spec. unfold policy_names, dt, full_table. cbn [t_policies].
    rewrite map_app. apply in_app_iff. right. now apply (pr_other_policies _ _ _ Hre).
  - intros c Hc. assert (contains_string (column_names (t_columns dt)) (c_name c) = true) as ->; [|reflexivity]. apply contains_string_spec. unfold dt. rewrite (dt_columns l t Hstm). unfold column_names.
    change (t_columns ct) with (number 0 (map (exported_column s) (g_columns s))) in Hc. apply in_number in Hc as (z & y & Hy & ->). cbn [set_position c_name].
    apply in_map_iff in Hy as (y0 & <- & Hy0). apply (pr_other_columns _ _ _ Hre _ Hy0).
  - intros p Hp. change (t_fks ct) with (exported_fks s) in Hp. rewrite exported_pieces in Hp. apply in_flat_map in Hp as (f & Hf & Hp). apply in_pieces in Hp as (x & y & ->).
    cbn [piece fk_constraint]. destruct (contains_string _ _) eqn:E; [reflexivity|]. apply contains_string_false in E. destruct (pr_other_fks _ _ _ Hre f Hf) as [H|(c & Hc & Er)]; [contradiction|].
    unfold absent_fk. unfold dt. rewrite (dt_columns l t Hstm). cbn [piece fk_ref_name]. assert (existsb (fun c => String.eqb (c_references c) (fk_ref_name f)) (t_columns t) = true) as ->; [|reflexivity].
    apply existsb_exists. exists c. split; [exact Hc|]. now rewrite Er, String.eqb_refl.
Qed.
End Still.

(** ** Nothing more to do *)
Section Noop.
Variables (l : list ddl) (db : database pg_tab).
Hypothesis Hps : pg_schema l.
Hypothesis Hok : database_ok db.
Hypothesis Hre : db_reached l db.

Lemma pg_accepted t : In t (tables_in l) -> accepted t.
Proof. intros Ht. destruct (pt_create _ _ (ps_tables _ Hps t Ht)) as (g & Eg). apply (create_accepted t g Eg). Qed.

Lemma pg_found t : In t (tables_in l) ->
  exists s, find_table (schema (pg_dump db)) (t_name t) = Some (exported_table s) /\ In s (db_tables db) /\ g_name s = t_name t /\ pg_reached l t s.
Proof.
  intros Ht. destruct (dr_table _ _ Hre t Ht) as (s & Hs & En & Hr). exists s. split; [|auto].
  rewrite <- En. change (g_name s) with (t_name (exported_table s)). rewrite (pg_dump_schema db Hok). apply find_table_unique.
  - rewrite map_map. apply (do_tables _ Hok).
  - now apply in_map.
Qed.

Lemma pg_created_on n : In n (created l) -> exists t, In t (tables_in l) /\ t_name t = n.
Proof. unfold created. intros H. apply in_map_iff in H as (t & E & Ht). eauto. Qed.

Lemma pg_well_formed_on : forall r b, well_formed_after b r = true -> forall d, In d r ->
  match d with CreateIndex _ n _ | AddPolicy _ n _ => In n (created b) \/ In n (created r) | _ => True end.
Proof.
  induction r as [|e r IH]; intros b H d Hd; [destruct Hd|]. cbn [well_formed_after] in H. apply andb_true_iff in H as [H1 H2]. destruct Hd as [<-|Hd].
  - destruct e; try exact I; simpl in H1; try (apply andb_true_iff in H1 as [H1 _]); apply mem_in in H1; now left.
  - specialize (IH _ H2 d Hd). assert (G : forall n, In n (created (b ++ [e])) \/ In n (created r) -> In n (created b) \/ In n (created (e :: r))).
    { intros n. rewrite (created_app b [e]), in_app_iff, (created_app [e] r : created (e :: r) = _), in_app_iff. tauto. }
    destruct d; try exact I; now apply G.
Qed.

Lemma policy_same_matches a b : policy_same a b -> policy_matches a b.
Proof. intros (H1 & H2 & H3 & H4 & H5). unfold policy_matches. auto 8. Qed.

Lemma local_rest d : In d l -> local Postgres (schema (pg_dump db)) (views_in (pg_dump db)) (triggers_in (pg_dump db)) d = Ok [].
Proof.
  intros Hd. pose proof (ps_statements _ Hps d Hd) as Hm. pose proof (pg_well_formed_on l [] (ps_well_formed _ Hps) d Hd) as Hw.
  destruct d as [q t|q n i|q n i|q n i|q n f|q n p|v|t]; cbn [local]; try (destruct Hm; fail).
  - assert (Ht : In t (tables_in l)) by (unfold tables_in; apply in_flat_map; exists (CreateTable q t); split; [exact Hd|now left]).
    destruct (pg_found t Ht) as (s & -> & Hs & En & Hr).
    apply (create_table_rest l t s); auto; [now apply pg_accepted|apply (ps_tables _ Hps t Ht)|apply (do_sound _ Hok s Hs)|apply (do_exportable _ Hok s Hs)].
  - destruct Hw as [[]|Hn]. destruct (pg_created_on n Hn) as (t & Ht & <-). destruct (pg_found t Ht) as (s & -> & Hs & En & Hr).
    assert (Hi : In i (indexes_on (t_name t) l)).
    { unfold indexes_on. apply in_flat_map. exists (CreateIndex q (t_name t) i). split; [exact Hd|]. rewrite String.eqb_refl. now left. }
    destruct (pr_index _ _ _ Hr i Hi) as (k & Hk & Ek & Hx). destruct (pt_index _ _ (ps_tables _ Hps t Ht) i Hi) as ((_ & Np) & _).
    change (t_indexes (exported_table s)) with (exported_pk s ++ exported_indexes s). rewrite (exported_indexes_eq s (do_exportable _ Hok s Hs)).
    assert (find_index (exported_pk s ++ g_indexes s) (i_name i) = Some k) as ->.
    { unfold find_index, exported_pk. pose proof (find_self i_name (g_indexes s) k (so_indexes _ (do_sound _ Hok s Hs)) Hk) as F. rewrite Ek in F.
      destruct (g_pk s) as [[k0 ks]|]; [|exact F]. cbn [app find i_name]. destruct (String.eqb_spec "PRIMARY" (i_name i)) as [E|_]; [congruence|exact F]. }
    now rewrite (proj2 (are_same_indexes_spec k i) Hx).
  - reflexivity.
  - destruct Hw as [[]|Hn]. destruct (pg_created_on n Hn) as (t & Ht & <-). destruct (pg_found t Ht) as (s & -> & Hs & En & Hr).
    assert (Hp : In p (policies_on (t_name t) l)).
    { unfold policies_on. apply in_flat_map. exists (AddPolicy q (t_name t) p). split; [exact Hd|]. rewrite String.eqb_refl. now left. }
    destruct (pr_policy _ _ _ Hr p Hp) as (k & Hk & Ek & Hx). change (t_policies (exported_table s)) with (g_policies s).
    assert (find_policy (g_policies s) (p_name p) = Some k) as ->.
    { unfold find_policy. rewrite <- Ek. apply (find_self p_name); [apply (so_policies _ (do_sound _ Hok s Hs))|exact Hk]. }
    now rewrite (proj2 (are_same_policies_spec k p) (policy_same_matches _ _ Hx)).
  - rewrite pg_dump_views. assert (Hv : In v (views_in l)) by (unfold views_in; apply in_flat_map; exists (DView v); split; [exact Hd|now left]).
    destruct (dr_view _ _ Hre v Hv) as (v' & Hv' & En & Hs). assert (find_view (db_views db) (vw_name v) = Some v') as ->.
    { unfold find_view. rewrite <- En. apply (find_self vw_name); [apply (do_views _ Hok)|exact Hv']. }
    unfold same_letters in Hs. now rewrite Hs, String.eqb_refl.
  - reflexivity.
Qed.

Lemma cleanup_tables_rest live : forall r, (forall s, In s r -> In s (db_tables db)) -> cleanup_tables Postgres (schema l) live (map exported_table r) = Ok [].
Proof.
  induction r as [|s r IH]; intros H; [reflexivity|]. cbn [map cleanup_tables]. pose proof (H s (or_introl eq_refl)) as Hs.
  assert (Hn : In (g_name s) (created l)) by (apply (dr_tables _ _ Hre); now apply in_map).
  destruct (pg_created_on _ Hn) as (t & Ht & En). change (t_name (exported_table s)) with (g_name s). rewrite <- En.
  rewrite (find_schema l (t_name t)), (find_table_unique (tables_in l) t (ps_created _ Hps) Ht). cbn [option_map].
  destruct (dr_table _ _ Hre t Ht) as (s' & Hs' & En' & Hr). assert (s' = s) as ->.
  { pose proof (do_tables _ Hok) as Hc. pose proof (named_self g_name _ s Hc Hs) as A1. pose proof (named_self g_name _ s' Hc Hs') as A2. congruence. }
  rewrite (cleanup_rest l t s); auto using pg_accepted, (ps_statements _ Hps), (do_sound _ Hok s Hs), (do_exportable _ Hok s Hs). cbn [bind].
  rewrite IH by (intros; apply H; now right). reflexivity.
Qed.

Theorem pg_nothing_more : plan Postgres l (pg_dump db) = Ok [].
Proof.
  rewrite (plan_eq Postgres l (pg_dump db) (schema (pg_dump db)) (ps_created _ Hps) (ps_well_formed _ Hps) (pg_dump_convert db Hok)).
  rewrite concat_map_nil by apply local_rest. cbn [bind].
  rewrite (pg_dump_schema db Hok) at 2. rewrite cleanup_tables_rest by auto. cbn [bind app]. f_equal. unfold obsolete_views. apply flat_map_nil.
  intros v Hv. rewrite pg_dump_views in Hv. assert (mem (vw_name v) (map vw_name (views_in l)) = true) as ->; [|reflexivity].
  apply mem_in. apply (dr_views _ _ Hre). now apply in_map.
Qed.
End Noop.

Theorem pg_converges castable replaceable l db out : pg_schema l -> database_ok db -> pg_convertible castable replaceable l db ->
  plan Postgres l (pg_dump db) = Ok out ->
  exists db', execute_all g_name pg_create (pg_alter castable) replaceable out db = Some db' /\
    db_reached l db' /\ database_ok db' /\ plan Postgres l (pg_dump db') = Ok [].
Proof.
  intros Hps Hok Hcv Hplan.
  assert (Hdc : created (pg_dump db) = map g_name (db_tables db)) by apply pg_dump_created.
  assert (Hnc : NoDup (created (pg_dump db))) by (rewrite Hdc; apply (do_tables _ Hok)).
  destruct (database_runs g_name pg_create (pg_alter castable) replaceable pg_create_name (pg_alter_name castable) Postgres l (pg_dump db) out db
     (fun t g => pg_reached l t g /\ sound g /\ exportable g)) as (db' & Er & N1 & N2 & N3 & T1 & T2 & V1 & V2 & _ & Ht).
  - apply (ps_created _ Hps).
  - apply (ps_well_formed _ Hps).
  - exact Hplan.
  - exact Hdc.
  - apply (do_tables _ Hok).
  - apply pg_dump_views.
  - apply (do_views _ Hok).
  - intros _ v cv Hv Hn. apply named_some in Hn as [Hn1 Hn2]. destruct (string_dec (to_lower (vw_definition cv)) (to_lower (vw_definition v))) as [E|N]; [now left|right].
    now apply (cv_views _ _ _ _ Hcv v cv).
  - rewrite pg_dump_triggers. now rewrite (do_triggers _ Hok).
  - rewrite (do_triggers _ Hok). constructor.
  - intros [H|H]; discriminate.
  - intros t s Hin Hs Hn. assert (Hex := do_exportable _ Hok s Hs). assert (Hso := do_sound _ Hok s Hs).
    destruct (kept_sections Postgres l (pg_dump db) out (ps_created _ Hps) Hnc Hplan t (exported_table s) Hin) as (cols & rem & pk & idx & ainc & fks & cix & K1 & K2 & K3 & K4 & K5 & K6 & K7 & ->).
    + rewrite (pg_dump_schema db Hok). now apply in_map.
    + exact Hn.
    + cbn [ddls_remove_autoinc] in K2. injection K2 as <-. cbn [ddls_add_autoinc] in K5. injection K5 as <-.
      destruct (kept_run castable l t s (ps_statements _ Hps) (pg_accepted l Hps t Hin) (ps_tables _ Hps t Hin) Hso Hex (cv_kept _ _ _ _ Hcv t s Hin Hs Hn) Hn
         cols pk idx fks cix K1 K3 K4 K6 K7) as (g & Eg & Rg & Xg). exists g. split; [|split; [split; [exact Rg|split; [|exact Xg]]|]].
      * cbn [app]. apply alters_steps; [|exact Eg]. eapply alters_altering. exact Eg.
      * eapply alters_sound; [exact Hso|exact Eg].
      * rewrite <- Hn. eapply (alters_name g_name (pg_alter castable)); [|exact Eg]. apply pg_alter_name.
  - intros t Hin Hn. apply (named_none g_name) in Hn.
    assert (Hd : In (t_name t) (created l)) by (unfold created; now apply in_map).
    rewrite (new_part Postgres l (pg_dump db) out (ps_created _ Hps) Hnc Hplan (t_name t) Hd) by (now rewrite Hdc).
    destruct (statements_on_head (t_name t) l [] t (ps_well_formed _ Hps) (fun H => H) (ps_created _ Hps) Hin eq_refl) as (q & rest & Es & Hrest).
    assert (Hon : forall d, In d rest -> pg_statement d /\ ddl_table d = Some (t_name t)) by (intros d Hx; apply (ProofPgTable.on_table l t (ps_statements _ Hps)); rewrite Es; now right).
    rewrite Es. cbn [filter map]. rewrite (new_statements t rest Hon Hrest).
    destruct (new_run castable l t (ps_tables _ Hps t Hin) (cv_new _ _ _ _ Hcv t Hin Hn) rest) as (g0 & g & E0 & Eg & Rg & Xg & Sg & Ng).
    + rewrite <- (indexes_on_statements (t_name t) l), Es. reflexivity.
    + rewrite <- (policies_on_statements (t_name t) l), Es. reflexivity.
    + exact Hon.
    + exists g. split; [|auto]. cbn [db_steps verbatim s_eff db_step]. rewrite E0. apply alters_steps; [|exact Eg]. eapply alters_altering. exact Eg.
  - assert (Hr : db_reached l db').
    { constructor; [exact T1| |exact V1|exact V2]. intros t Hin. destruct (T2 t Hin) as (s & A & B & C & _). eauto. }
    assert (Hall : forall g, In g (db_tables db') -> sound g /\ exportable g).
    { intros g Hg. assert (Hn : In (g_name g) (created l)) by (apply T1; now apply in_map). destruct (pg_created_on l _ Hn) as (t & Hin & En).
      destruct (T2 t Hin) as (s & A & B & _ & C). assert (s = g) as ->; [|exact C].
      pose proof (named_self g_name _ s N1 A) as A1. pose proof (named_self g_name _ g N1 Hg) as A2. congruence. }
    assert (Hok' : database_ok db').
    { constructor; [exact N1|exact N2| |intros g Hg; apply (Hall g Hg)|intros g Hg; apply (Hall g Hg)]. rewrite Ht by (intros [H|H]; discriminate). apply (do_triggers _ Hok). }
    exists db'. split; [exact Er|]. split; [exact Hr|]. split; [exact Hok'|]. now apply pg_nothing_more.
Qed.
