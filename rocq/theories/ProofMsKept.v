(** One run on an ideal SQL Server: the columns and the primary key of a table that stays. *)
From Coq Require Import String Ascii List ZArith Bool Lia.
From Verif Require Import GoStr GoStrFacts Ast Generator SpecPlan ProofPlan ProofSteps ProofTables ProofCompare ProofSelf SpecColumns
  ProofColumns SpecOrder ProofOrder SpecMysql ProofMysql ProofConverge ProofSettle SpecDatabase ProofDatabase SpecPostgres
  ProofPg ProofPgDump SpecShownMssql SpecMssql SpecConvergeMs ProofMs ProofMsShown.
Import ListNotations.
Local Open Scope string_scope.
Local Open Scope list_scope.

Definition put (n : string) (y : column) (g : ms_tab) : ms_tab := with_m_columns (replaced n y (m_columns g)) g.

Lemma replaced_id n y l : NoDup (map c_name l) -> named c_name n l = Some y -> replaced n y l = l.
Proof.
  intros Hn H. apply named_some in H as [Hy En]. unfold replaced. rewrite <- (map_id l) at 2. apply map_ext_in. intros x Hx.
  destruct (String.eqb_spec (c_name x) n) as [E|]; [|reflexivity]. pose proof (named_self c_name l x Hn Hx) as A. pose proof (named_self c_name l y Hn Hy) as B. congruence.
Qed.
Lemma put_self n y g : ms_sound g -> named c_name n (m_columns g) = Some y -> put n y g = g.
Proof. intros S H. unfold put. rewrite replaced_id by (try exact H; apply (mo_names _ S)). now destruct g. Qed.
Lemma put_put n y z g : c_name y = n -> put n z (put n y g) = put n z g.
Proof.
  intros E. unfold put, with_m_columns. cbn [m_name m_columns m_key m_indexes m_fks]. f_equal. unfold replaced. rewrite map_map. apply map_ext. intros x.
  destruct (String.eqb_spec (c_name x) n) as [E'|N]; [now rewrite E, String.eqb_refl|]. destruct (String.eqb_spec (c_name x) n); congruence.
Qed.
Lemma named_put n y g y0 : c_name y = n -> named c_name n (m_columns g) = Some y0 -> named c_name n (m_columns (put n y g)) = Some y.
Proof. intros E H. cbn [put with_m_columns m_columns]. now rewrite named_replaced, String.eqb_refl, H. Qed.

Section Kept.
Variable w : ms_ways.
Hypothesis Hgiven : ms_names_given w.
Notation run := (alters (ms_alter w)).

Variables (l : list ddl) (t : table) (s : ms_tab).
Hypothesis Hac : ms_accepted w t.
Hypothesis Hmt : ms_table w l t.
Hypothesis Hs : ms_sound s.
Hypothesis Hset : ms_settles w l t s.
Hypothesis Hname : m_name s = t_name t.
Let ct := ms_full s.

Lemma ms_find_some n y : named c_name n (m_columns s) = Some y -> exists z, find_column (t_columns ct) n = Some (set_position z y).
Proof. intros H. destruct (named_number_some n _ _ 0%Z H) as (z & E). exists z. exact E. Qed.
Lemma ms_find_none n : named c_name n (m_columns s) = None -> find_column (t_columns ct) n = None.
Proof. intros H. change (named c_name n (number 0 (m_columns s)) = None). now rewrite named_number. Qed.

(** ** One column *)
Section Column.
Variables (c y : column) (z : Z).
Hypothesis Hc : In c (t_columns t).
Hypothesis Hy : In y (m_columns s).
Hypothesis Hyc : c_name y = c_name c.
Let cc := set_position z y.

Lemma kind_identity : c_identity y = c_identity c.
Proof.
  pose proof (ss_kind _ _ _ _ Hset c y Hc Hy Hyc) as (_ & _ & _ & _ & H & _). pose proof (valid_parts c (ma_valid _ _ Hac c Hc)) as (_ & _ & _ & _ & _ & Hi).
  destruct (mo_column _ Hs y Hy) as (_ & _ & _ & Hj). destruct (c_identity y) as [[a b]|], (c_identity c) as [[a' b']|]; try discriminate; [|reflexivity].
  cbn [option_map id_not_for_replication] in H. injection H as ->. destruct (Hi _ eq_refl) as [E _]. destruct (Hj _ eq_refl) as [E' _]. cbn [id_behavior] in *. now subst.
Qed.

Lemma check_part g : ms_sound g -> named c_name (c_name c) (m_columns g) = Some y ->
  exists y', run (ms_check ct t cc c) g = Some (put (c_name c) y' g) /\ c_name y' = c_name c /\ check_matches y' c /\
    c_default y' = c_default y /\ c_identity y' = c_identity y /\ (forall x, ms_same_kind t y x -> ms_same_kind t y' x).
Proof.
  intros Sg En. unfold ms_check. destruct (are_same_check (c_check cc) (c_check c) && _) eqn:E.
  - apply check_spec in E. exists y. cbn [alters]. rewrite (put_self _ _ _ Sg En). split; [reflexivity|]. split; [exact Hyc|]. split; [exact E|]. split; [reflexivity|]. split; [reflexivity|auto].
  - assert (Hm : ~ check_matches y c). { change (~ check_matches cc c). rewrite <- check_spec, E. discriminate. }
    destruct (ss_check _ _ _ _ Hset c y Hc Hy Hyc Hm) as [B1 B2]. cbn [cc set_position c_check c_name].
    destruct (mo_column _ Hs y Hy) as (Hni & _). destruct (valid_parts c (ma_valid _ _ Hac c Hc)) as (_ & Hni' & _).
    destruct (mt_columns _ _ _ Hmt c Hc) as [Hcond _]. rewrite Hyc.
    set (y1 := set_check None false y).
    assert (E1 : run match c_check y with Some k => [mkStmt (alter Mssql (t_name t) ++ " DROP CONSTRAINT " ++ ck_constraint k)%string (EffDropCheck (t_name t) (c_name c) (ck_constraint k))] | None => [] end g
      = Some (put (c_name c) y1 g)).
    { destruct (c_check y) as [k|] eqn:Ek.
      - cbn [alters s_eff ms_alter]. rewrite (B1 k eq_refl). erewrite m_on_column_some; [reflexivity|exact En|]. now rewrite Ek, String.eqb_refl.
      - cbn [alters]. assert (y1 = y) as -> by (unfold y1; destruct y; cbn in *; now subst). now rewrite (put_self _ _ _ Sg En). }
    rewrite alters_app, E1. destruct (c_check c) as [k|] eqn:Ek.
    + set (n := ms_planned_check t c k).
      exists (set_check (Some (kept_check w n k)) false y1). split; [|split; [exact Hyc|split; [|split; [reflexivity|split; [reflexivity|auto]]]]].
      * cbn [alters s_eff ms_alter].
        change (if String.eqb (ck_constraint k) "" then (replace_first (t_name t) "dbo." "" ++ "_" ++ c_name c ++ "_check")%string else ck_constraint k) with n.
        pose proof (B2 k eq_refl) as B. fold n in B. rewrite B. erewrite m_on_column_some; [|eapply named_put; [exact Hyc|exact En]|reflexivity]. f_equal. apply put_put. exact Hyc.
      * unfold check_matches. rewrite Ek. cbn [set_check c_check kept_check c_check_no_inherit ck_definition ck_not_for_replication]. rewrite (Hcond k eq_refl), Hni'. auto.
    + exists y1. split; [reflexivity|]. split; [exact Hyc|]. split; [|split; [reflexivity|split; [reflexivity|auto]]]. unfold check_matches. rewrite Ek. cbn. auto.
Qed.

Lemma ok_inj {A} (a b : A) : Ok a = Ok b -> b = a.
Proof. congruence. Qed.

Lemma default_part g y0 out : ms_sound g -> c_name y0 = c_name c -> named c_name (c_name c) (m_columns g) = Some y0 -> c_default y0 = c_default y -> c_identity y0 = c_identity y ->
  ms_default ct t cc c = Ok out ->
  exists y', run out g = Some (put (c_name c) y' g) /\ c_name y' = c_name c /\ default_matches y' c /\
    c_check y' = c_check y0 /\ c_check_no_inherit y' = c_check_no_inherit y0 /\ c_identity y' = c_identity y0 /\ (forall x, ms_same_kind t y0 x -> ms_same_kind t y' x).
Proof.
  intros Sg En0 En Ed Ei H. unfold ms_default in H. cbv zeta in H. destruct (are_same_default (c_default cc) (c_default c)) eqn:E.
  - injection H as <-. exists y0. cbn [alters]. rewrite (put_self _ _ _ Sg En). apply default_spec in E. split; [reflexivity|]. split; [exact En0|]. split; [|split; [reflexivity|split; [reflexivity|split; [reflexivity|auto]]]].
    unfold default_matches in *. now rewrite Ed.
  - destruct (mt_columns _ _ _ Hmt c Hc) as [_ Hval]. destruct (valid_parts c (ma_valid _ _ Hac c Hc)) as (_ & _ & _ & _ & _ & Hi).
    cbn [cc set_position c_default c_name] in H. rewrite Hyc in H. set (y1 := set_ms_default None y0).
    assert (E1 : run match c_default y with Some d => [mkStmt (alter Mssql (t_name ct) ++ " DROP CONSTRAINT " ++ escape_sql_name Mssql (df_constraint d))%string
      (EffDropDefaultConstraint (t_name ct) (c_name c) (df_constraint d))] | None => [] end g = Some (put (c_name c) y1 g)).
    { rewrite <- Ed. destruct (c_default y0) as [d|] eqn:Edd.
      - cbn [alters s_eff ms_alter]. erewrite m_on_column_some; [reflexivity|exact En|]. now rewrite Edd, String.eqb_refl.
      - cbn [alters]. assert (y1 = y0) as -> by (unfold y1; destruct y0; cbn in *; now subst). now rewrite (put_self _ _ _ Sg En). }
    destruct (c_default c) as [d|] eqn:Ec.
    + destruct (df_value d) as [v|] eqn:Ev; [|discriminate]. destruct (generate_default_definition v); try discriminate. cbn [bind] in H. apply ok_inj in H. subst out.
      assert (Hwr : w_written w v = true).
      { assert (Hm : ~ default_matches y c) by (change (~ default_matches cc c); rewrite <- default_spec, Ec, E; discriminate).
        pose proof (ss_default _ _ _ _ Hset c y Hc Hy Hyc Hm) as X. rewrite Ec in X. destruct d as [dv dn]; cbn in Ev; subst dv. exact X. }
      rewrite alters_app, E1. exists (set_ms_default (Some (kept_ms_default w (or_given w "DF" (t_name ct) (c_name c) (df_constraint d)) d)) y1).
      split; [|split; [exact En0|split; [|split; [reflexivity|split; [reflexivity|split; [reflexivity|auto]]]]]].
      * cbn [alters s_eff ms_alter]. rewrite Ev. rewrite Hwr. erewrite m_on_column_some; [|eapply named_put; [exact En0|exact En]|].
        2:{ cbn [y1 set_ms_default c_default c_identity]. rewrite Ei, kind_identity. destruct (c_identity c) as [i|] eqn:Eid; [|reflexivity]. destruct (Hi i eq_refl) as (_ & X & _). discriminate. }
        f_equal. apply put_put. exact En0.
      * unfold default_matches. rewrite Ec. cbn [set_ms_default c_default]. specialize (Hval d eq_refl). destruct d as [dv dn]; cbn in Ev; subst dv. exact Hval.
    + cbn [bind] in H. apply ok_inj in H. subst out. rewrite app_nil_r. exists y1. split; [exact E1|]. split; [exact En0|]. split; [|split; [reflexivity|split; [reflexivity|split; [reflexivity|auto]]]].
      unfold default_matches. rewrite Ec. exact Logic.I.
Qed.

Lemma ms_column_run g out : ms_sound g -> named c_name (c_name c) (m_columns g) = Some y -> ddls_column_mssql ct t cc c = Ok out ->
  exists y', run out g = Some (put (c_name c) y' g) /\ ms_column_reached t y' c /\ c_identity y' = c_identity y.
Proof.
  intros Sg En H. unfold ddls_column_mssql in H. unfold ms_identity in H. cbv zeta in H.
  assert (are_same_identity (c_identity cc) (c_identity c) = true) as Ei by (apply are_same_identity_spec; exact kind_identity). rewrite Ei in H. cbn [bind] in H.
  destruct (ms_default ct t cc c) as [d| | |] eqn:Ed; try discriminate. cbn [bind] in H. injection H as <-. cbn [app].
  destruct (check_part g Sg En) as (y1 & E1 & N1 & C1 & D1 & I1 & K1).
  assert (S1 : ms_sound (put (c_name c) y1 g)) by (eapply ms_alters_sound; eauto).
  assert (En1 : named c_name (c_name c) (m_columns (put (c_name c) y1 g)) = Some y1) by (eapply named_put; eauto).
  destruct (default_part (put (c_name c) y1 g) y1 d S1 N1 En1 D1 I1 Ed) as (y2 & E2 & N2 & D2 & C2 & C2' & I2 & K2).
  exists y2. rewrite alters_app, E1, E2. split; [f_equal; now apply put_put|]. split; [|congruence]. split; [exact N2|]. split; [|split; [exact D2|]].
  - apply K2, K1. now apply (ss_kind _ _ _ _ Hset).
  - unfold check_matches in *. now rewrite C2, C2'.
Qed.
End Column.

(** ** All columns *)
Record ms_after (d : list column) (g : ms_tab) : Prop := {
  af_name : m_name g = m_name s;
  af_key : m_key g = m_key s;
  af_indexes : m_indexes g = m_indexes s;
  af_fks : m_fks g = m_fks s;
  af_sound : ms_sound g;
  af_done : forall c, In c d -> exists y, named c_name (c_name c) (m_columns g) = Some y /\ ms_column_reached t y c;
  af_rest : forall n, ~ In n (map c_name d) -> named c_name n (m_columns g) = named c_name n (m_columns s);
  af_identity : forall y, In y (m_columns g) -> c_identity y <> None ->
    (exists y0, In y0 (m_columns s) /\ c_identity y0 <> None) \/ exists x, In x d /\ c_identity x <> None }.

Lemma required_reached need dn cn c : In c (t_columns t) -> (mem (c_name c) need = true -> in_primary_key t c) ->
  (in_primary_key t c -> ms_says_required c = true \/ mem (c_name c) need = true) -> ms_column_reached t (require need (ms_recorded w dn cn c)) c.
Proof.
  intros Hc Hneed Hpk. destruct (valid_parts c (ma_valid _ _ Hac c Hc)) as (_ & Hni & _ & Hk & _ & Hi). destruct (mt_columns _ _ _ Hmt c Hc) as [Hcond Hval].
  assert (Hnn : c_notnull (require need (ms_recorded w dn cn c)) = Some true <-> ms_required t c).
  { unfold ms_required, require. cbn [ms_recorded c_name]. destruct (mem (c_name c) need) eqn:Em; cbn [c_notnull].
    - split; [intros _; right; right; now apply Hneed|reflexivity].
    - change ((if ms_says_required c then Some true else None) = Some true <-> c_notnull c = Some true \/ c_identity c <> None \/ in_primary_key t c). split.
      + destruct (ms_says_required c) eqn:E; [|discriminate]. intros _. unfold ms_says_required in E. rewrite !orb_true_iff in E. destruct E as [[E|E]|E].
        * left. destruct (c_notnull c) as [[]|]; try discriminate; reflexivity.
        * right. right. left. destruct (c_key c); try discriminate; reflexivity.
        * right. left. unfold has_identity in E. destruct (c_identity c); congruence.
      + intros H. assert (ms_says_required c = true) as ->; [|reflexivity]. destruct H as [H|[H|H]].
        * unfold ms_says_required. now rewrite H.
        * unfold ms_says_required, has_identity. destruct (c_identity c); [now rewrite orb_true_r|congruence].
        * destruct (Hpk H); [assumption|discriminate]. }
  set (r := require need (ms_recorded w dn cn c)) in *.
  assert (R : exists b, r = set_notnull b (ms_recorded w dn cn c)).
  { unfold r, require. destruct (mem _ need); [eexists; reflexivity|]. exists (c_notnull (ms_recorded w dn cn c)). reflexivity. }
  destruct R as (b & ->). split; [reflexivity|]. split; [|split].
  - unfold ms_same_kind. repeat (split; [reflexivity|]). split; [exact Hnn|]. cbn [set_notnull ms_recorded c_identity c_sequence]. split; [|split].
    + now destruct (c_identity c).
    + now destruct (c_sequence c).
    + now destruct (c_sequence c).
  - unfold default_matches. cbn [set_notnull ms_recorded c_default]. destruct (c_default c) as [d|] eqn:Ed; [|exact Logic.I]. specialize (Hval d eq_refl). destruct d as [[v|] n]; exact Hval.
  - unfold check_matches. cbn [set_notnull ms_recorded c_check c_check_no_inherit]. rewrite Hni. split; [|reflexivity]. destruct (c_check c) as [k|] eqn:Ek; [|exact Logic.I].
    cbn [option_map kept_check ck_definition ck_not_for_replication]. auto.
Qed.

Lemma recorded_reached dn cn c : In c (t_columns t) -> (in_primary_key t c -> ms_says_required c = true) -> ms_column_reached t (ms_recorded w dn cn c) c.
Proof. intros Hc Hpk. apply (required_reached [] dn cn c Hc); [discriminate|]. intros H. left. now apply Hpk. Qed.

Lemma set_autoinc_valid c : In c (t_columns t) -> set_autoinc false c = c.
Proof. intros Hc. destruct (valid_parts c (ma_valid _ _ Hac c Hc)) as (E & _). destruct c; cbn in *; now subst. Qed.

Lemma ms_columns_run : forall rest done prev g out, t_columns t = done ++ rest -> ms_after done g -> ddls_columns Mssql ct t prev rest = Ok out ->
  exists g', run out g = Some g' /\ ms_after (t_columns t) g'.
Proof.
  induction rest as [|c rest IH]; intros done prev g out Hsplit Hg Hrun.
  - cbn [ddls_columns] in Hrun. injection Hrun as <-. exists g. rewrite app_nil_r in Hsplit. rewrite Hsplit. auto.
  - cbn [ddls_columns] in Hrun. destruct (ddls_column Mssql ct t prev c) as [a| | |] eqn:Ea; try discriminate. cbn [bind] in Hrun.
    destruct (ddls_columns Mssql ct t (Some (c_name c)) rest) as [b| | |] eqn:Eb; try discriminate. cbn [bind] in Hrun. injection Hrun as <-.
    assert (Hc : In c (t_columns t)) by (rewrite Hsplit; apply in_or_app; right; now left).
    pose proof (ma_valid _ _ Hac c Hc) as Hv. pose proof (set_autoinc_valid c Hc) as Hai.
    pose proof (ma_names _ _ Hac) as Hnd. rewrite Hsplit, map_app in Hnd. cbn [map] in Hnd.
    assert (Hnew : ~ In (c_name c) (map c_name done)). { apply NoDup_remove_2 in Hnd. intros X. apply Hnd. apply in_or_app. now left. }
    assert (Hdn : forall x, In x done -> c_name x <> c_name c) by (intros x Hx E; apply Hnew; rewrite <- E; now apply in_map).
    enough (exists g1, run a g = Some g1 /\ ms_after (done ++ [c]) g1) as (g1 & E1 & G1).
    { destruct (IH (done ++ [c]) (Some (c_name c)) g1 b) as (g' & E' & G'); [now rewrite <- app_assoc|exact G1|exact Eb|].
      exists g'. rewrite alters_app, E1. auto. }
    unfold ddls_column in Ea. destruct (named c_name (c_name c) (m_columns s)) as [y|] eqn:Ey.
    + destruct (ms_find_some _ _ Ey) as (z & Ez). rewrite Ez in Ea. apply named_some in Ey as Ey'. destruct Ey' as [Hy Hyc].
      destruct (mo_column _ Hs y Hy) as (_ & Hyai & _). cbn [set_position c_autoinc] in Ea. rewrite Hyai, Hai in Ea. fold (set_position z y) in Ea.
      assert (Hn : named c_name (c_name c) (m_columns g) = Some y) by (rewrite (af_rest _ _ Hg) by assumption; exact Ey).
      destruct (ms_column_run c y z Hc Hy Hyc g a (af_sound _ _ Hg) Hn Ea) as (y5 & E5 & H5 & I5).
      exists (put (c_name c) y5 g). split; [exact E5|]. pose proof H5 as (N5 & _).
      constructor; cbn [put with_m_columns m_name m_key m_fks m_indexes].
      * apply (af_name _ _ Hg).
      * apply (af_key _ _ Hg).
      * apply (af_indexes _ _ Hg).
      * apply (af_fks _ _ Hg).
      * eapply ms_alters_sound; [exact Hgiven|apply (af_sound _ _ Hg)|exact E5].
      * intros x Hx. apply in_app_iff in Hx as [Hx|[<-|[]]].
        -- destruct (af_done _ _ Hg x Hx) as (y' & Ey' & Hh). exists y'. split; [|exact Hh]. cbn [put with_m_columns m_columns]. rewrite (named_replaced (c_name c) y5 _ _ N5).
           destruct (String.eqb_spec (c_name x) (c_name c)) as [E|_]; [now apply Hdn in E|]. exact Ey'.
        -- exists y5. split; [|exact H5]. cbn [put with_m_columns m_columns]. now rewrite (named_replaced (c_name c) y5 _ _ N5), String.eqb_refl, Hn.
      * intros n Hx. rewrite map_app, in_app_iff in Hx. cbn [put with_m_columns m_columns]. rewrite (named_replaced (c_name c) y5 _ _ N5).
        destruct (String.eqb_spec n (c_name c)) as [->|_]; [exfalso; apply Hx; right; now left|]. apply (af_rest _ _ Hg). tauto.
      * intros x Hx Ix. cbn [put with_m_columns m_columns] in Hx. apply in_replaced in Hx as [->|[Hx Nx]].
        -- left. exists y. split; [exact Hy|]. congruence.
        -- destruct (af_identity _ _ Hg x Hx Ix) as [X|(x' & X & X')]; [now left|]. right. exists x'. split; [apply in_or_app; now left|exact X'].
    + rewrite (ms_find_none _ Ey), Hai in Ea. unfold ddls_new_column in Ea. destruct (generate_column_definition Mssql c true); try discriminate. cbn [bind] in Ea. injection Ea as <-.
      assert (Hn : named c_name (c_name c) (m_columns g) = None) by (rewrite (af_rest _ _ Hg) by assumption; exact Ey).
      assert (Hns : ~ In (c_name c) (m_names s)) by (now apply named_none in Ey).
      set (r := ms_recorded w (w_name w "DF" (t_name t) (c_name c)) (w_name w "CK" (t_name t) (c_name c)) c).
      set (g1 := with_m_columns (m_columns g ++ [r]) g).
      assert (Hid : has_identity c && existsb has_identity (m_columns g) = false).
      { apply not_true_iff_false. rewrite andb_true_iff, existsb_exists. intros [I1 (x & Hx & I2)].
        assert (I1' : c_identity c <> None) by (unfold has_identity in I1; destruct (c_identity c); congruence).
        assert (I2' : c_identity x <> None) by (unfold has_identity in I2; destruct (c_identity x); congruence).
        destruct (af_identity _ _ Hg x Hx I2') as [(y0 & Hy0 & Iy)|(x' & X & X')].
        - apply Iy. now apply (ss_identity _ _ _ _ Hset c).
        - apply (Hdn x' X). f_equal. apply (ma_identity _ _ Hac); auto. rewrite Hsplit. apply in_or_app. now left. }
      assert (Hrun1 : ms_alter w (EffAddColumn (t_name t) c PosNone) g = Some g1).
      { cbn [ms_alter]. apply mem_false_none in Hn. unfold m_names. rewrite Hn, Hv, Hid, (ss_new_default _ _ _ _ Hset c Hc Hns). reflexivity. }
      exists g1. split; [cbn [alters s_eff]; now rewrite Hrun1|].
      constructor; cbn [g1 with_m_columns m_name m_key m_fks m_indexes m_columns].
      * apply (af_name _ _ Hg).
      * apply (af_key _ _ Hg).
      * apply (af_indexes _ _ Hg).
      * apply (af_fks _ _ Hg).
      * eapply ms_alter_sound; [exact Hgiven| |exact Hrun1]. apply (af_sound _ _ Hg).
      * intros x Hx. apply in_app_iff in Hx as [Hx|[<-|[]]].
        -- destruct (af_done _ _ Hg x Hx) as (y' & Ey' & Hh). exists y'. split; [|exact Hh]. now rewrite named_app, Ey'.
        -- exists r. rewrite named_app, Hn, named_cons. cbn [r ms_recorded c_name]. rewrite String.eqb_refl. split; [reflexivity|]. apply recorded_reached; [exact Hc|].
           now apply (ss_new _ _ _ _ Hset).
      * intros n Hx. rewrite map_app, in_app_iff in Hx. rewrite named_app, (af_rest _ _ Hg) by tauto. destruct (named c_name n (m_columns s)); [reflexivity|].
        rewrite named_cons. cbn [r ms_recorded c_name]. destruct (String.eqb_spec (c_name c) n) as [E|_]; [exfalso; apply Hx; right; now left|reflexivity].
      * intros x Hx Ix. apply in_app_iff in Hx as [Hx|[<-|[]]].
        -- destruct (af_identity _ _ Hg x Hx Ix) as [X|(x' & X & X')]; [now left|]. right. exists x'. split; [apply in_or_app; now left|exact X'].
        -- right. exists c. split; [apply in_or_app; right; now left|]. intros E. apply Ix. cbn [r ms_recorded c_identity]. now rewrite E.
Qed.

Lemma ms_after_none : ms_after [] s.
Proof.
  constructor; try reflexivity; try assumption.
  - intros c [].
  - intros y Hy Iy. left. eauto.
Qed.

(** ** Primary key *)
Lemma ms_current_key : primary_key ct = m_key s.
Proof.
  unfold primary_key, ct. cbn [ms_full t_indexes t_columns]. destruct (m_key s) as [k|] eqn:E; cbn [listed app find].
  - destruct (mo_key _ Hs k E) as [-> _]. reflexivity.
  - assert (find i_primary (m_indexes s) = None) as ->.
    { destruct (find i_primary (m_indexes s)) eqn:Ef; [|reflexivity]. apply find_some in Ef as [Hi Ef]. rewrite (proj1 (mo_index _ Hs _ Hi)) in Ef. discriminate. }
    assert (filter (fun c => is_key_primary (c_key c)) (number 0 (m_columns s)) = []) as ->; [|reflexivity].
    assert (Hk : forall c, In c (m_columns s) -> c_key c = KeyNone) by (intros c Hc; apply (mo_column _ Hs c Hc)). revert Hk.
    generalize 0%Z. induction (m_columns s) as [|x r IH]; intros z Hk; [reflexivity|]. cbn [number filter set_position c_key]. rewrite (Hk x) by now left. cbn [is_key_primary]. apply IH. intros c Hc. apply Hk. now right.
Qed.

Lemma ms_wanted i : primary_key t = Some i -> declares_pk t (Some i) /\ i_primary i = true /\ ms_key_valid i (map c_name (t_columns t)) = true /\ i_unique i = true /\ i_where i = "" /\ i_included i = [] /\
  ms_index_columns i /\ ms_index_options i /\ (i_name i <> "PRIMARY" -> In i (t_indexes t)).
Proof.
  intros E. assert (D : declares_pk t (Some i)) by (rewrite <- E; apply primary_key_declared). split; [exact D|]. rewrite (primary_key_created _ _ Hac) in E.
  assert (Hin : In i (key_declarations t)) by (unfold created_key in E; destruct (key_declarations t); [discriminate|injection E as ->; now left]).
  pose proof (ma_key _ _ Hac i Hin) as V. destruct (created_key_cases w t Hac) as [(E' & _)|[(j & E' & Ej & _)|(x & E' & _ & Hx & _)]]; rewrite E' in E; try discriminate; injection E as <-.
  - assert (Hj : In j (filter i_primary (t_indexes t))) by (rewrite Ej; now left). apply filter_In in Hj as [Hj Pj].
    destruct (mt_primary _ _ _ Hmt j Hj Pj) as (_ & P2 & P3 & P4 & P5 & P6). repeat split; auto; apply P6.
  - repeat split; auto.
    + intros c [<-|[]]. now left.
    + constructor.
    + intros o [].
    + intros X. now elim X.
Qed.

Lemma kept_option_found n L : In n (map io_name ms_option_defaults) -> In n (map io_name L) -> named io_name n (kept_options L) = named io_name n L.
Proof.
  intros H1 H2. destruct (named_in io_name _ _ H2) as (o & Eo). unfold kept_options. rewrite Eo.
  assert (Hmap : forall D, In n (map io_name D) -> named io_name n (map (fun d => match named io_name (io_name d) L with Some o => o | None => d end) D) = Some o); [|now apply Hmap].
  induction D as [|d D IH]; intros HD; [destruct HD|]. cbn [map] in *. rewrite named_cons. destruct (String.eqb_spec (io_name d) n) as [E|N].
  - rewrite E, Eo. apply named_some in Eo as [_ Eo]. now rewrite Eo, String.eqb_refl.
  - destruct HD as [HD|HD]; [congruence|]. destruct (String.eqb_spec (io_name (match named io_name (io_name d) L with Some o => o | None => d end)) n) as [E'|_]; [|now apply IH].
    destruct (named io_name (io_name d) L) as [o'|] eqn:Ed; [|congruence]. apply named_some in Ed as [_ Ed]. congruence.
Qed.

Lemma kept_options_match i : ms_index_options i -> forall o, In o (i_options i) -> exists o', named io_name (io_name o) (kept_options (i_options i)) = Some o' /\ value_matches (io_value o') (io_value o).
Proof.
  intros [O1 O2] o Ho. exists o. rewrite kept_option_found by (auto; now apply in_map). split; [now apply named_self|]. apply value_matches_refl.
Qed.

Lemma kept_columns_match i : ms_index_columns i -> Forall2 index_column_matches (map kept_index_column (i_columns i)) (i_columns i).
Proof.
  unfold ms_index_columns. induction (i_columns i) as [|x r IH]; intros H; cbn [map]; constructor.
  - unfold index_column_matches, kept_index_column. cbn [ic_column ic_direction]. split; [reflexivity|]. destruct (H x (or_introl eq_refl)) as [<-|[<-|[<-|[]]]]; auto.
  - apply IH. intros c Hc. apply H. now right.
Qed.

Lemma key_matches n i : primary_key t = Some i -> index_matches (ms_key n i) i.
Proof.
  intros E. destruct (ms_wanted i E) as (_ & P1 & _ & P3 & P4 & P5 & P6 & P7 & _). unfold index_matches, ms_key. cbn [i_unique i_primary i_columns i_where i_included i_options]. rewrite P1, P3, P4, P5.
  repeat (split; [reflexivity|]). split; [now apply kept_columns_match|]. split; [reflexivity|]. split; [reflexivity|]. now apply kept_options_match.
Qed.
Lemma index_kept_matches i : i_primary i = false -> i_where i = "" -> ms_index_columns i -> ms_index_options i -> index_matches (ms_index i) i.
Proof.
  intros P1 P4 P6 P7. unfold index_matches, ms_index. cbn [i_unique i_primary i_columns i_where i_included i_options]. rewrite P1, P4.
  repeat (split; [reflexivity|]). split; [now apply kept_columns_match|]. split; [reflexivity|]. split; [reflexivity|]. now apply kept_options_match.
Qed.

(** The key after the section; a key that is not desired goes later. *)
Definition new_key : option index :=
  match m_key s, primary_key t with
  | None, Some i => Some (ms_key (key_name w (t_name t) i) i)
  | k, _ => k
  end.

Lemma same_key_names i : primary_key t = Some i -> key_name w (t_name t) i = i_name i \/ i_name i = "PRIMARY".
Proof. intros _. unfold key_name. destruct (String.eqb_spec (i_name i) "PRIMARY"); auto. Qed.

Lemma ms_primary_run g pk : m_name g = t_name t -> m_key g = m_key s -> m_indexes g = m_indexes s ->
  (forall c, In c (t_columns t) -> exists y, named c_name (c_name c) (m_columns g) = Some y /\ ms_column_reached t y c) ->
  ms_sound g -> ddls_primary_key Mssql ct t = Ok pk ->
  run pk g = Some (with_m_key new_key g).
Proof.
  intros Hgn Hgk Hgi Hcols Sg H. unfold ddls_primary_key in H. cbv zeta in H. rewrite ms_current_key in H.
  assert (Hself : forall k, m_key g = k -> with_m_key k g = g) by (intros k <-; now destruct g).
  destruct (are_same_primary_keys (m_key s) (primary_key t)) eqn:Ea.
  - injection H as <-. cbn [alters]. unfold new_key. destruct (m_key s) as [k|] eqn:Ek, (primary_key t) as [i|] eqn:Ei; try discriminate; now rewrite Hself.
  - destruct (m_key s) as [k|] eqn:Ek, (primary_key t) as [i|] eqn:Ei; try discriminate.
    + exfalso. assert (D : declares_pk t (Some i)) by (rewrite <- Ei; apply primary_key_declared). destruct (ss_key _ _ _ _ Hset k i Ek D) as [M _].
      cbn [are_same_primary_keys] in Ea. apply are_same_indexes_spec in M. congruence.
    + cbn [bind] in H. injection H as <-. unfold new_key. rewrite Ek. cbn [app alters]. now rewrite Hself.
    + cbn [bind] in H. destruct (stmt_add_index Mssql (t_name t) i) as [x| | |] eqn:Ex; try discriminate. cbn [bind app] in H. injection H as <-.
      destruct (ms_wanted i Ei) as (D & P1 & V & _).
      unfold stmt_add_index in Ex. destruct (generate_add_index Mssql (t_name t) i); try discriminate. cbn [bind] in Ex. injection Ex as <-. rewrite P1.
      cbn [alters s_eff ms_alter]. rewrite Hgk. unfold new_key. rewrite Ek, Ei.
      assert (ms_key_valid i (m_names g) = true) as ->.
      { unfold ms_key_valid in *. rewrite !andb_true_iff in *. destruct V as [V1 V2]. split; [exact V1|]. rewrite all_in_spec in *. intros x Hx. specialize (V2 x Hx).
        apply in_map_iff in V2 as (c & <- & Hc). destruct (Hcols c Hc) as (y & Ey & _). apply named_some in Ey as [Hy <-]. unfold m_names. now apply in_map. }
      assert (mem (key_name w (t_name t) i) (map i_name (m_indexes g)) = false) as ->.
      { apply mem_not_in. rewrite Hgi. now apply (ss_new_key_name _ _ _ _ Hset). }
      assert (forallb (fun c => negb (mem (c_name c) (SpecMysql.key_columns i)) || match c_notnull c with Some true => true | _ => false end) (m_columns g) = true) as ->; [|reflexivity].
      apply forallb_forall. intros y Hy. destruct (mem (c_name y) (SpecMysql.key_columns i)) eqn:Em; [|reflexivity]. cbn [negb orb]. apply mem_in in Em.
      assert (Hin : In (c_name y) (map c_name (t_columns t))) by (unfold ms_key_valid in V; rewrite !andb_true_iff, all_in_spec in V; now apply V).
      apply in_map_iff in Hin as (c & Ec & Hc). destruct (Hcols c Hc) as (y' & Ey' & (N & K & _)). pose proof (named_self c_name _ y (mo_names _ Sg) Hy) as A. rewrite Ec in Ey'. assert (y' = y) by congruence. subst y'.
      destruct K as (_ & _ & _ & K & _). rewrite (proj2 K); [reflexivity|]. right. right. apply (in_primary_created w t c Hac Hc). exists i. rewrite <- (primary_key_created _ _ Hac). split; [exact Ei|now rewrite Ec].
Qed.

(** ** The columns and the key are settled *)
Record ms_middle (g : ms_tab) : Prop := {
  mi_name : m_name g = t_name t;
  mi_sound : ms_sound g;
  mi_columns : forall c, In c (t_columns t) -> exists y, named c_name (c_name c) (m_columns g) = Some y /\ ms_column_reached t y c;
  mi_others : forall n, ~ In n (map c_name (t_columns t)) -> named c_name n (m_columns g) = named c_name n (m_columns s);
  mi_key : m_key g = new_key;
  mi_indexes : m_indexes g = m_indexes s;
  mi_fks : m_fks g = m_fks s }.

Lemma ms_middle_run cols pk : ddls_columns Mssql ct t None (t_columns t) = Ok cols -> ddls_primary_key Mssql ct t = Ok pk ->
  exists g, run (cols ++ pk) s = Some g /\ ms_middle g.
Proof.
  intros Hcols Hpk. destruct (ms_columns_run (t_columns t) [] None s cols eq_refl ms_after_none Hcols) as (g1 & E1 & [A1 A2 A3 A4 A5 A6 A7 A8]).
  assert (E2 : run pk g1 = Some (with_m_key new_key g1)) by (apply ms_primary_run; auto; congruence).
  exists (with_m_key new_key g1). split; [now rewrite alters_app, E1|]. constructor; cbn [with_m_key m_name m_key m_columns m_indexes m_fks]; auto.
  - congruence.
  - eapply ms_alters_sound; eauto.
Qed.
End Kept.
