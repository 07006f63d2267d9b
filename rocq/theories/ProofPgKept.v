(** One run on an ideal PostgreSQL: the statements about a table that stays. *)
From Coq Require Import String Ascii List ZArith Bool Lia.
From Verif Require Import GoStr GoStrFacts Ast Generator SpecPlan ProofPlan ProofSteps ProofTables ProofCompare ProofSelf SpecColumns
  ProofColumns SpecOrder ProofOrder SpecMysql ProofMysql ProofConverge ProofSettle SpecDatabase ProofDatabase SpecPostgres SpecConvergePg
  ProofPg ProofPgDump ProofPgColumn.
Import ListNotations.
Local Open Scope string_scope.
Local Open Scope list_scope.

Section Kept.
Variable castable : column -> column -> bool.
Notation run := (alters (pg_alter castable)).

Variables (l : list ddl) (t : table) (s : pg_tab).
Hypothesis Hac : accepted t.
Hypothesis Hpt : pg_table l t.
Hypothesis Hs : sound s.
Hypothesis Hex : exportable s.
Hypothesis Hset : pg_settles castable l t s.
Hypothesis Hname : g_name s = t_name t.
Let ct := exported_table s.

(** ** Columns *)
Definition added (c : column) : bool := negb (mem (c_name c) (map c_name (g_columns s))).
Definition new_uniques (d : list column) : list index :=
  map (fun c => pg_unique (t_name t) (c_name c)) (filter (fun c => is_unique (c_key c) && added c) d).

Record after_columns (d : list column) (g : pg_tab) : Prop := {
  ag_name : g_name g = g_name s;
  ag_pk : g_pk g = g_pk s;
  ag_fks : g_fks g = g_fks s;
  ag_policies : g_policies g = g_policies s;
  ag_sound : sound g;
  ag_done : forall c, In c d -> exists y, named c_name (c_name c) (g_columns g) = Some y /\ half t c y;
  ag_rest : forall n, ~ In n (map c_name d) -> named c_name n (g_columns g) = named c_name n (g_columns s);
  ag_checks : forall y k, In y (g_columns g) -> has_check k y = true ->
    (exists y0, In y0 (g_columns s) /\ c_name y0 = c_name y /\ has_check k y0 = true) \/ k = auto_check (t_name t) (c_name y);
  ag_indexes : g_indexes g = g_indexes s ++ new_uniques d;
  ag_owned : g_owned g = g_owned s ++ map i_name (new_uniques d) }.

Lemma find_current n : find_column (t_columns ct) n =
  match named c_name n (number 0 (map (exported_column s) (g_columns s))) with Some c => Some c | None => None end.
Proof. unfold find_column, ct. cbn [exported_table t_columns]. unfold named. now destruct (find _ _). Qed.

Lemma find_current_some n y : named c_name n (g_columns s) = Some y -> exists z, find_column (t_columns ct) n = Some (set_position z (exported_column s y)).
Proof.
  intros H. rewrite find_current. assert (H' : named c_name n (map (exported_column s) (g_columns s)) = Some (exported_column s y)).
  { rewrite named_map by reflexivity. now rewrite H. }
  destruct (named_number_some n _ _ 0%Z H') as (z & ->). eauto.
Qed.
Lemma find_current_none n : named c_name n (g_columns s) = None -> find_column (t_columns ct) n = None.
Proof. intros H. rewrite find_current, named_number; [reflexivity|]. rewrite named_map by reflexivity. now rewrite H. Qed.

Lemma valid_autoinc c : valid_definition c = true -> c_autoinc c = false /\ set_autoinc false c = c.
Proof.
  intros H. assert (c_autoinc c = false) as E. { unfold valid_definition in H. rewrite !andb_true_iff, !negb_true_iff in H. tauto. }
  split; [exact E|]. destruct c; cbn in *; now subst.
Qed.

Lemma recorded_half k c : In c (t_columns t) -> valid_definition c = true -> half t c (pg_recorded k c).
Proof.
  intros Hc Hv. pose proof (pt_columns _ _ Hpt c Hc) as [_ Hd].
  assert (Hreq : required c -> says_required c = true).
  { unfold required, says_required. intros [E|(_ & E)]; [now rewrite E|]. destruct (is_serial (wanted_type c)) eqn:Es; [now rewrite !orb_true_r|].
    exfalso. unfold wanted_type in Es. destruct E as [E|E]; rewrite E in Es; discriminate. }
  split; [reflexivity|]. split; [repeat split|]. cbn [pg_recorded c_notnull c_identity c_default c_check c_check_no_inherit].
  split; [intros H; now rewrite (Hreq H)|]. split; [destruct (says_required c); [auto|discriminate]|].
  split; [now destruct (c_identity c)|]. split; [unfold default_matches; cbn [pg_recorded c_default]; rewrite kept_real; apply value_matches_refl|].
  split; [now destruct (c_check c)|reflexivity].
Qed.

Lemma columns_run : forall rest done prev g out, t_columns t = done ++ rest -> after_columns done g -> ddls_columns Postgres ct t prev rest = Ok out ->
  exists g', run out g = Some g' /\ after_columns (t_columns t) g'.
Proof.
  induction rest as [|c rest IH]; intros done prev g out Hsplit Hg Hrun.
  - cbn [ddls_columns] in Hrun. injection Hrun as <-. exists g. rewrite app_nil_r in Hsplit. rewrite Hsplit. auto.
  - cbn [ddls_columns] in Hrun. destruct (ddls_column Postgres ct t prev c) as [a| | |] eqn:Ea; try discriminate. cbn [bind] in Hrun.
    destruct (ddls_columns Postgres ct t (Some (c_name c)) rest) as [b| | |] eqn:Eb; try discriminate. cbn [bind] in Hrun. injection Hrun as <-.
    assert (Hc : In c (t_columns t)) by (rewrite Hsplit; apply in_or_app; right; now left).
    pose proof (ac_valid _ Hac c Hc) as Hv. destruct (valid_autoinc c Hv) as [Hai1 Hai2].
    pose proof (ac_names _ Hac) as Hnd. rewrite Hsplit, map_app in Hnd. cbn [map] in Hnd.
    assert (Hnew : ~ In (c_name c) (map c_name done)). { apply NoDup_remove_2 in Hnd. intros X. apply Hnd. apply in_or_app. now left. }
    assert (Hdn : forall x, In x done -> c_name x <> c_name c) by (intros x Hx E; apply Hnew; rewrite <- E; now apply in_map).
    enough (exists g1, run a g = Some g1 /\ after_columns (done ++ [c]) g1) as (g1 & E1 & G1).
    { destruct (IH (done ++ [c]) (Some (c_name c)) g1 b) as (g' & E' & G'); [now rewrite <- app_assoc|exact G1|exact Eb|].
      exists g'. rewrite alters_app, E1. auto. }
    unfold ddls_column in Ea. destruct (named c_name (c_name c) (g_columns s)) as [y|] eqn:Ey.
    + destruct (find_current_some _ _ Ey) as (z & Ez). rewrite Ez in Ea. cbn [set_position exported_column c_autoinc] in Ea. cbv iota in Ea. rewrite Hai2 in Ea.
      apply named_some in Ey as Ey'. destruct Ey' as [Hy Hyc].
      assert (Hn : named c_name (c_name c) (g_columns g) = Some y) by (rewrite (ag_rest _ _ Hg) by assumption; exact Ey).
      destruct (column_run castable l t s Hac Hpt Hs Hex Hset c y z Hc Hy Hyc g a (ag_sound _ _ Hg) (ag_pk _ _ Hg) Hn) as (y5 & E5 & H5 & K5).
      { intros Hm x Hx Nx. apply not_true_iff_false. intros Hh. destruct (sp_check _ _ _ _ Hset c y Hc Hy Hyc Hm) as (_ & _ & P3 & _ & P5).
        destruct (ag_checks _ _ Hg x _ Hx Hh) as [(y0 & Hy0 & En & Hh0)|En]; [rewrite P5 in Hh0; congruence|].
        rewrite P3 in En. apply auto_check_inj in En. congruence. }
      { exact Ea. }
      exists (becomes (c_name c) g y5). split; [exact E5|]. pose proof H5 as (N5 & _).
      assert (Hnu : new_uniques (done ++ [c]) = new_uniques done).
      { unfold new_uniques. rewrite filter_app. cbn [filter]. assert (added c = false) as ->; [|now rewrite andb_false_r, app_nil_r].
        unfold added. apply negb_false_iff. apply mem_in. rewrite <- Hyc. now apply in_map. }
      constructor; cbn [becomes with_cols g_name g_pk g_fks g_policies g_indexes g_owned]; rewrite ?Hnu.
      * apply (ag_name _ _ Hg).
      * apply (ag_pk _ _ Hg).
      * apply (ag_fks _ _ Hg).
      * apply (ag_policies _ _ Hg).
      * eapply alters_sound; [apply (ag_sound _ _ Hg)|exact E5].
      * intros x Hx. apply in_app_iff in Hx as [Hx|[<-|[]]].
        -- destruct (ag_done _ _ Hg x Hx) as (y' & Ey' & Hh). exists y'. split; [|exact Hh]. cbn [becomes with_cols g_columns]. rewrite (named_replaced (c_name c) y5 _ _ N5).
           destruct (String.eqb_spec (c_name x) (c_name c)) as [E|_]; [now apply Hdn in E|]. exact Ey'.
        -- exists y5. split; [|exact H5]. cbn [becomes with_cols g_columns]. now rewrite (named_replaced (c_name c) y5 _ _ N5), String.eqb_refl, Hn.
      * intros n Hx. rewrite map_app, in_app_iff in Hx. cbn [becomes with_cols g_columns]. rewrite (named_replaced (c_name c) y5 _ _ N5).
        destruct (String.eqb_spec n (c_name c)) as [->|_]; [exfalso; apply Hx; right; now left|]. apply (ag_rest _ _ Hg). tauto.
      * intros x k Hx Hk. cbn [becomes with_cols g_columns] in Hx. apply in_replaced in Hx as [->|[Hx Nx]]; [|now apply (ag_checks _ _ Hg)].
        destruct (K5 k Hk) as [Hk0|Hk0]; [|right; now rewrite N5]. left. exists y. rewrite N5. auto.
      * apply (ag_indexes _ _ Hg).
      * apply (ag_owned _ _ Hg).
    + rewrite (find_current_none _ Ey), Hai2 in Ea. unfold ddls_new_column in Ea. destruct (generate_column_definition Postgres c true); try discriminate. cbn [bind] in Ea. injection Ea as <-.
      assert (Hn : named c_name (c_name c) (g_columns g) = None) by (rewrite (ag_rest _ _ Hg) by assumption; exact Ey).
      assert (Hns : ~ In (c_name c) (map c_name (g_columns s))) by (now apply named_none in Ey).
      assert (Had : added c = true) by (unfold added; apply negb_true_iff; now apply mem_not_in).
      set (k := auto_check (g_name g) (c_name c)). assert (Hk : k = auto_check (t_name t) (c_name c)) by (unfold k; now rewrite (ag_name _ _ Hg), Hname).
      assert (Hfree : c_check c <> None -> existsb (has_check k) (g_columns g) = false).
      { intros Hcc. apply not_true_iff_false. intros H. apply existsb_exists in H as (x & Hx & Hh). destruct (ag_checks _ _ Hg x k Hx Hh) as [(y0 & Hy0 & _ & Hh0)|En].
        - rewrite Hk in Hh0. rewrite (sp_new_check _ _ _ _ Hset c y0 Hc Hns Hcc Hy0) in Hh0. discriminate.
        - rewrite Hk in En. apply auto_check_inj in En. apply named_none in Hn. apply Hn. rewrite En. now apply in_map. }
      assert (Hnu : new_uniques (done ++ [c]) = new_uniques done ++ if is_unique (c_key c) then [pg_unique (t_name t) (c_name c)] else []).
      { unfold new_uniques. rewrite filter_app, map_app. cbn [filter]. rewrite Had, andb_true_r. now destruct (is_unique (c_key c)). }
      assert (Hfreeix : is_unique (c_key c) = true -> mem (i_name (pg_unique (g_name g) (c_name c))) (index_names_in g) = false).
      { intros Hu. apply mem_not_in. unfold index_names_in. rewrite (ag_name _ _ Hg), Hname, (ag_indexes _ _ Hg), map_app, in_app_iff. cbn [pg_unique i_name].
        destruct (sp_new_unique _ _ _ _ Hset c Hc Hu Hns) as [U1 _]. intros [X|X]; [tauto|]. unfold new_uniques in X. rewrite map_map in X. apply in_map_iff in X as (x & En & Hx).
        cbn [pg_unique i_name] in En. apply unique_name_inj in En. apply filter_In in Hx as [Hx _]. now apply (Hdn x Hx). }
      set (g' := with_cols (g_columns g ++ [pg_recorded k c]) g).
      set (g1 := if is_unique (c_key c) then with_idx (g_indexes g ++ [pg_unique (g_name g) (c_name c)]) (g_owned g ++ [i_name (pg_unique (g_name g) (c_name c))]) g' else g').
      assert (Hrun1 : pg_alter castable (EffAddColumn (t_name t) c PosNone) g = Some g1).
      { cbn [pg_alter]. apply mem_false_none in Hn. unfold column_names_of. rewrite Hn, Hv. cbn [orb negb]. fold k.
        assert (match c_check c with Some _ => existsb (has_check k) (g_columns g) | None => false end = false) as ->.
        { destruct (c_check c) eqn:Ecc; [|reflexivity]. apply Hfree. discriminate. }
        fold g'. unfold g1. destruct (is_unique (c_key c)); [|reflexivity]. now rewrite (Hfreeix eq_refl). }
      exists g1. split; [cbn [alters s_eff]; now rewrite Hrun1|].
      assert (Hcols : g_columns g1 = g_columns g ++ [pg_recorded k c]) by (unfold g1; destruct (is_unique (c_key c)); reflexivity).
      constructor.
      * transitivity (g_name g); [|apply (ag_name _ _ Hg)]. unfold g1. now destruct (is_unique _).
      * transitivity (g_pk g); [|apply (ag_pk _ _ Hg)]. unfold g1. now destruct (is_unique _).
      * transitivity (g_fks g); [|apply (ag_fks _ _ Hg)]. unfold g1. now destruct (is_unique _).
      * transitivity (g_policies g); [|apply (ag_policies _ _ Hg)]. unfold g1. now destruct (is_unique _).
      * eapply alter_sound; [|exact Hrun1]. apply (ag_sound _ _ Hg).
      * intros x Hx. rewrite Hcols. apply in_app_iff in Hx as [Hx|[<-|[]]].
        -- destruct (ag_done _ _ Hg x Hx) as (y' & Ey' & Hh). exists y'. split; [|exact Hh]. now rewrite named_app, Ey'.
        -- exists (pg_recorded k c). rewrite named_app, Hn, named_cons. cbn [pg_recorded c_name]. rewrite String.eqb_refl. split; [reflexivity|]. rewrite Hk. now apply recorded_half.
      * intros n Hx. rewrite map_app, in_app_iff in Hx. rewrite Hcols, named_app, (ag_rest _ _ Hg) by tauto. destruct (named c_name n (g_columns s)); [reflexivity|].
        rewrite named_cons. cbn [pg_recorded c_name]. destruct (String.eqb_spec (c_name c) n) as [E|_]; [exfalso; apply Hx; right; now left|reflexivity].
      * intros x k' Hx Hh. rewrite Hcols in Hx. apply in_app_iff in Hx as [Hx|[<-|[]]]; [now apply (ag_checks _ _ Hg)|]. right.
        unfold has_check in Hh. cbn [pg_recorded c_check c_name] in *. destruct (c_check c); [|discriminate]. cbn [option_map ck_constraint] in Hh. apply String.eqb_eq in Hh. congruence.
      * rewrite Hnu, app_assoc, <- (ag_indexes _ _ Hg). unfold g1. rewrite (ag_name _ _ Hg), Hname. destruct (is_unique _); [reflexivity|now rewrite app_nil_r].
      * rewrite Hnu, map_app, app_assoc, <- (ag_owned _ _ Hg). unfold g1. rewrite (ag_name _ _ Hg), Hname. destruct (is_unique _); [reflexivity|]. cbn [map]. now rewrite app_nil_r.
Qed.

Lemma after_none : after_columns [] s.
Proof.
  constructor; try reflexivity; try assumption.
  - intros c [].
  - intros y k Hy Hk. left. eauto.
  - cbn. now rewrite app_nil_r.
  - cbn. now rewrite app_nil_r.
Qed.

(** ** Primary key *)
Definition wanted_pk : option (string * list string) := option_map (fun i => (pkey_name (t_name t), key_columns i)) (primary_key t).

Record pk_shape (i : index) : Prop := {
  pi_primary : i_primary i = true;
  pi_type : to_lower (i_type i) = "primary key";
  pi_unique : i_unique i = true;
  pi_where : i_where i = "";
  pi_included : i_included i = [];
  pi_options : i_options i = [];
  pi_columns : forall c, In c (i_columns i) -> ic_length c = None /\ (ic_direction c = "" \/ ic_direction c = "asc");
  pi_some : key_columns i <> [];
  pi_distinct : NoDup (key_columns i);
  pi_known : forall x, In x (key_columns i) -> In x (map c_name (t_columns t)) }.

Lemma wanted_shape : declared_key t = wanted_pk /\ forall i, primary_key t = Some i -> pk_shape i.
Proof.
  pose proof (ac_keys _ Hac) as H1. pose proof (ac_key _ Hac) as H2. pose proof (ac_primary _ Hac) as H3. pose proof (pt_primary _ _ Hpt) as H4.
  unfold declared_key, wanted_pk, primary_key. unfold pk_declarations in *. destruct (t_indexes t) as [|i r] eqn:Ei.
  - cbn [find map] in *. rewrite app_nil_r in *. destruct (filter (fun c => is_key_primary (c_key c)) (t_columns t)) as [|c [|c' r]] eqn:Ef; cbn [map length] in *; [|clear H4|lia].
    + split; [reflexivity|discriminate].
    + split; [reflexivity|]. intros i E. injection E as <-. destruct (H2 _ (or_introl eq_refl)) as (A & B & C). cbn [snd] in *.
      constructor; try reflexivity; try assumption; try (cbn [i_columns]; intros x [<-|[]]; cbn; auto).
  - cbn [find map]. rewrite (H3 i) by now left. cbn [find option_map] in *.
    assert (filter (fun c => is_key_primary (c_key c)) (t_columns t) = [] /\ r = []) as [Ef ->].
    { rewrite app_length in H1. cbn [map length] in H1. rewrite !map_length in H1. split; [destruct (filter _ _)|destruct r]; cbn [length] in H1; try reflexivity; lia. }
    rewrite Ef in *. cbn [map app] in *. destruct (H4 i (or_introl eq_refl)) as (P1 & P2 & P3 & P4 & P5 & P6 & P7).
    destruct (H2 _ (or_introl eq_refl)) as (A & B & C). cbn [snd] in *. split.
    + f_equal. f_equal. destruct (String.eqb_spec (i_name i) "PRIMARY"); [reflexivity|]. destruct P1 as [P1|[P1|[]]]; congruence.
    + intros i' E. injection E as <-. constructor; try assumption. now apply H3; left.
Qed.

Lemma in_key_spec c : In c (t_columns t) -> (in_primary_key t c <-> exists i, primary_key t = Some i /\ In (c_name c) (key_columns i)).
Proof.
  intros Hc. pose proof (ac_keys _ Hac) as H1. pose proof (ac_primary _ Hac) as H3. unfold in_primary_key, primary_key. unfold pk_declarations in H1.
  rewrite app_length, !map_length in H1. destruct (t_indexes t) as [|i r] eqn:Ei.
  - cbn [find]. split.
    + intros [E|(i & ic & [] & _)]. assert (Hf : In c (filter (fun c => is_key_primary (c_key c)) (t_columns t))) by (apply filter_In; split; [exact Hc|now rewrite E]).
      destruct (filter _ _) as [|x f]; [destruct Hf|]. cbn [map]. eexists. split; [reflexivity|]. unfold key_columns. cbn [i_columns].
      change (In (c_name c) (map ic_column (map (fun c => mkIndexColumn (c_name c) None "") (x :: f)))). rewrite map_map. cbn [ic_column]. now apply in_map.
    + intros (i & E & Hin). left. destruct (filter (fun c => is_key_primary (c_key c)) (t_columns t)) as [|x f] eqn:Ef; [discriminate|]. cbn [map] in E. injection E as <-.
      change (In (c_name c) (map ic_column (map (fun c => mkIndexColumn (c_name c) None "") (x :: f)))) in Hin. rewrite map_map in Hin. cbn [ic_column] in Hin.
      apply in_map_iff in Hin as (y & En & Hy). rewrite <- Ef in Hy. apply filter_In in Hy as [Hy Hk].
      pose proof (named_self c_name _ y (ac_names _ Hac) Hy) as A1. pose proof (named_self c_name _ c (ac_names _ Hac) Hc) as A2. rewrite En in A1. assert (y = c) as -> by congruence.
      now destruct (c_key c).
  - cbn [find]. rewrite (H3 i) by now left. cbn [length] in H1. split.
    + intros [E|(i' & ic & Hi & _ & Hic & En)].
      * exfalso. assert (Hf : In c (filter (fun c => is_key_primary (c_key c)) (t_columns t))) by (apply filter_In; split; [exact Hc|now rewrite E]).
        destruct (filter _ _); [destruct Hf|cbn [length] in H1; lia].
      * exists i. split; [reflexivity|]. destruct r; [|cbn [length] in H1; lia]. destruct Hi as [<-|[]]. rewrite <- En. unfold key_columns. now apply in_map.
    + intros (i' & E & Hin). injection E as <-. right. unfold key_columns in Hin. apply in_map_iff in Hin as (ic & En & Hic). exists i, ic.
      split; [now left|]. split; [apply H3; now left|]. auto.
Qed.

Definition shown_pk (ks : list string) : index :=
  mkIndex "PRIMARY" "primary key" (map (fun x => mkIndexColumn x None "asc") ks) true true "" [] false "" "" [].

Lemma current_pk : primary_key ct = match g_pk s with Some (_, ks) => Some (shown_pk ks) | None => None end.
Proof.
  unfold primary_key, ct. cbn [exported_table t_indexes t_columns]. rewrite (exported_indexes_eq _ Hex). unfold exported_pk.
  destruct (g_pk s) as [[k ks]|]; [reflexivity|]. cbn [app].
  assert (find i_primary (g_indexes s) = None) as ->.
  { destruct (find i_primary (g_indexes s)) eqn:E; [|reflexivity]. apply find_some in E as [Hi E]. rewrite (so_index _ Hs _ Hi) in E. discriminate. }
  assert (filter (fun c => is_key_primary (c_key c)) (number 0 (map (exported_column s) (g_columns s))) = []) as ->; [|reflexivity].
  generalize 0%Z. induction (g_columns s) as [|x r IH]; intros z; [reflexivity|]. cbn [map number filter set_position exported_column c_key]. destruct (existsb _ _); apply IH.
Qed.

Lemma shown_matches ks i : pk_shape i -> (are_same_indexes (shown_pk ks) i = true <-> ks = key_columns i).
Proof.
  intros [P1 P2 P3 P4 P5 P6 P7 _ _ _]. rewrite are_same_indexes_spec. split.
  - intros H. apply index_matches_columns in H. rewrite <- H. unfold key_columns, shown_pk. cbn [i_columns]. rewrite map_map. symmetry. apply map_id.
  - intros ->. unfold index_matches, shown_pk. cbn [i_unique i_primary i_columns i_where i_included i_options]. rewrite P1, P3, P4, P5, P6. repeat (split; [reflexivity|]). split; [|split; [reflexivity|]; split; [reflexivity|intros o []]].
    unfold key_columns. clear -P7. induction (i_columns i) as [|x r IH]; cbn [map]; constructor.
    + unfold index_column_matches. cbn [ic_column ic_direction]. split; [reflexivity|]. destruct (P7 x (or_introl eq_refl)) as [_ [->| ->]]; auto.
    + apply IH. intros c Hc. apply P7. now right.
Qed.

Lemma require_none L : map (require []) L = L.
Proof. rewrite <- (map_id L) at 2. apply map_ext. reflexivity. Qed.

Lemma primary_run g pk : g_name g = t_name t -> g_pk g = g_pk s ->
  (forall x, In x (map c_name (t_columns t)) -> In x (map c_name (g_columns g))) ->
  (forall i, In i (g_indexes g) -> index_name_ok (i_name i)) -> ddls_primary_key Postgres ct t = Ok pk ->
  exists R, run pk g = Some (with_pk wanted_pk (with_cols (map (require R) (g_columns g)) g)) /\
            forall x, In x R -> exists i, primary_key t = Some i /\ In x (key_columns i).
Proof.
  intros Hgn Hgp Hcols Hix H. unfold ddls_primary_key in H. cbv zeta in H. rewrite current_pk in H. destruct wanted_shape as [_ Hw].
  destruct (are_same_primary_keys _ (primary_key t)) eqn:Ea.
  - injection H as <-. exists []. split; [|intros x []]. cbn [alters]. rewrite require_none. f_equal.
    assert (wanted_pk = g_pk g) as ->; [|now destruct g]. rewrite Hgp. unfold wanted_pk. destruct (g_pk s) as [[k ks]|] eqn:Ep, (primary_key t) as [i|] eqn:Ei; try discriminate; [|reflexivity].
    cbn [are_same_primary_keys] in Ea. apply shown_matches in Ea; [|now apply Hw]. rewrite (ex_pk _ Hex _ _ Ep), Hname, Ea. reflexivity.
  - clear Ea.
    assert (exists dr ad, pk = dr ++ ad /\ run dr g = Some (with_pk None g) /\
       match primary_key t with None => Ok [] | Some i => do x <- stmt_add_index Postgres (t_name t) i; Ok [x] end = Ok ad) as (dr & ad & -> & Edr & Ead).
    { destruct (g_pk s) as [[k ks]|] eqn:Ep.
      - destruct (split_first "." (t_name t)) as [[a b]|] eqn:Es; [|discriminate]. cbn [bind] in H.
        destruct (match primary_key t with None => Ok [] | Some i => do x <- stmt_add_index Postgres (t_name t) i; Ok [x] end) as [ad| | |] eqn:Ead; try discriminate. injection H as <-.
        match goal with |- context [?x :: ad] => exists [x], ad end. split; [reflexivity|]. split; [|reflexivity]. cbn [alters s_eff pg_alter]. rewrite Hgp. rewrite (ex_pk _ Hex _ _ Ep), Hname, Hgn, String.eqb_refl. reflexivity.
      - cbn [bind] in H. destruct (match primary_key t with None => Ok [] | Some i => do x <- stmt_add_index Postgres (t_name t) i; Ok [x] end) as [ad| | |] eqn:Ead; try discriminate. injection H as <-.
        exists [], ad. split; [reflexivity|]. split; [|reflexivity]. cbn [alters]. f_equal. destruct g; cbn in *; now subst. }
    unfold wanted_pk. destruct (primary_key t) as [i|] eqn:Ei.
    + destruct (stmt_add_index Postgres (t_name t) i) as [x| | |] eqn:Ex; try discriminate. cbn [bind] in Ead. injection Ead as <-. specialize (Hw i eq_refl). destruct Hw as [P1 P2 P3 P4 P5 P6 P7 P8 P9 P10].
      unfold stmt_add_index in Ex. destruct (generate_add_index Postgres (t_name t) i); try discriminate. cbn [bind] in Ex. injection Ex as <-. rewrite P1.
      exists (key_columns i). split; [|eauto]. rewrite alters_app, Edr. cbn [alters s_eff pg_alter]. cbn [with_pk g_pk g_columns g_name g_indexes]. rewrite P2, String.eqb_refl. cbn [andb].
      assert (forallb (fun c => match ic_length c with None => negb (String.eqb (ic_direction c) "desc") | Some _ => false end) (i_columns i) = true) as ->.
      { apply forallb_forall. intros c Hc. destruct (P7 c Hc) as [-> [-> | ->]]; reflexivity. }
      assert (Nat.eqb (length (i_columns i)) 0 = false) as ->. { destruct (i_columns i) eqn:E; [|reflexivity]. exfalso. apply P8. unfold key_columns. now rewrite E. }
      rewrite (proj2 (distinct_spec _) P9). unfold column_names_of. cbn [with_pk g_columns]. rewrite (proj2 (all_in_spec _ _)) by auto.
      assert (mem (pkey_name (g_name g)) (index_names_in (with_pk None g)) = false) as ->.
      { apply mem_not_in. unfold index_names_in. cbn [with_pk g_indexes]. intros X. apply in_map_iff in X as (k & Ek & Hk). apply Hix in Hk. now apply (index_name_not_pkey (i_name k) (g_name g)) in Hk. }
      cbn [negb andb option_map]. now rewrite Hgn.
    + injection Ead as <-. rewrite app_nil_r. exists []. split; [|intros x []]. cbn [option_map]. rewrite require_none, Edr. now destruct g.
Qed.

(** ** Everything but foreign keys, indexes and policies is now settled *)
Record middle (g : pg_tab) : Prop := {
  m_name : g_name g = t_name t;
  m_sound : sound g;
  m_columns : forall c, In c (t_columns t) -> exists y, named c_name (c_name c) (g_columns g) = Some y /\ pg_column_reached t y c;
  m_others : forall n, ~ In n (map c_name (t_columns t)) -> (In n (map c_name (g_columns g)) <-> In n (map c_name (g_columns s)));
  m_pk : g_pk g = wanted_pk;
  m_indexes : g_indexes g = g_indexes s ++ new_uniques (t_columns t);
  m_owned : g_owned g = g_owned s ++ map i_name (new_uniques (t_columns t));
  m_fks : g_fks g = g_fks s;
  m_policies : g_policies g = g_policies s }.

Lemma new_unique_ok d i : In i (new_uniques d) -> index_name_ok (i_name i).
Proof. intros H. unfold new_uniques in H. apply in_map_iff in H as (c & <- & _). apply unique_name_ok. Qed.

Lemma middle_run cols pk : ddls_columns Postgres ct t None (t_columns t) = Ok cols -> ddls_primary_key Postgres ct t = Ok pk ->
  exists g, run (cols ++ pk) s = Some g /\ middle g.
Proof.
  intros Hcols Hpk. destruct (columns_run (t_columns t) [] None s cols eq_refl after_none Hcols) as (g1 & E1 & G1).
  destruct (primary_run g1 pk) as (R & E2 & HR).
  - rewrite (ag_name _ _ G1). exact Hname.
  - apply (ag_pk _ _ G1).
  - intros x Hx. apply in_map_iff in Hx as (c & <- & Hc). destruct (ag_done _ _ G1 c Hc) as (y & Ey & _). apply named_some in Ey as [Hy <-]. now apply in_map.
  - intros i Hi. rewrite (ag_indexes _ _ G1) in Hi. apply in_app_iff in Hi as [Hi|Hi]; [now apply (ex_index _ Hex)|now apply new_unique_ok in Hi].
  - exact Hpk.
  - set (g2 := with_pk wanted_pk (with_cols (map (require R) (g_columns g1)) g1)) in *. exists g2. split; [now rewrite alters_app, E1|].
    assert (S2 : sound g2) by (eapply alters_sound; [apply (ag_sound _ _ G1)|exact E2]).
    constructor; cbn [g2 with_pk with_cols g_name g_pk g_indexes g_owned g_fks g_policies].
    + rewrite (ag_name _ _ G1). exact Hname.
    + exact S2.
    + intros c Hc. destruct (ag_done _ _ G1 c Hc) as (y & Ey & (D1 & D2 & D3 & D4 & D5 & D6 & D7 & D8)). exists (require R y).
      assert (En : named c_name (c_name c) (g_columns g2) = Some (require R y)). { cbn [g2 with_pk with_cols g_columns]. rewrite named_map by apply require_name. now rewrite Ey. }
      split; [exact En|]. unfold pg_column_reached. split; [now rewrite require_name|].
      split; [unfold require; destruct (mem (c_name y) R); exact D2|].
      split; [|unfold require; destruct (mem (c_name y) R); auto]. split.
      * unfold require. destruct (mem (c_name y) R) eqn:Em; [|exact D4]. intros _. right. apply in_key_spec; [exact Hc|]. apply HR. apply mem_in. now rewrite <- D1.
      * intros [Hr|Hr]; [unfold require; destruct (mem _ _); [reflexivity|now apply D3]|]. apply in_key_spec in Hr as (i & Ei & Hi); [|exact Hc].
        destruct (so_pk _ S2 (pkey_name (t_name t)) (key_columns i) (c_name c)) as (x & Hx & Ex & Hn).
        -- cbn [g2 with_pk with_cols g_pk]. unfold wanted_pk. now rewrite Ei.
        -- exact Hi.
        -- pose proof (named_self c_name _ x (so_names _ S2) Hx) as A. rewrite Ex in A. congruence.
    + intros n Hn. cbn [g2 with_pk with_cols g_columns]. rewrite map_map. assert (map (fun x => c_name (require R x)) (g_columns g1) = map c_name (g_columns g1)) as -> by (apply map_ext, require_name).
      pose proof (ag_rest _ _ G1 n Hn) as Hr. split; intros X.
      * destruct (named c_name n (g_columns s)) eqn:E; [apply named_some in E as [E <-]; now apply in_map|]. apply named_none in Hr. tauto.
      * destruct (named c_name n (g_columns g1)) eqn:E; [apply named_some in E as [E <-]; now apply in_map|]. symmetry in Hr. apply named_none in Hr. tauto.
    + reflexivity.
    + apply (ag_indexes _ _ G1).
    + apply (ag_owned _ _ G1).
    + apply (ag_fks _ _ G1).
    + apply (ag_policies _ _ G1).
Qed.
End Kept.
