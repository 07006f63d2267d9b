(** SQLite: the plan made for a catalogue, its execution, and the run after it. *)
From Coq Require Import String Ascii List ZArith Bool Lia.
From Verif Require Import GoStr GoStrFacts Ast Generator SchemaText SchemaParse Parser Planner Catalog AdapterSqlite SpecText SpecExport SpecPlan SpecLayout SpecSqlite
  ProofText ProofPlan ProofSteps ProofSelf ProofUntold ProofEndToEnd ProofSqlite.
Import ListNotations.
Local Open Scope string_scope.
Local Open Scope list_scope.

(** ** Tables and views only *)
Definition only (ds : list ddl) : Prop := forall d, In d ds -> match d with CreateTable _ _ | DView _ => True | _ => False end.

Lemma only_none {A} (f : ddl -> list A) ds : only ds -> (forall d, match d with CreateTable _ _ | DView _ => f d = [] | _ => True end) -> flat_map f ds = [].
Proof. intros O H. apply flat_map_nil. intros d D. specialize (O d D). specialize (H d). destruct d; tauto. Qed.
Lemma only_full ds t : only ds -> full_table ds t = t.
Proof.
  intros O. unfold full_table. unfold indexes_on, fks_on, policies_on, pk_marks.
  rewrite !(only_none _ ds O) by (intros []; auto). rewrite map_mark_nil, !app_nil_r. apply table_eta.
Qed.
Lemma only_schema ds : only ds -> schema ds = tables_in ds.
Proof. intros O. unfold schema. rewrite <- (map_id (tables_in ds)) at 2. apply map_ext. intros t. now apply only_full. Qed.
Lemma only_readable ds : only ds -> readable ds = true.
Proof.
  intros O. unfold readable. generalize (@nil ddl). induction ds as [|d ds IH]; intros b; [reflexivity|]. cbn [readable_after].
  rewrite IH by (intros e E; apply O; now right). pose proof (O d (or_introl eq_refl)). destruct d; try contradiction; reflexivity.
Qed.
Lemma only_tables ds : only ds -> NoDup (created ds) -> convert_ddls_to_tables ds = Ok (tables_in ds).
Proof. intros O N. rewrite convert_readable by (auto using only_readable). now rewrite only_schema. Qed.
Lemma only_well_formed m ds : only ds -> settled m ds -> NoDup (map vw_name (views_in ds)) -> well_formed ds = true.
Proof.
  intros O S V. apply well_formed_from; [now apply only_readable| | |exact V].
  - intros d D. specialize (O d D). now destruct d.
  - intros n H. unfold created in H. apply in_map_iff in H as (t & <- & H). apply in_tables_in in H as (s & H). apply S in H. cbn in H. tauto.
Qed.

Lemma nodup_l {A} (a b : list A) : NoDup (a ++ b) -> NoDup a.
Proof. induction a as [|x a IH]; intros H; [constructor|]. inversion H; subst. constructor; [rewrite in_app_iff in *; tauto|auto]. Qed.
Lemma nodup_r {A} (a b : list A) : NoDup (a ++ b) -> NoDup b.
Proof. induction a as [|x a IH]; intros H; [exact H|]. inversion H; subst. auto. Qed.
Lemma nodup_apart {A} (a b : list A) x : NoDup (a ++ b) -> In x a -> ~ In x b.
Proof. induction a as [|y a IH]; [easy|]. intros H [->|X] Y; inversion H; subst; [rewrite in_app_iff in *; tauto|now apply IH]. Qed.

Lemma find_view_unique vs v : NoDup (map vw_name vs) -> In v vs -> find_view vs (vw_name v) = Some v.
Proof. intros. now apply (find_self vw_name). Qed.
Lemma find_view_some vs n v : find_view vs n = Some v -> In v vs /\ vw_name v = n.
Proof. intros H. apply find_some in H as [A B]. apply String.eqb_eq in B. auto. Qed.
Lemma find_view_none vs n v : find_view vs n = None -> In v vs -> vw_name v <> n.
Proof. intros H I E. pose proof (find_none _ _ H v I) as X. cbn in X. apply String.eqb_neq in X. congruence. Qed.

(** ** A file *)
Section File.
Variables (file : string) (l : list ddl).
Hypothesis Hread : parse_file SQLite3 file = Ok l.
Hypothesis Hs : lite_schema l.
Notation N := (created l ++ map vw_name (views_in l)).

Lemma file_only : only l.
Proof. intros d D. pose proof (ls_statements _ Hs d D) as H. destruct d; cbn in H; tauto. Qed.
Lemma file_well_formed : well_formed l = true.
Proof. apply (only_well_formed SQLite3); [exact file_only|apply Hs|]. exact (nodup_r _ _ (ls_names _ Hs)). Qed.
Lemma file_created : NoDup (created l).
Proof. exact (nodup_l _ _ (ls_names _ Hs)). Qed.
Lemma file_names n : In n N -> ~ lite_hidden n.
Proof.
  intros H. apply in_app_or in H as [H|H].
  - unfold created in H. apply in_map_iff in H as (t & <- & H). apply in_tables_in in H as (s & H). exact (proj2 (ls_statements _ Hs _ H)).
  - apply in_map_iff in H as (v & <- & H). apply in_views_in in H. exact (proj2 (ls_statements _ Hs _ H)).
Qed.
Lemma file_reads d : In d l -> parse_ddl parse_strict_ddl SQLite3 (ddl_statement d) = Ok d.
Proof.
  revert Hread. unfold parse_file, parse_ddls. generalize (split_statements file). clear Hs. revert l. clear.
  intros l xs. revert l. induction xs as [|x xs IH]; intros l H D; cbn [parse_all] in H.
  - injection H as <-. destruct D.
  - destruct (parse_ddl parse_strict_ddl SQLite3 x) as [e| | |] eqn:E; cbn [bind] in H; try discriminate.
    destruct (parse_all (parse_ddl parse_strict_ddl) SQLite3 xs) as [r| | |]; cbn [bind] in H; try discriminate. injection H as <-.
    destruct D as [<-|D]; [now rewrite (parse_kept _ _ _ E)|]. now apply (IH r).
Qed.
Lemma table_means x t : In (CreateTable x t) l -> (exists w, says SQLite3 x w) /\ means x (t_name t) (LTable t).
Proof. intros D. destruct (ls_statements _ Hs _ D) as ((P & W) & _). split; [exact W|]. split; [exact P|]. split; [exact (file_reads _ D)|reflexivity]. Qed.
Lemma view_means v : In (DView v) l -> (exists w, says SQLite3 (vw_statement v) w) /\ means (vw_statement v) (vw_name v) (LView (vw_definition v)).
Proof. intros D. destruct (ls_statements _ Hs _ D) as ((P & W) & _). split; [exact W|]. split; [exact P|]. pose proof (file_reads _ D) as R. cbn in R. rewrite R. now destruct v. Qed.

Lemma name_of_table x t : In (CreateTable x t) l -> In t (tables_in l) /\ In (t_name t) N.
Proof. intros D. assert (In t (tables_in l)) by (apply in_tables_in; eauto). split; [assumption|]. apply in_or_app. left. unfold created. now apply in_map. Qed.
Lemma name_of_view v : In (DView v) l -> In v (views_in l) /\ In (vw_name v) N.
Proof. intros D. assert (In v (views_in l)) by now apply in_views_in. split; [assumption|]. apply in_or_app. right. now apply in_map. Qed.

Lemma same_table x t : In (CreateTable x t) l -> ddls_for_create_table SQLite3 t t = Ok [].
Proof.
  intros D. pose proof (create_table_self SQLite3 l (ls_settled _ Hs) file_well_formed x t D) as H. now rewrite (only_full l t file_only) in H.
Qed.

(** ** A catalogue *)
Section Catalogue.
Variables (m : list lite_row) (ds : list ddl).
Hypothesis Hok : lite_ok m.
Hypothesis Hex : export_of m ds.

Lemma ds_only : only ds.
Proof. exact (eo_only _ _ Hex). Qed.
Lemma ds_tables : convert_ddls_to_tables ds = Ok (tables_in ds).
Proof. apply only_tables; [exact ds_only|]. exact (nodup_l _ _ (eo_names _ _ Hex)). Qed.

Lemma the_plan : plan SQLite3 l ds =
  (do a <- concat_map (local SQLite3 (tables_in ds) (views_in ds) (triggers_in ds)) l;
   do b <- cleanup_tables SQLite3 (tables_in l) (tables_in ds) (tables_in ds);
   Ok (a ++ b ++ obsolete_views SQLite3 l (views_in ds))).
Proof. rewrite (plan_eq SQLite3 l ds (tables_in ds) file_created file_well_formed ds_tables). now rewrite (only_schema l file_only). Qed.

Definition st0 : state := fun n =>
  match find_table (tables_in ds) n with
  | Some t => Some (LTable t)
  | None => match find_view (views_in ds) n with Some v => Some (LView (vw_definition v)) | None => None end
  end.

Lemma st0_tells : tells m st0.
Proof.
  intros n o. unfold st0. split.
  - intros H. destruct (find_table (tables_in ds) n) as [t|] eqn:T.
    + apply find_table_some in T as [T <-]. apply (eo_table _ _ Hex) in T. f_equal. now apply (holds_unique m (t_name t)).
    + destruct o as [t|e].
      * assert (t_name t = n) as E by (destruct H as (r & x & _ & _ & _ & _ & _ & (_ & _ & E)); exact E). subst n.
        apply (eo_table _ _ Hex) in H. apply find_table_none in T. destruct T. now apply in_map.
      * destruct (eo_held _ _ Hex _ _ H) as (v & V & <- & <-). rewrite (find_view_unique (views_in ds) v); [reflexivity| |exact V]. exact (nodup_r _ _ (eo_names _ _ Hex)).
  - destruct (find_table (tables_in ds) n) as [t|] eqn:T.
    + intros [= <-]. apply find_table_some in T as [T <-]. now apply (eo_table _ _ Hex).
    + destruct (find_view (views_in ds) n) as [v|] eqn:V; [|discriminate]. intros [= <-]. apply find_view_some in V as [V <-]. now apply (eo_view _ _ Hex).
Qed.

(** ** Nothing to do *)
Lemma settled_plan : lite_reached l m -> plan SQLite3 l ds = Ok [].
Proof.
  intros R. rewrite the_plan.
  assert (T : forall t, In t (tables_in ds) -> In t (tables_in l)).
  { intros t H. apply (eo_table _ _ Hex) in H. pose proof (lh_other _ _ R _ _ H) as Nm. apply in_app_or in Nm as [Nm|Nm].
    - unfold created in Nm. apply in_map_iff in Nm as (t' & E & T'). pose proof (lh_table _ _ R t' T') as H'. rewrite E in H'.
      pose proof (holds_unique m _ _ _ Hok H H') as X. now injection X as ->.
    - apply in_map_iff in Nm as (v & E & V). destruct (lh_view _ _ R v V) as (d & H' & _). rewrite E in H'. pose proof (holds_unique m _ _ _ Hok H H'). discriminate. }
  assert (V : forall v, In v (views_in ds) -> In (vw_name v) (map vw_name (views_in l))).
  { intros v H. apply (eo_view _ _ Hex) in H. pose proof (lh_other _ _ R _ _ H) as Nm. apply in_app_or in Nm as [Nm|Nm]; [|exact Nm].
    unfold created in Nm. apply in_map_iff in Nm as (t' & E & T'). pose proof (lh_table _ _ R t' T') as H'. rewrite E in H'. pose proof (holds_unique m _ _ _ Hok H H'). discriminate. }
  rewrite concat_map_nil.
  2:{ intros d D. pose proof (file_only d D) as O. destruct d as [x t| | | | | |v|]; try contradiction; cbn [local].
      - destruct (name_of_table x t D) as [H _]. pose proof (lh_table _ _ R t H) as X. apply (eo_table _ _ Hex) in X.
        rewrite (find_table_unique (tables_in ds) t); [now apply (same_table x)| |exact X]. exact (nodup_l _ _ (eo_names _ _ Hex)).
      - destruct (name_of_view v D) as [H _]. destruct (lh_view _ _ R v H) as (e & X & L). destruct (eo_held _ _ Hex _ _ X) as (c & C & E & <-).
        rewrite <- E. rewrite (find_view_unique (views_in ds) c); [| |exact C]. 2:{ exact (nodup_r _ _ (eo_names _ _ Hex)). }
        unfold same_letters in L. now rewrite L, String.eqb_refl. }
  cbn [bind]. rewrite cleanup_tables_self; [|exact file_created|exact T]. cbn [bind app]. f_equal. unfold obsolete_views. apply flat_map_nil. intros v H.
  assert (mem (vw_name v) (map vw_name (views_in l)) = true) as ->; [|reflexivity]. apply mem_spec. now apply V.
Qed.

(** ** The plan *)
Hypothesis Hc : lite_convertible l m.

Lemma inv0 : inv N m st0.
Proof. constructor; [exact Hok|exact st0_tells|apply Hc]. Qed.

Definition names (p : list ddl) : list string := flat_map (fun d => match d with CreateTable _ t => [t_name t] | DView v => [vw_name v] | _ => [] end) p.

Lemma planned_view_text v : ("CREATE VIEW " ++ escape_table_name SQLite3 (vw_name v) ++ " AS " ++ vw_definition v)%string =
  ("CREATE VIEW `" ++ vw_name v ++ "` AS " ++ vw_definition v)%string.
Proof. unfold escape_table_name, escape_sql_name. cbn. now rewrite !sapp_assoc. Qed.

(** What the object of a statement has to be. *)
Definition fulfils (st : state) (d : ddl) : Prop :=
  match d with
  | CreateTable _ t => st (t_name t) = Some (LTable t)
  | DView v => exists e, st (vw_name v) = Some (LView e) /\ same_letters e (vw_definition v)
  | _ => True
  end.

Lemma fulfils_ext st st' d : (forall n, In n (names [d]) -> st n = st' n) -> fulfils st d -> fulfils st' d.
Proof.
  intros E. destruct d; cbn [fulfils names flat_map app] in *; auto.
  - rewrite E; auto. now left.
  - rewrite E; auto. now left.
Qed.

Lemma creations : forall p, incl p l -> NoDup (names p) -> forall st, (forall n, In n (names p) -> st n = st0 n) ->
  exists out st', concat_map (local SQLite3 (tables_in ds) (views_in ds) (triggers_in ds)) p = Ok out /\
    goes N out st st' /\ (forall n, ~ In n (names p) -> st' n = st n) /\ (forall d, In d p -> fulfils st' d).
Proof.
  induction p as [|d p IH]; intros Hp Hn st Hst.
  - exists [], st. split; [reflexivity|]. split; [now constructor|]. split; [auto|]. now intros d [].
  - assert (D : In d l) by (apply Hp; now left). assert (Hp' : incl p l) by (intros e E; apply Hp; now right).
    assert (Hn' : NoDup (names p)) by exact (nodup_r (names [d]) (names p) ltac:(unfold names in *; cbn [flat_map] in *; rewrite app_nil_r; exact Hn)).
    (* the step for [d] leads to a state in which its object is right *)
    assert (Step : exists o1 st1, local SQLite3 (tables_in ds) (views_in ds) (triggers_in ds) d = Ok o1 /\ goes N o1 st st1 /\
              (forall n, ~ In n (names [d]) -> st1 n = st n) /\ fulfils st1 d).
    { pose proof (file_only d D) as O. destruct d as [x t| | | | | |v|]; try contradiction; cbn [local].
      - destruct (name_of_table x t D) as [T Nm]. assert (E : st (t_name t) = st0 (t_name t)) by (apply Hst; now left).
        assert (K : st0 (t_name t) = None \/ st0 (t_name t) = Some (LTable t)).
        { destruct (st0 (t_name t)) as [o|] eqn:S; [right|now left]. apply st0_tells in S. f_equal. now apply (lc_tables _ _ Hc). }
        destruct (find_table (tables_in ds) (t_name t)) as [ct|] eqn:F.
        + assert (ct = t) as ->. { destruct K as [K|K]; unfold st0 in K; rewrite F in K; [discriminate|]. now injection K. }
          exists [], st. rewrite (same_table x t D). split; [reflexivity|]. split; [now constructor|]. split; [auto|]. cbn [fulfils]. rewrite E. unfold st0. now rewrite F.
        + assert (K' : st0 (t_name t) = None). { destruct K as [K|K]; [exact K|]. unfold st0 in K. rewrite F in K. destruct (find_view (views_in ds) (t_name t)); discriminate. }
          destruct (table_means x t D) as [W M]. exists [verbatim (CreateTable x t)], (upd st (t_name t) (Some (LTable t))). split; [reflexivity|]. split; [|split].
          * eapply go_make; [exact Nm|now constructor|congruence|now constructor].
          * intros n Hnot. apply upd_other. intros ->. apply Hnot. now left.
          * apply upd_same.
      - destruct (name_of_view v D) as [T Nm]. assert (E : st (vw_name v) = st0 (vw_name v)) by (apply Hst; now left).
        destruct (find_view (views_in ds) (vw_name v)) as [cv|] eqn:F.
        + apply find_view_some in F as [F Ev]. pose proof (eo_view _ _ Hex _ F) as H. rewrite Ev in H.
          assert (S : st (vw_name v) = Some (LView (vw_definition cv))) by (rewrite E; now apply st0_tells).
          destruct (lc_views _ _ Hc v _ T H) as (e & X & Q). injection X as <-.
          destruct (String.eqb_spec (to_lower (vw_definition cv)) (to_lower (vw_definition v))) as [L|L].
          * exists [], st. split; [reflexivity|]. split; [now constructor|]. split; [auto|]. cbn [fulfils]. eauto.
          * destruct Q as [Q|[W M]]; [contradiction|]. rewrite <- planned_view_text in W, M. eexists. exists (upd (upd st (vw_name v) None) (vw_name v) (Some (LView (vw_definition v)))). split; [reflexivity|]. split; [|split].
            -- eapply go_remove; [constructor|exact S|]. eapply go_make; [exact Nm|apply mk_new_view; [exact W|exact M]|apply upd_same|now constructor].
            -- intros n Hnot. rewrite !upd_other; [reflexivity| |]; intros ->; apply Hnot; now left.
            -- cbn [fulfils]. rewrite upd_same. exists (vw_definition v). now split.
        + assert (K' : st0 (vw_name v) = None).
          { destruct (st0 (vw_name v)) as [o|] eqn:S; [exfalso|reflexivity]. pose proof (proj2 (st0_tells _ _) S) as H. destruct (lc_views _ _ Hc v _ T H) as (e & -> & _).
            destruct (eo_held _ _ Hex _ _ H) as (c & C & Ec & _). now apply (find_view_none _ _ c F C). }
          destruct (view_means v D) as [W M]. exists [verbatim (DView v)], (upd st (vw_name v) (Some (LView (vw_definition v)))). split; [reflexivity|]. split; [|split].
          * eapply go_make; [exact Nm|now constructor|congruence|now constructor].
          * intros n Hnot. apply upd_other. intros ->. apply Hnot. now left.
          * cbn [fulfils]. rewrite upd_same. exists (vw_definition v). now split. }
    destruct Step as (o1 & st1 & E1 & G1 & F1 & R1).
    assert (Apart : forall n, In n (names p) -> ~ In n (names [d])).
    { intros n A B. apply (nodup_apart (names [d]) (names p) n); [|exact B|exact A]. unfold names in *. cbn [flat_map] in *. now rewrite app_nil_r. }
    destruct (IH Hp' Hn' st1) as (o2 & st2 & E2 & G2 & F2 & R2).
    { intros n H. rewrite F1 by now apply Apart. apply Hst. unfold names. cbn [flat_map]. apply in_or_app. now right. }
    exists (o1 ++ o2), st2. split; [cbn [concat_map]; now rewrite E1, E2|]. split; [now apply goes_app with st1|]. split.
    + intros n H. unfold names in H. cbn [flat_map] in H. rewrite in_app_iff in H. rewrite F2, F1; [reflexivity| |]; unfold names; cbn [flat_map]; rewrite ?app_nil_r; tauto.
    + intros e [<-|H]; [|now apply R2]. eapply fulfils_ext; [|exact R1]. intros n H. symmetry. apply F2. intros A. now apply (Apart n).
Qed.

Lemma names_file : forall p, only p -> (forall n, In n (names p) <-> In n (created p ++ map vw_name (views_in p))) /\ (NoDup (created p ++ map vw_name (views_in p)) -> NoDup (names p)).
Proof.
  induction p as [|d p IH]; intros O; [split; [tauto|intros; constructor]|].
  destruct IH as [I1 I2]; [intros e E; apply O; now right|]. pose proof (O d (or_introl eq_refl)) as X.
  destruct d as [x t| | | | | |v|]; try contradiction; unfold names, created, tables_in, views_in; cbn [flat_map app map];
    fold (names p); fold (tables_in p); fold (created p); fold (views_in p).
  - split.
    + intros n. cbn [In]. rewrite I1. tauto.
    + intros H. inversion H; subst. constructor; [now rewrite I1|auto].
  - split.
    + intros n. rewrite in_app_iff. cbn [In]. rewrite I1, in_app_iff. tauto.
    + intros H. apply NoDup_remove in H as [H1 H2]. constructor; [now rewrite I1|auto].
Qed.

(** Dropping tables. *)
Lemma table_drops : forall r live, incl r (tables_in ds) -> NoDup (map t_name r) -> incl (map t_name r) (map t_name live) ->
  forall st, (forall t, In t r -> st (t_name t) = st0 (t_name t) \/ In (t_name t) (created l)) ->
  exists out st', cleanup_tables SQLite3 (tables_in l) live r = Ok out /\ goes N out st st' /\
    (forall n, ~ In n (map t_name r) \/ In n (created l) -> st' n = st n) /\ (forall n, In n (map t_name r) -> ~ In n (created l) -> st' n = None).
Proof.
  induction r as [|ct r IH]; intros live Hr Hn Hl st Hst.
  - exists [], st. split; [reflexivity|]. split; [now constructor|]. split; [auto|]. now intros n [].
  - assert (Hr' : incl r (tables_in ds)) by (intros e E; apply Hr; now right). inversion Hn as [|? ? Hx Hn']; subst.
    assert (In ct (tables_in ds)) as Ht by (apply Hr; now left). pose proof (proj1 (eo_table _ _ Hex _) Ht) as Hh.
    cbn [cleanup_tables]. destruct (find_table (tables_in l) (t_name ct)) as [dt|] eqn:F.
    + apply find_table_some in F as [F E]. rewrite <- E in Hh. pose proof (lc_tables _ _ Hc dt _ F Hh) as X. injection X as <-.
      rewrite cleanup_kept_self. cbn [bind].
      destruct (IH live Hr' Hn') with (st := st) as (o2 & st2 & E2 & G2 & F2 & R2). { intros n H. apply Hl. now right. } { intros t T. apply Hst. now right. }
      exists o2, st2. rewrite E2. split; [reflexivity|]. split; [exact G2|].
      assert (In (t_name ct) (created l)) as Hcr by (unfold created; now apply in_map).
      split.
      * intros n H. apply F2. cbn [map In] in H. tauto.
      * intros n [<-|H] H2; [contradiction|now apply R2].
    + apply find_table_none in F. fold (created l) in F. rewrite remove_table_spec.
      assert (mem (t_name ct) (map t_name live) = true) as -> by (apply mem_spec, Hl; now left).
      destruct (Hst ct (or_introl eq_refl)) as [S|S]; [|contradiction].
      set (live' := filter (fun t => negb (String.eqb (t_name ct) (t_name t))) live).
      destruct (IH live' Hr' Hn') with (st := upd st (t_name ct) None) as (o2 & st2 & E2 & G2 & F2 & R2).
      { intros n H. assert (n <> t_name ct) by (intros ->; contradiction). assert (In n (map t_name live)) as L by (apply Hl; now right).
        apply in_map_iff in L as (t & <- & L). apply in_map. unfold live'. apply filter_In. split; [exact L|]. apply negb_true_iff, String.eqb_neq. congruence. }
      { intros t T. destruct (Hst t (or_intror T)) as [Q|Q]; [left|now right]. rewrite upd_other; [exact Q|]. intros X. apply Hx. rewrite <- X. now apply in_map. }
      exists (stmt_drop_table SQLite3 (t_name ct) :: o2), st2. rewrite E2. split; [reflexivity|]. split; [|split].
      * apply (go_remove N _ (t_name ct) (LTable ct)); [constructor|rewrite S; now apply st0_tells|exact G2].
      * intros n H. cbn [map In] in H. rewrite F2 by tauto. apply upd_other. intros ->. tauto.
      * intros n H H2. destruct (in_dec string_dec n (map t_name r)) as [H'|H']; [now apply R2|]. destruct H as [<-|H]; [|contradiction]. rewrite F2 by now left. apply upd_same.
Qed.

(** Dropping views. *)
Lemma view_drops : forall r, incl r (views_in ds) -> NoDup (map vw_name r) ->
  forall st, (forall v, In v r -> st (vw_name v) = st0 (vw_name v) \/ In (vw_name v) (map vw_name (views_in l))) ->
  exists st', goes N (obsolete_views SQLite3 l r) st st' /\
    (forall n, ~ In n (map vw_name r) \/ In n (map vw_name (views_in l)) -> st' n = st n) /\ (forall n, In n (map vw_name r) -> ~ In n (map vw_name (views_in l)) -> st' n = None).
Proof.
  induction r as [|cv r IH]; intros Hr Hn st Hst.
  - exists st. split; [now constructor|]. split; [auto|]. now intros n [].
  - assert (Hr' : incl r (views_in ds)) by (intros e E; apply Hr; now right). inversion Hn as [|? ? Hx Hn']; subst.
    assert (In cv (views_in ds)) as Ht by (apply Hr; now left). pose proof (eo_view _ _ Hex _ Ht) as Hh.
    unfold obsolete_views. cbn [flat_map]. fold (obsolete_views SQLite3 l r). destruct (mem (vw_name cv) (map vw_name (views_in l))) eqn:F.
    + apply mem_spec in F. destruct (IH Hr' Hn') with (st := st) as (st2 & G2 & F2 & R2). { intros t T. apply Hst. now right. }
      exists st2. split; [exact G2|]. split.
      * intros n H. apply F2. cbn [map In] in H. tauto.
      * intros n [<-|H] H2; [contradiction|now apply R2].
    + assert (F' : ~ In (vw_name cv) (map vw_name (views_in l))) by (intros X; apply mem_spec in X; congruence).
      destruct (Hst cv (or_introl eq_refl)) as [S|S]; [|contradiction].
      destruct (IH Hr' Hn') with (st := upd st (vw_name cv) None) as (st2 & G2 & F2 & R2).
      { intros t T. destruct (Hst t (or_intror T)) as [Q|Q]; [left|now right]. rewrite upd_other; [exact Q|]. intros X. apply Hx. rewrite <- X. now apply in_map. }
      exists st2. split; [|split].
      * cbn [app]. apply (go_remove N _ (vw_name cv) (LView (vw_definition cv))); [constructor|rewrite S; now apply st0_tells|exact G2].
      * intros n H. cbn [map In] in H. rewrite F2 by tauto. apply upd_other. intros ->. tauto.
      * intros n H H2. destruct (in_dec string_dec n (map vw_name r)) as [H'|H']; [now apply R2|]. destruct H as [<-|H]; [|contradiction]. rewrite F2 by now left. apply upd_same.
Qed.

Theorem plan_goes : exists out st', plan SQLite3 l ds = Ok out /\ goes N out st0 st' /\
  (forall d, In d l -> fulfils st' d) /\ (forall n, ~ In n N -> st' n = None).
Proof.
  rewrite the_plan. destruct (names_file l file_only) as [Nm Nd]. specialize (Nd (ls_names _ Hs)).
  destruct (creations l (incl_refl l) Nd st0) as (o1 & st1 & E1 & G1 & F1 & R1); [auto|]. rewrite E1. cbn [bind].
  pose proof (eo_names _ _ Hex) as Ne.
  destruct (table_drops (tables_in ds) (tables_in ds) (incl_refl _) (nodup_l _ _ Ne) (incl_refl _) st1) as (o2 & st2 & E2 & G2 & F2 & R2).
  { intros t T. destruct (in_dec string_dec (t_name t) (created l)) as [X|X]; [now right|left]. apply F1. rewrite Nm. intros Y. apply in_app_or in Y as [Y|Y]; [contradiction|].
    apply in_map_iff in Y as (v & E & V). apply (eo_table _ _ Hex) in T. rewrite <- E in T. destruct (lc_views _ _ Hc v _ V T) as (e & Z & _). discriminate. }
  rewrite E2. cbn [bind].
  destruct (view_drops (views_in ds) (incl_refl _) (nodup_r _ _ Ne) st2) as (st3 & G3 & F3 & R3).
  { intros v V. destruct (in_dec string_dec (vw_name v) (map vw_name (views_in l))) as [X|X]; [now right|left].
    rewrite F2. 2:{ left. intros Y. now apply (nodup_apart _ _ _ Ne Y), in_map. }
    apply F1. rewrite Nm. intros Y. apply in_app_or in Y as [Y|Y]; [|contradiction]. unfold created in Y. apply in_map_iff in Y as (t & E & T).
    apply (eo_view _ _ Hex) in V. rewrite <- E in V. pose proof (lc_tables _ _ Hc t _ T V). discriminate. }
  exists (o1 ++ o2 ++ obsolete_views SQLite3 l (views_in ds)), st3. split; [reflexivity|]. split; [|split].
  - apply goes_app with st1; [exact G1|]. now apply goes_app with st2.
  - intros d D. apply (fulfils_ext st1); [|now apply R1]. intros n H. symmetry.
    assert (Old : forall o, st0 n = Some o -> In n (created l) /\ (exists t, o = LTable t) \/ In n (map vw_name (views_in l)) /\ exists e, o = LView e).
    { intros o S. apply st0_tells in S. assert (In n N) as K. { apply Nm. unfold names in *. apply in_flat_map. exists d. split; [exact D|]. cbn [flat_map] in H. now rewrite app_nil_r in H. }
      apply in_app_or in K as [K|K].
      - left. split; [exact K|]. unfold created in K. apply in_map_iff in K as (t & <- & T). exists t. now apply (lc_tables _ _ Hc).
      - right. split; [exact K|]. apply in_map_iff in K as (v & <- & V). destruct (lc_views _ _ Hc v _ V S) as (e & -> & _). eauto. }
    rewrite F3, F2; [reflexivity| |].
    + destruct (in_dec string_dec n (created ds)) as [K|K]; [right|now left]. unfold created in K. apply in_map_iff in K as (t & E & T).
      apply (eo_table _ _ Hex) in T. rewrite E in T. apply st0_tells in T. apply Old in T as [[T _]|[_ (e & T)]]; [exact T|discriminate].
    + destruct (in_dec string_dec n (map vw_name (views_in ds))) as [K|K]; [right|now left]. apply in_map_iff in K as (v & E & V).
      apply (eo_view _ _ Hex) in V. rewrite E in V. apply st0_tells in V. apply Old in V as [[_ (e & V)]|[V _]]; [discriminate|exact V].
  - intros n H. assert (H1 : ~ In n (created l)) by (intros X; apply H; apply in_or_app; now left).
    assert (H2 : ~ In n (map vw_name (views_in l))) by (intros X; apply H; apply in_or_app; now right).
    destruct (in_dec string_dec n (map vw_name (views_in ds))) as [K|K]; [now apply R3|]. rewrite F3 by now left.
    destruct (in_dec string_dec n (map t_name (tables_in ds))) as [K'|K']; [now apply R2|]. rewrite F2 by now left.
    rewrite F1 by (rewrite Nm; exact H). unfold st0. destruct (find_table (tables_in ds) n) as [t|] eqn:T.
    + apply find_table_some in T as [T <-]. destruct K'. now apply in_map.
    + destruct (find_view (views_in ds) n) as [v|] eqn:V; [|reflexivity]. apply find_view_some in V as [V <-]. destruct K. now apply in_map.
Qed.
End Catalogue.
End File.

(** ** Whole runs *)
Theorem sqlite_run file l m current : parse_file SQLite3 file = Ok l -> lite_schema l ->
  lite_ok m -> lite_convertible l m -> lite_dump m = Some current ->
  exists ds out, parse_file SQLite3 current = Ok ds /\ plan SQLite3 l ds = Ok out /\ plan_text SQLite3 file current = Ok (map s_text out) /\
    (forall pre s post m1, out = pre ++ s :: post -> executes_all pre m m1 -> exists m2, executes s m1 m2) /\
    (forall m', executes_all out m m' -> lite_ok m' /\ lite_reached l m').
Proof.
  intros R S K C D. destruct (export_read m K) as (text & ds & D' & P & X). rewrite D in D'. injection D' as <-.
  destruct (plan_goes file l R S m ds K X C) as (out & st' & E & G & Fu & No). exists ds, out.
  pose proof (inv0 l m ds K X C) as I.
  split; [exact P|]. split; [exact E|]. split; [|split].
  - unfold plan_text, generate_idempotent_ddls. rewrite R, P. cbn [bind]. now rewrite E.
  - intros pre s post m1 -> A. eapply goes_on; try eassumption. exact (file_names l S).
  - intros m' A. pose proof (goes_end _ (file_names l S) out m m' _ _ G I A) as [K' T' _]. split; [exact K'|]. constructor.
    + intros t H. apply T'. apply in_tables_in in H as (s & H). exact (Fu _ H).
    + intros v H. apply in_views_in in H. destruct (Fu _ H) as (e & H1 & H2). exists e. split; [now apply T'|exact H2].
    + intros n o H. apply T' in H. destruct (in_dec string_dec n (created l ++ map vw_name (views_in l))) as [|Q]; [assumption|]. rewrite (No n Q) in H. discriminate.
Qed.

Theorem sqlite_again file l m current : parse_file SQLite3 file = Ok l -> lite_schema l ->
  lite_ok m -> lite_reached l m -> lite_dump m = Some current -> plan_text SQLite3 file current = Ok [].
Proof.
  intros R S K H D. destruct (export_read m K) as (text & ds & D' & P & X). rewrite D in D'. injection D' as <-.
  unfold plan_text, generate_idempotent_ddls. rewrite R, P. cbn [bind]. now rewrite (settled_plan l S m ds K X H).
Qed.

Lemma sqlite_exported m : lite_ok m -> exists current, lite_dump m = Some current.
Proof. intros K. destruct (export_read m K) as (text & _ & D & _). eauto. Qed.

Lemma only_names {A} (f : table -> list A) ds t : NoDup (created ds) -> In t (tables_in ds) -> inline f (t_name t) ds = f t.
Proof. intros N T. apply inline_unique; [exact N|]. now apply find_table_unique. Qed.

Theorem sqlite_own m current : lite_ok m -> (forall n t, holds m n (LTable t) -> settled SQLite3 [CreateTable "" t]) ->
  lite_dump m = Some current -> plan_text SQLite3 current current = Ok [].
Proof.
  intros K H D. destruct (export_read m K) as (text & ds & D' & P & X). rewrite D in D'. injection D' as <-.
  unfold plan_text, generate_idempotent_ddls. rewrite P. cbn [bind].
  assert (S : settled SQLite3 ds).
  { pose proof (nodup_l _ _ (eo_names _ _ X)) as N. split; [exact N|]. split.
    - unfold triggers_in. rewrite (only_none _ ds (eo_only _ _ X)) by (intros []; auto). constructor.
    - intros d I. pose proof (eo_only _ _ X d I) as O. destruct d as [s t| | | | | |v|]; try contradiction; [|exact Logic.I].
      assert (T : In t (tables_in ds)) by (apply in_tables_in; eauto). pose proof (proj1 (eo_table _ _ X t) T) as Q. apply H in Q. destruct Q as (_ & _ & Q).
      specialize (Q _ (or_introl eq_refl)). cbn [settled_ddl] in *.
      assert (N1 : NoDup (created [CreateTable "" t])) by (constructor; [intros []|constructor]).
      assert (T1 : In t (tables_in [CreateTable "" t])) by now left.
      assert (O1 : only [CreateTable "" t]) by (intros d [<-|[]]; exact Logic.I).
      unfold index_names_of, fk_names_of, policy_names_of in *.
      rewrite !(only_names _ ds t N T). rewrite !(only_names _ [CreateTable "" t] t) in Q by (exact N1 || exact T1).
      unfold indexes_on, fks_on, policies_on in *. rewrite !(only_none _ ds (eo_only _ _ X)) by (intros []; auto). exact Q. }
  rewrite plan_self; [reflexivity|exact S|]. apply (only_well_formed SQLite3); [exact (eo_only _ _ X)|exact S|]. exact (nodup_r _ _ (eo_names _ _ X)).
Qed.
