(** A schema compared with itself needs nothing (C13). *)
From Coq Require Import String Ascii List ZArith Bool Lia SpecFloat.
From Verif Require Import GoStr GoStrFacts Ast Generator SpecPlan ProofPlan ProofSteps ProofTables
  ProofCompare ProofExact ProofObjects ProofTotal.
Import ListNotations.
Local Open Scope string_scope.
Local Open Scope list_scope.

Lemma find_self {A} (nm : A -> string) (l : list A) x : NoDup (map nm l) -> In x l ->
  find (fun y => String.eqb (nm y) (nm x)) l = Some x.
Proof.
  induction l as [|a l IH]; simpl; [tauto|]. intros Hn Hi. inversion Hn as [|? ? Ha Hl]; subst.
  destruct Hi as [->|Hi]; [now rewrite String.eqb_refl|].
  destruct (String.eqb (nm a) (nm x)) eqn:E; [|auto].
  apply String.eqb_eq in E. destruct Ha. rewrite E. now apply in_map.
Qed.

Lemma strings_eqb_refl l : strings_eqb l l = true.
Proof. induction l; simpl; [reflexivity|]. now rewrite String.eqb_refl. Qed.

Lemma SFeqb_refl f : f <> S754_nan -> SFeqb f f = true.
Proof.
  unfold SFeqb, SFcompare. destruct f as [s|s| |s p e]; try congruence; destruct s; try reflexivity;
    rewrite Z.compare_refl, Pos.compare_cont_refl; reflexivity.
Qed.

Lemma same_data_type_refl m c : have_same_data_type m c c = true.
Proof.
  unfold have_same_data_type. rewrite String.eqb_refl, strings_eqb_refl, Bool.eqb_reflx.
  destruct (c_length c); rewrite ?Z.eqb_refl; reflexivity.
Qed.

Lemma same_value_refl v : are_same_value v v = true.
Proof. apply are_same_value_spec. unfold value_matches. destruct v; auto. Qed.

Lemma same_check_refl c : are_same_check c c = true.
Proof. destruct c; simpl; [|reflexivity]. now rewrite String.eqb_refl, Bool.eqb_reflx. Qed.

Lemma same_definition_refl c : settled_column Mysql c -> have_same_column_definition Mysql c c = true.
Proof.
  intros H. destruct (H eq_refl) as (Hck & Hk & Hf). unfold have_same_column_definition.
  rewrite same_data_type_refl, !Bool.eqb_reflx, Hck, !String.eqb_refl, !orb_true_r, !andb_true_r. simpl.
  assert (declared_not_null c = declared_not_null c || is_key_primary (c_key c)) as <-.
  { unfold declared_not_null. destruct (c_key c); simpl; rewrite ?orb_false_r; auto. now rewrite Hk. }
  rewrite Bool.eqb_reflx. simpl. destruct (c_onupdate c) as [v|]; [|reflexivity]. simpl. unfold value_eqb.
  rewrite !String.eqb_refl, Z.eqb_refl, Bool.eqb_reflx, SFeqb_refl by auto.
  destruct (v_type v); reflexivity.
Qed.

Lemma same_index_refl i : settled_index i -> are_same_indexes i i = true.
Proof.
  intros Hi. apply are_same_indexes_spec. repeat split; auto.
  - induction (i_columns i); constructor; auto. split; auto.
  - intros o Ho. exists o. split; [now apply find_self|]. apply are_same_value_spec, same_value_refl.
Qed.

Lemma column_self m cur des prev c : NoDup (map c_name (t_columns cur)) -> In c (t_columns cur) -> settled_column m c ->
  ddls_column m cur des prev c = Ok [].
Proof.
  intros Hn Hi Hs. unfold ddls_column. unfold find_column. rewrite (find_self _ _ _ Hn Hi).
  assert ((if c_autoinc c then c else set_autoinc false c) = c) as ->.
  { destruct (c_autoinc c) eqn:E; [reflexivity|]. destruct c; simpl in *. now subst. }
  destruct m.
  - unfold ddls_column_mysql, change_order. rewrite same_definition_refl by exact Hs.
    unfold are_same_default. rewrite same_value_refl, Z.ltb_irrefl. simpl. now rewrite andb_negb_r.
  - unfold ddls_column_postgres, pg_default, pg_type, pg_null, pg_identity, pg_check.
    unfold are_same_default. rewrite same_value_refl, same_data_type_refl, same_check_refl, Bool.eqb_reflx.
    assert (are_same_identity (c_identity c) (c_identity c) = true) as -> by now apply are_same_identity_spec.
    rewrite andb_negb_r. cbn [bind andb app]. rewrite andb_comm, andb_negb_r. destruct (is_primary_key c cur); reflexivity.
  - reflexivity.
  - unfold ddls_column_mssql, ms_identity, ms_default, ms_check.
    unfold are_same_default. rewrite same_value_refl, same_check_refl, Bool.eqb_reflx.
    assert (are_same_identity (c_identity c) (c_identity c) = true) as -> by now apply are_same_identity_spec.
    reflexivity.
Qed.

Lemma columns_self m cur des l : NoDup (map c_name (t_columns cur)) ->
  (forall c, In c l -> In c (t_columns cur) /\ settled_column m c) -> forall prev,
  ddls_columns m cur des prev l = Ok [].
Proof.
  intros Hn. induction l as [|c l IH]; simpl; intros H prev; [reflexivity|].
  destruct (H c (or_introl eq_refl)). rewrite column_self, IH by auto. reflexivity.
Qed.

Lemma concat_map_nil {A B} (f : A -> res (list B)) l : (forall x, In x l -> f x = Ok []) -> concat_map f l = Ok [].
Proof. induction l as [|x l IH]; simpl; intros H; [reflexivity|]. rewrite H, IH by auto. reflexivity. Qed.

Lemma find_app_none {A} (p : A -> bool) a b : (forall x, In x b -> p x = false) -> find p (a ++ b) = find p a.
Proof.
  intros H. induction a as [|x a IH]; simpl.
  - induction b as [|y b IH]; simpl; [reflexivity|]. rewrite H by now left. apply IH. intros; apply H; now right.
  - destruct (p x); auto.
Qed.

Section Self.
Variables (m : mode) (l : list ddl).
Hypothesis (Hset : settled m l) (Hw : well_formed l = true).

Lemma self_nodup : NoDup (created l).
Proof. exact (proj1 Hset). Qed.

Lemma in_tables t : In t (tables_in l) <-> exists s, In (CreateTable s t) l.
Proof.
  unfold tables_in. rewrite in_flat_map. split.
  - intros (d & Hd & Ht). destruct d; simpl in Ht; try tauto. destruct Ht as [<-|[]]. eauto.
  - intros [s Hs]. exists (CreateTable s t). split; simpl; auto.
Qed.

Lemma well_formed_no_pk a : forall b, well_formed_after b a = true -> forall s n i, ~ In (AddPrimaryKey s n i) a.
Proof.
  induction a as [|d a IH]; simpl; intros b H s n i Hi; [tauto|]. apply andb_true_iff in H as [H1 H2].
  destruct Hi as [->|Hi]; [discriminate|]. eapply IH; eauto.
Qed.

Lemma marks_none n a : (forall s k i, ~ In (AddPrimaryKey s k i) a) -> pk_marks n a = [].
Proof.
  unfold pk_marks. induction a as [|d a IH]; intros H; [reflexivity|]. cbn [flat_map].
  rewrite IH by (intros s k i Hi; apply (H s k i); now right). destruct d as [| | |s k i| | | |]; try reflexivity.
  destruct (H s k i (or_introl eq_refl)).
Qed.

Lemma marks_nil n : pk_marks n l = [].
Proof. apply marks_none. exact (well_formed_no_pk l [] Hw). Qed.

Lemma well_formed_readable a : (forall s n i, ~ In (AddIndex s n i) a) -> forall b, well_formed_after b a = true -> readable_after b a = true.
Proof.
  induction a as [|d a IH]; simpl; intros Hx b H; [reflexivity|]. apply andb_true_iff in H as [H1 H2].
  rewrite (IH (fun s n i Hi => Hx s n i (or_intror Hi)) _ H2), andb_true_r.
  destruct d as [| |s k i| | | | |]; simpl in *; auto; try (apply andb_true_iff in H1 as [-> _]; reflexivity); try discriminate.
  destruct (Hx s k i (or_introl eq_refl)).
Qed.

Lemma self_readable : convert_ddls_to_tables l = Ok (schema l).
Proof.
  apply convert_readable; [exact self_nodup|]. apply well_formed_readable; [|exact Hw].
  intros s n i Hi. pose proof Hset as (_ & _ & H). exact (H _ Hi).
Qed.

Lemma find_full s t : In (CreateTable s t) l -> find_table (schema l) (t_name t) = Some (full_table l t).
Proof.
  intros Hi. rewrite find_schema. rewrite (find_table_unique (tables_in l) t); [reflexivity|exact self_nodup|].
  apply in_tables. eauto.
Qed.

Lemma full_columns t : t_columns (full_table l t) = t_columns t.
Proof. simpl. now rewrite marks_nil, map_mark_nil. Qed.

Lemma names_inline {A} (f : table -> list A) s t : In (CreateTable s t) l -> inline f (t_name t) l = f t.
Proof.
  intros Hi. apply inline_unique; [exact self_nodup|]. apply find_table_unique; [exact self_nodup|]. apply in_tables. eauto.
Qed.

Lemma in_indexes_on n i : In i (indexes_on n l) -> exists s, In (CreateIndex s n i) l.
Proof.
  unfold indexes_on. rewrite in_flat_map. intros (d & Hd & Hi). destruct d; simpl in Hi; try tauto;
    (destruct (String.eqb _ n) eqn:E; [|destruct Hi]); destruct Hi as [->|[]]; apply String.eqb_eq in E; subst; eauto.
  pose proof Hset as (_ & _ & H). destruct (H _ Hd).
Qed.

Lemma find_index_full s t i : In (CreateTable s t) l -> In i (t_indexes t ++ indexes_on (t_name t) l) ->
  find_index (t_indexes (full_table l t)) (i_name i) = Some i.
Proof.
  intros Hi Hx. apply find_self; [|exact Hx]. pose proof Hset as (_ & _ & H). destruct (H _ Hi) as (_ & Hn & _).
  unfold index_names_of in Hn. now rewrite (names_inline _ s t Hi) in Hn.
Qed.

Lemma find_policy_full s t p : In (CreateTable s t) l -> In p (t_policies t ++ policies_on (t_name t) l) ->
  find_policy (t_policies (full_table l t)) (p_name p) = Some p.
Proof.
  intros Hi Hx. apply find_self; [|exact Hx]. pose proof Hset as (_ & _ & H). destruct (H _ Hi) as (_ & _ & _ & Hn & _).
  unfold policy_names_of in Hn. now rewrite (names_inline _ s t Hi) in Hn.
Qed.

Lemma create_table_self s t : In (CreateTable s t) l -> ddls_for_create_table m (full_table l t) t = Ok [].
Proof.
  intros Hi. pose proof Hset as (_ & _ & H). destruct (H _ Hi) as (Hc & Hx & Hf & Hp & Hsc & Hsi & Hff).
  unfold ddls_for_create_table.
  rewrite columns_self; cbn [bind].
  2:{ now rewrite full_columns. }
  2:{ intros c Hin. rewrite full_columns. auto. }
  assert (Hr : ddls_remove_autoinc m (full_table l t) t = Ok []).
  { unfold ddls_remove_autoinc. destruct m; try reflexivity. apply concat_map_nil. intros c Hin. rewrite full_columns in Hin.
    cbv beta zeta. unfold find_column. rewrite (find_self _ _ _ Hc Hin), andb_negb_r. reflexivity. }
  rewrite Hr. cbn [bind].
  assert (Hk : ddls_primary_key m (full_table l t) t = Ok []).
  { unfold ddls_primary_key. cbv zeta. assert (primary_key (full_table l t) = primary_key t) as ->.
    { unfold primary_key. rewrite full_columns. simpl. rewrite find_app_none; [reflexivity|].
      intros i Hin. apply in_indexes_on in Hin as [s' Hin]. now destruct (H _ Hin). }
    assert (are_same_primary_keys (primary_key t) (primary_key t) = true) as ->; [|reflexivity].
    destruct (primary_key t) as [i|] eqn:Ep; [|reflexivity]. simpl. apply same_index_refl.
    unfold primary_key in Ep. destruct (find i_primary (t_indexes t)) as [j|] eqn:Ej.
    - injection Ep as <-. apply find_some in Ej as [Ej _]. auto.
    - destruct (map (fun c => mkIndexColumn (c_name c) None "") _); [discriminate|]. injection Ep as <-. constructor. }
  rewrite Hk. cbn [bind].
  rewrite concat_map_nil; cbn [bind].
  2:{ intros i Hin. unfold ddls_index. destruct (i_primary i); [reflexivity|].
      rewrite (find_index_full s t i Hi), same_index_refl; auto. rewrite in_app_iff. auto. }
  assert (Ha : ddls_add_autoinc m (full_table l t) t = Ok []).
  { unfold ddls_add_autoinc. destruct m; try reflexivity. apply concat_map_nil. intros c Hin. rewrite full_columns.
    cbv beta zeta. unfold find_column. rewrite (find_self _ _ _ Hc Hin), andb_negb_r. reflexivity. }
  rewrite Ha. cbn [bind].
  rewrite concat_map_nil; [reflexivity|].
  intros f Hin. unfold ddls_fk. destruct (String.eqb (fk_constraint f) "") eqn:E.
  { apply String.eqb_eq in E. now destruct (Hff f Hin). }
  assert (find_fk (t_fks (full_table l t)) (fk_constraint f) = Some f) as ->.
  { apply (find_self fk_constraint).
    - unfold fk_names_of in Hf. now rewrite (names_inline _ s t Hi) in Hf.
    - simpl. rewrite in_app_iff. auto. }
  assert (are_same_foreign_keys m f f = true) as ->; [|reflexivity].
  apply are_same_foreign_keys_spec. repeat split; unfold action_matches; auto.
Qed.

Lemma ordered_self : ordered l.
Proof. destruct (convert_from_schema l [] ordered_nil self_nodup) as [_ H]. destruct (H _ self_readable) as [_ Ho]. exact Ho. Qed.

Lemma creation_of n : (exists d, In d l /\ (match d with CreateIndex _ k _ | AddPolicy _ k _ => k = n | _ => False end)) ->
  exists s t, In (CreateTable s t) l /\ t_name t = n.
Proof.
  intros (d & Hd & E). destruct (in_dec string_dec n (created l)) as [Hi|Hi].
  - unfold created in Hi. apply in_map_iff in Hi as (t & Et & Ht). apply in_tables in Ht as [s Hs]. eauto.
  - exfalso. destruct (ordered_self n Hi) as (H1 & _ & H3 & _). destruct d as [|s k i| | | |s k p| |]; try tauto; subst n.
    + assert (In i (indexes_on k l)); [|rewrite H1 in *; auto]. unfold indexes_on. rewrite in_flat_map.
      eexists. split; [eassumption|]. simpl. rewrite String.eqb_refl. now left.
    + assert (In p (policies_on k l)); [|rewrite H3 in *; auto]. unfold policies_on. rewrite in_flat_map.
      eexists. split; [eassumption|]. simpl. rewrite String.eqb_refl. now left.
Qed.

Lemma well_formed_views a : forall b, NoDup (map vw_name (views_in b)) -> well_formed_after b a = true -> NoDup (map vw_name (views_in (b ++ a))).
Proof.
  induction a as [|d a IH]; simpl; intros b Hb H; [now rewrite app_nil_r|]. apply andb_true_iff in H as [H1 H2].
  rewrite (snoc_app b d a). apply IH; [|exact H2]. rewrite views_in_app, map_app. destruct d; simpl; rewrite ?app_nil_r; auto.
  simpl in H1. apply negb_true_iff in H1. apply mem_false in H1. apply (NoDup_Add (Add_app _ (map vw_name (views_in b)) [])). rewrite app_nil_r. auto.
Qed.

Lemma local_self d : In d l -> local m (schema l) (views_in l) (triggers_in l) d = Ok [].
Proof.
  intros Hd. pose proof Hset as (_ & Ht & H). specialize (H d Hd) as Hs.
  destruct d as [s t|s n i|s n i|s n i|s n f|s n p|v|t]; cbn [local] in *.
  - rewrite (find_full s t Hd). now apply create_table_self with s.
  - destruct (creation_of n) as (s' & t & Hi & <-); [exists (CreateIndex s n i); auto|].
    rewrite (find_full s' t Hi). rewrite (find_index_full s' t i Hi).
    + destruct Hs as [Hs _]. now rewrite same_index_refl.
    + apply in_app_iff. right. unfold indexes_on. rewrite in_flat_map. eexists. split; [exact Hd|]. simpl. rewrite String.eqb_refl. now left.
  - destruct Hs.
  - exfalso. exact (well_formed_no_pk l [] Hw _ _ _ Hd).
  - reflexivity.
  - destruct (creation_of n) as (s' & t & Hi & <-); [exists (AddPolicy s n p); auto|].
    rewrite (find_full s' t Hi). rewrite (find_policy_full s' t p Hi).
    + assert (are_same_policies p p = true) as ->; [|reflexivity].
      unfold are_same_policies. rewrite !String.eqb_refl. simpl. apply strings_eqb_refl.
    + apply in_app_iff. right. unfold policies_on. rewrite in_flat_map. eexists. split; [exact Hd|]. simpl. rewrite String.eqb_refl. now left.
  - assert (find_view (views_in l) (vw_name v) = Some v) as ->.
    { apply (find_self vw_name).
      - apply (well_formed_views l []); [constructor|exact Hw].
      - unfold views_in. rewrite in_flat_map. exists (DView v). split; simpl; auto. }
    now rewrite String.eqb_refl.
  - destruct (trigger_definition m t); [|reflexivity].
    assert (find_trigger (triggers_in l) (tr_name t) = Some t) as ->.
    { apply (find_self tr_name); [exact Ht|]. unfold triggers_in. rewrite in_flat_map. exists (DTrigger t). split; simpl; auto. }
    assert (are_same_trigger t t = true) as ->; [|reflexivity].
    unfold are_same_trigger. now rewrite !String.eqb_refl, strings_eqb_refl.
Qed.

Lemma mem_names {A} (nm : A -> string) (a : list A) x : In x a -> contains_string (map nm a) (nm x) = true.
Proof. intros H. rewrite contains_string_mem. apply mem_spec. now apply in_map. Qed.

Lemma flat_map_nil {A B} (f : A -> list B) a : (forall x, In x a -> f x = []) -> flat_map f a = [].
Proof. induction a as [|x a IH]; simpl; intros H; [reflexivity|]. now rewrite H, IH by auto. Qed.

Lemma cleanup_kept_self t : cleanup_kept m t t = Ok [].
Proof.
  unfold cleanup_kept.
  assert (cleanup_indexes m t t = Ok []) as ->.
  { unfold cleanup_indexes. apply concat_map_nil. intros i Hi. unfold index_names. now rewrite (mem_names i_name). }
  cbn [bind]. unfold cleanup_fks, cleanup_columns, cleanup_policies. rewrite !flat_map_nil; [reflexivity|..].
  - intros p Hp. unfold policy_names. now rewrite (mem_names p_name).
  - intros c Hc. unfold column_names. now rewrite (mem_names c_name).
  - intros f Hf. unfold fk_names. now rewrite (mem_names fk_constraint).
Qed.

Lemma cleanup_tables_self ts live a : NoDup (map t_name ts) -> (forall t, In t a -> In t ts) ->
  cleanup_tables m ts live a = Ok [].
Proof.
  intros Hn. induction a as [|t a IH]; intros Ha; [reflexivity|]. cbn [cleanup_tables].
  rewrite (find_table_unique ts t Hn) by (apply Ha; now left). rewrite cleanup_kept_self. cbn [bind].
  rewrite IH by (intros; apply Ha; now right). reflexivity.
Qed.

Theorem plan_self : plan m l l = Ok [].
Proof.
  rewrite (plan_eq m l l (schema l) self_nodup Hw self_readable).
  rewrite concat_map_nil by (intros d Hd; now apply local_self). cbn [bind].
  rewrite cleanup_tables_self; auto. 2:{ rewrite schema_names. exact self_nodup. }
  cbn [bind app]. f_equal. unfold obsolete_views. apply flat_map_nil. intros v Hv.
  assert (mem (vw_name v) (map vw_name (views_in l)) = true) as ->; [|reflexivity]. apply mem_spec. now apply in_map.
Qed.
End Self.
