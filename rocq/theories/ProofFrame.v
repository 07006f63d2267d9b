(** C26: the plan for one table is the plan of the statements about that table. *)
From Coq Require Import String Ascii List ZArith Bool Lia.
From Verif Require Import GoStr GoStrFacts Ast Generator SpecPlan ProofPlan ProofSteps ProofTables.
Import ListNotations.
Local Open Scope string_scope.
Local Open Scope list_scope.

Section Frame.
Context (n : string).

Definition on (l : list table) : list table := filter (fun t => String.eqb (t_name t) n) l.

Lemma tables_in_on l : tables_in (statements_on n l) = on (tables_in l).
Proof.
  unfold tables_in, statements_on, on. induction l as [|d l IH]; simpl; [reflexivity|].
  destruct d; simpl; try (destruct (String.eqb _ n); simpl; exact IH); try exact IH.
  destruct (String.eqb _ n); simpl; now rewrite IH.
Qed.

Lemma flat_map_on {A} (f : ddl -> list A) l :
  (forall d, is_some_eqb (ddl_table d) n = false -> f d = []) ->
  flat_map f (statements_on n l) = flat_map f l.
Proof.
  intros H. unfold statements_on. induction l as [|d l IH]; simpl; [reflexivity|].
  destruct (is_some_eqb (ddl_table d) n) eqn:E; simpl; rewrite IH; [reflexivity|]. now rewrite (H d E).
Qed.

Lemma indexes_on_on l : indexes_on n (statements_on n l) = indexes_on n l.
Proof. apply flat_map_on. intros d H. destruct d; simpl in *; auto; now rewrite H. Qed.
Lemma fks_on_on l : fks_on n (statements_on n l) = fks_on n l.
Proof. apply flat_map_on. intros d H. destruct d; simpl in *; auto; now rewrite H. Qed.
Lemma policies_on_on l : policies_on n (statements_on n l) = policies_on n l.
Proof. apply flat_map_on. intros d H. destruct d; simpl in *; auto; now rewrite H. Qed.
Lemma pk_marks_on l : pk_marks n (statements_on n l) = pk_marks n l.
Proof. apply flat_map_on. intros d H. destruct d; simpl in *; auto; now rewrite H. Qed.

Lemma views_on l : views_in (statements_on n l) = [].
Proof.
  unfold views_in, statements_on. induction l as [|d l IH]; simpl; [reflexivity|].
  destruct (is_some_eqb (ddl_table d) n) eqn:E; simpl; [|exact IH]. rewrite IH. destruct d; auto. discriminate.
Qed.

Lemma triggers_on l : triggers_in (statements_on n l) = [].
Proof.
  unfold triggers_in, statements_on. induction l as [|d l IH]; simpl; [reflexivity|].
  destruct (is_some_eqb (ddl_table d) n) eqn:E; simpl; [|exact IH]. rewrite IH. destruct d; auto. discriminate.
Qed.

Lemma inline_on {A} (f : table -> list A) l : inline f n (statements_on n l) = inline f n l.
Proof.
  unfold inline. rewrite tables_in_on. unfold on. induction (tables_in l) as [|t ts IH]; simpl; [reflexivity|].
  destruct (String.eqb _ n) eqn:E; simpl; rewrite ?E; now rewrite IH.
Qed.

Lemma created_on l : created (statements_on n l) = filter (fun k => String.eqb k n) (created l).
Proof.
  unfold created. rewrite tables_in_on. unfold on. induction (tables_in l) as [|t ts IH]; simpl; [reflexivity|].
  destruct (String.eqb _ n); simpl; now rewrite IH.
Qed.

Lemma mem_created_on l : mem n (created (statements_on n l)) = mem n (created l).
Proof.
  rewrite created_on. induction (created l) as [|k ks IH]; [reflexivity|]. simpl filter.
  destruct (String.eqb_spec k n) as [->|Hk]; simpl; [now rewrite String.eqb_refl|].
  fold (mem n (filter (fun k => String.eqb k n) ks)) (mem n ks). rewrite IH.
  apply not_eq_sym in Hk. apply String.eqb_neq in Hk. now rewrite Hk.
Qed.

Lemma statements_on_app a b : statements_on n (a ++ b) = statements_on n a ++ statements_on n b.
Proof. apply filter_app. Qed.

Lemma statements_on_idem l : statements_on n (statements_on n l) = statements_on n l.
Proof.
  unfold statements_on. induction l as [|d l IH]; simpl; [reflexivity|].
  destruct (is_some_eqb (ddl_table d) n) eqn:E; simpl; rewrite ?E; now rewrite ?IH.
Qed.

Lemma may_follow_on before d : ddl_table d = Some n ->
  may_follow (statements_on n before) d = may_follow before d.
Proof.
  intros H. destruct d; simpl in *; auto; try discriminate; injection H as ->; rewrite mem_created_on.
  - unfold index_names_of. now rewrite inline_on, indexes_on_on.
  - unfold index_names_of. now rewrite inline_on, indexes_on_on.
  - unfold fk_names_of. now rewrite inline_on, fks_on_on.
  - unfold policy_names_of. now rewrite inline_on, policies_on_on.
Qed.

Lemma well_formed_on l : forall before, well_formed_after before l = true ->
  well_formed_after (statements_on n before) (statements_on n l) = true.
Proof.
  induction l as [|d l IH]; intros before H; [reflexivity|]. cbn [well_formed_after] in H. apply andb_prop in H as [Hd H].
  apply IH in H. rewrite statements_on_app in H. 
  change (d :: l) with ([d] ++ l). rewrite statements_on_app.
  unfold statements_on at 2. cbn [filter]. destruct (is_some_eqb (ddl_table d) n) eqn:E.
  - cbn [app well_formed_after]. rewrite may_follow_on, Hd.
    2:{ unfold is_some_eqb in E. destruct (ddl_table d); [|discriminate]. apply String.eqb_eq in E. congruence. }
    cbn [andb]. unfold statements_on at 2 in H. cbn [filter] in H. rewrite E in H. exact H.
  - unfold statements_on at 2 in H. cbn [filter] in H. rewrite E, app_nil_r in H. exact H.
Qed.

Lemma find_on l : find_table (on l) n = find_table l n.
Proof.
  unfold find_table, on. induction l as [|t l IH]; simpl; [reflexivity|].
  destruct (String.eqb (t_name t) n) eqn:E; simpl; rewrite ?E; auto.
Qed.

Lemma find_none_on l k : k <> n -> find_table (on l) k = None.
Proof.
  intros Hk. unfold find_table, on. induction l as [|t l IH]; simpl; [reflexivity|].
  destruct (String.eqb_spec (t_name t) n) as [E|E]; simpl; auto.
  destruct (String.eqb_spec (t_name t) k); [congruence|auto].
Qed.

Lemma on_update f l : (forall t, t_name t = n -> t_name (f t) = n) -> on (update_table f n l) = update_table f n (on l).
Proof.
  intros Hf. unfold on. induction l as [|t l IH]; simpl; [reflexivity|].
  destruct (String.eqb_spec (t_name t) n) as [E|E]; simpl.
  - rewrite (Hf t E), E, !String.eqb_refl. reflexivity.
  - apply String.eqb_neq in E. rewrite E. exact IH.
Qed.

Lemma on_update_other f k l : (forall t, t_name t = k -> t_name (f t) = k) -> k <> n -> on (update_table f k l) = on l.
Proof.
  intros Hf Hk. unfold on. induction l as [|t l IH]; simpl; [reflexivity|].
  destruct (String.eqb_spec (t_name t) k) as [E|E]; simpl.
  - rewrite (Hf t E), E. destruct (String.eqb_spec k n); [congruence|reflexivity].
  - now rewrite IH.
Qed.

Lemma convert_step_on ts d ts' : convert_step ts d = Ok ts' ->
  if is_some_eqb (ddl_table d) n then convert_step (on ts) d = Ok (on ts') else on ts' = on ts.
Proof.
  intros H. destruct d as [s t|s k i|s k i|s k i|s k f|s k p|v|t]; simpl in *; try discriminate.
  - injection H as <-. unfold on. rewrite filter_app. simpl.
    destruct (String.eqb (t_name t) n); [reflexivity|apply app_nil_r].
  - destruct (find_table ts k) as [u|] eqn:Ef; [|discriminate]. injection H as <-.
    destruct (String.eqb_spec k n) as [->|Hk].
    + rewrite find_on, Ef. f_equal. symmetry. now apply on_update.
    + now apply on_update_other.
  - destruct (find_table ts k) as [u|] eqn:Ef; [|discriminate]. destruct (mark_primary i u) as [u'| | |] eqn:Em; try discriminate.
    injection H as <-.
    assert (Hn : t_name u' = k).
    { apply find_table_some in Ef as [_ <-]. unfold mark_primary in Em.
      destruct (t_columns u), (i_columns i); try discriminate; injection Em as <-; reflexivity. }
    destruct (String.eqb_spec k n) as [->|Hk].
    + rewrite find_on, Ef. simpl. rewrite Em. simpl. f_equal. symmetry. apply on_update. auto.
    + apply on_update_other; auto.
  - destruct (find_table ts k) as [u|] eqn:Ef; [|discriminate]. injection H as <-.
    destruct (String.eqb_spec k n) as [->|Hk].
    + rewrite find_on, Ef. f_equal. symmetry. now apply on_update.
    + now apply on_update_other.
  - destruct (find_table ts k) as [u|] eqn:Ef; [|discriminate]. injection H as <-.
    destruct (String.eqb_spec k n) as [->|Hk].
    + rewrite find_on, Ef. f_equal. symmetry. now apply on_update.
    + now apply on_update_other.
  - congruence.
  - congruence.
Qed.

Lemma convert_on l : forall ts0 ts, convert_from ts0 l = Ok ts -> convert_from (on ts0) (statements_on n l) = Ok (on ts).
Proof.
  induction l as [|d l IH]; intros ts0 ts H; simpl in H.
  - injection H as <-. reflexivity.
  - bind_inv H. apply IH in H. pose proof (convert_step_on _ _ _ E) as Hs.
    unfold statements_on. cbn [filter]. fold (statements_on n l).
    destruct (is_some_eqb (ddl_table d) n).
    + cbn [convert_from]. now rewrite Hs.
    + now rewrite <- Hs.
Qed.

Lemma local_on m ts views triggers views' triggers' d : ddl_table d = Some n ->
  local m (on ts) views' triggers' d = local m ts views triggers d.
Proof. intros H. destruct d; simpl in *; try discriminate; auto; injection H as ->; now rewrite find_on. Qed.

Lemma concat_map_local_on m ts views triggers views' triggers' l :
  Forall (fun d => ddl_table d = Some n) l ->
  concat_map (local m (on ts) views' triggers') l = concat_map (local m ts views triggers) l.
Proof. induction 1 as [|d l Hd _ IH]; simpl; [reflexivity|]. now rewrite (local_on m ts views triggers) , IH. Qed.

Lemma full_table_on l t : t_name t = n -> full_table (statements_on n l) t = full_table l t.
Proof. intros H. unfold full_table. rewrite H, pk_marks_on, indexes_on_on, fks_on_on, policies_on_on. reflexivity. Qed.

Lemma find_schema_on l : find_table (schema (statements_on n l)) n = find_table (schema l) n.
Proof.
  rewrite !find_schema, tables_in_on, find_on. destruct (find_table (tables_in l) n) as [t|] eqn:E; [|reflexivity].
  apply find_table_some in E as [_ E]. simpl. now rewrite full_table_on.
Qed.

Lemma cleanup_on m des des' l : find_table des' n = find_table des n -> forall live live' o,
  (existsb (fun t => String.eqb n (t_name t)) live = existsb (fun t => String.eqb n (t_name t)) live') ->
  cleanup_tables m des live l = Ok o -> cleanup_tables m des' live' (on l) = Ok (table_part n o).
Proof.
  intros Hdes. induction l as [|t l IH]; intros live live' o Hl H; cbn [cleanup_tables] in H.
  - injection H as <-. reflexivity.
  - unfold on. cbn [filter]. fold (on l).
    destruct (String.eqb_spec (t_name t) n) as [E|E].
    + cbn [cleanup_tables]. rewrite E, Hdes. rewrite E in H.
      destruct (find_table des n) as [dt|].
      * bind_inv H. bind_inv H. injection H as <-. simpl. rewrite (IH live live' _ Hl E1). simpl.
        rewrite part_app, (part_all n a); [reflexivity|]. rewrite <- E. eapply cleanup_kept_about; eauto.
      * unfold remove_table in *. rewrite <- Hl. destruct (existsb _ live); [|discriminate]. bind_inv H. injection H as <-.
        erewrite IH; [|clear|exact E0].
        -- simpl. now rewrite String.eqb_refl.
        -- assert (Hx : forall ys, existsb (fun t => String.eqb n (t_name t)) (filter (fun t => negb (String.eqb n (t_name t))) ys) = false).
           { induction ys as [|x xs IHx]; simpl; [reflexivity|]. destruct (String.eqb n (t_name x)) eqn:Ex; simpl; rewrite ?Ex; auto. }
           now rewrite !Hx.
    + destruct (find_table des (t_name t)) as [dt|].
      * bind_inv H. bind_inv H. injection H as <-. rewrite part_app, (part_none n (t_name t) a); [|eapply cleanup_kept_about; eauto|assumption].
        simpl. eauto.
      * unfold remove_table in H. destruct (existsb (fun x => String.eqb (t_name t) (t_name x)) live); [|discriminate]. bind_inv H. injection H as <-.
        simpl. apply String.eqb_neq in E. rewrite E. eapply IH; [|exact E0]. rewrite <- Hl.
        apply String.eqb_neq in E. clear -E. induction live as [|x xs IHx]; simpl; [reflexivity|].
        destruct (String.eqb_spec (t_name t) (t_name x)) as [Ex|Ex]; simpl; rewrite IHx; [|reflexivity].
        destruct (String.eqb_spec n (t_name x)); [congruence|reflexivity].
Qed.

Theorem plan_on m desired current out : NoDup (created desired) -> plan m desired current = Ok out ->
  plan m (statements_on n desired) (statements_on n current) = Ok (table_part n out).
Proof.
  intros Hnd H. destruct (plan_ok_inv m desired current out Hnd H) as (Hw & ts & a & b & Hc & Ha & Hb & ->).
  assert (Hnd' : NoDup (created (statements_on n desired))) by (rewrite created_on; now apply NoDup_filter).
  assert (Hc' : convert_ddls_to_tables (statements_on n current) = Ok (on ts)).
  { apply (convert_on current [] ts). exact Hc. }
  rewrite (plan_eq m _ _ (on ts) Hnd' (well_formed_on desired [] Hw) Hc').
  rewrite (concat_map_local_on m ts (views_in current) (triggers_in current)) by apply statements_on_table.
  rewrite (concat_map_part _ _ _ _ n _ _ Ha). simpl.
  rewrite (cleanup_on m (schema desired) _ ts (find_schema_on desired) ts (on ts) b).
  - simpl. rewrite views_on. unfold obsolete_views at 1. simpl. rewrite !part_app, obsolete_views_part. reflexivity.
  - unfold on. clear. induction ts as [|x xs IH]; simpl; [reflexivity|].
    destruct (String.eqb_spec (t_name x) n) as [E|E]; simpl; rewrite IH; [reflexivity|].
    destruct (String.eqb_spec n (t_name x)); [congruence|reflexivity].
  - exact Hb.
Qed.
End Frame.

Theorem plan_frame m n desired current out desired' current' out' :
  NoDup (created desired) -> NoDup (created desired') ->
  plan m desired current = Ok out -> plan m desired' current' = Ok out' ->
  statements_on n desired = statements_on n desired' -> statements_on n current = statements_on n current' ->
  table_part n out = table_part n out'.
Proof.
  intros H1 H2 H3 H4 H5 H6. apply (plan_on n) in H3; [|assumption]. apply (plan_on n) in H4; [|assumption]. congruence.
Qed.
