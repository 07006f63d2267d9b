(** Tables, views and triggers: what the whole plan creates, replaces and drops; and the
    independence of tables. *)
From Coq Require Import String Ascii List ZArith Bool Lia.
From Verif Require Import GoStr GoStrFacts Ast Generator SpecPlan ProofPlan ProofSteps ProofTables
  ProofCompare ProofExact.
Import ListNotations.
Local Open Scope string_scope.
Local Open Scope list_scope.

Ltac kinds := let e := fresh in intros e; destruct e as [[]| | | | | | | | | | | | | | | | | | | | | | | | | | | | | | | |]; simpl; auto; discriminate.

(** Statements that alter a table in place: everything [ddls_for_create_table] and the
    clean-up of a kept table emit. *)
Definition k_alter (e : effect) : bool := k_column e || k_primary e || k_index e || k_fk e || k_policy e.

Lemma kind_create_table m ct t o : ddls_for_create_table m ct t = Ok o -> all k_alter o.
Proof.
  unfold ddls_for_create_table. intros H. do 6 bind_inv H. injection H as <-. rewrite !Forall_app.
  split; [eapply all_weaken; [|eapply kind_columns; eauto]; kinds|].
  split; [eapply all_weaken; [|eapply kind_remove_autoinc; eauto]; kinds|].
  split; [eapply all_weaken; [|eapply kind_primary_key; eauto]; kinds|].
  split; [eapply all_weaken; [|eapply all_concat_map; [|exact E2]; intros; eapply kind_ix; eauto]; kinds|].
  split; [eapply all_weaken; [|eapply kind_add_autoinc; eauto]; kinds|].
  eapply all_weaken; [|eapply all_concat_map; [|exact E4]; intros; eapply kind_fk; eauto]; kinds.
Qed.

Lemma kind_cleanup_kept m ct dt o : cleanup_kept m ct dt = Ok o -> all k_alter o.
Proof.
  unfold cleanup_kept. intros H. bind_inv H. injection H as <-. rewrite !Forall_app.
  split; [eapply all_weaken; [|apply kind_cleanup_fks]; kinds|].
  split; [eapply all_weaken; [|eapply kind_cleanup_indexes; eauto]; kinds|].
  split; [eapply all_weaken; [|apply kind_cleanup_columns]; kinds|].
  eapply all_weaken; [|apply kind_cleanup_policies]; kinds.
Qed.

Lemma kind_cleanup_tables m des l : forall live o, cleanup_tables m des live l = Ok o ->
  all (fun e => k_alter e || match e with EffDropTable _ => true | _ => false end) o.
Proof.
  induction l as [|t l IH]; intros live o H; cbn [cleanup_tables] in H.
  - injection H as <-. constructor.
  - destruct (find_table des (t_name t)).
    + bind_inv H. bind_inv H. injection H as <-. apply Forall_app. split; [|eauto].
      apply kind_cleanup_kept in E. eapply Forall_impl; [|exact E]. simpl. intros s ->. reflexivity.
    + destruct (remove_table _ _); [|discriminate]. bind_inv H. injection H as <-. constructor; [reflexivity|eauto].
Qed.

Definition k_local (e : effect) : bool :=
  match e with
  | EffVerbatim _ | EffCreateView _ _ | EffReplaceView _ _ | EffDropView _ | EffDropTrigger _
  | EffCreateTrigger _ | EffCreateOrAlterTrigger _ => true
  | _ => k_alter e
  end.

Lemma kind_local m tables views triggers d o : local m tables views triggers d = Ok o -> all k_local o.
Proof.
  intros H. destruct d; simpl in H.
  - destruct (find_table _ _); [|injection H as <-; repeat constructor].
    eapply all_weaken; [|eapply kind_create_table; eauto]. kinds.
  - destruct (find_table _ _) as [ct|]; [|injection H as <-; repeat constructor].
    destruct (find_index _ _) as [ci|]; [|injection H as <-; repeat constructor].
    destruct (are_same_indexes ci i); injection H as <-; repeat constructor. destruct m; reflexivity.
  - destruct (find_table _ _) as [ct|]; [|injection H as <-; repeat constructor].
    destruct (find_index _ _) as [ci|]; [|injection H as <-; repeat constructor].
    destruct (are_same_indexes ci i); injection H as <-; repeat constructor. destruct m; reflexivity.
  - discriminate.
  - injection H as <-. constructor.
  - destruct (find_table _ _) as [ct|]; [|injection H as <-; repeat constructor].
    destruct (find_policy _ _) as [cp|]; [|injection H as <-; repeat constructor].
    destruct (are_same_policies cp p); injection H as <-; repeat constructor.
  - injection H as <-. destruct (find_view _ _); [destruct (String.eqb _ _); [|destruct m]|]; repeat constructor.
  - destruct (trigger_definition m t); injection H as <-; [|constructor].
    destruct (find_trigger _ _); [destruct (are_same_trigger _ _); [|destruct m]|]; repeat constructor.
Qed.

Lemma kind_obsolete_views m desired views :
  all (fun e => match e with EffDropView _ => true | _ => false end) (obsolete_views m desired views).
Proof. apply all_flat_map. intros v _. destruct (mem _ _); repeat constructor. Qed.

Lemma convert_names l tables : convert_ddls_to_tables l = Ok tables -> map t_name tables = created l.
Proof.
  unfold convert_ddls_to_tables. 
  assert (Hgen : forall ts0 ts, convert_from ts0 l = Ok ts -> map t_name ts = map t_name ts0 ++ created l).
  2:{ intros H. now apply Hgen in H. }
  induction l as [|d l IH]; intros ts0 ts H; simpl in H.
  - injection H as <-. now rewrite app_nil_r.
  - bind_inv H. apply IH in H. rewrite H. unfold created at 2. 
    change (d :: l) with ([d] ++ l). unfold tables_in at 1. rewrite flat_map_app. fold (tables_in [d]) (tables_in l). rewrite map_app. fold (created l). rewrite app_assoc. f_equal.
    assert (Hup : forall f n, (forall t, t_name (f t) = t_name t) -> map t_name (update_table f n ts0) = map t_name ts0).
    { intros f n Hf. clear -Hf. induction ts0 as [|t ts IH]; simpl; [reflexivity|].
      destruct (String.eqb _ _); simpl; [now rewrite Hf|now rewrite IH]. }
    unfold convert_step in E. destruct d; simpl.
    + injection E as <-. now rewrite map_app.
    + destruct (find_table ts0 table_name); [|discriminate]. injection E as <-. now rewrite Hup, app_nil_r.
    + discriminate.
    + destruct (find_table ts0 table_name) as [t0|] eqn:Ef; [|discriminate].
      destruct (mark_primary i t0) as [t| | |] eqn:E0; try discriminate. injection E as <-. rewrite app_nil_r.
      assert (Hn : t_name t = table_name).
      { apply find_table_some in Ef as [_ <-]. unfold mark_primary in E0.
        destruct (t_columns t0), (i_columns i); try discriminate; injection E0 as <-; reflexivity. }
      subst table_name. clear -Ef. induction ts0 as [|x ts IH]; simpl in *; [reflexivity|].
      unfold find_table in Ef. simpl in Ef.
      destruct (String.eqb_spec (t_name x) (t_name t)); simpl; [congruence|]. f_equal. apply IH. exact Ef.
    + destruct (find_table ts0 table_name); [|discriminate]. injection E as <-. now rewrite Hup, app_nil_r.
    + destruct (find_table ts0 table_name); [|discriminate]. injection E as <-. now rewrite Hup, app_nil_r.
    + injection E as <-. now rewrite app_nil_r.
    + injection E as <-. now rewrite app_nil_r.
Qed.

Section Whole.
Context (m : mode) (desired current : list ddl) (out : list stmt).
Hypothesis Hnd : NoDup (created desired).
Hypothesis Hplan : plan m desired current = Ok out.

(** C14 *)
Theorem dropped_tables_exact :
  effects dropped_tables out = filter (fun n => negb (mem n (created desired))) (created current).
Proof.
  destruct (plan_ok_inv m desired current out Hnd Hplan) as (Hw & tables & a & b & Hc & Ha & Hb & ->).
  rewrite !effects_app.
  assert (H1 : effects dropped_tables a = []).
  { eapply sil; [eapply all_concat_map; [|exact Ha]; intros; eapply kind_local; eauto|]. kinds. }
  assert (H2 : effects dropped_tables (obsolete_views m desired (views_in current)) = []).
  { eapply (sil _ (fun e => match e with EffDropView _ => true | _ => false end)); [apply kind_obsolete_views|]. kinds. }
  rewrite H1, H2, app_nil_r. simpl. rewrite <- (convert_names _ _ Hc). clear - Hb.
  assert (Hgen : forall live l o, cleanup_tables m (schema desired) live l = Ok o ->
    effects dropped_tables o = filter (fun n => negb (mem n (created desired))) (map t_name l)); [|eauto].
  intros live l. revert live. induction l as [|t l IH]; intros live o H; cbn [cleanup_tables] in H.
  - injection H as <-. reflexivity.
  - cbn [map filter]. destruct (find_table (schema desired) (t_name t)) as [dt|] eqn:Ef.
    + assert (Hm : mem (t_name t) (created desired) = true).
      { apply mem_spec. rewrite <- names_schema. apply find_table_some in Ef as [Hi <-]. now apply in_map. }
      rewrite Hm. simpl. bind_inv H. bind_inv H. injection H as <-. rewrite effects_app, (IH _ _ E0).
      rewrite (sil _ k_alter a); [reflexivity|eapply kind_cleanup_kept; eauto|kinds].
    + assert (Hm : mem (t_name t) (created desired) = false).
      { apply mem_false. rewrite <- names_schema. now apply find_table_none. }
      rewrite Hm. simpl. destruct (remove_table _ _); [|discriminate]. bind_inv H. injection H as <-. simpl.
      f_equal. eauto.
Qed.

(** C21 *)
Lemma contrib_flat_map {A B C} (R : B -> list C -> Prop) (g : A -> list B) l o :
  contrib (fun x o => contrib R (g x) o) l o -> contrib R (flat_map g l) o.
Proof. induction 1; simpl; [constructor|]. now apply contrib_app. Qed.

Lemma contrib_one {A B} (R : A -> list B -> Prop) x o : R x o -> contrib R [x] o.
Proof. intros H. rewrite <- (app_nil_r o). constructor; [assumption|constructor]. Qed.

Lemma local_silent {B} (f : effect -> list B) tables views triggers d o :
  local m tables views triggers d = Ok o -> (exists n, ddl_table d = Some n) ->
  (forall e, eff_table e <> None -> f e = []) -> effects f o = [].
Proof.
  intros H [n Hd] Hf. pose proof (local_about _ _ _ _ _ _ _ H Hd) as Ha. clear H.
  induction Ha as [|s o Hs _ IH]; [reflexivity|]. simpl. rewrite Hf; [exact IH|]. rewrite Hs. discriminate.
Qed.

Theorem view_ops_exact : exists replaced,
  contrib (desired_view m (views_in current)) (views_in desired) replaced /\
  effects view_ops out = replaced ++
    map (fun v => ViewDrop (vw_name v)) (without vw_name vw_name (views_in desired) (views_in current)).
Proof.
  destruct (plan_ok_inv m desired current out Hnd Hplan) as (Hw & tables & a & b & Hc & Ha & Hb & ->).
  exists (effects view_ops a). split.
  - unfold views_in at 2. apply contrib_flat_map. eapply effects_concat_map; [|exact Ha].
    intros d o' Hd H.
    assert (Hno : (exists n, ddl_table d = Some n) -> effects view_ops o' = []).
    { intros Ht. eapply local_silent; eauto. intros e He. destruct e as [[]| | | | | | | | | | | | | | | | | | | | | | | | | | | | | | | |]; simpl in *; auto; congruence. }
    destruct d; try (rewrite Hno by (simpl; eauto); constructor).
    + apply contrib_one. simpl in H. injection H as <-. unfold desired_view, named.
      fold (find_view (views_in current) (vw_name v)).
      destruct (find_view _ _) as [cv|]; [|reflexivity]. unfold same_letters.
      destruct (String.eqb_spec (to_lower (vw_definition cv)) (to_lower (vw_definition v))).
      * left. auto.
      * right. split; [assumption|]. destruct m; reflexivity.
    + simpl in H. destruct (trigger_definition m t); injection H as <-; [|constructor].
      destruct (find_trigger _ _); [destruct (are_same_trigger _ _); [|destruct m]|]; constructor.
  - rewrite !effects_app. f_equal.
    rewrite (sil _ _ b (kind_cleanup_tables _ _ _ _ _ Hb)) by kinds. cbn [app].
    unfold obsolete_views. rewrite effects_flat_map.
    rewrite <- (flat_map_single _ (without _ _ _ _)). unfold without.
    rewrite <- (if_flat_map (fun v => mem (vw_name v) (map vw_name (views_in desired)))).
    apply flat_map_ext. intros v. destruct (mem _ _); reflexivity.
Qed.

(** C22 *)
Theorem trigger_ops_exact :
  contrib (desired_trigger m (triggers_in current)) (triggers_in desired) (effects trigger_ops out).
Proof.
  destruct (plan_ok_inv m desired current out Hnd Hplan) as (Hw & tables & a & b & Hc & Ha & Hb & ->).
  rewrite !effects_app. rewrite (sil _ _ b (kind_cleanup_tables _ _ _ _ _ Hb)) by kinds.
  rewrite (sil _ _ _ (kind_obsolete_views m desired (views_in current))) by kinds. rewrite app_nil_r.
  unfold triggers_in at 2. apply contrib_flat_map. eapply effects_concat_map; [|exact Ha].
  intros d o' Hd H.
  assert (Hno : (exists n, ddl_table d = Some n) -> effects trigger_ops o' = []).
  { intros Ht. eapply local_silent; eauto. intros e He. destruct e as [[]| | | | | | | | | | | | | | | | | | | | | | | | | | | | | | | |]; simpl in *; auto; congruence. }
  destruct d; try (rewrite Hno by (simpl; eauto); constructor).
  - simpl in H. injection H as <-. destruct (find_view _ _); [destruct (String.eqb _ _); [|destruct m]|]; constructor.
  - apply contrib_one. simpl in H. unfold desired_trigger, named. fold (find_trigger (triggers_in current) (tr_name t)).
    destruct m; cbn [trigger_definition] in H; injection H as <-; auto.
    + destruct (find_trigger _ _) as [ct|]; [|reflexivity]. destruct (are_same_trigger ct t) eqn:Es.
      * left. split; [now apply are_same_trigger_spec|reflexivity].
      * right. split; [now apply are_same_trigger_false|reflexivity].
    + destruct (find_trigger _ _) as [ct|]; [|reflexivity]. destruct (are_same_trigger ct t) eqn:Es.
      * left. split; [now apply are_same_trigger_spec|reflexivity].
      * right. split; [now apply are_same_trigger_false|reflexivity].
Qed.

(** C17 *)
Theorem as_written_exact : NoDup (created current) ->
  contrib (as_written current) desired (effects executed_as_written out).
Proof.
  intros Hnc. destruct (plan_parts m desired current out Hnd Hnc Hplan) as (Hw & a & b & Ha & Hb & ->).
  rewrite !effects_app. rewrite (sil _ _ b (kind_cleanup_tables _ _ _ _ _ Hb)) by kinds.
  rewrite (sil _ _ _ (kind_obsolete_views m desired (views_in current))) by kinds. rewrite app_nil_r.
  eapply effects_concat_map; [|exact Ha]. intros d o' Hd H.
  assert (Hix : forall n i, effects executed_as_written
      match find_table (schema current) n with
      | None => [verbatim d]
      | Some ct => match find_index (t_indexes ct) (i_name i) with
                   | None => [verbatim d]
                   | Some ci => if are_same_indexes ci i then [] else [stmt_drop_index m n (i_name ci); verbatim d]
                   end
      end = match find_table (schema current) n with
      | None => [d]
      | Some ct => match find_index (t_indexes ct) (i_name i) with
                   | None => [d]
                   | Some ci => if are_same_indexes ci i then [] else [d]
                   end
      end).
  { intros n i. destruct (find_table _ _); [|reflexivity]. destruct (find_index _ _); [|reflexivity].
    destruct (are_same_indexes _ _); [reflexivity|]. destruct m; reflexivity. }
  destruct d; simpl in H; cbn [as_written].
  - destruct (find_table (schema current) (t_name t)) as [ct|] eqn:Ef.
    + assert (Hm : mem (t_name t) (created current) = true).
      { apply mem_spec. rewrite <- names_schema. apply find_table_some in Ef as [Hi <-]. now apply in_map. }
      rewrite Hm. eapply sil; [eapply kind_create_table; eauto|kinds].
    + assert (Hm : mem (t_name t) (created current) = false).
      { apply mem_false. rewrite <- names_schema. now apply find_table_none. }
      rewrite Hm. injection H as <-. reflexivity.
  - unfold named. fold (find_table (schema current) table_name). 
    destruct (find_table (schema current) table_name) as [ct|]; [|injection H as <-; reflexivity].
    fold (find_index (t_indexes ct) (i_name i)). destruct (find_index _ _) as [ci|]; [|injection H as <-; reflexivity].
    destruct (are_same_indexes ci i) eqn:Es; injection H as <-.
    + left. split; [now apply are_same_indexes_spec|reflexivity].
    + right. split; [now apply are_same_indexes_false|]. destruct m; reflexivity.
  - unfold named. fold (find_table (schema current) table_name). 
    destruct (find_table (schema current) table_name) as [ct|]; [|injection H as <-; reflexivity].
    fold (find_index (t_indexes ct) (i_name i)). destruct (find_index _ _) as [ci|]; [|injection H as <-; reflexivity].
    destruct (are_same_indexes ci i) eqn:Es; injection H as <-.
    + left. split; [now apply are_same_indexes_spec|reflexivity].
    + right. split; [now apply are_same_indexes_false|]. destruct m; reflexivity.
  - discriminate.
  - injection H as <-. reflexivity.
  - unfold named. fold (find_table (schema current) table_name). 
    destruct (find_table (schema current) table_name) as [ct|]; [|injection H as <-; reflexivity].
    fold (find_policy (t_policies ct) (p_name p)). destruct (find_policy _ _) as [cp|]; [|injection H as <-; reflexivity].
    destruct (are_same_policies cp p) eqn:Es; injection H as <-.
    + left. split; [now apply are_same_policies_spec|reflexivity].
    + right. split; [now apply are_same_policies_false|reflexivity].
  - injection H as <-.
    assert (Hm : mem (vw_name v) (map vw_name (views_in current)) = match find_view (views_in current) (vw_name v) with Some _ => true | None => false end).
    { destruct (find_view _ _) as [cv|] eqn:Ef.
      - apply mem_spec. apply find_some in Ef as [Hi Hn]. apply String.eqb_eq in Hn. rewrite <- Hn. now apply in_map.
      - apply mem_false. intros Hi. apply in_map_iff in Hi as (cv & Hn & Hi). apply (find_none _ _ Ef) in Hi.
        rewrite Hn, String.eqb_refl in Hi. discriminate. }
    rewrite Hm. destruct (find_view _ _); [destruct (String.eqb _ _); [|destruct m]|]; reflexivity.
  - destruct (trigger_definition m t); injection H as <-; [|reflexivity].
    destruct (find_trigger _ _); [destruct (are_same_trigger _ _); [|destruct m]|]; reflexivity.
Qed.
End Whole.
