(** Crash freedom (C27), rejection of ill-formed schemas (C28), dropped tables (C14). *)
From Coq Require Import String Ascii List ZArith Bool Lia.
From Verif Require Import GoStr GoStrFacts Ast Generator SpecPlan ProofPlan ProofSteps ProofTables
  ProofCompare ProofExact ProofObjects.
Import ListNotations.
Local Open Scope string_scope.
Local Open Scope list_scope.

Lemma returns_bind {A B} (x : res A) (f : A -> res B) :
  returns x -> (forall a, x = Ok a -> returns (f a)) -> returns (bind x f).
Proof. destruct x; simpl; auto. Qed.

Lemma returns_concat_map {A B} (f : A -> res (list B)) l :
  (forall x, In x l -> returns (f x)) -> returns (concat_map f l).
Proof.
  induction l as [|x l IH]; simpl; intros H; [exact I|].
  apply returns_bind; [auto|]. intros a _. apply returns_bind; [auto|]. simpl. auto.
Qed.

Lemma returns_default v : returns (generate_default_definition v).
Proof. unfold generate_default_definition. destruct (v_type v); exact I. Qed.

Lemma sane_autoinc m b c : sane_column m c -> sane_column m (set_autoinc b c).
Proof. auto. Qed.

Lemma returns_column_definition m c u : sane_column m c -> returns (generate_column_definition m c u).
Proof.
  intros [_ Hs]. unfold generate_column_definition. cbv zeta. apply returns_bind.
  { destruct (c_default c) as [d|]; [|exact I]. destruct (df_value d); [|exact I].
    apply returns_bind; [apply returns_default|]. intros; exact I. }
  intros d7 _. apply returns_bind. { destruct (c_key c); exact I. }
  intros d12 _. apply returns_bind; [|intros; exact I].
  destruct (match c_identity c with Some i => if String.eqb (id_behavior i) "" then None else Some i | None => None end);
    [exact I|].
  destruct m; try exact I. destruct (c_sequence c) as [s|]; [|exact I].
  destruct (Hs eq_refl s eq_refl) as (H1 & H2 & H3).
  destruct (sq_start_with s); [|congruence]. destruct (sq_increment_by s); [|congruence].
  destruct (c_identity c); [|congruence]. exact I.
Qed.

Lemma returns_mssql_options l : (forall o, In o l -> io_value o <> None) -> returns (mssql_options l).
Proof.
  induction l as [|o l IH]; simpl; intros H; [exact I|]. specialize (H o (or_introl eq_refl)) as Ho.
  destruct (io_value o); [|congruence]. apply returns_bind; [auto|]. intros; exact I.
Qed.

Lemma returns_add_index m n i : sane_index i -> returns (stmt_add_index m n i).
Proof.
  intros [_ Ho]. unfold stmt_add_index. apply returns_bind; [|intros; exact I].
  unfold generate_add_index. cbv zeta. apply returns_bind.
  - unfold generate_index_option_definition. destruct (i_options i) as [|o l]; [exact I|]. destruct m; try exact I.
    + specialize (Ho o (or_introl eq_refl)). destruct (io_value o); [exact I|congruence].
    + apply returns_bind; [now apply returns_mssql_options|]. intros; exact I.
  - intros. destruct m; try exact I. destruct (i_primary i); exact I.
Qed.

Lemma find_column_in l n c : find_column l n = Some c -> In c l.
Proof. intros H. now apply find_some in H. Qed.

Lemma returns_column m cur des prev c : sane_table m cur -> sane_column m c -> returns (ddls_column m cur des prev c).
Proof.
  intros Hcur Hc. unfold ddls_column. destruct (find_column (t_columns cur) (c_name c)) as [cc|] eqn:Ef.
  - assert (Hcc : sane_column m cc) by (apply Hcur; eapply find_column_in; eauto).
    assert (Hdc : sane_column m (if c_autoinc cc then c else set_autoinc false c)) by (destruct (c_autoinc cc); auto).
    set (dc := if c_autoinc cc then c else set_autoinc false c) in *. clearbody dc.
    destruct m.
    + unfold ddls_column_mysql. cbv zeta. apply returns_bind; [|intros; exact I].
      destruct (_ || _); [|exact I]. apply returns_bind; [now apply returns_column_definition|]. intros; exact I.
    + unfold ddls_column_postgres. apply returns_bind; [|intros; exact I]. unfold pg_default.
      destruct (are_same_default _ _); [exact I|]. destruct (c_default dc) as [d|] eqn:Ed; [|exact I].
      destruct Hdc as [Hd _]. specialize (Hd d Ed). destruct (df_value d); [|congruence].
      apply returns_bind; [apply returns_default|]. intros; exact I.
    + exact I.
    + unfold ddls_column_mssql. apply returns_bind.
      { unfold ms_identity. destruct (are_same_identity _ _); [exact I|]. apply returns_bind; [|intros; exact I].
        destruct (c_identity dc); [|exact I]. apply returns_bind; [now apply returns_column_definition|]. intros; exact I. }
      intros a _. apply returns_bind; [|intros; exact I]. unfold ms_default.
      destruct (are_same_default _ _); [exact I|]. apply returns_bind; [|intros; exact I].
      destruct (c_default dc) as [d|] eqn:Ed; [|exact I].
      destruct Hdc as [Hd _]. specialize (Hd d Ed). destruct (df_value d); [|congruence].
      apply returns_bind; [apply returns_default|]. intros; exact I.
  - unfold ddls_new_column. apply returns_bind; [|intros; exact I]. apply returns_column_definition. exact Hc.
Qed.

Lemma returns_columns m cur des l : sane_table m cur -> (forall c, In c l -> sane_column m c) -> forall prev,
  returns (ddls_columns m cur des prev l).
Proof.
  intros Hcur. induction l as [|c l IH]; simpl; intros H prev; [exact I|].
  apply returns_bind; [apply returns_column; auto|]. intros a _. apply returns_bind; [apply IH; auto|]. intros; exact I.
Qed.

Lemma sane_primary_key m t i : sane_table m t -> primary_key t = Some i -> sane_index i.
Proof.
  intros (_ & Hi & _). unfold primary_key. destruct (find i_primary (t_indexes t)) as [j|] eqn:E.
  - intros H. injection H as <-. apply find_some in E as [E _]. auto.
  - destruct (map _ _) eqn:Em; [discriminate|]. intros H. injection H as <-. split; simpl; [discriminate|tauto].
Qed.

Lemma returns_create_table m cur des : sane_table m cur -> sane_table m des -> returns (ddls_for_create_table m cur des).
Proof.
  intros Hcur Hdes. pose proof Hdes as (Hc & Hi & Hn). unfold ddls_for_create_table.
  apply returns_bind; [now apply returns_columns|]. intros a _.
  apply returns_bind.
  { unfold ddls_remove_autoinc. destruct m; try exact I. apply returns_concat_map. intros c Hx.
    cbv beta zeta. destruct (_ && _); [|exact I]. apply returns_bind; [|intros; exact I].
    apply returns_column_definition. apply sane_autoinc. now apply Hcur. }
  intros b _. apply returns_bind.
  { unfold ddls_primary_key. cbv zeta. destruct (are_same_primary_keys _ _); [exact I|]. apply returns_bind.
    - destruct (primary_key cur); [|exact I]. destruct m; try exact I. specialize (Hn eq_refl).
      destruct (split_first "." (t_name des)) as [[? ?]|]; [exact I|congruence].
    - intros d _. apply returns_bind; [|intros; exact I]. destruct (primary_key des) eqn:Ep; [|exact I].
      apply returns_bind; [|intros; exact I]. apply returns_add_index. eapply sane_primary_key; eauto. }
  intros c _. apply returns_bind.
  { apply returns_concat_map. intros i Hx. unfold ddls_index. destruct (i_primary i); [exact I|].
    destruct (find_index _ _); [destruct (are_same_indexes _ _); [exact I|]|];
      (apply returns_bind; [apply returns_add_index; auto|intros; exact I]). }
  intros d _. apply returns_bind.
  { unfold ddls_add_autoinc. destruct m; try exact I. apply returns_concat_map. intros x Hx.
    cbv beta zeta. destruct (_ && _); [|exact I]. apply returns_bind; [|intros; exact I].
    apply returns_column_definition. now apply Hdes. }
  intros e _. apply returns_bind; [|intros; exact I].
  apply returns_concat_map. intros f _. unfold ddls_fk. destruct (String.eqb _ _); [exact I|].
  destruct (find_fk _ _); [destruct (are_same_foreign_keys _ _ _)|]; exact I.
Qed.

Lemma returns_cleanup_kept m cur des : sane_table m cur -> returns (cleanup_kept m cur des).
Proof.
  intros (_ & Hi & _). unfold cleanup_kept. apply returns_bind; [|intros; exact I].
  apply returns_concat_map. intros i Hx. destruct (_ || _); [exact I|]. unfold absent_index.
  destruct (Hi i Hx) as [Hne _]. destruct (i_columns i); [congruence|].
  destruct (i_primary i).
  - destruct (find _ _); [destruct (String.eqb _ _); exact I|]. destruct m; exact I.
  - destruct (i_unique i); [|exact I]. destruct (t_columns des); [exact I|]. destruct (existsb _ _); exact I.
Qed.

Lemma NoDup_remove n l : NoDup (map t_name l) -> NoDup (map t_name (filter (fun t => negb (String.eqb n (t_name t))) l)).
Proof.
  induction l as [|t l IH]; simpl; intros H; [constructor|]. inversion H; subst.
  destruct (String.eqb n (t_name t)); simpl; auto. constructor; auto.
  intros Hi. apply in_map_iff in Hi as (x & E & Hx). apply filter_In in Hx as [Hx _]. apply H2. rewrite <- E. now apply in_map.
Qed.

Lemma returns_cleanup_tables m des l : NoDup (map t_name l) -> (forall t, In t l -> sane_table m t) ->
  forall live, (forall t, In t l -> In (t_name t) (map t_name live)) -> returns (cleanup_tables m des live l).
Proof.
  induction l as [|t l IH]; intros Hn Hs live Hl; [exact I|]. cbn [cleanup_tables]. inversion Hn; subst.
  destruct (find_table des (t_name t)).
  - apply returns_bind; [apply returns_cleanup_kept; apply Hs; now left|]. intros a _.
    apply returns_bind; [|intros; exact I]. apply IH; auto; intros; [apply Hs|apply Hl]; now right.
  - destruct (remove_table (t_name t) live) as [live'|] eqn:Er.
    + apply returns_bind; [|intros; exact I]. apply IH; auto.
      * intros x Hx. apply Hs. now right.
      * intros x Hx. unfold remove_table in Er. destruct (existsb _ _); [|discriminate]. injection Er as <-.
        apply in_filter_names. split; [apply Hl; now right|]. intros E. apply H1. rewrite <- E. now apply in_map.
    + exfalso. unfold remove_table in Er. destruct (existsb _ _) eqn:Ex; [discriminate|].
      specialize (Hl t (or_introl eq_refl)). apply in_map_iff in Hl as (x & E & Hx).
      assert (existsb (fun y => String.eqb (t_name t) (t_name y)) live = true); [|congruence].
      apply existsb_exists. exists x. split; [assumption|]. rewrite E. apply String.eqb_refl.
Qed.

(** ** The loop keeps the simulated tables sane *)
Lemma sane_set_indexes m t is : sane_table m t -> (forall i, In i is -> sane_index i) -> sane_table m (set_indexes is t).
Proof. intros (H1 & H2 & H3) H. split; [exact H1|split; [exact H|exact H3]]. Qed.

Lemma sane_merge m a b : sane_table m a -> sane_table m b -> sane_table m (merge_table a b).
Proof.
  intros (H1 & H2 & H3) (H4 & H5 & H6). unfold merge_table.
  assert (Hfold : forall A (nm : A -> string) (P : A -> Prop) l acc, (forall x, In x acc -> P x) -> (forall x, In x l -> P x) ->
    forall x, In x (fold_left (fun acc c => if contains_string (map nm acc) (nm c) then acc ++ [c] else acc) l acc) -> P x).
  { intros A nm P l. induction l as [|y l IH]; simpl; intros acc Ha Hl x Hx; [auto|].
    apply IH in Hx; auto. intros z Hz. destruct (contains_string _ _); [|auto].
    apply in_app_iff in Hz as [Hz|[<-|[]]]; auto. }
  split; [|split].
  - simpl. intros c Hc. revert c Hc. apply (Hfold _ c_name); auto.
  - simpl. intros i Hi. revert i Hi. apply (Hfold _ i_name); auto.
  - exact H3.
Qed.

Lemma sane_update m f n l : (forall t, In t l -> sane_table m t) -> (forall t, In t l -> sane_table m (f t)) ->
  forall t, In t (update_table f n l) -> sane_table m t.
Proof.
  induction l as [|x l IH]; simpl; intros H1 H2 t Ht; [tauto|].
  destruct (String.eqb _ _); simpl in Ht; destruct Ht as [<-|Ht]; auto.
Qed.

Record sane_state (m : mode) (g : gstate) : Prop := {
  ss_cur : forall t, In t (g_cur g) -> sane_table m t;
  ss_nodup : NoDup (map t_name (g_cur g)) }.

Lemma step_returns m g d : sane_state m g -> sane_ddl m d ->
  returns (step m g d) /\ forall g' o, step m g d = Ok (g', o) -> sane_state m g'.
Proof.
  intros [Hc Hn] Hd.
  assert (Hidx : forall tbl i, sane_index i -> returns (step_index m tbl i d g) /\ forall g' o, step_index m tbl i d g = Ok (g', o) -> sane_state m g').
  { intros tbl i Hi. unfold step_index. destruct (find_table (g_cur g) tbl) as [ct|]; [|split; [exact I|discriminate]].
    destruct (find_index (t_indexes ct) (i_name i)) as [ci|]; [destruct (are_same_indexes ci i)|];
      (destruct (find_table (g_des g) tbl) as [dt|]; [|split; [exact I|discriminate]]);
      (destruct (contains_string _ _); (split; [exact I|]); [discriminate|]); intros g' o H; injection H as <- <-;
      split; simpl; auto; rewrite ?update_table_names; auto.
    - apply sane_update; auto. intros t Ht. apply sane_set_indexes; auto. intros x Hx. unfold replace_index in Hx.
      apply in_map_iff in Hx as (y & <- & Hy). destruct (String.eqb _ _); auto. now apply (Hc t Ht).
    - apply sane_update; auto. intros t Ht. apply sane_set_indexes; auto. intros x Hx.
      apply in_app_iff in Hx as [Hx|[<-|[]]]; auto. now apply (Hc t Ht). }
  destruct d as [s t|s n i|s n i|s n i|s n f|s n p|v|t]; cbn [step].
  - unfold step_create_table. destruct (find_table (g_cur g) (t_name t)) as [ct|] eqn:Ef.
    + assert (Hct : sane_table m ct) by (apply Hc; now apply find_table_some in Ef).
      split.
      * apply returns_bind; [now apply returns_create_table|]. intros; exact I.
      * intros g' o H. bind_inv H. injection H as <- <-. split; simpl.
        -- apply sane_update; auto. intros x Hx. apply sane_merge; auto.
        -- rewrite update_table_names; auto.
    + split; [exact I|]. intros g' o H. injection H as <- <-. split; simpl.
      * intros x Hx. apply in_app_iff in Hx as [Hx|[<-|[]]]; auto.
      * rewrite map_app. simpl. apply find_table_none in Ef. clear -Hn Ef. induction (g_cur g) as [|x l IH]; simpl in *.
        -- repeat constructor. tauto.
        -- inversion Hn; subst. constructor; [|apply IH; tauto]. rewrite in_app_iff. simpl. intros [Hi|[E|[]]]; [tauto|]. apply Ef. left. congruence.
  - now apply Hidx.
  - now apply Hidx.
  - split; [exact I|discriminate].
  - unfold step_fk. destruct (find_table _ _); [|split; [exact I|discriminate]].
    destruct (contains_string _ _); (split; [exact I|]); [discriminate|]. intros g' o H. injection H as <- <-. split; simpl; auto.
  - unfold step_policy. destruct (find_table (g_cur g) n) as [ct|]; [|split; [exact I|discriminate]].
    assert (Hpol : forall t ps, sane_table m t -> sane_table m (set_policies ps t)) by (intros t ps H; exact H).
    destruct (find_policy _ _) as [cp|]; [destruct (are_same_policies cp p)|];
      (destruct (find_table (g_des g) n) as [dt|]; [|split; [exact I|discriminate]]);
      (destruct (contains_string _ _); (split; [exact I|]); [discriminate|]); intros g' o H; injection H as <- <-;
      split; simpl; auto; rewrite ?update_table_names; auto.
    apply sane_update; auto.
  - unfold step_view. destruct (contains_string _ _); (split; [exact I|]); [discriminate|].
    intros g' o H. injection H as <- <-. split; simpl; auto.
  - unfold step_trigger. destruct (trigger_definition m t); (split; [exact I|]); intros g' o H; injection H as <- <-; split; auto.
Qed.

Lemma steps_returns m l : (forall d, In d l -> sane_ddl m d) -> forall g, sane_state m g ->
  returns (steps m g l) /\ forall g' o, steps m g l = Ok (g', o) -> sane_state m g'.
Proof.
  induction l as [|d l IH]; intros Hl g Hg; cbn [steps].
  - split; [exact I|]. intros g' o H. injection H as <- <-. exact Hg.
  - destruct (step_returns m g d Hg (Hl d (or_introl eq_refl))) as [H1 H2].
    assert (Hl' : forall d, In d l -> sane_ddl m d) by (intros; apply Hl; now right).
    split.
    + apply returns_bind; [assumption|]. intros [g1 a] E. destruct (IH Hl' g1 (H2 _ _ E)) as [H3 _].
      apply returns_bind; [assumption|]. intros [g2 b] _. exact I.
    + intros g' o H. destruct (step m g d) as [[g1 a]| | |] eqn:E; try discriminate. cbn [bind] in H.
      destruct (IH Hl' g1 (H2 _ _ eq_refl)) as [_ H4].
      destruct (steps m g1 l) as [[g2 b]| | |] eqn:E2; try discriminate. injection H as <- <-. eauto.
Qed.

Lemma convert_returns m l : (forall d, In d l -> sane_ddl m d) -> forall ts0, (forall t, In t ts0 -> sane_table m t) ->
  returns (convert_from ts0 l) /\ forall ts, convert_from ts0 l = Ok ts -> forall t, In t ts -> sane_table m t.
Proof.
  induction l as [|d l IH]; intros Hl ts0 Hts; cbn [convert_from].
  - split; [exact I|]. intros ts H. injection H as <-. exact Hts.
  - assert (Hl' : forall d, In d l -> sane_ddl m d) by (intros; apply Hl; now right).
    assert (Hd : returns (convert_step ts0 d) /\ forall ts, convert_step ts0 d = Ok ts -> forall t, In t ts -> sane_table m t).
    { specialize (Hl d (or_introl eq_refl)). destruct d as [s t|s n i|s n i|s n i|s n f|s n p|v|t]; cbn [convert_step sane_ddl] in *.
      - split; [exact I|]. intros ts H. injection H as <-. intros x Hx. apply in_app_iff in Hx as [Hx|[<-|[]]]; auto.
      - destruct (find_table ts0 n); (split; [exact I|]); [|discriminate]. intros ts H. injection H as <-.
        apply sane_update; auto. intros x Hx. apply sane_set_indexes; auto. intros j Hj.
        apply in_app_iff in Hj as [Hj|[<-|[]]]; auto. now apply (Hts x Hx).
      - split; [exact I|discriminate].
      - destruct (find_table ts0 n) as [u|] eqn:Ef; [|split; [exact I|discriminate]].
        assert (Hu : sane_table m u) by (apply Hts; now apply find_table_some in Ef).
        destruct Hl as [Hne _]. destruct (i_columns i) as [|ic ics] eqn:Ei; [congruence|].
        assert (Hm : exists u', mark_primary i u = Ok u' /\ sane_table m u').
        { unfold mark_primary. rewrite Ei. destruct (t_columns u) as [|c cs] eqn:Ec; eexists; (split; [reflexivity|]); [assumption|].
          destruct Hu as (H1 & H2 & H3). split; [|split]; auto. cbn [set_columns t_columns]. intros x Hx.
          apply in_map_iff in Hx as (y & <- & Hy). rewrite <- Ec in Hy. destruct (String.eqb _ _); [|auto]. now apply (H1 y). }
        destruct Hm as (u' & Em & Hu'). rewrite Em. split; [exact I|]. cbn [bind]. intros ts H. injection H as <-.
        apply sane_update; auto.
      - destruct (find_table ts0 n); (split; [exact I|]); [|discriminate]. intros ts H. injection H as <-.
        apply sane_update; auto.
      - destruct (find_table ts0 n); (split; [exact I|]); [|discriminate]. intros ts H. injection H as <-.
        apply sane_update; auto.
      - split; [exact I|]. intros ts H. injection H as <-. exact Hts.
      - split; [exact I|]. intros ts H. injection H as <-. exact Hts. }
    destruct Hd as [H1 H2]. split.
    + apply returns_bind; [assumption|]. intros ts E. now apply (IH Hl' ts (H2 ts E)).
    + intros ts H. bind_inv H. eapply (IH Hl' a (H2 a eq_refl)); eauto.
Qed.

Theorem plan_returns m desired current :
  (forall d, In d desired -> sane_ddl m d) -> (forall d, In d current -> sane_ddl m d) ->
  NoDup (created current) -> returns (plan m desired current).
Proof.
  intros Hd Hc Hn. unfold plan.
  destruct (convert_returns m current Hc [] (fun t H => match H with end)) as [H1 H2].
  apply returns_bind; [exact H1|]. intros ts E. unfold generate_ddls.
  assert (Hg : sane_state m (init_state ts current)).
  { split; simpl; [now apply H2|]. rewrite (convert_names _ _ E). exact Hn. }
  destruct (steps_returns m desired Hd _ Hg) as [H3 H4]. apply returns_bind; [exact H3|]. intros [g' a] E'.
  destruct (H4 _ _ E') as [H5 H6]. apply returns_bind; [|intros; exact I].
  apply returns_cleanup_tables; auto. intros t Ht. now apply in_map.
Qed.

(** ** C28 *)
Theorem plan_ill_formed_err m desired current :
  (forall d, In d desired -> sane_ddl m d) -> (forall d, In d current -> sane_ddl m d) ->
  NoDup (created desired) -> NoDup (created current) -> well_formed desired = false ->
  exists e, plan m desired current = Err e.
Proof.
  intros Hd Hc Hn1 Hn2 Hw. pose proof (plan_returns m desired current Hd Hc Hn2) as Hr.
  pose proof (plan_ill_formed m desired current Hn1 Hw) as Hp.
  destruct (plan m desired current) as [r|e| |]; simpl in Hr; try tauto.
  - now destruct (Hp r).
  - exists e. reflexivity.
Qed.

(** ** C14 without any hypothesis *)
Definition quiet (out : list stmt) : Prop := effects dropped_tables out = [].

Lemma step_names m g d g' o : step m g d = Ok (g', o) -> quiet o /\
  map t_name (g_des g') = map t_name (g_des g) ++ created [d] /\
  exists new, map t_name (g_cur g') = map t_name (g_cur g) ++ new /\ incl new (created [d]).
Proof.
  assert (Hsame : forall (l : list string), l = l ++ [] /\ exists new : list string, l = l ++ new /\ incl new []).
  { intros l. rewrite app_nil_r. split; [reflexivity|]. exists []. rewrite app_nil_r. split; [reflexivity|]. easy. }
  assert (Hidx : forall tbl i, step_index m tbl i d g = Ok (g', o) -> quiet o /\
    map t_name (g_des g') = map t_name (g_des g) ++ [] /\ exists new, map t_name (g_cur g') = map t_name (g_cur g) ++ new /\ incl new []).
  { intros tbl i. unfold step_index. destruct (find_table (g_cur g) tbl) as [ct|]; [|discriminate].
    destruct (find_index (t_indexes ct) (i_name i)) as [ci|]; [destruct (are_same_indexes ci i)|];
      (destruct (find_table (g_des g) tbl) as [dt|]; [|discriminate]);
      (destruct (contains_string _ _); [discriminate|]); intros H; injection H as <- <-;
      (split; [destruct m; reflexivity|]); simpl; rewrite ?update_table_names by reflexivity;
      (split; [apply Hsame|apply Hsame]). }
  intros H. destruct d as [s t|s n i|s n i|s n i|s n f|s n p|v|t]; cbn [step] in H.
  - unfold step_create_table in H. destruct (find_table (g_cur g) (t_name t)) as [ct|] eqn:Ef.
    + bind_inv H. injection H as <- <-. split; [|split; simpl].
      * unfold quiet. eapply sil; [eapply kind_create_table; eauto|kinds].
      * now rewrite map_app.
      * exists []. rewrite update_table_names by reflexivity. rewrite app_nil_r. split; [reflexivity|]. easy.
    + injection H as <- <-. split; [reflexivity|]. simpl. rewrite !map_app. split; [reflexivity|].
      eexists. split; [reflexivity|]. apply incl_refl.
  - now apply Hidx in H.
  - now apply Hidx in H.
  - discriminate.
  - unfold step_fk in H. destruct (find_table _ _); [|discriminate]. destruct (contains_string _ _); [discriminate|].
    injection H as <- <-. split; [reflexivity|]. simpl. rewrite update_table_names by reflexivity. split; apply Hsame.
  - unfold step_policy in H. destruct (find_table (g_cur g) n) as [ct|]; [|discriminate].
    destruct (find_policy _ _) as [cp|]; [destruct (are_same_policies cp p)|];
      (destruct (find_table (g_des g) n) as [dt|]; [|discriminate]);
      (destruct (contains_string _ _); [discriminate|]); injection H as <- <-;
      (split; [reflexivity|]); simpl; rewrite ?update_table_names by reflexivity; (split; apply Hsame).
  - unfold step_view in H. destruct (contains_string _ _); [discriminate|]. injection H as <- <-. split; [|split; apply Hsame].
    destruct (find_view _ _); [|reflexivity]. destruct (String.eqb _ _); [reflexivity|]. destruct m; reflexivity.
  - unfold step_trigger in H. destruct (trigger_definition m t); injection H as <- <-; (split; [|split; apply Hsame]); [|reflexivity].
    destruct (find_trigger _ _); [|reflexivity]. destruct (are_same_trigger _ _); [reflexivity|]. destruct m; reflexivity.
Qed.

Lemma steps_names m l : forall g g' o, steps m g l = Ok (g', o) -> quiet o /\
  map t_name (g_des g') = map t_name (g_des g) ++ created l /\
  exists new, map t_name (g_cur g') = map t_name (g_cur g) ++ new /\ incl new (created l).
Proof.
  induction l as [|d l IH]; intros g g' o H; cbn [steps] in H.
  - injection H as <- <-. rewrite app_nil_r. split; [reflexivity|]. split; [reflexivity|]. exists []. rewrite app_nil_r. split; [reflexivity|]. easy.
  - destruct (step m g d) as [[g1 a]| | |] eqn:E1; try discriminate. cbn [bind] in H.
    destruct (steps m g1 l) as [[g2 b]| | |] eqn:E2; try discriminate. injection H as <- <-.
    destruct (step_names _ _ _ _ _ E1) as (Q1 & D1 & n1 & C1 & I1). destruct (IH _ _ _ E2) as (Q2 & D2 & n2 & C2 & I2).
    assert (Hc : created (d :: l) = created [d] ++ created l) by (rewrite <- created_app; reflexivity).
    split; [unfold quiet in *; now rewrite effects_app, Q1, Q2|]. rewrite Hc, D2, D1, app_assoc. split; [reflexivity|].
    exists (n1 ++ n2). rewrite C2, C1, app_assoc. split; [reflexivity|]. apply incl_app; [now apply incl_appl|now apply incl_appr].
Qed.

Lemma cleanup_dropped_tables m des l : forall live o, cleanup_tables m des live l = Ok o ->
  effects dropped_tables o = filter (fun n => negb (mem n (map t_name des))) (map t_name l).
Proof.
  induction l as [|t l IH]; intros live o H; cbn [cleanup_tables] in H.
  - injection H as <-. reflexivity.
  - cbn [map filter]. destruct (find_table des (t_name t)) as [dt|] eqn:Ef.
    + assert (Hm : mem (t_name t) (map t_name des) = true).
      { apply mem_spec. apply find_table_some in Ef as [Hi <-]. now apply in_map. }
      rewrite Hm. cbn [negb]. bind_inv H. bind_inv H. injection H as <-. rewrite effects_app, (IH _ _ E0).
      rewrite (sil _ k_alter a); [reflexivity|eapply kind_cleanup_kept; eauto|kinds].
    + assert (Hm : mem (t_name t) (map t_name des) = false) by (apply mem_false; now apply find_table_none).
      rewrite Hm. cbn [negb]. destruct (remove_table _ _); [|discriminate]. bind_inv H. injection H as <-.
      cbn [effects flat_map stmt_drop_table s_eff dropped_tables app]. f_equal. eapply IH; eauto.
Qed.

Lemma filter_nil {A} (p : A -> bool) l : (forall x, In x l -> p x = false) -> filter p l = [].
Proof. induction l as [|x l IH]; simpl; intros H; [reflexivity|]. rewrite H by now left. apply IH. auto. Qed.

Theorem dropped_tables_any m desired current out : plan m desired current = Ok out ->
  effects dropped_tables out = filter (fun n => negb (mem n (created desired))) (created current).
Proof.
  unfold plan. intros H. bind_inv H. unfold generate_ddls in H.
  destruct (steps m _ desired) as [[g' b]| | |] eqn:Es; try discriminate. cbn [bind] in H. bind_inv H. injection H as <-.
  destruct (steps_names _ _ _ _ _ Es) as (Q & D & new & C & I). simpl in D, C.
  rewrite (convert_names _ _ E) in C. rewrite !effects_app, (cleanup_dropped_tables _ _ _ _ _ E0), Q, D, C, filter_app.
  rewrite (filter_nil _ new), app_nil_r.
  2:{ intros x Hx. apply negb_false_iff, mem_spec. auto. }
  assert (effects dropped_tables (cleanup_views m g') = []) as ->; [|rewrite app_nil_r; reflexivity].
  unfold cleanup_views. rewrite effects_flat_map. induction (g_cur_views g') as [|v l IH]; simpl; [reflexivity|].
  rewrite IH, app_nil_r. destruct (contains_string _ _); reflexivity.
Qed.
