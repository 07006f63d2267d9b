(** Plannable schemas are planned (C98). *)
From Coq Require Import String Ascii List ZArith Bool Lia.
From Verif Require Import GoStr GoStrFacts Ast Generator SpecPlan SpecPlannable ProofPlan ProofSteps ProofTables
  ProofCompare ProofExact ProofObjects ProofTotal.
Import ListNotations.
Local Open Scope string_scope.
Local Open Scope list_scope.

Definition oks {A} (r : res A) : Prop := match r with Ok _ => True | _ => False end.

Lemma oks_ex {A} (r : res A) : oks r -> exists a, r = Ok a.
Proof. destruct r; simpl; try tauto. eauto. Qed.

Lemma oks_bind {A B} (x : res A) (f : A -> res B) : oks x -> (forall a, x = Ok a -> oks (f a)) -> oks (bind x f).
Proof. destruct x; simpl; auto. Qed.

Lemma oks_concat_map {A B} (f : A -> res (list B)) l : (forall x, In x l -> oks (f x)) -> oks (concat_map f l).
Proof.
  induction l as [|x l IH]; simpl; intros H; [exact I|].
  apply oks_bind; [auto|]. intros a _. apply oks_bind; [auto|]. simpl. auto.
Qed.

Lemma oks_default v : In (v_type v) [VStr; VInt; VFloat; VBit; VValArg] -> oks (generate_default_definition v).
Proof. unfold generate_default_definition. destruct (v_type v); simpl; try easy; intros H; exfalso; repeat (destruct H as [H|H]; [discriminate|]); exact H. Qed.

Lemma oks_column_definition m c u : sane_column m c -> writable c -> oks (generate_column_definition m c u).
Proof.
  intros [_ Hs] (Hd & K1 & K2). unfold generate_column_definition. cbv zeta. apply oks_bind.
  { destruct (c_default c) as [d|]; [|exact I]. destruct (df_value d) as [v|] eqn:E; [|exact I].
    apply oks_bind; [apply oks_default; eapply Hd; eauto|]. intros; exact I. }
  intros d7 _. apply oks_bind. { destruct (c_key c); try exact I; congruence. }
  intros d12 _. apply oks_bind; [|intros; exact I].
  destruct (match c_identity c with Some i => if String.eqb (id_behavior i) "" then None else Some i | None => None end);
    [exact I|].
  destruct m; try exact I. destruct (c_sequence c) as [s|]; [|exact I].
  destruct (Hs eq_refl s eq_refl) as (H1 & H2 & H3).
  destruct (sq_start_with s); [|congruence]. destruct (sq_increment_by s); [|congruence].
  destruct (c_identity c); [|congruence]. exact I.
Qed.

Lemma oks_mssql_options l : (forall o, In o l -> io_value o <> None) -> oks (mssql_options l).
Proof.
  induction l as [|o l IH]; simpl; intros H; [exact I|]. specialize (H o (or_introl eq_refl)) as Ho.
  destruct (io_value o); [|congruence]. apply oks_bind; [auto|]. intros; exact I.
Qed.

Lemma oks_add_index m n i : sane_index i -> oks (stmt_add_index m n i).
Proof.
  intros [_ Ho]. unfold stmt_add_index. apply oks_bind; [|intros; exact I].
  unfold generate_add_index. cbv zeta. apply oks_bind.
  - unfold generate_index_option_definition. destruct (i_options i) as [|o l]; [exact I|]. destruct m; try exact I.
    + specialize (Ho o (or_introl eq_refl)). destruct (io_value o); [exact I|congruence].
    + apply oks_bind; [now apply oks_mssql_options|]. intros; exact I.
  - intros. destruct m; try exact I. destruct (i_primary i); exact I.
Qed.

Lemma writable_autoinc b c : writable c -> writable (set_autoinc b c).
Proof. auto. Qed.

Lemma oks_column m cur des prev c : sane_column m c -> writable c -> oks (ddls_column m cur des prev c).
Proof.
  intros Hc Hw. unfold ddls_column. destruct (find_column (t_columns cur) (c_name c)) as [cc|] eqn:Ef.
  - assert (Hdc : sane_column m (if c_autoinc cc then c else set_autoinc false c)) by (destruct (c_autoinc cc); auto).
    assert (Hdw : writable (if c_autoinc cc then c else set_autoinc false c)) by (destruct (c_autoinc cc); auto).
    set (dc := if c_autoinc cc then c else set_autoinc false c) in *. clearbody dc.
    destruct m.
    + unfold ddls_column_mysql. cbv zeta. apply oks_bind; [|intros; exact I].
      destruct (_ || _); [|exact I]. apply oks_bind; [now apply oks_column_definition|]. intros; exact I.
    + unfold ddls_column_postgres. apply oks_bind; [|intros; exact I]. unfold pg_default.
      destruct (are_same_default _ _); [exact I|]. destruct (c_default dc) as [d|] eqn:Ed; [|exact I].
      destruct Hdc as [Hd _]. specialize (Hd d Ed). destruct (df_value d) as [v|] eqn:Ev; [|congruence].
      apply oks_bind; [apply oks_default; now apply (proj1 Hdw d v Ed)|]. intros; exact I.
    + exact I.
    + unfold ddls_column_mssql. apply oks_bind.
      { unfold ms_identity. destruct (are_same_identity _ _); [exact I|]. apply oks_bind; [|intros; exact I].
        destruct (c_identity dc); [|exact I]. apply oks_bind; [now apply oks_column_definition|]. intros; exact I. }
      intros a _. apply oks_bind; [|intros; exact I]. unfold ms_default.
      destruct (are_same_default _ _); [exact I|]. apply oks_bind; [|intros; exact I].
      destruct (c_default dc) as [d|] eqn:Ed; [|exact I].
      destruct Hdc as [Hd _]. specialize (Hd d Ed). destruct (df_value d) as [v|] eqn:Ev; [|congruence].
      apply oks_bind; [apply oks_default; now apply (proj1 Hdw d v Ed)|]. intros; exact I.
  - unfold ddls_new_column. apply oks_bind; [|intros; exact I]. now apply oks_column_definition.
Qed.

Lemma oks_columns m cur des l : (forall c, In c l -> sane_column m c /\ writable c) -> forall prev, oks (ddls_columns m cur des prev l).
Proof.
  induction l as [|c l IH]; simpl; intros H prev; [exact I|].
  apply oks_bind; [apply oks_column; now apply H; left|]. intros a _. apply oks_bind; [apply IH; auto|]. intros; exact I.
Qed.

Lemma oks_create_table m cur des : sane_table m cur -> sane_table m des ->
  (forall c, In c (t_columns des) -> writable c) -> (m = Mysql -> forall c, In c (t_columns cur) -> writable c) ->
  (forall f, In f (t_fks des) -> fk_constraint f <> "") -> oks (ddls_for_create_table m cur des).
Proof.
  intros Hcur Hdes W1 W2 F. pose proof Hdes as (Hc & Hi & Hn). unfold ddls_for_create_table.
  apply oks_bind; [apply oks_columns; auto|]. intros a _.
  apply oks_bind.
  { unfold ddls_remove_autoinc. destruct m; try exact I. apply oks_concat_map. intros c Hx.
    cbv beta zeta. destruct (_ && _); [|exact I]. apply oks_bind; [|intros; exact I].
    apply oks_column_definition; [apply sane_autoinc; now apply Hcur|apply writable_autoinc; auto]. }
  intros b _. apply oks_bind.
  { unfold ddls_primary_key. cbv zeta. destruct (are_same_primary_keys _ _); [exact I|]. apply oks_bind.
    - destruct (primary_key cur); [|exact I]. destruct m; try exact I. specialize (Hn eq_refl).
      destruct (split_first "." (t_name des)) as [[? ?]|]; [exact I|congruence].
    - intros d _. apply oks_bind; [|intros; exact I]. destruct (primary_key des) eqn:Ep; [|exact I].
      apply oks_bind; [|intros; exact I]. apply oks_add_index. eapply sane_primary_key; eauto. }
  intros c _. apply oks_bind.
  { apply oks_concat_map. intros i Hx. unfold ddls_index. destruct (i_primary i); [exact I|].
    destruct (find_index _ _); [destruct (are_same_indexes _ _); [exact I|]|];
      (apply oks_bind; [apply oks_add_index; auto|intros; exact I]). }
  intros d _. apply oks_bind.
  { unfold ddls_add_autoinc. destruct m; try exact I. apply oks_concat_map. intros x Hx.
    cbv beta zeta. destruct (_ && _); [|exact I]. apply oks_bind; [|intros; exact I].
    apply oks_column_definition; [now apply Hdes|auto]. }
  intros e _. apply oks_bind; [|intros; exact I].
  apply oks_concat_map. intros f Hf. unfold ddls_fk. destruct (String.eqb (fk_constraint f) "") eqn:E; [apply String.eqb_eq in E; now destruct (F f Hf)|].
  destruct (find_fk _ _); [destruct (are_same_foreign_keys _ _ _)|]; exact I.
Qed.

Lemma oks_cleanup_kept m cur des : sane_table m cur ->
  (forall i c, In i (t_indexes cur) -> i_primary i = true -> In c (t_columns des) -> c_key c = KeyPrimary ->
     In (i_name i) (map i_name (t_indexes des)) \/ backs_fk (t_fks des) (i_name i) \/ exists ic rest, i_columns i = ic :: rest /\ ic_column ic = c_name c) ->
  oks (cleanup_kept m cur des).
Proof.
  intros (_ & Hi & _) Hk. unfold cleanup_kept. apply oks_bind; [|intros; exact I].
  apply oks_concat_map. intros i Hx. destruct (_ || _) eqn:Eo; [exact I|]. unfold absent_index.
  destruct (Hi i Hx) as [Hne _]. destruct (i_columns i) as [|ic rest] eqn:Ec; [congruence|].
  destruct (i_primary i) eqn:Ep.
  - destruct (find _ _) as [pc|] eqn:Ef; [|destruct m; exact I].
    apply find_some in Ef as [Hpc Kp]. destruct (c_key pc) eqn:Ek; try discriminate.
    apply orb_false_iff in Eo as [O1 O2]. rewrite contains_string_mem in O1, O2. apply mem_false in O1, O2.
    destruct (Hk i pc Hx Ep Hpc Ek) as [H|[H|(ic' & r' & E1 & E2)]].
    + now destruct O1.
    + destruct O2. now apply fk_index_names_spec.
    + rewrite Ec in E1. injection E1 as <- <-. rewrite E2, String.eqb_refl. exact I.
  - destruct (i_unique i); [|exact I]. destruct (t_columns des); [exact I|]. destruct (existsb _ _); exact I.
Qed.

Lemma oks_cleanup_tables m des l : NoDup (map t_name l) ->
  (forall t dt, In t l -> find_table des (t_name t) = Some dt -> oks (cleanup_kept m t dt)) ->
  forall live, (forall t, In t l -> In (t_name t) (map t_name live)) -> oks (cleanup_tables m des live l).
Proof.
  induction l as [|t l IH]; intros Hn Hs live Hl; [exact I|]. cbn [cleanup_tables]. inversion Hn; subst.
  destruct (find_table des (t_name t)) as [dt|] eqn:Ef.
  - apply oks_bind; [apply Hs; [now left|assumption]|]. intros a _.
    apply oks_bind; [|intros; exact I]. apply IH; auto; intros; [apply Hs|apply Hl]; auto; now right.
  - destruct (remove_table (t_name t) live) as [live'|] eqn:Er.
    + apply oks_bind; [|intros; exact I]. apply IH; auto.
      * intros x dt Hx. apply Hs. now right.
      * intros x Hx. unfold remove_table in Er. destruct (existsb _ _); [|discriminate]. injection Er as <-.
        apply in_filter_names. split; [apply Hl; now right|]. intros E. apply H1. rewrite <- E. now apply in_map.
    + exfalso. unfold remove_table in Er. destruct (existsb _ _) eqn:Ex; [discriminate|].
      specialize (Hl t (or_introl eq_refl)). apply in_map_iff in Hl as (x & E & Hx).
      assert (existsb (fun y => String.eqb (t_name t) (t_name y)) live = true); [|congruence].
      apply existsb_exists. exists x. split; [assumption|]. rewrite E. apply String.eqb_refl.
Qed.

Lemma find_schema l n dt : find_table (schema l) n = Some dt -> exists t, In t (tables_in l) /\ t_name t = n /\ dt = full_table l t.
Proof.
  intros H. apply find_table_some in H as [H E]. unfold schema in H. apply in_map_iff in H as (t & <- & H). exists t. auto.
Qed.

Lemma writable_mark marks c : writable c -> writable (mark marks c).
Proof. unfold mark. destruct (mem _ _); [|auto]. intros (H & _ & _). split; [exact H|]. split; discriminate. Qed.

Lemma unmarked l n : well_formed l = true -> pk_marks n l = [].
Proof.
  intros H. unfold well_formed in H. generalize (@nil ddl) H. clear H. induction l as [|d l IH]; intros b H; [reflexivity|].
  cbn [well_formed_after] in H. apply andb_prop in H as [H1 H2]. specialize (IH _ H2).
  change (d :: l) with ([d] ++ l). rewrite pk_marks_app, IH, app_nil_r. destruct d; try reflexivity. discriminate.
Qed.

Lemma in_tables_in l t : In t (tables_in l) -> exists s, In (CreateTable s t) l.
Proof.
  unfold tables_in. rewrite in_flat_map. intros (d & D & H). destruct d as [s t'|s n i|s n i|s n i|s n f|s n p|v|t']; try (now destruct H). destruct H as [<-|[]]. eauto.
Qed.

Theorem plannable_planned m desired current : plannable m desired current -> exists out, plan m desired current = Ok out.
Proof.
  intros [Hd Hc Nd Nc W R K]. apply oks_ex. pose proof (convert_readable current Nc R) as C.
  rewrite (plan_eq m desired current _ Nd W C).
  assert (Hs : forall t, In t (schema current) -> sane_table m t).
  { destruct (convert_returns m current Hc [] (fun t H => match H with end)) as [_ H]. exact (H _ C). }
  assert (T : forall t, In t (tables_in desired) -> sane_table m t).
  { intros t H. apply in_tables_in in H as (s & H). exact (Hd _ H). }
  apply oks_bind; [|intros a _; apply oks_bind; [|intros; exact I]].
  - apply oks_concat_map. intros d D. destruct d as [s t|s n i|s n i|s n i|s n f|s n p|v|t]; cbn [local].
    + destruct (find_table (schema current) (t_name t)) as [ct|] eqn:Ef; [|exact I].
      assert (D' : In t (tables_in desired)). { unfold tables_in. apply in_flat_map. exists (CreateTable s t). split; [exact D|now left]. }
      destruct (find_schema _ _ _ Ef) as (c0 & H0 & E0 & ->). destruct (K t c0 D' H0 E0) as [K1 K2 K3 _].
      apply oks_create_table; auto.
      * apply Hs. now apply find_table_some in Ef.
      * intros Em c Hx. cbn [full_table t_columns] in Hx. apply in_map_iff in Hx as (c' & <- & Hx). apply writable_mark. auto.
    + destruct (find_table _ _); [|exact I]. destruct (find_index _ _); [destruct (are_same_indexes _ _)|]; exact I.
    + destruct (find_table _ _); [|exact I]. destruct (find_index _ _); [destruct (are_same_indexes _ _)|]; exact I.
    + exfalso. pose proof (unmarked desired n W) as U. clear -D W. unfold well_formed in W. revert W. generalize (@nil ddl).
      induction desired as [|d l IH]; intros b W; [destruct D|]. cbn [well_formed_after] in W. apply andb_prop in W as [W1 W2].
      destruct D as [->|D]; [discriminate W1|exact (IH D _ W2)].
    + exact I.
    + destruct (find_table _ _); [|exact I]. destruct (find_policy _ _); [destruct (are_same_policies _ _)|]; exact I.
    + destruct (find_view _ _); [destruct (String.eqb _ _)|]; try exact I; destruct m; exact I.
    + destruct (trigger_definition m t); [|exact I]. destruct (find_trigger _ _); [destruct (are_same_trigger _ _)|]; try exact I; destruct m; exact I.
  - apply oks_cleanup_tables.
    + rewrite schema_names. exact Nc.
    + intros ct dt Hct Ef. apply oks_cleanup_kept; [now apply Hs|].
      unfold schema in Hct. apply in_map_iff in Hct as (c0 & <- & H0). destruct (find_schema _ _ _ Ef) as (t & Ht & En & ->).
      intros i c Hi Pi Hx Kc. cbn [full_table t_indexes t_fks t_columns t_name] in *.
      rewrite (unmarked desired _ W) in Hx. assert (Hx' : In c (t_columns t)).
      { apply in_map_iff in Hx as (c' & <- & Hx). exact Hx. }
      exact (ch_key _ _ _ _ _ (K t c0 Ht H0 (eq_sym En)) i c Hi Pi Hx' Kc).
    + intros t Ht. now apply in_map.
Qed.
