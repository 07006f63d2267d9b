(** Exactly how the plan changes the existing columns and the primary key of a kept table. *)
From Coq Require Import String Ascii List ZArith Bool Lia Relation_Operators.
From Verif Require Import GoStr GoStrFacts Ast Generator SpecPlan SpecColumns ProofPlan ProofSteps
  ProofTables ProofCompare ProofExact ProofObjects.
Import ListNotations.
Local Open Scope string_scope.
Local Open Scope list_scope.

(** ** Comparisons *)
Lemma to_normal m s : same_type m s (normalize_data_type m s).
Proof.
  unfold normalize_data_type, data_type_alias.
  assert (Hb : forall x, same_type m s x -> x <> "boolean" ->
    same_type m s (match m with Mysql => if String.eqb x "boolean" then "tinyint" else x | _ => x end)).
  { intros x Hx Hn. apply String.eqb_neq in Hn. rewrite Hn. destruct m; exact Hx. }
  assert (Hr : forall x y, s = x -> alias m x y -> same_type m s y) by (intros x y -> Ha; now apply rst_step).
  destruct (String.eqb_spec s "bool") as [E|_].
  { assert (same_type m s "boolean") by (eapply Hr; [exact E|constructor]).
    destruct m; simpl; auto. eapply rst_trans; [exact H|apply rst_step; constructor]. }
  destruct (String.eqb_spec s "int") as [E|_]; [apply Hb; [eapply Hr; [exact E|constructor]|discriminate]|].
  destruct (String.eqb_spec s "char") as [E|_]; [apply Hb; [eapply Hr; [exact E|constructor]|discriminate]|].
  destruct (String.eqb_spec s "varchar") as [E|_]; [apply Hb; [eapply Hr; [exact E|constructor]|discriminate]|].
  destruct (String.eqb_spec s "boolean") as [E|N]; [|destruct m; apply rst_refl].
  destruct m; simpl; try apply rst_refl. subst. apply rst_step. constructor.
Qed.

Lemma same_type_spec m a b : normalize_data_type m a = normalize_data_type m b <-> same_type m a b.
Proof.
  split.
  - intros H. eapply rst_trans; [apply to_normal|]. rewrite H. apply rst_sym, to_normal.
  - intros H. induction H as [x y H|x|x y H IH|x y z H1 IH1 H2 IH2]; try congruence.
    destruct H; try destruct m; reflexivity.
Qed.

Lemma eqb_spec_b (a b : bool) : Bool.eqb a b = true <-> a = b.
Proof. apply Bool.eqb_true_iff. Qed.

Lemma strings_eqb_spec a b : strings_eqb a b = true <-> a = b.
Proof.
  revert b; induction a as [|x a IH]; intros [|y b]; simpl; try (split; congruence).
  rewrite andb_true_iff, String.eqb_eq, IH. split; [intros []|intros H; injection H]; intros; subst; auto.
Qed.

Lemma data_type_spec m a b : have_same_data_type m a b = true <-> data_type_matches m a b.
Proof.
  unfold have_same_data_type, data_type_matches. rewrite !andb_true_iff, String.eqb_eq, same_type_spec, strings_eqb_spec, eqb_spec_b.
  assert (Hl : match c_length a with Some x => match c_length b with Some y => (v_int x =? v_int y)%Z | None => true end | None => true end = true
    <-> (forall x y, c_length a = Some x -> c_length b = Some y -> v_int x = v_int y)).
  { destruct (c_length a) as [x|], (c_length b) as [y|]; try (split; [intros _; congruence|auto]; fail).
    rewrite Z.eqb_eq. split; [congruence|auto]. }
  rewrite Hl. tauto.
Qed.

Lemma same_value_spec a b : opt_value_eqb a b = true <-> same_value a b.
Proof.
  destruct a as [x|], b as [y|]; simpl; try (split; [discriminate|tauto]); [|tauto].
  unfold value_eqb. rewrite !andb_true_iff, value_type_eqb_spec, !String.eqb_eq, Z.eqb_eq, eqb_spec_b. tauto.
Qed.

Lemma or_empty_spec a b : (String.eqb b "" || String.eqb a b) = true <-> (b = "" \/ a = b).
Proof. rewrite orb_true_iff, !String.eqb_eq. tauto. Qed.

Lemma definition_spec a b : have_same_column_definition Mysql a b = true <-> definition_matches a b.
Proof.
  unfold have_same_column_definition, definition_matches.
  rewrite !andb_true_iff, data_type_spec, !eqb_spec_b, !or_empty_spec, same_value_spec.
  assert (Hn : declared_not_null a = (declared_not_null b || is_key_primary (c_key b)) <->
    (c_notnull a = Some true <-> (c_notnull b = Some true \/ c_key b = KeyPrimary))).
  { unfold declared_not_null. destruct (c_notnull a) as [[]|], (c_notnull b) as [[]|], (c_key b); simpl; intuition congruence. }
  assert (Hc : match c_check a with None => match c_check b with None => true | _ => false end | _ => false end = true <->
    c_check a = None /\ c_check b = None).
  { destruct (c_check a), (c_check b); intuition congruence. }
  rewrite Hn, Hc. tauto.
Qed.

Lemma effective_real d : effective_default d = real_default d.
Proof.
  destruct d as [[[v|] k]|]; simpl; try reflexivity. unfold is_null_value. destruct (v_type v); simpl; reflexivity.
Qed.

Lemma default_spec a b : are_same_default (c_default a) (c_default b) = true <-> default_matches a b.
Proof. unfold are_same_default, default_matches. rewrite !effective_real. apply are_same_value_spec. Qed.

Lemma check_spec a b : are_same_check (c_check a) (c_check b) && Bool.eqb (c_check_no_inherit a) (c_check_no_inherit b) = true
  <-> check_matches a b.
Proof.
  unfold check_matches, are_same_check. rewrite andb_true_iff, eqb_spec_b.
  destruct (c_check a), (c_check b); rewrite ?andb_true_iff, ?String.eqb_eq, ?eqb_spec_b; intuition congruence.
Qed.

Lemma not_spec (b : bool) P : (b = true <-> P) -> (b = false <-> ~ P).
Proof. intros H. rewrite <- H. destruct b; intuition congruence. Qed.

Lemma in_primary_key_spec c t : is_primary_key c t = true <-> in_primary_key t c.
Proof.
  unfold is_primary_key, in_primary_key. rewrite orb_true_iff, existsb_exists. apply Morphisms_Prop.or_iff_morphism.
  - destruct (c_key c); simpl; intuition congruence.
  - split.
    + intros (i & Hi & H). apply andb_true_iff in H as [Hp H]. apply existsb_exists in H as (ic & Hic & H).
      apply String.eqb_eq in H. eauto 6.
    + intros (i & ic & Hi & Hp & Hic & H). exists i. split; [assumption|]. rewrite Hp. apply existsb_exists.
      exists ic. split; [assumption|]. now apply String.eqb_eq.
Qed.

Lemma required_spec c : not_null Postgres c = true <-> required c.
Proof.
  unfold not_null, required. destruct (c_notnull c) as [[]|]; try (intuition congruence).
  rewrite orb_true_iff, !String.eqb_eq. intuition congruence.
Qed.

(** ** Emission *)
Lemma emit_true {A} (P : Prop) (x : list A) : P -> emit P x x.
Proof. left. auto. Qed.
Lemma emit_false {A} (P : Prop) (x : list A) : ~ P -> emit P x [].
Proof. right. auto. Qed.

(** ** One column *)
Lemma first_fields cc c : let d := first_version cc c in
  c_name d = c_name c /\ c_position d = c_position c /\ c_default d = c_default c /\ c_check d = c_check c /\
  c_check_no_inherit d = c_check_no_inherit c /\ c_identity d = c_identity c /\ c_sequence d = c_sequence c /\ c_key d = c_key c.
Proof. unfold first_version. destruct (c_autoinc cc); repeat split. Qed.

Lemma first_definition cc c : definition_matches cc (first_version cc c) <-> definition_matches cc c.
Proof. unfold first_version. destruct (c_autoinc cc); reflexivity. Qed.
Lemma first_default cc c : default_matches cc (first_version cc c) <-> default_matches cc c.
Proof. unfold first_version. destruct (c_autoinc cc); reflexivity. Qed.
Lemma first_check cc c : check_matches cc (first_version cc c) <-> check_matches cc c.
Proof. unfold first_version. destruct (c_autoinc cc); reflexivity. Qed.
Lemma first_type m cc c : data_type_matches m cc (first_version cc c) <-> data_type_matches m cc c.
Proof. unfold first_version. destruct (c_autoinc cc); reflexivity. Qed.
Lemma first_required cc c : required (first_version cc c) <-> required c.
Proof. unfold first_version. destruct (c_autoinc cc); reflexivity. Qed.

Lemma change_order_spec ct t cc c : change_order ct t cc c = true <-> moves ct t cc c.
Proof. unfold change_order, moves. rewrite andb_true_iff, !Z.ltb_lt. tauto. Qed.

Section Column.
Variables (ct t : table).
Hypothesis Hname : t_name ct = t_name t.
Let n := t_name t.

Lemma mysql_column_ops prev cc c o : c_name cc = c_name c ->
  ddls_column_mysql ct t prev cc (first_version cc c) = Ok o ->
  exists ops, effects (column_ops n) o = map (pair (c_name c)) ops /\ mysql_column ct t prev cc c ops.
Proof.
  intros Hc H. destruct (first_fields cc c) as (F1 & F2 & F3 & F4 & F5 & F6 & F7 & F8). simpl in *.
  unfold ddls_column_mysql in H. cbv zeta in H.
  set (order := change_order ct t cc (first_version cc c)) in *.
  assert (Ho : order = true <-> moves ct t cc c).
  { unfold order. rewrite change_order_spec. unfold moves. rewrite F2. reflexivity. }
  bind_inv H. injection H as <-. rewrite effects_app.
  pose proof (definition_spec cc (first_version cc c)) as Hd. rewrite first_definition in Hd.
  pose proof (default_spec cc (first_version cc c)) as Hf. rewrite first_default in Hf.
  destruct (have_same_column_definition Mysql cc (first_version cc c)) eqn:E1;
  destruct (are_same_default (c_default cc) (c_default (first_version cc c))) eqn:E2;
  match goal with |- context [effects (column_ops n) (if ?b then ?x else [])] => set (uq := if b then x else []) end.
  all: assert (Hq : exists u, effects (column_ops n) uq = map (pair (c_name c)) u /\
    emit (is_unique (c_key c) = true /\ is_unique (c_key cc) = false /\ named i_name (c_name c) (t_indexes ct) = None) [ColUnique] u)
   by (unfold uq; rewrite F1, F8; unfold named; fold (find_index (t_indexes ct) (c_name c));
       destruct (is_unique (c_key c)); [|exists []; split; [reflexivity|apply emit_false; intuition congruence]];
       destruct (is_unique (c_key cc)); [exists []; split; [reflexivity|apply emit_false; intuition congruence]|];
       destruct (find_index (t_indexes ct) (c_name c)); [exists []; split; [reflexivity|apply emit_false; intuition congruence]|];
       exists [ColUnique]; split; [simpl; fold n; rewrite String.eqb_refl; reflexivity|apply emit_true; auto]).
  all: destruct Hq as (u & -> & Hu); clear uq.
  all: assert (Hp : forall b, b = order -> exists p, p = (if b then pos_of prev else PosNone) /\
    ((moves ct t cc c /\ p = match prev with None => PosFirst | Some k => PosAfter k end) \/ (~ moves ct t cc c /\ p = PosNone)))
    by (intros b ->; destruct order; [exists (pos_of prev); split; [reflexivity|left; split; [now apply Ho|reflexivity]]|
        exists PosNone; split; [reflexivity|right; split; [intros Hm; apply Ho in Hm; discriminate|reflexivity]]]).
  all: destruct (Hp order eq_refl) as (p & Ep & Hp'); clear Hp.
  all: cbn [negb orb] in E; try (destruct order eqn:Eo; cbn [orb] in E);
    try (bind_inv E; injection E as <-; exists ([ColChange (first_version cc c) p] ++ u); split;
         [simpl; fold n; rewrite String.eqb_refl, Hc; subst p; reflexivity|];
         exists p, [ColChange (first_version cc c) p], u; split; [reflexivity|]; split; [exact Hp'|]; split; [|exact Hu];
         apply emit_true; intuition congruence; fail).
  injection E as <-. exists u. split; [reflexivity|]. exists p, [], u. split; [reflexivity|]. split; [exact Hp'|]. split; [|exact Hu].
  apply emit_false. intuition congruence.
Qed.

Lemma postgres_column_ops cc c o : c_name cc = c_name c ->
  ddls_column_postgres ct t cc (first_version cc c) = Ok o ->
  exists ops, effects (column_ops n) o = map (pair (c_name c)) ops /\ postgres_column ct t cc c ops.
Proof.
  intros Hc H. destruct (first_fields cc c) as (F1 & F2 & F3 & F4 & F5 & F6 & F7 & F8). simpl in *.
  unfold ddls_column_postgres in H. bind_inv H. injection H as <-. rewrite !effects_app.
  assert (Hty : exists u, effects (column_ops n) (pg_type ct t cc (first_version cc c)) = map (pair (c_name c)) u /\
    emit (~ data_type_matches Postgres cc c) [ColType (first_version cc c)] u).
  { unfold pg_type. pose proof (data_type_spec Postgres cc (first_version cc c)) as Hd. rewrite first_type in Hd.
    destruct (have_same_data_type _ _ _).
    - exists []. split; [reflexivity|]. apply emit_false. intuition congruence.
    - eexists. split; [|apply emit_true; intuition congruence]. simpl. fold n. rewrite String.eqb_refl, Hc. reflexivity. }
  assert (Hnn : exists u v, effects (column_ops n) (pg_null ct t cc (first_version cc c)) = map (pair (c_name c)) (u ++ v) /\
    emit (~ in_primary_key ct cc /\ required cc /\ ~ required c) [ColDropNotNull] u /\
    emit (~ in_primary_key ct cc /\ ~ required cc /\ required c) [ColSetNotNull] v).
  { unfold pg_null. pose proof (in_primary_key_spec cc ct) as Hp. pose proof (required_spec cc) as H1.
    pose proof (required_spec (first_version cc c)) as H2. rewrite first_required in H2.
    destruct (is_primary_key cc ct); [exists [], []; split; [reflexivity|]; split; apply emit_false; intuition congruence|].
    destruct (not_null Postgres cc), (not_null Postgres (first_version cc c)); cbn [negb andb].
    - exists [], []; split; [reflexivity|]; split; apply emit_false; intuition congruence.
    - eexists [ColDropNotNull], []. split; [simpl; fold n; rewrite String.eqb_refl, Hc; reflexivity|].
      split; [apply emit_true|apply emit_false]; intuition congruence.
    - eexists [], [ColSetNotNull]. split; [simpl; fold n; rewrite String.eqb_refl, Hc; reflexivity|].
      split; [apply emit_false|apply emit_true]; intuition congruence.
    - exists [], []; split; [reflexivity|]; split; apply emit_false; intuition congruence. }
  assert (Hid : exists u, effects (column_ops n) (pg_identity ct t cc (first_version cc c)) = map (pair (c_name c)) u /\
    postgres_identity cc c u).
  { unfold pg_identity, postgres_identity. rewrite F6, F7.
    pose proof (are_same_identity_spec (c_identity cc) (c_identity c)) as Hs.
    destruct (are_same_identity (c_identity cc) (c_identity c)).
    - rewrite <- (proj1 Hs eq_refl). exists []. split; [reflexivity|].
      destruct (c_identity cc); apply emit_false; [intros Hx; now apply Hx|auto].
    - destruct (c_identity cc) as [i|], (c_identity c) as [j|].
      + exists [ColSetIdentity j]. split; [simpl; fold n; rewrite String.eqb_refl, F1; reflexivity|]. apply emit_true.
        intros Hij. discriminate (proj2 Hs (f_equal Some Hij)).
      + exists [ColDropIdentity]. split; [simpl; rewrite Hname; fold n; rewrite String.eqb_refl, Hc; reflexivity|]. apply emit_true. exact I.
      + exists [ColAddIdentity j (c_sequence c)]. split; [simpl; fold n; rewrite String.eqb_refl, F1; reflexivity|]. apply emit_true. exact I.
      + exists []. split; [reflexivity|]. apply emit_false. auto. }
  assert (Hdf : exists u, effects (column_ops n) a = map (pair (c_name c)) u /\
    emit (~ default_matches cc c) (match c_default c with Some d => [ColSetDefault d] | None => [ColDropDefault] end) u).
  { unfold pg_default in E. pose proof (default_spec cc (first_version cc c)) as Hd. rewrite first_default in Hd.
    destruct (are_same_default _ _).
    - injection E as <-. exists []. split; [reflexivity|]. apply emit_false. intuition congruence.
    - rewrite F3 in E. destruct (c_default c) as [d|].
      + destruct (df_value d); [|discriminate]. bind_inv E. injection E as <-. eexists. split; [|apply emit_true; intuition congruence].
        simpl. rewrite Hname. fold n. rewrite String.eqb_refl, Hc. reflexivity.
      + injection E as <-. eexists. split; [|apply emit_true; intuition congruence].
        simpl. rewrite Hname. fold n. rewrite String.eqb_refl, Hc. reflexivity. }
  assert (Hck : exists u, effects (column_ops n) (pg_check ct t cc (first_version cc c)) = map (pair (c_name c)) u /\
    postgres_check t cc c u).
  { unfold pg_check, postgres_check, check_name. pose proof (check_spec cc (first_version cc c)) as Hd. rewrite first_check in Hd.
    destruct (_ && _).
    - exists []. split; [reflexivity|]. apply emit_false. intuition congruence.
    - cbv zeta. rewrite effects_app, F4, F1, F5. eexists. split; [|apply emit_true; intuition congruence]. rewrite map_app. f_equal.
      + destruct (c_check cc); [|reflexivity]. simpl. fold n. now rewrite String.eqb_refl, Hc.
      + destruct (c_check c); [|reflexivity]. simpl. fold n. now rewrite String.eqb_refl, Hc. }
  destruct Hty as (ty & -> & H1), Hnn as (dn & sn & -> & H2 & H3), Hid as (id & -> & H4), Hdf as (df & -> & H5), Hck as (ck & -> & H6).
  exists (ty ++ dn ++ sn ++ id ++ df ++ ck). split; [rewrite !map_app, <- !app_assoc; reflexivity|].
  exists ty, dn, sn, id, df, ck. auto 10.
Qed.

Lemma mssql_column_ops cc c o : c_name cc = c_name c ->
  ddls_column_mssql ct t cc (first_version cc c) = Ok o ->
  exists ops, effects (column_ops n) o = map (pair (c_name c)) ops /\ mssql_column t cc c ops.
Proof.
  intros Hc H. destruct (first_fields cc c) as (F1 & F2 & F3 & F4 & F5 & F6 & F7 & F8). simpl in *.
  unfold ddls_column_mssql in H. bind_inv H. bind_inv H. injection H as <-. rewrite !effects_app.
  assert (effects (column_ops n) a = []) as ->.
  { unfold ms_identity in E. destruct (are_same_identity _ _); [injection E as <-; reflexivity|].
    bind_inv E. injection E as <-. rewrite effects_app.
    match goal with |- _ ++ effects _ ?x = _ => assert (effects (column_ops n) x = []) as -> end.
    { destruct (c_identity (first_version cc c)); [|injection E1 as <-; reflexivity]. bind_inv E1. injection E1 as <-. reflexivity. }
    destruct (c_identity cc); reflexivity. }
  assert (Hck : exists u, effects (column_ops n) (ms_check ct t cc (first_version cc c)) = map (pair (c_name c)) u /\
     emit (~ check_matches cc c)
      (match c_check cc with Some d => [ColDropCheck (ck_constraint d)] | None => [] end ++
       match c_check c with
       | Some d => [ColAddCheck (if String.eqb (ck_constraint d) "" then check_name "dbo." (t_name t) (c_name c) else ck_constraint d) d false]
       | None => [] end) u).
  { unfold ms_check, check_name. pose proof (check_spec cc (first_version cc c)) as Hd. rewrite first_check in Hd.
    destruct (_ && _).
    - exists []. split; [reflexivity|]. apply emit_false. intuition congruence.
    - cbv zeta. rewrite effects_app, F4, F1. eexists. split; [|apply emit_true; intuition congruence]. rewrite map_app. f_equal.
      + destruct (c_check cc); [|reflexivity]. simpl. fold n. now rewrite String.eqb_refl, Hc.
      + destruct (c_check c); [|reflexivity]. simpl. fold n. now rewrite String.eqb_refl, Hc. }
  assert (Hdf : exists u, effects (column_ops n) a0 = map (pair (c_name c)) u /\
    emit (~ default_matches cc c)
      (match c_default cc with Some d => [ColDropDefaultConstraint (df_constraint d)] | None => [] end ++
       match c_default c with Some d => [ColAddDefault d] | None => [] end) u).
  { unfold ms_default in E0. pose proof (default_spec cc (first_version cc c)) as Hd. rewrite first_default in Hd.
    destruct (are_same_default _ _).
    - injection E0 as <-. exists []. split; [reflexivity|]. apply emit_false. intuition congruence.
    - bind_inv E0. injection E0 as <-. rewrite effects_app. eexists. split; [|apply emit_true; intuition congruence]. rewrite map_app. f_equal.
      + destruct (c_default cc); [|reflexivity]. simpl. rewrite Hname. fold n. now rewrite String.eqb_refl, Hc.
      + rewrite F3 in E1. destruct (c_default c) as [d|]; [|injection E1 as <-; reflexivity].
        destruct (df_value d); [|discriminate]. bind_inv E1. injection E1 as <-. simpl. rewrite Hname. fold n. now rewrite String.eqb_refl, Hc. }
  destruct Hck as (ck & -> & H1), Hdf as (df & -> & H2). exists (ck ++ df). split; [now rewrite map_app|].
  exists ck, df. auto.
Qed.

Lemma columns_ops m l : forall prev o, ddls_columns m ct t prev l = Ok o ->
  contrib (desired_column m ct t) (with_previous prev l) (effects (column_ops n) o).
Proof.
  induction l as [|c l IH]; intros prev o H; cbn [ddls_columns] in H.
  - injection H as <-. constructor.
  - bind_inv H. bind_inv H. injection H as <-. rewrite effects_app. cbn [with_previous]. constructor; [|eauto].
    clear IH E0. unfold ddls_column in E. unfold desired_column, named. fold (find_column (t_columns ct) (c_name c)).
    destruct (find_column (t_columns ct) (c_name c)) as [cc|] eqn:Ef.
    + assert (Hc : c_name cc = c_name c) by (apply find_some in Ef as [_ Ef]; now apply String.eqb_eq in Ef).
      fold (first_version cc c) in E. destruct m.
      * eapply mysql_column_ops; eauto.
      * eapply postgres_column_ops; eauto.
      * injection E as <-. exists []. auto.
      * eapply mssql_column_ops; eauto.
    + unfold ddls_new_column in E. bind_inv E. injection E as <-. reflexivity.
Qed.

Lemma removed_autoinc m o : ddls_remove_autoinc m ct t = Ok o ->
  contrib (loses_autoinc m t) (t_columns ct) (effects (column_ops n) o).
Proof.
  unfold ddls_remove_autoinc. intros H.
  assert (Hno : m <> Mysql -> contrib (loses_autoinc m t) (t_columns ct) []).
  { intros Hm. clear H. induction (t_columns ct); [constructor|]. apply (contrib_cons _ _ [] _ []); [|assumption]. apply emit_false. tauto. }
  destruct m; try (injection H as <-; apply Hno; discriminate). clear Hno.
  apply (effects_concat_map (column_ops n) (loses_autoinc Mysql t)) in H; [exact H|].
  intros cc o' _ Hx. cbv beta zeta in Hx. unfold loses_autoinc, named. fold (find_column (t_columns t) (c_name cc)).
  destruct (c_autoinc cc).
  2:{ simpl in Hx. injection Hx as <-. apply emit_false. intuition congruence. }
  assert (Hgo : forall x, (do def <- generate_column_definition Mysql (set_autoinc false cc) false; Ok [mkStmt x (EffChangeColumn (t_name ct) (c_name cc) (set_autoinc false cc) PosNone)]) = Ok o' -> True) by auto.
  clear Hgo. destruct (find_column (t_columns t) (c_name cc)) as [c|].
  - destruct (c_autoinc c) eqn:Ec; simpl in Hx.
    + injection Hx as <-. apply emit_false. intros (_ & _ & Hk). specialize (Hk c eq_refl). congruence.
    + bind_inv Hx. injection Hx as <-. simpl. rewrite Hname. fold n. rewrite String.eqb_refl. apply emit_true.
      repeat split; auto. intros x Hk. injection Hk as <-. exact Ec.
  - simpl in Hx. bind_inv Hx. injection Hx as <-. simpl. rewrite Hname. fold n. rewrite String.eqb_refl. apply emit_true.
    repeat split; auto. discriminate.
Qed.

Lemma added_autoinc m o : ddls_add_autoinc m ct t = Ok o ->
  contrib (gains_autoinc m ct) (t_columns t) (effects (column_ops n) o).
Proof.
  unfold ddls_add_autoinc. intros H.
  assert (Hno : m <> Mysql -> contrib (gains_autoinc m ct) (t_columns t) []).
  { intros Hm. clear H. induction (t_columns t); [constructor|]. apply (contrib_cons _ _ [] _ []); [|assumption]. apply emit_false. tauto. }
  destruct m; try (injection H as <-; apply Hno; discriminate). clear Hno.
  apply (effects_concat_map (column_ops n) (gains_autoinc Mysql ct)) in H; [exact H|].
  intros cc o' _ Hx. cbv beta zeta in Hx. unfold gains_autoinc, named. fold (find_column (t_columns ct) (c_name cc)).
  destruct (c_autoinc cc).
  2:{ simpl in Hx. injection Hx as <-. apply emit_false. intuition congruence. }
  destruct (find_column (t_columns ct) (c_name cc)) as [c|].
  - destruct (c_autoinc c) eqn:Ec; simpl in Hx.
    + injection Hx as <-. apply emit_false. intros (_ & _ & Hk). specialize (Hk c eq_refl). congruence.
    + bind_inv Hx. injection Hx as <-. simpl. rewrite Hname. fold n. rewrite String.eqb_refl. apply emit_true.
      repeat split; auto. intros x Hk. injection Hk as <-. exact Ec.
  - simpl in Hx. bind_inv Hx. injection Hx as <-. simpl. rewrite Hname. fold n. rewrite String.eqb_refl. apply emit_true.
    repeat split; auto. discriminate.
Qed.
End Column.

(** ** The primary key *)
Lemma primary_key_declared t : declares_pk t (primary_key t).
Proof.
  unfold primary_key, declares_pk. destruct (find i_primary (t_indexes t)) as [i|] eqn:E.
  - left. assert (Hi : i_primary i = true) by now apply find_some in E.
    assert (exists a b, t_indexes t = a ++ i :: b /\ Forall (fun j => i_primary j = false) a) as (a & b & H1 & H2).
    { induction (t_indexes t) as [|j l IH]; simpl in E; [discriminate|]. destruct (i_primary j) eqn:Ej.
      - injection E as ->. exists [], l. auto.
      - destruct (IH E) as (a & b & -> & Ha). exists (j :: a), b. split; [reflexivity|]. now constructor. }
    exists a, i, b. auto.
  - right. split.
    + apply Forall_forall. intros j Hj. exact (find_none _ _ E j Hj).
    + cbv zeta. change (fun c => is_key_primary (c_key c)) with (fun c => match c_key c with KeyPrimary => true | _ => false end).
      destruct (filter _ (t_columns t)) as [|c cs]; [left; auto|]. right. split; [discriminate|reflexivity].
Qed.

Lemma declares_pk_fun t a b : declares_pk t a -> declares_pk t b -> a = b.
Proof.
  assert (Hu : forall x i y x' i' y', x ++ i :: y = x' ++ i' :: y' ->
    Forall (fun j => i_primary j = false) x -> Forall (fun j => i_primary j = false) x' ->
    i_primary i = true -> i_primary i' = true -> i = i').
  { induction x as [|k x IH]; intros i y [|k' x'] i' y' E H1 H2 H3 H4; simpl in E; injection E as E1 E2.
    - exact E1.
    - subst. inversion H2; congruence.
    - subst. inversion H1; congruence.
    - inversion H1; inversion H2; subst. eauto. }
  assert (Hm : forall x i y, t_indexes t = x ++ i :: y -> i_primary i = true ->
    Forall (fun j => i_primary j = false) (t_indexes t) -> False).
  { intros x i y E Hi Hf. rewrite E in Hf. apply Forall_app in Hf as [_ Hf]. inversion Hf. congruence. }
  unfold declares_pk. intros [(x & i & y & E1 & F1 & P1 & ->)|[F1 C1]] [(x' & i' & y' & E2 & F2 & P2 & ->)|[F2 C2]].
  - f_equal. eapply Hu; [rewrite <- E1, <- E2; reflexivity|..]; auto.
  - exfalso. eauto.
  - exfalso. eauto.
  - cbv zeta in *. destruct C1 as [[C1 ->]|[C1 ->]], C2 as [[C2 ->]|[C2 ->]]; congruence.
Qed.

Section Kept.
Variables (m : mode) (desired current : list ddl) (out : list stmt).
Hypothesis Hnd : NoDup (created desired).
Hypothesis Hnc : NoDup (created current).
Hypothesis Hplan : plan m desired current = Ok out.
Variables (t ct : table).
Hypothesis Ht : In t (tables_in desired).
Hypothesis Hct : In ct (schema current).
Hypothesis Hname : t_name ct = t_name t.
Let n := t_name t.
Let dt := full_table desired t.

Lemma full_column_names : column_names (t_columns dt) = map c_name (t_columns t).
Proof.
  unfold dt, full_table, column_names. simpl. rewrite map_map. apply map_ext. intros x. unfold mark.
  destruct (mem _ _); reflexivity.
Qed.

Lemma cleanup_column_ops : effects (column_ops n) (cleanup_columns m ct dt) =
  flat_map (fun c => column_cleanup m ct (c_name c)) (without c_name c_name (t_columns t) (t_columns ct)).
Proof.
  unfold cleanup_columns, without. rewrite effects_flat_map.
  rewrite <- (if_flat_map (fun c => mem (c_name c) (map c_name (t_columns t)))).
  apply flat_map_ext. intros c. rewrite contains_string_mem, full_column_names. destruct (mem _ _); [reflexivity|].
  unfold absent_column, column_cleanup. rewrite effects_app. simpl. rewrite app_nil_r.
  destruct m; try reflexivity. rewrite effects_flat_map. apply flat_map_ext. intros x. destruct (c_default x); [|reflexivity].
  destruct (_ && _); [|reflexivity]. simpl. rewrite Hname. fold n. now rewrite String.eqb_refl.
Qed.

Theorem column_ops_exact : exists changes removals additions,
  contrib (desired_column m ct t) (with_previous None (t_columns t)) changes /\
  contrib (loses_autoinc m t) (t_columns ct) removals /\
  contrib (gains_autoinc m ct) (t_columns t) additions /\
  effects (column_ops n) out = changes ++ removals ++ additions ++
    flat_map (fun c => column_cleanup m ct (c_name c)) (without c_name c_name (t_columns t) (t_columns ct)).
Proof.
  destruct (kept_sections m desired current out Hnd Hnc Hplan t ct Ht Hct Hname)
    as (cols & rem & pk & idx & ainc & fks & cix & H1 & H2 & H3 & H4 & H5 & H6 & H7 & Hp).
  exists (effects (column_ops n) cols), (effects (column_ops n) rem), (effects (column_ops n) ainc).
  split; [eapply columns_ops; eauto|]. split; [eapply removed_autoinc; eauto|]. split; [eapply added_autoinc; eauto|].
  rewrite <- (effects_part _ n).
  2:{ intros e He. destruct e; simpl in *; auto; destruct (String.eqb_spec t0 n); congruence. }
  unfold n at 2. rewrite Hp, !effects_app. fold dt. rewrite cleanup_column_ops.
  rewrite (sil _ k_primary pk), (sil _ k_index idx),
    (sil _ k_fk fks), (sil _ k_standalone (flat_map (standalone _ _) _)), (sil _ k_fk (cleanup_fks _ _ _)),
    (sil _ k_index_or_primary cix), (sil _ k_policy (cleanup_policies _ _ _)); try kinds.
  - simpl. now rewrite app_nil_r.
  - apply kind_cleanup_policies.
  - eapply kind_cleanup_indexes; eauto.
  - apply kind_cleanup_fks.
  - apply kind_standalone.
  - eapply all_concat_map; [|exact H6]. intros; eapply kind_fk; eauto.
  - eapply all_concat_map; [|exact H4]. intros; eapply kind_ix; eauto.
  - eapply kind_primary_key; eauto.
Qed.

Lemma primary_ops o : ddls_primary_key m ct t = Ok o -> pk_change m (primary_key ct) (primary_key t) (effects (pk_ops n) o).
Proof.
  unfold ddls_primary_key, pk_change. cbv zeta. intros H.
  assert (Hs : are_same_primary_keys (primary_key ct) (primary_key t) = true <-> pk_matches (primary_key ct) (primary_key t)).
  { unfold are_same_primary_keys, pk_matches. destruct (primary_key ct), (primary_key t); try (intuition congruence). apply are_same_indexes_spec. }
  destruct (are_same_primary_keys _ _).
  - injection H as <-. apply emit_false. intuition congruence.
  - bind_inv H. bind_inv H. injection H as <-. rewrite effects_app.
    match goal with |- emit _ ?x ?y => replace y with x; [apply emit_true; intuition congruence|] end. f_equal.
    + destruct (primary_key ct); [|injection E as <-; reflexivity]. destruct m; try (injection E as <-).
      * simpl. fold n. now rewrite String.eqb_refl.
      * destruct (split_first "." (t_name t)) as [[? ?]|]; [|discriminate]. injection E as <-. simpl. fold n. now rewrite String.eqb_refl.
      * reflexivity.
      * reflexivity.
    + destruct (primary_key t) eqn:Ep; [|injection E0 as <-; reflexivity]. bind_inv E0. injection E0 as <-.
      unfold stmt_add_index in E1. bind_inv E1. injection E1 as <-. rewrite (primary_key_primary _ _ Ep). simpl. fold n. now rewrite String.eqb_refl.
Qed.

Lemma primary_cleanup o : cleanup_indexes m ct dt = Ok o -> contrib (pk_cleanup m dt) (t_indexes ct) (effects (pk_ops n) o).
Proof.
  unfold cleanup_indexes. intros H. apply (effects_concat_map (pk_ops n) (pk_cleanup m dt)) in H; [exact H|].
  intros i o' _ Hx. unfold pk_cleanup. rewrite !contains_string_mem in Hx. unfold index_names in Hx.
  destruct (mem (i_name i) (map i_name (t_indexes dt))) eqn:E1; cbn [orb] in Hx.
  { injection Hx as <-. apply emit_false. apply mem_spec in E1. tauto. }
  destruct (mem (i_name i) (fk_index_names (t_fks dt))) eqn:E2.
  { injection Hx as <-. apply emit_false. apply mem_spec, fk_index_names_spec in E2. tauto. }
  apply mem_false in E1. apply mem_false in E2. unfold absent_index in Hx.
  assert (Hi : forall k, effects (pk_ops n) [stmt_drop_index m (t_name ct) k] = []) by (intros; destruct m; reflexivity).
  destruct (i_primary i).
  - destruct (find (fun c => is_key_primary (c_key c)) (t_columns dt)) as [pc|] eqn:Ef.
    + apply find_some in Ef as [Hin Hk]. destruct (i_columns i); [discriminate|].
      destruct (String.eqb _ _); [|discriminate]. injection Hx as <-. apply emit_false.
      intros (_ & _ & _ & _ & Hc). apply (Hc pc Hin). destruct (c_key pc); try discriminate. reflexivity.
    + assert (Hc : forall c, In c (t_columns dt) -> c_key c <> KeyPrimary).
      { intros c Hin Hk. pose proof (find_none _ _ Ef c Hin) as Hf. cbv beta in Hf. rewrite Hk in Hf. discriminate. }
      destruct m; try (injection Hx as <-; apply emit_false; intuition congruence).
      injection Hx as <-. simpl. rewrite Hname. fold n. rewrite String.eqb_refl. apply emit_true. repeat split; auto.
      intros Hb. apply E2, fk_index_names_spec. exact Hb.
  - assert (Hz : effects (pk_ops n) o' = []).
    { destruct (i_unique i); [|injection Hx as <-; apply Hi].
      destruct (t_columns dt); [injection Hx as <-; apply Hi|]. destruct (i_columns i); [discriminate|].
      destruct (existsb _ _); injection Hx as <-; [reflexivity|apply Hi]. }
    rewrite Hz. apply emit_false. intuition congruence.
Qed.

Theorem pk_ops_exact cur des : declares_pk ct cur -> declares_pk t des -> exists change cleanup,
  pk_change m cur des change /\ contrib (pk_cleanup m dt) (t_indexes ct) cleanup /\
  effects (pk_ops n) out = change ++ cleanup.
Proof.
  intros Hcur Hdes. rewrite (declares_pk_fun _ _ _ Hcur (primary_key_declared ct)).
  rewrite (declares_pk_fun _ _ _ Hdes (primary_key_declared t)).
  destruct (kept_sections m desired current out Hnd Hnc Hplan t ct Ht Hct Hname)
    as (cols & rem & pk & idx & ainc & fks & cix & H1 & H2 & H3 & H4 & H5 & H6 & H7 & Hp).
  exists (effects (pk_ops n) pk), (effects (pk_ops n) cix).
  split; [now apply primary_ops|]. split; [now apply primary_cleanup|].
  rewrite <- (effects_part _ n).
  2:{ intros e He. destruct e; simpl in *; auto; destruct (String.eqb_spec t0 n); congruence. }
  unfold n at 2. rewrite Hp, !effects_app. fold dt.
  rewrite (sil _ k_column cols), (sil _ k_change rem), (sil _ k_index idx), (sil _ k_change ainc),
    (sil _ k_fk fks), (sil _ k_standalone (flat_map (standalone _ _) _)), (sil _ k_fk (cleanup_fks _ _ _)),
    (sil _ k_column (cleanup_columns _ _ _)), (sil _ k_policy (cleanup_policies _ _ _)); try kinds.
  - simpl. now rewrite !app_nil_r.
  - apply kind_cleanup_policies.
  - apply kind_cleanup_columns.
  - apply kind_cleanup_fks.
  - apply kind_standalone.
  - eapply all_concat_map; [|exact H6]. intros; eapply kind_fk; eauto.
  - eapply kind_add_autoinc; eauto.
  - eapply all_concat_map; [|exact H4]. intros; eapply kind_ix; eauto.
  - eapply kind_remove_autoinc; eauto.
  - eapply kind_columns; eauto.
Qed.
End Kept.
