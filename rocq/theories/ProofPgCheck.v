(** Boolean tests for the hypotheses of the convergence theorem for PostgreSQL. *)
From Coq Require Import String Ascii List ZArith Bool Lia SpecFloat.
From Verif Require Import GoStr GoStrFacts Ast Generator SpecPlan SpecColumns SpecMysql SpecDatabase SpecPostgres SpecConvergePg
  ProofPlan ProofCompare ProofColumns ProofOrder ProofMysql.
Import ListNotations.
Local Open Scope string_scope.
Local Open Scope list_scope.

Definition value_dec (a b : value) : {a = b} + {a <> b}.
Proof. repeat decide equality; try apply string_dec; try apply Z.eq_dec; try apply Pos.eq_dec; try apply bool_dec. Defined.
Definition length_dec (a b : option value) : {a = b} + {a <> b}.
Proof. decide equality. apply value_dec. Defined.
Definition is_some {A} (o : option A) : bool := match o with Some _ => true | None => false end.
Definition yes {P} (d : {P} + {~ P}) : bool := if d then true else false.
Lemma yes_true {P} (d : {P} + {~ P}) : yes d = true -> P.
Proof. destruct d; [auto|discriminate]. Qed.
Definition strings_dec (a b : list string) : {a = b} + {a <> b} := list_eq_dec string_dec a b.

Definition scale_dec := length_dec.
Definition wanted_b (s c : column) : bool :=
  String.eqb (c_type s) (wanted_type c) && Bool.eqb (c_timezone s) (wanted_zone c) && Bool.eqb (c_array s) (c_array c) &&
  yes (length_dec (c_length s) (wanted_length c)) && yes (scale_dec (c_scale s) (c_scale c)) && String.eqb (c_collate s) (c_collate c).
Lemma wanted_b_ok s c : wanted_b s c = true -> same_as_wanted s c.
Proof.
  unfold wanted_b. rewrite !andb_true_iff, !String.eqb_eq, !eqb_true_iff. intros [[[[[H1 H2] H3] H4] H5] H6].
  apply yes_true in H4. apply yes_true in H5. repeat split; assumption.
Qed.

Definition needed_b (t : table) (c : column) : bool := not_null Postgres c || is_primary_key c t.
Lemma needed_b_ok t c : needed_b t c = true -> required c \/ in_primary_key t c.
Proof. unfold needed_b. rewrite orb_true_iff, required_spec, in_primary_key_spec. auto. Qed.

Definition check_b (a b : column) : bool :=
  are_same_check (c_check a) (c_check b) && Bool.eqb (c_check_no_inherit a) (c_check_no_inherit b).
Definition fk_same_b (a b : foreign_key) : bool :=
  are_same_foreign_keys Postgres a b && yes (strings_dec (fk_index_columns a) (fk_index_columns b)) &&
  String.eqb (fk_ref_name a) (fk_ref_name b) && yes (strings_dec (fk_ref_columns a) (fk_ref_columns b)).
Lemma fk_same_b_ok a b : fk_same_b a b = true -> pg_fk_same a b.
Proof.
  unfold fk_same_b. rewrite !andb_true_iff, are_same_foreign_keys_spec, String.eqb_eq. intros [[[H1 H2] H3] H4]. apply yes_true in H2. apply yes_true in H4. repeat split; try assumption; apply H1.
Qed.

Fixpoint all2 (a b : list string) : bool :=
  match a, b with
  | [], [] => true
  | x :: a', y :: b' => String.eqb (to_lower x) (to_lower y) && all2 a' b'
  | _, _ => false
  end.
Lemma all2_ok a : forall b, all2 a b = true -> Forall2 same_letters a b.
Proof.
  induction a as [|x a IH]; intros [|y b] H; try discriminate; [constructor|]. cbn [all2] in H. apply andb_true_iff in H as [H1 H2]. apply String.eqb_eq in H1. constructor; auto.
Qed.
Definition policy_same_b (a b : policy) : bool :=
  String.eqb (to_lower (p_scope a)) (to_lower (p_scope b)) && String.eqb (to_lower (p_permissive a)) (to_lower (p_permissive b)) &&
  String.eqb (to_lower (p_using a)) (to_lower (p_using b)) && String.eqb (to_lower (p_with_check a)) (to_lower (p_with_check b)) &&
  all2 (sort_strings (p_roles a)) (sort_strings (p_roles b)).
Lemma policy_same_b_ok a b : policy_same_b a b = true -> policy_same a b.
Proof.
  unfold policy_same_b. rewrite !andb_true_iff, !String.eqb_eq. intros [[[[H1 H2] H3] H4] H5]. apply all2_ok in H5. repeat split; assumption.
Qed.

Definition unique_b (x : string) (g : pg_tab) : bool :=
  existsb (fun k => mem (i_name k) (g_owned g) && i_unique k && yes (strings_dec (index_columns k) [x])) (g_indexes g).
Lemma unique_b_ok x g : unique_b x g = true -> exists k, unique_on x g k.
Proof.
  unfold unique_b. rewrite existsb_exists. intros (k & Hk & H). rewrite !andb_true_iff in H. destruct H as [[H1 H2] H3]. apply mem_in in H1. apply yes_true in H3.
  exists k. repeat split; assumption.
Qed.

Definition backs_b (l : list foreign_key) (n : string) : bool :=
  negb (String.eqb n "") &&
  existsb (fun f => String.eqb n (fk_index_name f) || (String.eqb (fk_index_name f) "" && String.eqb n (fk_constraint f))) l.
Definition pg_tolerated_b (l : list ddl) (t : table) (k : index) : bool :=
  backs_b (all_fks l t) (i_name k) ||
  (i_unique k && match i_columns k with
                 | ic :: _ => existsb (fun c => is_unique (c_key c) && String.eqb (c_name c) (ic_column ic)) (t_columns t)
                 | [] => false
                 end).
Lemma pg_tolerated_b_ok l t k : pg_tolerated_b l t k = true -> pg_tolerated l t k.
Proof.
  unfold pg_tolerated_b, pg_tolerated. rewrite orb_true_iff. intros [H|H].
  - left. unfold backs_b in H. apply andb_true_iff in H as [H1 H2]. apply negb_true_iff, String.eqb_neq in H1. apply existsb_exists in H2 as (f & Hf & H2).
    exists f. split; [exact Hf|]. split; [exact H1|]. apply orb_true_iff in H2 as [H2|H2]; [left; now apply String.eqb_eq|right].
    apply andb_true_iff in H2 as [H2 H3]. split; now apply String.eqb_eq.
  - right. apply andb_true_iff in H as [H1 H2]. split; [exact H1|]. destruct (i_columns k) as [|ic rest] eqn:E; [discriminate|].
    apply existsb_exists in H2 as (c & Hc & H2). apply andb_true_iff in H2 as [H2 H3]. apply String.eqb_eq in H3. exists c, ic, rest. auto.
Qed.
Definition fk_tolerated_b (t : table) (f : foreign_key) : bool :=
  existsb (fun c => String.eqb (c_references c) (fk_ref_name f)) (t_columns t).
Lemma fk_tolerated_b_ok t f : fk_tolerated t f -> fk_tolerated_b t f = true.
Proof. intros (c & Hc & E). apply existsb_exists. exists c. split; [exact Hc|]. now apply String.eqb_eq. Qed.

Section Settles.
Variable castable : column -> column -> bool.
Variables (l : list ddl) (t : table) (s : pg_tab).

Definition implies (a b : bool) : bool := negb a || b.
Lemma implies_ok a b : implies a b = true -> a = true -> b = true.
Proof. now intros H ->. Qed.

Definition pair_b (c cc : column) : bool :=
  (wanted_b cc c ||
   (negb (have_same_data_type Postgres (exported_column s cc) c) && castable cc c && negb (is_serial (wanted_type c)) &&
    negb (is_serial (c_type cc)) && implies (is_some (c_identity cc)) (is_integer (wanted_type c) && negb (c_array c)) &&
    negb (c_timezone c) && String.eqb (c_collate c) "")) &&
  implies (is_some (c_identity cc) || is_some (c_identity c) || is_serial (c_type cc)) (not_null Postgres c || in_key s (c_name c)) &&
  implies (negb (is_some (c_identity cc)) && is_some (c_identity c)) (negb (is_some (c_default cc))) &&
  implies (negb (check_b (exported_column s cc) c))
    (plain (planned_check t c) && String.eqb (to_lower (planned_check t c)) (planned_check t c) &&
     String.eqb (planned_check t c) (auto_check (t_name t) (c_name c)) &&
     match c_check cc with Some d => String.eqb (ck_constraint d) (planned_check t c) | None => true end &&
     forallb (fun x => String.eqb (c_name x) (c_name c) || negb (has_check (planned_check t c) x)) (g_columns s)).

Definition column_b (c : column) : bool :=
  forallb (fun cc => implies (String.eqb (c_name cc) (c_name c)) (pair_b c cc)) (g_columns s) &&
  implies (in_key s (c_name c)) (needed_b t c) &&
  implies (negb (mem (c_name c) (map c_name (g_columns s))) && is_some (c_check c))
    (negb (existsb (has_check (auto_check (t_name t) (c_name c))) (g_columns s))) &&
  implies (is_unique (c_key c))
    (if mem (c_name c) (map c_name (g_columns s)) then unique_b (c_name c) s
     else negb (mem (unique_name (t_name t) (c_name c)) (map i_name (g_indexes s))) &&
          negb (mem (unique_name (t_name t) (c_name c)) (map i_name (indexes_on (t_name t) l)))) &&
  implies (negb (String.eqb (c_references c) ""))
    (existsb (fun f => yes (strings_dec (fk_index_columns f) [c_name c]) && String.eqb (fk_ref_name f) (c_references c) &&
                       negb (mem (fk_constraint f) (map fk_constraint (t_fks t)))) (g_fks s)).

Definition index_b (k : index) : bool :=
  existsb (fun i => String.eqb (i_name i) (i_name k) && are_same_indexes k i) (indexes_on (t_name t) l) ||
  (negb (mem (i_name k) (map i_name (indexes_on (t_name t) l))) && pg_tolerated_b l t k) ||
  (is_public (t_name t) && negb (mem (i_name k) (g_owned s))).

Definition pg_settles_b : bool :=
  forallb column_b (t_columns t) && forallb index_b (g_indexes s) &&
  forallb (fun f => forallb (fun cf => implies (String.eqb (fk_constraint cf) (fk_constraint f) && are_same_foreign_keys Postgres cf f) (fk_same_b cf f))
                      (g_fks s)) (t_fks t) &&
  forallb (fun f => existsb (fun cf => String.eqb (fk_constraint cf) (fk_constraint f) && fk_same_b cf f) (g_fks s)) (fks_on (t_name t) l) &&
  forallb (fun cf => mem (fk_constraint cf) (map fk_constraint (all_fks l t)) || fk_tolerated_b t cf ||
                     (Nat.eqb (length (fk_index_columns cf)) 1 && Nat.eqb (length (fk_ref_columns cf)) 1)) (g_fks s) &&
  forallb (fun p => forallb (fun cp => implies (String.eqb (p_name cp) (p_name p) && are_same_policies cp p) (policy_same_b cp p)) (g_policies s))
    (policies_on (t_name t) l).

Lemma some_neq {A} (o : option A) : o <> None <-> is_some o = true.
Proof. destruct o; cbn; split; congruence. Qed.

Theorem pg_settles_b_ok : pg_settles_b = true -> pg_settles castable l t s.
Proof.
  unfold pg_settles_b. rewrite !andb_true_iff, !forallb_forall. intros [[[[[HC HI] HF] HA] HO] HP].
  assert (HCC : forall c, In c (t_columns t) -> column_b c = true) by exact HC.
  assert (Hpair : forall c cc, In c (t_columns t) -> In cc (g_columns s) -> c_name cc = c_name c -> pair_b c cc = true).
  { intros c cc H1 H2 H3. specialize (HC c H1). unfold column_b in HC. rewrite !andb_true_iff in HC. destruct HC as [[[[HC _] _] _] _].
    rewrite forallb_forall in HC. specialize (HC cc H2). apply (implies_ok _ _ HC). now apply String.eqb_eq. }
  constructor.
  - intros c cc H1 H2 H3. specialize (Hpair c cc H1 H2 H3). unfold pair_b in Hpair. rewrite !andb_true_iff in Hpair. destruct Hpair as [[[H _] _] _].
    apply orb_true_iff in H as [H|H]; [left; now apply wanted_b_ok|right]. rewrite !andb_true_iff, !negb_true_iff in H. destruct H as [[[[[[A1 A2] A3] A4] A5] A6] A7].
    split; [intros X; apply data_type_spec in X; congruence|]. split; [exact A2|]. split; [exact A3|]. split; [exact A4|].
    split; [|split; [exact A6|now apply String.eqb_eq]]. intros X. apply some_neq in X. apply (implies_ok _ _ A5) in X. apply andb_true_iff in X as [X1 X2]. split; [exact X1|]. now apply negb_true_iff.
  - intros c H1 H2. specialize (HCC c H1). unfold column_b in HCC. rewrite !andb_true_iff in HCC. destruct HCC as [[[[_ H] _] _] _]. apply needed_b_ok. now apply (implies_ok _ _ H).
  - intros c cc H1 H2 H3 H4. specialize (Hpair c cc H1 H2 H3). unfold pair_b in Hpair. rewrite !andb_true_iff in Hpair. destruct Hpair as [[[_ H] _] _].
    assert (X : not_null Postgres c || in_key s (c_name c) = true).
    { apply (implies_ok _ _ H). rewrite !orb_true_iff, <- !some_neq. tauto. }
    apply orb_true_iff in X as [X|X]; [left; now apply required_spec|now right].
  - intros c cc H1 H2 H3 H4 H5. specialize (Hpair c cc H1 H2 H3). unfold pair_b in Hpair. rewrite !andb_true_iff in Hpair. destruct Hpair as [[_ H] _].
    assert (X : negb (is_some (c_default cc)) = true) by (apply (implies_ok _ _ H); rewrite H4; apply some_neq in H5; now rewrite H5). destruct (c_default cc); [discriminate|reflexivity].
  - intros c cc H1 H2 H3 H4. specialize (Hpair c cc H1 H2 H3). unfold pair_b in Hpair. rewrite !andb_true_iff in Hpair. destruct Hpair as [_ H].
    assert (Hn : negb (check_b (exported_column s cc) c) = true).
    { apply negb_true_iff, not_true_iff_false. intros X. apply H4. apply check_spec. exact X. }
    apply (implies_ok _ _ H) in Hn. rewrite !andb_true_iff, !String.eqb_eq, forallb_forall in Hn. destruct Hn as [[[[A1 A2] A3] A4] A5].
    split; [exact A1|]. split; [exact A2|]. split; [exact A3|]. split; [intros d E; rewrite E in A4; now apply String.eqb_eq|].
    intros x Hx Nx. specialize (A5 x Hx). apply orb_true_iff in A5 as [A5|A5]; [apply String.eqb_eq in A5; contradiction|now apply negb_true_iff].
  - intros c x H1 H2 H3 H4. specialize (HCC c H1). unfold column_b in HCC. rewrite !andb_true_iff in HCC. destruct HCC as [[[_ H] _] _].
    assert (X : negb (existsb (has_check (auto_check (t_name t) (c_name c))) (g_columns s)) = true).
    { apply (implies_ok _ _ H). apply some_neq in H3. rewrite H3, andb_true_r. now apply negb_true_iff, mem_not_in. }
    apply negb_true_iff, not_true_iff_false in X. apply not_true_iff_false. intros Y. apply X. apply existsb_exists. eauto.
  - intros c H1 H2 H3. specialize (HCC c H1). unfold column_b in HCC. rewrite !andb_true_iff in HCC. destruct HCC as [[_ H] _]. apply (implies_ok _ _ H) in H2. apply mem_in in H3. rewrite H3 in H2. now apply unique_b_ok.
  - intros c H1 H2 H3. specialize (HCC c H1). unfold column_b in HCC. rewrite !andb_true_iff in HCC. destruct HCC as [[_ H] _]. apply (implies_ok _ _ H) in H2. apply mem_not_in in H3. rewrite H3 in H2.
    apply andb_true_iff in H2 as [X Y]. apply negb_true_iff, mem_not_in in X. apply negb_true_iff, mem_not_in in Y. auto.
  - intros k Hk. specialize (HI k Hk). unfold index_b in HI. rewrite !orb_true_iff in HI. destruct HI as [[H|H]|H].
    + left. apply existsb_exists in H as (i & Hi & H). apply andb_true_iff in H as [H1 H2]. apply String.eqb_eq in H1. apply are_same_indexes_spec in H2. eauto.
    + right. left. apply andb_true_iff in H as [H1 H2]. apply negb_true_iff, mem_not_in in H1. split; [exact H1|now apply pg_tolerated_b_ok].
    + right. right. apply andb_true_iff in H as [H1 H2]. apply negb_true_iff, mem_not_in in H2. auto.
  - intros c H1 H2. specialize (HCC c H1). unfold column_b in HCC. rewrite !andb_true_iff in HCC. destruct HCC as [_ H].
    apply String.eqb_neq in H2. assert (X := implies_ok _ _ H). rewrite H2 in X. specialize (X eq_refl). apply existsb_exists in X as (f & Hf & X). rewrite !andb_true_iff in X.
    destruct X as [[X1 X2] X3]. apply yes_true in X1. apply String.eqb_eq in X2. apply negb_true_iff, mem_not_in in X3. exists f. auto.
  - intros f cf H1 H2 H3 H4. specialize (HF f H1). rewrite forallb_forall in HF. specialize (HF cf H2). apply fk_same_b_ok. apply (implies_ok _ _ HF). apply andb_true_iff. split; [now apply String.eqb_eq|now apply are_same_foreign_keys_spec].
  - intros f H1. specialize (HA f H1). apply existsb_exists in HA as (cf & H2 & H3). apply andb_true_iff in H3 as [H3 H4]. apply String.eqb_eq in H3. exists cf. split; [exact H2|]. split; [exact H3|now apply fk_same_b_ok].
  - intros cf H1 H2 H3. specialize (HO cf H1). rewrite !orb_true_iff in HO. destruct HO as [[H|H]|H].
    + apply mem_in in H. contradiction.
    + exfalso. apply H3. unfold fk_tolerated_b in H. apply existsb_exists in H as (c & Hc & H). apply String.eqb_eq in H. exists c. auto.
    + apply andb_true_iff in H as [A B]. apply Nat.eqb_eq in A. apply Nat.eqb_eq in B. auto.
  - intros p cp H1 H2 H3 H4. specialize (HP p H1). rewrite forallb_forall in HP. specialize (HP cp H2). apply policy_same_b_ok. apply (implies_ok _ _ HP). apply andb_true_iff. split; [now apply String.eqb_eq|now apply are_same_policies_spec].
Qed.

Definition pg_starts_b : bool :=
  forallb (fun c => implies (is_unique (c_key c)) (negb (mem (unique_name (t_name t) (c_name c)) (map i_name (indexes_on (t_name t) l))))) (t_columns t) &&
  match fks_on (t_name t) l with [] => true | _ => false end.
Lemma pg_starts_b_ok : pg_starts_b = true -> pg_starts l t.
Proof.
  unfold pg_starts_b. rewrite andb_true_iff, forallb_forall. intros [H1 H2]. constructor.
  - intros c Hc Hu. apply mem_not_in, negb_true_iff. now apply (implies_ok _ _ (H1 c Hc)).
  - now destruct (fks_on (t_name t) l).
Qed.
End Settles.

Definition pg_convertible_b castable replaceable l (c : database pg_tab) : bool :=
  forallb (fun t => forallb (fun s => implies (String.eqb (g_name s) (t_name t)) (pg_settles_b castable l t s)) (db_tables c) &&
                    (mem (t_name t) (map g_name (db_tables c)) || pg_starts_b l t)) (tables_in l) &&
  forallb (fun v => forallb (fun v' => implies (String.eqb (vw_name v') (vw_name v))
                                        (String.eqb (to_lower (vw_definition v')) (to_lower (vw_definition v)) || replaceable v' (vw_definition v)))
                      (db_views c)) (views_in l).
Theorem pg_convertible_b_ok castable replaceable l c : pg_convertible_b castable replaceable l c = true -> pg_convertible castable replaceable l c.
Proof.
  unfold pg_convertible_b. rewrite andb_true_iff, !forallb_forall. intros [HT HV]. constructor.
  - intros t s H1 H2 H3. specialize (HT t H1). apply andb_true_iff in HT as [HT _]. rewrite forallb_forall in HT. apply pg_settles_b_ok. apply (implies_ok _ _ (HT s H2)). now apply String.eqb_eq.
  - intros t H1 H2. specialize (HT t H1). apply andb_true_iff in HT as [_ HT]. apply mem_not_in in H2. rewrite H2 in HT. now apply pg_starts_b_ok.
  - intros v v' H1 H2 H3 H4. specialize (HV v H1). rewrite forallb_forall in HV. specialize (HV v' H2). apply String.eqb_eq in H3. apply (implies_ok _ _ HV) in H3.
    apply orb_true_iff in H3 as [H3|H3]; [|exact H3]. apply String.eqb_eq in H3. contradiction.
Qed.
