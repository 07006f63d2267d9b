(** Boolean tests for the hypotheses of the convergence theorem for SQL Server. *)
From Coq Require Import String Ascii List ZArith Bool Lia SpecFloat.
From Verif Require Import GoStr GoStrFacts Ast Generator SpecPlan SpecColumns SpecMysql SpecDatabase SpecPostgres SpecShownMssql SpecMssql SpecConvergeMs
  ProofPlan ProofCompare ProofColumns ProofOrder ProofMysql ProofPg ProofPgCheck.
Import ListNotations.
Local Open Scope string_scope.
Local Open Scope list_scope.

Definition is_some_ok {A} (o : option A) : is_some o = false -> o = None.
Proof. destruct o; [discriminate|reflexivity]. Qed.
Definition all_of {A} (p : A -> bool) (o : option A) : bool := match o with Some x => p x | None => true end.
Lemma all_of_ok {A} (p : A -> bool) o : all_of p o = true -> forall x, o = Some x -> p x = true.
Proof. intros H x ->. exact H. Qed.
Lemma nat_not_nil {A} (l : list A) : negb (Nat.eqb (length l) 0) = true -> l <> [].
Proof. now destruct l. Qed.
Definition raws_dec (a b : option string) : {a = b} + {a <> b}.
Proof. decide equality. apply string_dec. Defined.
Definition flags_dec (a b : option bool) : {a = b} + {a <> b}.
Proof. decide equality. apply bool_dec. Defined.
Definition numbers_dec (a b : option Z) : {a = b} + {a <> b}.
Proof. decide equality. apply Z.eq_dec. Defined.
Definition starts_dec (a b : option (option Z)) : {a = b} + {a <> b}.
Proof. decide equality. apply numbers_dec. Defined.

Section Test.
Variable w : ms_ways.

(** ** Schemas *)
Definition definition_b (c : column) : bool :=
  all_of (fun k => String.eqb (w_condition w (ck_definition k)) (ck_definition k)) (c_check c) &&
  all_of (fun d => are_same_value (real_default (Some (kept_ms_default w "" d))) (real_default (Some d))) (c_default c).
Lemma definition_b_ok c : definition_b c = true -> ms_definition w c.
Proof.
  unfold definition_b. rewrite andb_true_iff. intros [H1 H2]. split.
  - intros k E. apply String.eqb_eq. exact (all_of_ok _ _ H1 k E).
  - intros d E. apply are_same_value_spec. exact (all_of_ok _ _ H2 d E).
Qed.
Definition columns_b (i : index) : bool := forallb (fun c => mem (ic_direction c) [""; "asc"; "desc"]) (i_columns i).
Lemma columns_b_ok i : columns_b i = true -> ms_index_columns i.
Proof. unfold columns_b. rewrite forallb_forall. intros H c Hc. apply mem_in. now apply H. Qed.
Definition options_b (i : index) : bool :=
  distinct (map io_name (i_options i)) && forallb (fun o => mem (io_name o) (map io_name ms_option_defaults)) (i_options i).
Lemma options_b_ok i : options_b i = true -> ms_index_options i.
Proof. unfold options_b. rewrite andb_true_iff, distinct_spec, forallb_forall. intros [H1 H2]. split; [exact H1|]. intros o Ho. apply mem_in. now apply H2. Qed.
Definition primary_b (i : index) : bool :=
  negb (String.eqb (i_name i) "PRIMARY") && i_unique i && String.eqb (i_where i) "" && yes (strings_dec (i_included i) []) && columns_b i && options_b i.
Lemma primary_b_ok i : primary_b i = true -> ms_primary i.
Proof.
  unfold primary_b. rewrite !andb_true_iff, negb_true_iff, String.eqb_neq, String.eqb_eq. intros (((((A & B) & C) & D) & E) & F). apply yes_true in D.
  split; [exact A|]. split; [exact B|]. split; [exact C|]. split; [exact D|]. split; [now apply columns_b_ok|now apply options_b_ok].
Qed.
Definition secondary_b (t : table) (i : index) : bool :=
  negb (String.eqb (i_name i) "") && negb (i_primary i) && String.eqb (i_where i) "" && negb (Nat.eqb (length (i_columns i)) 0) && columns_b i && options_b i &&
  all_in (index_columns i) (map c_name (t_columns t)).
Lemma secondary_b_ok t i : secondary_b t i = true -> ms_secondary t i.
Proof.
  unfold secondary_b. rewrite !andb_true_iff, String.eqb_eq, all_in_spec. intros ((((((A & B) & C) & D) & E) & F) & G). apply negb_true_iff, String.eqb_neq in A. apply negb_true_iff in B. apply nat_not_nil in D.
  split; [exact A|]. split; [exact B|]. split; [exact C|]. split; [exact D|]. split; [now apply columns_b_ok|]. split; [now apply options_b_ok|exact G].
Qed.
Definition table_b (l : list ddl) (t : table) : bool :=
  is_some (ms_create w t) && forallb definition_b (t_columns t) && forallb primary_b (filter i_primary (t_indexes t)) && forallb (secondary_b t) (ms_indexes l t) &&
  forallb (fun i => yes (strings_dec (i_included i) [])) (inline_indexes t) && distinct (map i_name (ms_indexes l t)) &&
  all_of (fun k => negb (mem (key_name w (t_name t) k) (map i_name (ms_indexes l t)))) (primary_key t).
Lemma table_b_ok l t : table_b l t = true -> ms_table w l t.
Proof.
  unfold table_b. rewrite !andb_true_iff, !forallb_forall, distinct_spec. intros ((((((A & B) & C) & D) & D') & E) & F). constructor.
  - destruct (ms_create w t) as [g|]; [now exists g|discriminate].
  - intros c Hc. apply definition_b_ok. auto.
  - intros i Hi Pi. apply primary_b_ok, C, filter_In. auto.
  - intros i Hi. apply secondary_b_ok. auto.
  - intros i Hi. specialize (D' i Hi). now apply yes_true in D'.
  - exact E.
  - intros k i Hk Hi X. assert (Ek : primary_key t = Some k) by (eapply declares_pk_fun; [apply primary_key_declared|exact Hk]). pose proof (all_of_ok _ _ F k Ek) as G.
    apply negb_true_iff, mem_not_in in G. apply G. rewrite <- X. now apply in_map.
Qed.
Definition statement_b (d : ddl) : bool := match d with AddIndex _ _ _ | AddPrimaryKey _ _ _ | AddForeignKey _ _ _ | AddPolicy _ _ _ => false | _ => true end.
Definition ms_schema_b (l : list ddl) : bool :=
  well_formed l && forallb statement_b l && distinct (created l) && distinct (map tr_name (triggers_in l)) && forallb (table_b l) (tables_in l).
Theorem ms_schema_b_ok l : ms_schema_b l = true -> ms_schema w l.
Proof.
  unfold ms_schema_b. rewrite !andb_true_iff, !forallb_forall, !distinct_spec. intros ((((A & B) & C) & D) & E). constructor; auto.
  - intros d Hd. specialize (B d Hd). now destruct d.
  - intros t Ht. apply table_b_ok. auto.
Qed.

(** ** Databases *)
Definition sound_b (g : ms_tab) : bool :=
  distinct (m_names g) && distinct (map i_name (listed (m_key g) ++ m_indexes g)) && distinct (map fk_constraint (m_fks g)) &&
  forallb (fun c => all_of (fun d => negb (String.eqb (df_constraint d) "")) (c_default c) && negb (c_check_no_inherit c) && negb (c_autoinc c) &&
                    match c_key c with KeyNone => true | _ => false end &&
                    all_of (fun i => String.eqb (id_behavior i) "" && negb (is_some (c_default c))) (c_identity c)) (m_columns g) &&
  all_of (fun k => i_primary k && negb (Nat.eqb (length (i_columns k)) 0)) (m_key g) &&
  forallb (fun k => negb (i_primary k) && negb (Nat.eqb (length (i_columns k)) 0)) (m_indexes g) &&
  forallb (fun f => negb (String.eqb (fk_ref_name f) "")) (m_fks g).
Lemma sound_b_ok g : sound_b g = true -> ms_sound g.
Proof.
  unfold sound_b. rewrite !andb_true_iff, !forallb_forall, !distinct_spec. intros ((((((A & B) & C) & D) & E) & F) & G). constructor; auto.
  - intros c d Hc Ed. specialize (D c Hc). rewrite !andb_true_iff in D. destruct D as ((((D & _) & _) & _) & _). pose proof (all_of_ok _ _ D d Ed) as X. now apply negb_true_iff, String.eqb_neq in X.
  - intros c Hc. specialize (D c Hc). rewrite !andb_true_iff, !negb_true_iff in D. destruct D as ((((_ & D1) & D2) & D3) & D4). split; [exact D1|]. split; [exact D2|]. split; [now destruct (c_key c)|].
    intros i Ei. pose proof (all_of_ok _ _ D4 i Ei) as X. cbn beta in X. rewrite andb_true_iff, String.eqb_eq, negb_true_iff in X. destruct X as [X1 X2]. split; [exact X1|now apply is_some_ok].
  - intros k Ek. pose proof (all_of_ok _ _ E k Ek) as X. cbn beta in X. rewrite andb_true_iff in X. destruct X as [X1 X2]. split; [exact X1|now apply nat_not_nil].
  - intros k Hk. specialize (F k Hk). rewrite andb_true_iff in F. destruct F as [X1 X2]. split; [now apply negb_true_iff|now apply nat_not_nil].
  - intros f Hf. specialize (G f Hf). now apply negb_true_iff, String.eqb_neq in G.
Qed.
Definition ms_database_b (c : database ms_tab) : bool :=
  distinct (map m_name (db_tables c)) && distinct (map vw_name (db_views c)) && distinct (map tr_name (db_triggers c)) && forallb sound_b (db_tables c).
Theorem ms_database_b_ok c : ms_database_b c = true -> ms_database_ok c.
Proof.
  unfold ms_database_b. rewrite !andb_true_iff, !forallb_forall, !distinct_spec. intros (((A & B) & C) & D). constructor; auto. intros g Hg. apply sound_b_ok. auto.
Qed.

(** ** The two together *)
Definition required_b (t : table) (c : column) : bool :=
  yes (flags_dec (c_notnull c) (Some true)) || is_some (c_identity c) || is_primary_key c t.
Lemma required_b_ok t c : required_b t c = true <-> ms_required t c.
Proof.
  unfold required_b, ms_required. rewrite !orb_true_iff, in_primary_key_spec, some_neq. unfold yes. destruct (flags_dec (c_notnull c) (Some true)); intuition congruence.
Qed.
Definition kind_b (t : table) (s c : column) : bool :=
  String.eqb (c_type s) (c_type c) && yes (raws_dec (option_map v_raw (c_length s)) (option_map v_raw (c_length c))) &&
  yes (raws_dec (option_map v_raw (c_scale s)) (option_map v_raw (c_scale c))) &&
  Bool.eqb (yes (flags_dec (c_notnull s) (Some true))) (required_b t c) &&
  yes (flags_dec (option_map id_not_for_replication (c_identity s)) (option_map id_not_for_replication (c_identity c))) &&
  yes (starts_dec (option_map sq_start_with (c_sequence s)) (option_map sq_start_with (c_sequence c))) &&
  yes (starts_dec (option_map sq_increment_by (c_sequence s)) (option_map sq_increment_by (c_sequence c))).
Lemma kind_b_ok t s c : kind_b t s c = true -> ms_same_kind t s c.
Proof.
  unfold kind_b. rewrite !andb_true_iff, String.eqb_eq, eqb_true_iff. intros ((((((A & B) & C) & D) & E) & F) & G).
  split; [exact A|]. split; [now apply yes_true in B|]. split; [now apply yes_true in C|]. split.
  - rewrite <- required_b_ok, <- D. unfold yes. destruct (flags_dec (c_notnull s) (Some true)); intuition congruence.
  - split; [now apply yes_true in E|]. split; [now apply yes_true in F|now apply yes_true in G].
Qed.
Definition ms_fk_same_b (a b : foreign_key) : bool :=
  are_same_foreign_keys Mssql a b && yes (strings_dec (fk_index_columns a) (fk_index_columns b)) &&
  String.eqb (fk_ref_name a) (fk_ref_name b) && yes (strings_dec (fk_ref_columns a) (fk_ref_columns b)).
Lemma ms_fk_same_b_ok a b : ms_fk_same_b a b = true -> ms_fk_same a b.
Proof.
  unfold ms_fk_same_b. rewrite !andb_true_iff, are_same_foreign_keys_spec, String.eqb_eq. intros [[[H1 H2] H3] H4]. apply yes_true in H2. apply yes_true in H4.
  split; [exact H1|]. split; [exact H2|]. split; [exact H3|exact H4].
Qed.

Section Settles.
Variables (l : list ddl) (t : table) (s : ms_tab).
Definition ms_pair_b (c cc : column) : bool :=
  kind_b t cc c && implies (negb (are_same_default (c_default cc) (c_default c))) (default_written w (c_default c)) &&
  implies (negb (check_b cc c))
    (all_of (fun k => w_bare w (ck_constraint k)) (c_check cc) && all_of (fun k => w_bare w (ms_planned_check t c k)) (c_check c)).
Definition ms_column_b (c : column) : bool :=
  forallb (fun cc => implies (String.eqb (c_name cc) (c_name c)) (ms_pair_b c cc)) (m_columns s) &&
  (mem (c_name c) (m_names s) ||
   (default_written w (c_default c) && implies (is_primary_key c t) (ms_says_required c) && implies (is_some (c_identity c)) (forallb (fun cc => negb (is_some (c_identity cc))) (m_columns s)))).
Definition ms_settles_b : bool :=
  forallb ms_column_b (t_columns t) &&
  forallb (fun cc => mem (c_name cc) (map c_name (t_columns t)) || negb (is_some (c_check cc))) (m_columns s) &&
  all_of (fun k => all_of (fun i => are_same_indexes k i && (String.eqb (i_name i) "PRIMARY" || String.eqb (i_name k) (i_name i))) (primary_key t) &&
                   negb (mem (i_name k) (map i_name (ms_indexes l t)))) (m_key s) &&
  (is_some (m_key s) || all_of (fun i => negb (mem (key_name w (t_name t) i) (map i_name (m_indexes s)))) (primary_key t)) &&
  forallb (fun k => negb (mem (i_name k) (map fk_constraint (t_fks t)))) (listed (m_key s) ++ m_indexes s) &&
  forallb (fun f => forallb (fun cf => implies (String.eqb (fk_constraint cf) (fk_constraint f) && are_same_foreign_keys Mssql cf f) (ms_fk_same_b cf f)) (m_fks s)) (t_fks t).

Theorem ms_settles_b_ok : ms_settles_b = true -> ms_settles w l t s.
Proof.
  unfold ms_settles_b. rewrite !andb_true_iff, !forallb_forall. intros (((((HC & HD) & HK) & HN) & HI) & HF).
  assert (Hpair : forall c cc, In c (t_columns t) -> In cc (m_columns s) -> c_name cc = c_name c -> ms_pair_b c cc = true).
  { intros c cc H1 H2 H3. specialize (HC c H1). unfold ms_column_b in HC. rewrite andb_true_iff, forallb_forall in HC. destruct HC as [HC _]. apply (implies_ok _ _ (HC cc H2)). now apply String.eqb_eq. }
  assert (Hnew : forall c, In c (t_columns t) -> ~ In (c_name c) (m_names s) ->
    (default_written w (c_default c) = true /\ implies (is_primary_key c t) (ms_says_required c) = true) /\ implies (is_some (c_identity c)) (forallb (fun cc => negb (is_some (c_identity cc))) (m_columns s)) = true).
  { intros c H1 H2. specialize (HC c H1). unfold ms_column_b in HC. rewrite andb_true_iff in HC. destruct HC as [_ HC]. apply mem_not_in in H2. rewrite H2 in HC. cbn [orb] in HC. now rewrite !andb_true_iff in HC. }
  assert (Hdecl : forall i, declares_pk t (Some i) -> primary_key t = Some i) by (intros i Hi; eapply declares_pk_fun; [apply primary_key_declared|exact Hi]).
  constructor.
  - intros c cc H1 H2 H3. pose proof (Hpair c cc H1 H2 H3) as P. unfold ms_pair_b in P. rewrite !andb_true_iff in P. destruct P as [[P _] _]. now apply kind_b_ok.
  - intros c H1 H2 H3. destruct (Hnew c H1 H2) as [[_ P] _]. apply (implies_ok _ _ P). now apply in_primary_key_spec.
  - intros c cc H1 H2 H3 H4. destruct (Hnew c H1 H2) as [_ P]. apply some_neq in H3. apply (implies_ok _ _ P) in H3. rewrite forallb_forall in H3. specialize (H3 cc H4). apply negb_true_iff in H3. now apply is_some_ok.
  - intros c H1 H2. exact (proj1 (proj1 (Hnew c H1 H2))).
  - intros c cc H1 H2 H3 H4. pose proof (Hpair c cc H1 H2 H3) as P. unfold ms_pair_b in P. rewrite !andb_true_iff in P. destruct P as [[_ P] _].
    apply (implies_ok _ _ P). apply negb_true_iff, not_true_iff_false. intros X. apply H4. now apply default_spec.
  - intros c cc H1 H2 H3 H4. pose proof (Hpair c cc H1 H2 H3) as P. unfold ms_pair_b in P. apply andb_true_iff in P as [_ P].
    assert (Hn : negb (check_b cc c) = true) by (apply negb_true_iff, not_true_iff_false; intros X; apply H4; now apply check_spec). apply (implies_ok _ _ P) in Hn. apply andb_true_iff in Hn as [N1 N2].
    split; [exact (all_of_ok _ _ N1)|exact (all_of_ok _ _ N2)].
  - intros cc H1 H2. specialize (HD cc H1). apply mem_not_in in H2. rewrite H2 in HD. apply negb_true_iff in HD. now apply is_some_ok.
  - intros k i Ek Hi. pose proof (all_of_ok _ _ HK k Ek) as P. cbn beta in P. apply andb_true_iff in P as [P _]. pose proof (all_of_ok _ _ P i (Hdecl i Hi)) as Q. cbn beta in Q.
    rewrite andb_true_iff, orb_true_iff, !String.eqb_eq, are_same_indexes_spec in Q. exact Q.
  - intros k Ek. pose proof (all_of_ok _ _ HK k Ek) as P. cbn beta in P. apply andb_true_iff in P as [_ P]. now apply negb_true_iff, mem_not_in in P.
  - intros i Ek Hi. rewrite Ek in HN. cbn [is_some orb] in HN. pose proof (all_of_ok _ _ HN i (Hdecl i Hi)) as Q. cbn beta in Q. now apply negb_true_iff, mem_not_in in Q.
  - intros k Hk. specialize (HI k Hk). now apply negb_true_iff, mem_not_in in HI.
  - intros f cf H1 H2 H3 H4. specialize (HF f H1). rewrite forallb_forall in HF. apply ms_fk_same_b_ok. apply (implies_ok _ _ (HF cf H2)). apply andb_true_iff. split; [now apply String.eqb_eq|now apply are_same_foreign_keys_spec].
Qed.
End Settles.

Definition ms_convertible_b (l : list ddl) (c : database ms_tab) : bool :=
  forallb (fun t => forallb (fun s => implies (String.eqb (m_name s) (t_name t)) (ms_settles_b l t s)) (db_tables c)) (tables_in l) &&
  forallb (fun x => mem (tr_name x) (map tr_name (triggers_in l))) (db_triggers c).
Theorem ms_convertible_b_ok l c : ms_convertible_b l c = true -> ms_convertible w l c.
Proof.
  unfold ms_convertible_b. rewrite andb_true_iff, !forallb_forall. intros [HT HR]. constructor.
  - intros t s H1 H2 H3. specialize (HT t H1). rewrite forallb_forall in HT. apply ms_settles_b_ok. apply (implies_ok _ _ (HT s H2)). now apply String.eqb_eq.
  - intros n Hn. apply in_map_iff in Hn as (x & <- & Hx). apply mem_in. now apply HR.
Qed.
End Test.
