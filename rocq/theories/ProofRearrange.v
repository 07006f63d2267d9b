(** Proofs for C103: the order of the statements of a file does not matter. *)
From Coq Require Import String Ascii List ZArith Bool Permutation.
From Verif Require Import GoStr Ast Generator Catalog SpecPlan SpecColumns SpecOrder SpecMysql SpecDatabase SpecPostgres SpecMssql
  SpecConverge SpecConvergePg SpecConvergeMs SpecAgree ProofNoop ProofPgSettle ProofMsSettle ProofAgree SpecSqlite SchemaText Parser Planner AdapterSqlite ProofSqlite ProofSqliteRun SpecPlannable ProofPlannable.
Import ListNotations.
Local Open Scope string_scope.
Local Open Scope list_scope.

Section Rearranged.
Context (l l' : list ddl) (P : Permutation l l').

Lemma p_tables : Permutation (tables_in l) (tables_in l').
Proof. apply Permutation_flat_map, P. Qed.
Lemma p_views : Permutation (views_in l) (views_in l').
Proof. apply Permutation_flat_map, P. Qed.
Lemma p_triggers : Permutation (triggers_in l) (triggers_in l').
Proof. apply Permutation_flat_map, P. Qed.
Lemma p_indexes n : Permutation (indexes_on n l) (indexes_on n l').
Proof. apply Permutation_flat_map, P. Qed.
Lemma p_fks n : Permutation (fks_on n l) (fks_on n l').
Proof. apply Permutation_flat_map, P. Qed.
Lemma p_policies n : Permutation (policies_on n l) (policies_on n l').
Proof. apply Permutation_flat_map, P. Qed.
Lemma p_created : Permutation (created l) (created l').
Proof. apply Permutation_map, p_tables. Qed.
Lemma p_keys t : Permutation (all_keys l t) (all_keys l' t).
Proof. apply Permutation_app_head, p_indexes. Qed.
Lemma p_ms_indexes t : Permutation (ms_indexes l t) (ms_indexes l' t).
Proof. apply Permutation_app_head, p_indexes. Qed.
Lemma p_all_fks t : Permutation (all_fks l t) (all_fks l' t).
Proof. apply Permutation_app_head, p_fks. Qed.
End Rearranged.

Lemma perm_in {A} (a b : list A) x : Permutation a b -> In x b -> In x a.
Proof. intros P. apply Permutation_in. now symmetry. Qed.
Lemma perm_map_in {A} (f : A -> string) (a b : list A) x : Permutation a b -> In x (map f b) -> In x (map f a).
Proof. intros P. apply perm_in. now apply Permutation_map. Qed.
Lemma perm_map_iff {A} (f : A -> string) (a b : list A) x : Permutation a b -> In x (map f a) <-> In x (map f b).
Proof. intros P. split; apply perm_map_in; [now symmetry|exact P]. Qed.
Lemma perm_distinct {A} (f : A -> string) (a b : list A) : Permutation a b -> NoDup (map f a) -> NoDup (map f b).
Proof. intros P. apply Permutation_NoDup. now apply Permutation_map. Qed.
Lemma perm_nil {A} (a b : list A) : Permutation a b -> b <> [] -> a <> [].
Proof. intros P N ->. apply Permutation_nil in P. contradiction. Qed.

Lemma used_nil {A} (a b : list A) : Permutation a b -> a = [] -> b = [].
Proof. intros P ->. now apply Permutation_nil. Qed.

(** ** MySQL *)
Section Mysql.
Context (l l' : list ddl) (P : Permutation l l').
Let Q : Permutation l' l := Permutation_sym P.

Lemma my_schema_moved : well_formed l' = true -> mysql_schema l -> mysql_schema l'.
Proof.
  intros W S. constructor.
  - exact W.
  - intros d D. exact (ms_statements _ S d (perm_in _ _ _ P D)).
  - exact (Permutation_NoDup (p_created _ _ P) (ms_created _ S)).
  - exact (perm_distinct tr_name _ _ (p_triggers _ _ P) (ms_triggers _ S)).
  - intros t T. assert (H := ms_tables _ S t (perm_in _ _ _ (p_tables _ _ P) T)). constructor.
    + exact (mt_names _ _ H).
    + exact (perm_distinct i_name _ _ (p_keys _ _ P t) (SpecConverge.mt_keys _ _ H)).
    + exact (mt_numbered _ _ H).
    + exact (SpecConverge.mt_fks _ _ H).
    + exact (mt_fk_names _ _ H).
    + exact (mt_policies _ _ H).
    + exact (SpecConverge.mt_columns _ _ H).
    + intros i I. exact (mt_key _ _ H i (perm_in _ _ _ (p_keys _ _ P t) I)).
    + intros i x I. exact (mt_key_columns _ _ H i x (perm_in _ _ _ (p_keys _ _ P t) I)).
    + exact (SpecConverge.mt_inline _ _ H).
    + intros i I. exact (mt_separate _ _ H i (perm_in _ _ _ (p_indexes _ _ P (t_name t)) I)).
    + exact (SpecConverge.mt_primary _ _ H).
    + exact (mt_integrity _ _ H).
Qed.

Lemma my_convertible_moved a : convertible l a -> convertible l' a.
Proof.
  intros [C G]. split.
  - intros t s T S E. assert (H := C t s (perm_in _ _ _ (p_tables _ _ P) T) S E). constructor.
    + exact (se_order _ _ _ H).
    + exact (se_loses _ _ _ H).
    + intros c cc C1 C2 E1 A1 A2. destruct (se_keeps _ _ _ H c cc C1 C2 E1 A1 A2) as (k & i & rest & K1 & K2 & K3 & K4).
      exists k, i, rest. split; [exact K1|]. split; [exact K2|]. split; [exact (perm_in _ _ _ (p_keys _ _ Q t) K3)|exact K4].
    + exact (se_unique _ _ _ H).
    + intros k x K N. apply (se_tolerated _ _ _ H k x K). intros I. apply N. exact (perm_map_in i_name _ _ _ (p_keys _ _ Q t) I).
    + exact (se_primary _ _ _ H).
    + exact (se_fks _ _ _ H).
  - intros n I. exact (perm_map_in tr_name _ _ _ (p_triggers _ _ Q) (G n I)).
Qed.

Lemma my_reached_moved a : reached l a -> reached l' a.
Proof.
  intros R. constructor.
  - intros n. rewrite (re_tables _ _ R). split; apply perm_in; [exact (p_created _ _ Q)|exact (p_created _ _ P)].
  - intros t T. destruct (re_table _ _ R t (perm_in _ _ _ (p_tables _ _ P) T)) as (s & S & E & H). exists s. split; [exact S|]. split; [exact E|]. constructor.
    + exact (tr_columns _ _ _ H).
    + intros i I. exact (tr_keys _ _ _ H i (perm_in _ _ _ (p_keys _ _ P t) I)).
    + intros k K. destruct (tr_other_keys _ _ _ H k K) as [X|X]; [left; exact (perm_map_in i_name _ _ _ (p_keys _ _ Q t) X)|now right].
    + exact (tr_fks _ _ _ H).
    + exact (tr_other_fks _ _ _ H).
  - intros n. rewrite (re_views _ _ R). exact (perm_map_iff vw_name _ _ n (p_views _ _ P)).
  - intros v V. exact (re_view _ _ R v (perm_in _ _ _ (p_views _ _ P) V)).
  - intros n. rewrite (re_triggers _ _ R). exact (perm_map_iff tr_name _ _ n (p_triggers _ _ P)).
  - intros v V. exact (re_trigger _ _ R v (perm_in _ _ _ (p_triggers _ _ P) V)).
Qed.
End Mysql.

Theorem my_rearranged l l' a out out' :
  Permutation l l' -> well_formed l' = true -> mysql_schema l -> catalogue_ok a -> convertible l a ->
  plan Mysql l (dump a) = Ok out -> plan Mysql l' (dump a) = Ok out' ->
  exists b b', run_all out a = Some b /\ run_all out' a = Some b' /\ my_agree l b b' /\ my_agree l b' b /\
    plan Mysql l' (dump b) = Ok [] /\ plan Mysql l (dump b') = Ok [].
Proof.
  intros P W S K V E E'. assert (S' := my_schema_moved l l' P W S). assert (V' := my_convertible_moved l l' P a V).
  destruct (converges l a out S K V E) as (b & RB & HB & OB & _). destruct (converges l' a out' S' K V' E') as (b' & RB' & HB' & OB' & _).
  assert (HC : reached l b') by exact (my_reached_moved l' l (Permutation_sym P) b' HB'). assert (HD : reached l' b) by exact (my_reached_moved l l' P b HB).
  exists b, b'. split; [exact RB|]. split; [exact RB'|]. split; [now apply my_both|]. split; [now apply my_both|].
  split; [now apply nothing_more|now apply nothing_more].
Qed.

(** ** PostgreSQL *)
Section Postgres.
Context (castable : column -> column -> bool) (replaceable : view -> string -> bool) (l l' : list ddl) (P : Permutation l l').
Let Q : Permutation l' l := Permutation_sym P.

Lemma pg_schema_moved : well_formed l' = true -> pg_schema l -> pg_schema l'.
Proof.
  intros W S. constructor.
  - exact W.
  - intros d D. exact (ps_statements _ S d (perm_in _ _ _ P D)).
  - exact (Permutation_NoDup (p_created _ _ P) (ps_created _ S)).
  - intros t T. assert (H := ps_tables _ S t (perm_in _ _ _ (p_tables _ _ P) T)). constructor.
    + exact (pt_create _ _ H).
    + exact (pt_columns _ _ H).
    + exact (pt_primary _ _ H).
    + intros i I. exact (pt_index _ _ H i (perm_in _ _ _ (p_indexes _ _ P (t_name t)) I)).
    + exact (perm_distinct i_name _ _ (p_indexes _ _ P (t_name t)) (pt_indexes _ _ H)).
    + exact (perm_distinct fk_constraint _ _ (p_all_fks _ _ P t) (pt_fks _ _ H)).
    + intros f x F. exact (pt_fk_columns _ _ H f x (perm_in _ _ _ (p_fks _ _ P (t_name t)) F)).
    + exact (perm_distinct p_name _ _ (p_policies _ _ P (t_name t)) (pt_policies _ _ H)).
    + intros N. exact (pt_policy _ _ H (perm_nil _ _ (p_policies _ _ P (t_name t)) N)).
Qed.

Lemma pg_tolerated_moved t k : pg_tolerated l t k -> pg_tolerated l' t k.
Proof.
  intros [(f & F & H)|H]; [left|now right]. exists f. split; [exact (perm_in _ _ _ (p_all_fks _ _ Q t) F)|exact H].
Qed.

Lemma pg_convertible_moved a : pg_convertible castable replaceable l a -> pg_convertible castable replaceable l' a.
Proof.
  intros C. constructor.
  - intros t s T S E. assert (H := cv_kept _ _ _ _ C t s (perm_in _ _ _ (p_tables _ _ P) T) S E). constructor.
    + exact (sp_type _ _ _ _ H).
    + exact (sp_null _ _ _ _ H).
    + exact (sp_identity _ _ _ _ H).
    + exact (sp_add_identity _ _ _ _ H).
    + exact (sp_check _ _ _ _ H).
    + exact (sp_new_check _ _ _ _ H).
    + exact (sp_unique _ _ _ _ H).
    + intros c C1 U N. destruct (sp_new_unique _ _ _ _ H c C1 U N) as [X Y]. split; [exact X|]. intros I. apply Y. exact (perm_map_in i_name _ _ _ (p_indexes _ _ P (t_name t)) I).
    + intros k K. destruct (sp_index _ _ _ _ H k K) as [(i & I & X)|[[X Y]|X]].
      * left. exists i. split; [exact (perm_in _ _ _ (p_indexes _ _ Q (t_name t)) I)|exact X].
      * right; left. split; [|now apply pg_tolerated_moved]. intros I. apply X. exact (perm_map_in i_name _ _ _ (p_indexes _ _ P (t_name t)) I).
      * right; right. exact X.
    + exact (sp_references _ _ _ _ H).
    + exact (sp_fks _ _ _ _ H).
    + intros f F. exact (sp_added_fks _ _ _ _ H f (perm_in _ _ _ (p_fks _ _ P (t_name t)) F)).
    + intros cf F N. apply (sp_obsolete_fks _ _ _ _ H cf F). intros I. apply N. exact (perm_map_in fk_constraint _ _ _ (p_all_fks _ _ Q t) I).
    + intros p cp I. exact (sp_policies _ _ _ _ H p cp (perm_in _ _ _ (p_policies _ _ P (t_name t)) I)).
  - intros t T N. assert (H := cv_new _ _ _ _ C t (perm_in _ _ _ (p_tables _ _ P) T) N). constructor.
    + intros c C1 U I. exact (sn_unique _ _ H c C1 U (perm_map_in i_name _ _ _ (p_indexes _ _ P (t_name t)) I)).
    + exact (used_nil _ _ (p_fks _ _ P (t_name t)) (sn_fks _ _ H)).
  - intros v v' V. exact (cv_views _ _ _ _ C v v' (perm_in _ _ _ (p_views _ _ P) V)).
Qed.

Lemma pg_reached_moved a : db_reached l a -> db_reached l' a.
Proof.
  intros R. constructor.
  - intros n. rewrite (dr_tables _ _ R). split; apply perm_in; [exact (p_created _ _ Q)|exact (p_created _ _ P)].
  - intros t T. destruct (dr_table _ _ R t (perm_in _ _ _ (p_tables _ _ P) T)) as (s & S & E & H). exists s. split; [exact S|]. split; [exact E|]. constructor.
    + exact (pr_column _ _ _ H).
    + exact (pr_other_columns _ _ _ H).
    + exact (pr_pk _ _ _ H).
    + intros i I. exact (pr_index _ _ _ H i (perm_in _ _ _ (p_indexes _ _ P (t_name t)) I)).
    + intros k K. destruct (pr_other_indexes _ _ _ H k K) as [X|X]; [left; exact (perm_map_in i_name _ _ _ (p_indexes _ _ Q (t_name t)) X)|right; now apply pg_tolerated_moved].
    + exact (pr_unique _ _ _ H).
    + intros f F. exact (pr_fk _ _ _ H f (perm_in _ _ _ (p_all_fks _ _ P t) F)).
    + exact (pr_references _ _ _ H).
    + intros f F. destruct (pr_other_fks _ _ _ H f F) as [X|X]; [left; exact (perm_map_in fk_constraint _ _ _ (p_all_fks _ _ Q t) X)|now right].
    + intros p I. exact (pr_policy _ _ _ H p (perm_in _ _ _ (p_policies _ _ P (t_name t)) I)).
    + intros p I. exact (perm_map_in p_name _ _ _ (p_policies _ _ Q (t_name t)) (pr_other_policies _ _ _ H p I)).
  - intros n. rewrite (dr_views _ _ R). exact (perm_map_iff vw_name _ _ n (p_views _ _ P)).
  - intros v V. exact (dr_view _ _ R v (perm_in _ _ _ (p_views _ _ P) V)).
Qed.
End Postgres.

Theorem pg_rearranged castable replaceable l l' a out out' :
  Permutation l l' -> well_formed l' = true -> pg_schema l -> database_ok a -> pg_convertible castable replaceable l a ->
  plan Postgres l (pg_dump a) = Ok out -> plan Postgres l' (pg_dump a) = Ok out' ->
  exists b b', execute_all g_name pg_create (pg_alter castable) replaceable out a = Some b /\
    execute_all g_name pg_create (pg_alter castable) replaceable out' a = Some b' /\ pg_agree l b b' /\ pg_agree l b' b /\
    plan Postgres l' (pg_dump b) = Ok [] /\ plan Postgres l (pg_dump b') = Ok [].
Proof.
  intros P W S K V E E'. assert (S' := pg_schema_moved l l' P W S). assert (V' := pg_convertible_moved castable replaceable l l' P a V).
  destruct (pg_converges castable replaceable l a out S K V E) as (b & RB & HB & OB & _). destruct (pg_converges castable replaceable l' a out' S' K V' E') as (b' & RB' & HB' & OB' & _).
  assert (HC : db_reached l b') by exact (pg_reached_moved l' l (Permutation_sym P) b' HB'). assert (HD : db_reached l' b) by exact (pg_reached_moved l l' P b HB).
  exists b, b'. split; [exact RB|]. split; [exact RB'|]. split; [now apply pg_both|]. split; [now apply pg_both|].
  split; [now apply pg_nothing_more|now apply pg_nothing_more].
Qed.

(** ** SQL Server *)
Section Mssql.
Context (w : ms_ways) (l l' : list ddl) (P : Permutation l l').
Let Q : Permutation l' l := Permutation_sym P.

Lemma ms_schema_moved : well_formed l' = true -> ms_schema w l -> ms_schema w l'.
Proof.
  intros W S. constructor.
  - exact W.
  - intros d D. exact (mc_statements _ _ S d (perm_in _ _ _ P D)).
  - exact (Permutation_NoDup (p_created _ _ P) (mc_created _ _ S)).
  - exact (perm_distinct tr_name _ _ (p_triggers _ _ P) (mc_triggers _ _ S)).
  - intros t T. assert (H := mc_tables _ _ S t (perm_in _ _ _ (p_tables _ _ P) T)). constructor.
    + exact (mt_create _ _ _ H).
    + exact (mt_columns _ _ _ H).
    + exact (mt_primary _ _ _ H).
    + intros i I. exact (mt_index _ _ _ H i (perm_in _ _ _ (p_ms_indexes _ _ P t) I)).
    + exact (mt_inline _ _ _ H).
    + exact (perm_distinct i_name _ _ (p_ms_indexes _ _ P t) (mt_indexes _ _ _ H)).
    + intros k i D I. exact (mt_key_name _ _ _ H k i D (perm_in _ _ _ (p_ms_indexes _ _ P t) I)).
Qed.

Lemma ms_convertible_moved a : ms_convertible w l a -> ms_convertible w l' a.
Proof.
  intros C. constructor.
  - intros t s T S E. assert (H := mv_kept _ _ _ C t s (perm_in _ _ _ (p_tables _ _ P) T) S E). constructor.
    + exact (ss_kind _ _ _ _ H).
    + exact (ss_new _ _ _ _ H).
    + exact (ss_identity _ _ _ _ H).
    + exact (ss_new_default _ _ _ _ H).
    + exact (ss_default _ _ _ _ H).
    + exact (ss_check _ _ _ _ H).
    + exact (ss_dropped _ _ _ _ H).
    + exact (ss_key _ _ _ _ H).
    + intros k K I. exact (ss_key_name _ _ _ _ H k K (perm_map_in i_name _ _ _ (p_ms_indexes _ _ P t) I)).
    + exact (ss_new_key_name _ _ _ _ H).
    + exact (ss_names _ _ _ _ H).
    + exact (ss_fks _ _ _ _ H).
  - intros n I. exact (perm_map_in tr_name _ _ _ (p_triggers _ _ Q) (mv_triggers _ _ _ C n I)).
Qed.

Lemma ms_reached_moved a : ms_db_reached l a -> ms_db_reached l' a.
Proof.
  intros R. constructor.
  - intros n. rewrite (md_tables _ _ R). split; apply perm_in; [exact (p_created _ _ Q)|exact (p_created _ _ P)].
  - intros t T. destruct (md_table _ _ R t (perm_in _ _ _ (p_tables _ _ P) T)) as (s & S & E & H). exists s. split; [exact S|]. split; [exact E|]. constructor.
    + exact (mr_column _ _ _ H).
    + exact (mr_other_columns _ _ _ H).
    + exact (mr_key _ _ _ H).
    + intros i I. exact (mr_index _ _ _ H i (perm_in _ _ _ (p_ms_indexes _ _ P t) I)).
    + intros k K. exact (perm_map_in i_name _ _ _ (p_ms_indexes _ _ Q t) (mr_other_indexes _ _ _ H k K)).
    + exact (mr_fk _ _ _ H).
    + exact (mr_other_fks _ _ _ H).
  - intros n. rewrite (md_views _ _ R). exact (perm_map_iff vw_name _ _ n (p_views _ _ P)).
  - intros v V. exact (md_view _ _ R v (perm_in _ _ _ (p_views _ _ P) V)).
  - intros n. rewrite (md_triggers _ _ R). exact (perm_map_iff tr_name _ _ n (p_triggers _ _ P)).
  - intros v V. exact (md_trigger _ _ R v (perm_in _ _ _ (p_triggers _ _ P) V)).
Qed.
End Mssql.

Theorem ms_rearranged w replaceable l l' a out out' :
  Permutation l l' -> well_formed l' = true -> ms_names_given w -> ms_schema w l -> ms_database_ok a -> ms_convertible w l a ->
  plan Mssql l (ms_shown a) = Ok out -> plan Mssql l' (ms_shown a) = Ok out' ->
  exists b b', execute_all m_name (ms_create w) (ms_alter w) replaceable out a = Some b /\
    execute_all m_name (ms_create w) (ms_alter w) replaceable out' a = Some b' /\ ms_agree l b b' /\ ms_agree l b' b /\
    plan Mssql l' (ms_shown b) = Ok [] /\ plan Mssql l (ms_shown b') = Ok [].
Proof.
  intros P W G S K V E E'. assert (S' := ms_schema_moved w l l' P W S). assert (V' := ms_convertible_moved w l l' P a V).
  destruct (ms_converges w replaceable l a out G S K V E) as (b & RB & HB & OB & _). destruct (ms_converges w replaceable l' a out' G S' K V' E') as (b' & RB' & HB' & OB' & _).
  assert (HC : ms_db_reached l b') by exact (ms_reached_moved l' l (Permutation_sym P) b' HB'). assert (HD : ms_db_reached l' b) by exact (ms_reached_moved l l' P b HB).
  exists b, b'. split; [exact RB|]. split; [exact RB'|]. split; [now apply ms_both|]. split; [now apply ms_both|].
  split; [exact (ms_nothing_more w l' b S' OB HD)|exact (ms_nothing_more w l b' S OB' HC)].
Qed.

(** ** SQLite *)
Section Sqlite.
Context (l l' : list ddl) (P : Permutation l l').
Let Q : Permutation l' l := Permutation_sym P.

Lemma p_inline {A} (f : table -> list A) n : Permutation (inline f n l) (inline f n l').
Proof. unfold inline. apply Permutation_flat_map, p_tables, P. Qed.
Lemma p_objects : Permutation (created l ++ map vw_name (views_in l)) (created l' ++ map vw_name (views_in l')).
Proof. apply Permutation_app; [exact (p_created _ _ P)|apply Permutation_map, p_views, P]. Qed.

Lemma lite_schema_moved : lite_schema l -> lite_schema l'.
Proof.
  intros S. constructor.
  - intros d D. exact (ls_statements _ S d (perm_in _ _ _ P D)).
  - exact (Permutation_NoDup p_objects (ls_names _ S)).
  - destruct (ls_settled _ S) as (A & B & C). split; [exact (Permutation_NoDup (p_created _ _ P) A)|]. split; [exact (perm_distinct tr_name _ _ (p_triggers _ _ P) B)|].
    intros d D. assert (H := C d (perm_in _ _ _ P D)). unfold settled_ddl in *. destruct d; try exact H.
    destruct H as (H1 & H2 & H3 & H4 & H5). split; [exact H1|]. unfold index_names_of, fk_names_of, policy_names_of in *.
    split; [refine (perm_distinct i_name _ _ _ H2); apply Permutation_app; [apply p_inline|apply p_indexes, P]|].
    split; [refine (perm_distinct fk_constraint _ _ _ H3); apply Permutation_app; [apply p_inline|apply p_fks, P]|].
    split; [refine (perm_distinct p_name _ _ _ H4); apply Permutation_app; [apply p_inline|apply p_policies, P]|exact H5].
Qed.

Lemma lite_convertible_moved a : lite_convertible l a -> lite_convertible l' a.
Proof.
  intros C. constructor.
  - intros t o T. exact (lc_tables _ _ C t o (perm_in _ _ _ (p_tables _ _ P) T)).
  - intros v o V. exact (lc_views _ _ C v o (perm_in _ _ _ (p_views _ _ P) V)).
  - intros r R I. exact (lc_free _ _ C r R (perm_in _ _ _ p_objects I)).
Qed.

Lemma lite_reached_moved a : lite_reached l a -> lite_reached l' a.
Proof.
  intros R. constructor.
  - intros t T. exact (lh_table _ _ R t (perm_in _ _ _ (p_tables _ _ P) T)).
  - intros v V. exact (lh_view _ _ R v (perm_in _ _ _ (p_views _ _ P) V)).
  - intros n o H. exact (perm_in _ _ _ (Permutation_sym p_objects) (lh_other _ _ R n o H)).
Qed.
End Sqlite.

Theorem lite_rearranged file file' l l' a current :
  Permutation l l' -> parse_file SQLite3 file = Ok l -> parse_file SQLite3 file' = Ok l' -> lite_schema l -> lite_ok a -> lite_convertible l a ->
  lite_dump a = Some current ->
  exists out out', plan_text SQLite3 file current = Ok (map s_text out) /\ plan_text SQLite3 file' current = Ok (map s_text out') /\
    (exists b, executes_all out a b) /\ (exists b', executes_all out' a b') /\
    (forall b b', executes_all out a b -> executes_all out' a b' -> lite_agree b b') /\
    (forall b, executes_all out a b -> exists next, lite_dump b = Some next /\ plan_text SQLite3 file' next = Ok []).
Proof.
  intros P F F' S K V D. assert (S' := lite_schema_moved l l' P S). assert (V' := lite_convertible_moved l l' P a V).
  destruct (sqlite_run file l a current F S K V D) as (da & oa & _ & _ & XA & EA & FA). destruct (sqlite_run file' l' a current F' S' K V' D) as (dc & ob & _ & _ & XB & EB & FB).
  assert (W : forall out m, (forall pre s post m1, out = pre ++ s :: post -> executes_all pre m m1 -> exists m2, executes s m1 m2) -> exists m', executes_all out m m').
  { intros out. induction out as [|s out IH]; intros m H; [exists m; constructor|]. destruct (H [] s out m eq_refl (ea_nil m)) as (m1 & E1).
    destruct (IH m1) as (m' & E').
    - intros pre s' post m2 -> Y. exact (H (s :: pre) s' post m2 eq_refl (ea_cons _ _ _ _ _ E1 Y)).
    - exists m'. econstructor; eassumption. }
  exists oa, ob. split; [exact XA|]. split; [exact XB|]. split; [now apply W|]. split; [now apply W|]. split.
  - intros b b' A B. destruct (FA b A) as [OA RA]. destruct (FB b' B) as [OB RB]. exact (lite_both l b b' OA OB RA (lite_reached_moved l' l (Permutation_sym P) b' RB)).
  - intros b A. destruct (FA b A) as [OA RA]. destruct (sqlite_exported b OA) as (c & C). exists c. split; [exact C|].
    exact (sqlite_again file' l' b c F' S' OA (lite_reached_moved l l' P b RA) C).
Qed.

(** ** Plannable pairs *)
Lemma plannable_moved m l l' current : Permutation l l' -> well_formed l' = true -> plannable m l current -> plannable m l' current.
Proof.
  intros P W H. constructor.
  - intros d D. exact (pl_desired _ _ _ H d (perm_in _ _ _ P D)).
  - exact (pl_current _ _ _ H).
  - exact (Permutation_NoDup (p_created _ _ P) (pl_desired_once _ _ _ H)).
  - exact (pl_current_once _ _ _ H).
  - exact W.
  - exact (pl_readable _ _ _ H).
  - intros t s T S E. destruct (pl_kept _ _ _ H t s (perm_in _ _ _ (p_tables _ _ P) T) S E) as [C1 C2 C3 C4]. constructor; try assumption.
    intros i c I Pr Ic K. destruct (C4 i c I Pr Ic K) as [N|[B|F]].
    + left. exact (perm_map_in i_name _ _ _ (Permutation_app_head _ (p_indexes _ _ (Permutation_sym P) _)) N).
    + right. left. destruct B as (f & F1 & F2). exists f. split; [|exact F2].
      exact (perm_in _ _ _ (Permutation_app_head _ (p_fks _ _ (Permutation_sym P) _)) F1).
    + right. right. exact F.
Qed.
Lemma rearranged_planned m l l' current : Permutation l l' -> well_formed l' = true -> plannable m l current ->
  exists out', plan m l' current = Ok out'.
Proof. intros P W H. apply plannable_planned. exact (plannable_moved m l l' current P W H). Qed.
