(** Runs of sqldef on SQL Server, from the views of the catalogue on. *)
From Coq Require Import String Ascii List ZArith Bool Permutation Lia.
From Verif Require Import GoStr GoStrFacts Ast Generator SchemaText SchemaParse Parser Planner Catalog AdapterPostgres AdapterMssql ExportMssql QueryMssql SpecPlan SpecColumns SpecMysql SpecDatabase
  SpecShown SpecShownMssql SpecMssql SpecConvergeMs SpecSysMssql ProofMsEndToEnd ProofMsSettle ProofMsTexts ProofReadMsExport ProofSysMssql ProofSysDump.
Import ListNotations.
Local Open Scope string_scope.
Local Open Scope list_scope.

Theorem sys_plan s d desired l r texts : sys_tells s (mq_server d) -> mq_readable d = true -> parse_file Mssql desired = Ok l -> sys_dump s r ->
  exists current e, r = Ok current /\ database_permuted d e /\
    (plan_text Mssql desired current = Ok texts <-> exists out, plan Mssql l (mq_definitions e) = Ok out /\ texts = map s_text out).
Proof.
  intros T R P D. destruct (sys_dump_told s d r T R D) as (text & e & -> & Q & X). exists text, e. split; [reflexivity|]. split; [exact Q|].
  exact (ms_plan_from_texts e text (readable_permuted d e Q R) X desired l texts P).
Qed.

(** ** One database in two orders *)
Definition tab_permuted (g h : ms_tab) : Prop :=
  m_name g = m_name h /\ Permutation (m_columns g) (m_columns h) /\ m_key g = m_key h /\ m_indexes g = m_indexes h /\ Permutation (m_fks g) (m_fks h).
Lemma tab_permuted_sym g h : tab_permuted g h -> tab_permuted h g.
Proof. intros (A & B & C & D & E). repeat split; now symmetry. Qed.
Definition base_permuted (c d : database ms_tab) : Prop :=
  (exists l, Permutation (db_tables c) l /\ Forall2 tab_permuted l (db_tables d)) /\ Permutation (db_views c) (db_views d) /\ Permutation (db_triggers c) (db_triggers d).
Lemma short_key_same p i j : short_key i = true -> key_permuted i j -> mq_ideal_index p i = mq_ideal_index p j.
Proof.
  unfold short_key. intros S (A & B & C & D & P & Q).
  assert (E : mqi_columns i = mqi_columns j).
  { unfold mqi_columns in *. destruct (mqi_others i); [|discriminate]. apply Permutation_length_1_inv in P. now rewrite P. }
  assert (F : mqi_included i = mqi_included j).
  { destruct (mqi_others i); [|discriminate]. destruct (mqi_included i) as [|x [|y k]]; [now apply Permutation_nil in Q|apply Permutation_length_1_inv in Q; now rewrite Q|discriminate]. }
  unfold mq_ideal_index. now rewrite A, B, C, D, E, F.
Qed.
Lemma table_tab t u : forallb short_key (listed (mqt_key t) ++ listed (mqt_index t)) = true -> table_permuted t u -> tab_permuted (mq_tab t) (mq_tab u).
Proof.
  intros S (_ & A & B & C & D & E). rewrite forallb_forall in S. unfold mq_tab, tab_permuted. cbn [m_name m_columns m_key m_indexes m_fks].
  split; [exact A|]. split; [now apply Permutation_map|]. split; [|split; [|now apply Permutation_map]].
  - destruct (mqt_key t) as [i|], (mqt_key u) as [j|]; try contradiction C; [|reflexivity]. cbn [option_map option_related] in *. f_equal. apply short_key_same; [apply S; now left|exact C].
  - destruct (mqt_index t) as [i|], (mqt_index u) as [j|]; try contradiction D; [|reflexivity]. cbn [listed map option_related] in *. f_equal. apply short_key_same; [|exact D].
    apply S. apply in_or_app. right. now left.
Qed.
Lemma database_base d e : short_keys d = true -> database_permuted d e -> base_permuted (mq_ideal d) (mq_ideal e).
Proof.
  intros S ((l & P & F) & V & T). unfold mq_ideal. cbn [db_tables db_views db_triggers]. split; [|split; now apply Permutation_map].
  exists (map mq_tab l). cbn [db_tables]. split; [now apply Permutation_map|].
  assert (S' : forallb (fun t => forallb short_key (listed (mqt_key t) ++ listed (mqt_index t))) l = true) by (eapply forallb_perm; eauto).
  clear -F S'. induction F as [|t u l m R F IH]; [constructor|]. cbn [forallb] in S'. apply andb_true_iff in S' as [S1 S2]. cbn [map]. constructor; [now apply table_tab|now apply IH].
Qed.
Section Permuted.
Variables c d : database ms_tab.
Hypothesis B : base_permuted c d.
Lemma tables_back g : In g (db_tables d) -> exists h, In h (db_tables c) /\ tab_permuted h g.
Proof.
  destruct B as ((l & P & F) & _ & _). intros I. assert (X : exists h, In h l /\ tab_permuted h g).
  { clear P B. induction F as [|x y l m R F IH]; [destruct I|]. destruct I as [->|I]; [exists x; split; [now left|exact R]|]. destruct IH as (h & H1 & H2); [exact I|]. exists h. split; [now right|exact H2]. }
  destruct X as (h & H & R). exists h. split; [|exact R]. eapply Permutation_in; [apply Permutation_sym; exact P|exact H].
Qed.
Lemma tables_on g : In g (db_tables c) -> exists h, In h (db_tables d) /\ tab_permuted g h.
Proof.
  destruct B as ((l & P & F) & _ & _). intros I. eapply Permutation_in in I; [|exact P]. clear P B. induction F as [|x y l m R F IH]; [destruct I|].
  destruct I as [->|I]; [exists y; split; [now left|exact R]|]. destruct IH as (h & H1 & H2); [exact I|]. exists h. split; [now right|exact H2].
Qed.
Lemma names_permuted : Permutation (map m_name (db_tables c)) (map m_name (db_tables d)).
Proof.
  destruct B as ((l & P & F) & _ & _). eapply perm_trans; [apply Permutation_map; exact P|]. replace (map m_name l) with (map m_name (db_tables d)); [apply Permutation_refl|].
  clear P B. induction F as [|x y l m R F IH]; [reflexivity|]. cbn [map]. rewrite IH. f_equal. symmetry. apply R.
Qed.
Lemma sound_permuted g h : tab_permuted g h -> ms_sound g -> ms_sound h.
Proof.
  intros (A & C & K & X & F) [O1 O2 O3 O4 O5 O6 O7 O8].
  assert (Ci : forall x, In x (m_columns h) -> In x (m_columns g)) by (intros x; apply Permutation_in; now apply Permutation_sym).
  assert (Fi : forall x, In x (m_fks h) -> In x (m_fks g)) by (intros x; apply Permutation_in; now apply Permutation_sym).
  split; rewrite <- ?K, <- ?X; auto.
  - unfold m_names in *. eapply Permutation_NoDup; [apply Permutation_map; exact C|exact O1].
  - eapply Permutation_NoDup; [apply Permutation_map; exact F|exact O3].
  - eauto.
Qed.
Lemma ok_permuted : ms_database_ok c -> ms_database_ok d.
Proof.
  intros [O1 O2 O3 O4]. pose proof names_permuted as N. destruct B as (_ & V & T). split.
  - now apply (Permutation_NoDup N).
  - now apply (Permutation_NoDup (Permutation_map vw_name V)).
  - now apply (Permutation_NoDup (Permutation_map tr_name T)).
  - intros g G. destruct (tables_back g G) as (h & H & P). apply (sound_permuted h g P). now apply O4.
Qed.
Lemma reached_permuted l t g h : tab_permuted g h -> ms_reached l t g -> ms_reached l t h.
Proof.
  intros (A & C & K & X & F) [R1 R2 R3 R4 R5 R6 R7].
  assert (Ci : forall x, In x (m_columns h) -> In x (m_columns g)) by (intros x; apply Permutation_in; now apply Permutation_sym).
  assert (Fi : forall x, In x (m_fks h) -> In x (m_fks g)) by (intros x; apply Permutation_in; now apply Permutation_sym).
  split; rewrite <- ?X; auto.
  - intros x I. destruct (R1 x I) as (s & S & M). exists s. split; [|exact M]. now apply (Permutation_in _ C).
  - intros k D. specialize (R3 k D). unfold ms_key_reached in *. now rewrite <- K.
  - intros f I. destruct (R6 f I) as (f' & S & M). exists f'. split; [|exact M]. now apply (Permutation_in _ F).
Qed.
Lemma in_names {A} (f : A -> string) (a b : list A) n : Permutation a b -> (In n (map f a) <-> In n (map f b)).
Proof. intros P. split; apply Permutation_in; [|apply Permutation_sym]; now apply Permutation_map. Qed.
Lemma db_reached_permuted l : ms_db_reached l c -> ms_db_reached l d.
Proof.
  intros [R1 R2 R3 R4 R5 R6]. pose proof names_permuted as N. destruct B as (_ & V & T). split.
  - intros n. rewrite <- R1. split; apply Permutation_in; [now apply Permutation_sym|exact N].
  - intros t I. destruct (R2 t I) as (g & G & E & H). destruct (tables_on g G) as (h & H1 & H2). exists h. split; [exact H1|]. split; [rewrite <- E; symmetry; apply H2|now apply (reached_permuted l t g)].
  - intros n. rewrite <- (in_names vw_name _ _ n V). apply R3.
  - intros v I. destruct (R4 v I) as (v' & H1 & H2). exists v'. split; [now apply (Permutation_in _ V)|exact H2].
  - intros n. rewrite <- (in_names tr_name _ _ n T). apply R5.
  - intros v I. destruct (R6 v I) as (v' & H1 & H2). exists v'. split; [now apply (Permutation_in _ T)|exact H2].
Qed.
Lemma settles_permuted w l t g h : tab_permuted g h -> ms_settles w l t g -> ms_settles w l t h.
Proof.
  intros (A & C & K & X & F) [S1 S2 S3 S4 S5 S6 S7 S8 S9 S10 S11 S12].
  assert (Ci : forall x, In x (m_columns h) -> In x (m_columns g)) by (intros x; apply Permutation_in; now apply Permutation_sym).
  assert (Fi : forall x, In x (m_fks h) -> In x (m_fks g)) by (intros x; apply Permutation_in; now apply Permutation_sym).
  assert (Ni : forall n, In n (m_names h) <-> In n (m_names g)) by (intros n; unfold m_names; symmetry; now apply in_names).
  split; rewrite <- ?K, <- ?X; auto.
  - intros x I J. apply S2; [exact I|]. now rewrite <- Ni.
  - intros x cc I J. intros. eapply S3; eauto. now rewrite <- Ni.
  - intros x I J. apply S4; [exact I|]. now rewrite <- Ni.
  - intros x cc I J. now apply S5; auto.
Qed.
Lemma convertible_permuted w l : ms_convertible w l c -> ms_convertible w l d.
Proof.
  intros [V1 V2]. destruct B as (_ & _ & T). split.
  - intros t s I G E. destruct (tables_back s G) as (g & G' & P). apply (settles_permuted w l t g s P). apply V1; [exact I|exact G'|]. rewrite <- E. apply P.
  - intros n. rewrite <- (in_names tr_name _ _ n T). apply V2.
Qed.
End Permuted.

Theorem sys_run w replaceable s d desired l r : sys_tells s (mq_server d) -> mq_readable d = true -> short_keys d = true -> ms_names_given w -> ms_database_ok (mq_ideal d) ->
  parse_file Mssql desired = Ok l -> ms_schema w l -> ms_convertible w l (mq_ideal d) -> sys_dump s r ->
  exists current e, r = Ok current /\ database_permuted d e /\
    forall texts, plan_text Mssql desired current = Ok texts ->
      exists out db', texts = map s_text out /\ execute_all m_name (ms_create w) (ms_alter w) replaceable out (mq_ideal e) = Some db' /\ ms_db_reached l db' /\ ms_database_ok db'.
Proof.
  intros T R K W O P S V D. destruct (sys_dump_told s d r T R D) as (text & e & -> & Q & X). exists text, e. split; [reflexivity|]. split; [exact Q|]. intros texts H.
  pose proof (database_base d e K Q) as B.
  exact (ms_texts_converge w e text W (readable_permuted d e Q R) X (ok_permuted _ _ B O) desired l P S replaceable texts (convertible_permuted _ _ B w l V) H).
Qed.
Theorem sys_settled w s d desired l r : sys_tells s (mq_server d) -> mq_readable d = true -> short_keys d = true -> ms_database_ok (mq_ideal d) ->
  parse_file Mssql desired = Ok l -> ms_schema w l -> ms_db_reached l (mq_ideal d) -> sys_dump s r ->
  exists current, r = Ok current /\ plan_text Mssql desired current = Ok [].
Proof.
  intros T R K O P S V D. destruct (sys_dump_told s d r T R D) as (text & e & -> & Q & X). exists text. split; [reflexivity|].
  pose proof (database_base d e K Q) as B.
  exact (ms_texts_settled w e text (readable_permuted d e Q R) X (ok_permuted _ _ B O) desired l P S (db_reached_permuted _ _ B l V)).
Qed.
