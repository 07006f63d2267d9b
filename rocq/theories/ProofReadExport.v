(** The whole export of a readable PostgreSQL database. *)
From Coq Require Import String Ascii List ZArith Bool Lia.
From Verif Require Import GoStr GoStrFacts GoNum Ast Formatter Generator Keywords Lexer Numerals SchemaText SqlAst SchemaParse ParserActions Parser Planner Catalog AdapterPostgres SpecPlan SpecMysql SpecDatabase SpecPostgres
  SpecLexer SpecText SpecLayout SpecExport SpecShown ProofOrder ProofNumerals ProofRun ProofText ProofExport ProofCatalog ProofExport3 ProofLead ProofReadEx ProofPieces ProofReadColumn ProofReadTable ProofReadRest ProofReadText ProofReadStatements ProofReadBack ProofPlan ProofPg ProofReadDatabase ProofReadAll.
Import ListNotations.
Local Open Scope string_scope.
Local Open Scope list_scope.

Section Export.
Variable quoted : string -> bool.
Notation table_of := (table_of quoted).
Notation reads := (ProofReadDatabase.reads).

Lemma reads_all texts l : Forall2 reads texts l ->
  exists l', parse_all (parse_ddl parse_strict_ddl) Postgres texts = Ok l' /\ map without_text l' = l.
Proof.
  induction 1 as [|x d xs l (d' & P & E) _ (l' & Q & F)]; [now exists []|]. exists (d' :: l'). cbn [parse_all map]. rewrite P, Q. cbn. now rewrite E, F.
Qed.
Lemma forall_map {A} (f : A -> string) (g : A -> ddl) l : (forall x, In x l -> reads (f x) (g x)) -> Forall2 reads (map f l) (map g l).
Proof. intros H. induction l as [|x l IH]; [constructor|]. cbn [map]. constructor; [apply H; now left|]. apply IH. intros y I. apply H. now right. Qed.

(** ** One table *)
Section Table.
Variable d : shown_database.
Hypothesis OK : database_readable quoted d = true.
Notation cat := (catalogue quoted d).

Lemma database_parts : forallb (table_ok quoted) (sd_tables d) = true /\ forallb view_ok (sd_views d) = true /\ NoDup (map SpecShown.st_name (sd_tables d)) /\
  NoDup (map sv_view (sd_views d)) /\ NoDup (map con_name (flat_map (catalogue_constraints quoted) (sd_tables d))).
Proof. revert OK. unfold database_readable. rewrite !andb_true_iff, !distinct_spec. tauto. Qed.

Variable t : shown_table.
Hypothesis IN : In t (sd_tables d).
Notation name := (st_schema t +++ "." +++ SpecShown.st_name t).

Lemma this_table : table_ok quoted t = true.
Proof. destruct database_parts as (T & _). rewrite forallb_forall in T. now apply T. Qed.
Lemma only_this : only_name cat (table_of t).
Proof.
  destruct database_parts as (_ & _ & N & _). destruct (in_split _ _ IN) as (a & b & E). exists (map table_of a), (map table_of b). split.
  - cbn [catalogue pd_tables]. rewrite E, map_app. reflexivity.
  - intros t' I. rewrite <- map_app in I. apply in_map_iff in I as (t'' & <- & I). cbn [ProofReadDatabase.table_of catalogue_table pt_name]. intros X.
    rewrite E, map_app in N. cbn [map] in N. apply NoDup_remove_2 in N. apply N. rewrite <- map_app, <- X. now apply in_map.
Qed.
Lemma no_dot n : simple_name n = true -> has_char "." n = false.
Proof.
  intros S. apply not_true_iff_false. intros H. apply has_char_in in H. unfold simple_name in S. rewrite !andb_true_iff in S. destruct S as [[[_ S] _] _].
  rewrite all_chars_in in S. specialize (S _ H). discriminate.
Qed.
Lemma is_this : the_table cat (table_of t).
Proof.
  destruct (table_parts quoted t this_table) as (S & _). split; [now apply no_dot|]. destruct only_this as (a & b & E & N). exists a, b. split; [exact E|]. intros t' I [_ X]. now apply (N t' I).
Qed.
Lemma constraints_distinct : distinct_constraints cat.
Proof.
  unfold distinct_constraints. destruct database_parts as (_ & _ & _ & _ & N). cbn [catalogue pd_tables]. rewrite (flat_map_concat_map pt_constraints), map_map. rewrite flat_map_concat_map in N. exact N.
Qed.
Lemma own_constraints : NoDup (catalogue_constraints quoted t).
Proof.
  destruct database_parts as (_ & _ & _ & _ & N). apply NoDup_map_inv in N. destruct (in_split _ _ IN) as (a & b & E). rewrite E, flat_map_app in N. apply NoDup_app_r in N. cbn [flat_map] in N. now apply NoDup_app_l in N.
Qed.

Lemma rows_show : Forall2 (fun c r => shows quoted (unique_in t (sc_name c)) c r) (st_columns t) (get_columns cat name).
Proof.
  destruct (table_parts quoted t this_table) as (_ & _ & _ & C & D & _). apply table_shows; [exact this_table|].
  change name with (full_name (table_of t)). apply columns_exact.
  - exact is_this.
  - exact only_this.
  - cbn [ProofReadDatabase.table_of catalogue_table pt_columns]. rewrite map_map. exact D.
  - apply single_table; [exact this_table|exact own_constraints].
  - intros c I. cbn [ProofReadDatabase.table_of catalogue_table pt_columns] in I. apply in_map_iff in I as (k & <- & I). cbn [catalogue_column pc_name].
    rewrite forallb_forall in C. specialize (C k I). unfold column_ok in C. rewrite !andb_true_iff in C. destruct C as [[[[[Q B] _] _] _] _]. now apply name_edges.
Qed.

Lemma key_columns_shown : get_primary_key_columns cat name = pk_columns t.
Proof.
  change name with (full_name (table_of t)). unfold pk_columns. destruct (st_pk t) as [[k l]|] eqn:E.
  - rewrite (primary_exact cat (table_of t) [] (constraint k ConPrimary l "") (tl (catalogue_constraints quoted t))).
    + reflexivity.
    + exact is_this.
    + exact constraints_distinct.
    + cbn [ProofReadDatabase.table_of catalogue_table pt_constraints]. unfold catalogue_constraints. rewrite E. reflexivity.
    + reflexivity.
    + intros x I. unfold catalogue_constraints in I. rewrite E in I. cbn [app tl] in I. rewrite !in_app_iff, !in_map_iff, in_flat_map in I.
      destruct I as [(i & <- & _)|[(c & _ & I)|(f & <- & _)]]; try discriminate. destruct (sc_check c); [|contradiction]. destruct I as [<-|[]]. discriminate.
  - apply no_primary; [exact is_this|]. intros x I. cbn [ProofReadDatabase.table_of catalogue_table pt_constraints] in I. apply constraint_cases in I.
    destruct I as [(k & F & _)|[(i & _ & _ & ->)|[(a & b & _ & _ & ->)|(f & _ & ->)]]]; try discriminate. congruence.
Qed.

(** *** Indexes *)
Definition all_indexes : list shown_index := st_indexes t ++ match st_pk t with Some k => [key_index k] | None => [] end.
Definition kept_indexes : list shown_index := filter (fun i => negb (ends_with "_pkey" (six_name i))) all_indexes.
Lemma all_indexes_ok : forallb (index_ok quoted) all_indexes = true.
Proof.
  destruct (table_parts quoted t this_table) as (_ & _ & _ & _ & _ & _ & P & I & _). unfold all_indexes. rewrite forallb_app, I. destruct (st_pk t); [|reflexivity]. cbn [forallb]. now rewrite P.
Qed.
Lemma suffix_same s p : has_suffix s p = ends_with p s.
Proof. induction s as [|c s IH]; [reflexivity|]. cbn [has_suffix ends_with]. now rewrite IH. Qed.
Lemma index_defs_shown : get_index_defs cat name = map (index_def quoted (st_schema t) (SpecShown.st_name t)) kept_indexes.
Proof.
  unfold get_index_defs. change name with (full_name (table_of t)). rewrite split_full by apply is_this. rewrite (filter_table _ _ is_this). cbn [flat_map]. rewrite app_nil_r.
  cbn [ProofReadDatabase.table_of catalogue_table pt_indexes]. fold all_indexes. unfold kept_indexes. pose proof all_indexes_ok as K. revert K. generalize all_indexes. induction l as [|i l IH]; intros K; [reflexivity|].
  cbn [forallb] in K. apply andb_true_iff in K as [K1 K2]. cbn [map filter pi_name]. destruct (index_parts quoted i K1) as (Q & _).
  assert (E : no_edge (six_name i)).
  { unfold index_ok in K1. rewrite !andb_true_iff in K1. destruct K1 as [[[[[A B] _] _] _] _]. now apply name_edges. }
  rewrite (no_edge_trim _ E), suffix_same. destruct (negb (ends_with "_pkey" (six_name i))); cbn [map]; now rewrite (IH K2).
Qed.
Lemma indexes_exported : exported_indexes (ideal_table t) = map ideal_index kept_indexes.
Proof.
  unfold exported_indexes, kept_indexes. cbn [ideal_table g_indexes g_pk].
  replace (map ideal_index (st_indexes t) ++ match st_pk t with Some (k, l) => [mkIndex k "" (map (fun x => mkIndexColumn x None "asc") l) false true "" [] false "" "" []] | None => [] end) with (map ideal_index all_indexes).
  - generalize all_indexes. induction l as [|i l IH]; [reflexivity|]. cbn [map filter ideal_index i_name]. destruct (negb (ends_with "_pkey" (six_name i))); cbn [map]; now rewrite IH.
  - unfold all_indexes. rewrite map_app. f_equal. destruct (st_pk t) as [[k l]|]; [|reflexivity]. unfold ideal_index, key_index. cbn [map six_name six_columns six_unique six_where fst snd]. now rewrite map_map.
Qed.

(** *** Foreign keys and policies *)
Lemma fk_defs_shown : get_foreign_defs cat name =
  map (fun f => foreign_def (st_schema t) (SpecShown.st_name t) (sf_name f) (sf_column f) (sf_schema f) (sf_table f) (sf_ref_column f) (action_words (sf_update f)) (action_words (sf_delete f))) (st_fks t).
Proof.
  change name with (full_name (table_of t)). rewrite foreign_exact.
  - cbn [ProofReadDatabase.table_of catalogue_table pt_constraints pt_schema pt_name]. unfold catalogue_constraints. rewrite !filter_app.
    rewrite (filter_none _ match st_pk t with Some (k, l) => [constraint k ConPrimary l ""] | None => [] end).
    2:{ intros x I. destruct (st_pk t) as [[k l]|]; [|contradiction]. destruct I as [<-|[]]. reflexivity. }
    rewrite (filter_none _ (map (fun i => constraint (six_name i) ConUnique (map fst (six_columns i)) "") _)).
    2:{ intros x I. apply in_map_iff in I as (i & <- & _). reflexivity. }
    rewrite (filter_none _ (flat_map _ _)).
    2:{ intros x I. apply in_flat_map in I as (c & _ & I). destruct (sc_check c); [|contradiction]. destruct I as [<-|[]]. reflexivity. }
    cbn [app]. induction (st_fks t) as [|f l IH]; [reflexivity|]. cbn [map filter con_kind_of]. now rewrite IH.
  - exact is_this.
  - exact constraints_distinct.
  - intros x I K. cbn [ProofReadDatabase.table_of catalogue_table pt_constraints] in I. apply constraint_cases in I.
    destruct I as [(k & F & ->)|[(i & _ & _ & ->)|[(a & b & _ & _ & ->)|(f & _ & ->)]]]; try discriminate K. now exists (sf_column f), (sf_ref_column f).
Qed.
Lemma fks_exported : exported_fks (ideal_table t) = map ideal_fk (st_fks t).
Proof.
  unfold exported_fks. cbn [ideal_table g_fks]. induction (st_fks t) as [|f l IH]; [reflexivity|]. cbn [map flat_map]. cbv zeta in IH. rewrite IH. cbn. f_equal. unfold ideal_fk. now destruct (sf_update f), (sf_delete f).
Qed.
Lemma policy_defs_shown : get_policy_defs cat name = map (fun p => policy_def (SpecShown.st_name t) (catalogue_policy quoted p)) (st_policies t).
Proof.
  unfold get_policy_defs. change name with (full_name (table_of t)). rewrite split_full by apply is_this. rewrite (filter_table _ _ is_this). cbn [flat_map]. rewrite app_nil_r.
  cbn [ProofReadDatabase.table_of catalogue_table pt_policies pt_name]. now rewrite map_map.
Qed.
Lemma name_exported : exported_name (g_name (ideal_table t)) = "public." +++ SpecShown.st_name t.
Proof.
  unfold exported_name, bare. cbn [ideal_table g_name]. change ("." +++ SpecShown.st_name t) with (String "." (SpecShown.st_name t)). now rewrite split_first_spec by apply is_this.
Qed.

Lemma table_statements_read : Forall2 reads (table_statements cat name) (exported_statements (ideal_table t)).
Proof.
  destruct (table_parts quoted t this_table) as (S & N & E & C & _ & _ & P & I & F & L). unfold table_statements, exported_statements.
  rewrite key_columns_shown, index_defs_shown, fk_defs_shown, policy_defs_shown, indexes_exported, fks_exported, name_exported. constructor.
  - apply (table_reads quoted); try assumption; try exact rows_show.
    + unfold pk_columns. destruct (st_pk t) as [[k l]|]; [|reflexivity]. unfold index_ok in P. rewrite !andb_true_iff in P. destruct P as [[_ P] _]. cbn [key_index six_columns snd] in P.
      rewrite forallb_forall in *. intros x X. specialize (P (x, false) (in_map (fun c => (c, false)) _ _ X)). apply andb_true_iff in P. apply P.
    + destruct (st_pk t) as [[k [|x l]]|]; try exact Logic.I. unfold index_ok in P. rewrite !andb_true_iff in P. destruct P as [[[_ P] _] _]. discriminate.
  - cbn [ideal_table g_name g_policies]. rewrite !map_map. repeat apply Forall2_app; apply forall_map.
    + intros i X. apply filter_In in X as [X _]. pose proof all_indexes_ok as K. rewrite forallb_forall in K. apply index_reads; auto.
    + intros f X. rewrite forallb_forall in F. apply (fk_reads quoted); auto.
    + intros p X. rewrite forallb_forall in L. apply policy_reads; auto.
Qed.

Lemma table_texts_plain : one_line name /\ Forall clean_row (get_columns cat name) /\ Forall one_line (get_primary_key_columns cat name) /\
  Forall plain_statement (get_index_defs cat name ++ get_foreign_defs cat name ++ get_policy_defs cat name).
Proof.
  destruct (table_parts quoted t this_table) as (S & N & E & C & _ & _ & P & I & F & L). split; [|split; [|split]].
  - apply one_line_join; [now apply simple_one_line|]. apply one_line_join; [split; reflexivity|now apply simple_one_line].
  - pose proof rows_show as R. clear E. induction R as [|c r l l' H R IH]; [constructor|]. cbn [forallb] in C. apply andb_true_iff in C as [C1 C2]. constructor; [|now apply IH].
    now apply (row_clean quoted (unique_in t (sc_name c)) c).
  - rewrite key_columns_shown. unfold pk_columns. destruct (st_pk t) as [[k l]|]; [|constructor]. unfold index_ok in P. rewrite !andb_true_iff in P. destruct P as [[_ P] _]. cbn [key_index six_columns snd] in P.
    rewrite forallb_forall in P. apply Forall_forall. intros x X. specialize (P (x, false) (in_map (fun c => (c, false)) _ _ X)). apply andb_true_iff in P. now apply quotable_one_line.
  - rewrite index_defs_shown, fk_defs_shown, policy_defs_shown. rewrite !Forall_app, !Forall_map, !Forall_forall. rewrite forallb_forall in F, L. split; [|split].
    + intros i X. apply filter_In in X as [X _]. pose proof all_indexes_ok as K. rewrite forallb_forall in K. apply index_plain; auto.
    + intros f X. apply (fk_plain quoted); auto.
    + intros p X. apply policy_plain; auto.
Qed.
End Table.

(** ** Views *)
Lemma views_shown d : database_readable quoted d = true ->
  views (catalogue quoted d) = map (fun v => view_ddl (sv_schema v) (sv_view v) (pv_definition (catalogue_view quoted v))) (sd_views d).
Proof.
  intros OK. destruct (database_parts d OK) as (_ & _ & _ & N & _). unfold views. cbn [catalogue pd_views].
  assert (G : forall v, In v (sd_views d) -> filter (fun x => String.eqb (sv_view v) (pv_name x)) (map (catalogue_view quoted) (sd_views d)) = [catalogue_view quoted v]).
  { clear OK. induction (sd_views d) as [|x l IH]; intros v I; [easy|]. cbn [map] in N. inversion N as [|? ? N1 N2]; subst. cbn [map filter pv_name catalogue_view].
    destruct I as [->|I].
    - rewrite String.eqb_refl, filter_none; [reflexivity|]. intros y J. apply in_map_iff in J as (z & <- & J). apply String.eqb_neq. intros E. apply N1. rewrite E. cbn. now apply in_map.
    - destruct (String.eqb_spec (sv_view v) (sv_view x)) as [E|E]; [|now apply IH]. exfalso. apply N1. rewrite <- E. now apply in_map. }
  assert (H : forall l, incl l (sd_views d) ->
    flat_map (fun v => map (fun x => view_ddl (pv_schema v) (pv_name v) (pv_definition x)) (filter (fun x => String.eqb (pv_name v) (pv_name x)) (map (catalogue_view quoted) (sd_views d)))) (map (catalogue_view quoted) l) =
    map (fun v => view_ddl (sv_schema v) (sv_view v) (pv_definition (catalogue_view quoted v))) l).
  2:{ apply H, incl_refl. }
  induction l as [|v l IH]; intros I; [reflexivity|]. cbn [map flat_map].
  change (pv_name (catalogue_view quoted v)) with (sv_view v). rewrite G by (apply I; now left). cbn [map app]. f_equal. apply IH. intros x J. apply I. now right.
Qed.

(** ** The export *)
Definition export_text (d : shown_database) : string :=
  dump_database (catalogue quoted d).

Lemma flat_forall {A B} (R : string -> ddl -> Prop) (f : A -> list string) (g : B -> list ddl) (h : A -> B) l : (forall x, In x l -> Forall2 R (f x) (g (h x))) -> Forall2 R (flat_map f l) (flat_map g (map h l)).
Proof. intros H. induction l as [|x l IH]; [constructor|]. cbn [flat_map map]. apply Forall2_app; [apply H; now left|]. apply IH. intros y I. apply H. now right. Qed.

Theorem export_read d : database_readable quoted d = true ->
  exists l, parse_file Postgres (export_text d) = Ok l /\ map without_text l = pg_dump (ideal d).
Proof.
  intros OK. destruct (database_parts d OK) as (_ & V & _). rewrite forallb_forall in V.
  assert (NM : table_names (catalogue quoted d) = map (fun t => st_schema t +++ "." +++ SpecShown.st_name t) (sd_tables d)).
  { unfold table_names. cbn [catalogue pd_tables]. now rewrite map_map. }
  unfold parse_file, parse_ddls, export_text, dump_database. rewrite pg_export_splits.
  - apply reads_all. rewrite NM, (views_shown d OK). unfold pg_dump. cbn [ideal db_tables db_views]. apply Forall2_app.
    + rewrite flat_map_concat_map, map_map, <- flat_map_concat_map. apply flat_forall. intros t I. now apply table_statements_read.
    + rewrite map_map. apply forall_map. intros v I. apply view_reads. now apply V.
  - intros table I. rewrite NM in I. apply in_map_iff in I as (t & <- & I). now apply table_texts_plain.
  - rewrite (views_shown d OK), Forall_map, Forall_forall. intros v I. apply view_plain. now apply V.
Qed.
End Export.
