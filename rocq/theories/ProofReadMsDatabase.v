(** Each statement of the SQL Server export is read as what it defines. *)
From Coq Require Import String Ascii List ZArith Bool Lia.
From Verif Require Import GoStr GoStrFacts GoNum Ast Formatter Generator Keywords Lexer Numerals SchemaText SqlAst SchemaParse ParserTables ParserValues ParserActions Parser Planner Catalog AdapterPostgres AdapterMssql ExportMssql
  SpecPlan SpecPostgres SpecLexer SpecText SpecLayout SpecShown SpecShownMssql ProofReadback ProofNumerals ProofRun ProofText ProofExport ProofLead ProofReadEx ProofReadColumn ProofReadTable ProofReadRest
  ProofPiecesMssql ProofReadMsColumn ProofReadMsTable ProofReadMsRest ProofReadMsText.
From Verif Require ProofReadDatabase.
Import ListNotations.
Local Open Scope string_scope.
Local Open Scope list_scope.

Definition ms_reads (text : string) (d : ddl) : Prop := exists d', parse_ddl parse_strict_ddl Mssql text = Ok d' /\ without_text d' = d.
Lemma ms_text_reads l d : qwritten l -> ends_in (tstart (qwords l)) d ->
  parse_ddl parse_strict_ddl Mssql (qspell l) = parse_statement Mssql (qspell l) (SDdl d).
Proof.
  intros W (s & L & A). unfold parse_ddl. replace (parse_strict_ddl Mssql (qspell l)) with (Ok (SDdl d)); [reflexivity|].
  symmetry. exact (leads_accept _ _ _ _ _ (qpieces_say l W) L A).
Qed.

(** ** Columns *)
Lemma mq_number z : mq_integer z = true -> atoi (show_Z z) = (z, true).
Proof. unfold mq_integer. rewrite andb_true_iff. intros [A B]. apply Z.leb_le in A. apply Z.ltb_lt in B. apply atoi_show. unfold int_min, int_max. lia. Qed.
Lemma mq_number_read z : mq_integer z = true -> parse_value (mkSqlVal IntVal (show_Z z)) = integer_value z.
Proof. intros H. unfold parse_value. cbn [sv_type sv_val]. now rewrite (mq_number z H). Qed.
Lemma size_integer z : mq_size z = true -> mq_integer z = true.
Proof. unfold mq_size, mq_integer. rewrite !andb_true_iff, !Z.leb_le, !Z.ltb_lt. lia. Qed.
Lemma mq_value_read v : mq_value_ok v = true -> parse_value (mq_sql_value v) = mq_ideal_value v.
Proof. destruct v as [|z|s|]; cbn [mq_value_ok mq_sql_value mq_ideal_value]; intros H; try reflexivity. now apply mq_number_read. Qed.
Lemma mq_word_format n : mq_word n = true -> format_id n = n.
Proof.
  intros H. rewrite format_id_eq. enough (B : bare_name n = true) by now rewrite B. unfold mq_word in H. rewrite !andb_true_iff, !negb_true_iff in H. destruct H as [[[H1 H2] H3] _].
  unfold bare_name. rewrite (keyword_none _ H3), andb_true_r, negb_true_iff. destruct n as [|c n]; [discriminate|]. cbn [must_escape].
  assert (A : forall c, mq_word_start c = true -> is_letter c = true) by (intros [[] [] [] [] [] [] [] []]; vm_compute; congruence). rewrite (A c H1). cbn [negb andb].
  apply must_escape_false. cbn [all_chars] in H2. apply andb_true_iff in H2 as [_ H2]. rewrite all_chars_in in *. intros d D. specialize (H2 d D). revert H2. clear.
  destruct d as [[] [] [] [] [] [] [] []]; vm_compute; congruence.
Qed.
Lemma mq_column_read options p c : mq_column_ok c = true -> parse_column options p (mq_definition c) = mq_ideal_column p c.
Proof.
  unfold mq_column_ok. rewrite !andb_true_iff. intros [[[[N T] D] I] C]. destruct c as [n ty nu de id ck]. cbn [mqc_name mqc_type mqc_default mqc_identity mqc_check] in *.
  unfold mq_definition, mq_column_value, mq_ideal_column. cbn [mqc_name mqc_type mqc_nullable mqc_default mqc_identity mqc_check].
  assert (L : option_map parse_value (ct_length (mq_type_value ty)) = match ty with QSized _ k => Some (integer_value k) | QPlain _ _ => None end).
  { destruct ty as [w b|w k]; [reflexivity|]. cbn [mq_type_ok] in T. apply andb_true_iff in T as [_ T]. cbn. f_equal. now apply mq_number_read, size_integer. }
  assert (P1 : option_map (fun d => mkDefault (Some (parse_value (mq_sql_value (snd d)))) (fst d)) de = option_map (fun d => mkDefault (Some (mq_ideal_value (snd d))) (fst d)) de).
  { destruct de as [d|]; [|reflexivity]. cbn [all_some] in D. apply andb_true_iff in D as [_ D]. cbn [option_map]. now rewrite mq_value_read. }
  assert (P2 : forall i, id = Some i -> parse_value (mkSqlVal IntVal (show_Z (mqn_seed i))) = integer_value (mqn_seed i) /\ parse_value (mkSqlVal IntVal (show_Z (mqn_increment i))) = integer_value (mqn_increment i)).
  { intros i ->. cbn [all_some] in I. unfold mq_identity_ok in I. apply andb_true_iff in I as [I1 I2]. split; now apply mq_number_read. }
  assert (P3 : forall k, ck = Some k -> format_id (mqk_name k) = mqk_name k) by (intros k ->; apply mq_word_format; now apply check_parts in C).
  assert (NC : normalize_collate "" options = "") by (unfold normalize_collate; reflexivity).
  unfold parse_column, mq_sequence. revert L P1 P2 P3 NC.
  destruct ck as [k|], id as [i|], de as [d|], nu; cbn -[parse_value integer_value mq_ideal_value normalize_collate format_id mq_type_word];
    intros L P1 P2 P3 NC; try specialize (P2 _ eq_refl); try specialize (P3 _ eq_refl); rewrite ?P3, ?NC; try destruct P2 as [P2 P4]; unfold parse_int; cbn [option_map]; rewrite ?P2, ?P4;
    try injection P1 as P1; rewrite ?P1; destruct ty; cbn -[parse_value integer_value] in *; rewrite ?L; reflexivity.
Qed.
Lemma mq_columns_read options l : forallb mq_column_ok l = true -> forall p, parse_columns options p (map mq_definition l) = mq_ideal_columns p l.
Proof.
  induction l as [|c l IH]; intros K p; [reflexivity|]. cbn [forallb] in K. apply andb_true_iff in K as [K1 K2]. cbn [map parse_columns mq_ideal_columns].
  now rewrite (IH K2), (mq_column_read options p c K1).
Qed.
Lemma mq_checks l : forallb check_prints (map mq_definition l) = true.
Proof.
  apply forallb_forall. intros x X. apply in_map_iff in X as (c & <- & _). unfold check_prints, mq_definition, mq_column_value. cbn [cd_type].
  destruct c as [n ty nu de id ck]. cbn [mqc_name mqc_type mqc_nullable mqc_default mqc_identity mqc_check]. destruct ck, id, de, nu; reflexivity.
Qed.

(** ** Indexes *)
Lemma mq_options_read i : mq_index_ok i = true -> map parse_index_option (mq_options_value (mqi_options i)) = mq_ideal_options (mqi_options i).
Proof.
  unfold mq_index_ok. rewrite !andb_true_iff. intros [[_ A] B]. destruct (mqi_options i) as [a z b c d e f]. cbn [mqo_fill] in A, B.
  assert (Z : mq_integer z = true). { unfold mq_integer. apply Z.leb_le in A, B. apply andb_true_iff. split; [apply Z.leb_le|apply Z.ltb_lt]; lia. }
  pose proof (mq_number_read z Z) as F. unfold mq_options_value, mq_ideal_options, filled_value. cbn [mqo_padded mqo_fill mqo_ignore_dup mqo_no_recompute mqo_incremental mqo_row_locks mqo_page_locks map].
  unfold parse_index_option at 2. cbn [sio_name sio_value option_map]. rewrite F. destruct a, b, c, d, e, f; reflexivity.
Qed.
Lemma mq_key_read i : mq_key_ok i = true -> parse_index_definition (mq_key_value i) = Ok (mq_ideal_index true i).
Proof.
  unfold mq_key_ok. rewrite !andb_true_iff. intros [[A B] C]. unfold parse_index_definition, mq_key_value. cbn [xd_columns xd_info xd_options xd_partition].
  rewrite ProofReadDatabase.key_read. cbn [bind]. rewrite (mq_options_read i A). unfold mq_ideal_index. cbn [ii_name ii_type ii_primary ii_unique ii_clustered]. rewrite B.
  destruct (mqi_included i); [reflexivity|discriminate].
Qed.

(** ** Statements *)
Lemma mq_table_reads t : mq_table_ok t = true -> ms_reads (qspell (table_pieces t)) (CreateTable "" (mq_ideal_table t)).
Proof.
  intros K. unfold ms_reads. rewrite (ms_text_reads _ (mq_table_value t)); [|now apply qpart_written, table_part_ms|rewrite (table_words_ms t K); now apply mq_table_runs].
  unfold mq_table_ok in K. rewrite !andb_true_iff in K. destruct K as [[[[[S N] C] K] I] F].
  unfold parse_statement, mq_table_value, create_table. cbn [dd_action]. cbn [String.eqb Ascii.eqb Bool.eqb].
  unfold parse_table. cbn [dd_table_spec dd_new_name ts_columns ts_indexes ts_fks ts_options]. rewrite mq_checks. cbn [negb].
  replace (parse_index_definitions (map mq_key_value (listed (mqt_key t)))) with (Ok (map (mq_ideal_index true) (listed (mqt_key t))))
    by (destruct (mqt_key t) as [k|]; [|reflexivity]; cbn [listed map parse_index_definitions]; now rewrite (mq_key_read k K)).
  cbn [bind]. rewrite (mq_columns_read _ _ C). eexists. split; [reflexivity|]. cbn [without_text]. unfold mq_ideal_table. f_equal. f_equal. rewrite map_map. reflexivity.
Qed.
Lemma mq_index_reads t i : mq_table_ok t = true -> mq_index_ok i = true -> ms_reads (qspell (index_pieces t i)) (CreateIndex "" (mqt_name t) (mq_ideal_index false i)).
Proof.
  intros K I. unfold mq_table_ok in K. rewrite !andb_true_iff in K. destruct K as [[[[[S N] _] _] _] _].
  unfold ms_reads. rewrite (ms_text_reads _ (mq_index_value t i)); [|now apply qpart_written, index_part|rewrite index_words; now apply mq_index_runs].
  unfold parse_statement, mq_index_value. cbn [dd_action]. cbn [String.eqb Ascii.eqb Bool.eqb]. unfold parse_index. cbn [dd_index_spec dd_index_cols]. rewrite ProofReadDatabase.key_read. cbn [bind xs_where parse_where].
  cbn [xs_options]. rewrite (mq_options_read i I). eexists. split; reflexivity.
Qed.
Lemma mq_trigger_reads t : mq_trigger_ok t = true -> ms_reads (mq_trigger_text t) (DTrigger (mq_ideal_trigger t)).
Proof.
  intros K. rewrite trigger_spelled. unfold ms_reads. rewrite (ms_text_reads _ (mq_trigger_value t)).
  - eexists. split; reflexivity.
  - now apply qpart_written, trigger_part_ms.
  - rewrite (trigger_words_ms t K). now apply mq_trigger_runs.
Qed.
Lemma mq_view_reads v : view_ok v = true -> all_some mq_shown (sv_where v) = true -> ms_reads (qspell (ms_view_pieces v)) (DView (ideal_view v)).
Proof.
  intros K W. unfold ms_reads. rewrite (ms_text_reads _ (view_value v)).
  - eexists. split; reflexivity.
  - now apply qpart_written, view_part_ms.
  - rewrite (view_words_ms v K W). now apply view_runs.
Qed.
