(** Each statement of the MySQL export is read as what it defines. *)
From Coq Require Import String Ascii List ZArith Bool Lia.
From Verif Require Import GoStr GoStrFacts GoNum Ast Formatter Generator Keywords Lexer Numerals SchemaText SqlAst SchemaParse ParserTables ParserValues ParserActions Parser Planner Catalog CatalogMysql AdapterSqlite AdapterMysql SpecPlan SpecMysql
  SpecLexer SpecText SpecLayout SpecShown SpecShownMysql ProofNumerals ProofRun ProofText ProofExport ProofLead ProofReadEx ProofReadColumn ProofReadTable ProofReadRest
  ProofPiecesMysql ProofReadMyColumn ProofReadMyTable ProofReadMyRest ProofReadMyText ProofReadMyWords.
Import ListNotations.
Local Open Scope string_scope.
Local Open Scope list_scope.

Definition my_reads (text : string) (d : ddl) : Prop := exists d', parse_ddl parse_strict_ddl Mysql text = Ok d' /\ without_text d' = d.

Lemma my_text_reads l d : mwritten l -> ends_in (tstart (mwords l)) d ->
  parse_ddl parse_strict_ddl Mysql (spell l) = parse_statement Mysql (spell l) (SDdl d).
Proof.
  intros W (s & L & A). unfold parse_ddl. replace (parse_strict_ddl Mysql (spell l)) with (Ok (SDdl d)); [reflexivity|].
  symmetry. exact (leads_accept _ _ _ _ _ (mpieces_say l W) L A).
Qed.

(** ** Columns *)
Lemma atoi_number z : my_number z = true -> atoi (show_Z z) = (z, true).
Proof.
  unfold my_number. rewrite andb_true_iff. intros [A B]. apply Z.leb_le in A. apply Z.ltb_lt in B. apply atoi_show. unfold int_min, int_max. lia.
Qed.
Lemma number_read z : my_number z = true -> parse_value (mkSqlVal IntVal (show_Z z)) = integer_value z.
Proof. intros H. unfold parse_value. cbn [sv_type sv_val]. now rewrite (atoi_number z H). Qed.
Lemma numbers_read o : all_opt my_number o = true -> option_map parse_value (option_map (fun z => mkSqlVal IntVal (show_Z z)) o) = option_map integer_value o.
Proof. destruct o as [z|]; [|reflexivity]. cbn [all_opt option_map]. intros H. now rewrite (number_read z H). Qed.
Lemma not_binary co options : all_opt my_word co = true -> normalize_collate (or_empty co) options = or_empty co.
Proof.
  unfold normalize_collate. destruct (String.eqb_spec (or_empty co) "binary") as [E|_]; [|reflexivity]. destruct co as [c|]; [|discriminate].
  cbn [or_empty] in E. subst. vm_compute. discriminate.
Qed.
Lemma default_read d : my_default_ok d = true -> parse_value (my_default_val d) = ideal_default d.
Proof. destruct d as [|s|z|n|s]; try reflexivity. exact (number_read z). Qed.

Lemma my_column_read options p c : my_column_ok c = true -> parse_column options p (my_definition c) = set_position p (my_ideal_column c).
Proof.
  unfold my_column_ok. rewrite !andb_true_iff. intros [[[[N T] D] U] C]. destruct c as [n ty nl de on au co]. cbn [SpecShownMysql.mc_name SpecShownMysql.mc_type SpecShownMysql.mc_default mc_on_update mc_comment] in *.
  unfold my_definition, my_column_value, my_ideal_column. cbn [SpecShownMysql.mc_name SpecShownMysql.mc_type SpecShownMysql.mc_default mc_on_update mc_comment mc_null mc_auto].
  assert (V : forall w u len sc cs cl en, all_opt my_number len = true -> all_opt my_number sc = true -> all_opt my_word cl = true ->
    parse_column options p (mkColumnDefinition n ((fun t => if au then set_ct_autoincrement true t else t)
    (opt (fun k => set_ct_on_update (Some (now_val k))) on
      (opt (fun d => set_ct_default (Some (mkSqlDefault (Some (my_default_val d)) ""))) de
        (opt (fun b => set_ct_not_null (Some b)) nl (my_typed w u len sc cs cl (map in_quotes en))))))) =
    set_position p (mkColumn n 0 w u nl au false
      (option_map (fun d => mkDefault (Some (ideal_default d)) "") de)
      (option_map integer_value len) (option_map integer_value sc) None false (or_empty cs) (or_empty cl) false KeyNone
      (option_map now_value on) (map (fun s => "'" ++ s ++ "'")%string en) "" None None)).
  { intros w u len sc cs cl en L S W. rewrite <- (numbers_read len L), <- (numbers_read sc S).
    assert (E := not_binary cl options W). revert E. unfold parse_column, set_position, my_typed. generalize (or_empty cs) (or_empty cl). intros cs' cl' E.
    assert (F : forall d, de = Some d -> parse_value (my_default_val d) = ideal_default d) by (intros d ->; exact (default_read d D)).
    destruct au, on as [o|], de as [d|], nl as [b|]; cbn -[parse_value ideal_default normalize_collate map my_default_val]; rewrite ?(F _ eq_refl), E; reflexivity. }
  destruct ty as [w len u|w len u|z s u|w len|w|w z cs cl|w z|w cs cl|w x l cs cl]; cbn [my_type_value my_type_ok] in *; rewrite ?andb_true_iff in T; cbn [my_type_word].
  - apply (V w u len None None None []); tauto.
  - apply (V w u (option_map fst len) (option_map snd len) None None []); destruct len as [[z k]|]; cbn in *; rewrite ?andb_true_iff in T; tauto.
  - apply (V "decimal" u (Some z) (Some s) None None []); tauto.
  - apply (V w false len None None None []); tauto.
  - apply (V w false None None None None []); tauto.
  - apply (V w false (Some z) None cs cl []); tauto.
  - apply (V w false (Some z) None None None []); tauto.
  - apply (V w false None None cs cl []); tauto.
  - apply (V w false None None cs cl (x :: l)); tauto.
Qed.
Lemma my_columns_read options l : forallb my_column_ok l = true -> forall p,
  parse_columns options p (map my_definition l) = SpecMysql.number p (map my_ideal_column l).
Proof.
  induction l as [|c l IH]; intros K p; [reflexivity|]. cbn [forallb] in K. apply andb_true_iff in K as [K1 K2]. cbn [map parse_columns SpecMysql.number].
  now rewrite (IH K2), (my_column_read options p c K1).
Qed.
Lemma no_checks l : forallb check_prints (map my_definition l) = true.
Proof.
  apply forallb_forall. intros x X. apply in_map_iff in X as (c & <- & _). unfold check_prints, my_definition, my_column_value. cbn [cd_type].
  destruct c as [n ty nl de on au co]. cbn [SpecShownMysql.mc_name SpecShownMysql.mc_type SpecShownMysql.mc_default mc_on_update mc_comment mc_null mc_auto].
  destruct au, on, de, nl, ty; reflexivity.
Qed.

(** ** Keys *)
Lemma key_columns_read l : forallb my_key_column_ok l = true ->
  parse_index_columns (map index_column l) = Ok (map (fun c => mkIndexColumn (kc_name c) (kc_length c) (if kc_desc c then "desc" else "asc")) l).
Proof.
  induction l as [|[n len b] l IH]; [reflexivity|]. cbn [forallb map parse_index_columns]. intros K. apply andb_true_iff in K as [K1 K2]. rewrite (IH K2).
  unfold my_key_column_ok in K1. cbn [kc_name kc_length] in K1. apply andb_true_iff in K1 as [_ K1].
  unfold index_column. cbn [sic_length sic_column sic_direction kc_name kc_length kc_desc]. destruct len as [z|]; [|reflexivity].
  cbn [option_map parse_length sv_type sv_val]. cbn [all_opt] in K1. now rewrite (atoi_number z K1).
Qed.
Lemma key_options_read l : forallb my_key_option_ok l = true -> map parse_index_option (map key_option_value l) = map ideal_key_option l.
Proof.
  induction l as [|o l IH]; [reflexivity|]. cbn [forallb map]. intros K. apply andb_true_iff in K as [K1 K2]. rewrite (IH K2). f_equal.
  destruct o as [w|z|s]; try reflexivity. cbn [my_key_option_ok] in K1. unfold parse_index_option. cbn [key_option_value sio_name sio_value option_map ideal_key_option].
  now rewrite (number_read z K1).
Qed.
Lemma my_key_read k : my_key_ok k = true -> parse_index_definition (my_key_value k) = Ok (my_ideal_key k).
Proof.
  unfold my_key_ok. rewrite !andb_true_iff. intros [[N C] O]. unfold parse_index_definition, my_key_value. cbn [xd_columns xd_info xd_options xd_partition].
  rewrite (key_columns_read _ C). cbn [bind]. rewrite (key_options_read _ O). unfold my_ideal_key, key_info.
  destruct (mk_kind k); try reflexivity. apply String.eqb_eq in N. now rewrite N.
Qed.
Lemma my_keys_read l : forallb my_key_ok l = true -> parse_index_definitions (map my_key_value l) = Ok (map my_ideal_key l).
Proof.
  induction l as [|k l IH]; [reflexivity|]. cbn [forallb map parse_index_definitions]. intros K. apply andb_true_iff in K as [K1 K2].
  now rewrite (my_key_read k K1), (IH K2).
Qed.

(** ** Statements *)
Lemma my_table_reads t : my_table_ok t = true ->
  my_reads (show_create_table t) (CreateTable "" (with_columns (SpecMysql.number 0 (t_columns (my_ideal_table t))) (my_ideal_table t))).
Proof.
  intros K. destruct (my_table_runs t K) as (s & R). unfold my_reads, show_create_table.
  rewrite (my_text_reads _ (my_table_value t s)); [|now apply part_written, table_part|now rewrite (table_words t K)].
  unfold my_table_ok in K. rewrite !andb_true_iff in K. destruct K as [[[[K1 K2] K3] K4] K5].
  unfold parse_statement, my_table_value, create_table. cbn [dd_action]. cbn [String.eqb Ascii.eqb Bool.eqb].
  unfold parse_table. cbn [dd_table_spec dd_new_name ts_columns ts_indexes ts_fks ts_options].
  rewrite no_checks. cbn [negb]. rewrite (my_keys_read _ K3). cbn [bind]. rewrite (my_columns_read _ _ K2).
  eexists. split; [reflexivity|]. cbn [without_text]. unfold with_columns, my_ideal_table. cbn [t_name t_columns t_indexes t_fks t_policies].
  f_equal. f_equal. rewrite map_map. reflexivity.
Qed.
Lemma my_view_reads v : my_view_ok v = true -> my_reads (my_view_text (mv_name v) (view_definition v)) (DView (my_ideal_view v)).
Proof.
  intros K. rewrite view_text. unfold my_reads. rewrite (my_text_reads _ (my_view_value v)).
  - eexists. split; reflexivity.
  - now apply part_written, view_part.
  - rewrite view_words. now apply my_view_runs.
Qed.
Lemma my_trigger_reads t : my_trigger_ok t = true -> my_reads (spell (trigger_pieces t)) (DTrigger (my_ideal_trigger t)).
Proof.
  intros K. unfold my_reads. rewrite (my_text_reads _ (my_trigger_value t)).
  - eexists. split; reflexivity.
  - now apply part_written, trigger_part.
  - rewrite trigger_words. now apply my_trigger_runs.
Qed.
