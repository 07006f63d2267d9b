(** CREATE TABLE and CREATE INDEX of the SQL Server export, read by sqldef. *)
From Coq Require Import String Ascii List ZArith Bool Lia.
From Verif Require Import GoStr GoStrFacts Ast Formatter Generator Lexer Keywords Numerals SqlAst SchemaParse ParserTables ParserValues ParserActions Parser
  SpecLexer SpecLayout SpecPlan SpecShown SpecShownMssql ProofOrder ProofRun ProofLead ProofReadEx ProofReadColumn ProofReadTable ProofReadMsColumn.
From Verif Require ProofReadMyTable.
Import ListNotations.
Local Open Scope Z_scope.
Local Open Scope list_scope.

Notation equals := ProofReadMyTable.equals.
Notation with_key := ProofReadMyTable.with_key.
Notation with_fk := ProofReadMyTable.with_fk.

(** ** The options of an index *)
Definition switch_token (b : bool) : token := if b then T "ON" "on" else T "OFF" "off".
Definition switch_value (b : bool) : sql_val := mkSqlVal ValBool (if b then "true" else "false").
Definition option_words : list (string * string) :=
  [("PAD_INDEX", "pad_index"); ("IGNORE_DUP_KEY", "ignore_dup_key"); ("STATISTICS_NORECOMPUTE", "statistics_norecompute");
   ("STATISTICS_INCREMENTAL", "statistics_incremental"); ("ALLOW_ROW_LOCKS", "allow_row_locks"); ("ALLOW_PAGE_LOCKS", "allow_page_locks")]%string.
Definition switched (w : string * string) (b : bool) : list token := [T (fst w) (snd w); equals; switch_token b].
Definition switched_value (w : string * string) (b : bool) : sql_index_option := mkSqlIndexOption (snd w) (Some (switch_value b)).
Definition filled (z : Z) : list token := [T "FILLFACTOR" "fillfactor"; equals; number_token z].
Definition filled_value (z : Z) : sql_index_option := mkSqlIndexOption "fillfactor" (Some (mkSqlVal IntVal (show_Z z))).

Ltac via q := eapply leads_trans; [eapply (until_leads 80 q); cbv -[format_id to_lower String.append encode_bytes_sql format_table alias show_Z]; reflexivity|].

Section Options.
Variables (st : list (Z * yval)).
Notation at_ l := (mkT ((1593, YIndexOptions l) :: (1546, YStr "") :: (1477, YStr "with") :: st)).
Lemma switched_first w b t R : In w option_words -> In t after_column ->
  leads (mkT ((1546, YStr "") :: (1477, YStr "with") :: st) None (switched w b ++ t :: R) 0 None) (at_ [switched_value w b] None (t :: R) 0 None).
Proof.
  intros W H. cbv [option_words In] in W. cbv [after_column In] in H.
  repeat (destruct W as [<-|W]); try contradiction; destruct b; (destruct H as [<-|[<-|[]]]); go.
Qed.
Lemma switched_next l w b t R : In w option_words -> In t after_column ->
  leads (at_ l None (comma :: switched w b ++ t :: R) 0 None) (at_ (l ++ [switched_value w b]) None (t :: R) 0 None).
Proof.
  intros W H. cbv [option_words In] in W. cbv [after_column In] in H.
  repeat (destruct W as [<-|W]); try contradiction; destruct b; (destruct H as [<-|[<-|[]]]); go.
Qed.
Lemma filled_next l z t R : In t after_column ->
  leads (at_ l None (comma :: filled z ++ t :: R) 0 None) (at_ (l ++ [filled_value z]) None (t :: R) 0 None).
Proof. intros H. cbv [after_column In] in H. (destruct H as [<-|[<-|[]]]); go. Qed.

Definition mq_options_inside (o : mq_options) : list token :=
  switched ("PAD_INDEX", "pad_index")%string (mqo_padded o) ++ comma :: filled (mqo_fill o) ++
  comma :: switched ("IGNORE_DUP_KEY", "ignore_dup_key")%string (mqo_ignore_dup o) ++
  comma :: switched ("STATISTICS_NORECOMPUTE", "statistics_norecompute")%string (mqo_no_recompute o) ++
  comma :: switched ("STATISTICS_INCREMENTAL", "statistics_incremental")%string (mqo_incremental o) ++
  comma :: switched ("ALLOW_ROW_LOCKS", "allow_row_locks")%string (mqo_row_locks o) ++
  comma :: switched ("ALLOW_PAGE_LOCKS", "allow_page_locks")%string (mqo_page_locks o).
Definition mq_options_value (o : mq_options) : list sql_index_option :=
  [switched_value ("PAD_INDEX", "pad_index")%string (mqo_padded o); filled_value (mqo_fill o);
   switched_value ("IGNORE_DUP_KEY", "ignore_dup_key")%string (mqo_ignore_dup o);
   switched_value ("STATISTICS_NORECOMPUTE", "statistics_norecompute")%string (mqo_no_recompute o);
   switched_value ("STATISTICS_INCREMENTAL", "statistics_incremental")%string (mqo_incremental o);
   switched_value ("ALLOW_ROW_LOCKS", "allow_row_locks")%string (mqo_row_locks o);
   switched_value ("ALLOW_PAGE_LOCKS", "allow_page_locks")%string (mqo_page_locks o)].
Lemma mq_options_lead o R :
  leads (mkT ((1546, YStr "") :: (1477, YStr "with") :: st) None (mq_options_inside o ++ rpar :: R) 0 None) (at_ (mq_options_value o) None (rpar :: R) 0 None).
Proof.
  unfold mq_options_inside, mq_options_value. rewrite <- !app_assoc, <- !app_comm_cons, <- !app_assoc, <- !app_comm_cons, <- !app_assoc, <- !app_comm_cons, <- !app_assoc.
  eapply leads_trans; [apply switched_first; cbn; tauto|]. eapply leads_trans; [apply filled_next; cbn; tauto|].
  rewrite <- ?app_assoc, <- ?app_comm_cons.
  do 5 (eapply leads_trans; [apply switched_next; cbn; tauto|]; rewrite <- ?app_assoc, <- ?app_comm_cons). apply leads_refl.
Qed.
End Options.
Definition mq_options_tokens (o : mq_options) : list token := T "WITH" "with" :: lpar :: mq_options_inside o ++ [rpar].

(** ** Primary keys *)
Definition clustered_token (b : bool) : token := if b then T "CLUSTERED" "clustered" else T "NONCLUSTERED" "nonclustered".
Definition mq_columns_tokens (i : mq_index) : list token := name_token (fst (mqi_first i)) :: desc_tokens (snd (mqi_first i)) ++ more_keys (mqi_others i).
Definition mq_key_tokens (i : mq_index) : list token :=
  T "CONSTRAINT" "constraint" :: name_token (mqi_name i) :: T "PRIMARY" "primary" :: T "KEY" "key" :: clustered_token (mqi_clustered i) :: lpar ::
  mq_columns_tokens i ++ rpar :: mq_options_tokens (mqi_options i).
Definition mq_key_value (i : mq_index) : index_definition :=
  mkIndexDefinition (mkIndexInfo "primary key" (mqi_name i) true true (mqi_clustered i)) (map key_column (mqi_columns i)) (mq_options_value (mqi_options i)) None.

Section Table.
Variables schema name : string.
Notation at_ l := (mkT (table_at schema name l)).
Definition mq_key_open (sp : table_spec) (i : mq_index) : list (Z * yval) :=
  [(1499, YBool (mqi_clustered i)); (1409, YStr "key"); (1287, YStr "primary"); (1102, YStr (mqi_name i)); (913, YStr "constraint"); (672, YStr ""); (461, YSpec sp)].
Lemma mq_key_start sp i c R :
  leads (at_ [(461, YSpec sp)] None (comma :: T "CONSTRAINT" "constraint" :: name_token (mqi_name i) :: T "PRIMARY" "primary" :: T "KEY" "key" ::
           clustered_token (mqi_clustered i) :: lpar :: name_token c :: R) 0 None)
    (at_ ((352, YStr c) :: (1562, YStr "") :: mq_key_open sp i) None R 0 None).
Proof. unfold table_at, mq_key_open. cbn [app]. generalize (mqi_name i). intros n. destruct (mqi_clustered i); via 1562; go. Qed.
Lemma mq_key_with sp i cols R :
  leads (at_ ((1645, YStr "") :: (1609, YIndexColumns cols) :: (1562, YStr "") :: mq_key_open sp i) None (T "WITH" "with" :: lpar :: R) 0 None)
    (at_ ((1546, YStr "") :: (1477, YStr "with") :: (1645, YStr "") :: (1609, YIndexColumns cols) :: (1562, YStr "") :: mq_key_open sp i) None R 0 None).
Proof. unfold table_at, mq_key_open. cbn [app]. go. Qed.
Lemma mq_key_end sp i cols o t R : In t after_column ->
  leads (at_ ((1593, YIndexOptions o) :: (1546, YStr "") :: (1477, YStr "with") :: (1645, YStr "") :: (1609, YIndexColumns cols) :: (1562, YStr "") :: mq_key_open sp i) None (rpar :: t :: R) 0 None)
    (at_ [(461, YSpec (with_key sp (mkIndexDefinition (mkIndexInfo "primary key" (mqi_name i) true true (mqi_clustered i)) cols o None)))] None (t :: R) 0 None).
Proof. intros H. unfold table_at, mq_key_open. cbn [app]. destruct sp. cbv [after_column In] in H. (destruct H as [<-|[<-|[]]]); go. Qed.
Lemma mq_key_leads sp i t R : In t after_column ->
  leads (at_ [(461, YSpec sp)] None (comma :: mq_key_tokens i ++ t :: R) 0 None) (at_ [(461, YSpec (with_key sp (mq_key_value i)))] None (t :: R) 0 None).
Proof.
  intros H. unfold mq_key_tokens, mq_key_value, mq_options_tokens, mq_columns_tokens. rewrite <- !app_comm_cons, <- !app_assoc, <- !app_comm_cons, <- !app_assoc.
  eapply leads_trans; [apply mq_key_start|]. rewrite <- ?app_assoc, <- ?app_comm_cons, <- ?app_assoc.
  eapply leads_trans; [unfold table_at; cbn [app]; refine (keys_lead 1562 1609 1645 _ _ None _ (mqi_first i) (mqi_others i) _); cbn; tauto|].
  eapply leads_trans; [exact (mq_key_with sp i _ _)|]. eapply leads_trans; [unfold table_at; cbn [app]; apply mq_options_lead|].
  exact (mq_key_end sp i _ _ t R H).
Qed.

(** ** Foreign keys *)
Definition mq_action_tokens (a : mq_action) : list token :=
  match a with QNoAction => [T "NO" "no"; T "ACTION" "action"] | QCascade => [T "CASCADE" "cascade"] | QSetNull => [T "SET" "set"; T "NULL" "null"] end.
Definition mq_fk_tokens (f : mq_fk) : list token :=
  T "CONSTRAINT" "constraint" :: name_token (mqf_name f) :: T "FOREIGN" "foreign" :: T "KEY" "key" :: lpar :: name_token (mqf_column f) ::
  rpar :: T "REFERENCES" "references" :: name_token (mqf_table f) :: lpar :: name_token (mqf_ref_column f) :: rpar ::
  T "ON" "on" :: T "UPDATE" "update" :: mq_action_tokens (mqf_update f) ++ T "ON" "on" :: T "DELETE" "delete" :: mq_action_tokens (mqf_delete f) ++
  mq_replication_tokens (mqf_not_for_replication f).
Definition mq_fk_value (f : mq_fk) : fk_definition :=
  mkFkDefinition (mqf_name f) "" [mqf_column f] (mqf_table f) [mqf_ref_column f] (mq_action_words (mqf_delete f)) (mq_action_words (mqf_update f)) (mqf_not_for_replication f).
Lemma mq_fk_end sp f x R : In x after_column ->
  leads (at_ ((1696, YStrs [mqf_ref_column f]) :: (1692, YStr "") :: (1684, YTable (mkTableName (mqf_table f) "")) :: (1669, YStr "references") ::
              ProofReadMyTable.fk_from sp (mqf_name f) [mqf_column f]) None
           (rpar :: T "ON" "on" :: T "UPDATE" "update" :: mq_action_tokens (mqf_update f) ++ T "ON" "on" :: T "DELETE" "delete" :: mq_action_tokens (mqf_delete f) ++
              mq_replication_tokens (mqf_not_for_replication f) ++ x :: R) 0 None)
    (at_ [(461, YSpec (with_fk sp (mq_fk_value f)))] None (x :: R) 0 None).
Proof.
  intros H. unfold table_at, ProofReadMyTable.fk_from, ProofReadMyTable.fk_open, mq_fk_value. cbn [app]. destruct sp, f as [a b c d u v r].
  cbv [after_column In] in H. destruct u, v, r; (destruct H as [<-|[<-|[]]]); go.
Qed.
Lemma mq_fk_leads sp f t R : In t after_column ->
  leads (at_ [(461, YSpec sp)] None (comma :: mq_fk_tokens f ++ t :: R) 0 None) (at_ [(461, YSpec (with_fk sp (mq_fk_value f)))] None (t :: R) 0 None).
Proof.
  intros H. unfold mq_fk_tokens. rewrite <- !app_comm_cons, <- !app_assoc, <- !app_comm_cons, <- !app_assoc.
  eapply leads_trans; [apply ProofReadMyTable.fk_start|].
  eapply leads_trans; [unfold table_at; cbn [app]; refine (ProofReadMyTable.names_lead 1561 1608 _ _ _ [] _ (or_introl eq_refl))|].
  eapply leads_trans; [exact (ProofReadMyTable.fk_references schema name sp _ _ _ _)|].
  eapply leads_trans; [unfold table_at; cbn [app]; refine (ProofReadMyTable.names_lead 1692 1696 _ _ _ [] _ (or_intror eq_refl))|].
  exact (mq_fk_end sp f t R H).
Qed.
End Table.

(** ** The whole table *)
Section Whole.
Variable t : mq_table.
Notation at_ l := (mkT (table_at (mqt_schema t) (mqt_name t) l)).
Definition mq_column_words (c : mq_column) : list token := name_token (mqc_name c) :: mq_column_tokens c.
Definition mq_definition (c : mq_column) : column_definition := mkColumnDefinition (mqc_name c) (mq_column_value c).
Definition mq_more_columns (l : list mq_column) : list token := flat_map (fun c => comma :: mq_column_words c) l.
Definition mq_more_keys (l : list mq_index) : list token := flat_map (fun k => comma :: mq_key_tokens k) l.
Definition mq_more_fks (l : list mq_fk) : list token := flat_map (fun f => comma :: mq_fk_tokens f) l.

Lemma mq_columns_rest l : forall sp x R, forallb mq_column_ok l = true -> In x after_column ->
  leads (at_ [(461, YSpec sp)] None (mq_more_columns l ++ x :: R) 0 None)
    (at_ [(461, YSpec (mkTableSpec (ts_columns sp ++ map mq_definition l) (ts_indexes sp) (ts_fks sp) (ts_options sp)))] None (x :: R) 0 None).
Proof.
  induction l as [|c l IH]; intros sp x R K H.
  - cbn. rewrite app_nil_r. destruct sp. apply leads_refl.
  - cbn [forallb] in K. apply andb_true_iff in K as [K1 K2]. unfold mq_more_columns. cbn [flat_map mq_column_words]. cbn [app]. rewrite <- app_assoc. cbn [app].
    eapply leads_trans; [apply column_next|]. fold (mq_more_columns l).
    assert (X : exists t' R', mq_more_columns l ++ x :: R = t' :: R' /\ In t' after_column).
    { destruct l; [now exists x, R|]. eexists comma, _. split; [reflexivity|cbn; tauto]. }
    destruct X as (t' & R' & E & I). rewrite E. eapply leads_trans; [exact (mq_column_leads _ _ _ c t' R' K1 I)|].
    eapply leads_trans; [apply (column_end _ _ sp _ _ _ _ I)|]. rewrite <- E.
    replace (ts_columns sp ++ map mq_definition (c :: l)) with (ts_columns (with_column sp (mq_definition c)) ++ map mq_definition l) by (cbn; now rewrite <- app_assoc).
    exact (IH (with_column sp (mq_definition c)) x R K2 H).
Qed.
Lemma mq_keys_rest l : forall sp x R, In x after_column ->
  leads (at_ [(461, YSpec sp)] None (mq_more_keys l ++ x :: R) 0 None)
    (at_ [(461, YSpec (mkTableSpec (ts_columns sp) (ts_indexes sp ++ map mq_key_value l) (ts_fks sp) (ts_options sp)))] None (x :: R) 0 None).
Proof.
  induction l as [|k l IH]; intros sp x R H.
  - cbn. rewrite app_nil_r. destruct sp. apply leads_refl.
  - unfold mq_more_keys. cbn [flat_map app]. rewrite <- app_assoc. fold (mq_more_keys l).
    assert (X : exists t' R', mq_more_keys l ++ x :: R = t' :: R' /\ In t' after_column).
    { destruct l; [now exists x, R|]. eexists comma, _. split; [reflexivity|cbn; tauto]. }
    destruct X as (t' & R' & E & I). rewrite E. eapply leads_trans; [now apply mq_key_leads|]. rewrite <- E.
    replace (ts_indexes sp ++ map mq_key_value (k :: l)) with (ts_indexes (with_key sp (mq_key_value k)) ++ map mq_key_value l) by (cbn; now rewrite <- app_assoc).
    exact (IH (with_key sp (mq_key_value k)) x R H).
Qed.
Lemma mq_fks_rest l : forall sp x R, In x after_column ->
  leads (at_ [(461, YSpec sp)] None (mq_more_fks l ++ x :: R) 0 None)
    (at_ [(461, YSpec (mkTableSpec (ts_columns sp) (ts_indexes sp) (ts_fks sp ++ map mq_fk_value l) (ts_options sp)))] None (x :: R) 0 None).
Proof.
  induction l as [|k l IH]; intros sp x R H.
  - cbn. rewrite app_nil_r. destruct sp. apply leads_refl.
  - unfold mq_more_fks. cbn [flat_map app]. rewrite <- app_assoc. fold (mq_more_fks l).
    assert (X : exists t' R', mq_more_fks l ++ x :: R = t' :: R' /\ In t' after_column).
    { destruct l; [now exists x, R|]. eexists comma, _. split; [reflexivity|cbn; tauto]. }
    destruct X as (t' & R' & E & I). rewrite E. eapply leads_trans; [now apply mq_fk_leads|]. rewrite <- E.
    replace (ts_fks sp ++ map mq_fk_value (k :: l)) with (ts_fks (with_fk sp (mq_fk_value k)) ++ map mq_fk_value l) by (cbn; now rewrite <- app_assoc).
    exact (IH (with_fk sp (mq_fk_value k)) x R H).
Qed.

Definition mq_table_tokens : list token :=
  T "CREATE" "create" :: T "TABLE" "table" :: name_token (mqt_schema t) :: dot :: name_token (mqt_name t) :: lpar ::
  mq_column_words (mqt_first t) ++ mq_more_columns (mqt_columns t) ++ mq_more_keys (listed (mqt_key t)) ++ mq_more_fks (mqt_fks t) ++ [rpar].
Definition mq_table_value : sql_ddl :=
  create_table (mqt_schema t) (mqt_name t)
    (Some (mkTableSpec (map mq_definition (mqt_first t :: mqt_columns t)) (map mq_key_value (listed (mqt_key t))) (map mq_fk_value (mqt_fks t)) "")).
Lemma mq_table_runs : mq_table_ok t = true -> ends_in (tstart mq_table_tokens) mq_table_value.
Proof.
  unfold mq_table_ok. intros K. rewrite !andb_true_iff in K. destruct K as [[[[[_ _] Kc] _] _] _]. cbn [forallb] in Kc. apply andb_true_iff in Kc as [K1 K2].
  assert (H : In rpar after_column) by (cbn; tauto).
  assert (HF : exists x R, mq_more_fks (mqt_fks t) ++ [rpar] = x :: R /\ In x after_column).
  { destruct (mqt_fks t); eexists _, _; (split; [reflexivity|cbn; tauto]). }
  assert (HK : exists x R, mq_more_keys (listed (mqt_key t)) ++ mq_more_fks (mqt_fks t) ++ [rpar] = x :: R /\ In x after_column).
  { destruct (mqt_key t); [|exact HF]. eexists _, _; (split; [reflexivity|cbn; tauto]). }
  assert (HC : exists x R, mq_more_columns (mqt_columns t) ++ mq_more_keys (listed (mqt_key t)) ++ mq_more_fks (mqt_fks t) ++ [rpar] = x :: R /\ In x after_column).
  { destruct (mqt_columns t); [exact HK|]. eexists _, _; (split; [reflexivity|cbn; tauto]). }
  unfold mq_table_tokens, mq_column_words. cbn [app]. eapply leads_ends; [apply table_start|].
  destruct HC as (x & R & E & I). rewrite E. eapply leads_ends; [exact (mq_column_leads _ _ _ _ x R K1 I)|].
  eapply leads_ends; [apply (column_first _ _ _ _ _ _ I)|]. rewrite <- E. clear x R E I.
  destruct HK as (x & R & E & I). rewrite E. eapply leads_ends; [exact (mq_columns_rest (mqt_columns t) _ x R K2 I)|]. rewrite <- E. clear x R E I.
  destruct HF as (x & R & E & I). rewrite E. eapply leads_ends; [exact (mq_keys_rest (listed (mqt_key t)) _ x R I)|]. rewrite <- E. clear x R E I.
  eapply leads_ends; [exact (mq_fks_rest (mqt_fks t) _ rpar _ H)|]. now apply table_end.
Qed.
End Whole.

(** ** CREATE INDEX *)
Section Index.
Variable t : mq_table.
Variable i : mq_index.
Definition mq_included_tokens (l : list string) : list token :=
  match l with [] => [] | c :: l => T "INCLUDE" "include" :: lpar :: name_token c :: ProofReadMyTable.names_rest l ++ [rpar] end.
Definition mq_index_tokens : list token :=
  T "CREATE" "create" :: (if mqi_unique i then [T "UNIQUE" "unique"] else []) ++ clustered_token (mqi_clustered i) :: T "INDEX" "index" :: name_token (mqi_name i) ::
  T "ON" "on" :: name_token (mqt_schema t) :: dot :: name_token (mqt_name t) :: lpar :: mq_columns_tokens i ++ rpar :: mq_included_tokens (mqi_included i) ++
  mq_options_tokens (mqi_options i).
Definition mq_index_value : sql_ddl :=
  mkDDL "create index" (mkTableName (mqt_name t) (mqt_schema t)) (mkTableName (mqt_name t) (mqt_schema t)) None
    (Some (mkIndexSpec (mqi_name i) (mqi_unique i) (mqi_clustered i) (mqi_included i) None (mq_options_value (mqi_options i)) None))
    (map key_column (mqi_columns i)) None None None None.
Definition mq_index_at (l : list (Z * yval)) : list (Z * yval) :=
  l ++ [(1434, YStr ""); (1329, YTable (mkTableName (mqt_name t) (mqt_schema t))); (1163, YStr "on"); (972, YStr (mqi_name i)); (727, YStr "index");
        (464, YBool (mqi_clustered i)); (66, YBool (mqi_unique i)); (30, YStr "create"); (0, YNone)].
Notation at_ l := (mkT (mq_index_at l)).
Lemma mq_index_start c R :
  leads (tstart (T "CREATE" "create" :: (if mqi_unique i then [T "UNIQUE" "unique"] else []) ++ clustered_token (mqi_clustered i) :: T "INDEX" "index" :: name_token (mqi_name i) ::
      T "ON" "on" :: name_token (mqt_schema t) :: dot :: name_token (mqt_name t) :: lpar :: name_token c :: R))
    (at_ [(352, YStr c)] None R 0 None).
Proof.
  unfold mq_index_at. cbn [app]. generalize (mqi_name i) (mqt_schema t) (mqt_name t). intros n s tb. destruct (mqi_unique i), (mqi_clustered i).
  all: cbn [app]; via 1434; go.
Qed.
Definition mq_included_at (cols : list sql_index_column) : list (Z * yval) := [(1569, YStr ""); (1512, YIndexColumns cols)].
Lemma mq_index_include cols c x R : In x after_column ->
  leads (at_ (mq_included_at cols) None (T "INCLUDE" "include" :: lpar :: name_token c :: x :: R) 0 None)
    (at_ ((1676, YStrs [c]) :: (1658, YStr "") :: (1622, YStr "include") :: mq_included_at cols) None (x :: R) 0 None).
Proof. intros H. unfold mq_index_at, mq_included_at. cbn [app]. cbv [after_column In] in H. (destruct H as [<-|[<-|[]]]); go. Qed.
Lemma mq_index_included cols l c x R : In x after_column ->
  leads (at_ ((1676, YStrs l) :: (1658, YStr "") :: (1622, YStr "include") :: mq_included_at cols) None (comma :: name_token c :: x :: R) 0 None)
    (at_ ((1676, YStrs (l ++ [c])) :: (1658, YStr "") :: (1622, YStr "include") :: mq_included_at cols) None (x :: R) 0 None).
Proof. intros H. unfold mq_index_at, mq_included_at. cbn [app]. cbv [after_column In] in H. (destruct H as [<-|[<-|[]]]); go. Qed.
Lemma mq_index_with cols R :
  leads (at_ (mq_included_at cols) None (T "WITH" "with" :: lpar :: R) 0 None)
    (at_ ((1546, YStr "") :: (1477, YStr "with") :: (1657, YExpr None) :: (1621, YStrs []) :: mq_included_at cols) None R 0 None).
Proof. unfold mq_index_at, mq_included_at. cbn [app]. go. Qed.
Lemma mq_index_included_with cols l R :
  leads (at_ ((1676, YStrs l) :: (1658, YStr "") :: (1622, YStr "include") :: mq_included_at cols) None (rpar :: T "WITH" "with" :: lpar :: R) 0 None)
    (at_ ((1546, YStr "") :: (1477, YStr "with") :: (1657, YExpr None) :: (1621, YStrs l) :: mq_included_at cols) None R 0 None).
Proof. unfold mq_index_at, mq_included_at. cbn [app]. go. Qed.
Lemma mq_index_end cols l o :
  ends_in (at_ ((1593, YIndexOptions o) :: (1546, YStr "") :: (1477, YStr "with") :: (1657, YExpr None) :: (1621, YStrs l) :: mq_included_at cols) None [rpar] 0 None)
   (mkDDL "create index" (mkTableName (mqt_name t) (mqt_schema t)) (mkTableName (mqt_name t) (mqt_schema t)) None
     (Some (mkIndexSpec (mqi_name i) (mqi_unique i) (mqi_clustered i) l None o None)) cols None None None None).
Proof.
  unfold mq_index_at, mq_included_at. cbn [app]. generalize (mqi_name i) (mqt_schema t) (mqt_name t) (mqi_unique i) (mqi_clustered i). intros n s tb u c. finish.
Qed.
Lemma mq_index_more cols l R : forall before,
  leads (at_ ((1676, YStrs before) :: (1658, YStr "") :: (1622, YStr "include") :: mq_included_at cols) None (ProofReadMyTable.names_rest l ++ rpar :: R) 0 None)
    (at_ ((1676, YStrs (before ++ l)) :: (1658, YStr "") :: (1622, YStr "include") :: mq_included_at cols) None (rpar :: R) 0 None).
Proof.
  induction l as [|c l IH]; intros before; [cbn [ProofReadMyTable.names_rest flat_map app]; rewrite app_nil_r; apply leads_refl|].
  unfold ProofReadMyTable.names_rest. cbn [flat_map]. cbn [app]. fold (ProofReadMyTable.names_rest l).
  assert (X : exists x R', ProofReadMyTable.names_rest l ++ rpar :: R = x :: R' /\ In x after_column).
  { destruct l; eexists _, _; (split; [reflexivity|cbn; tauto]). }
  destruct X as (x & R' & E & I). rewrite E. eapply leads_trans; [now apply mq_index_included|]. rewrite <- E.
  replace (before ++ c :: l) with ((before ++ [c]) ++ l) by (now rewrite <- app_assoc). apply IH.
Qed.
Lemma mq_index_includes cols l R :
  leads (at_ (mq_included_at cols) None (mq_included_tokens l ++ T "WITH" "with" :: lpar :: R) 0 None)
    (at_ ((1546, YStr "") :: (1477, YStr "with") :: (1657, YExpr None) :: (1621, YStrs l) :: mq_included_at cols) None R 0 None).
Proof.
  destruct l as [|c l]; [apply mq_index_with|]. cbn [mq_included_tokens app]. rewrite <- app_assoc. cbn [app].
  assert (X : exists x R', ProofReadMyTable.names_rest l ++ rpar :: T "WITH" "with" :: lpar :: R = x :: R' /\ In x after_column).
  { destruct l; eexists _, _; (split; [reflexivity|cbn; tauto]). }
  destruct X as (x & R' & E & I). rewrite E. eapply leads_trans; [now apply mq_index_include|]. rewrite <- E.
  eapply leads_trans; [apply mq_index_more|]. apply mq_index_included_with.
Qed.
Lemma mq_index_runs : ends_in (tstart mq_index_tokens) mq_index_value.
Proof.
  unfold mq_index_tokens, mq_index_value, mq_columns_tokens, mq_options_tokens. rewrite <- ?app_comm_cons, <- ?app_assoc.
  eapply leads_ends; [apply mq_index_start|].
  eapply leads_ends; [unfold mq_index_at; cbn [app]; refine (keys_lead 1434 1512 1569 _ _ None _ (mqi_first i) (mqi_others i) _); cbn; tauto|].
  eapply leads_ends; [exact (mq_index_includes _ _ _)|]. eapply leads_ends; [unfold mq_index_at, mq_included_at; cbn [app]; apply mq_options_lead|].
  exact (mq_index_end _ _ _).
Qed.
End Index.
