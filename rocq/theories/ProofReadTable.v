(** CREATE TABLE and CREATE INDEX as the export writes them, read by sqldef. *)
From Coq Require Import String Ascii List ZArith Bool Lia.
From Verif Require Import GoStr GoStrFacts Ast Formatter Generator Lexer Keywords Numerals SqlAst SchemaParse ParserTables ParserValues ParserActions Parser
  SpecLexer SpecLayout SpecPlan SpecPostgres SpecShown ProofOrder ProofRun ProofLead ProofReadEx ProofReadColumn.
Import ListNotations.
Local Open Scope Z_scope.
Local Open Scope list_scope.

(** The parser ends with a statement. *)
Definition ends_in (s : tparser) (d : sql_ddl) : Prop := exists s', leads s s' /\ tstep s' = TAccept (Some (SDdl d)).
Lemma leads_ends s s' d : leads s s' -> ends_in s' d -> ends_in s d.
Proof. intros L (e & L' & A). exists e. split; [eapply leads_trans; eauto|exact A]. Qed.
Ltac finish :=
  eexists; split;
  [eapply (until_leads 80 1); cbv -[format_id to_lower String.append encode_bytes_sql format_table alias show_Z]; reflexivity|
   cbv -[format_id to_lower String.append encode_bytes_sql format_table alias show_Z]; reflexivity].

(** ** Lists of keys *)
Definition key_place (q0 ql qe : Z) : Prop := In (q0, ql, qe) [(1097, 1279, 1397); (1570, 1623, 1659); (1562, 1609, 1645); (1434, 1512, 1569)].
Definition key_column (k : string * bool) : sql_index_column := mkSqlIndexColumn (fst k) None (if snd k then "desc" else "asc").
Definition desc_tokens (b : bool) : list token := if b then [T "DESC" "desc"] else [].
Definition more_keys (l : list (string * bool)) : list token := flat_map (fun k => comma :: name_token (fst k) :: desc_tokens (snd k)) l.

Section Keys.
Variables (q0 ql qe : Z) (v0 : yval) (st : list (Z * yval)) (tr : option statement).
Hypothesis place : key_place q0 ql qe.
Ltac places := destruct place as [E|[E|[E|[E|[]]]]]; injection E as <- <- <-.
Lemma keys_first k t c R : 
  leads (mkT ((352, YStr (fst k)) :: (q0, v0) :: st) None (desc_tokens (snd k) ++ comma :: name_token c :: R) 0 t)
    (mkT ((352, YStr c) :: (1398, YStr "") :: (ql, YIndexColumns [key_column k]) :: (q0, v0) :: st) None R 0 t).
Proof. places; destruct k as [n []]; go. Qed.
Lemma keys_only k t R :
  leads (mkT ((352, YStr (fst k)) :: (q0, v0) :: st) None (desc_tokens (snd k) ++ rpar :: R) 0 t)
    (mkT ((qe, YStr "") :: (ql, YIndexColumns [key_column k]) :: (q0, v0) :: st) None R 0 t).
Proof. places; destruct k as [n []]; go. Qed.
Lemma keys_next cols k t c R :
  leads (mkT ((352, YStr (fst k)) :: (1398, YStr "") :: (ql, YIndexColumns cols) :: (q0, v0) :: st) None (desc_tokens (snd k) ++ comma :: name_token c :: R) 0 t)
    (mkT ((352, YStr c) :: (1398, YStr "") :: (ql, YIndexColumns (cols ++ [key_column k])) :: (q0, v0) :: st) None R 0 t).
Proof. places; destruct k as [n []]; go. Qed.
Lemma keys_last cols k t R :
  leads (mkT ((352, YStr (fst k)) :: (1398, YStr "") :: (ql, YIndexColumns cols) :: (q0, v0) :: st) None (desc_tokens (snd k) ++ rpar :: R) 0 t)
    (mkT ((qe, YStr "") :: (ql, YIndexColumns (cols ++ [key_column k])) :: (q0, v0) :: st) None R 0 t).
Proof. places; destruct k as [n []]; go. Qed.

Lemma keys_rest l : forall cols k R,
  leads (mkT ((352, YStr (fst k)) :: (1398, YStr "") :: (ql, YIndexColumns cols) :: (q0, v0) :: st) None (desc_tokens (snd k) ++ more_keys l ++ rpar :: R) 0 tr)
    (mkT ((qe, YStr "") :: (ql, YIndexColumns (cols ++ map key_column (k :: l))) :: (q0, v0) :: st) None R 0 tr).
Proof.
  induction l as [|k' l IH]; intros cols k R; [apply keys_last|].
  unfold more_keys. cbn [flat_map map]. rewrite <- !app_assoc. cbn [app]. eapply leads_trans; [apply keys_next|].
  replace (cols ++ key_column k :: key_column k' :: map key_column l) with ((cols ++ [key_column k]) ++ map key_column (k' :: l)) by (now rewrite <- app_assoc).
  apply IH.
Qed.
Lemma keys_lead k l R :
  leads (mkT ((352, YStr (fst k)) :: (q0, v0) :: st) None (desc_tokens (snd k) ++ more_keys l ++ rpar :: R) 0 tr)
    (mkT ((qe, YStr "") :: (ql, YIndexColumns (map key_column (k :: l))) :: (q0, v0) :: st) None R 0 tr).
Proof.
  destruct l as [|k' l]; [apply keys_only|]. unfold more_keys. cbn [flat_map map]. rewrite <- !app_assoc. cbn [app].
  eapply leads_trans; [apply keys_first|]. change (key_column k :: key_column k' :: map key_column l) with ([key_column k] ++ map key_column (k' :: l)). apply keys_rest.
Qed.
End Keys.

(** ** CREATE TABLE *)
Definition create_table (schema name : string) (spec : option table_spec) : sql_ddl :=
  mkDDL "create" no_table (mkTableName name schema) spec None [] None None None None.
Definition table_at (schema name : string) (l : list (Z * yval)) : list (Z * yval) :=
  l ++ [(65, YStr ""); (29, YStmt (SDdl (create_table schema name None))); (0, YNone)].
Definition with_column (s : table_spec) (d : column_definition) : table_spec := mkTableSpec (ts_columns s ++ [d]) (ts_indexes s) (ts_fks s) (ts_options s).

Section Table.
Variables schema name : string.
Notation at_ l := (mkT (table_at schema name l)).
Lemma table_start c R : leads (tstart (T "CREATE" "create" :: T "TABLE" "table" :: name_token schema :: dot :: name_token name :: lpar :: name_token c :: R))
  (at_ [(463, YStr c)] None R 0 None).
Proof. unfold table_at, create_table. cbn [app]. go. Qed.
Lemma column_first c ty t R : In t after_column ->
  leads (at_ [(673, YType ty); (463, YStr c)] None (t :: R) 0 None)
    (at_ [(461, YSpec (mkTableSpec [mkColumnDefinition c ty] [] [] ""))] None (t :: R) 0 None).
Proof. intros H. unfold table_at. cbn [app]. cbv [after_column] in H. each_in H; go. Qed.
Lemma column_next sp c R : leads (at_ [(461, YSpec sp)] None (comma :: name_token c :: R) 0 None)
  (at_ [(463, YStr c); (672, YStr ""); (461, YSpec sp)] None R 0 None).
Proof. unfold table_at. cbn [app]. go. Qed.
Lemma column_end sp c ty t R : In t after_column ->
  leads (at_ [(673, YType ty); (463, YStr c); (672, YStr ""); (461, YSpec sp)] None (t :: R) 0 None)
    (at_ [(461, YSpec (with_column sp (mkColumnDefinition c ty)))] None (t :: R) 0 None).
Proof. intros H. unfold table_at. cbn [app]. cbv [after_column] in H. destruct sp. each_in H; go. Qed.

Variable unique : string -> bool.
Definition column_words (c : shown_column) : list token := name_token (sc_name c) :: column_tokens (unique (sc_name c)) c.
Definition definition_of (c : shown_column) : column_definition := mkColumnDefinition (sc_name c) (column_value (unique (sc_name c)) c).
Definition more_columns (l : list shown_column) : list token := flat_map (fun c => comma :: column_words c) l.

Lemma columns_rest l : forall sp t R, forallb column_ok l = true -> In t after_column ->
  leads (at_ [(461, YSpec sp)] None (more_columns l ++ t :: R) 0 None)
    (at_ [(461, YSpec (mkTableSpec (ts_columns sp ++ map definition_of l) (ts_indexes sp) (ts_fks sp) (ts_options sp)))] None (t :: R) 0 None).
Proof.
  induction l as [|c l IH]; intros sp t R K H.
  - cbn. rewrite app_nil_r. destruct sp. apply leads_refl.
  - cbn [forallb] in K. apply andb_true_iff in K as [K1 K2]. unfold more_columns. cbn [flat_map column_words]. cbn [app]. rewrite <- app_assoc. cbn [app].
    eapply leads_trans; [apply column_next|]. fold (more_columns l).
    assert (X : exists t' R', more_columns l ++ t :: R = t' :: R' /\ In t' after_column).
    { destruct l; [now exists t, R|]. eexists comma, _. split; [reflexivity|cbn; tauto]. }
    destruct X as (t' & R' & E & I). rewrite E. eapply leads_trans; [exact (column_leads _ _ _ _ c t' R' K1 I)|].
    eapply leads_trans; [apply (column_end sp _ _ _ _ I)|]. rewrite <- E.
    replace (ts_columns sp ++ map definition_of (c :: l)) with (ts_columns (with_column sp (definition_of c)) ++ map definition_of l) by (cbn; now rewrite <- app_assoc).
    exact (IH (with_column sp (definition_of c)) t R K2 H).
Qed.

Definition key_definition (l : list string) : index_definition :=
  mkIndexDefinition (mkIndexInfo "primary key" "PRIMARY" true true false) (map (fun c => key_column (c, false)) l) [] None.
Lemma key_start sp c R : leads (at_ [(461, YSpec sp)] None (comma :: T "PRIMARY" "primary" :: T "KEY" "key" :: lpar :: name_token c :: R) 0 None)
  (at_ [(352, YStr c); (1097, YStr ""); (911, YIndexInfo (mkIndexInfo "primary key" "PRIMARY" true true false)); (672, YStr ""); (461, YSpec sp)] None R 0 None).
Proof. unfold table_at. cbn [app]. go. Qed.
Lemma key_end sp l R : leads (at_ [(1397, YStr ""); (1279, YIndexColumns l); (1097, YStr ""); (911, YIndexInfo (mkIndexInfo "primary key" "PRIMARY" true true false)); (672, YStr ""); (461, YSpec sp)] None (rpar :: R) 0 None)
  (at_ [(461, YSpec (mkTableSpec (ts_columns sp) (ts_indexes sp ++ [mkIndexDefinition (mkIndexInfo "primary key" "PRIMARY" true true false) l [] None]) (ts_fks sp) (ts_options sp)))] None (rpar :: R) 0 None).
Proof. unfold table_at. cbn [app]. destruct sp. go. Qed.
Lemma table_end sp : ts_options sp = ""%string -> ends_in (at_ [(461, YSpec sp)] None [rpar] 0 None) (create_table schema name (Some sp)).
Proof. unfold table_at, create_table. cbn [app]. intros E. destruct sp as [a b c d]. cbn in E. subst d. finish. Qed.

Definition key_tokens (l : list string) : list token :=
  match l with
  | [] => []
  | c :: l => comma :: T "PRIMARY" "primary" :: T "KEY" "key" :: lpar :: name_token c :: more_keys (map (fun c => (c, false)) l) ++ [rpar]
  end.
Definition table_tokens (cols : list shown_column) (key : list string) : list token :=
  match cols with
  | [] => []
  | c :: l =>
      T "CREATE" "create" :: T "TABLE" "table" :: name_token schema :: dot :: name_token name :: lpar ::
      column_words c ++ more_columns l ++ key_tokens key ++ [rpar]
  end.
Definition table_value (cols : list shown_column) (key : list string) : sql_ddl :=
  create_table schema name (Some (mkTableSpec (map definition_of cols) match key with [] => [] | _ => [key_definition key] end [] "")).

Lemma table_runs cols key : cols <> [] -> forallb column_ok cols = true -> ends_in (tstart (table_tokens cols key)) (table_value cols key).
Proof.
  destruct cols as [|c l]; [contradiction|]. intros _ K. cbn [forallb] in K. apply andb_true_iff in K as [K1 K2].
  unfold table_tokens, column_words. cbn [app]. eapply leads_ends; [apply table_start|].
  assert (Y : exists t R, key_tokens key ++ [rpar] = t :: R /\ In t after_column).
  { destruct key; eexists _, _; (split; [reflexivity|cbn; tauto]). }
  destruct Y as (t & R & E & H). rewrite E.
  assert (X : exists t' R', more_columns l ++ t :: R = t' :: R' /\ In t' after_column).
  { destruct l; [now exists t, R|]. eexists comma, _. split; [reflexivity|cbn; tauto]. }
  destruct X as (t' & R' & E' & I). rewrite E'. eapply leads_ends; [exact (column_leads _ _ _ _ c t' R' K1 I)|].
  eapply leads_ends; [apply (column_first _ _ _ _ I)|]. rewrite <- E'. eapply leads_ends; [exact (columns_rest l _ t R K2 H)|]. rewrite <- E. clear.
  unfold table_value. cbn [ts_columns ts_indexes ts_fks ts_options app]. fold (definition_of c). change (definition_of c :: map definition_of l) with (map definition_of (c :: l)).
  destruct key as [|k key]; [now apply table_end|]. unfold key_tokens. cbn [app]. rewrite <- app_assoc. eapply leads_ends; [apply key_start|].
  eapply leads_ends.
  { unfold table_at. cbn [app]. refine (keys_lead 1097 1279 1397 _ _ None (or_introl eq_refl) (k, false) _ _). }
  eapply leads_ends; [exact (key_end _ _ [])|]. cbn [ts_columns ts_indexes ts_fks ts_options app].
  unfold key_definition. replace (map (fun c => key_column (c, false)) (k :: key)) with (map key_column ((k, false) :: map (fun c => (c, false)) key)) by (cbn; now rewrite map_map).
  now apply table_end.
Qed.
End Table.
