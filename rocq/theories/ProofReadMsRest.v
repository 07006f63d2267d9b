(** Triggers of SQL Server, read by sqldef. *)
From Coq Require Import String Ascii List ZArith Bool Lia.
From Verif Require Import GoStr GoStrFacts Ast Formatter Generator Lexer Keywords Numerals SqlAst SchemaParse ParserTables ParserValues ParserActions Parser
  SpecLexer SpecLayout SpecPlan SpecShown SpecShownMssql ProofOrder ProofRun ProofLead ProofReadEx ProofReadColumn ProofReadTable ProofReadRest ProofReadMsColumn ProofReadMsTable.
From Verif Require ProofReadMyTable.
Import ListNotations.
Local Open Scope Z_scope.
Local Open Scope list_scope.
Notation names_rest := ProofReadMyTable.names_rest.

Section Trigger.
Variable t : mq_trigger.
Definition mq_event_token (e : mq_event) : token := match e with QInsert => T "INSERT" "insert" | QUpdate => T "UPDATE" "update" | QDelete => T "DELETE" "delete" end.
Definition listed_tokens (l : list string) : list token := match l with [] => [] | c :: l => name_token c :: names_rest l end.
Definition numbers_rest (l : list Z) : list token := flat_map (fun z => [comma; number_token z]) l.
Definition numbers_tokens (l : list Z) : list token := match l with [] => [] | z :: l => number_token z :: numbers_rest l end.
Definition mq_trigger_tokens : list token :=
  T "CREATE" "create" :: T "TRIGGER" "trigger" :: name_token (mqg_name t) :: T "ON" "on" :: name_token (mqg_table t) :: T "AFTER" "after" :: mq_event_token (mqg_event t) :: T "AS" "as" ::
  T "INSERT" "insert" :: T "INTO" "into" :: name_token (mqg_into t) :: lpar :: listed_tokens (mqg_columns t) ++ rpar :: T "VALUES" "values" :: lpar ::
  numbers_tokens (mqg_values t) ++ [rpar].
Definition mq_trigger_value : sql_ddl :=
  mkDDL "create trigger" no_table no_table None None [] None None None
    (Some (mkSqlTrigger (mqg_name t) (mkTableName (mqg_table t) "") "after" (to_lower (mq_event_word (mqg_event t))) [Some (mq_insert_text t)])).
Definition mq_into_at (l : list (Z * yval)) : list (Z * yval) :=
  l ++ [(1065, YNone); (858, YStrs []); (626, YTable (mkTableName (mqg_into t) "")); (327, YStr ""); (60, YStrs []); (25, YStr "insert");
        (1446, YStr "as"); (1338, YStr (snd (mq_event_token (mqg_event t)))); (1172, YStr "after"); (986, YTable (mkTableName (mqg_table t) "")); (736, YStr "on");
        (473, YStr (mqg_name t)); (72, YStr "trigger"); (30, YStr "create"); (0, YNone)].
Lemma mq_trigger_start c x R : In x after_column ->
  leads (tstart (T "CREATE" "create" :: T "TRIGGER" "trigger" :: name_token (mqg_name t) :: T "ON" "on" :: name_token (mqg_table t) :: T "AFTER" "after" :: mq_event_token (mqg_event t) ::
    T "AS" "as" :: T "INSERT" "insert" :: T "INTO" "into" :: name_token (mqg_into t) :: lpar :: name_token c :: x :: R))
    (mkT (mq_into_at [(1257, YStrs [c])]) None (x :: R) 1 None).
Proof.
  intros H. unfold mq_into_at. cbn [app]. generalize (mqg_name t) (mqg_table t) (mqg_into t). intros a b d.
  cbv [after_column In] in H. destruct (mqg_event t); (destruct H as [<-|[<-|[]]]); go.
Qed.
Lemma mq_trigger_column l c x R : In x after_column ->
  leads (mkT (mq_into_at [(1257, YStrs l)]) None (comma :: name_token c :: x :: R) 1 None) (mkT (mq_into_at [(1257, YStrs (l ++ [c]))]) None (x :: R) 1 None).
Proof. intros H. unfold mq_into_at. cbn [app]. cbv [after_column In] in H. (destruct H as [<-|[<-|[]]]); go. Qed.
Lemma mq_trigger_columns l R : forall before,
  leads (mkT (mq_into_at [(1257, YStrs before)]) None (names_rest l ++ rpar :: R) 1 None) (mkT (mq_into_at [(1257, YStrs (before ++ l))]) None (rpar :: R) 1 None).
Proof.
  induction l as [|c l IH]; intros before; [cbn [ProofReadMyTable.names_rest flat_map app]; rewrite app_nil_r; apply leads_refl|].
  unfold ProofReadMyTable.names_rest. cbn [flat_map app]. fold (names_rest l).
  assert (X : exists x R', names_rest l ++ rpar :: R = x :: R' /\ In x after_column).
  { destruct l; eexists _, _; (split; [reflexivity|cbn; tauto]). }
  destruct X as (x & R' & E & I). rewrite E. eapply leads_trans; [now apply mq_trigger_column|]. rewrite <- E.
  replace (before ++ c :: l) with ((before ++ [c]) ++ l) by (now rewrite <- app_assoc). apply IH.
Qed.
Definition number_value (z : Z) : xp := mkXp (Some (show_Z z)) (XInt (show_Z z)).
Definition mq_values_at (cols : list string) (l : list (Z * yval)) : list (Z * yval) :=
  mq_into_at (l ++ [(1255, YNone); (1464, YStr "values"); (1383, YNone); (1257, YStrs cols)]).
Lemma mq_trigger_value_first cols z x R : In x after_column ->
  leads (mkT (mq_into_at [(1257, YStrs cols)]) None (rpar :: T "VALUES" "values" :: lpar :: number_token z :: x :: R) 1 None)
    (mkT (mq_values_at cols [(579, YExprs [number_value z])]) None (x :: R) 1 None).
Proof. intros H. unfold mq_values_at, mq_into_at. cbn [app]. cbv [after_column In] in H. (destruct H as [<-|[<-|[]]]); go. Qed.
Lemma mq_trigger_value_next cols l z x R : In x after_column ->
  leads (mkT (mq_values_at cols [(579, YExprs l)]) None (comma :: number_token z :: x :: R) 1 None)
    (mkT (mq_values_at cols [(579, YExprs (l ++ [number_value z]))]) None (x :: R) 1 None).
Proof. intros H. unfold mq_values_at, mq_into_at. cbn [app]. cbv [after_column In] in H. (destruct H as [<-|[<-|[]]]); go. Qed.
Lemma mq_trigger_values cols l : forall before,
  leads (mkT (mq_values_at cols [(579, YExprs before)]) None (numbers_rest l ++ [rpar]) 1 None)
    (mkT (mq_values_at cols [(579, YExprs (before ++ map number_value l))]) None [rpar] 1 None).
Proof.
  induction l as [|z l IH]; intros before; [cbn [numbers_rest flat_map map app]; rewrite app_nil_r; apply leads_refl|].
  unfold numbers_rest. cbn [flat_map app map]. fold (numbers_rest l).
  assert (X : exists x R', numbers_rest l ++ [rpar] = x :: R' /\ In x after_column).
  { destruct l; eexists _, _; (split; [reflexivity|cbn; tauto]). }
  destruct X as (x & R' & E & I). rewrite E. eapply leads_trans; [now apply mq_trigger_value_next|]. rewrite <- E.
  replace (before ++ number_value z :: map number_value l) with ((before ++ [number_value z]) ++ map number_value l) by (now rewrite <- app_assoc). apply IH.
Qed.
Definition mq_body (cols : list string) (l : list xp) : text :=
  insert_text "insert" [] "" (mkTableName (mqg_into t) "") [] cols (cat [lit "values "; commas [parens (commas (map x_text l))]]) [].
Lemma mq_trigger_end cols l : ends_in (mkT (mq_values_at cols [(579, YExprs l)]) None [rpar] 1 None)
  (mkDDL "create trigger" no_table no_table None None [] None None None
    (Some (mkSqlTrigger (mqg_name t) (mkTableName (mqg_table t) "") "after" (snd (mq_event_token (mqg_event t))) [mq_body cols l]))).
Proof.
  unfold mq_values_at, mq_into_at, mq_body. cbn [app]. generalize (snd (mq_event_token (mqg_event t))) (mqg_name t) (mqg_table t) (mqg_into t). intros a b c d.
  eexists; split;
  [eapply (until_leads 80 1); cbv -[format_id to_lower String.append encode_bytes_sql format_table alias show_Z commas columns insert_text parens]; reflexivity|
   cbv -[format_id to_lower String.append encode_bytes_sql format_table alias show_Z commas columns insert_text parens]; reflexivity].
Qed.
Lemma mq_body_same : mq_trigger_ok t = true -> mq_body (mqg_columns t) (map number_value (mqg_values t)) = Some (mq_insert_text t).
Proof.
  unfold mq_trigger_ok. intros K. rewrite !andb_true_iff in K. destruct K as [[[[[[_ _] K3] K4] N] _] _].
  unfold mq_body, insert_text, mq_insert_text. rewrite map_map.
  rewrite (map_ext (fun x => x_text (number_value x)) (fun x => Some (show_Z x))) by reflexivity.
  rewrite <- (map_map show_Z (fun x => Some x)), commas_some.
  unfold columns. rewrite (map_ext_in format_id (fun x => x)); [|intros c C; apply simple_format; rewrite forallb_forall in K4; now apply K4]. rewrite map_id.
  change (mkTableName (mqg_into t) "") with (named_table (mqg_into t)). rewrite (table_same _ K3). unfold parens. cbn [cat commas lit partitions comments fold_right].
  destruct (mqg_columns t) as [|c l]; [discriminate|]. rewrite ?sapp_nil_r, ?sapp_assoc. reflexivity.
Qed.
Lemma mq_trigger_runs : mq_trigger_ok t = true -> ends_in (tstart mq_trigger_tokens) mq_trigger_value.
Proof.
  intros K. unfold mq_trigger_tokens, mq_trigger_value. rewrite <- (mq_body_same K).
  replace (to_lower (mq_event_word (mqg_event t))) with (snd (mq_event_token (mqg_event t))) by (now destruct (mqg_event t)).
  unfold mq_trigger_ok in K. rewrite !andb_true_iff in K. destruct K as [[[_ K1] _] K2].
  destruct (mqg_columns t) as [|c cs]; [discriminate|]. destruct (mqg_values t) as [|z zs]; [discriminate|]. clear K1 K2. cbn [listed_tokens numbers_tokens app].
  set (tail := T "VALUES" "values" :: lpar :: number_token z :: numbers_rest zs ++ [rpar]).
  assert (X : exists x R, names_rest cs ++ rpar :: tail = x :: R /\ In x after_column).
  { destruct cs; eexists _, _; (split; [reflexivity|cbn; tauto]). }
  destruct X as (x & R & E & I). rewrite E. eapply leads_ends; [now apply mq_trigger_start|]. rewrite <- E. eapply leads_ends; [apply mq_trigger_columns|]. clear x R E I. subst tail.
  assert (X : exists x R, numbers_rest zs ++ [rpar] = x :: R /\ In x after_column).
  { destruct zs; eexists _, _; (split; [reflexivity|cbn; tauto]). }
  destruct X as (x & R & E & I). rewrite E. eapply leads_ends; [now apply mq_trigger_value_first|]. rewrite <- E. eapply leads_ends; [apply mq_trigger_values|].
  apply mq_trigger_end.
Qed.
End Trigger.
