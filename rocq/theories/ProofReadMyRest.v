(** Views and triggers as MySQL's export has them, read by sqldef. *)
From Coq Require Import String Ascii List ZArith Bool Lia.
From Verif Require Import GoStr GoStrFacts Ast Formatter Generator Lexer Keywords Numerals SqlAst SchemaParse ParserTables ParserValues ParserActions Parser
  SpecLexer SpecLayout SpecPlan SpecShown SpecShownMysql ProofOrder ProofRun ProofLead ProofReadEx ProofReadColumn ProofReadTable ProofReadRest ProofPiecesMysql ProofReadMyColumn ProofReadMyTable.
Import ListNotations.
Local Open Scope Z_scope.
Local Open Scope list_scope.

(** ** Views *)
Section View.
Variable v : my_view.
Definition my_field_tokens (f : string * string) : list token :=
  [name_token (mv_schema v); dot; name_token (mv_table v); dot; name_token (fst f); T "AS" "as"; name_token (snd f)].
Definition my_view_tokens : list token :=
  T "CREATE" "create" :: T "VIEW" "view" :: name_token (mv_name v) :: T "AS" "as" :: T "SELECT" "select" ::
  my_field_tokens (mv_first v) ++ flat_map (fun f => comma :: my_field_tokens f) (mv_columns v) ++
  [T "FROM" "from"; name_token (mv_schema v); dot; name_token (mv_table v)].
Definition my_view_value : sql_ddl :=
  mkDDL "create view" no_table no_table None None [] None None
    (Some (mkSqlView (mkTableName (mv_name v) "") (Some (vw_definition (my_ideal_view v))))) None.
Definition my_field_text (f : string * string) : string :=
  ((format_table (mkTableName (mv_table v) (mv_schema v)) ++ "." ++ format_id (fst f)) ++ alias (snd f) ++ "")%string.
Definition my_from_text : string := (format_table (mkTableName (mv_table v) (mv_schema v)) ++ alias "" ++ "")%string.
Notation at_ := (view_at "" (mv_name v)).
Lemma my_view_start f t R : In t after_field ->
  leads (tstart (T "CREATE" "create" :: T "VIEW" "view" :: name_token (mv_name v) :: T "AS" "as" :: T "SELECT" "select" :: my_field_tokens f ++ t :: R))
    (mkT (at_ [(1021, YTexts [Some (my_field_text f)])]) None (t :: R) 0 None).
Proof. intros H. unfold view_at, my_field_text, my_field_tokens. generalize (mv_schema v) (mv_table v) (mv_name v). intros s tb n. cbn [app]. destruct f as [a b]. cbv [after_field] in H. each_in H; go. Qed.
Lemma my_view_field f x t R : In t after_field ->
  leads (mkT (at_ [(1021, YTexts x)]) None (comma :: my_field_tokens f ++ t :: R) 0 None)
    (mkT (at_ [(1021, YTexts (x ++ [Some (my_field_text f)]))]) None (t :: R) 0 None).
Proof. intros H. unfold view_at, my_field_text, my_field_tokens. generalize (mv_schema v) (mv_table v) (mv_name v). intros s tb n. cbn [app]. destruct f as [a b]. cbv [after_field] in H. each_in H; go. Qed.
Lemma my_view_fields l : forall x R,
  leads (mkT (at_ [(1021, YTexts x)]) None (flat_map (fun f => comma :: my_field_tokens f) l ++ T "FROM" "from" :: R) 0 None)
    (mkT (at_ [(1021, YTexts (x ++ map (fun f => Some (my_field_text f)) l))]) None (T "FROM" "from" :: R) 0 None).
Proof.
  induction l as [|f l IH]; intros x R; [cbn; rewrite app_nil_r; apply leads_refl|]. cbn [flat_map map]. rewrite <- app_assoc. rewrite <- app_comm_cons.
  assert (E : exists t R', flat_map (fun f => comma :: my_field_tokens f) l ++ T "FROM" "from" :: R = t :: R' /\ In t after_field).
  { destruct l; eexists _, _; (split; [reflexivity|cbn; tauto]). }
  destruct E as (t & R' & E & I). rewrite E. eapply leads_trans; [now apply my_view_field|]. rewrite <- E.
  replace (x ++ Some (my_field_text f) :: map (fun f => Some (my_field_text f)) l) with ((x ++ [Some (my_field_text f)]) ++ map (fun f => Some (my_field_text f)) l) by (now rewrite <- app_assoc).
  apply IH.
Qed.
Lemma my_view_end x : ends_in (mkT (at_ [(1021, YTexts x)]) None [T "FROM" "from"; name_token (mv_schema v); dot; name_token (mv_table v)] 0 None)
  (mkDDL "create view" no_table no_table None None [] None None
    (Some (mkSqlView (mkTableName (to_lower (mv_name v)) "")
      (cat [cat [lit "select "; commas x; lit " from "; commas [Some my_from_text]; lit ""; lit ""; lit ""]; lit ""; lit ""; lit ""])%string)) None).
Proof.
  unfold view_at, my_from_text. generalize (mv_schema v) (mv_table v) (mv_name v). intros s tb n. cbn [app].
  eexists; split;
  [eapply (until_leads 80 1); cbv -[format_id to_lower String.append encode_bytes_sql format_table alias show_Z commas]; reflexivity|
   cbv -[format_id to_lower String.append encode_bytes_sql format_table alias show_Z commas]; reflexivity].
Qed.
End View.

Lemma qualified_same q n : simple_name q = true -> simple_name n = true -> format_table (mkTableName n q) = (q ++ "." ++ n)%string.
Proof.
  intros Q H. unfold format_table. cbn [tn_name tn_qualifier]. rewrite (simple_format n H), (simple_format q Q).
  destruct (String.eqb_spec n "") as [->|_]; [discriminate|]. destruct (String.eqb_spec q "") as [->|_]; [discriminate|]. now rewrite <- sapp_assoc.
Qed.
Lemma my_view_runs v : my_view_ok v = true -> ends_in (tstart (my_view_tokens v)) (my_view_value v).
Proof.
  unfold my_view_ok. intros K. rewrite !andb_true_iff in K. destruct K as [[[K1 K2] K3] K5].
  assert (F : map (fun f => Some (my_field_text v f)) (mv_first v :: mv_columns v) =
              map (fun x => Some x) (map (fun c => (mv_schema v ++ "." ++ mv_table v ++ "." ++ fst c ++ " as " ++ snd c)%string) (mv_first v :: mv_columns v))).
  { rewrite map_map. apply map_ext_in. intros [a b] C. rewrite forallb_forall in K5. specialize (K5 _ C). cbn [fst snd] in K5. apply andb_true_iff in K5 as [A B].
    unfold my_field_text, alias. cbn [fst snd]. rewrite (qualified_same _ _ K2 K3), (simple_format a A), (simple_format b B).
    destruct (String.eqb_spec b "") as [->|_]; [discriminate|]. now rewrite ?sapp_nil_r, <- ?sapp_assoc. }
  assert (G : my_from_text v = (mv_schema v ++ "." ++ mv_table v)%string).
  { unfold my_from_text. rewrite (qualified_same _ _ K2 K3). change (alias "") with ""%string. now rewrite !sapp_nil_r. }
  unfold my_view_tokens.
  assert (E : exists t R', flat_map (fun f => comma :: my_field_tokens v f) (mv_columns v) ++ [T "FROM" "from"; name_token (mv_schema v); dot; name_token (mv_table v)] = t :: R' /\ In t after_field).
  { destruct (mv_columns v); eexists _, _; (split; [reflexivity|cbn; tauto]). }
  destruct E as (t & R' & E & I). rewrite E. eapply leads_ends; [apply (my_view_start v _ t R' I)|]. rewrite <- E.
  eapply leads_ends; [apply my_view_fields|]. change ([Some (my_field_text v (mv_first v))] ++ map (fun f => Some (my_field_text v f)) (mv_columns v)) with (map (fun f => Some (my_field_text v f)) (mv_first v :: mv_columns v)). rewrite F.
  unfold my_view_value. rewrite <- (simple_lower (mv_name v) K1) at 2.
  match goal with |- ends_in _ ?a => match type of (my_view_end v (map (fun x => Some x) (map (fun c => (mv_schema v ++ "." ++ mv_table v ++ "." ++ fst c ++ " as " ++ snd c)%string) (mv_first v :: mv_columns v)))) with ends_in _ ?b => replace a with b end end.
  - apply my_view_end.
  - rewrite G, commas_some. cbn [cat commas lit]. unfold my_ideal_view. cbn [vw_definition]. now rewrite ?sapp_nil_r, <- ?sapp_assoc.
Qed.

(** ** Triggers *)
Section Trigger.
Variable t : shown_trigger.
Notation i := (mt_insert t).
Definition timing_token (x : my_timing) : token := match x with TBefore => T "BEFORE" "before" | TAfter => T "AFTER" "after" end.
Definition event_token (e : my_event) : token := match e with TInsert => T "INSERT" "insert" | TUpdate => T "UPDATE" "update" | TDelete => T "DELETE" "delete" end.
Definition given_tokens (g : my_given) : list token :=
  match g with GField r c => [name_token (row_word r); dot; name_token c] | GNumber z => [number_token z] end.
Definition my_trigger_tokens : list token :=
  T "CREATE" "create" :: T "TRIGGER" "trigger" :: name_token (mt_name t) :: timing_token (mt_timing t) :: event_token (mt_event t) :: T "ON" "on" :: name_token (mt_table t) ::
  T "FOR" "for" :: T "EACH" "each" :: T "ROW" "row" :: T "INSERT" "insert" :: T "INTO" "into" :: name_token (mi_table i) :: lpar ::
  name_token (mi_column i) :: names_rest (mi_columns i) ++ rpar :: T "VALUES" "values" :: lpar :: given_tokens (mi_value i) ++
  flat_map (fun g => comma :: given_tokens g) (mi_values i) ++ [rpar].
Definition my_trigger_value : sql_ddl :=
  mkDDL "create trigger" no_table no_table None None [] None None None
    (Some (mkSqlTrigger (mt_name t) (mkTableName (mt_table t) "") (to_lower (timing_word (mt_timing t))) (to_lower (event_word (mt_event t))) [Some (trigger_statement t)])).
Definition trigger_at (l : list (Z * yval)) : list (Z * yval) :=
  l ++ [(1575, YStr "row"); (1517, YStr "each"); (1445, YStr "for"); (1337, YTable (mkTableName (mt_table t) "")); (1171, YStr "on");
        (982, YStr (snd (event_token (mt_event t)))); (735, YStr (snd (timing_token (mt_timing t)))); (473, YStr (mt_name t)); (72, YStr "trigger"); (30, YStr "create"); (0, YNone)].
Definition into_at (l : list (Z * yval)) : list (Z * yval) :=
  trigger_at (l ++ [(1065, YNone); (858, YStrs []); (626, YTable (mkTableName (mi_table i) "")); (327, YStr ""); (60, YStrs []); (25, YStr "insert")]).
Lemma trigger_start c x R : In x after_column ->
  leads (tstart (T "CREATE" "create" :: T "TRIGGER" "trigger" :: name_token (mt_name t) :: timing_token (mt_timing t) :: event_token (mt_event t) :: T "ON" "on" :: name_token (mt_table t) ::
    T "FOR" "for" :: T "EACH" "each" :: T "ROW" "row" :: T "INSERT" "insert" :: T "INTO" "into" :: name_token (mi_table i) :: lpar :: name_token c :: x :: R))
    (mkT (into_at [(1257, YStrs [c])]) None (x :: R) 1 None).
Proof.
  intros H. unfold into_at, trigger_at. cbn [app]. generalize (mt_name t) (mt_table t) (mi_table i). intros a b d.
  cbv [after_column In] in H. destruct (mt_timing t), (mt_event t); (destruct H as [<-|[<-|[]]]); go.
Qed.
Lemma trigger_column l c x R : In x after_column ->
  leads (mkT (into_at [(1257, YStrs l)]) None (comma :: name_token c :: x :: R) 1 None) (mkT (into_at [(1257, YStrs (l ++ [c]))]) None (x :: R) 1 None).
Proof.
  intros H. unfold into_at, trigger_at. cbn [app]. cbv [after_column In] in H. (destruct H as [<-|[<-|[]]]); go.
Qed.
Lemma trigger_columns l R : forall before,
  leads (mkT (into_at [(1257, YStrs before)]) None (names_rest l ++ rpar :: R) 1 None) (mkT (into_at [(1257, YStrs (before ++ l))]) None (rpar :: R) 1 None).
Proof.
  induction l as [|c l IH]; intros before; [cbn; rewrite app_nil_r; apply leads_refl|]. unfold names_rest. cbn [flat_map app]. fold (names_rest l).
  assert (X : exists x R', names_rest l ++ rpar :: R = x :: R' /\ In x after_column).
  { destruct l; eexists _, _; (split; [reflexivity|cbn; tauto]). }
  destruct X as (x & R' & E & I). rewrite E. eapply leads_trans; [now apply trigger_column|]. rewrite <- E.
  replace (before ++ c :: l) with ((before ++ [c]) ++ l) by (now rewrite <- app_assoc). apply IH.
Qed.
Definition given_value (g : my_given) : xp :=
  match g with
  | GField r c => mkXp (Some (format_table (mkTableName (row_word r) "") ++ "." ++ format_id c)%string) XOther
  | GNumber z => mkXp (Some (show_Z z)) (XInt (show_Z z))
  end.
Definition values_at (cols : list string) (l : list (Z * yval)) : list (Z * yval) :=
  into_at (l ++ [(1255, YNone); (1464, YStr "values"); (1383, YNone); (1257, YStrs cols)]).
Lemma trigger_value_first cols g x R : In x after_column ->
  leads (mkT (into_at [(1257, YStrs cols)]) None (rpar :: T "VALUES" "values" :: lpar :: given_tokens g ++ x :: R) 1 None)
    (mkT (values_at cols [(579, YExprs [given_value g])]) None (x :: R) 1 None).
Proof.
  intros H. unfold values_at, into_at, trigger_at. cbn [app]. cbv [after_column In] in H.
  destruct g as [[] c|z]; (destruct H as [<-|[<-|[]]]); go.
Qed.
Lemma trigger_value_next cols l g x R : In x after_column ->
  leads (mkT (values_at cols [(579, YExprs l)]) None (comma :: given_tokens g ++ x :: R) 1 None)
    (mkT (values_at cols [(579, YExprs (l ++ [given_value g]))]) None (x :: R) 1 None).
Proof.
  intros H. unfold values_at, into_at, trigger_at. cbn [app]. cbv [after_column In] in H.
  destruct g as [[] c|z]; (destruct H as [<-|[<-|[]]]); go.
Qed.
Lemma trigger_values cols l : forall before,
  leads (mkT (values_at cols [(579, YExprs before)]) None (flat_map (fun g => comma :: given_tokens g) l ++ [rpar]) 1 None)
    (mkT (values_at cols [(579, YExprs (before ++ map given_value l))]) None [rpar] 1 None).
Proof.
  induction l as [|g l IH]; intros before; [cbn; rewrite app_nil_r; apply leads_refl|]. cbn [flat_map map]. rewrite <- app_assoc, <- app_comm_cons.
  assert (X : exists x R', flat_map (fun g => comma :: given_tokens g) l ++ [rpar] = x :: R' /\ In x after_column).
  { destruct l; eexists _, _; (split; [reflexivity|cbn; tauto]). }
  destruct X as (x & R' & E & I). rewrite E. eapply leads_trans; [now apply trigger_value_next|]. rewrite <- E.
  replace (before ++ given_value g :: map given_value l) with ((before ++ [given_value g]) ++ map given_value l) by (now rewrite <- app_assoc). apply IH.
Qed.
Definition my_body (cols : list string) (l : list xp) : text :=
  insert_text "insert" [] "" (mkTableName (mi_table i) "") [] cols (cat [lit "values "; commas [parens (commas (map x_text l))]]) [].
Lemma trigger_end cols l : ends_in (mkT (values_at cols [(579, YExprs l)]) None [rpar] 1 None)
  (mkDDL "create trigger" no_table no_table None None [] None None None
    (Some (mkSqlTrigger (mt_name t) (mkTableName (mt_table t) "") (snd (timing_token (mt_timing t))) (snd (event_token (mt_event t))) [my_body cols l]))).
Proof.
  unfold values_at, into_at, trigger_at, my_body. cbn [app]. generalize (snd (timing_token (mt_timing t))) (snd (event_token (mt_event t))) (mt_name t) (mt_table t) (mi_table i). intros a b c d e.
  eexists; split;
  [eapply (until_leads 80 1); cbv -[format_id to_lower String.append encode_bytes_sql format_table alias show_Z commas columns insert_text parens]; reflexivity|
   cbv -[format_id to_lower String.append encode_bytes_sql format_table alias show_Z commas columns insert_text parens]; reflexivity].
Qed.
Lemma spell_separated {A} (f : A -> list my_piece) l : spell (separated [comma_sign; blank1] (map f l)) = join ", " (map (fun x => spell (f x)) l).
Proof.
  induction l as [|x l IH]; [reflexivity|]. destruct l as [|y l]; cbn [map separated join] in *; rewrite spell_app; [cbn; now rewrite sapp_nil_r|].
  rewrite spell_app, IH. reflexivity.
Qed.
Lemma row_same r : format_table (mkTableName (row_word r) "") = row_word r.
Proof. destruct r; vm_compute; reflexivity. Qed.
Lemma given_same g : my_given_ok g = true -> x_text (given_value g) = Some (spell (shown_given g)).
Proof.
  destruct g as [r c|z]; cbn [my_given_ok given_value x_text shown_given]; intros H.
  - rewrite (simple_format c H), row_same. cbn [spell fold_right spell_piece]. now rewrite sapp_nil_r.
  - cbn [spell fold_right spell_piece]. now rewrite sapp_nil_r.
Qed.
Lemma body_same : my_trigger_ok t = true -> my_body (mi_column i :: mi_columns i) (map given_value (mi_value i :: mi_values i)) = Some (trigger_statement t).
Proof.
  unfold my_trigger_ok. intros K. rewrite !andb_true_iff in K. destruct K as [[[[K1 K2] K3] K4] K5].
  unfold my_body, insert_text, trigger_statement, shown_insert, between. rewrite map_map.
  rewrite (map_ext_in (fun x => x_text (given_value x)) (fun x => Some (spell (shown_given x)))); [|intros g G; apply given_same; rewrite forallb_forall in K5; now apply K5].
  rewrite <- (map_map (fun x => spell (shown_given x)) (fun x => Some x)), commas_some.
  unfold columns. rewrite (map_ext_in format_id (fun x => x)); [|intros c C; apply simple_format; rewrite forallb_forall in K4; now apply K4]. rewrite map_id.
  change (mkTableName (mi_table i) "") with (named_table (mi_table i)). rewrite (table_same _ K3).
  rewrite !spell_app. cbn [spell fold_right spell_piece]. rewrite !spell_app, !spell_separated. unfold parens. cbn [cat commas lit partitions comments fold_right].
  replace (map (fun x => spell [MBare x]) (mi_column i :: mi_columns i)) with (mi_column i :: mi_columns i)
    by (rewrite <- (map_id (mi_column i :: mi_columns i)) at 1; apply map_ext; intros x; cbn; now rewrite sapp_nil_r).
  cbn [spell fold_right spell_piece comma_sign blank1]. rewrite ?sapp_nil_r, ?sapp_assoc. reflexivity.
Qed.
Lemma my_trigger_runs : my_trigger_ok t = true -> ends_in (tstart my_trigger_tokens) my_trigger_value.
Proof.
  intros K. unfold my_trigger_tokens, my_trigger_value. rewrite <- (body_same K).
  replace (to_lower (timing_word (mt_timing t))) with (snd (timing_token (mt_timing t))) by (now destruct (mt_timing t)).
  replace (to_lower (event_word (mt_event t))) with (snd (event_token (mt_event t))) by (now destruct (mt_event t)).
  set (tail := T "VALUES" "values" :: lpar :: given_tokens (mi_value i) ++ flat_map (fun g => comma :: given_tokens g) (mi_values i) ++ [rpar]).
  assert (X : exists x R, names_rest (mi_columns i) ++ rpar :: tail = x :: R /\ In x after_column).
  { destruct (mi_columns i); eexists _, _; (split; [reflexivity|cbn; tauto]). }
  destruct X as (x & R & E & I). rewrite E. eapply leads_ends; [now apply trigger_start|]. rewrite <- E. eapply leads_ends; [apply trigger_columns|]. clear x R E I. subst tail.
  assert (X : exists x R, flat_map (fun g => comma :: given_tokens g) (mi_values i) ++ [rpar] = x :: R /\ In x after_column).
  { destruct (mi_values i); eexists _, _; (split; [reflexivity|cbn; tauto]). }
  destruct X as (x & R & E & I). rewrite E. eapply leads_ends; [now apply trigger_value_first|]. rewrite <- E. eapply leads_ends; [apply trigger_values|].
  apply trigger_end.
Qed.
End Trigger.
