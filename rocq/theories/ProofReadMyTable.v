(** MySQL's SHOW CREATE TABLE, read by sqldef: columns, keys, foreign keys, table options. *)
From Coq Require Import String Ascii List ZArith Bool Lia.
From Verif Require Import GoStr GoStrFacts Ast Formatter Generator Lexer Keywords Numerals SqlAst SchemaParse ParserTables ParserValues ParserActions Parser
  SpecLexer SpecLayout SpecPlan SpecShown SpecShownMysql ProofOrder ProofRun ProofLead ProofReadEx ProofReadColumn ProofReadTable ProofReadMyColumn.
Import ListNotations.
Local Open Scope Z_scope.
Local Open Scope list_scope.

(** ** Columns *)
Definition my_column_tokens (c : my_column) : list token :=
  my_type_tokens (mc_type c) ++ option_tokens null_tokens (mc_null c) ++
  option_tokens (fun d => T "DEFAULT" "default" :: my_default_tokens d) (mc_default c) ++
  option_tokens (fun k => T "ON" "on" :: T "UPDATE" "update" :: now_tokens k) (mc_on_update c) ++
  auto_tokens (mc_auto c) ++ option_tokens comment_tokens (mc_comment c).
Definition my_column_value (c : my_column) : column_type :=
  (fun t => if mc_auto c then set_ct_autoincrement true t else t)
    (opt (fun k => set_ct_on_update (Some (now_val k))) (mc_on_update c)
      (opt (fun d => set_ct_default (Some (mkSqlDefault (Some (my_default_val d)) ""))) (mc_default c)
        (opt (fun b => set_ct_not_null (Some b)) (mc_null c) (my_type_value (mc_type c))))).

Definition my_heads (l : list token) : Prop := exists t r, l = t :: r /\ In t my_after.
Lemma my_heads_after t R : In t after_column -> my_heads (t :: R).
Proof. intros H. exists t, R. split; [reflexivity|]. cbv [after_column In] in H. destruct H as [<-|[<-|[]]]; cbn; tauto. Qed.
Lemma my_heads_option {A} (f : A -> list token) (o : option A) l : (forall x, exists t r, f x = t :: r /\ In t my_after) -> my_heads l -> my_heads (option_tokens f o ++ l).
Proof. intros F L. destruct o as [x|]; [|exact L]. destruct (F x) as (t & r & E & I). cbn. rewrite E. exists t, (r ++ l). now split. Qed.

Lemma my_column_leads n st tr c t R : my_column_ok c = true -> In t after_column ->
  leads (named_at n st tr (my_column_tokens c ++ t :: R)) (typed_at n st tr (my_column_value c) (t :: R)).
Proof.
  unfold my_column_ok. intros K H. rewrite !andb_true_iff in K. destruct K as [[[[K Ht] Hd] Hc] _].
  unfold my_column_tokens, my_column_value. rewrite <- !app_assoc.
  assert (H5 : my_heads (option_tokens comment_tokens (mc_comment c) ++ t :: R)).
  { apply my_heads_option; [|now apply my_heads_after]. intros x. eexists _, _. split; [reflexivity|cbn; tauto]. }
  assert (H4 : my_heads (auto_tokens (mc_auto c) ++ option_tokens comment_tokens (mc_comment c) ++ t :: R)).
  { destruct (mc_auto c); [|exact H5]. eexists _, _. split; [reflexivity|cbn; tauto]. }
  assert (H3 : my_heads (option_tokens (fun k => T "ON" "on" :: T "UPDATE" "update" :: now_tokens k) (mc_on_update c) ++ auto_tokens (mc_auto c) ++ option_tokens comment_tokens (mc_comment c) ++ t :: R)).
  { apply my_heads_option; [|exact H4]. intros x. eexists _, _. split; [reflexivity|cbn; tauto]. }
  assert (H2 : my_heads (option_tokens (fun d => T "DEFAULT" "default" :: my_default_tokens d) (mc_default c) ++ option_tokens (fun k => T "ON" "on" :: T "UPDATE" "update" :: now_tokens k) (mc_on_update c) ++ auto_tokens (mc_auto c) ++ option_tokens comment_tokens (mc_comment c) ++ t :: R)).
  { apply my_heads_option; [|exact H3]. intros x. eexists _, _. split; [reflexivity|cbn; tauto]. }
  assert (H1 := my_heads_option null_tokens (mc_null c) _ (fun b => match b with true => ex_intro _ _ (ex_intro _ _ (conj eq_refl (or_introl eq_refl))) | false => ex_intro _ _ (ex_intro _ _ (conj eq_refl (or_intror (or_introl eq_refl)))) end) H2).
  destruct H1 as (t1 & r1 & E1 & I1). eapply leads_trans; [rewrite E1; exact (my_type_leads n st tr _ t1 r1 Ht I1)|]. rewrite <- E1. clear t1 r1 E1 I1.
  destruct H2 as (t1 & r1 & E1 & I1). eapply leads_trans with (b := typed_at n st tr (opt (fun b => set_ct_not_null (Some b)) (mc_null c) (my_type_value (mc_type c))) _).
  { rewrite E1. destruct (mc_null c) as [b|]; [now apply null_leads|apply leads_refl]. }
  rewrite <- E1. clear t1 r1 E1 I1. set (ty := opt _ (mc_null c) _). clearbody ty.
  destruct H3 as (t1 & r1 & E1 & I1). eapply leads_trans with (b := typed_at n st tr (opt (fun d => set_ct_default (Some (mkSqlDefault (Some (my_default_val d)) ""))) (mc_default c) ty) _).
  { rewrite E1. destruct (mc_default c) as [b|]; [exact (my_default_leads n st tr ty b t1 r1 I1)|apply leads_refl]. }
  rewrite <- E1. clear t1 r1 E1 I1. set (ty' := opt _ (mc_default c) _). clearbody ty'.
  destruct H4 as (t1 & r1 & E1 & I1). eapply leads_trans with (b := typed_at n st tr (opt (fun k => set_ct_on_update (Some (now_val k))) (mc_on_update c) ty') _).
  { rewrite E1. destruct (mc_on_update c) as [b|]; [exact (on_update_leads n st tr ty' b t1 r1 I1)|apply leads_refl]. }
  rewrite <- E1. clear t1 r1 E1 I1. set (ty'' := opt _ (mc_on_update c) _). clearbody ty''.
  destruct H5 as (t1 & r1 & E1 & I1). eapply leads_trans with (b := typed_at n st tr (if mc_auto c then set_ct_autoincrement true ty'' else ty'') _).
  { rewrite E1. destruct (mc_auto c); [exact (auto_leads n st tr ty'' t1 r1 I1)|apply leads_refl]. }
  rewrite <- E1. destruct (mc_comment c) as [s|]; [|apply leads_refl].
  apply comment_leads. clear - H. cbv [after_column In] in H. destruct H as [<-|[<-|[]]]; cbn; tauto.
Qed.

(** ** Columns of a key *)
Definition index_column (k : my_key_column) : sql_index_column :=
  mkSqlIndexColumn (kc_name k) (option_map (fun n => mkSqlVal IntVal (show_Z n)) (kc_length k)) (if kc_desc k then "desc" else "asc").
Definition key_column_tail (k : my_key_column) : list token := option_tokens sized (kc_length k) ++ desc_tokens (kc_desc k).
Definition more_key_columns (l : list my_key_column) : list token := flat_map (fun k => comma :: name_token (kc_name k) :: key_column_tail k) l.

Section Keys.
Variables (v0 : yval) (st : list (Z * yval)) (tr : option statement).
Lemma kcols_first k c R :
  leads (mkT ((352, YStr (kc_name k)) :: (1097, v0) :: st) None (key_column_tail k ++ comma :: name_token c :: R) 0 tr)
    (mkT ((352, YStr c) :: (1398, YStr "") :: (1279, YIndexColumns [index_column k]) :: (1097, v0) :: st) None R 0 tr).
Proof. destruct k as [n [z|] []]; go. Qed.
Lemma kcols_only k R :
  leads (mkT ((352, YStr (kc_name k)) :: (1097, v0) :: st) None (key_column_tail k ++ rpar :: R) 0 tr)
    (mkT ((1397, YStr "") :: (1279, YIndexColumns [index_column k]) :: (1097, v0) :: st) None R 0 tr).
Proof. destruct k as [n [z|] []]; go. Qed.
Lemma kcols_next cols k c R :
  leads (mkT ((352, YStr (kc_name k)) :: (1398, YStr "") :: (1279, YIndexColumns cols) :: (1097, v0) :: st) None (key_column_tail k ++ comma :: name_token c :: R) 0 tr)
    (mkT ((352, YStr c) :: (1398, YStr "") :: (1279, YIndexColumns (cols ++ [index_column k])) :: (1097, v0) :: st) None R 0 tr).
Proof. destruct k as [n [z|] []]; go. Qed.
Lemma kcols_last cols k R :
  leads (mkT ((352, YStr (kc_name k)) :: (1398, YStr "") :: (1279, YIndexColumns cols) :: (1097, v0) :: st) None (key_column_tail k ++ rpar :: R) 0 tr)
    (mkT ((1397, YStr "") :: (1279, YIndexColumns (cols ++ [index_column k])) :: (1097, v0) :: st) None R 0 tr).
Proof. destruct k as [n [z|] []]; go. Qed.
Lemma kcols_rest l : forall cols k R,
  leads (mkT ((352, YStr (kc_name k)) :: (1398, YStr "") :: (1279, YIndexColumns cols) :: (1097, v0) :: st) None (key_column_tail k ++ more_key_columns l ++ rpar :: R) 0 tr)
    (mkT ((1397, YStr "") :: (1279, YIndexColumns (cols ++ map index_column (k :: l))) :: (1097, v0) :: st) None R 0 tr).
Proof.
  induction l as [|k' l IH]; intros cols k R; [apply kcols_last|].
  unfold more_key_columns. cbn [flat_map map]. rewrite <- !app_assoc. cbn [app]. eapply leads_trans; [apply kcols_next|].
  replace (cols ++ index_column k :: index_column k' :: map index_column l) with ((cols ++ [index_column k]) ++ map index_column (k' :: l)) by (now rewrite <- app_assoc).
  apply IH.
Qed.
Lemma kcols_lead k l R :
  leads (mkT ((352, YStr (kc_name k)) :: (1097, v0) :: st) None (key_column_tail k ++ more_key_columns l ++ rpar :: R) 0 tr)
    (mkT ((1397, YStr "") :: (1279, YIndexColumns (map index_column (k :: l))) :: (1097, v0) :: st) None R 0 tr).
Proof.
  destruct l as [|k' l]; [apply kcols_only|]. unfold more_key_columns. cbn [flat_map map]. rewrite <- !app_assoc. cbn [app].
  eapply leads_trans; [apply kcols_first|]. change (index_column k :: index_column k' :: map index_column l) with ([index_column k] ++ map index_column (k' :: l)).
  apply kcols_rest.
Qed.
End Keys.

(** ** Keys *)
Definition equals : token := (KChar "=", ""%string).
Definition kind_tokens (k : my_kind) : list token :=
  match k with
  | KPrimary => [T "PRIMARY" "primary"; T "KEY" "key"] | KUnique => [T "UNIQUE" "unique"; T "KEY" "key"] | KPlain => [T "KEY" "key"]
  | KFulltext => [T "FULLTEXT" "fulltext"; T "KEY" "key"] | KSpatial => [T "SPATIAL" "spatial"; T "KEY" "key"]
  end.
Definition kind_name (k : my_key) : list token := match mk_kind k with KPrimary => [] | _ => [name_token (mk_name k)] end.
Definition key_option_tokens (o : my_key_option) : list token :=
  match o with
  | KUsing w => [T "USING" "using"; name_token w]
  | KBlockSize z => [T "KEY_BLOCK_SIZE" "key_block_size"; equals; number_token z]
  | KComment s => [T "COMMENT_KEYWORD" "comment"; text_token s]
  end.
Definition key_option_value (o : my_key_option) : sql_index_option :=
  match o with
  | KUsing _ => mkSqlIndexOption "using" None
  | KBlockSize z => mkSqlIndexOption "key_block_size" (Some (mkSqlVal IntVal (show_Z z)))
  | KComment s => mkSqlIndexOption "comment" (Some (mkSqlVal StrVal s))
  end.
Definition key_info (k : my_key) : index_info :=
  match mk_kind k with
  | KPrimary => mkIndexInfo "primary key" "PRIMARY" true true false
  | KUnique => mkIndexInfo "unique key" (mk_name k) false true false
  | KPlain => mkIndexInfo "key" (mk_name k) false false true
  | KFulltext => mkIndexInfo "fulltext key" (mk_name k) false false false
  | KSpatial => mkIndexInfo "spatial key" (mk_name k) false false false
  end.
Definition my_key_tokens (k : my_key) : list token :=
  kind_tokens (mk_kind k) ++ kind_name k ++ lpar :: name_token (kc_name (mk_first k)) :: key_column_tail (mk_first k) ++
  more_key_columns (mk_others k) ++ rpar :: flat_map key_option_tokens (mk_options k).
Definition my_key_value (k : my_key) : index_definition :=
  mkIndexDefinition (key_info k) (map index_column (mk_columns k)) (map key_option_value (mk_options k)) None.
Definition with_key (s : table_spec) (d : index_definition) : table_spec := mkTableSpec (ts_columns s) (ts_indexes s ++ [d]) (ts_fks s) (ts_options s).
Definition with_fk (s : table_spec) (d : fk_definition) : table_spec := mkTableSpec (ts_columns s) (ts_indexes s) (ts_fks s ++ [d]) (ts_options s).

Section Table.
Variables schema name : string.
Notation at_ l := (mkT (table_at schema name l)).
Lemma my_key_start sp k c R :
  leads (at_ [(461, YSpec sp)] None (comma :: kind_tokens (mk_kind k) ++ kind_name k ++ lpar :: name_token c :: R) 0 None)
    (at_ [(352, YStr c); (1097, YStr ""); (911, YIndexInfo (key_info k)); (672, YStr ""); (461, YSpec sp)] None R 0 None).
Proof. unfold table_at. cbn [app]. destruct k as [[] n f o l]; unfold kind_name, key_info; cbn [mk_kind mk_name]; go. Qed.
Definition key_closed (sp : table_spec) (k : my_key) : list (Z * yval) :=
  [(1279, YIndexColumns (map index_column (mk_columns k))); (1097, YStr ""); (911, YIndexInfo (key_info k)); (672, YStr ""); (461, YSpec sp)].
Definition option_start : list token := [T "USING" "using"; T "KEY_BLOCK_SIZE" "key_block_size"; T "COMMENT_KEYWORD" "comment"; comma; rpar].
Lemma my_key_bare sp k t R : In t after_column ->
  leads (at_ ((1397, YStr "") :: key_closed sp k) None (t :: R) 0 None)
    (at_ [(461, YSpec (with_key sp (mkIndexDefinition (key_info k) (map index_column (mk_columns k)) [] None)))] None (t :: R) 0 None).
Proof.
  intros H. unfold table_at, key_closed. cbn [app]. destruct sp. generalize (map index_column (mk_columns k)) (key_info k). intros cols info.
  cbv [after_column In] in H. destruct H as [<-|[<-|[]]]; go.
Qed.
Lemma my_key_option_first sp k o t R : In t option_start ->
  leads (at_ ((1397, YStr "") :: key_closed sp k) None (key_option_tokens o ++ t :: R) 0 None)
    (at_ ((1476, YIndexOptions [key_option_value o]) :: (1397, YStr "") :: key_closed sp k) None (t :: R) 0 None).
Proof.
  intros H. unfold table_at, key_closed. cbn [app]. generalize (map index_column (mk_columns k)) (key_info k). intros cols info.
  cbv [option_start In] in H. repeat (destruct H as [<-|H]); try contradiction; destruct o; go.
Qed.
Lemma my_key_option_next sp k l o t R : In t option_start ->
  leads (at_ ((1476, YIndexOptions l) :: (1397, YStr "") :: key_closed sp k) None (key_option_tokens o ++ t :: R) 0 None)
    (at_ ((1476, YIndexOptions (l ++ [key_option_value o])) :: (1397, YStr "") :: key_closed sp k) None (t :: R) 0 None).
Proof.
  intros H. unfold table_at, key_closed. cbn [app]. generalize (map index_column (mk_columns k)) (key_info k). intros cols info.
  cbv [option_start In] in H. repeat (destruct H as [<-|H]); try contradiction; destruct o; go.
Qed.
Lemma my_key_options_end sp k l t R : In t after_column ->
  leads (at_ ((1476, YIndexOptions l) :: (1397, YStr "") :: key_closed sp k) None (t :: R) 0 None)
    (at_ [(461, YSpec (with_key sp (mkIndexDefinition (key_info k) (map index_column (mk_columns k)) l None)))] None (t :: R) 0 None).
Proof.
  intros H. unfold table_at, key_closed. cbn [app]. destruct sp. generalize (map index_column (mk_columns k)) (key_info k). intros cols info.
  cbv [after_column In] in H. destruct H as [<-|[<-|[]]]; go.
Qed.
Definition key_heads (l : list token) : Prop := exists t r, l = t :: r /\ In t option_start.
Lemma key_heads_after t R : In t after_column -> key_heads (t :: R).
Proof. intros H. exists t, R. split; [reflexivity|]. cbv [after_column In] in H. destruct H as [<-|[<-|[]]]; cbn; tauto. Qed.
Lemma key_heads_options l t R : In t after_column -> key_heads (flat_map key_option_tokens l ++ t :: R).
Proof.
  intros H. destruct l as [|o l]; [now apply key_heads_after|]. cbn [flat_map]. rewrite <- app_assoc. destruct o; eexists _, _; (split; [reflexivity|cbn; tauto]).
Qed.
Lemma my_key_options_rest sp k l : forall before t R, In t after_column ->
  leads (at_ ((1476, YIndexOptions before) :: (1397, YStr "") :: key_closed sp k) None (flat_map key_option_tokens l ++ t :: R) 0 None)
    (at_ [(461, YSpec (with_key sp (mkIndexDefinition (key_info k) (map index_column (mk_columns k)) (before ++ map key_option_value l) None)))] None (t :: R) 0 None).
Proof.
  induction l as [|o l IH]; intros before t R H.
  - cbn [flat_map map app]. rewrite app_nil_r. now apply my_key_options_end.
  - cbn [flat_map]. rewrite <- app_assoc. destruct (key_heads_options l t R H) as (t' & R' & E & I).
    rewrite E. eapply leads_trans; [now apply my_key_option_next|]. rewrite <- E.
    replace (before ++ map key_option_value (o :: l)) with ((before ++ [key_option_value o]) ++ map key_option_value l) by (now rewrite <- app_assoc). now apply IH.
Qed.
Lemma my_key_leads sp k t R : In t after_column ->
  leads (at_ [(461, YSpec sp)] None (comma :: my_key_tokens k ++ t :: R) 0 None) (at_ [(461, YSpec (with_key sp (my_key_value k)))] None (t :: R) 0 None).
Proof.
  intros H. unfold my_key_tokens, my_key_value.
  replace ((kind_tokens (mk_kind k) ++ kind_name k ++ lpar :: name_token (kc_name (mk_first k)) :: key_column_tail (mk_first k) ++ more_key_columns (mk_others k) ++ rpar :: flat_map key_option_tokens (mk_options k)) ++ t :: R)
    with (kind_tokens (mk_kind k) ++ kind_name k ++ lpar :: name_token (kc_name (mk_first k)) :: (key_column_tail (mk_first k) ++ more_key_columns (mk_others k) ++ rpar :: flat_map key_option_tokens (mk_options k) ++ t :: R))
    by (rewrite <- !app_assoc; cbn [app]; rewrite <- !app_assoc; cbn [app]; reflexivity).
  eapply leads_trans; [apply my_key_start|].
  eapply leads_trans.
  { unfold table_at. cbn [app]. refine (kcols_lead _ _ None (mk_first k) (mk_others k) _). }
  change (leads (at_ ((1397, YStr "") :: key_closed sp k) None (flat_map key_option_tokens (mk_options k) ++ t :: R) 0 None)
    (at_ [(461, YSpec (with_key sp (mkIndexDefinition (key_info k) (map index_column (mk_columns k)) (map key_option_value (mk_options k)) None)))] None (t :: R) 0 None)).
  destruct (mk_options k) as [|o l]; [now apply my_key_bare|].
  cbn [flat_map]. rewrite <- app_assoc. destruct (key_heads_options l t R H) as (t' & R' & E & I).
  rewrite E. eapply leads_trans; [now apply my_key_option_first|]. rewrite <- E.
  change (map key_option_value (o :: l)) with ([key_option_value o] ++ map key_option_value l). now apply my_key_options_rest.
Qed.

(** ** Foreign keys *)
Definition fk_place (qo ql : Z) : Prop := (qo, ql) = (1561, 1608) \/ (qo, ql) = (1692, 1696).
Definition names_rest (l : list string) : list token := flat_map (fun c => [comma; name_token c]) l.
Lemma names_step qo ql vo st l c t R : fk_place qo ql -> In t after_column ->
  leads (mkT ((ql, YStrs l) :: (qo, vo) :: st) None (comma :: name_token c :: t :: R) 0 None) (mkT ((ql, YStrs (l ++ [c])) :: (qo, vo) :: st) None (t :: R) 0 None).
Proof. intros [E|E] H; injection E as -> ->; cbv [after_column In] in H; (destruct H as [<-|[<-|[]]]); go. Qed.
Lemma names_first qo ql vo st c t R : fk_place qo ql -> In t after_column ->
  leads (mkT ((qo, vo) :: st) None (name_token c :: t :: R) 0 None) (mkT ((ql, YStrs [c]) :: (qo, vo) :: st) None (t :: R) 0 None).
Proof. intros [E|E] H; injection E as -> ->; cbv [after_column In] in H; (destruct H as [<-|[<-|[]]]); go. Qed.
Lemma names_more qo ql vo st l R : fk_place qo ql -> forall before,
  leads (mkT ((ql, YStrs before) :: (qo, vo) :: st) None (names_rest l ++ rpar :: R) 0 None) (mkT ((ql, YStrs (before ++ l)) :: (qo, vo) :: st) None (rpar :: R) 0 None).
Proof.
  intros P. induction l as [|c l IH]; intros before; [cbn; rewrite app_nil_r; apply leads_refl|]. unfold names_rest. cbn [flat_map app]. fold (names_rest l).
  assert (X : exists t R', names_rest l ++ rpar :: R = t :: R' /\ In t after_column).
  { destruct l; eexists _, _; (split; [reflexivity|cbn; tauto]). }
  destruct X as (t & R' & E & I). rewrite E. eapply leads_trans; [now apply names_step|]. rewrite <- E.
  replace (before ++ c :: l) with ((before ++ [c]) ++ l) by (now rewrite <- app_assoc). apply IH.
Qed.
Lemma names_lead qo ql vo st c l R : fk_place qo ql ->
  leads (mkT ((qo, vo) :: st) None (name_token c :: names_rest l ++ rpar :: R) 0 None) (mkT ((ql, YStrs (c :: l)) :: (qo, vo) :: st) None (rpar :: R) 0 None).
Proof.
  intros P. assert (X : exists t R', names_rest l ++ rpar :: R = t :: R' /\ In t after_column).
  { destruct l; eexists _, _; (split; [reflexivity|cbn; tauto]). }
  destruct X as (t & R' & E & I). rewrite E. eapply leads_trans; [now apply (names_first qo ql)|]. rewrite <- E.
  now apply (names_more qo ql vo st l R P [c]).
Qed.

Definition my_action_tokens (a : my_action) : list token :=
  match a with
  | ANoAction => [T "NO" "no"; T "ACTION" "action"] | ARestrict => [T "RESTRICT" "restrict"] | ACascade => [T "CASCADE" "cascade"]
  | ASetNull => [T "SET" "set"; T "NULL" "null"]
  end.
Definition on_delete_tokens (a : my_action) : list token := T "ON" "on" :: T "DELETE" "delete" :: my_action_tokens a.
Definition on_update_tokens (a : my_action) : list token := T "ON" "on" :: T "UPDATE" "update" :: my_action_tokens a.
Definition my_fk_tokens (f : my_fk) : list token :=
  T "CONSTRAINT" "constraint" :: name_token (mf_name f) :: T "FOREIGN" "foreign" :: T "KEY" "key" :: lpar :: name_token (mf_column f) ::
  names_rest (mf_columns f) ++ rpar :: T "REFERENCES" "references" :: name_token (mf_table f) :: lpar :: name_token (mf_ref_column f) ::
  names_rest (mf_ref_columns f) ++ rpar :: option_tokens on_delete_tokens (mf_delete f) ++ option_tokens on_update_tokens (mf_update f).
Definition my_fk_value (f : my_fk) : fk_definition :=
  mkFkDefinition (mf_name f) "" (mf_column f :: mf_columns f) (mf_table f) (mf_ref_column f :: mf_ref_columns f)
    (ideal_action (mf_delete f)) (ideal_action (mf_update f)) false.

Definition fk_open (sp : table_spec) (n : string) : list (Z * yval) :=
  [(1497, YStr ""); (1408, YStr "key"); (1286, YStr "foreign"); (1101, YStr n); (913, YStr "constraint"); (672, YStr ""); (461, YSpec sp)].
Lemma fk_start sp n R : leads (at_ [(461, YSpec sp)] None (comma :: T "CONSTRAINT" "constraint" :: name_token n :: T "FOREIGN" "foreign" :: T "KEY" "key" :: lpar :: R) 0 None)
  (at_ ((1561, YStr "") :: fk_open sp n) None R 0 None).
Proof. unfold table_at, fk_open. cbn [app]. go. Qed.
Definition fk_from (sp : table_spec) (n : string) (l : list string) : list (Z * yval) :=
  (1644, YStr "") :: (1608, YStrs l) :: (1561, YStr "") :: fk_open sp n.
Lemma fk_references sp n l t R : leads (at_ ((1608, YStrs l) :: (1561, YStr "") :: fk_open sp n) None (rpar :: T "REFERENCES" "references" :: name_token t :: lpar :: R) 0 None)
  (at_ ((1692, YStr "") :: (1684, YTable (mkTableName t "")) :: (1669, YStr "references") :: fk_from sp n l) None R 0 None).
Proof. unfold table_at, fk_from, fk_open. cbn [app]. go. Qed.
Lemma fk_end sp n l t r d u x R : In x after_column ->
  leads (at_ ((1696, YStrs r) :: (1692, YStr "") :: (1684, YTable (mkTableName t "")) :: (1669, YStr "references") :: fk_from sp n l) None
           (rpar :: option_tokens on_delete_tokens d ++ option_tokens on_update_tokens u ++ x :: R) 0 None)
    (at_ [(461, YSpec (with_fk sp (mkFkDefinition n "" l t r (ideal_action d) (ideal_action u) false)))] None (x :: R) 0 None).
Proof.
  intros H. unfold table_at, fk_from, fk_open. cbn [app]. destruct sp.
  cbv [after_column In] in H. destruct d as [[]|], u as [[]|]; (destruct H as [<-|[<-|[]]]); go.
Qed.
Lemma my_fk_leads sp f t R : In t after_column ->
  leads (at_ [(461, YSpec sp)] None (comma :: my_fk_tokens f ++ t :: R) 0 None) (at_ [(461, YSpec (with_fk sp (my_fk_value f)))] None (t :: R) 0 None).
Proof.
  intros H. unfold my_fk_tokens. cbn [app]. eapply leads_trans; [apply fk_start|]. rewrite <- app_assoc. cbn [app].
  eapply leads_trans; [unfold table_at; cbn [app]; refine (names_lead 1561 1608 _ _ _ _ _ (or_introl eq_refl))|].
  eapply leads_trans; [apply fk_references|]. rewrite <- app_assoc. cbn [app].
  eapply leads_trans; [unfold table_at; cbn [app]; refine (names_lead 1692 1696 _ _ _ _ _ (or_intror eq_refl))|].
  rewrite <- app_assoc. now apply fk_end.
Qed.

(** ** Table options *)
Definition option_name_tokens (n : string) : list token :=
  match n with
  | "DEFAULT CHARSET" => [T "DEFAULT" "default"; T "CHARSET" "charset"]
  | "AUTO_INCREMENT" => [T "AUTO_INCREMENT" "auto_increment"]
  | "COLLATE" => [T "COLLATE" "collate"]
  | "COMMENT" => [T "COMMENT_KEYWORD" "comment"]
  | "KEY_BLOCK_SIZE" => [T "KEY_BLOCK_SIZE" "key_block_size"]
  | _ => [name_token n]
  end%string.
Definition option_value_token (v : my_option_value) : token :=
  match v with OWord w => name_token w | ONumber z => number_token z | OText s => text_token s end.
Definition my_option_tokens (o : my_option) : list token := option_name_tokens (mo_name o) ++ [equals; option_value_token (mo_value o)].
Definition option_first : list token := map (fun n => hd comma (option_name_tokens n)) option_names.
Definition option_rest (l : list my_option) : list token := flat_map my_option_tokens l.
Definition option_at (sp : table_spec) (s : string) : list (Z * yval) := [(902, YStr s); (671, YStr ""); (461, YSpec sp)].

(** The text of the options goes into nothing of the schema. *)
Lemma option_open sp t R : In t option_first -> exists s, leads (at_ [(461, YSpec sp)] None (rpar :: t :: R) 0 None) (at_ (option_at sp s) None R 0 None).
Proof.
  intros H. unfold option_at, table_at. cbn [app]. cbv [option_first option_names option_name_tokens map hd In] in H.
  repeat (destruct H as [<-|H]); try contradiction; eexists; go.
Qed.
Lemma option_token sp s t R : In t (T "CHARSET" "charset" :: option_first) -> exists s', leads (at_ (option_at sp s) None (t :: R) 0 None) (at_ (option_at sp s') None R 0 None).
Proof.
  intros H. unfold option_at, table_at. cbn [app]. cbv [option_first option_names option_name_tokens map hd In] in H.
  repeat (destruct H as [<-|H]); try contradiction; eexists; go.
Qed.
Lemma option_given sp s v R : exists s', leads (at_ (option_at sp s) None (equals :: option_value_token v :: R) 0 None) (at_ (option_at sp s') None R 0 None).
Proof. unfold option_at, table_at. cbn [app]. destruct v; eexists; go. Qed.
Lemma option_names_in n : In n option_names -> exists t l, option_name_tokens n = t :: l /\ In t option_first /\ (l = [] \/ l = [T "CHARSET" "charset"]).
Proof.
  intros H. assert (F : In (hd comma (option_name_tokens n)) option_first) by exact (in_map (fun n => hd comma (option_name_tokens n)) _ _ H).
  cbv [option_names In] in H. repeat (destruct H as [<-|H]); try contradiction; eexists _, _; (split; [reflexivity|]); (split; [exact F|]); tauto.
Qed.
Lemma option_start_leads sp o R : my_option_ok o = true -> exists s, leads (at_ [(461, YSpec sp)] None (rpar :: my_option_tokens o ++ R) 0 None) (at_ (option_at sp s) None R 0 None).
Proof.
  unfold my_option_ok, my_option_tokens. intros K. apply andb_true_iff in K as [K _]. apply mem_in in K.
  destruct (option_names_in _ K) as (t & l & E & F & L). rewrite E, <- app_assoc. cbn [app].
  destruct (option_open sp t (l ++ equals :: option_value_token (mo_value o) :: R) F) as [s S].
  assert (X : exists s', leads (at_ (option_at sp s) None (l ++ equals :: option_value_token (mo_value o) :: R) 0 None) (at_ (option_at sp s') None (equals :: option_value_token (mo_value o) :: R) 0 None)).
  { destruct L as [-> | ->]; [exists s; apply leads_refl|]. apply option_token. now left. }
  destruct X as [s' S']. destruct (option_given sp s' (mo_value o) R) as [s'' S'']. exists s''.
  eapply leads_trans; [exact S|]. eapply leads_trans; [exact S'|exact S''].
Qed.
Lemma option_next_leads sp s o R : my_option_ok o = true -> exists s', leads (at_ (option_at sp s) None (my_option_tokens o ++ R) 0 None) (at_ (option_at sp s') None R 0 None).
Proof.
  unfold my_option_ok, my_option_tokens. intros K. apply andb_true_iff in K as [K _]. apply mem_in in K.
  destruct (option_names_in _ K) as (t & l & E & F & L). rewrite E, <- app_assoc. cbn [app].
  destruct (option_token sp s t (l ++ equals :: option_value_token (mo_value o) :: R) (or_intror F)) as [s1 S].
  assert (X : exists s', leads (at_ (option_at sp s1) None (l ++ equals :: option_value_token (mo_value o) :: R) 0 None) (at_ (option_at sp s') None (equals :: option_value_token (mo_value o) :: R) 0 None)).
  { destruct L as [-> | ->]; [exists s1; apply leads_refl|]. apply option_token. now left. }
  destruct X as [s' S']. destruct (option_given sp s' (mo_value o) R) as [s'' S'']. exists s''.
  eapply leads_trans; [exact S|]. eapply leads_trans; [exact S'|exact S''].
Qed.
Lemma option_rest_leads sp l : forall s R, forallb my_option_ok l = true -> exists s', leads (at_ (option_at sp s) None (option_rest l ++ R) 0 None) (at_ (option_at sp s') None R 0 None).
Proof.
  induction l as [|o l IH]; intros s R K; [exists s; apply leads_refl|]. cbn [forallb] in K. apply andb_true_iff in K as [K1 K2].
  unfold option_rest. cbn [flat_map]. rewrite <- app_assoc. destruct (option_next_leads sp s o (option_rest l ++ R) K1) as [s' S]. destruct (IH s' R K2) as [s'' S'].
  exists s''. eapply leads_trans; [exact S|exact S'].
Qed.
Definition with_options (sp : table_spec) (s : string) : table_spec := mkTableSpec (ts_columns sp) (ts_indexes sp) (ts_fks sp) s.
Lemma options_end sp s : exists s', ends_in (at_ (option_at sp s) None [] 0 None) (create_table schema name (Some (with_options sp s'))).
Proof. unfold option_at, table_at, create_table. cbn [app]. destruct sp. eexists. finish. Qed.
Lemma my_table_end sp l : ts_options sp = ""%string -> forallb my_option_ok l = true ->
  exists s, ends_in (at_ [(461, YSpec sp)] None (rpar :: option_rest l) 0 None) (create_table schema name (Some (with_options sp s))).
Proof.
  intros E K. destruct l as [|o l].
  - exists ""%string. destruct sp. cbn in E. subst. now apply table_end.
  - cbn [forallb] in K. apply andb_true_iff in K as [K1 K2]. unfold option_rest. cbn [flat_map]. fold (option_rest l).
    destruct (option_start_leads sp o (option_rest l) K1) as [s S]. destruct (option_rest_leads sp l s [] K2) as [s' S']. rewrite app_nil_r in S'.
    destruct (options_end sp s') as [s'' A]. exists s''. eapply leads_ends; [exact S|]. eapply leads_ends; [exact S'|exact A].
Qed.
End Table.

(** ** The whole table *)
Section Whole.
Variable t : my_table.
Notation at_ l := (mkT (table_at "" (my_table_name t) l)).
Lemma my_table_start c R : leads (tstart (T "CREATE" "create" :: T "TABLE" "table" :: name_token (my_table_name t) :: lpar :: name_token c :: R))
  (at_ [(463, YStr c)] None R 0 None).
Proof. unfold table_at, create_table. cbn [app]. generalize (my_table_name t). intros n. go. Qed.
Definition my_column_words (c : my_column) : list token := name_token (mc_name c) :: my_column_tokens c.
Definition my_definition (c : my_column) : column_definition := mkColumnDefinition (mc_name c) (my_column_value c).
Definition my_more_columns (l : list my_column) : list token := flat_map (fun c => comma :: my_column_words c) l.
Definition my_more_keys (l : list my_key) : list token := flat_map (fun k => comma :: my_key_tokens k) l.
Definition my_more_fks (l : list my_fk) : list token := flat_map (fun f => comma :: my_fk_tokens f) l.

Lemma my_columns_rest l : forall sp x R, forallb my_column_ok l = true -> In x after_column ->
  leads (at_ [(461, YSpec sp)] None (my_more_columns l ++ x :: R) 0 None)
    (at_ [(461, YSpec (mkTableSpec (ts_columns sp ++ map my_definition l) (ts_indexes sp) (ts_fks sp) (ts_options sp)))] None (x :: R) 0 None).
Proof.
  induction l as [|c l IH]; intros sp x R K H.
  - cbn. rewrite app_nil_r. destruct sp. apply leads_refl.
  - cbn [forallb] in K. apply andb_true_iff in K as [K1 K2]. unfold my_more_columns. cbn [flat_map my_column_words]. cbn [app]. rewrite <- app_assoc. cbn [app].
    eapply leads_trans; [apply column_next|]. fold (my_more_columns l).
    assert (X : exists t' R', my_more_columns l ++ x :: R = t' :: R' /\ In t' after_column).
    { destruct l; [now exists x, R|]. eexists comma, _. split; [reflexivity|cbn; tauto]. }
    destruct X as (t' & R' & E & I). rewrite E. eapply leads_trans; [exact (my_column_leads _ _ _ c t' R' K1 I)|].
    eapply leads_trans; [apply (column_end _ _ sp _ _ _ _ I)|]. rewrite <- E.
    replace (ts_columns sp ++ map my_definition (c :: l)) with (ts_columns (with_column sp (my_definition c)) ++ map my_definition l) by (cbn; now rewrite <- app_assoc).
    exact (IH (with_column sp (my_definition c)) x R K2 H).
Qed.
Lemma my_keys_rest l : forall sp x R, In x after_column ->
  leads (at_ [(461, YSpec sp)] None (my_more_keys l ++ x :: R) 0 None)
    (at_ [(461, YSpec (mkTableSpec (ts_columns sp) (ts_indexes sp ++ map my_key_value l) (ts_fks sp) (ts_options sp)))] None (x :: R) 0 None).
Proof.
  induction l as [|k l IH]; intros sp x R H.
  - cbn. rewrite app_nil_r. destruct sp. apply leads_refl.
  - unfold my_more_keys. cbn [flat_map app]. rewrite <- app_assoc. fold (my_more_keys l).
    assert (X : exists t' R', my_more_keys l ++ x :: R = t' :: R' /\ In t' after_column).
    { destruct l; [now exists x, R|]. eexists comma, _. split; [reflexivity|cbn; tauto]. }
    destruct X as (t' & R' & E & I). rewrite E. eapply leads_trans; [now apply my_key_leads|]. rewrite <- E.
    replace (ts_indexes sp ++ map my_key_value (k :: l)) with (ts_indexes (with_key sp (my_key_value k)) ++ map my_key_value l) by (cbn; now rewrite <- app_assoc).
    exact (IH (with_key sp (my_key_value k)) x R H).
Qed.
Lemma my_fks_rest l : forall sp x R, In x after_column ->
  leads (at_ [(461, YSpec sp)] None (my_more_fks l ++ x :: R) 0 None)
    (at_ [(461, YSpec (mkTableSpec (ts_columns sp) (ts_indexes sp) (ts_fks sp ++ map my_fk_value l) (ts_options sp)))] None (x :: R) 0 None).
Proof.
  induction l as [|k l IH]; intros sp x R H.
  - cbn. rewrite app_nil_r. destruct sp. apply leads_refl.
  - unfold my_more_fks. cbn [flat_map app]. rewrite <- app_assoc. fold (my_more_fks l).
    assert (X : exists t' R', my_more_fks l ++ x :: R = t' :: R' /\ In t' after_column).
    { destruct l; [now exists x, R|]. eexists comma, _. split; [reflexivity|cbn; tauto]. }
    destruct X as (t' & R' & E & I). rewrite E. eapply leads_trans; [now apply my_fk_leads|]. rewrite <- E.
    replace (ts_fks sp ++ map my_fk_value (k :: l)) with (ts_fks (with_fk sp (my_fk_value k)) ++ map my_fk_value l) by (cbn; now rewrite <- app_assoc).
    exact (IH (with_fk sp (my_fk_value k)) x R H).
Qed.

Definition my_table_tokens : list token :=
  T "CREATE" "create" :: T "TABLE" "table" :: name_token (my_table_name t) :: lpar ::
  my_column_words (my_first t) ++ my_more_columns (my_columns t) ++ my_more_keys (my_keys t) ++ my_more_fks (my_fks t) ++ rpar :: option_rest (my_options t).
Definition my_table_value (s : string) : sql_ddl :=
  create_table "" (my_table_name t) (Some (mkTableSpec (map my_definition (my_first t :: my_columns t)) (map my_key_value (my_keys t)) (map my_fk_value (my_fks t)) s)).
Lemma my_table_runs : my_table_ok t = true -> exists s, ends_in (tstart my_table_tokens) (my_table_value s).
Proof.
  unfold my_table_ok. intros K. rewrite !andb_true_iff in K. destruct K as [[[[Kn Kc] Kk] Kf] Ko]. cbn [forallb] in Kc. apply andb_true_iff in Kc as [K1 K2].
  assert (H : In rpar after_column) by (cbn; tauto).
  assert (HF : exists x R, my_more_fks (my_fks t) ++ rpar :: option_rest (my_options t) = x :: R /\ In x after_column).
  { destruct (my_fks t); eexists _, _; (split; [reflexivity|cbn; tauto]). }
  assert (HK : exists x R, my_more_keys (my_keys t) ++ my_more_fks (my_fks t) ++ rpar :: option_rest (my_options t) = x :: R /\ In x after_column).
  { destruct (my_keys t); [exact HF|]. eexists _, _; (split; [reflexivity|cbn; tauto]). }
  assert (HC : exists x R, my_more_columns (my_columns t) ++ my_more_keys (my_keys t) ++ my_more_fks (my_fks t) ++ rpar :: option_rest (my_options t) = x :: R /\ In x after_column).
  { destruct (my_columns t); [exact HK|]. eexists _, _; (split; [reflexivity|cbn; tauto]). }
  destruct (my_table_end "" (my_table_name t)
    (mkTableSpec (map my_definition (my_first t :: my_columns t)) (map my_key_value (my_keys t)) (map my_fk_value (my_fks t)) "") (my_options t) eq_refl Ko) as [s A].
  exists s. unfold my_table_tokens, my_column_words. cbn [app]. eapply leads_ends; [apply my_table_start|].
  destruct HC as (x & R & E & I). rewrite E. eapply leads_ends; [exact (my_column_leads _ _ _ _ x R K1 I)|].
  eapply leads_ends; [apply (column_first _ _ _ _ _ _ I)|]. rewrite <- E. clear x R E I.
  destruct HK as (x & R & E & I). rewrite E. eapply leads_ends; [exact (my_columns_rest (my_columns t) _ x R K2 I)|]. rewrite <- E. clear x R E I.
  destruct HF as (x & R & E & I). rewrite E. eapply leads_ends; [exact (my_keys_rest (my_keys t) _ x R I)|]. rewrite <- E. clear x R E I.
  eapply leads_ends; [exact (my_fks_rest (my_fks t) _ rpar _ H)|]. exact A.
Qed.
End Whole.
