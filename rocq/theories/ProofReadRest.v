(** CREATE INDEX, ALTER TABLE ... ADD FOREIGN KEY, CREATE POLICY and CREATE VIEW as the export
    writes them, read by sqldef. *)
From Coq Require Import String Ascii List ZArith Bool Lia.
From Verif Require Import GoStr GoStrFacts Ast Formatter Generator Lexer Keywords Numerals SqlAst SchemaParse ParserTables ParserValues ParserActions Parser
  SpecLexer SpecLayout SpecPlan SpecPostgres SpecShown ProofOrder ProofRun ProofLead ProofReadEx ProofReadColumn ProofReadTable.
Import ListNotations.
Local Open Scope Z_scope.
Local Open Scope list_scope.

(** A condition in parentheses. *)
Definition paren_value (e : ex) : yval := YExpr (Some (mkXp (Some ("(" ++ sql_text e ++ ")")) (XParen (Some (sql_text e)))))%string.
Definition paren_expr (e : ex) : expr := mkExpr (Some ("(" ++ sql_text e ++ ")"))%string (Some (Some (sql_text e))).
Lemma inside_leads e st R tr : ex_fits e = true ->
  leads (mkT ((303, YNone) :: st) None (ex_tokens e ++ rpar :: R) 1 tr) (mkT ((580, ex_value e) :: (303, YNone) :: st) None (rpar :: R) 1 tr).
Proof.
  unfold ex_fits. intros F. apply andb_true_iff in F as [F D]. apply Nat.ltb_lt in D.
  apply (proj2 (ex_runs e F) 303 _ _ rpar); [|split; [cbn; tauto|discriminate]|lia].
  split; [cbn; tauto|]. split; discriminate.
Qed.
Definition group_tokens (e : ex) : list token := lpar :: ex_tokens e ++ [rpar].

(** ** CREATE INDEX *)
Definition index_tokens (schema table : string) (i : shown_index) : list token :=
  T "CREATE" "create" :: (if six_unique i then [T "UNIQUE" "unique"] else []) ++
  T "INDEX" "index" :: name_token (six_name i) :: T "ON" "on" :: name_token schema :: dot :: name_token table ::
  T "USING" "using" :: name_token "btree" :: lpar ::
  match six_columns i with [] => [] | k :: l => name_token (fst k) :: desc_tokens (snd k) ++ more_keys l end ++ rpar ::
  match six_where i with Some e => T "WHERE" "where" :: group_tokens e | None => [] end.
Definition index_value (schema table : string) (i : shown_index) : sql_ddl :=
  mkDDL "create index" (mkTableName table schema) (mkTableName table schema) None
    (Some (mkIndexSpec (six_name i) (six_unique i) false [] (option_map (fun e => mkWhere "where" (paren_expr e)) (six_where i)) [] None))
    (map key_column (six_columns i)) None None None None.

Section Index.
Variables (schema table name : string) (unique : bool).
Definition index_at (l : list (Z * yval)) : list (Z * yval) :=
  l ++ [(727, YStr "index"); (464, YBool true); (66, YBool unique); (30, YStr "create"); (0, YNone)].
Definition keys_at (l : list (Z * yval)) : list (Z * yval) :=
  index_at (l ++ [(1570, YStr ""); (1513, YStr "btree"); (1435, YStr "using"); (1329, YTable (mkTableName table schema)); (1163, YStr "on"); (972, YStr name)]).
Lemma index_start R : leads (tstart (T "CREATE" "create" :: (if unique then [T "UNIQUE" "unique"] else []) ++ T "INDEX" "index" :: name_token name :: R))
  (mkT (index_at [(352, YStr name)]) None R 0 None).
Proof. unfold index_at. cbn [app]. destruct unique; go. Qed.
Lemma index_on R : leads (mkT (index_at [(352, YStr name)]) None (T "ON" "on" :: name_token schema :: dot :: name_token table :: T "USING" "using" :: name_token "btree" :: R) 0 None)
  (mkT (index_at [(352, YStr "btree"); (1435, YStr "using"); (1329, YTable (mkTableName table schema)); (1163, YStr "on"); (972, YStr name)]) None R 0 None).
Proof. unfold index_at. cbn [app]. go. Qed.
Lemma index_open c R : leads (mkT (index_at [(352, YStr "btree"); (1435, YStr "using"); (1329, YTable (mkTableName table schema)); (1163, YStr "on"); (972, YStr name)]) None (lpar :: name_token c :: R) 0 None)
  (mkT (keys_at [(352, YStr c)]) None R 0 None).
Proof. unfold keys_at, index_at. cbn [app]. go. Qed.
Lemma index_end cols : ends_in (mkT (keys_at [(1659, YStr ""); (1623, YIndexColumns cols)]) None [] 0 None)
  (mkDDL "create index" (mkTableName table schema) (mkTableName table schema) None (Some (mkIndexSpec name unique false [] None [] None)) cols None None None None).
Proof. unfold keys_at, index_at. cbn [app]. finish. Qed.
Lemma index_where cols R : leads (mkT (keys_at [(1659, YStr ""); (1623, YIndexColumns cols)]) None (T "WHERE" "where" :: lpar :: R) 0 None)
  (mkT (keys_at [(303, YNone); (1069, YStr "where"); (1659, YStr ""); (1623, YIndexColumns cols)]) None R 1 None).
Proof. unfold keys_at, index_at. cbn [app]. go. Qed.
Lemma index_where_end cols e : ends_in (mkT (keys_at [(580, ex_value e); (303, YNone); (1069, YStr "where"); (1659, YStr ""); (1623, YIndexColumns cols)]) None [rpar] 1 None)
  (mkDDL "create index" (mkTableName table schema) (mkTableName table schema) None
    (Some (mkIndexSpec name unique false [] (Some (mkWhere "where" (paren_expr e))) [] None)) cols None None None None).
Proof.
  unfold ex_value, paren_expr. generalize (sql_text e) (ex_kind e). intros s k. unfold keys_at, index_at. cbn [app]. destruct k; finish.
Qed.
End Index.

Lemma index_runs schema table i : six_columns i <> [] -> match six_where i with Some e => ex_fits e = true | None => True end ->
  ends_in (tstart (index_tokens schema table i)) (index_value schema table i).
Proof.
  destruct i as [name unique columns w]. unfold index_tokens, index_value. cbn [six_name six_unique six_columns six_where]. intros N W. destruct columns as [|k l]; [contradiction|].
  cbn [app]. eapply leads_ends; [apply index_start|]. eapply leads_ends; [apply index_on|]. eapply leads_ends; [apply index_open|]. rewrite <- app_assoc.
  eapply leads_ends; [unfold keys_at; cbn [app]; refine (keys_lead 1570 1623 1659 _ _ None (or_intror (or_introl eq_refl)) k l _)|].
  destruct w as [e|].
  - unfold group_tokens. eapply leads_ends; [apply (index_where schema table name unique)|].
    eapply leads_ends; [apply (inside_leads e _ [] None W)|]. apply (index_where_end schema table name unique).
  - apply (index_end schema table name unique).
Qed.

(** ** Foreign keys *)
Definition action_tokens (a : action) : list token :=
  match a with
  | NoAction => [T "NO" "no"; T "ACTION" "action"] | Restrict => [T "RESTRICT" "restrict"] | Cascade => [T "CASCADE" "cascade"]
  | SetNull => [T "SET" "set"; T "NULL" "null"]
  end.
Definition fk_tokens (schema table : string) (f : shown_fk) : list token :=
  T "ALTER" "alter" :: T "TABLE" "table" :: T "ONLY" "only" :: name_token schema :: dot :: name_token table :: T "ADD" "add" :: T "CONSTRAINT" "constraint" ::
  name_token (sf_name f) :: T "FOREIGN" "foreign" :: T "KEY" "key" :: lpar :: name_token (sf_column f) :: rpar :: T "REFERENCES" "references" ::
  name_token (sf_schema f) :: dot :: name_token (sf_table f) :: lpar :: name_token (sf_ref_column f) :: rpar ::
  T "ON" "on" :: T "UPDATE" "update" :: action_tokens (sf_update f) ++ T "ON" "on" :: T "DELETE" "delete" :: action_tokens (sf_delete f).
Definition fk_value (schema table : string) (f : shown_fk) : sql_ddl :=
  mkDDL "add foreign key" (mkTableName table schema) (mkTableName table schema) None None []
    (Some (mkFkDefinition (sf_name f) "" [sf_column f] (sf_table f) [sf_ref_column f] (action_words (sf_delete f)) (action_words (sf_update f)) false))
    None None None.
Lemma fk_runs schema table f : ends_in (tstart (fk_tokens schema table f)) (fk_value schema table f).
Proof. destruct f as [a b c d e u v]. unfold fk_tokens, fk_value. destruct u, v; finish. Qed.

(** ** Policies *)
Definition command_token (c : command) : token :=
  match c with
  | ForAll => T "ALL" "all" | ForSelect => T "SELECT" "select" | ForInsert => T "INSERT" "insert" | ForUpdate => T "UPDATE" "update" | ForDelete => T "DELETE" "delete"
  end.
Definition more_names (l : list string) : list token := flat_map (fun n => [comma; name_token n]) l.
Definition policy_tokens (table : string) (p : shown_policy) : list token :=
  T "CREATE" "create" :: T "POLICY" "policy" :: name_token (SpecShown.sp_name p) :: T "ON" "on" :: name_token table :: T "AS" "as" ::
  (if SpecShown.sp_permissive p then T "PERMISSIVE" "permissive" else T "RESTRICTIVE" "restrictive") :: T "FOR" "for" :: command_token (sp_command p) :: T "TO" "to" ::
  match sp_roles p with [] => [] | r :: l => name_token r :: more_names l end ++
  option_tokens (fun e => T "USING" "using" :: group_tokens e) (SpecShown.sp_using p) ++
  option_tokens (fun e => T "WITH" "with" :: T "CHECK" "check" :: group_tokens e) (sp_check p).
Definition policy_value (table : string) (p : shown_policy) : sql_ddl :=
  mkDDL "create policy" (mkTableName table "") no_table None None [] None
    (Some (mkSqlPolicy (SpecShown.sp_name p) (if SpecShown.sp_permissive p then "permissive" else "restrictive") (snd (command_token (sp_command p))) (sp_roles p)
             (option_map (fun e => mkWhere "where" (paren_expr e)) (SpecShown.sp_using p))
             (option_map (fun e => mkWhere "where" (paren_expr e)) (sp_check p)))) None None.

Section Policy.
Variables (table name : string) (permissive : bool) (c : command).
Definition policy_at (l : list (Z * yval)) : list (Z * yval) :=
  l ++ [(1439, YStr "to"); (1333, YStr (snd (command_token c))); (1169, YStr (if permissive then "permissive" else "restrictive"));
        (981, YTable (mkTableName table "")); (734, YStr "on"); (472, YStr name); (71, YStr "policy"); (30, YStr "create"); (0, YNone)].
Lemma policy_start r R : leads (tstart (T "CREATE" "create" :: T "POLICY" "policy" :: name_token name :: T "ON" "on" :: name_token table :: T "AS" "as" ::
  (if permissive then T "PERMISSIVE" "permissive" else T "RESTRICTIVE" "restrictive") :: T "FOR" "for" :: command_token c :: T "TO" "to" :: name_token r :: R))
  (mkT (policy_at [(1515, YStrs [r])]) None R 0 None).
Proof. unfold policy_at. cbn [app]. destruct permissive, c; go. Qed.
Lemma policy_role l r R : leads (mkT (policy_at [(1515, YStrs l)]) None (comma :: name_token r :: R) 0 None) (mkT (policy_at [(1515, YStrs (l ++ [r]))]) None R 0 None).
Proof. unfold policy_at. cbn [app]. go. Qed.
Lemma policy_roles l : forall l0 R, leads (mkT (policy_at [(1515, YStrs l0)]) None (more_names l ++ R) 0 None) (mkT (policy_at [(1515, YStrs (l0 ++ l))]) None R 0 None).
Proof.
  induction l as [|r l IH]; intros l0 R; [cbn; rewrite app_nil_r; apply leads_refl|]. unfold more_names. cbn [flat_map app].
  eapply leads_trans; [apply policy_role|]. replace (l0 ++ r :: l) with ((l0 ++ [r]) ++ l) by (now rewrite <- app_assoc). apply IH.
Qed.
Lemma policy_using l R : leads (mkT (policy_at [(1515, YStrs l)]) None (T "USING" "using" :: lpar :: R) 0 None)
  (mkT (policy_at [(303, YNone); (1574, YStr "using"); (1515, YStrs l)]) None R 1 None).
Proof. unfold policy_at. cbn [app]. go. Qed.
Lemma policy_check l R : leads (mkT (policy_at [(1515, YStrs l)]) None (T "WITH" "with" :: T "CHECK" "check" :: lpar :: R) 0 None)
  (mkT (policy_at [(303, YNone); (1661, YStr "check"); (1626, YStr "with"); (1572, YExpr None); (1515, YStrs l)]) None R 1 None).
Proof. unfold policy_at. cbn [app]. go. Qed.
Lemma policy_using_check e l R : leads (mkT (policy_at [(580, ex_value e); (303, YNone); (1574, YStr "using"); (1515, YStrs l)]) None (rpar :: T "WITH" "with" :: T "CHECK" "check" :: lpar :: R) 1 None)
  (mkT (policy_at [(303, YNone); (1661, YStr "check"); (1626, YStr "with"); (1572, paren_value e); (1515, YStrs l)]) None R 1 None).
Proof. unfold ex_value, paren_value. generalize (sql_text e) (ex_kind e). intros s k. unfold policy_at. cbn [app]. go. Qed.
Definition policy_of (l : list string) (u k : option ex) : sql_ddl :=
  mkDDL "create policy" (mkTableName table "") no_table None None [] None
    (Some (mkSqlPolicy name (if permissive then "permissive" else "restrictive") (snd (command_token c)) l
             (option_map (fun e => mkWhere "where" (paren_expr e)) u) (option_map (fun e => mkWhere "where" (paren_expr e)) k))) None None.
Lemma policy_end l : ends_in (mkT (policy_at [(1515, YStrs l)]) None [] 0 None) (policy_of l None None).
Proof. unfold policy_at, policy_of. cbn [app option_map]. destruct permissive, c; finish. Qed.
Lemma policy_using_end e l : ends_in (mkT (policy_at [(580, ex_value e); (303, YNone); (1574, YStr "using"); (1515, YStrs l)]) None [rpar] 1 None) (policy_of l (Some e) None).
Proof.
  unfold ex_value, policy_of, paren_expr. cbn [option_map]. generalize (sql_text e) (ex_kind e). intros s k. unfold policy_at. cbn [app]. destruct permissive, c; finish.
Qed.
Lemma policy_check_end e l : ends_in (mkT (policy_at [(580, ex_value e); (303, YNone); (1661, YStr "check"); (1626, YStr "with"); (1572, YExpr None); (1515, YStrs l)]) None [rpar] 1 None)
  (policy_of l None (Some e)).
Proof.
  unfold ex_value, policy_of, paren_expr. cbn [option_map]. generalize (sql_text e) (ex_kind e). intros s k. unfold policy_at. cbn [app]. destruct permissive, c; finish.
Qed.
Lemma policy_both_end u e l : ends_in (mkT (policy_at [(580, ex_value e); (303, YNone); (1661, YStr "check"); (1626, YStr "with"); (1572, paren_value u); (1515, YStrs l)]) None [rpar] 1 None)
  (policy_of l (Some u) (Some e)).
Proof.
  unfold ex_value, policy_of, paren_expr, paren_value. cbn [option_map]. generalize (sql_text e) (ex_kind e) (sql_text u). intros s k s'. unfold policy_at. cbn [app].
  destruct permissive, c; finish.
Qed.
End Policy.

Lemma policy_runs table p : policy_ok p = true -> ends_in (tstart (policy_tokens table p)) (policy_value table p).
Proof.
  destruct p as [name permissive c roles u k]. unfold policy_ok, policy_tokens, policy_value. cbn [SpecShown.sp_name SpecShown.sp_permissive sp_command sp_roles SpecShown.sp_using sp_check].
  intros K. rewrite !andb_true_iff in K. destruct K as [[[[_ N] _] U] C]. destruct roles as [|r l]; [discriminate|]. clear N.
  cbn [app]. eapply leads_ends; [apply policy_start|]. eapply leads_ends; [apply policy_roles|]. cbn [app]. fold (policy_of table name permissive c (r :: l) u k).
  destruct u as [u|], k as [k|]; cbn [option_tokens]; unfold group_tokens.
  - cbn [app]. rewrite <- app_assoc. cbn [app]. eapply leads_ends; [apply policy_using|]. eapply leads_ends; [apply (inside_leads u _ _ None U)|].
    eapply leads_ends; [apply (policy_using_check table name permissive c)|]. eapply leads_ends; [apply (inside_leads k _ _ None C)|]. apply policy_both_end.
  - rewrite app_nil_r. eapply leads_ends; [apply policy_using|]. eapply leads_ends; [apply (inside_leads u _ _ None U)|]. apply policy_using_end.
  - cbn [app]. eapply leads_ends; [apply policy_check|]. eapply leads_ends; [apply (inside_leads k _ _ None C)|]. apply policy_check_end.
  - cbn [app]. apply policy_end.
Qed.

(** ** Views *)
Definition field_tokens (f : string * string) : list token := [name_token (fst f); dot; name_token (snd f)].
Definition view_tokens (v : shown_view) : list token :=
  T "CREATE" "create" :: T "VIEW" "view" :: name_token (sv_schema v) :: dot :: name_token (sv_view v) :: T "AS" "as" :: T "SELECT" "select" ::
  match sv_columns v with [] => [] | f :: l => field_tokens f ++ flat_map (fun f => comma :: field_tokens f) l end ++
  T "FROM" "from" :: name_token (sv_from v) :: option_tokens (fun e => T "WHERE" "where" :: group_tokens e) (sv_where v).
Definition named_table (n : string) : table_name := mkTableName n "".
Definition field_text (f : string * string) : string := ((format_table (named_table (fst f)) ++ "." ++ format_id (snd f)) ++ alias "" ++ "")%string.
Definition from_text (n : string) : string := (format_table (named_table n) ++ alias "" ++ "")%string.
Definition view_value (v : shown_view) : sql_ddl :=
  mkDDL "create view" no_table no_table None None [] None None
    (Some (mkSqlView (mkTableName (sv_view v) (sv_schema v)) (Some (vw_definition (ideal_view v))))) None.

Section View.
Variables schema name : string.
Definition view_at (l : list (Z * yval)) : list (Z * yval) :=
  l ++ [(783, YStr ""); (523, YStr ""); (260, YStr ""); (57, YStrs []); (23, YStr "select"); (973, YStr "as"); (728, YTable (mkTableName name schema));
        (467, YStr "view"); (67, YNone); (30, YStr "create"); (0, YNone)].
Definition after_field : list token := [comma; T "FROM" "from"].
Lemma view_start f t R : In t after_field ->
  leads (tstart (T "CREATE" "create" :: T "VIEW" "view" :: name_token schema :: dot :: name_token name :: T "AS" "as" :: T "SELECT" "select" :: field_tokens f ++ t :: R))
    (mkT (view_at [(1021, YTexts [Some (field_text f)])]) None (t :: R) 0 None).
Proof. intros H. unfold view_at, field_text. cbn [app]. destruct f as [a b]. cbv [after_field] in H. each_in H; go. Qed.
Lemma view_field f x t R : In t after_field ->
  leads (mkT (view_at [(1021, YTexts x)]) None (comma :: field_tokens f ++ t :: R) 0 None)
    (mkT (view_at [(1021, YTexts (x ++ [Some (field_text f)]))]) None (t :: R) 0 None).
Proof. intros H. unfold view_at, field_text. cbn [app]. destruct f as [a b]. cbv [after_field] in H. each_in H; go. Qed.
Lemma view_fields l : forall x R,
  leads (mkT (view_at [(1021, YTexts x)]) None (flat_map (fun f => comma :: field_tokens f) l ++ T "FROM" "from" :: R) 0 None)
    (mkT (view_at [(1021, YTexts (x ++ map (fun f => Some (field_text f)) l))]) None (T "FROM" "from" :: R) 0 None).
Proof.
  induction l as [|f l IH]; intros x R; [cbn; rewrite app_nil_r; apply leads_refl|]. cbn [flat_map map]. rewrite <- app_assoc. rewrite <- app_comm_cons.
  assert (E : exists t R', flat_map (fun f => comma :: field_tokens f) l ++ T "FROM" "from" :: R = t :: R' /\ In t after_field).
  { destruct l; eexists _, _; (split; [reflexivity|cbn; tauto]). }
  destruct E as (t & R' & E & I). rewrite E. eapply leads_trans; [now apply view_field|]. rewrite <- E.
  replace (x ++ Some (field_text f) :: map (fun f => Some (field_text f)) l) with ((x ++ [Some (field_text f)]) ++ map (fun f => Some (field_text f)) l) by (now rewrite <- app_assoc).
  apply IH.
Qed.
Ltac finish_view :=
  eexists; split;
  [eapply (until_leads 80 1); cbv -[format_id to_lower String.append encode_bytes_sql format_table alias show_Z commas]; reflexivity|
   cbv -[format_id to_lower String.append encode_bytes_sql format_table alias show_Z commas]; reflexivity].
Lemma view_end x n : ends_in (mkT (view_at [(1021, YTexts x)]) None [T "FROM" "from"; name_token n] 0 None)
  (mkDDL "create view" no_table no_table None None [] None None
    (Some (mkSqlView (mkTableName (to_lower name) schema)
      (cat [cat [lit "select "; commas x; lit " from "; commas [Some (from_text n)]; lit ""; lit ""; lit ""]; lit ""; lit ""; lit ""])%string)) None).
Proof. unfold view_at. cbn [app]. finish_view. Qed.
Lemma view_where x n R : leads (mkT (view_at [(1021, YTexts x)]) None (T "FROM" "from" :: name_token n :: T "WHERE" "where" :: lpar :: R) 0 None)
  (mkT (view_at [(303, YNone); (1069, YStr "where"); (1214, YTexts [Some (from_text n)]); (1021, YTexts x)]) None R 1 None).
Proof. unfold view_at. cbn [app]. go. Qed.
Lemma view_where_end x n e : ends_in (mkT (view_at [(580, ex_value e); (303, YNone); (1069, YStr "where"); (1214, YTexts [Some (from_text n)]); (1021, YTexts x)]) None [rpar] 1 None)
  (mkDDL "create view" no_table no_table None None [] None None
    (Some (mkSqlView (mkTableName (to_lower name) schema)
      (cat [cat [lit "select "; commas x; lit " from "; commas [Some (from_text n)]; cat [lit " where "; Some ("(" ++ sql_text e ++ ")")]; lit ""; lit ""]; lit ""; lit ""; lit ""])%string)) None).
Proof.
  unfold ex_value. generalize (sql_text e) (ex_kind e) (from_text n). intros s k f. unfold view_at. cbn [app]. finish_view.
Qed.
End View.

Lemma commas_some l : commas (map (fun x => Some x) l) = Some (join ", " l).
Proof. induction l as [|x l IH]; [reflexivity|]. destruct l as [|y l]; [reflexivity|]. change (map (fun x => Some x) (x :: y :: l)) with (Some x :: map (fun x => Some x) (y :: l)).
  cbn [map] in IH |- *. cbn [commas] in IH |- *. rewrite IH. cbn [cat lit]. rewrite sapp_nil_r. reflexivity.
Qed.
Lemma table_same n : simple_name n = true -> format_table (named_table n) = n.
Proof.
  intros H. unfold format_table, named_table. cbn [tn_name tn_qualifier]. rewrite (simple_format n H). destruct (String.eqb_spec n "") as [->|_]; [discriminate|reflexivity].
Qed.
Lemma simple_lower n : simple_name n = true -> to_lower n = n.
Proof.
  intros H. destruct (simple_parts n H) as (c & s & E & H1 & H2 & _). apply to_lower_same. subst n. cbn [all_chars]. apply andb_true_iff. split; [now apply name_start_char|exact H2].
Qed.
Lemma view_runs v : view_ok v = true -> ends_in (tstart (view_tokens v)) (view_value v).
Proof.
  destruct v as [schema name columns from w]. unfold view_ok, view_tokens, view_value, ideal_view.
  cbn [SpecShown.sv_schema sv_view sv_columns sv_from sv_where vw_definition]. intros K. rewrite !andb_true_iff in K. destruct K as [[[[[K1 K2] K3] K4] K5] K6].
  assert (F : map (fun f => Some (field_text f)) columns = map (fun x => Some x) (map (fun c : string * string => fst c ++ "." ++ snd c)%string columns)).
  { rewrite map_map. apply map_ext_in. intros [a b] C. rewrite forallb_forall in K5. specialize (K5 _ C). cbn [fst snd] in K5. apply andb_true_iff in K5 as [A B].
    unfold field_text. cbn [fst snd]. rewrite (table_same a A), (simple_format b B). change (alias "") with ""%string. now rewrite !sapp_nil_r. }
  assert (G : from_text from = from).
  { unfold from_text. rewrite (table_same from K3). change (alias "") with ""%string. now rewrite !sapp_nil_r. }
  rewrite <- (simple_lower name K2) at 2. destruct columns as [|f l]; [discriminate|]. cbn [app].
  assert (E : exists t R', flat_map (fun f => comma :: field_tokens f) l ++ T "FROM" "from" :: name_token from :: option_tokens (fun e => T "WHERE" "where" :: group_tokens e) w = t :: R' /\ In t after_field).
  { destruct l; eexists _, _; (split; [reflexivity|cbn; tauto]). }
  destruct E as (t & R' & E & I). rewrite <- app_assoc, E. eapply leads_ends; [apply (view_start schema name f t R' I)|]. rewrite <- E.
  eapply leads_ends; [apply view_fields|]. change ([Some (field_text f)] ++ map (fun f => Some (field_text f)) l) with (map (fun f => Some (field_text f)) (f :: l)). rewrite F.
  destruct w as [e|]; cbn [option_tokens].
  - apply andb_true_iff in K6 as [K6 _]. unfold group_tokens. eapply leads_ends; [apply (view_where schema name)|]. eapply leads_ends; [apply (inside_leads e _ _ None K6)|].
    match goal with |- ends_in _ ?v => match type of (view_where_end schema name (map (fun x => Some x) (map (fun c : string * string => fst c ++ "." ++ snd c)%string (f :: l))) from e) with ends_in _ ?v' => replace v with v' end end.
    + apply view_where_end.
    + rewrite G, commas_some. cbn [cat commas lit]. now rewrite ?sapp_nil_r, ?sapp_assoc.
  - match goal with |- ends_in _ ?v => match type of (view_end schema name (map (fun x => Some x) (map (fun c : string * string => fst c ++ "." ++ snd c)%string (f :: l))) from) with ends_in _ ?v' => replace v with v' end end.
    + apply view_end.
    + rewrite G, commas_some. cbn [cat commas lit]. now rewrite ?sapp_nil_r, ?sapp_assoc.
Qed.
