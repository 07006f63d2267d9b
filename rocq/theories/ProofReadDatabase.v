(** The export of a readable database is read as the database. *)
From Coq Require Import String Ascii List ZArith Bool Lia.
From Verif Require Import GoStr GoStrFacts GoNum Ast Formatter Generator Keywords Lexer Numerals SchemaText SqlAst SchemaParse ParserActions Parser Planner Catalog AdapterPostgres SpecPlan SpecMysql SpecDatabase SpecPostgres
  SpecLexer SpecText SpecLayout SpecExport SpecShown ProofOrder ProofNumerals ProofRun ProofText ProofExport ProofCatalog ProofExport3 ProofLead ProofReadEx ProofPieces ProofReadColumn ProofReadTable ProofReadRest ProofReadText ProofReadStatements ProofReadBack ProofPlan ProofPg.
Import ListNotations.
Local Open Scope string_scope.
Local Open Scope list_scope.

Section Database.
Variable quoted : string -> bool.
Notation render := (ProofPieces.render quoted).
Notation pwf := (ProofPieces.pwf quoted).

Definition reads (text : string) (d : ddl) : Prop := exists d', parse_ddl parse_strict_ddl Postgres text = Ok d' /\ without_text d' = d.

Lemma text_parsed l d : written quoted l -> ends_in (tstart (words l)) d -> parse_strict_ddl Postgres (render l) = Ok (SDdl d).
Proof. intros W (s & L & A). exact (leads_accept _ _ _ _ _ (pieces_say quoted l W) L A). Qed.
Lemma text_reads l d : written quoted l -> ends_in (tstart (words l)) d ->
  parse_ddl parse_strict_ddl Postgres (render l) = parse_statement Postgres (render l) (SDdl d).
Proof. intros W E. unfold parse_ddl. now rewrite (text_parsed l d W E). Qed.

(** ** Statements *)
Lemma statement_table text d : dd_action d = "create" -> parse_statement Postgres text (SDdl d) = (do t <- parse_table Postgres d; Ok (CreateTable text t)).
Proof. intros E. unfold parse_statement. now rewrite E. Qed.
Lemma statement_index text d : dd_action d = "create index" ->
  parse_statement Postgres text (SDdl d) = (do i <- parse_index d; Ok (CreateIndex text (normalized_table_name Postgres (dd_table d)) i)).
Proof. intros E. unfold parse_statement. now rewrite E. Qed.
Lemma statement_fk text schema table f : parse_statement Postgres text (SDdl (fk_value schema table f)) =
  Ok (AddForeignKey text (normalized_table_name Postgres (dd_table (fk_value schema table f))) (ideal_fk f)).
Proof. reflexivity. Qed.
Lemma statement_policy text d p : dd_action d = "create policy" -> dd_policy d = Some p ->
  parse_statement Postgres text (SDdl d) = (do p <- parse_policy p; Ok (AddPolicy text (normalized_table_name Postgres (dd_table d)) p)).
Proof. intros E P. unfold parse_statement. now rewrite E, P. Qed.
Lemma qualified_name schema table : simple_name schema = true -> normalized_table_name Postgres (mkTableName table schema) = schema +++ "." +++ table.
Proof. intros S. unfold normalized_table_name. cbn [tn_qualifier tn_name]. destruct (String.eqb_spec schema "") as [->|_]; [discriminate|reflexivity]. Qed.
Lemma key_read l : parse_index_columns (map key_column l) = Ok (map (fun c : string * bool => mkIndexColumn (fst c) None (if snd c then "desc" else "asc")) l).
Proof. induction l as [|[n b] l IH]; [reflexivity|]. cbn [map parse_index_columns]. rewrite IH. reflexivity. Qed.
Lemma index_reads schema table i : simple_name schema = true -> simple_name table = true -> index_ok quoted i = true ->
  reads (index_def quoted schema table i) (CreateIndex "" (schema +++ "." +++ table) (ideal_index i)).
Proof.
  intros S N K. destruct (index_parts quoted i K) as (_ & H2 & _ & H4 & _).
  rewrite <- (index_render quoted schema table i K). unfold reads. rewrite (text_reads _ (index_value schema table i)).
  - rewrite statement_index by reflexivity. unfold parse_index, index_value. cbn [dd_index_spec dd_index_cols]. rewrite key_read.
    assert (W : parse_where (option_map (fun e => mkWhere "where" (paren_expr e)) (six_where i)) = Ok match six_where i with Some e => sql_text e | None => "" end) by now destruct (six_where i).
    cbn [xs_where bind]. rewrite W. cbn [dd_table]. rewrite (qualified_name _ _ S). eexists. split; reflexivity.
  - now apply index_written.
  - rewrite index_words. now apply index_runs.
Qed.
Lemma fk_reads schema table f : simple_name schema = true -> simple_name table = true -> fk_ok f = true ->
  reads (foreign_def schema table (sf_name f) (sf_column f) (sf_schema f) (sf_table f) (sf_ref_column f) (action_words (sf_update f)) (action_words (sf_delete f)))
    (AddForeignKey "" (schema +++ "." +++ table) (ideal_fk f)).
Proof.
  intros S N K. rewrite <- (fk_render quoted). unfold reads. rewrite (text_reads _ (fk_value schema table f)).
  - rewrite statement_fk. cbn [dd_table fk_value]. rewrite (qualified_name _ _ S). eexists. split; reflexivity.
  - now apply fk_written.
  - rewrite fk_words. apply fk_runs.
Qed.
Lemma policy_reads table p : simple_name table = true -> policy_ok p = true ->
  reads (policy_def table (catalogue_policy quoted p)) (AddPolicy "" ("public." +++ table) (ideal_policy p)).
Proof.
  intros N K. rewrite <- (policy_render quoted table p K). unfold reads. rewrite (text_reads _ (policy_value table p)).
  - erewrite statement_policy by reflexivity. unfold parse_policy.
    cbn [SqlAst.sp_using sp_with_check SqlAst.sp_name SqlAst.sp_permissive sp_scope sp_to].
    assert (W : forall o, where_text (option_map (fun e => mkWhere "where" (paren_expr e)) o) = Ok match o with Some e => grouped (sql_text e) | None => "" end) by (intros [e|]; reflexivity).
    rewrite !W. cbn [bind]. eexists. split; [reflexivity|]. unfold ideal_policy. destruct (sp_command p); reflexivity.
  - now apply policy_written.
  - rewrite policy_words. now apply policy_runs.
Qed.
Lemma view_reads v : view_ok v = true -> reads (view_ddl (sv_schema v) (sv_view v) (pv_definition (catalogue_view quoted v))) (DView (ideal_view v)).
Proof.
  intros K. rewrite <- (view_render quoted v K). unfold reads. rewrite (text_reads _ (view_value v)).
  - eexists. split; reflexivity.
  - now apply view_written.
  - rewrite view_words. now apply view_runs.
Qed.

(** ** CREATE TABLE *)
Definition unique_in (t : shown_table) (n : string) : bool :=
  existsb (fun i => mem (i_name i) (g_owned (ideal_table t)) && mem n (key_columns i)) (g_indexes (ideal_table t)).
Definition pk_columns (t : shown_table) : list string := match st_pk t with Some (_, l) => l | None => [] end.
Lemma columns_read t l : forallb column_ok l = true -> forall p,
  parse_columns "" p (map (definition_of (unique_in t)) l) = SpecMysql.number p (map (exported_column (ideal_table t)) (map ideal_column l)).
Proof.
  induction l as [|c l IH]; intros K p; [reflexivity|]. cbn [forallb] in K. apply andb_true_iff in K as [K1 K2]. cbn [map parse_columns SpecMysql.number]. rewrite (IH K2). f_equal.
  unfold definition_of. now apply column_read.
Qed.
Lemma table_reads t dump : simple_name (st_schema t) = true -> simple_name (SpecShown.st_name t) = true -> st_columns t <> [] -> forallb column_ok (st_columns t) = true ->
  forallb quotable (pk_columns t) = true -> match st_pk t with Some (_, []) => False | _ => True end ->
  Forall2 (fun c d => shows quoted (unique_in t (sc_name c)) c d) (st_columns t) dump ->
  reads (create_text (st_schema t +++ "." +++ SpecShown.st_name t) dump (pk_columns t))
    (CreateTable "" (mkTable (g_name (ideal_table t)) (SpecMysql.number 0 (map (exported_column (ideal_table t)) (g_columns (ideal_table t)))) (exported_pk (ideal_table t)) [] [])).
Proof.
  intros S N E K Q P F. rewrite <- (create_render quoted (st_schema t) (SpecShown.st_name t) (unique_in t) (st_columns t)).
  - unfold reads. rewrite (text_reads _ (table_value (st_schema t) (SpecShown.st_name t) (unique_in t) (st_columns t) (pk_columns t))).
    + rewrite statement_table by reflexivity. unfold parse_table, table_value, create_table. cbn [dd_table_spec dd_new_name ts_columns ts_indexes ts_fks ts_options].
      assert (C : forallb check_prints (map (definition_of (unique_in t)) (st_columns t)) = true).
      { apply forallb_forall. intros x X. apply in_map_iff in X as (c & <- & _). unfold check_prints, definition_of. cbn [cd_type]. unfold column_value.
        destruct (sc_check c); cbn [opt]; [reflexivity|]. destruct (sc_always c), (sc_default c), (sc_required c), (unique_in t (sc_name c)), (sc_type c); reflexivity. }
      rewrite C. cbn [negb].
      assert (I : parse_index_definitions match pk_columns t with [] => [] | _ => [key_definition (pk_columns t)] end = Ok (exported_pk (ideal_table t))).
      { unfold pk_columns, exported_pk. cbn [ideal_table g_pk]. destruct (st_pk t) as [[k l]|]; [|reflexivity]. destruct l as [|x l]; [contradiction|].
        unfold key_definition. cbn [parse_index_definitions]. unfold parse_index_definition. cbn [xd_columns]. rewrite <- (map_map (fun c => (c, false)) key_column), key_read, map_map. reflexivity. }
      rewrite I. cbn [bind]. rewrite (columns_read t _ K). rewrite (qualified_name _ _ S). eexists. split; reflexivity.
    + now apply create_written.
    + rewrite create_words by assumption. now apply table_runs.
  - clear E. induction F as [|c d l l' H F IH]; [reflexivity|]. cbn [forallb] in K. apply andb_true_iff in K as [K1 K2]. cbn [map]. rewrite (column_render quoted _ c d K1 H). f_equal. now apply IH.
Qed.

(** ** The catalogue of a table *)
Definition table_of := catalogue_table quoted.
Lemma constraint_cases t x : In x (catalogue_constraints quoted t) <->
  (exists k, st_pk t = Some k /\ x = constraint (fst k) ConPrimary (snd k) "") \/
  (exists i, In i (st_indexes t) /\ mem (six_name i) (st_uniques t) = true /\ x = constraint (six_name i) ConUnique (map fst (six_columns i)) "") \/
  (exists c k, In c (st_columns t) /\ sc_check c = Some k /\ x = constraint (sk_name k) ConCheck [sc_name c] (check_text quoted (Some k))) \/
  (exists f, In f (st_fks t) /\ x = mkPgConstraint (sf_name f) ConForeign [sf_column f] "" (sf_schema f) (sf_table f) [sf_ref_column f] (action_words (sf_update f)) (action_words (sf_delete f))).
Proof.
  unfold catalogue_constraints. rewrite !in_app_iff, !in_map_iff, in_flat_map.
  assert (A : In x match st_pk t with Some (k, l) => [constraint k ConPrimary l ""] | None => [] end <-> exists k, st_pk t = Some k /\ x = constraint (fst k) ConPrimary (snd k) "").
  { destruct (st_pk t) as [[k l]|]; cbn; split.
    - intros [<-|[]]. now exists (k, l).
    - intros (k' & E & ->). injection E as <-. now left.
    - tauto.
    - intros (k' & E & _). discriminate. }
  rewrite A. clear A.
  assert (B : (exists y, constraint (six_name y) ConUnique (map fst (six_columns y)) "" = x /\ In y (filter (fun i => mem (six_name i) (st_uniques t)) (st_indexes t))) <->
    exists i, In i (st_indexes t) /\ mem (six_name i) (st_uniques t) = true /\ x = constraint (six_name i) ConUnique (map fst (six_columns i)) "").
  { split.
    - intros (i & <- & I). apply filter_In in I as [I J]. now exists i.
    - intros (i & I & J & ->). exists i. split; [reflexivity|]. now apply filter_In. }
  rewrite B. clear B.
  assert (C : (exists y, In y (st_columns t) /\ In x match sc_check y with Some k => [constraint (sk_name k) ConCheck [sc_name y] ("CHECK (" +++ pg_text quoted (sk_expr k) +++ ")" +++ (if sk_no_inherit k then " NO INHERIT" else ""))] | None => [] end) <->
    exists c k, In c (st_columns t) /\ sc_check c = Some k /\ x = constraint (sk_name k) ConCheck [sc_name c] (check_text quoted (Some k))).
  { split.
    - intros (c & I & J). destruct (sc_check c) as [k|] eqn:E; [|contradiction]. destruct J as [<-|[]]. now exists c, k.
    - intros (c & k & I & E & ->). exists c. split; [exact I|]. rewrite E. now left. }
  rewrite C. clear C.
  assert (D : forall P Q : Prop, P <-> Q -> Q <-> P) by tauto.
  split; (intros [H|[H|[H|H]]]; [now left|right; now left|right; right; now left|right; right; right]);
    destruct H as (f & H1 & H2); exists f; split; auto; now symmetry.
Qed.

Lemma flat_map_once {A} (f : A -> list string) l x y n : NoDup (flat_map f l) -> In x l -> In y l -> In n (f x) -> In n (f y) -> x = y.
Proof.
  induction l as [|z l IH]; [easy|]. cbn [flat_map]. intros N X Y F G.
  assert (D : forall m, In m (f z) -> ~ In m (flat_map f l)).
  { intros m I J. revert N I. induction (f z) as [|a r IHr]; [easy|]. cbn [app]. intros N [->|I].
    - inversion N; subst. apply H1. apply in_or_app. now right.
    - inversion N; subst. now apply IHr. }
  destruct X as [->|X], Y as [->|Y]; try reflexivity.
  - exfalso. apply (D n F). apply in_flat_map. now exists y.
  - exfalso. apply (D n G). apply in_flat_map. now exists x.
  - apply IH; try assumption. now apply NoDup_app_r in N.
Qed.

Lemma table_parts t : table_ok quoted t = true ->
  simple_name (st_schema t) = true /\ simple_name (SpecShown.st_name t) = true /\ st_columns t <> [] /\ forallb column_ok (st_columns t) = true /\
  NoDup (map sc_name (st_columns t)) /\ NoDup (unique_columns t) /\
  match st_pk t with Some k => index_ok quoted (key_index k) = true | None => True end /\
  forallb (index_ok quoted) (st_indexes t) = true /\ forallb fk_ok (st_fks t) = true /\ forallb policy_ok (st_policies t) = true.
Proof.
  unfold table_ok. intros H. rewrite !andb_true_iff in H. destruct H as [[[[[[[[[H1 H2] H3] H4] H5] H6] H7] H8] H9] H10]. repeat split; try assumption.
  - intros E. rewrite E in H3. discriminate.
  - now apply distinct_spec.
  - now apply distinct_spec.
  - destruct (st_pk t); [exact H7|exact I].
Qed.

Lemma one_by_name l a b : NoDup (map sc_name l) -> In a l -> In b l -> sc_name a = sc_name b -> a = b.
Proof.
  induction l as [|z l IH]; [easy|]. cbn [map]. intros N A B E. inversion N as [|? ? N1 N2]; subst. destruct A as [->|A], B as [->|B]; try reflexivity.
  - exfalso. apply N1. rewrite E. now apply in_map.
  - exfalso. apply N1. rewrite <- E. now apply in_map.
  - now apply IH.
Qed.
Lemma single_table t : table_ok quoted t = true -> NoDup (catalogue_constraints quoted t) -> single_constraints (table_of t).
Proof.
  intros K N. destruct (table_parts t K) as (_ & _ & _ & _ & C & U & _). split; [exact N|].
  intros k c x y [-> | ->] (X1 & X2 & X3) (Y1 & Y2 & Y3); cbn [table_of catalogue_table pt_constraints] in X1, Y1; apply constraint_cases in X1, Y1.
  - destruct X1 as [(p & _ & ->)|[(i & I1 & I2 & ->)|[(a & b & _ & _ & ->)|(f & _ & ->)]]]; try discriminate X2.
    destruct Y1 as [(p & _ & ->)|[(j & J1 & J2 & ->)|[(a & b & _ & _ & ->)|(f & _ & ->)]]]; try discriminate Y2.
    cbn [constraint con_columns] in X3, Y3.
    replace j with i; [reflexivity|]. apply (flat_map_once (fun i => if mem (six_name i) (st_uniques t) then map fst (six_columns i) else []) (st_indexes t) i j c); try assumption.
    + now rewrite I2.
    + now rewrite J2.
  - destruct X1 as [(p & _ & ->)|[(i & I1 & I2 & ->)|[(a & b & A1 & A2 & ->)|(f & _ & ->)]]]; try discriminate X2.
    destruct Y1 as [(p & _ & ->)|[(j & J1 & J2 & ->)|[(a' & b' & B1 & B2 & ->)|(f & _ & ->)]]]; try discriminate Y2.
    cbn [constraint con_columns In] in X3, Y3. destruct X3 as [X3|[]], Y3 as [Y3|[]].
    assert (E : a = a') by (apply (one_by_name (st_columns t)); congruence || assumption).
    subst a'. rewrite A2 in B2. now injection B2 as <-.
Qed.

Lemma char_edges n c : first_char n = Some c \/ last_char n = Some c -> In c (list_ascii_of_string n).
Proof.
  induction n as [|a n IH]; [now intros [H|H]|]. intros [H|H].
  - injection H as ->. now left.
  - destruct n as [|b n].
    + injection H as ->. now left.
    + right. apply IH. right. exact H.
Qed.
Lemma name_edges n : quotable n = true -> no_blank_edge n = true -> no_edge n.
Proof.
  unfold quotable, no_blank_edge. intros Q B c C. apply andb_true_iff in Q as [_ Q]. apply andb_true_iff in B as [B1 B2]. split.
  - intros ->. destruct C as [C|C]; rewrite C in *; discriminate.
  - intros ->. rewrite all_chars_in in Q. specialize (Q _ (char_edges n _ C)). discriminate.
Qed.

Lemma default_no_serial d x : default_ok d = true -> default_text d <> "nextval(" +++ x.
Proof.
  destruct d as [z|s ty|[]| |]; cbn [default_ok]; intros H; try discriminate. apply andb_true_iff in H as [H _]. apply Z.leb_le in H. destruct (show_Z_digits z H) as [D N]. cbn [default_text].
  intros E. destruct (show_Z z) as [|c r]; [contradiction|]. injection E as -> _. specialize (D "n"%char (or_introl eq_refl)). cbn in D. repeat destruct D as [D|D]; try discriminate D. contradiction.
Qed.
Lemma nextval_line a n : simple_name a = true -> quotable n = true -> one_line ("nextval('" +++ (a +++ "_" +++ n +++ "_seq") +++ "'::regclass)").
Proof.
  intros A N. assert (J : forall x y, one_line x -> one_line y -> one_line (x +++ y)) by (intros x y X Y; exact (proj2 (one_line_app x y) (conj X Y))).
  repeat apply J; try (split; reflexivity); [now apply simple_one_line|now apply quotable_one_line].
Qed.

Lemma table_shows t dump : table_ok quoted t = true ->
  Forall2 (tells (table_of t)) (pt_columns (table_of t)) dump -> Forall2 (fun c d => shows quoted (unique_in t (sc_name c)) c d) (st_columns t) dump.
Proof.
  intros K. destruct (table_parts t K) as (HS & HN & _ & HC & HD & _). cbn [table_of catalogue_table pt_columns].
  assert (G : forall l, incl l (st_columns t) -> forall dump, Forall2 (tells (table_of t)) (map (fun c => catalogue_column (SpecShown.st_name t +++ "_" +++ sc_name c +++ "_seq") c) l) dump ->
    Forall2 (fun c d => shows quoted (unique_in t (sc_name c)) c d) l dump).
  2:{ intros F. apply (G (st_columns t)); [apply incl_refl|exact F]. }
  induction l as [|c l IH]; intros I dump' F; inversion F as [|? d ? l' T F']; subst; constructor.
  2:{ apply IH; [|exact F']. intros x X. apply I. now right. }
  assert (C : In c (st_columns t)) by (apply I; now left). rewrite forallb_forall in HC. specialize (HC c C). unfold column_ok in HC. rewrite !andb_true_iff in HC.
  destruct HC as [[[[[Q _] _] Ht] Hd] Hc]. destruct T as [T1 T2 T3 T4 T5 T6 T7 T8 T9]. cbn [catalogue_column pc_name pc_type pc_format pc_max_length pc_nullable pc_default pc_identity] in *.
  constructor.
  - exact T1.
  - rewrite T2. unfold type_shown. destruct (string_in (data_type (sc_type c)) ["ARRAY"; "USER-DEFINED"]) eqn:E.
    + apply string_in_spec in E. now destruct (in_dec string_dec _ _).
    + destruct (in_dec string_dec (data_type (sc_type c)) ["ARRAY"; "USER-DEFINED"]) as [X|X]; [|reflexivity]. apply string_in_spec in X. congruence.
  - exact T3.
  - exact T4.
  - assert (X : match sc_type c with TSerial _ => True | _ => dc_autoinc d = false end).
    { destruct (sc_type c); try exact I0; try (apply not_true_iff_false; intros X; apply T6 in X as (x & X); destruct (sc_default c) as [y|]; [|discriminate X];
        apply andb_true_iff in Hd as [Hd _]; injection X as X; exact (default_no_serial y x Hd X)). exact Logic.I. }
    destruct (sc_type c); try (split; [exact X|]; rewrite T5; now destruct (sc_default c)). split.
    + apply T6. now exists ("'" +++ (SpecShown.st_name t +++ "_" +++ sc_name c +++ "_seq") +++ "'::regclass)").
    + rewrite T5. now apply nextval_line.
  - apply eq_true_iff_eq. rewrite T7. unfold unique_in. rewrite existsb_exists. split.
    + intros (x & X1 & X2 & X3). cbn [table_of catalogue_table pt_constraints] in X1. apply constraint_cases in X1.
      destruct X1 as [(p & _ & ->)|[(i & I1 & I2 & ->)|[(a & b & _ & _ & ->)|(f & _ & ->)]]]; try discriminate X2.
      exists (ideal_index i). split; [cbn; now apply in_map|]. apply andb_true_iff. split; [exact I2|]. apply mem_in. unfold key_columns, ideal_index. cbn [i_columns]. rewrite map_map. exact X3.
    + intros (j & J1 & J2). cbn [ideal_table g_indexes g_owned] in J1, J2. apply in_map_iff in J1 as (i & <- & I1). apply andb_true_iff in J2 as [J2 J3].
      exists (constraint (six_name i) ConUnique (map fst (six_columns i)) ""). split; [|split; [reflexivity|]].
      * cbn [table_of catalogue_table pt_constraints]. apply constraint_cases. right. left. now exists i.
      * cbn [constraint con_columns]. apply mem_in in J3. unfold key_columns, ideal_index in J3. cbn [i_columns] in J3. now rewrite map_map in J3.
  - destruct T8 as [A B]. destruct (sc_check c) as [k|] eqn:E.
    + rewrite (A (constraint (sk_name k) ConCheck [sc_name c] (check_text quoted (Some k)))); [reflexivity|]. split; [|split; [reflexivity|now left]].
      cbn [table_of catalogue_table pt_constraints]. apply constraint_cases. right. right. left. now exists c, k.
    + apply B. intros x (X1 & X2 & X3). cbn [table_of catalogue_table pt_constraints] in X1. apply constraint_cases in X1.
      destruct X1 as [(p & _ & ->)|[(i & I1 & I2 & ->)|[(a & b & A1 & A2 & ->)|(f & _ & ->)]]]; try discriminate X2. cbn in X3. destruct X3 as [X3|[]].
      rewrite (one_by_name (st_columns t) a c) in A2; try assumption. congruence.
  - rewrite T9. now destruct (sc_always c).
Qed.
End Database.
