(** The texts of the SQL Server export in pieces, and the tokens of the pieces. *)
From Coq Require Import String Ascii List ZArith Bool Lia.
From Verif Require Import GoStr GoStrFacts Ast Formatter Keywords Lexer SqlAst SchemaParse Catalog AdapterPostgres AdapterMssql ExportMssql SpecPlan SpecPostgres SpecLexer SpecLayout
  SpecShown SpecShownMssql ProofOrder ProofReadEx ProofPieces ProofReadColumn ProofReadTable ProofReadRest ProofPiecesMssql ProofReadMsColumn ProofReadMsTable ProofReadMsRest.
From Verif Require ProofReadText ProofReadMyTable.
Import ListNotations.
Local Open Scope string_scope.
Local Open Scope list_scope.

Notation b1 := (WBlank " ").
Notation line := (WBlank (nl ++ indent)%string).

(** ** Lists *)
Definition qlist {A} (f : A -> list ms_piece) (g : list ms_piece) (l : list A) : list ms_piece :=
  match l with [] => [] | x :: l => f x ++ flat_map (fun y => g ++ f y) l end.
Lemma qspell_list {A} (f : A -> list ms_piece) g l : qspell (qlist f g l) = join (qspell g) (map (fun x => qspell (f x)) l).
Proof.
  destruct l as [|x l]; [reflexivity|]. cbn [qlist map]. rewrite qspell_app. revert x. induction l as [|y l IH]; intros x; [cbn; apply sapp_nil_r|].
  cbn [flat_map map join] in *. rewrite !qspell_app, <- IH, sapp_assoc. reflexivity.
Qed.
Lemma qwords_flat {A} (f : A -> list ms_piece) l : qwords (flat_map f l) = flat_map (fun x => qwords (f x)) l.
Proof. induction l as [|x l IH]; [reflexivity|]. cbn [flat_map]. now rewrite qwords_app, IH. Qed.
Lemma qpart_list {A} (f : A -> list ms_piece) g l : (forall m, qpart m -> qnext (g ++ m)) -> (forall x, In x l -> qpart (f x)) -> qpart (qlist f g l).
Proof.
  intros G H. destruct l as [|x l]; [exact qpart_nil|]. cbn [qlist]. apply qpart_app; [apply H; now left|]. apply qnext_flat_map. intros y Y. apply G, H. now right.
Qed.
Lemma qnext_comma m : qpart m -> qnext ([WSign ","; b1] ++ m).
Proof. intros P. apply qnext_loose; [reflexivity|reflexivity|]. now apply qnext_part, qnext_loose. Qed.
Lemma qnext_comma_only m : qpart m -> qnext ([WSign ","] ++ m).
Proof. intros P. now apply qnext_loose. Qed.
Lemma qnext_comma_line m : qpart m -> qnext ([WSign ","; line] ++ m).
Proof. intros P. apply qnext_loose; [reflexivity|reflexivity|]. now apply qnext_part, qnext_loose. Qed.

(** ** Names *)
Lemma simple_mq_word n : simple_name n = true -> mq_word n = true.
Proof.
  intros H. pose proof (simple_lower n H) as E. unfold mq_word. rewrite E. unfold simple_name in H. rewrite !andb_true_iff in *. destruct H as [[[H1 H2] H3] H4].
  assert (A : forall c, name_start c = true -> mq_word_start c = true) by (intros [[] [] [] [] [] [] [] []]; vm_compute; congruence).
  assert (B : forall c, name_char c = true -> mq_word_part c = true) by (intros [[] [] [] [] [] [] [] []]; vm_compute; congruence).
  repeat split; auto.
  - destruct n; [discriminate|auto].
  - rewrite all_chars_in in *. auto.
Qed.
Lemma word_mq_name n : mq_word n = true -> mq_name n = true.
Proof.
  intros H. unfold mq_word in H. rewrite !andb_true_iff in H. destruct H as [[[H1 H2] _] _]. unfold mq_name. apply andb_true_iff. split; [now destruct n|].
  assert (B : forall c, mq_word_part c = true -> bracket_char c = true) by (intros [[] [] [] [] [] [] [] []]; vm_compute; congruence). rewrite all_chars_in in *. auto.
Qed.
Lemma simple_mq_name n : simple_name n = true -> mq_name n = true.
Proof. intros H. now apply word_mq_name, simple_mq_word. Qed.

(** ** Conditions *)
Fixpoint cond_pieces (e : ex) : list ms_piece :=
  match e with
  | EColumn n => [WName n]
  | EField t n => [WName t; WDot; WName n]
  | EInt z => [WNum z]
  | EString s => [WText s]
  | EGroup e => WSign "(" :: cond_pieces e ++ [WSign ")"]
  | ECompare o a b => cond_pieces a ++ WOp o :: cond_pieces b
  | ENull e => cond_pieces e ++ [b1; WWord "IS"; b1; WWord "NULL"]
  | ENotNull e => cond_pieces e ++ [b1; WWord "IS"; b1; WWord "NOT"; b1; WWord "NULL"]
  | EAnd a b => cond_pieces a ++ b1 :: WWord "AND" :: b1 :: cond_pieces b
  | EOr a b => cond_pieces a ++ b1 :: WWord "OR" :: b1 :: cond_pieces b
  | EText _ | EAsText _ => []
  end.
(** Without casts. *)
Fixpoint castless (e : ex) : bool :=
  match e with
  | EText _ | EAsText _ => false
  | EGroup e | ENull e | ENotNull e => castless e
  | ECompare _ a b | EAnd a b | EOr a b => castless a && castless b
  | _ => true
  end.
Lemma shown_castless e : mq_shown e = true -> castless e = true.
Proof.
  induction e; cbn [mq_shown castless]; intros H; try discriminate; try reflexivity; rewrite ?andb_true_iff in *; try (split; tauto); try tauto.
  destruct e; try (now apply IHe); reflexivity.
Qed.
Lemma cond_text e : ex_ok e = true -> castless e = true -> qspell (cond_pieces e) = mq_text e.
Proof.
  induction e; cbn [ex_ok castless cond_pieces mq_text]; intros H C; try discriminate; repeat rewrite andb_true_iff in H; repeat rewrite andb_true_iff in C; rewrite ?qspell_cons, ?qspell_app; rewrite ?qspell_cons; cbn [qtext]; (* *)
    rewrite ?qspell_app, ?qspell_cons; cbn [qtext]; rewrite ?IHe, ?IHe1, ?IHe2 by tauto; change (qspell []) with "".
  - now rewrite sapp_nil_r.
  - rewrite ?sapp_nil_r, ?sapp_assoc. reflexivity.
  - now rewrite sapp_nil_r.
  - rewrite ProofReadText.plain_once by exact H. now rewrite ?sapp_nil_r.
  - reflexivity.
  - reflexivity.
  - reflexivity.
  - reflexivity.
  - reflexivity.
  - reflexivity.
Qed.
Lemma cond_words e : castless e = true -> qwords (cond_pieces e) = ex_tokens e.
Proof.
  induction e; cbn [castless cond_pieces ex_tokens]; intros C; try discriminate; rewrite ?andb_true_iff in C; rewrite ?qwords_cons, ?qwords_app; rewrite ?qwords_cons, ?IHe, ?IHe1, ?IHe2 by tauto; try reflexivity.
Qed.
Lemma cond_wf e : ex_ok e = true -> forallb qwf (cond_pieces e) = true.
Proof.
  induction e; cbn [ex_ok cond_pieces]; intros H; rewrite ?andb_true_iff in H; rewrite ?forallb_app; cbn [forallb qwf]; rewrite ?forallb_app; cbn [forallb qwf];
    rewrite ?IHe, ?IHe1, ?IHe2 by tauto; rewrite ?simple_mq_name by tauto; try reflexivity.
  now rewrite (ProofReadText.plain_text (fun _ => true) s H).
Qed.
Definition after_cond (r : list ms_piece) : Prop := match r with [] => True | p :: _ => qclass_of p = CLoose \/ qclass_of p = COper end.
Lemma cond_linked e : castless e = true -> forall k r, k = CLoose \/ k = COper -> after_cond r -> qlinked_after CLoose r = true -> qlinked_after k (cond_pieces e ++ r) = true.
Proof.
  assert (E : forall k r, k = CTight \/ k = CValue \/ k = CLoose -> after_cond r -> qlinked_after CLoose r = true -> qlinked_after k r = true).
  { intros k [|p r] K A L; [reflexivity|]. cbn [qlinked_after after_cond] in *. apply andb_true_iff in L as [_ L]. rewrite L, andb_true_r. destruct A as [-> | ->], K as [->|[-> | ->]]; reflexivity. }
  induction e; cbn [castless cond_pieces]; intros C k r K A L; try discriminate; rewrite ?andb_true_iff in C; rewrite <- ?app_assoc; cbn [app qlinked_after qclass_of].
  - rewrite (E CTight r) by tauto. destruct K as [-> | ->]; reflexivity.
  - rewrite (E CTight r) by tauto. destruct K as [-> | ->]; reflexivity.
  - rewrite (E CValue r) by tauto. destruct K as [-> | ->]; reflexivity.
  - rewrite (E CValue r) by tauto. destruct K as [-> | ->]; reflexivity.
  - rewrite <- app_assoc. cbn [app].
    rewrite (IHe C CLoose); [destruct K as [-> | ->]; reflexivity|now left|now left|]. cbn [qlinked_after qclass_of qadjacent andb]. apply E; tauto.
  - apply IHe1; [tauto|exact K|now right|]. cbn [qlinked_after qclass_of qadjacent andb]. apply IHe2; tauto.
  - apply IHe; [tauto|exact K|now left|]. cbn [qlinked_after qclass_of qadjacent andb]. apply E; tauto.
  - apply IHe; [tauto|exact K|now left|]. cbn [qlinked_after qclass_of qadjacent andb]. apply E; tauto.
  - apply IHe1; [tauto|exact K|now left|]. cbn [qlinked_after qclass_of qadjacent andb]. apply IHe2; tauto.
  - apply IHe1; [tauto|exact K|now left|]. cbn [qlinked_after qclass_of qadjacent andb]. apply IHe2; tauto.
Qed.
Lemma cond_part e : ex_ok e = true -> castless e = true -> qpart (cond_pieces e).
Proof.
  intros H C. split; [now apply cond_wf|]. intros r R L. apply cond_linked; [exact C|now left| |exact L]. destruct r; [exact Logic.I|now left].
Qed.
Definition group_pieces (e : ex) : list ms_piece := WSign "(" :: cond_pieces e ++ [WSign ")"].
Lemma group_next e : ex_ok e = true -> castless e = true -> qnext (group_pieces e).
Proof. intros H C. apply qnext_loose; [reflexivity|reflexivity|]. apply qpart_app; [now apply cond_part|]. qparts. Qed.
Lemma group_words e : castless e = true -> qwords (group_pieces e) = lpar :: ex_tokens e ++ [rpar].
Proof. intros C. unfold group_pieces. rewrite qwords_cons, qwords_app, cond_words by exact C. reflexivity. Qed.
Lemma group_text e : ex_ok e = true -> castless e = true -> qspell (group_pieces e) = ("(" ++ mq_text e ++ ")")%string.
Proof. intros H C. unfold group_pieces. rewrite qspell_cons, qspell_app, cond_text by assumption. reflexivity. Qed.

(** ** Columns *)
Definition replication_pieces (b : bool) : list ms_piece := if b then [b1; WWord "NOT"; b1; WWord "FOR"; b1; WWord "REPLICATION"] else [].
Definition value_pieces (v : mq_value) : list ms_piece :=
  match v with
  | QNull => [WSign "("; WWord "NULL"; WSign ")"]
  | QInt z => [WSign "("; WSign "("; WNum z; WSign ")"; WSign ")"]
  | QString s => [WSign "("; WText s; WSign ")"]
  | QGetdate => [WSign "("; WWord "getdate"; WSign "("; WSign ")"; WSign ")"]
  end.
Definition type_pieces (t : mq_type) : list ms_piece :=
  match t with QPlain w _ => [WWord w] | QSized w n => [WWord w; WSign "("; WNum n; WSign ")"] end.
Definition maybe {A} (f : A -> list ms_piece) (o : option A) : list ms_piece := match o with Some x => f x | None => [] end.
Definition column_pieces (c : mq_column) : list ms_piece :=
  [WBare (mqc_name c); b1] ++ type_pieces (mqc_type c) ++ (if mqc_nullable c then [] else [b1; WWord "NOT"; b1; WWord "NULL"]) ++
  maybe (fun d : string * mq_value => [b1; WWord "CONSTRAINT"; b1; WBare (fst d); b1; WWord "DEFAULT"; b1] ++ value_pieces (snd d)) (mqc_default c) ++
  maybe (fun i => [b1; WWord "IDENTITY"; WSign "("; WNum (mqn_seed i); WSign ","; WNum (mqn_increment i); WSign ")"] ++ replication_pieces (mqn_not_for_replication i)) (mqc_identity c) ++
  maybe (fun k => [b1; WWord "CONSTRAINT"; b1; WName (mqk_name k); b1; WWord "CHECK"] ++ replication_pieces (mqk_not_for_replication k) ++ b1 :: group_pieces (mqk_condition k)) (mqc_check c).

Lemma check_parts k : mq_check_ok k = true -> mq_word (mqk_name k) = true /\ ex_ok (mqk_condition k) = true /\ castless (mqk_condition k) = true.
Proof.
  unfold mq_check_ok, mq_condition_ok, ex_fits. rewrite !andb_true_iff. intros [A [[B _] C]]. split; [exact A|]. split; [exact B|now apply shown_castless].
Qed.
Lemma plain_no_length w : mem w mq_plain_types = true -> has_length w = false.
Proof. intros H. apply mem_in in H. cbv [mq_plain_types In] in H. repeat (destruct H as [<-|H]; [reflexivity|]). contradiction. Qed.
Lemma sized_length w : mem w mq_sized_types = true -> has_length w = true.
Proof. intros H. apply mem_in in H. cbv [mq_sized_types In] in H. repeat (destruct H as [<-|H]; [reflexivity|]). contradiction. Qed.
Lemma column_text c : mq_column_ok c = true -> ms_column_text (mq_column_row c) = qspell (column_pieces c).
Proof.
  unfold mq_column_ok. rewrite !andb_true_iff. intros [[[[N T] D] I] C]. destruct c as [n ty nu de id ck]. cbn [mqc_name mqc_type mqc_default mqc_identity mqc_check] in *.
  unfold ms_column_text, mq_column_row, column_pieces. cbn [Catalog.mc_name Catalog.mc_type Catalog.mc_max_length Catalog.mc_nullable Catalog.mc_default Catalog.mc_identity Catalog.mc_check mqc_name mqc_type mqc_nullable mqc_default mqc_identity mqc_check].
  rewrite !qspell_app.
  replace (qspell (type_pieces ty)) with (mq_type_word ty ++ (if has_length (mq_type_word ty) then "(" ++ match ty with QPlain _ b => b | QSized _ n => show_Z n end ++ ")" else ""))%string.
  2:{ destruct ty as [w b|w z]; cbn [mq_type_ok mq_type_word] in *.
      - rewrite (plain_no_length w T). reflexivity.
      - apply andb_true_iff in T as [T _]. rewrite (sized_length w T). reflexivity. }
  rewrite <- !sapp_assoc. f_equal; [f_equal; [f_equal; [f_equal|]|]|].
  - destruct nu; reflexivity.
  - destruct de as [[m v]|]; [|reflexivity]. cbn [option_map maybe fst snd all_some] in *. apply andb_true_iff in D as [D V].
    destruct (String.eqb_spec m "") as [->|_]; [discriminate|].
    destruct v; cbn; rewrite ?sapp_nil_r, ?sapp_assoc; reflexivity.
  - destruct id as [[s inc r]|]; [|reflexivity]. cbn [option_map maybe mqn_seed mqn_increment mqn_not_for_replication mi_seed mi_increment mi_not_for_replication].
    rewrite qspell_app. destruct r; cbn; rewrite ?sapp_assoc; cbn; rewrite ?sapp_nil_r, ?sapp_assoc; reflexivity.
  - destruct ck as [k|]; [|reflexivity]. cbn [option_map maybe all_some] in *. destruct (check_parts k C) as (K1 & K2 & K3). rewrite !qspell_app, (qspell_cons b1 (group_pieces (mqk_condition k))), group_text by assumption.
    destruct k as [m e r]. cbn [mqk_name mqk_condition mqk_not_for_replication mk_name mk_not_for_replication mk_definition]. destruct r; cbn; rewrite ?sapp_assoc; cbn; rewrite ?sapp_nil_r, ?sapp_assoc; reflexivity.
Qed.

Definition same_token (a b : token) : bool := match a, b with (KTok a, b), (KTok c, d) => String.eqb a c && String.eqb b d | _, _ => false end.
Lemma same_token_eq a b : same_token a b = true -> a = b.
Proof. destruct a as [[] a], b as [[] b]; try discriminate. cbn. intros H. apply andb_true_iff in H as [H1 H2]. apply String.eqb_eq in H1. apply String.eqb_eq in H2. now subst. Qed.
Lemma mq_type_word_token t : mq_type_ok t = true -> keyword_token (mq_type_word t) = mq_type_token (mq_type_word t).
Proof.
  intros H. assert (A : forall l w, forallb (fun w => same_token (keyword_token w) (mq_type_token w)) l = true -> mem w l = true -> keyword_token w = mq_type_token w).
  { intros l w F M. apply mem_in in M. rewrite forallb_forall in F. now apply same_token_eq, F. }
  destruct t; cbn [mq_type_ok mq_type_word] in *; rewrite ?andb_true_iff in H; [now apply (A mq_plain_types)|now apply (A mq_sized_types)].
Qed.
Lemma mq_type_wf t : mq_type_ok t = true -> keyword_ok (mq_type_word t) = true.
Proof.
  intros H. assert (A : forall l w, forallb keyword_ok l = true -> mem w l = true -> keyword_ok w = true) by (intros l w F M; apply mem_in in M; rewrite forallb_forall in F; auto).
  destruct t; cbn [mq_type_ok mq_type_word] in *; rewrite ?andb_true_iff in H; [now apply (A mq_plain_types)|now apply (A mq_sized_types)].
Qed.
Lemma qwords_maybe {A} (f : A -> list ms_piece) o : qwords (maybe f o) = option_tokens (fun x => qwords (f x)) o.
Proof. now destruct o. Qed.
Lemma replication_words b : qwords (replication_pieces b) = mq_replication_tokens b.
Proof. now destruct b. Qed.
Lemma option_tokens_same {A} (f g : A -> list token) o : (forall x, o = Some x -> f x = g x) -> option_tokens f o = option_tokens g o.
Proof. destruct o as [x|]; [|reflexivity]. cbn. intros H. now apply H. Qed.
Lemma column_words_ms c : mq_column_ok c = true -> qwords (column_pieces c) = mq_column_words c.
Proof.
  unfold mq_column_ok. rewrite !andb_true_iff. intros [[[[N T] D] I] C]. unfold column_pieces, mq_column_words, mq_column_tokens. rewrite !qwords_app, !qwords_maybe.
  replace (qwords (type_pieces (mqc_type c))) with (mq_type_tokens (mqc_type c)) by (pose proof (mq_type_word_token _ T) as E; destruct (mqc_type c); cbn [mq_type_word] in E; cbn; now rewrite <- E).
  change (qwords [WBare (mqc_name c); b1]) with [name_token (mqc_name c)]. cbn [app]. f_equal. f_equal.
  replace (qwords (if mqc_nullable c then [] else [b1; WWord "NOT"; b1; WWord "NULL"])) with (required_tokens (negb (mqc_nullable c))) by (now destruct (mqc_nullable c)).
  f_equal. f_equal; [|f_equal].
  - apply option_tokens_same. intros [m v] _. now destruct v.
  - apply option_tokens_same. intros i _. rewrite !qwords_cons, replication_words. reflexivity.
  - apply option_tokens_same. intros k E. rewrite E in C. destruct (check_parts k C) as (_ & _ & K). rewrite !qwords_cons, qwords_app, qwords_cons, replication_words, (group_words _ K). reflexivity.
Qed.
Lemma qnext_maybe {A} (f : A -> list ms_piece) o : (forall x, o = Some x -> qnext (f x)) -> qnext (maybe f o).
Proof. destruct o as [x|]; [|intros _; exact qnext_nil]. intros H. now apply H. Qed.
Lemma replication_next b : qnext (replication_pieces b).
Proof. destruct b; cbn [replication_pieces]; qparts. Qed.
Lemma column_part_ms c : mq_column_ok c = true -> qpart (column_pieces c).
Proof.
  unfold mq_column_ok. rewrite !andb_true_iff. intros [[[[N T] D] I] C]. unfold column_pieces. cbn [app]. apply qpart_tight; [cbn; tauto|exact N|]. apply qnext_loose; [reflexivity|reflexivity|].
  apply qpart_app. { pose proof (mq_type_wf _ T) as E. destruct (mqc_type c); cbn [mq_type_word] in E; cbn [type_pieces]; qparts. }
  apply qnext_app; [destruct (mqc_nullable c); qparts|]. apply qnext_app; [|apply qnext_app]; apply qnext_maybe; intros x E; [rewrite E in D|rewrite E in I|rewrite E in C]; cbn [all_some] in *.
  - apply andb_true_iff in D as [D V]. assert (P : qnext (value_pieces (snd x))) by (destruct (snd x); cbn [value_pieces mq_value_ok] in *; qparts). qparts.
  - pose proof (replication_next (mqn_not_for_replication x)). qparts.
  - destruct (check_parts x C) as (K1 & K2 & K3). pose proof (word_mq_name _ K1). pose proof (replication_next (mqk_not_for_replication x)) as R. pose proof (group_next _ K2 K3) as G.
    assert (P : qnext (replication_pieces (mqk_not_for_replication x) ++ b1 :: group_pieces (mqk_condition x))).
    { apply qnext_app; [exact R|]. apply qnext_loose; [reflexivity|reflexivity|]. now apply qnext_part. }
    qparts.
Qed.

(** ** Indexes *)
Definition key_pieces (k : string * bool) : list ms_piece := WName (fst k) :: (if snd k then [b1; WWord "DESC"] else []).
Definition keys_pieces (i : mq_index) : list ms_piece := qlist key_pieces [WSign ","; b1] (mqi_columns i).
Definition on_off_piece (b : bool) : ms_piece := WWord (on_off b).
Definition settings (o : mq_options) : list (string * ms_piece) :=
  [("PAD_INDEX", on_off_piece (mqo_padded o)); ("FILLFACTOR", WNum (mqo_fill o)); ("IGNORE_DUP_KEY", on_off_piece (mqo_ignore_dup o));
   ("STATISTICS_NORECOMPUTE", on_off_piece (mqo_no_recompute o)); ("STATISTICS_INCREMENTAL", on_off_piece (mqo_incremental o));
   ("ALLOW_ROW_LOCKS", on_off_piece (mqo_row_locks o)); ("ALLOW_PAGE_LOCKS", on_off_piece (mqo_page_locks o))].
Definition setting_pieces (s : string * ms_piece) : list ms_piece := [b1; WWord (fst s); b1; WOp CmpEq; b1; snd s].
Definition options_pieces (o : mq_options) : list ms_piece := [b1; WWord "WITH"; b1; WSign "("] ++ qlist setting_pieces [WSign ","] (settings o) ++ [b1; WSign ")"].
Definition clustered_word (b : bool) : string := if b then "CLUSTERED" else "NONCLUSTERED".
Definition primary_pieces (i : mq_index) : list ms_piece :=
  [WSign ","; line; WWord "CONSTRAINT"; b1; WName (mqi_name i); b1; WWord "PRIMARY"; b1; WWord "KEY"; b1; WWord (clustered_word (mqi_clustered i)); b1; WSign "("] ++
  keys_pieces i ++ WSign ")" :: options_pieces (mqi_options i).
Definition included_pieces (l : list string) : list ms_piece :=
  match l with [] => [] | _ => [b1; WWord "INCLUDE"; b1; WSign "("] ++ qlist (fun n => [WName n]) [WSign ","; b1] l ++ [WSign ")"] end.
Definition index_pieces (t : mq_table) (i : mq_index) : list ms_piece :=
  [WWord "CREATE"] ++ (if mqi_unique i then [b1; WWord "UNIQUE"] else []) ++
  [b1; WWord (clustered_word (mqi_clustered i)); b1; WWord "INDEX"; b1; WName (mqi_name i); b1; WWord "ON"; b1; WBare (mqt_schema t); WDot; WBare (mqt_name t); b1; WSign "("] ++
  keys_pieces i ++ WSign ")" :: included_pieces (mqi_included i) ++ options_pieces (mqi_options i).
Notation row p i := (ms_index_of (mq_index_row p i)).
Lemma key_columns_row p i : key_columns (row p i) = map (fun k => qspell (key_pieces k)) (mqi_columns i).
Proof.
  unfold key_columns, ms_index_of, mq_index_row. cbn [mi_columns mir_columns]. rewrite filter_app, map_app.
  replace (filter (fun c => negb (mx_included c)) (map (fun n => mkMsIndexColumn n false true) (mqi_included i))) with (@nil ms_index_column) by (induction (mqi_included i); [reflexivity|assumption]).
  cbn [map]. rewrite app_nil_r. induction (mqi_columns i) as [|[n b] l IH]; [reflexivity|]. cbn [map filter negb mx_included]. rewrite IH. f_equal. destruct b; cbn; rewrite ?sapp_assoc; reflexivity.
Qed.
Lemma included_columns_row p i : included_columns (row p i) = map (fun n => qspell [WName n]) (mqi_included i).
Proof.
  unfold included_columns, ms_index_of, mq_index_row. cbn [mi_columns mir_columns]. rewrite filter_app, map_app.
  replace (filter mx_included (map (fun c : string * bool => mkMsIndexColumn (fst c) (snd c) false) (mqi_columns i))) with (@nil ms_index_column) by (induction (mqi_columns i); [reflexivity|assumption]).
  cbn [map app]. induction (mqi_included i) as [|n l IH]; [reflexivity|]. cbn [map filter mx_included]. rewrite IH. f_equal. cbn. now rewrite sapp_nil_r.
Qed.
Lemma options_row p i : options_text (row p i) = qspell (options_pieces (mqi_options i)).
Proof.
  unfold options_pieces. rewrite !qspell_app, qspell_list. unfold options_text, ms_index_of, mq_index_row. cbn [mi_options].
  destruct (mqi_options i) as [a z b c d e f]. cbn [mqo_padded mqo_fill mqo_ignore_dup mqo_no_recompute mqo_incremental mqo_row_locks mqo_page_locks mir_padded mir_fill mir_ignore_dup mir_no_recompute mir_incremental mir_row_locks mir_page_locks].
  unfold settings. cbn [map fst snd mqo_padded mqo_fill mqo_ignore_dup mqo_no_recompute mqo_incremental mqo_row_locks mqo_page_locks]. unfold on_off_piece.
  generalize (on_off a) (on_off b) (on_off c) (on_off d) (on_off e) (on_off f). intros. cbn [join map qspell setting_pieces fold_right qtext fst snd pg_operator]. 
  rewrite ?sapp_nil_r, ?sapp_assoc. cbn. rewrite ?sapp_nil_r, ?sapp_assoc. reflexivity.
Qed.
Lemma type_row p i : type_text (row p i) = (" " ++ clustered_word (mqi_clustered i))%string.
Proof. unfold type_text, ms_index_of, mq_index_row, clustered_word. cbn [mi_type mir_type]. now destruct (mqi_clustered i). Qed.
Lemma primary_row i : primary_text (row true i) = qspell (primary_pieces i).
Proof.
  unfold primary_text, primary_pieces. rewrite type_row, key_columns_row, options_row, !qspell_app, qspell_cons. unfold keys_pieces. rewrite qspell_list.
  unfold ms_index_of, mq_index_row. cbn [mi_name mir_name qspell fold_right qtext]. rewrite ?sapp_nil_r, ?sapp_assoc. reflexivity.
Qed.
Lemma index_row t i : index_text (mqt_schema t ++ "." ++ mqt_name t)%string (row false i) = qspell (index_pieces t i).
Proof.
  unfold index_text, index_pieces. rewrite type_row, key_columns_row, included_columns_row, options_row, !qspell_app, (qspell_cons (WSign ")")). unfold keys_pieces. rewrite qspell_list, qspell_app.
  replace (match map (fun n => qspell [WName n]) (mqi_included i) with [] => "" | s :: l => " INCLUDE (" ++ join ", " (s :: l) ++ ")" end)%string with (qspell (included_pieces (mqi_included i))).
  2:{ destruct (mqi_included i) as [|n l]; [reflexivity|]. unfold included_pieces. rewrite !qspell_app, qspell_list. cbn [qspell fold_right qtext map]. rewrite ?sapp_nil_r, ?sapp_assoc. reflexivity. }
  unfold ms_index_of, mq_index_row. cbn [mi_name mir_name mi_unique mir_unique]. destruct (mqi_unique i); cbn [qspell fold_right qtext]; rewrite ?sapp_nil_r, ?sapp_assoc; cbn [String.append]; rewrite ?sapp_assoc; reflexivity.
Qed.
Lemma keys_words i : qwords (keys_pieces i) = mq_columns_tokens i.
Proof.
  unfold keys_pieces, mq_columns_tokens, mqi_columns, qlist. rewrite qwords_app, qwords_flat. unfold more_keys.
  assert (K : forall k, qwords (key_pieces k) = name_token (fst k) :: desc_tokens (snd k)) by (intros [n []]; reflexivity). rewrite K. cbn [app]. f_equal. f_equal.
  apply flat_map_ext. intros k. rewrite ?qwords_app, !qwords_cons, K. reflexivity.
Qed.
Lemma options_words o : qwords (options_pieces o) = mq_options_tokens o.
Proof. destruct o as [a z b c d e f]. destruct a, b, c, d, e, f; reflexivity. Qed.
Lemma primary_words i : qwords (primary_pieces i) = comma :: mq_key_tokens i.
Proof.
  unfold primary_pieces, mq_key_tokens. rewrite !qwords_app, (qwords_cons (WSign ")")), keys_words, options_words.
  replace (qwords [WSign ","; line; WWord "CONSTRAINT"; b1; WName (mqi_name i); b1; WWord "PRIMARY"; b1; WWord "KEY"; b1; WWord (clustered_word (mqi_clustered i)); b1; WSign "("])
    with [comma; T "CONSTRAINT" "constraint"; name_token (mqi_name i); T "PRIMARY" "primary"; T "KEY" "key"; clustered_token (mqi_clustered i); lpar] by (destruct (mqi_clustered i); reflexivity).
  reflexivity.
Qed.
Lemma included_words l : qwords (included_pieces l) = mq_included_tokens l.
Proof.
  destruct l as [|c l]; [reflexivity|]. unfold included_pieces, mq_included_tokens. rewrite !qwords_app. unfold qlist. rewrite qwords_app, qwords_flat, <- app_assoc. reflexivity.
Qed.
Lemma index_words t i : qwords (index_pieces t i) = mq_index_tokens t i.
Proof.
  unfold index_pieces, mq_index_tokens. rewrite !qwords_app, (qwords_cons (WSign ")")), qwords_app, keys_words, included_words, options_words.
  replace (qwords [b1; WWord (clustered_word (mqi_clustered i)); b1; WWord "INDEX"; b1; WName (mqi_name i); b1; WWord "ON"; b1; WBare (mqt_schema t); WDot; WBare (mqt_name t); b1; WSign "("])
    with [clustered_token (mqi_clustered i); T "INDEX" "index"; name_token (mqi_name i); T "ON" "on"; name_token (mqt_schema t); dot; name_token (mqt_name t); lpar] by (destruct (mqi_clustered i); reflexivity).
  destruct (mqi_unique i); reflexivity.
Qed.
Lemma keys_part i : mq_index_ok i = true -> qpart (keys_pieces i).
Proof.
  unfold mq_index_ok. rewrite !andb_true_iff. intros [[[[_ C] _] _] _]. apply qpart_list; [exact qnext_comma|]. intros [n b] I. rewrite forallb_forall in C. specialize (C _ I). cbn [fst] in C.
  unfold key_pieces. cbn [fst snd]. destruct b; qparts.
Qed.
Lemma options_next o : qnext (options_pieces o).
Proof.
  unfold options_pieces. assert (P : qpart (qlist setting_pieces [WSign ","] (settings o))).
  { apply qpart_list; [exact qnext_comma_only|]. intros x X. cbv [settings In] in X. unfold setting_pieces, on_off_piece, on_off in *.
    repeat (destruct X as [<-|X]; [cbn [fst snd]; try match goal with |- context[if ?b then _ else _] => destruct b end; qparts|]). contradiction. }
  assert (Q : qpart (qlist setting_pieces [WSign ","] (settings o) ++ [b1; WSign ")"])) by (apply qpart_app; [exact P|qparts]). qparts.
Qed.
Lemma clustered_wf b : keyword_ok (clustered_word b) = true.
Proof. now destruct b. Qed.
Lemma primary_next i : mq_index_ok i = true -> qnext (primary_pieces i).
Proof.
  intros K. pose proof (keys_part i K) as P. pose proof (options_next (mqi_options i)) as O. unfold mq_index_ok in K. rewrite !andb_true_iff in K. destruct K as [[[[N _] _] _] _].
  pose proof (clustered_wf (mqi_clustered i)) as C. unfold primary_pieces.
  assert (Q : qpart (keys_pieces i ++ WSign ")" :: options_pieces (mqi_options i))) by (apply qpart_app; [exact P|]; apply qnext_loose; [reflexivity|reflexivity|]; now apply qnext_part).
  qparts.
Qed.
Lemma included_next l : forallb mq_name l = true -> qnext (included_pieces l).
Proof.
  intros H. rewrite forallb_forall in H. assert (P : qpart (qlist (fun n => [WName n]) [WSign ","; b1] l ++ [WSign ")"])).
  { apply qpart_app; [|qparts]. apply qpart_list; [exact qnext_comma|]. intros n I. apply H in I. qparts. }
  unfold included_pieces. destruct l; qparts.
Qed.
Lemma index_part t i : mq_word (mqt_schema t) = true -> mq_word (mqt_name t) = true -> mq_index_ok i = true -> qpart (index_pieces t i).
Proof.
  intros S T K. pose proof (keys_part i K) as P. pose proof (options_next (mqi_options i)) as O. unfold mq_index_ok in K. rewrite !andb_true_iff in K. destruct K as [[[[N _] I] _] _].
  pose proof (clustered_wf (mqi_clustered i)) as C. unfold index_pieces.
  assert (Q : qpart (keys_pieces i ++ WSign ")" :: included_pieces (mqi_included i) ++ options_pieces (mqi_options i))).
  { apply qpart_app; [exact P|]. apply qnext_loose; [reflexivity|reflexivity|]. apply qnext_part, qnext_app; [now apply included_next|exact O]. }
  cbn [app]. apply qpart_tight; [cbn; tauto|reflexivity|]. apply qnext_app; [destruct (mqi_unique i); qparts|]. qparts.
Qed.

(** ** Tables *)
Definition action_pieces (a : mq_action) : list ms_piece :=
  match a with QNoAction => [WWord "NO"; b1; WWord "ACTION"] | QCascade => [WWord "CASCADE"] | QSetNull => [WWord "SET"; b1; WWord "NULL"] end.
Definition fk_pieces (f : mq_fk) : list ms_piece :=
  [WSign ","; line; WWord "CONSTRAINT"; b1; WName (mqf_name f); b1; WWord "FOREIGN"; b1; WWord "KEY"; b1; WSign "("; WName (mqf_column f); WSign ")"; b1; WWord "REFERENCES"; b1;
   WName (mqf_table f); b1; WSign "("; WName (mqf_ref_column f); WSign ")"; b1; WWord "ON"; b1; WWord "UPDATE"; b1] ++ action_pieces (mqf_update f) ++
  [b1; WWord "ON"; b1; WWord "DELETE"; b1] ++ action_pieces (mqf_delete f) ++ replication_pieces (mqf_not_for_replication f).
Definition table_pieces (t : mq_table) : list ms_piece :=
  [WWord "CREATE"; b1; WWord "TABLE"; b1; WBare (mqt_schema t); WDot; WBare (mqt_name t); b1; WSign "("; line] ++
  qlist column_pieces [WSign ","; line] (mqt_first t :: mqt_columns t) ++ flat_map primary_pieces (listed (mqt_key t)) ++ flat_map fk_pieces (mqt_fks t) ++ [WBlank nl; WSign ")"].
Lemma fk_row f : fk_text (mq_fk_row f) = qspell (fk_pieces f).
Proof.
  destruct f as [n c t r u d b]. unfold fk_text, mq_fk_row, fk_pieces. cbn [Catalog.mf_name Catalog.mf_column Catalog.mf_ref_table Catalog.mf_ref_column Catalog.mf_on_update Catalog.mf_on_delete Catalog.mf_not_for_replication mqf_name mqf_column mqf_table mqf_ref_column mqf_update mqf_delete mqf_not_for_replication].
  rewrite !qspell_app. destruct u, d, b; cbn [qspell fold_right qtext action_pieces replication_pieces]; rewrite ?sapp_nil_r, ?sapp_assoc; reflexivity.
Qed.
Lemma join_none l : join "" l = fold_right String.append "" l.
Proof. induction l as [|x [|y l] IH]; [reflexivity|cbn; now rewrite sapp_nil_r|]. cbn [join] in *. rewrite IH. reflexivity. Qed.
Lemma qspell_flat {A} (f : A -> list ms_piece) (g : A -> string) l : (forall x, In x l -> g x = qspell (f x)) -> join "" (map g l) = qspell (flat_map f l).
Proof.
  intros H. rewrite join_none. induction l as [|x l IH]; [reflexivity|]. cbn [map fold_right flat_map]. rewrite qspell_app, IH by (intros y Y; apply H; now right). now rewrite (H x (or_introl eq_refl)).
Qed.
Lemma join_pull a x l : join "," (map (fun s => a ++ s)%string (x :: l)) = (a ++ join ("," ++ a) (x :: l))%string.
Proof.
  revert x. induction l as [|y l IH]; intros x; [reflexivity|]. cbn [map join] in *. rewrite IH. now rewrite !sapp_assoc.
Qed.
Lemma table_row t : mq_table_ok t = true ->
  ms_create_text (mqt_schema t ++ "." ++ mqt_name t)%string (map mq_column_row (mqt_first t :: mqt_columns t)) (map ms_index_of (map (mq_index_row true) (listed (mqt_key t)))) (map mq_fk_row (mqt_fks t)) =
  qspell (table_pieces t).
Proof.
  unfold mq_table_ok. rewrite !andb_true_iff. intros [[[[[S N] C] K] I] F]. unfold ms_create_text, table_pieces. rewrite !qspell_app.
  rewrite <- (qspell_flat fk_pieces (fun f => fk_text (mq_fk_row f))) by (intros; apply fk_row).
  rewrite <- (qspell_flat primary_pieces (fun i => primary_text (row true i))) by (intros; apply primary_row).
  replace (filter mi_primary (map ms_index_of (map (mq_index_row true) (listed (mqt_key t))))) with (map ms_index_of (map (mq_index_row true) (listed (mqt_key t)))) by (destruct (mqt_key t); reflexivity).
  rewrite !map_map. rewrite qspell_list.
  rewrite (map_ext_in (fun x => nl ++ indent ++ ms_column_text (mq_column_row x))%string (fun x => (nl ++ indent) ++ qspell (column_pieces x))%string)
    by (intros c J; rewrite column_text; [now rewrite sapp_assoc|rewrite forallb_forall in C; now apply C]).
  rewrite <- (map_map (fun x => qspell (column_pieces x)) (fun s => (nl ++ indent) ++ s)%string). cbn [map]. rewrite <- (map_cons (fun s => (nl ++ indent) ++ s)%string), join_pull.
  replace (qspell [WSign ","; line]) with ("," ++ nl ++ indent)%string by reflexivity. cbn [qspell fold_right qtext]. rewrite ?sapp_nil_r, ?sapp_assoc. reflexivity.
Qed.
Lemma fk_words_ms f : qwords (fk_pieces f) = comma :: mq_fk_tokens f.
Proof. destruct f as [n c t r u d b]. destruct u, d, b; reflexivity. Qed.
Lemma table_words_ms t : mq_table_ok t = true -> qwords (table_pieces t) = mq_table_tokens t.
Proof.
  unfold mq_table_ok. rewrite !andb_true_iff. intros [[[[[S N] C] K] I] F]. rewrite forallb_forall in C. unfold table_pieces, mq_table_tokens. rewrite !qwords_app, !qwords_flat. unfold qlist.
  rewrite qwords_app, qwords_flat, column_words_ms by (apply C; now left).
  unfold mq_more_columns, mq_more_keys, mq_more_fks.
  rewrite (flat_map_ext (fun x => qwords (primary_pieces x)) (fun k => comma :: mq_key_tokens k)) by (intros; apply primary_words).
  rewrite (flat_map_ext (fun x => qwords (fk_pieces x)) (fun k => comma :: mq_fk_tokens k)) by (intros; apply fk_words_ms).
  replace (flat_map (fun x => qwords ([WSign ","; line] ++ column_pieces x)) (mqt_columns t)) with (flat_map (fun c => comma :: mq_column_words c) (mqt_columns t)).
  - cbn [app]. rewrite <- ?app_assoc. reflexivity.
  - assert (H : forall c, In c (mqt_columns t) -> mq_column_ok c = true) by (intros c J; apply C; now right). revert H. generalize (mqt_columns t). clear. intros l H.
    induction l as [|c l IH]; [reflexivity|]. cbn [flat_map]. rewrite IH by (intros x X; apply H; now right). rewrite qwords_app, column_words_ms by (apply H; now left). reflexivity.
Qed.
Lemma fk_next f : mq_fk_ok f = true -> qnext (fk_pieces f).
Proof.
  unfold mq_fk_ok. rewrite !andb_true_iff. intros [[[A B] C] D]. pose proof (replication_next (mqf_not_for_replication f)) as R. unfold fk_pieces.
  assert (Q : qpart (action_pieces (mqf_delete f) ++ replication_pieces (mqf_not_for_replication f))) by (apply qpart_app; [destruct (mqf_delete f); cbn [action_pieces]; qparts|exact R]).
  assert (P : qpart (action_pieces (mqf_update f) ++ [b1; WWord "ON"; b1; WWord "DELETE"; b1] ++ action_pieces (mqf_delete f) ++ replication_pieces (mqf_not_for_replication f))).
  { apply qpart_app; [destruct (mqf_update f); cbn [action_pieces]; qparts|]. revert Q. generalize (action_pieces (mqf_delete f) ++ replication_pieces (mqf_not_for_replication f)). intros x Q. qparts. }
  revert P. generalize (action_pieces (mqf_update f) ++ [b1; WWord "ON"; b1; WWord "DELETE"; b1] ++ action_pieces (mqf_delete f) ++ replication_pieces (mqf_not_for_replication f)). intros x P. qparts.
Qed.
Lemma table_part_ms t : mq_table_ok t = true -> qpart (table_pieces t).
Proof.
  unfold mq_table_ok. rewrite !andb_true_iff. intros [[[[[S N] C] K] I] F]. rewrite forallb_forall in C, F. unfold table_pieces.
  assert (P : qpart (qlist column_pieces [WSign ","; line] (mqt_first t :: mqt_columns t) ++ flat_map primary_pieces (listed (mqt_key t)) ++ flat_map fk_pieces (mqt_fks t) ++ [WBlank nl; WSign ")"])).
  { apply qpart_app; [apply qpart_list; [exact qnext_comma_line|intros c J; apply column_part_ms; auto]|].
    apply qnext_app; [|apply qnext_app; [|qparts]].
    - apply qnext_flat_map. intros k J. apply primary_next. destruct (mqt_key t) as [k'|]; [|contradiction]. destruct J as [<-|[]]. cbn [all_some] in K. unfold mq_key_ok in K. now rewrite !andb_true_iff in K.
    - apply qnext_flat_map. intros f J. apply fk_next. auto. }
  revert P. match goal with |- qpart ?x -> _ => generalize x end. intros x P. qparts.
Qed.

(** ** Views, cleaned, and triggers *)
Definition field_pieces (f : string * string) : list ms_piece := [WName (fst f); WDot; WName (snd f)].
Definition ms_view_pieces (v : shown_view) : list ms_piece :=
  [WWord "CREATE"; b1; WWord "VIEW"; b1; WName (sv_schema v); WDot; WName (sv_view v); b1; WWord "AS"; b1; WWord "SELECT"; b1] ++
  qlist field_pieces [WSign ","; b1] (sv_columns v) ++ [b1; WWord "FROM"; b1; WName (sv_from v)] ++ maybe (fun e => [b1; WWord "WHERE"; b1] ++ group_pieces e) (sv_where v).
Definition event_word (e : mq_event) : ms_piece := WWord (mq_event_word e).
Definition insert_pieces (t : mq_trigger) : list ms_piece :=
  [WWord "insert"; b1; WWord "into"; b1; WBare (mqg_into t); WSign "("] ++ qlist (fun n => [WBare n]) [WSign ","; b1] (mqg_columns t) ++
  [WSign ")"; b1; WWord "values"; b1; WSign "("] ++ qlist (fun z => [WNum z]) [WSign ","; b1] (mqg_values t) ++ [WSign ")"].
Definition trigger_pieces (t : mq_trigger) : list ms_piece :=
  [WWord "CREATE"; b1; WWord "TRIGGER"; b1; WBare (mqg_name t); b1; WWord "ON"; b1; WBare (mqg_table t); b1; WWord "AFTER"; b1; event_word (mqg_event t); b1; WWord "AS"; b1] ++ insert_pieces t.
Lemma trigger_spelled t : mq_trigger_text t = qspell (trigger_pieces t).
Proof.
  unfold mq_trigger_text, mq_insert_text, trigger_pieces, insert_pieces. rewrite !qspell_app, !qspell_list.
  rewrite (map_ext (fun x => qspell [WBare x]) (fun x => x)) by (intros; cbn; now rewrite sapp_nil_r). rewrite map_id.
  rewrite (map_ext (fun x => qspell [WNum x]) show_Z) by (intros; cbn; now rewrite sapp_nil_r).
  cbn [qspell fold_right qtext event_word]. rewrite ?sapp_nil_r, ?sapp_assoc. reflexivity.
Qed.
Lemma trigger_words_ms t : mq_trigger_ok t = true -> qwords (trigger_pieces t) = mq_trigger_tokens t.
Proof.
  unfold mq_trigger_ok. rewrite !andb_true_iff. intros [[_ K] L]. unfold trigger_pieces, insert_pieces, mq_trigger_tokens. rewrite !qwords_app.
  replace (qwords (qlist (fun n => [WBare n]) [WSign ","; b1] (mqg_columns t))) with (listed_tokens (mqg_columns t)) by (destruct (mqg_columns t); [reflexivity|]; cbn [qlist]; rewrite qwords_app, qwords_flat; reflexivity).
  replace (qwords (qlist (fun n => [WNum n]) [WSign ","; b1] (mqg_values t))) with (numbers_tokens (mqg_values t)) by (destruct (mqg_values t); [reflexivity|]; cbn [qlist]; rewrite qwords_app, qwords_flat; reflexivity).
  destruct (mqg_event t); cbn [app]; rewrite <- ?app_assoc; reflexivity.
Qed.
Lemma trigger_part_ms t : mq_trigger_ok t = true -> qpart (trigger_pieces t).
Proof.
  unfold mq_trigger_ok. rewrite !andb_true_iff. intros [[[[[[A B] C] D] _] _] _]. rewrite forallb_forall in D. apply simple_mq_word in A, B, C. unfold trigger_pieces, insert_pieces.
  assert (P : qpart (qlist (fun z => [WNum z]) [WSign ","; b1] (mqg_values t) ++ [WSign ")"])) by (apply qpart_app; [|qparts]; apply qpart_list; [exact qnext_comma|]; intros z _; qparts).
  revert P. generalize (qlist (fun z => [WNum z]) [WSign ","; b1] (mqg_values t) ++ [WSign ")"]). intros x P.
  assert (Q : qpart (qlist (fun n => [WBare n]) [WSign ","; b1] (mqg_columns t) ++ [WSign ")"; b1; WWord "values"; b1; WSign "("] ++ x)).
  { apply qpart_app; [|qparts]. apply qpart_list; [exact qnext_comma|]. intros n I. specialize (D n I). apply simple_mq_word in D. qparts. }
  revert Q. generalize (qlist (fun n => [WBare n]) [WSign ","; b1] (mqg_columns t) ++ [WSign ")"; b1; WWord "values"; b1; WSign "("] ++ x). intros y Q.
  assert (E : qwf (event_word (mqg_event t)) = true) by (destruct (mqg_event t); reflexivity). qparts.
Qed.
Lemma view_parts v : view_ok v = true -> all_some mq_shown (sv_where v) = true ->
  simple_name (sv_schema v) = true /\ simple_name (sv_view v) = true /\ simple_name (sv_from v) = true /\ sv_columns v <> [] /\
  (forall c, In c (sv_columns v) -> simple_name (fst c) = true /\ simple_name (snd c) = true) /\
  (forall e, sv_where v = Some e -> ex_ok e = true /\ ex_single e = true /\ castless e = true).
Proof.
  unfold view_ok. rewrite !andb_true_iff. intros [[[[[A B] C] D] E] W] S. repeat (split; [assumption|]). split; [|split].
  - intros H. rewrite H in D. discriminate.
  - intros c I. rewrite forallb_forall in E. specialize (E c I). now apply andb_true_iff in E.
  - intros e H. rewrite H in W, S. apply andb_true_iff in W as [W1 W2]. unfold ex_fits in W1. rewrite !andb_true_iff in W1. split; [tauto|]. split; [exact W2|]. now apply shown_castless.
Qed.
Lemma view_words_ms v : view_ok v = true -> all_some mq_shown (sv_where v) = true -> qwords (ms_view_pieces v) = view_tokens v.
Proof.
  intros K W. destruct (view_parts v K W) as (_ & _ & _ & N & _ & E). unfold ms_view_pieces, view_tokens. rewrite !qwords_app, qwords_maybe.
  assert (F : qwords (qlist field_pieces [WSign ","; b1] (sv_columns v)) = match sv_columns v with [] => [] | f :: l => field_tokens f ++ flat_map (fun f => comma :: field_tokens f) l end).
  { destruct (sv_columns v) as [|f l]; [reflexivity|]. cbn [qlist]. rewrite qwords_app, qwords_flat. reflexivity. }
  rewrite F. cbn [app]. rewrite (option_tokens_same _ (fun e => T "WHERE" "where" :: group_tokens e)).
  - reflexivity.
  - intros e H. destruct (E e H) as (_ & _ & C). rewrite !qwords_cons, group_words by exact C. reflexivity.
Qed.
Lemma view_part_ms v : view_ok v = true -> all_some mq_shown (sv_where v) = true -> qpart (ms_view_pieces v).
Proof.
  intros K W. destruct (view_parts v K W) as (A & B & C & _ & D & E). apply simple_mq_name in A, B, C. unfold ms_view_pieces.
  assert (P : qpart (qlist field_pieces [WSign ","; b1] (sv_columns v) ++ [b1; WWord "FROM"; b1; WName (sv_from v)] ++ maybe (fun e => [b1; WWord "WHERE"; b1] ++ group_pieces e) (sv_where v))).
  { apply qpart_app.
    - apply qpart_list; [exact qnext_comma|]. intros f I. destruct (D f I) as [D1 D2]. apply simple_mq_name in D1, D2. unfold field_pieces. qparts.
    - assert (Q : qnext (maybe (fun e => [b1; WWord "WHERE"; b1] ++ group_pieces e) (sv_where v))).
      { apply qnext_maybe. intros e H. destruct (E e H) as (E1 & _ & E2). pose proof (group_next e E1 E2). qparts. }
      qparts. }
  revert P. match goal with |- qpart ?x -> _ => generalize x end. intros x P. qparts.
Qed.
