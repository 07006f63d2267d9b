(** The SQL Server export: its statements are told apart, and it is read as the database. *)
From Coq Require Import String Ascii List ZArith Bool Lia Permutation.
From Verif Require Import GoStr GoStrFacts GoNum Ast Formatter Generator Keywords Lexer Numerals SchemaText SqlAst SchemaParse Parser Planner Catalog AdapterPostgres AdapterMssql ExportMssql
  SpecPlan SpecPostgres SpecLexer SpecText SpecLayout SpecExport SpecShown SpecShownMssql ProofOrder ProofNumerals ProofRun ProofText ProofExport ProofExport3 ProofReadEx ProofReadRest ProofPlan ProofPg ProofPieces
  ProofPiecesMssql ProofReadMsColumn ProofReadMsTable ProofReadMsRest ProofReadMsText ProofReadMsDatabase.
From Verif Require ProofReadMyExport ProofReadStatements.
Import ListNotations.
Local Open Scope string_scope.
Local Open Scope list_scope.

(** ** Pieces without semicolons, no line of which begins with dashes *)
Definition qstill (p : ms_piece) : bool := match p with WBlank s => String.eqb s " " || String.eqb s (nl ++ indent) | _ => true end.
Definition qcalm (l : list ms_piece) : Prop := has_char semicolon (qspell l) = false /\ forall r, contains (qspell l ++ r)%string ProofReadMyExport.dashes = contains r ProofReadMyExport.dashes.
Lemma qcalm_app a b : qcalm a -> qcalm b -> qcalm (a ++ b).
Proof.
  intros [A1 A2] [B1 B2]. unfold qcalm. rewrite qspell_app, has_char_app, A1, B1. split; [reflexivity|]. intros r. rewrite sapp_assoc, A2. apply B2.
Qed.
Lemma qcalm_line p : one_line (qtext p) -> qcalm [p].
Proof. intros [A B]. unfold qcalm. cbn [qspell fold_right]. rewrite sapp_nil_r. split; [exact A|]. intros r. now apply peel. Qed.
Lemma bracket_line c : bracket_char c = true -> Ascii.eqb c semicolon = false /\ Ascii.eqb c newline = false.
Proof. destruct c as [[] [] [] [] [] [] [] []]; vm_compute; intros H; try discriminate H; split; reflexivity. Qed.
Lemma text_line c : text_char c = true -> Ascii.eqb c semicolon = false /\ Ascii.eqb c newline = false.
Proof. destruct c as [[] [] [] [] [] [] [] []]; vm_compute; intros H; try discriminate H; split; reflexivity. Qed.
Lemma word_line c : mq_word_part c = true -> Ascii.eqb c semicolon = false /\ Ascii.eqb c newline = false.
Proof. destruct c as [[] [] [] [] [] [] [] []]; vm_compute; intros H; try discriminate H; split; reflexivity. Qed.
Lemma twice_line s : all_chars text_char s = true -> one_line (quote_twice s).
Proof.
  intros H. induction s as [|c s IH]; [now split|]. cbn [all_chars quote_twice] in *. apply andb_true_iff in H as [C H]. destruct (IH H) as [A B]. destruct (text_line c C) as [C1 C2].
  destruct (Ascii.eqb_spec c "'") as [->|_]; split; cbn [has_char]; rewrite ?C1, ?C2; assumption.
Qed.
Lemma qstill_line p : qwf p = true -> qstill p = true -> p = line \/ one_line (qtext p).
Proof.
  destruct p as [s|w|n|n|s|z|o|c|]; cbn [qwf qstill qtext]; intros W S.
  - apply orb_true_iff in S as [S|S]; apply String.eqb_eq in S; subst; [right; now split|now left].
  - right. unfold keyword_ok in W. apply andb_true_iff in W as [_ W]. destruct w as [|c r]; [discriminate|]. rewrite !andb_true_iff in W. destruct W as [[W1 _] W2].
    apply (ProofReadMyExport.line_of _ _ ProofReadMyExport.letter_line). cbn [all_chars]. rewrite W1. cbn. exact W2.
  - right. unfold mq_word in W. rewrite !andb_true_iff in W. destruct W as [[[_ W] _] _]. exact (ProofReadMyExport.line_of _ _ word_line W).
  - right. unfold mq_name in W. apply andb_true_iff in W as [_ W]. apply one_line_app. split; [now split|]. apply one_line_app. split; [exact (ProofReadMyExport.line_of _ _ bracket_line W)|now split].
  - right. apply one_line_app. split; [now split|]. apply one_line_app. split; [now apply twice_line|now split].
  - right. apply one_line_show.
  - right. destruct o; now split.
  - right. cbn [existsb qsigns] in W. repeat (apply orb_true_iff in W as [W|W]; [apply Ascii.eqb_eq in W; subst; now split|]). discriminate.
  - right. now split.
Qed.
Lemma qcalm_break : qcalm [line].
Proof. split; [reflexivity|]. intros r. reflexivity. Qed.
Lemma qcalm_end : qcalm [WBlank nl; WSign ")"].
Proof. split; [reflexivity|]. intros r. reflexivity. Qed.
Lemma qcalm_still l : forallb qwf l = true -> forallb qstill l = true -> qcalm l.
Proof.
  induction l as [|p l IH]; [intros _ _; split; [reflexivity|reflexivity]|]. cbn [forallb]. intros W S. apply andb_true_iff in W as [W1 W2]. apply andb_true_iff in S as [S1 S2].
  change (p :: l) with ([p] ++ l). apply qcalm_app; [|now apply IH]. destruct (qstill_line p W1 S1) as [->|L]; [exact qcalm_break|now apply qcalm_line].
Qed.

Definition closing (p : ms_piece) : bool := match p with WSign ")" | WName _ => true | _ => false end.
Definition closed (l : list ms_piece) : Prop := exists a p, l = a ++ [p] /\ closing p = true.
Lemma closed_app a b : closed b -> closed (a ++ b).
Proof. intros (x & p & -> & P). exists (a ++ x), p. split; [now rewrite app_assoc|exact P]. Qed.
Lemma closed_cons a b : closed b -> closed (a :: b).
Proof. exact (closed_app [a] b). Qed.
Lemma closed_one p : closing p = true -> closed [p].
Proof. intros P. now exists [], p. Qed.
Lemma closed_last l : closed l -> exists x c, qspell l = (x ++ String c "")%string /\ (c = ")"%char \/ c = "]"%char).
Proof.
  intros (a & p & -> & P). rewrite qspell_app. destruct p as [s|w|n|n|s|z|o|c|]; try discriminate; cbn [qspell fold_right qtext].
  - exists (qspell a ++ "[" ++ n)%string, "]"%char. split; [|now right]. rewrite ?sapp_nil_r, ?sapp_assoc. reflexivity.
  - exists (qspell a), ")"%char. split; [|now left]. assert (E : c = ")"%char) by (destruct c as [[] [] [] [] [] [] [] []]; (discriminate P || reflexivity)). now subst.
Qed.
Lemma qplain l : qcalm (WWord "CREATE" :: l) -> closed l -> plain_statement (qspell (WWord "CREATE" :: l)).
Proof.
  intros [A B] C. destruct (closed_last l C) as (x & c & E & L). constructor.
  - exists "C"%char. now split.
  - exists c. rewrite qspell_cons, E, <- sapp_assoc. split; [now rewrite last_char_app|]. now destruct L as [-> | ->].
  - exact A.
  - reflexivity.
  - rewrite <- (sapp_nil_r (qspell _)). exact (B "").
Qed.

(** ** The pieces of the statements *)
Lemma qstill_app a b : forallb qstill (a ++ b) = forallb qstill a && forallb qstill b.
Proof. apply forallb_app. Qed.
Lemma qstill_flat {A} (f : A -> list ms_piece) l : (forall x, forallb qstill (f x) = true) -> forallb qstill (flat_map f l) = true.
Proof. intros H. induction l as [|x l IH]; [reflexivity|]. cbn [flat_map]. now rewrite qstill_app, (H x). Qed.
Lemma qstill_list {A} (f : A -> list ms_piece) g l : forallb qstill g = true -> (forall x, forallb qstill (f x) = true) -> forallb qstill (qlist f g l) = true.
Proof.
  intros G H. destruct l as [|x l]; [reflexivity|]. cbn [qlist]. rewrite qstill_app, (H x). apply (qstill_flat (fun y => g ++ f y)). intros y. now rewrite qstill_app, G, (H y).
Qed.
Lemma qstill_cond e : forallb qstill (cond_pieces e) = true.
Proof. induction e; cbn [cond_pieces]; rewrite ?qstill_app; cbn [forallb qstill andb]; rewrite ?qstill_app, ?IHe, ?IHe1, ?IHe2; cbn [forallb qstill andb]; rewrite ?IHe2; reflexivity. Qed.
Lemma qstill_group e : forallb qstill (group_pieces e) = true.
Proof. unfold group_pieces. cbn [forallb qstill andb]. now rewrite qstill_app, qstill_cond. Qed.
Lemma qstill_maybe {A} (f : A -> list ms_piece) o : (forall x, forallb qstill (f x) = true) -> forallb qstill (maybe f o) = true.
Proof. intros H. destruct o; [apply H|reflexivity]. Qed.
Lemma qstill_replication b : forallb qstill (replication_pieces b) = true.
Proof. now destruct b. Qed.
Lemma qstill_column c : forallb qstill (column_pieces c) = true.
Proof.
  unfold column_pieces. rewrite !qstill_app. rewrite !qstill_maybe.
  - destruct (mqc_type c), (mqc_nullable c); reflexivity.
  - intros k. rewrite !qstill_app, qstill_replication. cbn [forallb qstill andb]. apply qstill_group.
  - intros i. rewrite qstill_app, qstill_replication. reflexivity.
  - intros [m v]. destruct v; reflexivity.
Qed.
Lemma qstill_keys i : forallb qstill (keys_pieces i) = true.
Proof. apply qstill_list; [reflexivity|]. intros [n []]; reflexivity. Qed.
Lemma qstill_options o : forallb qstill (options_pieces o) = true.
Proof. destruct o as [a z b c d e f]. reflexivity. Qed.
Lemma qstill_primary i : forallb qstill (primary_pieces i) = true.
Proof. unfold primary_pieces. rewrite !qstill_app, qstill_keys. cbn [forallb qstill andb]. rewrite qstill_options. reflexivity. Qed.
Lemma qstill_fk f : forallb qstill (fk_pieces f) = true.
Proof. unfold fk_pieces. rewrite !qstill_app, qstill_replication. destruct (mqf_update f), (mqf_delete f); reflexivity. Qed.
Lemma qstill_index t i : forallb qstill (index_pieces t i) = true.
Proof.
  unfold index_pieces. rewrite !qstill_app, qstill_keys. cbn [forallb qstill andb]. rewrite qstill_app, qstill_options.
  assert (E : forallb qstill (included_pieces (mqi_included i)) = true).
  { unfold included_pieces. destruct (mqi_included i) as [|n l]; [reflexivity|]. rewrite !qstill_app, qstill_list; reflexivity. }
  rewrite E. destruct (mqi_unique i); reflexivity.
Qed.
Lemma table_plain_ms t : mq_table_ok t = true -> plain_statement (qspell (table_pieces t)).
Proof.
  intros K. pose proof (proj1 (table_part_ms t K)) as W. unfold table_pieces in *. rewrite !app_assoc in *.
  match goal with |- plain_statement (qspell (?x ++ ?e)) => assert (C : qcalm (x ++ e)) end.
  { rewrite forallb_app in W. apply andb_true_iff in W as [W _]. apply qcalm_app; [|exact qcalm_end]. apply qcalm_still; [exact W|].
    rewrite !qstill_app, (qstill_list column_pieces), !qstill_flat; try reflexivity; [exact qstill_fk|exact qstill_primary|exact qstill_column]. }
  revert C. rewrite <- !app_assoc. cbn [app]. intros C. apply qplain; [exact C|]. do 9 apply closed_cons.
  do 3 apply closed_app. apply closed_cons. now apply closed_one.
Qed.
Lemma closed_options o : closed (options_pieces o).
Proof. unfold options_pieces. do 2 apply closed_app. apply closed_cons. now apply closed_one. Qed.
Lemma index_plain_ms t i : mq_table_ok t = true -> mq_index_ok i = true -> plain_statement (qspell (index_pieces t i)).
Proof.
  intros K I. unfold mq_table_ok in K. rewrite !andb_true_iff in K. destruct K as [[[[[S N] _] _] _] _].
  pose proof (qcalm_still _ (proj1 (index_part t i S N I)) (qstill_index t i)) as C. unfold index_pieces in *. cbn [app] in *. apply qplain; [exact C|].
  apply closed_app. do 14 apply closed_cons. apply closed_app, closed_cons, closed_app, closed_options.
Qed.
Lemma trigger_plain_ms t : mq_trigger_ok t = true -> plain_statement (mq_trigger_text t).
Proof.
  intros K. rewrite trigger_spelled. assert (C : qcalm (trigger_pieces t)).
  { apply qcalm_still; [exact (proj1 (trigger_part_ms t K))|]. unfold trigger_pieces, insert_pieces. rewrite !qstill_app, !qstill_list; reflexivity. }
  unfold trigger_pieces, insert_pieces in *. cbn [app] in *. apply qplain; [exact C|]. do 21 apply closed_cons. apply closed_app. do 5 apply closed_cons. apply closed_app. now apply closed_one.
Qed.
Lemma view_plain_ms v : view_ok v = true -> all_some mq_shown (sv_where v) = true -> plain_statement (qspell (ms_view_pieces v)).
Proof.
  intros K W. assert (C : qcalm (ms_view_pieces v)).
  { apply qcalm_still; [exact (proj1 (view_part_ms v K W))|]. unfold ms_view_pieces. rewrite !qstill_app, qstill_list, qstill_maybe; try reflexivity. intros e. rewrite qstill_app, qstill_group. reflexivity. }
  unfold ms_view_pieces in *. cbn [app] in *. apply qplain; [exact C|]. do 11 apply closed_cons. apply closed_app. destruct (sv_where v) as [e|]; cbn [maybe].
  - do 4 apply closed_cons. cbn [app]. do 3 apply closed_cons. unfold group_pieces. apply closed_cons, closed_app. now apply closed_one.
  - do 3 apply closed_cons. now apply closed_one.
Qed.

(** ** Views as the export shows them *)
Import ProofReadStatements ProofPiecesMssql ProofReadMsText.
Lemma trim_suffix_other x y c d : c <> d -> trim_suffix (x ++ String c "")%string (y ++ String d "")%string = (x ++ String c "")%string.
Proof.
  intros N. assert (D : forall x, String.eqb (x ++ String c "")%string (y ++ String d "")%string = false).
  { intros z. apply String.eqb_neq. intros E. apply (f_equal last_char) in E. rewrite !last_char_app in E by discriminate. cbn in E. congruence. }
  induction x as [|a x IH].
  - specialize (D ""). cbn [String.append trim_suffix] in *. rewrite D. destruct (String.eqb "" (y ++ String d "")); reflexivity.
  - pose proof (D (String a x)) as E. cbn [String.append trim_suffix] in *. rewrite E. f_equal. exact IH.
Qed.
Lemma clean_one a b (semi : bool) x c : settles a b -> (exists d r, a = String d r /\ is_space d = false) -> a = (x ++ String c "")%string -> is_space c = false -> c <> ";"%char ->
  clean_definition (a ++ (if semi then ";" else ""))%string = b.
Proof.
  intros S (d & r & E & N) L P Q. unfold clean_definition. change (ascii_of_nat 10) with newline.
  assert (T : trim_space (a ++ (if semi then ";" else ""))%string = (a ++ (if semi then ";" else ""))%string).
  { pose proof (trim_space_pad "" (a ++ (if semi then ";" else ""))%string "" d (if semi then ";"%char else c)) as H. cbn [String.append] in H. rewrite sapp_nil_r in H.
    apply H; try reflexivity; [now rewrite E|exact N| |now destruct semi]. destruct semi; [now rewrite last_char_app|]. rewrite sapp_nil_r, L. now rewrite last_char_app. }
  rewrite T, remove_char_app. replace (remove_char newline (if semi then ";" else ""))%string with (if semi then ";" else "")%string by now destruct semi.
  enough (H : trim_suffix (remove_char newline a ++ (if semi then ";" else ""))%string ";" = remove_char newline a).
  { rewrite H. rewrite <- (sapp_nil_r (remove_char newline a)), S. apply sapp_nil_r. }
  destruct semi; [now apply trim_suffix_app|]. rewrite sapp_nil_r. rewrite L, remove_char_app.
  assert (C : remove_char newline (String c "") = String c "").
  { cbn [remove_char]. destruct (Ascii.eqb_spec c newline) as [->|_]; [discriminate|reflexivity]. }
  rewrite C. exact (trim_suffix_other _ "" c ";" Q).
Qed.
Lemma tight_bracketed n : simple_name n = true -> tight (bracketed n).
Proof.
  intros H. apply simple_dense in H. unfold bracketed. apply tight_app; [now apply tight_dense|]. apply tight_app; now apply tight_dense.
Qed.
Lemma tight_mq_text e : ex_ok e = true -> ex_single e = true -> castless e = true -> tight (mq_text e).
Proof.
  induction e; cbn [ex_ok ex_single castless mq_text]; intros H S C; rewrite ?andb_true_iff in H; rewrite ?andb_true_iff in S; rewrite ?andb_true_iff in C; try discriminate.
  - now apply tight_bracketed.
  - replace ("[" ++ t ++ "].[" ++ n ++ "]")%string with (bracketed t ++ "." ++ bracketed n)%string by (unfold bracketed; now rewrite ?sapp_assoc).
    apply tight_app; [now apply tight_bracketed|]. apply tight_app; [now apply tight_dense|now apply tight_bracketed].
  - now apply tight_number.
  - now apply tight_literal.
  - apply tight_app; [now apply tight_dense|]. apply tight_app; [now apply IHe|now apply tight_dense].
  - apply tight_app; [now apply IHe1|]. apply tight_app; [destruct op; now apply tight_dense|now apply IHe2].
  - change " IS NULL" with (" " ++ "IS" ++ " " ++ "NULL")%string. apply tight_blank; [now apply IHe|]. apply tight_blank; now apply tight_dense.
  - change " IS NOT NULL" with (" " ++ "IS" ++ " " ++ "NOT" ++ " " ++ "NULL")%string. apply tight_blank; [now apply IHe|]. apply tight_blank; [now apply tight_dense|]. apply tight_blank; now apply tight_dense.
  - change " AND " with (" " ++ "AND" ++ " ")%string. rewrite !sapp_assoc. apply tight_blank; [now apply IHe1|]. apply tight_blank; [now apply tight_dense|now apply IHe2].
  - change " OR " with (" " ++ "OR" ++ " ")%string. rewrite !sapp_assoc. apply tight_blank; [now apply IHe1|]. apply tight_blank; [now apply tight_dense|now apply IHe2].
Qed.
Definition view_raw (g : string) (v : shown_view) : string :=
  let F := map (fun c : string * string => bracketed (fst c) ++ "." ++ bracketed (snd c))%string (sv_columns v) in
  ("CREATE" ++ " " ++ "VIEW" ++ " " ++ (bracketed (sv_schema v) ++ "." ++ bracketed (sv_view v)) ++ " " ++ "AS" ++ g ++ "SELECT" ++ " " ++ join ("," ++ g) F ++ g ++
   "FROM" ++ " " ++ bracketed (sv_from v) ++ match sv_where v with Some e => g ++ "WHERE" ++ " " ++ "(" ++ mq_text e ++ ")" | None => "" end)%string.
Lemma view_raw_text v : mq_view_text v = (view_raw (mqv_gap v) (mqv_view v) ++ (if mqv_semicolon v then ";" else ""))%string.
Proof. unfold mq_view_text, view_raw. destruct (sv_where (mqv_view v)); rewrite ?sapp_assoc; reflexivity. Qed.
Lemma settles_app a a' b b' : settles a a' -> settles b b' -> settles (a ++ b)%string (a' ++ b')%string.
Proof. intros A B k r. now rewrite remove_char_app, !sapp_assoc, A, B. Qed.
Lemma view_raw_settles g v : separates g -> view_ok v = true -> all_some mq_shown (sv_where v) = true -> settles (view_raw g v) (qspell (ms_view_pieces v)).
Proof.
  intros G K W. destruct (ProofReadMsText.view_parts v K W) as (A & B & C & N & D & E).
  assert (S1 : separates " ") by (split; reflexivity).
  replace (qspell (ms_view_pieces v)) with (view_raw " " v).
  - unfold view_raw.
    repeat (apply settles_gap; [exact S1|apply settles_tight; first [now apply tight_dense|apply tight_app; [now apply tight_bracketed|]; apply tight_app; [now apply tight_dense|now apply tight_bracketed]]|]).
    apply settles_gap; [exact G|apply settles_tight; now apply tight_dense|].
    apply settles_gap; [exact S1|apply settles_tight; now apply tight_dense|].
    apply settles_gap; [exact G| |].
    + apply settles_join; [exact G| |].
      * destruct (sv_columns v); [contradiction|discriminate].
      * apply Forall_forall. intros x X. apply in_map_iff in X as (f & <- & I). destruct (D f I) as [D1 D2].
        apply tight_app; [now apply tight_bracketed|]. apply tight_app; [now apply tight_dense|now apply tight_bracketed].
    + apply settles_gap; [exact S1|apply settles_tight; now apply tight_dense|]. destruct (sv_where v) as [e|].
      * destruct (E e eq_refl) as (E1 & E2 & E3). apply settles_gap; [exact G|apply settles_tight; now apply tight_bracketed|].
        apply settles_gap; [exact S1|apply settles_tight; now apply tight_dense|]. apply settles_tight. apply tight_app; [now apply tight_dense|]. apply tight_app; [now apply tight_mq_text|now apply tight_dense].
      * rewrite sapp_nil_r. apply settles_tight. now apply tight_bracketed.
  - unfold view_raw, ms_view_pieces. rewrite !qspell_app, qspell_list.
    rewrite (map_ext (fun c : string * string => (bracketed (fst c) ++ "." ++ bracketed (snd c))%string) (fun x => qspell (ProofReadMsText.field_pieces x))) by (intros c; unfold bracketed, ProofReadMsText.field_pieces; cbn; rewrite ?sapp_nil_r, ?sapp_assoc; reflexivity).
    unfold bracketed. destruct (sv_where v) as [e|]; cbn [maybe].
    + destruct (E e eq_refl) as (E1 & E2 & E3). rewrite qspell_app, group_text by assumption. cbn [qspell fold_right qtext]. rewrite ?sapp_nil_r, ?sapp_assoc. reflexivity.
    + cbn [qspell fold_right qtext]. rewrite ?sapp_nil_r, ?sapp_assoc. reflexivity.
Qed.
Lemma view_raw_last g v : exists x c, view_raw g v = (x ++ String c "")%string /\ (c = ")"%char \/ c = "]"%char).
Proof.
  unfold view_raw. match goal with |- exists x c, (?a ++ ?b1 ++ ?b2 ++ ?b3 ++ ?b4 ++ ?b5 ++ ?b6 ++ ?b7 ++ ?b8 ++ ?b9 ++ ?c1 ++ ?c2 ++ ?c3 ++ ?c4 ++ ?e ++ _)%string = _ /\ _ =>
    set (p := (a ++ b1 ++ b2 ++ b3 ++ b4 ++ b5 ++ b6 ++ b7 ++ b8 ++ b9 ++ c1 ++ c2 ++ c3 ++ c4)%string) end.
  destruct (sv_where v) as [e|].
  - exists (p ++ bracketed (sv_from v) ++ g ++ "WHERE" ++ " " ++ "(" ++ mq_text e)%string, ")"%char. split; [|now left]. unfold p. rewrite !sapp_assoc. reflexivity.
  - exists (p ++ "[" ++ sv_from v)%string, "]"%char. split; [|now right]. unfold p, bracketed. rewrite !sapp_assoc, ?sapp_nil_r. reflexivity.
Qed.
Lemma view_shown v : mq_view_ok v = true -> ms_view_text (mq_view_text v) = qspell (ms_view_pieces (mqv_view v)).
Proof.
  unfold mq_view_ok. rewrite !andb_true_iff. intros [[K W] G]. unfold mq_gap_ok in G. apply andb_true_iff in G as [G1 G2]. unfold ms_view_text. rewrite view_raw_text.
  destruct (view_raw_last (mqv_gap v) (mqv_view v)) as (x & c & E & C). apply (clean_one _ _ _ x c).
  - apply view_raw_settles; [split; [exact G1|exact G2]|exact K|exact W].
  - eexists "C"%char, _. split; reflexivity.
  - exact E.
  - now destruct C as [-> | ->].
  - destruct C as [-> | ->]; discriminate.
Qed.

(** ** The export *)
Definition mq_table_statements (t : mq_table) : list string := qspell (table_pieces t) :: map (fun i => qspell (index_pieces t i)) (listed (mqt_index t)).
Lemma ms_dump_texts t text : mq_table_ok t = true ->
  (exists shown, index_order (map ms_index_of (mst_indexes (mq_table_row t))) shown /\
    text = ms_build_dump (mqt_schema t ++ "." ++ mqt_name t)%string (mst_columns (mq_table_row t)) shown (mst_fks (mq_table_row t))) ->
  text = join (";" ++ nl) (mq_table_statements t).
Proof.
  intros K (shown & P & ->). pose proof (table_row t K) as R. unfold mq_table_row in *. cbn [mst_indexes mst_columns mst_fks] in *. rewrite map_app in P.
  assert (F1 : filter mi_primary shown = map ms_index_of (map (mq_index_row true) (listed (mqt_key t))) /\ filter (fun i => negb (mi_primary i)) shown = map ms_index_of (map (mq_index_row false) (listed (mqt_index t)))).
  { unfold index_order in P. destruct (mqt_key t) as [k|], (mqt_index t) as [i|]; cbn [listed map app] in *.
    - apply Permutation_length_2_inv in P as [-> | ->]; now split.
    - apply Permutation_length_1_inv in P as ->; now split.
    - apply Permutation_length_1_inv in P as ->; now split.
    - apply Permutation_nil in P as ->; now split. }
  destruct F1 as [F1 F2]. unfold ms_build_dump. rewrite F2.
  replace (ms_create_text (mqt_schema t ++ "." ++ mqt_name t) (map mq_column_row (mqt_first t :: mqt_columns t)) shown (map mq_fk_row (mqt_fks t)))%string with (qspell (table_pieces t)).
  2:{ rewrite <- R. unfold ms_create_text. rewrite F1. do 3 f_equal. f_equal. destruct (mqt_key t); reflexivity. }
  unfold mq_table_statements. destruct (mqt_index t) as [i|]; cbn [listed map].
  - cbn [join]. rewrite index_row.
    destruct (closed_last (index_pieces t i)) as (x & c & E & C).
    { unfold index_pieces. repeat (apply closed_app). apply closed_cons, closed_app, closed_options. }
    replace (qspell (table_pieces t) ++ ";" ++ nl ++ qspell (index_pieces t i))%string with ((qspell (table_pieces t) ++ ";" ++ nl ++ x) ++ String c "")%string by (rewrite E, !sapp_assoc; reflexivity).
    change (";" ++ nl)%string with (";" ++ String newline "")%string. rewrite trim_suffix_other.
    + rewrite E, !sapp_assoc. reflexivity.
    + destruct C as [-> | ->]; discriminate.
  - cbn [join]. rewrite sapp_nil_r. apply trim_suffix_app. discriminate.
Qed.
Lemma find_table d t : mq_readable d = true -> In t (mqd_tables d) -> ms_find (mq_server d) (mqt_schema t ++ "." ++ mqt_name t)%string = Some (mq_table_row t).
Proof.
  unfold mq_readable. rewrite !andb_true_iff. intros [[[T _] _] N] I. apply distinct_spec in N. rewrite forallb_forall in T. specialize (T t I).
  unfold mq_table_ok in T. rewrite !andb_true_iff in T. destruct T as [[[[[S _] _] _] _] _]. unfold mq_word in S. rewrite !andb_true_iff in S. destruct S as [[[_ S] _] _].
  unfold ms_find, split_table_name, mq_server. cbn [mss_tables]. change ("." ++ mqt_name t)%string with (String "." (mqt_name t)).
  rewrite split_first_spec by (apply (ProofReadMyExport.free_of mq_word_part); [intros c; destruct c as [[] [] [] [] [] [] [] []]; vm_compute; congruence|exact S]).
  clear S. revert N I. generalize (mqd_tables d). intros l N I. induction l as [|y l IH]; [easy|]. cbn [map List.find] in *. inversion N as [|? ? N1 N2]; subst. destruct I as [->|I].
  - cbn [mq_table_row mst_schema mst_name]. now rewrite !String.eqb_refl.
  - cbn [mq_table_row mst_schema mst_name]. destruct (String.eqb_spec (mqt_name y) (mqt_name t)) as [E|_].
    + exfalso. apply N1. rewrite E. now apply in_map.
    + rewrite andb_false_r. now apply IH.
Qed.
Definition mq_blocks (d : mq_database) : list (list string) :=
  map mq_table_statements (mqd_tables d) ++ map (fun v => [qspell (ms_view_pieces (mqv_view v))]) (mqd_views d) ++ map (fun t => [mq_trigger_text t]) (mqd_triggers d).
Definition mq_export (d : mq_database) : string := join (";" ++ nl ++ nl) (map (join (";" ++ nl)) (mq_blocks d)).
Lemma mq_readable_parts d : mq_readable d = true ->
  (forall t, In t (mqd_tables d) -> mq_table_ok t = true) /\ (forall v, In v (mqd_views d) -> mq_view_ok v = true) /\ (forall t, In t (mqd_triggers d) -> mq_trigger_ok t = true) /\
  NoDup (map mqt_name (mqd_tables d)).
Proof. unfold mq_readable. rewrite !andb_true_iff, !forallb_forall. intros [[[A B] C] D]. repeat split; try assumption. now apply distinct_spec. Qed.
Lemma ms_dump_shown d text : mq_readable d = true -> ms_dump (mq_server d) text -> text = mq_export d.
Proof.
  intros R (tables & F & ->). destruct (mq_readable_parts d R) as (T & V & _ & _). unfold mq_export, mq_blocks. f_equal. rewrite !map_app, !map_map. f_equal; [|f_equal].
  - unfold ms_table_names in F. cbn [mq_server mss_tables] in F. rewrite map_map in F. cbn [mq_table_row mst_schema mst_name] in F.
    assert (G : forall t, In t (mqd_tables d) -> forall x, ms_dump_table (mq_server d) (mqt_schema t ++ "." ++ mqt_name t)%string x -> x = join (";" ++ nl) (mq_table_statements t)).
    { intros t I x X. unfold ms_dump_table in X. rewrite (find_table d t R I) in X. apply ms_dump_texts; [now apply T|exact X]. }
    revert tables F G. generalize (mqd_tables d). intros l. induction l as [|t l IH]; intros tables F G; inversion F as [|? x ? r X F']; subst; [reflexivity|]. cbn [map].
    f_equal; [apply G; [now left|exact X]|]. apply IH; [exact F'|]. intros u U. apply G. now right.
  - cbn [mq_server mss_views]. rewrite map_map. apply map_ext_in. intros v I. cbn [join]. now rewrite (view_shown v (V v I)).
Qed.
Lemma lists_block l g e r m : l <> [] -> Forall plain_statement l -> gap false g e -> lists r m -> lists (join (";" ++ nl) l ++ ";" ++ g ++ r)%string (l ++ m).
Proof.
  intros N F G R. destruct F as [|s l Hs F]; [contradiction|]. clear N. revert s Hs. induction F as [|s2 l H2 F IH]; intros s Hs; [now apply (lists_cons s g e)|].
  specialize (IH s2 H2). cbn [join app] in *. rewrite !sapp_assoc. apply (lists_cons s nl true); [exact Hs|exact gap1|]. exact IH.
Qed.
Lemma lists_block_end l : l <> [] -> Forall plain_statement l -> lists (join (";" ++ nl) l) l.
Proof.
  intros N F. destruct F as [|s l Hs F]; [contradiction|]. clear N. revert s Hs. induction F as [|s2 l H2 F IH]; intros s Hs; [now apply lists_one|].
  specialize (IH s2 H2). cbn [join] in *. rewrite !sapp_assoc. apply (lists_cons s nl true); [exact Hs|exact gap1|]. exact IH.
Qed.
Lemma lists_blocks l : (forall b, In b l -> b <> [] /\ Forall plain_statement b) -> lists (join (";" ++ nl ++ nl) (map (join (";" ++ nl)) l)) (concat l).
Proof.
  induction l as [|b l IH]; intros H; [exact lists_nil_end|]. destruct (H b (or_introl eq_refl)) as [N F]. specialize (IH (fun x X => H x (or_intror X))). cbn [map concat].
  destruct l as [|c l]; [cbn [map join concat]; rewrite app_nil_r; now apply lists_block_end|].
  cbn [map] in *. rewrite join_cons. rewrite !sapp_assoc. now apply (lists_block b (nl ++ nl)%string true); [| |exact gap2|].
Qed.
Lemma ms_reads_all texts l : Forall2 ms_reads texts l -> exists l', parse_all (parse_ddl parse_strict_ddl) Mssql texts = Ok l' /\ map without_text l' = l.
Proof.
  induction 1 as [|x d xs l (d' & P & E) _ (l' & Q & F)]; [now exists []|]. exists (d' :: l'). cbn [parse_all map]. rewrite P, Q. cbn. now rewrite E, F.
Qed.
Lemma forall_flat {A} (f : A -> list string) (g : A -> list ddl) l : (forall x, In x l -> Forall2 ms_reads (f x) (g x)) -> Forall2 ms_reads (concat (map f l)) (flat_map g l).
Proof. intros H. induction l as [|x l IH]; [constructor|]. cbn [map concat flat_map]. apply Forall2_app; [apply H; now left|]. apply IH. intros y I. apply H. now right. Qed.
Lemma flat_single {A B} (f : A -> B) l : flat_map (fun x => [f x]) l = map f l.
Proof. induction l as [|x l IH]; [reflexivity|]. cbn. now rewrite IH. Qed.
Theorem mq_export_read d : mq_readable d = true -> exists l, parse_file Mssql (mq_export d) = Ok l /\ map without_text l = mq_definitions d.
Proof.
  intros R. destruct (mq_readable_parts d R) as (T & V & G & _). unfold parse_file, parse_ddls, mq_export.
  assert (V' : forall v, In v (mqd_views d) -> view_ok (mqv_view v) = true /\ all_some mq_shown (sv_where (mqv_view v)) = true).
  { intros v I. specialize (V v I). unfold mq_view_ok in V. rewrite !andb_true_iff in V. tauto. }
  assert (X : forall t i, In t (mqd_tables d) -> mqt_index t = Some i -> mq_index_ok i = true).
  { intros t i I E. specialize (T t I). unfold mq_table_ok in T. rewrite !andb_true_iff in T. destruct T as [[_ T] _]. now rewrite E in T. }
  rewrite (lists_split (join (";" ++ nl ++ nl) (map (join (";" ++ nl)) (mq_blocks d))) (concat (mq_blocks d))); [|apply lists_blocks].
  - apply ms_reads_all. unfold mq_blocks, mq_definitions. rewrite !concat_app. repeat apply Forall2_app.
    + apply forall_flat. intros t I. unfold mq_table_statements, mq_table_definitions. constructor; [apply mq_table_reads; auto|].
      destruct (mqt_index t) as [i|] eqn:E; cbn [listed map]; constructor; [|constructor]. apply mq_index_reads; [auto|now apply (X t i)].
    + rewrite <- (flat_single (fun v => DView (mq_ideal_view v))). apply forall_flat. intros v I. constructor; [|constructor]. destruct (V' v I). now apply mq_view_reads.
    + rewrite <- (flat_single (fun t => DTrigger (mq_ideal_trigger t))). apply forall_flat. intros t I. constructor; [|constructor]. apply mq_trigger_reads; auto.
  - intros b I. unfold mq_blocks in I. rewrite !in_app_iff, !in_map_iff in I. destruct I as [(t & <- & I)|[(v & <- & I)|(t & <- & I)]]; (split; [discriminate|]).
    + unfold mq_table_statements. constructor; [apply table_plain_ms; auto|]. destruct (mqt_index t) as [i|] eqn:E; cbn [listed map]; constructor; [|constructor].
      apply index_plain_ms; [auto|now apply (X t i)].
    + constructor; [|constructor]. destruct (V' v I). now apply view_plain_ms.
    + constructor; [|constructor]. apply trigger_plain_ms; auto.
Qed.
Theorem ms_dump_read d text : mq_readable d = true -> ms_dump (mq_server d) text -> exists l, parse_file Mssql text = Ok l /\ map without_text l = mq_definitions d.
Proof. intros R D. rewrite (ms_dump_shown d text R D). now apply mq_export_read. Qed.
