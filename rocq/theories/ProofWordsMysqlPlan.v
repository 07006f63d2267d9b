(** The statements planned on MySQL, and their definitions put together. *)
From Coq Require Import String Ascii List ZArith Bool Lia.
From Verif Require Import GoStr GoStrFacts GoNum Ast Formatter Generator Keywords Lexer SqlAst SchemaParse Parser SchemaText SpecPlan SpecMysql SpecLexer SpecLayout SpecSql SpecShown SpecShownMysql SpecWordsMysql
  ProofOrder ProofSql ProofReadEx ProofPieces ProofReadColumn ProofReadTable ProofReadRest ProofPiecesMysql ProofReadMyColumn ProofReadMyTable ProofReadMyRest ProofReadMyText ProofReadMyWords ProofReadMyDatabase ProofWordsMysql SpecSql.
Import ListNotations.
Local Open Scope string_scope.
Local Open Scope list_scope.

(** ** Statements *)
Definition position_said (p : col_pos) : list (list my_piece) :=
  match p with PosNone => [] | PosFirst => [[MBare "FIRST"]] | PosAfter c => [[MWord "AFTER"]; [MName c]] end.
Lemma said_so text (W : list (list my_piece)) l : text = sentence (map spell W) -> Forall part W -> mwritten l -> flat_map mwords W = mwords l -> same_words Mysql text (spell l).
Proof.
  intros -> F L E. exists (mwords l). split; [|now apply mpieces_say]. rewrite <- spell_spoken, <- E, <- spoken_words. apply mpieces_say. apply part_written. now apply spoken_part.
Qed.
Lemma altering_next t how l : my_name t = true -> forallb keyword_ok how = true -> part l -> part (altering t how ++ l).
Proof.
  intros T H L. unfold altering. rewrite <- app_assoc.
  assert (N : part (flat_map (fun w => [MWord w; blank1]) how ++ l)).
  { induction how as [|w how IH]; [exact L|]. cbn [forallb] in H. apply andb_true_iff in H as [H1 H2]. specialize (IH H2). cbn [flat_map app].
    apply part_tight; [cbn; tauto|exact H1|]. now apply next_loose. }
  cbn [app]. parts.
Qed.
Lemma position_part p : position_ok p = true -> Forall part (position_said p) /\ next (at_position p) /\ flat_map mwords (position_said p) = mwords (at_position p).
Proof. destruct p; cbn [position_ok position_said at_position]; intros H; (split; [every; parts|split; [parts|reflexivity]]). Qed.
Lemma position_text p : position_words Mysql p = map spell (position_said p).
Proof. destruct p; cbn [position_words position_said map]; rewrite ?spell1; reflexivity. Qed.

Lemma some_is {A} (x y : A) : Some x = Some y -> y = x.
Proof. congruence. Qed.
Lemma planned_words e l text : my_words e l -> sql_of Mysql e = Some text -> same_words Mysql text (spell l).
Proof.
  intros W. destruct W as [t c k p T C P|t old c k p T O C P|t c T C|t k T K N|t k T K N|t k T K|t T|t f T F|t f T F|t T]; cbn [sql_of]; intros E.
  - rewrite (column_text_said c k true C) in E. apply some_is in E; subst text.
    destruct (position_part p P) as (P1 & P2 & P3).
    apply (said_so _ ([[MWord "ALTER"; blank1; MWord "TABLE"]; [MName t]; [MWord "ADD"; blank1; MWord "COLUMN"]; spoken (column_said c)] ++ position_said p)).
    + rewrite map_app. cbn [map app table_ref]. rewrite position_text, !spell1. reflexivity.
    + apply Forall_app. split; [|exact P1]. every; [parts|parts|parts|]. now apply spoken_part, column_said_part.
    + apply part_written. rewrite app_assoc. apply part_app; [|exact P2]. apply altering_next; [exact T|reflexivity|]. apply column_part. unfold sayable_column in C. rewrite !andb_true_iff in C. tauto.
    + rewrite flat_map_app, P3, !mwords_app. cbn [flat_map]. rewrite (column_said_words c C), app_nil_r, <- !app_assoc. reflexivity.
  - rewrite (column_text_said c k false C) in E. apply some_is in E; subst text.
    destruct (position_part p P) as (P1 & P2 & P3).
    apply (said_so _ ([[MWord "ALTER"; blank1; MWord "TABLE"]; [MName t]; [MWord "CHANGE"; blank1; MWord "COLUMN"]; [MName old]; spoken (column_said c)] ++ position_said p)).
    + rewrite map_app. cbn [map app table_ref]. rewrite position_text. rewrite !spell1. reflexivity.
    + apply Forall_app. split; [|exact P1]. every; [parts|parts|parts|parts|]. now apply spoken_part, column_said_part.
    + apply part_written. rewrite (app_assoc [MName old; blank1]), app_assoc. apply part_app; [|exact P2]. apply altering_next; [exact T|reflexivity|]. cbn [app].
      assert (H : part (shown_column c)) by (apply column_part; unfold sayable_column in C; rewrite !andb_true_iff in C; tauto). parts.
    + rewrite flat_map_app, P3, !mwords_app. cbn [flat_map]. rewrite (column_said_words c C), app_nil_r, <- !app_assoc. reflexivity.
  - apply some_is in E; subst text. apply (said_so _ [[MWord "ALTER"; blank1; MWord "TABLE"]; [MName t]; [MWord "DROP"; blank1; MWord "COLUMN"]; [MName c]]).
    + cbn [map]. rewrite !spell1. reflexivity.
    + every; parts.
    + apply part_written, altering_next; [exact T|reflexivity|parts].
    + reflexivity.
  - assert (Q : i_primary (my_ideal_key k) = false) by (unfold my_ideal_key; destruct (mk_kind k); [contradiction|reflexivity..]). rewrite Q in E. clear Q.
    rewrite (key_text_said t k K) in E. apply some_is in E; subst text. apply (said_so _ ([[MWord "ALTER"; blank1; MWord "TABLE"]; [MName t]; [MWord "ADD"]] ++ key_said k)).
    + rewrite map_app. cbn [map]. rewrite !spell1. reflexivity.
    + apply Forall_app. split; [every; parts|now apply key_said_part].
    + apply part_written, altering_next; [exact T|reflexivity|]. apply key_part. unfold sayable_key in K. rewrite !andb_true_iff in K. tauto.
    + rewrite flat_map_app, <- spoken_words, <- (spoken_words (key_said k)), (key_said_words k K), mwords_app. reflexivity.
  - assert (Q : i_primary (my_ideal_key k) = true) by (unfold my_ideal_key; rewrite N; reflexivity). rewrite Q in E. clear Q.
    rewrite (key_text_said t k K) in E. apply some_is in E; subst text. apply (said_so _ ([[MWord "ALTER"; blank1; MWord "TABLE"]; [MName t]; [MWord "ADD"]] ++ key_said k)).
    + rewrite map_app. cbn [map]. rewrite !spell1. reflexivity.
    + apply Forall_app. split; [every; parts|now apply key_said_part].
    + apply part_written, altering_next; [exact T|reflexivity|]. apply key_part. unfold sayable_key in K. rewrite !andb_true_iff in K. tauto.
    + rewrite flat_map_app, <- spoken_words, <- (spoken_words (key_said k)), (key_said_words k K), mwords_app. reflexivity.
  - apply some_is in E; subst text. apply (said_so _ [[MWord "ALTER"; blank1; MWord "TABLE"]; [MName t]; [MWord "DROP"; blank1; MWord "INDEX"]; [MName k]]).
    + cbn [map]. rewrite !spell1. reflexivity.
    + every; parts.
    + apply part_written, altering_next; [exact T|reflexivity|parts].
    + reflexivity.
  - apply some_is in E; subst text. apply (said_so _ [[MWord "ALTER"; blank1; MWord "TABLE"]; [MName t]; [MWord "DROP"; blank1; MWord "PRIMARY"; blank1; MWord "KEY"]]).
    + cbn [map]. rewrite !spell1. reflexivity.
    + every; parts.
    + apply part_written, altering_next; [exact T|reflexivity|parts].
    + reflexivity.
  - rewrite fk_text_said in E. apply some_is in E; subst text. apply (said_so _ ([[MWord "ALTER"; blank1; MWord "TABLE"]; [MName t]; [MWord "ADD"]] ++ fk_said f)).
    + rewrite map_app. cbn [map]. rewrite !spell1. reflexivity.
    + apply Forall_app. split; [every; parts|now apply fk_said_part].
    + apply part_written, altering_next; [exact T|reflexivity|]. now apply fk_part.
    + rewrite flat_map_app, <- spoken_words, <- (spoken_words (fk_said f)), (fk_said_words f), mwords_app. reflexivity.
  - apply some_is in E; subst text. apply (said_so _ [[MWord "ALTER"; blank1; MWord "TABLE"]; [MName t]; [MWord "DROP"; blank1; MWord "FOREIGN"; blank1; MWord "KEY"]; [MName f]]).
    + cbn [map]. rewrite !spell1. reflexivity.
    + every; parts.
    + apply part_written, altering_next; [exact T|reflexivity|parts].
    + reflexivity.
  - apply some_is in E; subst text. apply (said_so _ [[MWord "DROP"; blank1; MWord "TABLE"]; [MName t]]).
    + cbn [map]. rewrite !spell1. reflexivity.
    + every; parts.
    + apply part_written. parts.
    + reflexivity.
Qed.
Lemma plan_words desired current out st l : plan Mysql desired current = Ok out -> In st out -> my_words (s_eff st) l -> same_words Mysql (s_text st) (spell l).
Proof.
  intros P I W. pose proof (plan_says Mysql desired current out P) as F. rewrite Forall_forall in F. exact (planned_words _ _ _ W (F st I)).
Qed.

(** ** Definitions put together *)
Definition item_said (i : my_item) : list (list my_piece) :=
  match i with ItemColumn c => column_said c | ItemKey k => key_said k | ItemFk f => fk_said f end.
Definition item_shown (i : my_item) : list my_piece := match i with ItemColumn c => shown_column c | ItemKey k => shown_key k | ItemFk f => shown_fk f end.
Lemma item_part i : sayable_item i = true -> part (spoken (item_said i)).
Proof. intros H. apply spoken_part. destruct i; cbn [sayable_item item_said] in *; [now apply column_said_part|now apply key_said_part|now apply fk_said_part]. Qed.
Lemma item_words i : sayable_item i = true -> mwords (spoken (item_said i)) = mwords (item_shown i).
Proof. intros H. destruct i; cbn [sayable_item item_said item_shown] in *; [now apply column_said_words|now apply key_said_words|now apply fk_said_words]. Qed.
Lemma sapp_inj_r a b c : (a ++ c = b ++ c)%string -> a = b.
Proof.
  revert b. induction a as [|x a IH]; intros [|y b] H; cbn [String.append] in H.
  - reflexivity.
  - exfalso. apply (f_equal String.length) in H. cbn [String.length] in H. rewrite sapp_length in H. lia.
  - exfalso. apply (f_equal String.length) in H. cbn [String.length] in H. rewrite sapp_length in H. lia.
  - injection H as -> H. f_equal. now apply IH.
Qed.
Lemma sentence_app a b : a <> [] -> b <> [] -> sentence (a ++ b) = (sentence a ++ " " ++ sentence b)%string.
Proof.
  intros A B. induction a as [|x a IH]; [contradiction|]. destruct a as [|y a].
  - unfold sentence. cbn [app join]. destruct b; [contradiction|reflexivity].
  - unfold sentence in *. cbn [app join] in *. rewrite IH by discriminate. now rewrite !sapp_assoc.
Qed.
Lemma position_tail p : forall a, a <> [] -> sentence (a ++ position_words Mysql p) = (sentence a ++ spell (at_position p))%string.
Proof.
  intros a A. destruct p; cbn [position_words at_position].
  - now rewrite app_nil_r, sapp_nil_r.
  - now rewrite (sentence_app a) by (assumption || discriminate).
  - rewrite (sentence_app a) by (assumption || discriminate). rewrite !spell_cons. cbn [spell_piece blank1]. change (spell []) with ""%string. now rewrite sapp_nil_r.
Qed.
Lemma sent_text out desired current t i text : plan Mysql desired current = Ok out -> sayable_item i = true -> sent out t i text -> text = spell (spoken (item_said i)).
Proof.
  intros P S H. pose proof (plan_says Mysql desired current out P) as F. rewrite Forall_forall in F. destruct H as [c k p text I|c k old p text I|k text e E I|f text I]; specialize (F _ I); unfold ProofSql.says in F; cbn [s_eff s_text sayable_item item_said] in *.
  - cbn [sql_of] in F. rewrite (column_text_said c k true S) in F. apply some_is in F. symmetry in F.
    rewrite app_assoc, (position_tail p) in F by discriminate. rewrite <- !sapp_assoc in F. apply sapp_inj_r in F. cbn [app] in F. unfold sentence in F. cbn [join table_ref quoted] in F.
    rewrite !sapp_assoc in F. cbn [String.append] in F. repeat (injection F as F). symmetry. now repeat (apply sapp_inj_l in F; repeat (injection F as F)).
  - cbn [sql_of] in F. rewrite (column_text_said c k false S) in F. apply some_is in F. symmetry in F.
    rewrite app_assoc, (position_tail p) in F by discriminate. rewrite <- !sapp_assoc in F. apply sapp_inj_r in F. cbn [app] in F. unfold sentence in F. cbn [join table_ref quoted] in F.
    rewrite !sapp_assoc in F. cbn [String.append] in F. repeat (injection F as F). symmetry. now repeat (apply sapp_inj_l in F; repeat (injection F as F)).
  - assert (T : forall x, add_key Mysql t (my_ideal_key k) = Some ("ALTER TABLE `" ++ t ++ "` ADD " ++ x)%string -> x = spell (spoken (key_said k))).
    { intros x X. rewrite (key_text_said t k S) in X. apply some_is in X. symmetry in X.
      rewrite sentence_app in X by (unfold key_said; discriminate). rewrite <- spell_spoken in X. unfold sentence in X. cbn [join quoted] in X. rewrite !sapp_assoc in X. cbn [String.append] in X.
      repeat (injection X as X). symmetry. now repeat (apply sapp_inj_l in X; repeat (injection X as X)). }
    destruct E as [-> | ->]; cbn [sql_of] in F; destruct (i_primary (my_ideal_key k)); try discriminate F; now apply T.
  - cbn [sql_of] in F. rewrite fk_text_said in F. apply some_is in F. symmetry in F.
    change (sentence (["ALTER TABLE"; table_ref Mysql t; "ADD"] ++ map spell (fk_said f)) = ("ALTER TABLE `" ++ t ++ "` ADD " ++ text)%string) in F.
    rewrite sentence_app in F by (unfold fk_said; discriminate). rewrite <- spell_spoken in F. unfold sentence in F. cbn [join quoted table_ref] in F. rewrite !sapp_assoc in F. cbn [String.append] in F.
    repeat (injection F as F). symmetry. now repeat (apply sapp_inj_l in F; repeat (injection F as F)).
Qed.

Definition put_together (t : string) (l : list (list my_piece)) : list my_piece :=
  [MWord "CREATE"; blank1; MWord "TABLE"; blank1; MName t; blank1] ++ between (separated [comma_sign; blank1] l).
Lemma put_together_text t l : spell (put_together t l) = ("CREATE TABLE `" ++ t ++ "` (" ++ join ", " (map spell l) ++ ")")%string.
Proof.
  unfold put_together. rewrite spell_app, spell_between, (spell_separated ", " [comma_sign; blank1] _ eq_refl). rewrite !spell_cons. cbn [spell_piece blank1]. change (spell []) with ""%string.
  rewrite !sapp_assoc. cbn [String.append]. rewrite ?sapp_nil_r, ?sapp_assoc; reflexivity.
Qed.
Lemma items_shown t : map item_shown (my_items t) = shown_items t.
Proof. unfold my_items, shown_items. rewrite !map_app, !map_map. reflexivity. Qed.

Lemma definitions_read desired current out t l : plan Mysql desired current = Ok out -> my_name (my_table_name t) = true -> my_options t = [] ->
  forallb sayable_item (my_items t) = true -> Forall2 (sent out (my_table_name t)) (my_items t) l ->
  my_reads ("CREATE TABLE `" ++ my_table_name t ++ "` (" ++ join ", " l ++ ")") (CreateTable "" (with_columns (SpecMysql.number 0%Z (t_columns (my_ideal_table t))) (my_ideal_table t))).
Proof.
  intros P N O S F. rewrite forallb_forall in S.
  assert (L : l = map (fun i => spell (spoken (item_said i))) (my_items t)).
  { clear N O. induction F as [|i x L X E F IH]; [reflexivity|]. cbn [map]. f_equal; [apply (sent_text out desired current (my_table_name t)); auto; apply S; now left|].
    apply IH. intros y Y. apply S. now right. }
  assert (K : my_table_ok t = true).
  { unfold my_table_ok. rewrite O. change (forallb my_option_ok []) with true. rewrite N, andb_true_r, !andb_true_iff, !forallb_forall. unfold my_items in S. repeat split; intros x X.
    - specialize (S (ItemColumn x)). cbn [sayable_item] in S. unfold sayable_column in S. rewrite !in_app_iff, !andb_true_iff in S. destruct S as [[[[S _] _] _] _]; [|exact S]. left. now apply in_map.
    - specialize (S (ItemKey x)). cbn [sayable_item] in S. unfold sayable_key in S. rewrite !in_app_iff, !andb_true_iff in S. destruct S as [S _]; [|exact S]. right. left. now apply in_map.
    - specialize (S (ItemFk x)). cbn [sayable_item] in S. rewrite !in_app_iff in S. apply S. right. right. now apply in_map. }
  pose proof (my_table_reads t K) as (d & R & E).
  assert (M : in_ok without_text (parse_ddl parse_strict_ddl Mysql ("CREATE TABLE `" ++ my_table_name t ++ "` (" ++ join ", " l ++ ")")%string) = in_ok without_text (parse_ddl parse_strict_ddl Mysql (show_create_table t))).
  { assert (T : ("CREATE TABLE `" ++ my_table_name t ++ "` (" ++ join ", " l ++ ")")%string = spell (put_together (my_table_name t) (map (fun i => spoken (item_said i)) (my_items t)))).
    { rewrite put_together_text, L, map_map. reflexivity. }
    rewrite T. apply (ProofRun.same_meaning _ _ _ (mwords (shown_table t))); [|now apply mpieces_say, part_written, table_part].
    replace (mwords (shown_table t)) with (mwords (put_together (my_table_name t) (map (fun i => spoken (item_said i)) (my_items t)))).
    - apply mpieces_say, part_written. unfold put_together. cbn [app].
      assert (B : part (separated [comma_sign; blank1] (map (fun i => spoken (item_said i)) (my_items t)))).
      { apply part_separated; [exact next_comma_blank|]. intros x X. apply in_map_iff in X as (i & <- & I). apply item_part. now apply S. }
      apply next_between in B. parts.
    - unfold put_together, shown_table. rewrite O. cbn [flat_map]. rewrite !mwords_app, mwords_between, <- items_shown.
      rewrite (separated_words [comma_sign; blank1] [comma_sign; line_break] (map (fun i => spoken (item_said i)) (my_items t)) (map item_shown (my_items t))).
      + cbn [app mwords flat_map mtoken blank1 line_break]. rewrite ?app_nil_r. reflexivity.
      + reflexivity.
      + clear - S. induction (my_items t) as [|i r IH]; constructor; [apply item_words, S; now left|]. apply IH. intros x X. apply S. now right. }
  rewrite R in M. cbn [in_ok] in M. destruct (parse_ddl parse_strict_ddl Mysql ("CREATE TABLE `" ++ my_table_name t ++ "` (" ++ join ", " l ++ ")")%string) as [d'| | |] eqn:D; try discriminate M.
  cbn [in_ok] in M. exists d'. split; [exact D|]. injection M as M. now rewrite M.
Qed.
