(** The tokens of the texts of the MySQL export. *)
From Coq Require Import String Ascii List ZArith Bool Lia.
From Verif Require Import GoStr GoStrFacts Ast Formatter Keywords Lexer SqlAst SchemaParse SpecPlan SpecLexer SpecLayout Catalog CatalogMysql AdapterSqlite AdapterMysql SpecShown SpecShownMysql
  ProofOrder ProofReadEx ProofReadback ProofPieces ProofReadColumn ProofReadTable ProofReadRest ProofPiecesMysql ProofReadMyColumn ProofReadMyTable ProofReadMyRest ProofReadMyText.
Import ListNotations.
Local Open Scope string_scope.
Local Open Scope list_scope.

Lemma mwords_cons p l : mwords (p :: l) = mtoken p ++ mwords l.
Proof. reflexivity. Qed.
Lemma mwords_flat {A} (f : A -> list my_piece) l : mwords (flat_map f l) = flat_map (fun x => mwords (f x)) l.
Proof. induction l as [|x l IH]; [reflexivity|]. cbn [flat_map]. now rewrite mwords_app, IH. Qed.
Lemma mwords_if {A} (f : A -> list my_piece) o : mwords (shown_if f o) = option_tokens (fun x => mwords (f x)) o.
Proof. now destruct o. Qed.
Lemma mwords_between l : mwords (between l) = lpar :: mwords l ++ [rpar].
Proof. unfold between. rewrite mwords_cons, mwords_app. reflexivity. Qed.
Lemma mwords_separated sep x l : mwords sep = [comma] -> mwords (separated sep (x :: l)) = mwords x ++ flat_map (fun y => comma :: mwords y) l.
Proof.
  intros S. revert x. induction l as [|y l IH]; intros x; cbn [separated flat_map] in *; rewrite mwords_app; [reflexivity|]. rewrite mwords_app, S, IH. reflexivity.
Qed.
Lemma flat_map_map {A B C} (f : B -> list C) (g : A -> B) l : flat_map f (map g l) = flat_map (fun x => f (g x)) l.
Proof. induction l as [|x l IH]; [reflexivity|]. cbn. now rewrite IH. Qed.

Lemma flat_map_ext_in {A B} (f g : A -> list B) l : (forall x, In x l -> f x = g x) -> flat_map f l = flat_map g l.
Proof. induction l as [|x l IH]; [reflexivity|]. intros H. cbn. rewrite H by (now left). now rewrite IH by (intros y Y; apply H; now right). Qed.

Lemma type_word_token t : my_type_ok t = true -> keyword_token (my_type_word t) = type_token (my_type_word t).
Proof.
  intros H. assert (A : forall l w, forallb (fun w => match keyword_token w, type_token w with (KTok a, b), (KTok c, d) => String.eqb a c && String.eqb b d | _, _ => false end) l = true -> mem w l = true -> keyword_token w = type_token w).
  { intros l w F M. apply mem_in in M. rewrite forallb_forall in F. specialize (F w M). destruct (keyword_token w) as [k b], (type_token w) as [k' d]. destruct k, k'; try discriminate.
    apply andb_true_iff in F as [E F]. apply String.eqb_eq in E. apply String.eqb_eq in F. now subst. }
  destruct t; cbn [my_type_ok my_type_word] in *; rewrite ?andb_true_iff in H.
  - now apply (A integer_types).
  - now apply (A ["double"; "float"]).
  - now apply (A ["decimal"]).
  - now apply (A ["time"; "timestamp"; "datetime"]).
  - now apply (A plain_types).
  - now apply (A ["char"; "varchar"]).
  - now apply (A ["binary"; "varbinary"]).
  - now apply (A ["tinytext"; "text"; "mediumtext"; "longtext"]).
  - now apply (A ["enum"; "set"]).
Qed.
Lemma charset_words cs co : mwords (shown_charset cs co) = charset_tokens cs co.
Proof. unfold shown_charset, charset_tokens. rewrite mwords_app, !mwords_if. destruct cs, co; reflexivity. Qed.
Lemma enum_words_are x l : mwords (between (separated [comma_sign] (map (fun s => [MText s]) (x :: l)))) = lpar :: text_token x :: enum_rest l ++ [rpar].
Proof.
  rewrite mwords_between. cbn [map]. rewrite mwords_separated by reflexivity. cbn [app]. rewrite flat_map_map. unfold enum_rest. reflexivity.
Qed.
Lemma type_words t : my_type_ok t = true -> mwords (shown_type t) = my_type_tokens t.
Proof.
  intros H. unfold shown_type, my_type_tokens. rewrite mwords_cons. cbn [mtoken app]. rewrite (type_word_token t H). f_equal. clear H.
  destruct t; rewrite ?mwords_app, ?mwords_if, ?charset_words.
  - destruct n, unsigned; reflexivity.
  - destruct n as [[]|], unsigned; reflexivity.
  - destruct unsigned; reflexivity.
  - now destruct n.
  - reflexivity.
  - reflexivity.
  - reflexivity.
  - reflexivity.
  - rewrite enum_words_are. cbn [app]. now rewrite <- app_assoc.
Qed.
Lemma column_words_are c : my_column_ok c = true -> mwords (shown_column c) = my_column_words c.
Proof.
  unfold my_column_ok. intros K. rewrite !andb_true_iff in K. destruct K as [[[[Kn Kt] Kd] Ku] Kc].
  unfold shown_column, my_column_words, my_column_tokens. rewrite !mwords_app, !mwords_if, (type_words _ Kt). cbn [mwords flat_map mtoken app blank1]. f_equal. f_equal. f_equal; [|f_equal; [|f_equal; [|f_equal]]].
  - destruct (mc_null c) as [[]|]; reflexivity.
  - destruct (mc_default c) as [[|s|z|[k|]|s]|]; reflexivity.
  - destruct (mc_on_update c) as [[k|]|]; reflexivity.
  - destruct (mc_auto c); reflexivity.
Qed.
Lemma key_column_words c : mwords (shown_key_column c) = name_token (kc_name c) :: key_column_tail c.
Proof. unfold shown_key_column, key_column_tail. rewrite mwords_cons, mwords_app, mwords_if. destruct c as [n [z|] []]; reflexivity. Qed.
Lemma key_words k : mwords (shown_key k) = my_key_tokens k.
Proof.
  unfold shown_key, my_key_tokens, kind_name. rewrite !mwords_app, mwords_between, (mwords_flat shown_key_option). unfold mk_columns. cbn [map]. rewrite mwords_separated by reflexivity.
  rewrite flat_map_map, key_column_words.
  replace (flat_map (fun x => mwords (shown_key_option x)) (mk_options k)) with (flat_map key_option_tokens (mk_options k)) by (apply flat_map_ext; intros []; reflexivity).
  unfold more_key_columns. rewrite (flat_map_ext (fun x => comma :: mwords (shown_key_column x)) (fun k => comma :: name_token (kc_name k) :: key_column_tail k))
    by (intros c; now rewrite key_column_words).
  destruct (mk_kind k); cbn [kind_words flat_map app kind_tokens]; rewrite <- ?app_assoc; cbn [app]; rewrite <- ?app_assoc; reflexivity.
Qed.
Lemma name_list_words x l : mwords (name_list x l) = lpar :: name_token x :: names_rest l ++ [rpar].
Proof. unfold name_list. rewrite mwords_between. cbn [map]. rewrite mwords_separated by reflexivity. cbn [app]. rewrite flat_map_map. reflexivity. Qed.
Lemma fk_words f : mwords (shown_fk f) = my_fk_tokens f.
Proof.
  unfold shown_fk, my_fk_tokens. rewrite !mwords_app, !name_list_words, !mwords_if. cbn [app mwords flat_map mtoken blank1].
  replace (option_tokens (fun x => mwords (keywords_text ("ON" :: "DELETE" :: action_text x))) (mf_delete f)) with (option_tokens on_delete_tokens (mf_delete f)) by (destruct (mf_delete f) as [[]|]; reflexivity).
  replace (option_tokens (fun x => mwords (keywords_text ("ON" :: "UPDATE" :: action_text x))) (mf_update f)) with (option_tokens on_update_tokens (mf_update f)) by (destruct (mf_update f) as [[]|]; reflexivity).
  rewrite <- !app_assoc. cbn [app]. rewrite <- ?app_assoc. reflexivity.
Qed.
Lemma option_words_are o : my_option_ok o = true -> mwords (shown_option o) = my_option_tokens o.
Proof.
  unfold my_option_ok, shown_option, my_option_tokens. intros K. apply andb_true_iff in K as [K _]. apply mem_in in K. rewrite mwords_cons, mwords_app.
  replace (mwords [MSign "="; match mo_value o with OWord w => MBare w | ONumber z => MNum z | OText s => MText s end]) with [equals; option_value_token (mo_value o)] by (destruct (mo_value o); reflexivity).
  cbn [mtoken app blank1]. f_equal. cbv [option_names In] in K. repeat (destruct K as [<-|K]); try contradiction; reflexivity.
Qed.
Lemma table_words t : my_table_ok t = true -> mwords (shown_table t) = my_table_tokens t.
Proof.
  unfold my_table_ok. intros K. rewrite !andb_true_iff in K. destruct K as [[[[Kn Kc] Kk] Kf] Ko]. rewrite forallb_forall in Kc, Kk, Kf, Ko.
  unfold shown_table, my_table_tokens. rewrite !mwords_app, mwords_flat.
  rewrite (flat_map_ext_in (fun x => mwords (shown_option x)) my_option_tokens) by (intros o O; apply option_words_are; auto).
  unfold shown_items. cbn [map app]. rewrite mwords_separated by reflexivity. rewrite !flat_map_app, !flat_map_map.
  rewrite (column_words_are (my_first t)) by (apply Kc; now left).
  rewrite (flat_map_ext_in (fun x => comma :: mwords (shown_column x)) (fun c => comma :: my_column_words c)) by (intros c C; rewrite column_words_are; [reflexivity|apply Kc; now right]).
  rewrite (flat_map_ext (fun x => comma :: mwords (shown_key x)) (fun c => comma :: my_key_tokens c)) by (intros c; now rewrite key_words).
  rewrite (flat_map_ext (fun x => comma :: mwords (shown_fk x)) (fun c => comma :: my_fk_tokens c)) by (intros c; now rewrite fk_words).
  cbn [app mwords flat_map mtoken blank1 line_break]. unfold my_more_columns, my_more_keys, my_more_fks, option_rest. rewrite <- !app_assoc. reflexivity.
Qed.

(** ** Views and triggers *)
Definition view_pieces (v : my_view) : list my_piece :=
  [MWord "CREATE"; blank1; MWord "VIEW"; blank1; MBare (mv_name v); blank1; MWord "AS"; blank1] ++ shown_view v.
Definition trigger_pieces (t : shown_trigger) : list my_piece :=
  [MWord "CREATE"; blank1; MWord "TRIGGER"; blank1; MBare (mt_name t); blank1; MWord (timing_word (mt_timing t)); blank1; MWord (event_word (mt_event t)); blank1; MWord "ON"; blank1;
   MBare (mt_table t); blank1; MWord "FOR"; blank1; MWord "EACH"; blank1; MWord "ROW"; blank1] ++ shown_insert (mt_insert t).
Lemma simple_word n : simple_name n = true -> my_word n = true.
Proof.
  intros H. pose proof (simple_lower n H) as E. unfold my_word. rewrite E. unfold simple_name in H. rewrite !andb_true_iff in *. destruct H as [[[H1 H2] H3] H4].
  assert (A : forall c, name_start c = true -> word_start c = true) by (intros [[] [] [] [] [] [] [] []]; vm_compute; congruence).
  assert (B : forall c, name_char c = true -> word_part c = true) by (intros [[] [] [] [] [] [] [] []]; vm_compute; congruence).
  repeat split; auto.
  - destruct n; [discriminate|auto].
  - rewrite all_chars_in in *. auto.
Qed.
Lemma simple_back n : simple_name n = true -> my_name n = true.
Proof.
  intros H. unfold my_name. unfold simple_name in H. rewrite !andb_true_iff in *. destruct H as [[[H1 H2] H3] H4].
  assert (B : forall c, name_char c = true -> back_char c = true) by (intros [[] [] [] [] [] [] [] []]; vm_compute; congruence).
  split; [now destruct n|]. rewrite all_chars_in in *. auto.
Qed.
Lemma view_part v : my_view_ok v = true -> part (view_pieces v).
Proof.
  unfold my_view_ok. intros K. rewrite !andb_true_iff in K. destruct K as [[[K1 K2] K3] K5].
  pose proof (simple_word _ K1) as N. pose proof (simple_back _ K2) as S. pose proof (simple_back _ K3) as T.
  unfold view_pieces, shown_view.
  assert (E : next [blank1; MWord "from"; blank1; MName (mv_schema v); MDot; MName (mv_table v)]) by parts.
  assert (L : part (separated [comma_sign] (map (shown_view_column v) (mv_first v :: mv_columns v)))).
  { apply part_separated; [exact next_comma|]. intros x X. apply in_map_iff in X as (c & <- & C). rewrite forallb_forall in K5. specialize (K5 c C). apply andb_true_iff in K5 as [A B].
    apply simple_back in A. apply simple_back in B. unfold shown_view_column. parts. }
  pose proof (part_app _ _ L E) as P. parts.
Qed.
Lemma given_part g : my_given_ok g = true -> part (shown_given g).
Proof.
  destruct g as [r c|z]; cbn [my_given_ok shown_given]; intros H.
  - apply simple_word in H. apply part_dot; [reflexivity|destruct r; reflexivity|reflexivity|parts].
  - apply number_wf in H. parts.
Qed.
Lemma trigger_part t : my_trigger_ok t = true -> part (trigger_pieces t).
Proof.
  unfold my_trigger_ok. intros K. rewrite !andb_true_iff in K. destruct K as [[[[K1 K2] K3] K4] K5]. rewrite forallb_forall in K4, K5.
  pose proof (simple_word _ K1) as N. pose proof (simple_word _ K2) as S. pose proof (simple_word _ K3) as T.
  unfold trigger_pieces, shown_insert.
  assert (V : next (between (separated [comma_sign; blank1] (map shown_given (mi_value (mt_insert t) :: mi_values (mt_insert t)))))).
  { apply next_between, part_separated; [exact next_comma_blank|]. intros x X. apply in_map_iff in X as (g & <- & G). apply given_part. auto. }
  assert (C : next (between (separated [comma_sign; blank1] (map (fun c => [MBare c]) (mi_column (mt_insert t) :: mi_columns (mt_insert t)))))).
  { apply next_between, part_separated; [exact next_comma_blank|]. intros x X. apply in_map_iff in X as (c & <- & I). pose proof (simple_word _ (K4 c I)). parts. }
  assert (W : next ([blank1; MWord "values"; blank1] ++ between (separated [comma_sign; blank1] (map shown_given (mi_value (mt_insert t) :: mi_values (mt_insert t)))))) by parts.
  pose proof (next_app _ _ C W) as P. clear V C W.
  cbn [app] in P |- *. revert P. match goal with |- next ?X -> _ => generalize X end. intros X P.
  assert (A : mwf (MWord (timing_word (mt_timing t))) = true) by (destruct (mt_timing t); reflexivity).
  assert (B : mwf (MWord (event_word (mt_event t))) = true) by (destruct (mt_event t); reflexivity). parts.
Qed.
Lemma view_words v : mwords (view_pieces v) = my_view_tokens v.
Proof.
  unfold view_pieces, shown_view, my_view_tokens. rewrite !mwords_app. cbn [map]. rewrite mwords_separated by reflexivity. rewrite flat_map_map.
  cbn [app mwords flat_map mtoken blank1]. rewrite <- ?app_assoc. reflexivity.
Qed.
Lemma given_words g : mwords (shown_given g) = given_tokens g.
Proof. now destruct g. Qed.
Lemma trigger_words t : mwords (trigger_pieces t) = my_trigger_tokens t.
Proof.
  unfold trigger_pieces, shown_insert, my_trigger_tokens. rewrite !mwords_app, !mwords_between. cbn [map]. rewrite !mwords_separated by reflexivity. rewrite !flat_map_map, given_words.
  rewrite (flat_map_ext (fun x => comma :: mwords (shown_given x)) (fun g => comma :: given_tokens g)) by (intros g; now rewrite given_words).
  replace (mwords [MWord "CREATE"; blank1; MWord "TRIGGER"; blank1; MBare (mt_name t); blank1; MWord (timing_word (mt_timing t)); blank1; MWord (event_word (mt_event t)); blank1; MWord "ON"; blank1;
   MBare (mt_table t); blank1; MWord "FOR"; blank1; MWord "EACH"; blank1; MWord "ROW"; blank1]) with
    [T "CREATE" "create"; T "TRIGGER" "trigger"; name_token (mt_name t); timing_token (mt_timing t); event_token (mt_event t); T "ON" "on"; name_token (mt_table t); T "FOR" "for"; T "EACH" "each"; T "ROW" "row"]
    by (destruct (mt_timing t), (mt_event t); reflexivity).
  cbn [app mwords flat_map mtoken blank1]. rewrite <- ?app_assoc. cbn [app]. rewrite <- ?app_assoc. reflexivity.
Qed.
Lemma view_text v : my_view_text (mv_name v) (view_definition v) = spell (view_pieces v).
Proof. unfold my_view_text, view_definition, view_pieces. rewrite spell_app. cbn [spell fold_right spell_piece blank1]. rewrite ?sapp_nil_r, ?sapp_assoc. reflexivity. Qed.
Lemma trigger_text t : my_trigger_text (mkMyTrigger (mt_name t) (event_word (mt_event t)) (mt_table t) (trigger_statement t) (timing_word (mt_timing t))) = (spell (trigger_pieces t) ++ ";")%string.
Proof.
  unfold my_trigger_text, trigger_statement, trigger_pieces. cbn [Catalog.my_name Catalog.my_timing Catalog.my_event Catalog.my_table Catalog.my_statement]. rewrite spell_app. cbn [spell fold_right spell_piece blank1].
  rewrite ?sapp_nil_r, ?sapp_assoc. reflexivity.
Qed.
