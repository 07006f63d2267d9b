(** What is planned on MySQL is said in MySQL's words. *)
From Coq Require Import String Ascii List ZArith Bool Lia.
From Verif Require Import GoStr GoStrFacts GoNum Ast Formatter Generator Keywords Lexer SqlAst SchemaParse Parser SchemaText SpecPlan SpecMysql SpecLexer SpecLayout SpecSql SpecShown SpecShownMysql SpecWordsMysql
  ProofOrder ProofSql ProofReadEx ProofPieces ProofReadColumn ProofReadTable ProofReadRest ProofPiecesMysql ProofReadMyColumn ProofReadMyTable ProofReadMyRest ProofReadMyText ProofReadMyWords ProofReadMyDatabase SpecSql.
Import ListNotations.
Local Open Scope string_scope.
Local Open Scope list_scope.

(** ** Sentences of pieces *)
Definition spoken (W : list (list my_piece)) : list my_piece := separated [blank1] W.
Lemma spell_separated s sep W : spell sep = s -> spell (separated sep W) = join s (map spell W).
Proof.
  intros <-. induction W as [|x W IH]; [reflexivity|]. cbn [separated map]. destruct W as [|y W]; [now rewrite app_nil_r|].
  rewrite !spell_app, IH. reflexivity.
Qed.
Lemma spell_spoken W : spell (spoken W) = sentence (map spell W).
Proof. now apply spell_separated. Qed.
Lemma next_blank m : part m -> next ([blank1] ++ m).
Proof. intros P. now apply next_loose. Qed.
Lemma spoken_part W : Forall part W -> part (spoken W).
Proof. intros F. apply part_separated; [exact next_blank|]. now apply Forall_forall. Qed.
Lemma spoken_words W : mwords (spoken W) = flat_map mwords W.
Proof.
  unfold spoken. induction W as [|x W IH]; [reflexivity|]. cbn [separated flat_map]. rewrite mwords_app. destruct W as [|y W]; [reflexivity|].
  rewrite mwords_app, IH. reflexivity.
Qed.
Lemma spell_between l : spell (between l) = ("(" ++ spell l ++ ")")%string.
Proof. unfold between, spell. cbn [fold_right spell_piece]. fold (spell (l ++ [MSign ")"])). rewrite spell_app. reflexivity. Qed.

Lemma plain_escaped s : plain_text s = true -> my_escaped s = s.
Proof.
  unfold plain_text. induction s as [|c s IH]; [reflexivity|]. cbn [all_chars my_escaped]. intros H. apply andb_true_iff in H as [H1 H2]. rewrite (IH H2).
  unfold plain_char in H1. apply negb_true_iff in H1. cbn [existsb] in H1. rewrite !orb_false_iff in H1. destruct H1 as (-> & -> & -> & -> & -> & _). reflexivity.
Qed.

(** ** Columns *)
Definition numbers_said (l : list Z) : list my_piece := between (separated [comma_sign; blank1] (map (fun z => [MNum z]) l)).
Definition texts_said (l : list string) : list my_piece := between (separated [comma_sign; blank1] (map (fun s => [MText s]) l)).
Definition type_said (t : my_type) : list my_piece :=
  MWord (my_type_word t) ::
  match t with
  | MyInteger _ n _ | MyTime _ n => shown_if (fun n => numbers_said [n]) n
  | MyReal _ n _ => shown_if (fun p => numbers_said [fst p; snd p]) n
  | MyDecimal p s _ => numbers_said [p; s]
  | MyChars _ n _ _ | MyBytes _ n => numbers_said [n]
  | MyPlain _ | MyTexts _ _ _ => []
  | MyEnum _ x l _ _ => texts_said (x :: l)
  end.
Definition type_rest (t : my_type) : list (list my_piece) :=
  let chars cs co := match cs with Some c => [[MWord "CHARACTER"; blank1; MWord "SET"]; [MBare c]] | None => [] end ++
                     match co with Some c => [[MWord "COLLATE"]; [MBare c]] | None => [] end in
  match t with
  | MyInteger _ _ true | MyReal _ _ true | MyDecimal _ _ true => [[MWord "UNSIGNED"]]
  | MyChars _ _ cs co | MyTexts _ cs co | MyEnum _ _ _ cs co => chars cs co
  | _ => []
  end.
Definition now_said (n : option Z) : list my_piece := MWord "current_timestamp" :: shown_if one_number n.
Definition default_said (d : my_default) : list my_piece :=
  [MWord "DEFAULT"; blank1] ++ match d with MyNull => [MWord "null"] | MyText s => [MText s] | MyNumber z => [MNum z] | MyNow n => now_said n | MyBits s => [MBits s] end.
Definition null_said (o : option bool) : list (list my_piece) :=
  match o with Some true => [[MWord "NOT"; blank1; MWord "NULL"]] | Some false => [[MWord "NULL"]] | None => [] end.
Definition column_said (c : my_column) : list (list my_piece) :=
  [[MName (mc_name c)]; type_said (mc_type c)] ++ type_rest (mc_type c) ++ null_said (mc_null c) ++
  match mc_default c with Some d => [default_said d] | None => [] end ++
  (if mc_auto c then [[MWord "AUTO_INCREMENT"]] else []) ++
  match mc_on_update c with Some n => [[MWord "ON"; blank1; MWord "UPDATE"]; now_said n] | None => [] end.

Lemma now_said_part n : all_opt my_number n = true -> part (now_said n).
Proof. intros H. unfold now_said. apply part_tight; [cbn; tauto|vm_compute; reflexivity|]. apply next_if. intros x X. apply one_number_next. eapply opt_all; eauto. Qed.
Lemma numbers_said_next l : forallb my_number l = true -> next (numbers_said l).
Proof.
  intros H. unfold numbers_said. apply next_between, part_separated; [exact next_comma_blank|]. intros x X. apply in_map_iff in X as (z & <- & Z). rewrite forallb_forall in H.
  pose proof (number_wf _ (H z Z)). parts.
Qed.
Lemma type_said_part t : my_type_ok t = true -> part (type_said t).
Proof.
  intros H. unfold type_said. assert (W : mwf (MWord (my_type_word t)) = true).
  { destruct t; cbn [my_type_ok my_type_word] in *; rewrite ?andb_true_iff in H.
    - destruct H as [W _]. type_word W.
    - destruct H as [W _]. type_word W.
    - vm_compute. reflexivity.
    - destruct H as [W _]. type_word W.
    - type_word H.
    - destruct H as [[[W _] _] _]. type_word W.
    - destruct H as [W _]. type_word W.
    - destruct H as [[W _] _]. type_word W.
    - destruct H as [[[W _] _] _]. type_word W. }
  apply part_tight; [cbn; tauto|exact W|]. clear W. destruct t; cbn [my_type_ok] in *; rewrite ?andb_true_iff in H; try exact next_nil.
  - apply next_if. intros x X. apply numbers_said_next. cbn [forallb]. now rewrite (opt_all _ _ _ (proj2 H) X).
  - apply next_if. intros x X. apply numbers_said_next. cbn [forallb]. pose proof (opt_all _ _ _ (proj2 H) X) as K. cbv beta in K. apply andb_true_iff in K as [-> ->]. reflexivity.
  - apply numbers_said_next. cbn [forallb]. destruct H as [-> ->]. reflexivity.
  - apply next_if. intros x X. apply numbers_said_next. cbn [forallb]. now rewrite (opt_all _ _ _ (proj2 H) X).
  - apply numbers_said_next. cbn [forallb]. destruct H as [[[_ ->] _] _]. reflexivity.
  - apply numbers_said_next. cbn [forallb]. destruct H as [_ ->]. reflexivity.
  - apply next_between, part_separated; [exact next_comma_blank|]. intros x X. apply in_map_iff in X as (s & <- & _). parts.
Qed.
Ltac every := repeat first [apply Forall_nil | apply Forall_cons].
Lemma Forall_one {A} (P : A -> Prop) x : P x -> Forall P [x].
Proof. now constructor. Qed.
Lemma word_said w : my_word w = true -> part [MBare w].
Proof. intros H. parts. Qed.
Lemma chars_said cs co : all_opt my_word cs = true -> all_opt my_word co = true ->
  Forall part (match cs with Some c => [[MWord "CHARACTER"; blank1; MWord "SET"]; [MBare c]] | None => [] end ++
               match co with Some c => [[MWord "COLLATE"]; [MBare c]] | None => [] end).
Proof.
  intros A B. apply Forall_app. split; [destruct cs as [c|]|destruct co as [c|]]; cbn [all_opt] in *; every; try parts; now apply word_said.
Qed.
Lemma type_rest_part t : my_type_ok t = true -> Forall part (type_rest t).
Proof.
  intros H. destruct t; cbn [my_type_ok type_rest] in *; rewrite ?andb_true_iff in H; try destruct unsigned; every; try parts; apply chars_said; tauto.
Qed.
Lemma column_said_part c : sayable_column c = true -> Forall part (column_said c).
Proof.
  unfold sayable_column, my_column_ok. rewrite !andb_true_iff. intros [[[[[[[[Kn Kt] Kd] Ku] Kc] St] Sd] _] _]. unfold column_said.
  apply Forall_app. split; [every; [parts|now apply type_said_part]|]. apply Forall_app. split; [now apply type_rest_part|].
  apply Forall_app. split; [destruct (mc_null c) as [[]|]; every; parts|]. apply Forall_app. split; [|apply Forall_app; split].
  - destruct (mc_default c) as [d|]; [|constructor]. apply Forall_one. cbn [all_opt] in Kd. unfold default_said. cbn [app].
    apply part_tight; [cbn; tauto|vm_compute; reflexivity|]. apply next_loose; [reflexivity|reflexivity|].
    destruct d as [|s|z|n|s]; cbn [my_default_ok] in Kd; [parts|parts|apply number_wf in Kd; parts|now apply now_said_part|]. apply part_tight; [cbn; tauto|exact Kd|exact next_nil].
  - destruct (mc_auto c); every; parts.
  - destruct (mc_on_update c) as [n|]; [|constructor]. constructor; [parts|]. apply Forall_one. now apply now_said_part.
Qed.

(** The text. *)
Definition column_string (c : my_column) : string := spell (spoken (column_said c)).
Lemma spell_numbers l : spell (numbers_said l) = parens (join ", " (map show_Z l)).
Proof. unfold numbers_said, parens. rewrite spell_between, (spell_separated ", " [comma_sign; blank1] _ eq_refl), map_map. do 3 f_equal. apply map_ext. intros z. unfold spell. cbn. apply sapp_nil_r. Qed.
Lemma spell_texts l : forallb plain_text l = true -> spell (texts_said l) = parens (join ", " (map (fun s => "'" ++ s ++ "'")%string l)).
Proof.
  intros H. unfold texts_said, parens. rewrite spell_between, (spell_separated ", " [comma_sign; blank1] _ eq_refl), map_map. do 3 f_equal. apply map_ext_in. intros s S. rewrite forallb_forall in H.
  unfold spell. cbn [fold_right spell_piece]. rewrite (plain_escaped s (H s S)). apply sapp_nil_r.
Qed.
Lemma spell1 p : spell [p] = spell_piece p.
Proof. unfold spell. cbn [fold_right]. apply sapp_nil_r. Qed.
Lemma spell_cons p l : spell (p :: l) = (spell_piece p ++ spell l)%string.
Proof. reflexivity. Qed.
Lemma not_enum w l : mem w l = true -> mem "enum" l = false -> String.eqb w "enum" = false.
Proof. intros A B. destruct (String.eqb_spec w "enum") as [->|]; [congruence|reflexivity]. Qed.
Lemma type_said_text c : my_type_ok (mc_type c) = true -> sayable_type (mc_type c) = true -> spell (type_said (mc_type c)) = type_text (my_ideal_column c).
Proof.
  intros K S. unfold type_said, type_text, my_ideal_column. rewrite spell_cons. cbn [spell_piece].
  destruct (mc_type c) as [w n u|w n u|p s u|w n|w|w n cs co|w n|w cs co|w x l cs co]; cbn [my_type_word c_length c_scale c_type c_enum c_array option_map] in *;
    try (destruct n as [n|]; cbn [shown_if option_map]); rewrite ?spell_numbers, ?sapp_nil_r; cbn [map]; try reflexivity.
  all: cbn [my_type_ok sayable_type] in K, S; rewrite ?andb_true_iff in K.
  - rewrite (not_enum w integer_types (proj1 K) eq_refl). cbn. now rewrite ?sapp_nil_r.
  - rewrite (not_enum w ["double"; "float"] (proj1 K) eq_refl). cbn. now rewrite ?sapp_nil_r.
  - rewrite (not_enum w ["time"; "timestamp"; "datetime"] (proj1 K) eq_refl). cbn. now rewrite ?sapp_nil_r.
  - rewrite (not_enum w plain_types K eq_refl). cbn. now rewrite ?sapp_nil_r.
  - rewrite (not_enum w ["tinytext"; "text"; "mediumtext"; "longtext"] (proj1 (proj1 K)) eq_refl). cbn. now rewrite ?sapp_nil_r.
  - apply andb_true_iff in S as [S1 S2]. rewrite S1. now rewrite (spell_texts _ S2).
Qed.
Lemma word_given (w : string) l : my_word w = true -> given w l = l.
Proof. intros H. unfold given. destruct w; [discriminate H|reflexivity]. Qed.
Lemma now_text n : spell (now_said n) = v_raw (now_value n).
Proof. destruct n as [n|]; [|reflexivity]. unfold now_said, one_number. cbn [shown_if]. rewrite spell_cons, spell_between, spell1. reflexivity. Qed.
Lemma default_said_text d : sayable_default d = true -> default_text (ideal_default d) = Some (spell (default_said d)).
Proof.
  intros H. destruct d as [|s|z|n|s]; cbn [ideal_default default_said app]; unfold default_text; cbn [v_type plain_value integer_value now_value v_str v_int v_raw v_bit].
  - reflexivity.
  - unfold default_said. cbn [app]. rewrite !spell_cons. cbn [spell_piece]. cbn [sayable_default] in H. rewrite (plain_escaped s H). unfold spell. cbn [fold_right]. now rewrite sapp_nil_r.
  - unfold default_said. cbn [app]. rewrite !spell_cons. unfold spell. cbn [fold_right spell_piece]. now rewrite sapp_nil_r.
  - unfold default_said. cbn [app]. rewrite !spell_cons, now_text. reflexivity.
  - cbn [sayable_default] in H. apply mem_in in H. destruct H as [<-|[<-|[]]]; reflexivity.
Qed.
Lemma my_ideal_parts c : my_ideal_column c = my_ideal_column c /\
  c_name (my_ideal_column c) = mc_name c /\ c_timezone (my_ideal_column c) = false /\ c_notnull (my_ideal_column c) = mc_null c /\
  c_default (my_ideal_column c) = option_map (fun d => mkDefault (Some (ideal_default d)) "") (mc_default c) /\ c_autoinc (my_ideal_column c) = mc_auto c /\
  c_onupdate (my_ideal_column c) = option_map now_value (mc_on_update c) /\ c_check (my_ideal_column c) = None /\ c_check_no_inherit (my_ideal_column c) = false /\
  c_key (my_ideal_column c) = KeyNone /\ c_identity (my_ideal_column c) = None /\ c_sequence (my_ideal_column c) = None.
Proof. unfold my_ideal_column. destruct (mc_type c); repeat split. Qed.
Lemma column_text_said c k u : sayable_column c = true -> column_text Mysql u (set_position k (my_ideal_column c)) = Some (column_string c).
Proof.
  intros K. pose proof K as K0. unfold sayable_column, my_column_ok in K. rewrite !andb_true_iff in K. destruct K as [[[[[[[[Kn Kt] Kd] Ku] Kc] St] Sd] Sa] Sc].
  replace (column_text Mysql u (set_position k (my_ideal_column c))) with (column_text Mysql u (my_ideal_column c)) by reflexivity.
  destruct (my_ideal_parts c) as (_ & E1 & E2 & E3 & E4 & E5 & E6 & E7 & E8 & E9 & E10 & E11).
  unfold column_text, default_words, unique_words, identity_words, null_words, check_words. rewrite E1, E2, E3, E4, E5, E6, E7, E8, E9, E10, E11.
  assert (D : match option_map (fun d => mkDefault (Some (ideal_default d)) "") (mc_default c) with
              | Some (mkDefault (Some v) _) => option_map (fun s => [s]) (default_text v) | _ => Some [] end =
              Some match mc_default c with Some d => [spell (default_said d)] | None => [] end).
  { destruct (mc_default c) as [d|]; [|reflexivity]. cbn [option_map]. cbn [all_opt] in Sd. now rewrite (default_said_text d Sd). }
  rewrite D. cbn [when app]. f_equal. unfold column_string. rewrite spell_spoken. f_equal. unfold column_said. rewrite !map_app. cbn [map]. rewrite spell1, (type_said_text c Kt St). cbn [spell_piece quoted].
  cbn [app]. f_equal. f_equal. rewrite !app_nil_r.
  assert (R : map spell (type_rest (mc_type c)) = when (c_unsigned (my_ideal_column c)) ["UNSIGNED"] ++ given (c_charset (my_ideal_column c)) ["CHARACTER SET"; c_charset (my_ideal_column c)] ++
    given (c_collate (my_ideal_column c)) ["COLLATE"; c_collate (my_ideal_column c)]).
  { unfold my_ideal_column, type_rest. destruct (mc_type c) as [w n []|w n []|p s []|w n|w|w n cs co|w n|w cs co|w x l cs co]; cbn [c_unsigned c_charset c_collate when app]; try reflexivity;
      cbn [my_type_ok] in Kt; rewrite !andb_true_iff in Kt; destruct Kt as [[? K1] K2];
      destruct cs as [a|], co as [b|]; cbn [all_opt] in K1, K2; cbn [or_empty]; rewrite ?(word_given a) by assumption; rewrite ?(word_given b) by assumption; cbn [map app]; rewrite ?spell1; reflexivity. }
  rewrite R, <- !app_assoc. repeat (apply f_equal2; [reflexivity|]).
  apply f_equal2; [destruct (mc_null c) as [[]|]; reflexivity|]. apply f_equal2; [destruct (mc_default c); reflexivity|].
  apply f_equal2; [destruct (mc_auto c); reflexivity|]. destruct (mc_on_update c) as [n|]; [|reflexivity]. cbn [option_map map]. now rewrite now_text.
Qed.

(** The words. *)
Lemma commas_words {A} (f : A -> my_piece) sep sep' l : mwords sep = mwords sep' -> mwords (between (separated sep (map (fun z => [f z]) l))) = mwords (between (separated sep' (map (fun z => [f z]) l))).
Proof.
  intros S. rewrite !mwords_between. f_equal. f_equal. induction l as [|x l IH]; [reflexivity|]. cbn [map separated]. rewrite !mwords_app. f_equal.
  destruct (map (fun z => [f z]) l); [reflexivity|]. rewrite !mwords_app. now rewrite S, IH.
Qed.
Lemma type_said_words t : mwords (type_said t) ++ flat_map mwords (type_rest t) = mwords (shown_type t).
Proof.
  unfold type_said, shown_type. rewrite !mwords_cons, <- app_assoc. f_equal.
  destruct t as [w n u|w n u|p s u|w n|w|w n cs co|w n|w cs co|w x l cs co]; rewrite ?mwords_app.
  - destruct n, u; reflexivity.
  - destruct n as [[]|], u; reflexivity.
  - destruct u; reflexivity.
  - destruct n; reflexivity.
  - reflexivity.
  - destruct cs, co; reflexivity.
  - reflexivity.
  - destruct cs, co; reflexivity.
  - unfold texts_said. rewrite (commas_words MText [comma_sign; blank1] [comma_sign]) by reflexivity. f_equal. destruct cs, co; reflexivity.
Qed.
Lemma now_said_words n : mwords (now_said n) = mwords (shown_now n).
Proof. now destruct n. Qed.
Lemma column_said_words c : sayable_column c = true -> mwords (spoken (column_said c)) = mwords (shown_column c).
Proof.
  unfold sayable_column. rewrite !andb_true_iff. intros [[_ Sa] Sc]. rewrite spoken_words. unfold column_said, shown_column. rewrite !flat_map_app, !mwords_app. cbn [flat_map].
  rewrite app_nil_r, <- !app_assoc. apply f_equal2; [reflexivity|]. rewrite app_assoc, type_said_words. f_equal. f_equal; [destruct (mc_null c) as [[]|]; reflexivity|].
  f_equal; [destruct (mc_default c) as [[|s|z|[n|]|s]|]; reflexivity|]. destruct (mc_comment c); [discriminate|]. cbn [shown_if]. change (mwords []) with (@nil token). rewrite app_nil_r.
  destruct (mc_auto c), (mc_on_update c) as [[n|]|]; try discriminate Sa; reflexivity.
Qed.

(** ** Keys *)
Definition key_column_said (c : my_key_column) : list my_piece :=
  MName (kc_name c) :: shown_if one_number (kc_length c) ++ (if kc_desc c then [blank1; MWord "desc"] else []).
Definition kind_said (k : my_kind) : list my_piece :=
  match k with
  | KPrimary => [MWord "primary"; blank1; MWord "key"] | KUnique => [MWord "unique"; blank1; MWord "key"] | KPlain => [MWord "key"]
  | KFulltext => [MWord "fulltext"; blank1; MWord "key"] | KSpatial => [MWord "spatial"; blank1; MWord "key"]
  end.
Definition key_said (k : my_key) : list (list my_piece) :=
  [kind_said (mk_kind k)] ++ match mk_kind k with KPrimary => [] | _ => [[MName (mk_name k)]] end ++
  [between (separated [comma_sign; blank1] (map key_column_said (mk_columns k)))].
Lemma key_column_said_part c : my_key_column_ok c = true -> part (key_column_said c).
Proof.
  unfold my_key_column_ok, key_column_said. intros K. apply andb_true_iff in K as [K1 K2]. apply part_tight; [cbn; tauto|exact K1|].
  apply next_app; [apply next_if; intros x X; apply one_number_next; eapply opt_all; eauto|]. destruct (kc_desc c); parts.
Qed.
Lemma key_said_part k : sayable_key k = true -> Forall part (key_said k).
Proof.
  unfold sayable_key, my_key_ok. rewrite !andb_true_iff. intros [[[Kn Kc] _] _]. rewrite forallb_forall in Kc. unfold key_said. constructor; [destruct (mk_kind k); cbn [kind_said]; parts|].
  apply Forall_app. split; [destruct (mk_kind k); every; parts|]. apply Forall_one. apply next_part, next_between, part_separated; [exact next_comma_blank|].
  intros x X. apply in_map_iff in X as (c & <- & C). apply key_column_said_part. now apply Kc.
Qed.
Lemma key_column_said_text c : spell (key_column_said c) = key_column Mysql (mkIndexColumn (kc_name c) (kc_length c) (if kc_desc c then "desc" else "asc")).
Proof.
  unfold key_column_said, key_column. cbn [ic_column ic_length ic_direction quoted]. rewrite spell_cons, spell_app.
  assert (L : spell (shown_if one_number (kc_length c)) = match kc_length c with Some n => parens (show_Z n) | None => "" end).
  { destruct (kc_length c) as [z|]; [|reflexivity]. cbn [shown_if]. unfold one_number, parens. now rewrite spell_between, spell1. }
  rewrite L. cbn [spell_piece]. destruct (kc_desc c); cbn [String.eqb Ascii.eqb Bool.eqb when app]; unfold sentence; cbn [join].
  - rewrite !sapp_assoc. reflexivity.
  - change (spell []) with "". now rewrite ?sapp_nil_r.
Qed.
Lemma kind_said_text k : spell (kind_said k) = my_kind_type k.
Proof. now destruct k. Qed.
Lemma key_text_said t k : sayable_key k = true ->
  add_key Mysql t (my_ideal_key k) = Some (sentence (["ALTER TABLE"; quoted Mysql t; "ADD"] ++ map spell (key_said k))).
Proof.
  unfold sayable_key. rewrite andb_true_iff. intros [K O]. destruct (mk_options k) as [|] eqn:E; [|discriminate]. clear O.
  unfold add_key, my_ideal_key. cbn [i_options i_clustered i_primary i_name i_type i_columns]. rewrite E. cbn [map option_words].
  f_equal. f_equal. cbn [table_ref app]. do 3 f_equal. unfold key_said. rewrite !map_app. cbn [map app]. rewrite kind_said_text, spell_between, (spell_separated ", " [comma_sign; blank1] _ eq_refl).
  unfold key_columns. cbn [i_columns]. rewrite !map_map.
  rewrite (map_ext (fun x => spell (key_column_said x)) (fun x => key_column Mysql (mkIndexColumn (kc_name x) (kc_length x) (if kc_desc x then "desc" else "asc")))) by (intros c; apply key_column_said_text).
  rewrite ?app_nil_r. destruct (mk_kind k); cbn [negb when app map]; rewrite ?spell1; reflexivity.
Qed.
Lemma separated_words sep sep' l l' : mwords sep = mwords sep' -> Forall2 (fun a b => mwords a = mwords b) l l' -> mwords (separated sep l) = mwords (separated sep' l').
Proof.
  intros S. induction 1 as [|a b l l' E F IH]; [reflexivity|]. cbn [separated]. rewrite !mwords_app, E. f_equal. destruct F; [reflexivity|]. now rewrite !mwords_app, S, IH.
Qed.
Lemma key_said_words k : sayable_key k = true -> mwords (spoken (key_said k)) = mwords (shown_key k).
Proof.
  unfold sayable_key. rewrite andb_true_iff. intros [_ O]. destruct (mk_options k) as [|] eqn:E; [|discriminate]. rewrite spoken_words. unfold key_said, shown_key.
  rewrite !flat_map_app, !mwords_app, E. cbn [flat_map]. change (mwords []) with (@nil token). rewrite !app_nil_r, !mwords_between.
  rewrite (separated_words [comma_sign; blank1] [comma_sign] (map key_column_said (mk_columns k)) (map shown_key_column (mk_columns k))).
  - destruct (mk_kind k); reflexivity.
  - reflexivity.
  - induction (mk_columns k) as [|c l IH]; constructor; [|exact IH]. destruct c as [n [z|] []]; reflexivity.
Qed.

(** ** Foreign keys *)
Definition names_said (x : string) (l : list string) : list my_piece := between (separated [comma_sign] (map (fun n => [MName n]) (x :: l))).
Definition action_said (w : string) (a : option my_action) : list (list my_piece) :=
  match a with Some a => [[MWord "ON"; blank1; MWord w]; spoken (map (fun w => [MWord w]) (action_text a))] | None => [] end.
Definition fk_said (f : my_fk) : list (list my_piece) :=
  [[MWord "CONSTRAINT"]; [MName (mf_name f)]; [MWord "FOREIGN"; blank1; MWord "KEY"]; names_said (mf_column f) (mf_columns f); [MWord "REFERENCES"]; [MName (mf_table f)];
   names_said (mf_ref_column f) (mf_ref_columns f)] ++ action_said "DELETE" (mf_delete f) ++ action_said "UPDATE" (mf_update f).
Lemma names_said_part x l : forallb my_name (x :: l) = true -> part (names_said x l).
Proof.
  intros H. rewrite forallb_forall in H. apply next_part, next_between, part_separated; [exact next_comma|]. intros y Y. apply in_map_iff in Y as (n & <- & N). specialize (H n N). parts.
Qed.
Lemma fk_said_part f : my_fk_ok f = true -> Forall part (fk_said f).
Proof.
  unfold my_fk_ok. rewrite !andb_true_iff. intros [[[K1 K2] K3] K4]. apply names_said_part in K3, K4. unfold fk_said. apply Forall_app. split.
  - every; try assumption; parts.
  - apply Forall_app. split; [destruct (mf_delete f) as [[]|]|destruct (mf_update f) as [[]|]]; every; cbn [action_text map spoken separated app]; parts.
Qed.
Lemma names_said_text x l : spell (names_said x l) = parens (join "," (map (quoted Mysql) (x :: l))).
Proof.
  unfold names_said, parens. rewrite spell_between, (spell_separated "," [comma_sign] _ eq_refl), map_map. do 3 f_equal. apply map_ext. intros n. apply spell1.
Qed.
Lemma fk_text_said f : foreign_key_words Mysql (my_ideal_fk f) = map spell (fk_said f).
Proof.
  unfold foreign_key_words, fk_said, my_ideal_fk. cbn [fk_constraint fk_index_name fk_index_columns fk_ref_name fk_ref_columns fk_on_delete fk_on_update fk_not_for_replication].
  rewrite !map_app. cbn [map]. rewrite !names_said_text, !spell1. destruct (mf_delete f) as [[]|], (mf_update f) as [[]|]; reflexivity.
Qed.
Lemma fk_said_words f : mwords (spoken (fk_said f)) = mwords (shown_fk f).
Proof.
  rewrite spoken_words. unfold fk_said, shown_fk. rewrite !flat_map_app, !mwords_app. cbn [flat_map].
  replace (mwords (names_said (mf_column f) (mf_columns f))) with (mwords (name_list (mf_column f) (mf_columns f))) by (now apply (commas_words MName)).
  replace (mwords (names_said (mf_ref_column f) (mf_ref_columns f))) with (mwords (name_list (mf_ref_column f) (mf_ref_columns f))) by (now apply (commas_words MName)).
  destruct (mf_delete f) as [[]|], (mf_update f) as [[]|]; cbn [app mwords flat_map mtoken]; rewrite <- ?app_assoc; cbn [app]; rewrite ?app_nil_r; reflexivity.
Qed.
