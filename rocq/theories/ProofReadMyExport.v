(** The MySQL export: its statements are told apart, and it is read as the database. *)
From Coq Require Import String Ascii List ZArith Bool Lia.
From Verif Require Import GoStr GoStrFacts GoNum Ast Formatter Generator Keywords Lexer Numerals SchemaText SqlAst SchemaParse Parser Planner Catalog CatalogMysql AdapterSqlite AdapterMysql SpecPlan SpecMysql
  SpecLexer SpecText SpecLayout SpecExport SpecShown SpecShownMysql ProofOrder ProofNumerals ProofRun ProofText ProofExport ProofReadEx ProofPieces ProofPlan ProofPg
  ProofPiecesMysql ProofReadMyColumn ProofReadMyTable ProofReadMyRest ProofReadMyText ProofReadMyWords ProofReadMyDatabase.
Import ListNotations.
Local Open Scope string_scope.
Local Open Scope list_scope.

(** ** Pieces without semicolons and line breaks *)
Definition still (p : my_piece) : bool :=
  match p with MBlank s => String.eqb s " " || String.eqb s (String "010" "  ") | MText s => my_text s | _ => true end.
Lemma free_of P x s : (forall c, P c = true -> Ascii.eqb c x = false) -> all_chars P s = true -> has_char x s = false.
Proof.
  intros H. induction s as [|c s IH]; [reflexivity|]. cbn [all_chars has_char]. intros A. apply andb_true_iff in A as [A B]. now rewrite (H c A), (IH B).
Qed.
Lemma line_of P s : (forall c, P c = true -> Ascii.eqb c semicolon = false /\ Ascii.eqb c newline = false) -> all_chars P s = true -> one_line s.
Proof. intros H A. split; apply (free_of P); try exact A; intros c C; apply (H c C). Qed.
Lemma escaped_line s : my_text s = true -> one_line (my_escaped s).
Proof.
  unfold my_text. rewrite negb_true_iff. induction s as [|c s IH]; [now split|]. cbn [has_char]. intros H. apply orb_false_iff in H as [C H]. destruct (IH H) as [A B]. cbn [my_escaped].
  assert (D : forall d r, Ascii.eqb d semicolon = false -> Ascii.eqb d newline = false -> one_line r -> one_line (String d r)).
  { intros d r D1 D2 [R1 R2]. split; cbn [has_char]; [now rewrite D1|now rewrite D2]. }
  destruct (Ascii.eqb_spec c "'") as [->|N1]; [now repeat apply D|]. destruct (Ascii.eqb_spec c "\") as [->|N2]; [now repeat apply D|].
  destruct (Ascii.eqb_spec c "010") as [->|N3]; [now repeat apply D|]. destruct (Ascii.eqb_spec c "013") as [->|N4]; [now repeat apply D|].
  destruct (Ascii.eqb_spec c "000") as [->|N5]; [now repeat apply D|]. apply D; [exact C| |now split]. now apply Ascii.eqb_neq.
Qed.
Lemma letter_line c : is_letter c || is_digit c = true -> Ascii.eqb c semicolon = false /\ Ascii.eqb c newline = false.
Proof. destruct c as [[] [] [] [] [] [] [] []]; vm_compute; intros H; try discriminate H; split; reflexivity. Qed.
Lemma back_line c : back_char c = true -> Ascii.eqb c semicolon = false /\ Ascii.eqb c newline = false.
Proof. destruct c as [[] [] [] [] [] [] [] []]; vm_compute; intros H; try discriminate H; split; reflexivity. Qed.
Lemma bit_line c : is_bit c = true -> Ascii.eqb c semicolon = false /\ Ascii.eqb c newline = false.
Proof. destruct c as [[] [] [] [] [] [] [] []]; vm_compute; intros H; try discriminate H; split; reflexivity. Qed.
Lemma part_line c : word_part c = true -> Ascii.eqb c semicolon = false /\ Ascii.eqb c newline = false.
Proof. intros H. now apply letter_line, word_part_char. Qed.

Lemma still_line p : mwf p = true -> still p = true -> p = line_break \/ one_line (spell_piece p).
Proof.
  destruct p as [s|w|n|n|s|z|s|c|]; cbn [mwf still spell_piece]; intros W S.
  - apply orb_true_iff in S as [S|S]; apply String.eqb_eq in S; subst; [right; now split|now left].
  - right. unfold keyword_ok in W. apply andb_true_iff in W as [_ W]. destruct w as [|c r]; [discriminate|]. rewrite !andb_true_iff in W. destruct W as [[W1 _] W2].
    apply (line_of _ _ letter_line). cbn [all_chars]. rewrite W1. cbn. exact W2.
  - right. unfold my_word in W. rewrite !andb_true_iff in W. destruct W as [[[_ W] _] _]. exact (line_of _ _ part_line W).
  - right. unfold my_name in W. apply andb_true_iff in W as [_ W]. apply one_line_app. split; [now split|]. apply one_line_app. split; [exact (line_of _ _ back_line W)|now split].
  - right. apply one_line_app. split; [now split|]. apply one_line_app. split; [now apply escaped_line|now split].
  - right. apply one_line_show.
  - right. apply one_line_app. split; [now split|]. apply one_line_app. split; [exact (line_of _ _ bit_line W)|now split].
  - right. cbn [existsb signs] in W. repeat (apply orb_true_iff in W as [W|W]; [apply Ascii.eqb_eq in W; subst; now split|]). discriminate.
  - right. now split.
Qed.

(** A text without semicolons, no line of which begins with dashes. *)
Definition dashes : string := String newline "--".
Definition calm (l : list my_piece) : Prop := has_char semicolon (spell l) = false /\ forall r, contains (spell l ++ r) dashes = contains r dashes.
Lemma calm_app a b : calm a -> calm b -> calm (a ++ b).
Proof.
  intros [A1 A2] [B1 B2]. unfold calm. rewrite spell_app, has_char_app, A1, B1. split; [reflexivity|]. intros r. rewrite sapp_assoc, A2. apply B2.
Qed.
Lemma calm_line p : one_line (spell_piece p) -> calm [p].
Proof. intros [A B]. unfold calm. cbn [spell fold_right]. rewrite sapp_nil_r. split; [exact A|]. intros r. now apply peel. Qed.
Lemma calm_break : calm [line_break].
Proof. split; [reflexivity|]. intros r. reflexivity. Qed.
Lemma calm_end : calm [MBlank (String "010" ""); MSign ")"].
Proof. split; [reflexivity|]. intros r. reflexivity. Qed.
Lemma calm_still l : forallb mwf l = true -> forallb still l = true -> calm l.
Proof.
  induction l as [|p l IH]; [intros _ _; split; [reflexivity|reflexivity]|]. cbn [forallb]. intros W S. apply andb_true_iff in W as [W1 W2]. apply andb_true_iff in S as [S1 S2].
  change (p :: l) with ([p] ++ l). apply calm_app; [|now apply IH]. destruct (still_line p W1 S1) as [->|L]; [exact calm_break|now apply calm_line].
Qed.

(** ** The last piece *)
Definition solid (p : my_piece) : bool := match p with MBlank _ | MDot => false | _ => true end.
Lemma last_of P s : (forall c, P c = true -> is_space c = false) -> all_chars P s = true -> s <> "" -> exists a, last_char s = Some a /\ is_space a = false.
Proof.
  intros H. induction s as [|c s IH]; [congruence|]. cbn [all_chars]. intros A _. apply andb_true_iff in A as [A B]. destruct s as [|d s]; [exists c; split; [reflexivity|now apply H]|].
  cbn [last_char]. apply IH; [exact B|discriminate].
Qed.
Lemma part_solid c : word_part c = true -> is_space c = false.
Proof. destruct c as [[] [] [] [] [] [] [] []]; vm_compute; congruence. Qed.
Lemma letter_solid c : is_letter c || is_digit c = true -> is_space c = false.
Proof. destruct c as [[] [] [] [] [] [] [] []]; vm_compute; congruence. Qed.
Lemma digit_solid c : is_digit c = true -> is_space c = false.
Proof. destruct c as [[] [] [] [] [] [] [] []]; vm_compute; congruence. Qed.
Lemma solid_last p : mwf p = true -> solid p = true -> exists a, last_char (spell_piece p) = Some a /\ is_space a = false.
Proof.
  assert (Q : forall x s y, is_space y = false -> exists a, last_char (x ++ s ++ String y "")%string = Some a /\ is_space a = false).
  { intros x s y Y. exists y. split; [|exact Y]. rewrite <- sapp_assoc. now rewrite last_char_app. }
  destruct p as [s|w|n|n|s|z|s|c|]; cbn [mwf solid spell_piece]; intros W S; try discriminate.
  - unfold keyword_ok in W. apply andb_true_iff in W as [_ W]. destruct w as [|c r]; [discriminate|]. rewrite !andb_true_iff in W. destruct W as [[W1 _] W2].
    apply (last_of _ _ letter_solid); [|discriminate]. cbn [all_chars]. rewrite W1. cbn. exact W2.
  - unfold my_word in W. rewrite !andb_true_iff in W. destruct W as [[[W1 W] _] _]. apply (last_of _ _ part_solid W). intros ->. discriminate.
  - now apply Q.
  - now apply Q.
  - apply Z.leb_le in W. destruct (show_Z_digits z W) as (D1 & D2). revert D1 D2. generalize (show_Z z). intros s D N. induction s as [|c s IH]; [congruence|]. destruct s as [|d s].
    + exists c. split; [reflexivity|]. specialize (D c (or_introl eq_refl)). cbv [digit among list_ascii_of_string In] in D. repeat (destruct D as [<-|D]; [reflexivity|]). contradiction.
    + cbn [last_char]. apply IH; [intros x X; apply D; now right|discriminate].
  - now apply Q.
  - exists c. split; [reflexivity|]. cbn [existsb signs] in W. repeat (apply orb_true_iff in W as [W|W]; [apply Ascii.eqb_eq in W; subst; reflexivity|]). discriminate.
Qed.
Lemma plain_calm l p : calm (MWord "CREATE" :: l ++ [p]) -> mwf p = true -> solid p = true -> plain_statement (spell (MWord "CREATE" :: l ++ [p])).
Proof.
  intros [A B] W S. constructor.
  - exists "C"%char. now split.
  - destruct (solid_last p W S) as (a & E & F). exists a. split; [|exact F]. rewrite app_comm_cons, spell_app. cbn [spell fold_right]. rewrite sapp_nil_r. rewrite last_char_app; [exact E|].
    intros Z. rewrite Z in E. discriminate.
  - exact A.
  - reflexivity.
  - rewrite <- (sapp_nil_r (spell _)). exact (B "").
Qed.

(** ** The pieces of the statements *)
Lemma still_app a b : forallb still (a ++ b) = forallb still a && forallb still b.
Proof. apply forallb_app. Qed.
Lemma still_separated sep l : forallb still sep = true -> (forall x, In x l -> forallb still x = true) -> forallb still (separated sep l) = true.
Proof.
  intros S. induction l as [|x l IH]; [reflexivity|]. intros H. cbn [separated]. rewrite still_app, (H x (or_introl eq_refl)). cbn [andb].
  destruct l as [|y l]; [reflexivity|]. rewrite still_app, S. cbn [andb]. apply IH. intros z Z. apply H. now right.
Qed.
Lemma still_flat_map {A} (f : A -> list my_piece) l : (forall x, In x l -> forallb still (f x) = true) -> forallb still (flat_map f l) = true.
Proof. intros H. induction l as [|x l IH]; [reflexivity|]. cbn [flat_map]. rewrite still_app, (H x (or_introl eq_refl)). apply IH. intros y Y. apply H. now right. Qed.
Lemma still_between l : forallb still l = true -> forallb still (between l) = true.
Proof. intros H. unfold between. cbn [forallb still andb]. now rewrite still_app, H. Qed.
Lemma still_map {A} (f : A -> my_piece) sep l : forallb still sep = true -> (forall x, In x l -> still (f x) = true) -> forallb still (separated sep (map (fun x => [f x]) l)) = true.
Proof. intros S H. apply still_separated; [exact S|]. intros y Y. apply in_map_iff in Y as (x & <- & X). cbn [forallb]. now rewrite (H x X). Qed.

Lemma still_type t : my_type_ok t = true -> forallb still (shown_type t) = true.
Proof.
  assert (C : forall cs co, forallb still (shown_charset cs co) = true) by (intros [c|] [o|]; reflexivity).
  assert (U : forall u, forallb still (shown_unsigned u) = true) by (intros []; reflexivity).
  destruct t as [w n u|w n u|p s u|w n|w|w n cs co|w n|w cs co|w x l cs co]; cbn [my_type_ok]; intros K; unfold shown_type; cbn [forallb still andb]; rewrite ?still_app, ?C, ?U, ?andb_true_r; try reflexivity; try (destruct n; reflexivity).
  rewrite !andb_true_iff in K. destruct K as [[[_ K] _] _]. rewrite forallb_forall in K. apply still_between. now apply (still_map MText).
Qed.
Lemma still_column c : my_column_ok c = true -> forallb still (shown_column c) = true.
Proof.
  unfold my_column_ok. rewrite !andb_true_iff. intros [[[[N T] D] U] C]. unfold shown_column. rewrite !still_app, (still_type _ T).
  assert (W : forall n, forallb still (shown_now n) = true) by (intros [n|]; reflexivity).
  assert (E1 : forallb still (shown_if (fun d => [blank1; MWord "DEFAULT"; blank1] ++ shown_default_value d) (SpecShownMysql.mc_default c)) = true).
  { destruct (SpecShownMysql.mc_default c) as [[|s|z|n|s]|]; try reflexivity; cbn [shown_if]; rewrite still_app; cbn [shown_default_value]; [cbn [all_opt my_default_ok] in D; cbn [forallb still blank1]; now rewrite D|now rewrite W]. }
  assert (E2 : forallb still (shown_if (fun n => [blank1; MWord "ON"; blank1; MWord "UPDATE"; blank1] ++ shown_now n) (mc_on_update c)) = true).
  { destruct (mc_on_update c) as [n|]; [|reflexivity]. cbn [shown_if]. now rewrite still_app, W. }
  assert (E3 : forallb still (shown_if (fun s => [blank1; MWord "COMMENT"; blank1; MText s]) (mc_comment c)) = true).
  { destruct (mc_comment c) as [s|]; [|reflexivity]. cbn [all_opt] in C. cbn [shown_if forallb still blank1]. now rewrite C. }
  rewrite E1, E2, E3. destruct (mc_null c) as [[]|], (mc_auto c); reflexivity.
Qed.
Lemma still_key k : my_key_ok k = true -> forallb still (shown_key k) = true.
Proof.
  unfold my_key_ok. rewrite !andb_true_iff. intros [[N C] O]. unfold shown_key. rewrite !still_app.
  rewrite (still_between (separated _ _)).
  - rewrite (still_flat_map shown_key_option).
    + destruct (mk_kind k); reflexivity.
    + intros o I. rewrite forallb_forall in O. specialize (O o I). destruct o; cbn [my_key_option_ok] in O; cbn [shown_key_option forallb still blank1]; rewrite ?O; reflexivity.
  - apply still_separated; [reflexivity|]. intros x X. apply in_map_iff in X as (c & <- & _). destruct c as [n [z|] []]; reflexivity.
Qed.
Lemma still_fk f : forallb still (shown_fk f) = true.
Proof.
  assert (L : forall x l, forallb still (name_list x l) = true) by (intros x l; apply still_between, (still_map MName); reflexivity).
  unfold shown_fk. rewrite !still_app, !L. destruct (mf_delete f) as [[]|], (mf_update f) as [[]|]; reflexivity.
Qed.
Lemma still_option o : my_option_ok o = true -> forallb still (shown_option o) = true.
Proof.
  destruct o as [n v]. unfold my_option_ok, shown_option. cbn [mo_name mo_value]. intros K. apply andb_true_iff in K as [K1 K2]. apply mem_in in K1.
  cbn [forallb still blank1]. rewrite still_app. assert (E : forallb still (option_words n) = true).
  { cbv [option_names In] in K1. repeat (destruct K1 as [<-|K1]; [reflexivity|]). contradiction. }
  rewrite E. destruct v as [w|z|s]; cbn [forallb still]; rewrite ?K2; reflexivity.
Qed.

Lemma table_calm t : my_table_ok t = true -> calm (shown_table t).
Proof.
  intros K. pose proof (proj1 (table_part t K)) as W. unfold my_table_ok in K. rewrite !andb_true_iff in K. destruct K as [[[[K1 K2] K3] K4] K5]. rewrite forallb_forall in K2, K3, K5.
  unfold shown_table in *. rewrite !forallb_app in W. rewrite !andb_true_iff in W. destruct W as (W1 & W2 & _ & W3).
  apply calm_app; [|apply calm_app; [|apply calm_app]].
  - apply calm_still; [exact W1|reflexivity].
  - apply calm_still; [exact W2|]. apply still_separated; [reflexivity|]. intros x X. unfold shown_items in X. rewrite !in_app_iff, !in_map_iff in X.
    destruct X as [(c & <- & I)|[(k & <- & I)|(f & <- & I)]]; [apply still_column; auto|apply still_key; auto|apply still_fk].
  - exact calm_end.
  - apply calm_still; [exact W3|]. apply still_flat_map. intros o I. apply still_option. auto.
Qed.
Lemma table_plain t : my_table_ok t = true -> plain_statement (show_create_table t).
Proof.
  intros K. pose proof (table_calm t K) as C. unfold my_table_ok in K. rewrite !andb_true_iff in K. destruct K as [_ K5]. rewrite forallb_forall in K5.
  assert (E : exists l p, shown_table t = MWord "CREATE" :: l ++ [p] /\ mwf p = true /\ solid p = true).
  { unfold shown_table. assert (O : my_options t = [] \/ exists l x, my_options t = l ++ [x]).
    { destruct (my_options t) as [|a r]; [now left|]. right. destruct (@exists_last _ (a :: r)) as (l & x & E); [discriminate|]. now exists l, x. }
    destruct O as [O|(l & x & O)]; rewrite O.
    - eexists _, (MSign ")"). split; [|now split]. cbn [flat_map app]. f_equal.
      change [MBlank (String "010" ""); MSign ")"] with ([MBlank (String "010" "")] ++ [MSign ")"]). rewrite app_assoc. rewrite !app_comm_cons. reflexivity.
    - specialize (K5 x). rewrite O in K5. specialize (K5 (in_elt x l [])).
      destruct x as [n v]. unfold my_option_ok in K5. cbn [mo_name mo_value] in K5. apply andb_true_iff in K5 as [_ K].
      assert (F : flat_map shown_option (l ++ [mkMyOption n v]) = (flat_map shown_option l ++ blank1 :: option_words n ++ [MSign "="]) ++ [match v with OWord w => MBare w | ONumber z => MNum z | OText s => MText s end]).
      { rewrite flat_map_app. unfold flat_map at 2. rewrite app_nil_r. unfold shown_option at 2. cbn [mo_name mo_value]. generalize (flat_map shown_option l) (option_words n). intros a b.
        rewrite <- app_assoc. f_equal. cbn [app]. f_equal. now rewrite <- app_assoc. }
      rewrite F. clear F. generalize (flat_map shown_option l ++ blank1 :: option_words n ++ [MSign "="]) (separated [comma_sign; line_break] (shown_items t)). intros a b.
      eexists _, match v with OWord w => MBare w | ONumber z => MNum z | OText s => MText s end.
      split; [|destruct v; cbn [mwf solid]; split; try reflexivity; try exact K; now apply number_wf].
      cbn [app]. f_equal. rewrite !app_comm_cons, !app_assoc. reflexivity. }
  destruct E as (l & p & E & W & S). unfold show_create_table. rewrite E in *. now apply plain_calm.
Qed.
Lemma view_plain v : my_view_ok v = true -> plain_statement (my_view_text (mv_name v) (view_definition v)).
Proof.
  intros K. rewrite view_text. pose proof (proj1 (view_part v K)) as W.
  assert (C : calm (view_pieces v)).
  { apply calm_still; [exact W|]. unfold view_pieces, shown_view. rewrite !still_app. rewrite (still_separated [comma_sign]); [reflexivity|reflexivity|].
    intros x X. apply in_map_iff in X as (c & <- & _). reflexivity. }
  assert (E : exists l p, view_pieces v = MWord "CREATE" :: l ++ [p] /\ mwf p = true /\ solid p = true).
  { unfold my_view_ok in K. rewrite !andb_true_iff in K. destruct K as [[[_ _] K] _]. eexists _, (MName (mv_table v)). split; [|split; [cbn [mwf]; now apply simple_back|reflexivity]].
    unfold view_pieces, shown_view. change [blank1; MWord "from"; blank1; MName (mv_schema v); MDot; MName (mv_table v)] with ([blank1; MWord "from"; blank1; MName (mv_schema v); MDot] ++ [MName (mv_table v)]).
    rewrite !app_assoc. reflexivity. }
  destruct E as (l & p & E & V & S). rewrite E in *. now apply plain_calm.
Qed.
Lemma trigger_plain t : my_trigger_ok t = true -> plain_statement (spell (trigger_pieces t)).
Proof.
  intros K. pose proof (proj1 (trigger_part t K)) as W.
  assert (C : calm (trigger_pieces t)).
  { apply calm_still; [exact W|]. unfold trigger_pieces, shown_insert. rewrite !still_app. rewrite (still_between (separated _ (map (fun c => [MBare c]) _))), (still_between (separated _ (map shown_given _))).
    - destruct (mt_timing t), (mt_event t); reflexivity.
    - apply still_separated; [reflexivity|]. intros x X. apply in_map_iff in X as (g & <- & _). now destruct g.
    - apply (still_map MBare); reflexivity. }
  assert (E : exists l, trigger_pieces t = MWord "CREATE" :: l ++ [MSign ")"]).
  { unfold trigger_pieces, shown_insert. unfold between at 2.
    generalize (between (separated [comma_sign; blank1] (map (fun c => [MBare c]) (mi_column (mt_insert t) :: mi_columns (mt_insert t)))))
      (separated [comma_sign; blank1] (map shown_given (mi_value (mt_insert t) :: mi_values (mt_insert t)))). intros a b.
    match goal with |- exists l, (_ :: ?x) ++ ?y ++ a ++ ?z ++ _ = _ => exists (x ++ y ++ a ++ z ++ MSign "(" :: b) end.
    cbn [app]. do 24 f_equal. rewrite <- ?app_assoc. cbn [app]. reflexivity. }
  destruct E as (l & E). rewrite E in *. apply plain_calm; [exact C|reflexivity|reflexivity].
Qed.

(** ** The export *)
Lemma lists_empty w e' t l : gap false w e' -> lists t l -> lists (";" ++ w ++ t)%string l.
Proof. intros W T b g e G. apply (st_empty b g e); [exact G|]. exact (T false w e' W). Qed.
Lemma lists_ended l : Forall plain_statement l -> lists (join (";" ++ nl ++ nl) (map (fun s => s ++ ";")%string l)) l.
Proof.
  induction 1 as [|s l Hs F IH]; [exact lists_nil_end|]. cbn [map]. destruct l as [|s2 l].
  - cbn [map join]. exact (lists_cons s "" false "" [] Hs (gap_nil false) lists_nil_end).
  - rewrite join_cons. cbn [map] in *. rewrite sapp_assoc. apply (lists_cons s "" false); [exact Hs|exact (gap_nil false)|]. rewrite sapp_assoc.
    apply (lists_empty (nl ++ nl) true); [exact gap2|exact IH].
Qed.
Lemma lists_statements l r : Forall plain_statement l -> Forall plain_statement r ->
  lists (join (";" ++ nl ++ nl) (l ++ map (fun s => s ++ ";")%string r)) (l ++ r).
Proof.
  intros F G. induction F as [|s l Hs F IH]; [now apply lists_ended|]. cbn [app]. destruct (l ++ map (fun s => s ++ ";")%string r) as [|x m] eqn:E.
  - apply app_eq_nil in E as [-> E]. destruct r; [|discriminate]. cbn [join]. now apply lists_one.
  - rewrite join_cons, sapp_assoc. apply (lists_cons s (nl ++ nl) true); [exact Hs|exact gap2|exact IH].
Qed.

Lemma find_unique {A} (f : A -> string) l x : NoDup (map f l) -> In x l -> List.find (fun y => String.eqb (f y) (f x)) l = Some x.
Proof.
  induction l as [|y l IH]; [easy|]. cbn [map List.find]. intros N [->|I]; [now rewrite String.eqb_refl|]. inversion N as [|? ? N1 N2]; subst.
  destruct (String.eqb_spec (f y) (f x)) as [E|_]; [|now apply IH]. exfalso. apply N1. rewrite E. now apply in_map.
Qed.
Lemma find_same {A} (f : A -> string) (g : A -> string) l n x : In x l -> f x = n -> (forall y, In y l -> f y = n -> g y = g x) ->
  option_map g (List.find (fun y => String.eqb (f y) n) l) = Some (g x).
Proof.
  intros I E H. induction l as [|y l IH]; [easy|]. cbn [List.find]. destruct (String.eqb_spec (f y) n) as [F|F].
  - cbn. f_equal. apply H; [now left|exact F].
  - destruct I as [->|I]; [contradiction|]. apply IH; [exact I|]. intros z Z. apply H. now right.
Qed.
Lemma all_or_none_map {A B} (f : A -> option B) (g : A -> B) l : (forall x, In x l -> f x = Some (g x)) -> all_or_none (map f l) = Some (map g l).
Proof.
  induction l as [|x l IH]; [reflexivity|]. intros H. cbn [map all_or_none]. rewrite (H x (or_introl eq_refl)), IH; [reflexivity|]. intros y Y. apply H. now right.
Qed.

Definition my_export (d : my_database) : string :=
  join (";" ++ nl ++ nl) ((map show_create_table (md_tables d) ++ map (fun v => my_view_text (mv_name v) (view_definition v)) (md_views d)) ++
    map (fun s => s ++ ";")%string (map (fun t => spell (trigger_pieces t)) (md_triggers d))).
Lemma readable_parts d : my_readable d = true ->
  (forall t, In t (md_tables d) -> my_table_ok t = true) /\ (forall v, In v (md_views d) -> my_view_ok v = true) /\ (forall t, In t (md_triggers d) -> my_trigger_ok t = true) /\
  NoDup (map my_table_name (md_tables d)) /\ NoDup (map mv_name (md_views d)).
Proof.
  unfold my_readable. rewrite !andb_true_iff, !forallb_forall. intros [[[[A B] C] D] E]. repeat split; try assumption; now apply distinct_spec.
Qed.
Lemma my_dump_shown d s : my_readable d = true -> my_shows d s -> my_dump s = Some (my_export d).
Proof.
  intros R S. destruct (readable_parts d R) as (T & V & _ & N & _). destruct S as [S1 S2 S3 S4 S5]. unfold my_dump, my_table_names, my_triggers.
  assert (A : all_or_none (map (my_dump_table s) (map fst (srv_tables s))) = Some (map show_create_table (md_tables d))).
  { rewrite S1, !map_map. cbn [fst]. apply all_or_none_map. intros t I. unfold my_dump_table. rewrite S1. specialize (T t I). unfold my_table_ok in T. rewrite !andb_true_iff in T. destruct T as [[[[T _] _] _] _].
    unfold my_name in T. apply andb_true_iff in T as [_ T].
    rewrite (free_of back_char "`" _) by (exact T || (intros c; destruct c as [[] [] [] [] [] [] [] []]; vm_compute; congruence)).
    assert (U := find_unique fst (map (fun t => (my_table_name t, show_create_table t)) (md_tables d)) (my_table_name t, show_create_table t)). cbn [fst] in U. rewrite U; [reflexivity| |].
    - rewrite map_map. exact N.
    - apply in_map_iff. now exists t. }
  assert (B : all_or_none (map (my_view_ddl s) (srv_views s)) = Some (map (fun v => my_view_text (mv_name v) (view_definition v)) (md_views d))).
  { rewrite S2, map_map. apply all_or_none_map. intros v I. unfold my_view_ddl. specialize (V v I). unfold my_view_ok in V. rewrite !andb_true_iff in V. destruct V as [[[V _] _] _].
    pose proof (simple_word _ V) as W. unfold my_word in W. rewrite !andb_true_iff in W. destruct W as [[[_ W] _] _].
    rewrite (free_of word_part "'" _) by (exact W || (intros c; destruct c as [[] [] [] [] [] [] [] []]; vm_compute; congruence)).
    apply (find_same vr_name (fun r => my_view_text (mv_name v) (vr_definition r)) (srv_view_rows s) (mv_name v) (mkMyViewRow (mv_schema v) (mv_name v) (view_definition v))).
    - now apply S3.
    - reflexivity.
    - intros r J E. cbn [vr_definition]. f_equal. now apply S4. }
  rewrite A, B, S5, !map_map. unfold my_export. rewrite <- app_assoc. do 3 f_equal. f_equal. rewrite map_map. apply map_ext. intros t. apply trigger_text.
Qed.

Lemma my_reads_all texts l : Forall2 my_reads texts l -> exists l', parse_all (parse_ddl parse_strict_ddl) Mysql texts = Ok l' /\ map without_text l' = l.
Proof.
  induction 1 as [|x d xs l (d' & P & E) _ (l' & Q & F)]; [now exists []|]. exists (d' :: l'). cbn [parse_all map]. rewrite P, Q. cbn. now rewrite E, F.
Qed.
Lemma my_forall_map {A} (f : A -> string) (g : A -> ddl) l : (forall x, In x l -> my_reads (f x) (g x)) -> Forall2 my_reads (map f l) (map g l).
Proof. intros H. induction l as [|x l IH]; [constructor|]. cbn [map]. constructor; [apply H; now left|]. apply IH. intros y I. apply H. now right. Qed.

Theorem my_export_read d : my_readable d = true ->
  exists l, parse_file Mysql (my_export d) = Ok l /\ map without_text l = dump (my_ideal d).
Proof.
  intros R. destruct (readable_parts d R) as (T & V & G & _ & _). unfold parse_file, parse_ddls, my_export.
  rewrite (lists_split _ _ (lists_statements _ _ (proj2 (Forall_app _ _ _) (conj (proj2 (Forall_map _ _ _) (proj2 (Forall_forall _ _) (fun t I => table_plain t (T t I))))
     (proj2 (Forall_map _ _ _) (proj2 (Forall_forall _ _) (fun v I => view_plain v (V v I)))))) (proj2 (Forall_map _ _ _) (proj2 (Forall_forall _ _) (fun t I => trigger_plain t (G t I)))))).
  apply my_reads_all. unfold dump. cbn [my_ideal cat_tables cat_views cat_triggers]. rewrite !map_map, <- app_assoc. repeat apply Forall2_app; apply my_forall_map.
  - intros t I. apply my_table_reads. auto.
  - intros v I. apply my_view_reads. auto.
  - intros t I. apply my_trigger_reads. auto.
Qed.
