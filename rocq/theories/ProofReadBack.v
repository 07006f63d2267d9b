(** What PostgreSQL's catalogue shows of a table, its export, and what sqldef reads in it. *)
From Coq Require Import String Ascii List ZArith Bool Lia.
From Verif Require Import GoStr GoStrFacts GoNum Ast Formatter Generator Keywords Lexer Numerals SchemaText SqlAst SchemaParse ParserActions Parser Planner Catalog AdapterPostgres SpecPlan SpecMysql SpecDatabase SpecPostgres
  SpecLexer SpecText SpecLayout SpecExport SpecShown ProofOrder ProofNumerals ProofText ProofExport ProofCatalog ProofExport3 ProofLead ProofReadEx ProofPieces ProofReadColumn ProofReadTable ProofReadRest ProofReadText ProofReadStatements.
Import ListNotations.
Local Open Scope string_scope.
Local Open Scope list_scope.

Notation "a +++ b" := (String.append a b) (at level 60, right associativity).

Ltac in_list H := cbv [one_word_types integer_words text_types app In] in H; repeat (destruct H as [<-|H]); try contradiction.

Section Back.
Variable quoted : string -> bool.
Notation render := (ProofPieces.render quoted).
Notation pwf := (ProofPieces.pwf quoted).

(** ** The text of a column *)
Definition check_text (o : option shown_check) : string :=
  match o with
  | Some k => "CHECK (" +++ pg_text quoted (sk_expr k) +++ ")" +++ (if sk_no_inherit k then " NO INHERIT" else "")
  | None => ""
  end.

(** A row of the column query that shows the column. *)
Record shows (u : bool) (c : shown_column) (d : dump_column) : Prop := {
  sh_name : dc_name d = sc_name c;
  sh_type : dc_type d = type_shown (data_type (sc_type c)) (type_format (sc_type c));
  sh_length : dc_length d = match max_length (sc_type c) with Some z => z | None => 0%Z end;
  sh_nullable : dc_nullable d = negb (sc_required c);
  sh_default : match sc_type c with
               | TSerial _ => dc_autoinc d = true /\ one_line (dc_default d)
               | _ => dc_autoinc d = false /\ dc_default d = match sc_default c with Some x => default_text x | None => "" end
               end;
  sh_unique : dc_unique d = u;
  sh_check : dc_check d = check_text (sc_check c);
  sh_identity : dc_identity d = match sc_always c with Some a => behavior a | None => "" end }.

Lemma base_render b : base_ok b = true -> render (base_pieces b) = base_format b.
Proof. destruct b as [w| |[m|]|m|m]; intros _; unfold base_format; cbn; now rewrite ?sapp_nil_r. Qed.
Lemma default_render d : default_ok d = true -> render (default_pieces d) = default_text d.
Proof.
  destruct d as [z|s ty|[]| |]; cbn [default_ok]; intros H; try reflexivity.
  - apply sapp_nil_r.
  - apply andb_true_iff in H as [_ H]. apply mem_in in H. cbn [default_pieces default_text]. rewrite render_app, !render_cons. cbn [ptext]. change (render []) with "".
    rewrite !sapp_assoc. cbv [text_types In] in H. destruct H as [<-|[<-|[<-|[]]]]; reflexivity.
Qed.
Lemma type_render t (d : dump_column) : type_ok t = true -> dc_type d = type_shown (data_type t) (type_format t) ->
  dc_length d = match max_length t with Some z => z | None => 0%Z end -> dc_autoinc d = match t with TSerial _ => true | _ => false end ->
  get_data_type d +++ (if (0 <? dc_length d)%Z then "(" +++ show_Z (dc_length d) +++ ")" else "") = render (type_pieces t).
Proof.
  intros Ho Ht Hl Ha. unfold get_data_type. rewrite Ht, Hl, Ha. destruct t as [b|w|b|w|[]|[]]; cbn [type_ok] in Ho; try reflexivity.
  - cbn [type_pieces]. rewrite (base_render b Ho). unfold base_format. destruct b as [w| |[m|]|m|m]; cbn [base_ok] in Ho; try reflexivity;
      try (cbn; unfold length_ok in Ho; apply andb_true_iff in Ho as [-> _]; reflexivity).
    apply mem_in in Ho. in_list Ho; reflexivity.
  - apply mem_in in Ho. in_list Ho; reflexivity.
  - cbn [type_pieces data_type type_format max_length]. rewrite render_app, (base_render b Ho). rewrite sapp_nil_r. change (type_shown "ARRAY" (base_format b +++ "[]")) with (base_format b +++ "[]").
    change (render [PChar "["; PChar "]"]) with "[]".
    assert (N : forall w, has_char "[" w = false -> String.eqb (base_format b +++ "[]") w = false).
    { intros w W. apply String.eqb_neq. intros E. rewrite <- E, has_char_app, orb_true_r in W. discriminate. }
    now rewrite !N by reflexivity.
  - apply mem_in in Ho. in_list Ho; reflexivity.
Qed.
Lemma default_not_empty d : default_ok d = true -> String.eqb (default_text d) "" = false.
Proof.
  destruct d as [z|s ty|[]| |]; cbn [default_ok]; intros H; try reflexivity. apply andb_true_iff in H as [H _]. apply Z.leb_le in H.
  destruct (show_Z_digits z H) as [_ N]. cbn [default_text]. now apply String.eqb_neq.
Qed.
Lemma column_render u c d : column_ok c = true -> shows u c d -> column_text d = render (column_pieces u c).
Proof.
  intros K S. unfold column_ok in K. rewrite !andb_true_iff in K. destruct K as [[[[[Q _] _] Ht] Hd] Hc]. destruct S as [S1 S2 S3 S4 S5 S6 S7 S8].
  assert (A : dc_autoinc d = match sc_type c with TSerial _ => true | _ => false end) by (destruct (sc_type c); tauto).
  unfold column_text, column_pieces. rewrite !render_app. rewrite S1, S4, S6, S7, S8. rewrite <- (type_render _ d Ht S2 S3 A). rewrite !sapp_assoc.
  assert (D : (if negb (String.eqb (dc_default d) "") && negb (dc_autoinc d) then " DEFAULT " +++ dc_default d else "") =
              render (opt_pieces (fun d => [blank; PWord "DEFAULT"; blank] ++ default_pieces d) (sc_default c))).
  { rewrite A. destruct (sc_default c) as [x|].
    - apply andb_true_iff in Hd as [Hd Hs]. cbn [opt_pieces]. rewrite render_app, (default_render x Hd).
      assert (E : dc_default d = default_text x) by (destruct (sc_type c); try tauto; discriminate Hs).
      rewrite E, (default_not_empty x Hd). destruct (sc_type c); try reflexivity. discriminate Hs.
    - cbn [opt_pieces]. destruct (sc_type c); try (destruct S5 as [_ ->]; reflexivity). now rewrite andb_false_r. }
  rewrite D.
  assert (I : (if String.eqb match sc_always c with Some a => behavior a | None => "" end "" then "" else " GENERATED " +++ match sc_always c with Some a => behavior a | None => "" end +++ " AS IDENTITY") =
              render (opt_pieces identity_pieces (sc_always c))) by (destruct (sc_always c) as [[]|]; reflexivity).
  rewrite I.
  assert (C : (if String.eqb (check_text (sc_check c)) "" then "" else " " +++ check_text (sc_check c)) = render (opt_pieces check_pieces (sc_check c))).
  { destruct (sc_check c) as [k|]; [|reflexivity]. cbn [opt_pieces check_text]. unfold check_pieces. rewrite !render_app, (ex_render quoted _ (ex_fits_ok _ Hc)).
    destruct (sk_no_inherit k); cbn; now rewrite ?sapp_nil_r. }
  rewrite C. assert (H : render [PQuoted (sc_name c); blank] = dq +++ sc_name c +++ dq +++ " ").
  { rewrite !render_cons. cbn [ptext]. change (render []) with "". now rewrite !sapp_assoc. }
  rewrite H, !sapp_assoc. destruct u, (sc_required c); cbn [negb]; reflexivity.
Qed.

(** ** What is read *)
Lemma parse_number z : (0 <= z < 2 ^ 62)%Z -> parse_value (mkSqlVal IntVal (show_Z z)) = integer_value z.
Proof.
  intros H. unfold parse_value, integer_value. cbn [sv_type sv_val]. rewrite atoi_show; [reflexivity|]. unfold int_min, int_max. lia.
Qed.
Lemma parse_length_value z : length_ok z = true -> parse_value (mkSqlVal IntVal (show_Z z)) = integer_value z.
Proof. unfold length_ok. intros H. apply andb_true_iff in H as [A B]. apply Z.ltb_lt in A, B. apply parse_number. lia. Qed.
Lemma parse_default_value d : default_ok d = true -> parse_value (default_val d) = default_value d.
Proof.
  destruct d as [z|s ty|[]| |]; cbn [default_ok]; intros H; try reflexivity. apply andb_true_iff in H as [A B]. apply Z.leb_le in A. apply Z.ltb_lt in B. apply parse_number. lia.
Qed.
Lemma column_read g u p c : column_ok c = true ->
  u = existsb (fun i => mem (i_name i) (g_owned g) && mem (sc_name c) (key_columns i)) (g_indexes g) ->
  parse_column "" p (mkColumnDefinition (sc_name c) (column_value u c)) = set_position p (exported_column g (ideal_column c)).
Proof.
  intros K U. unfold column_ok in K. rewrite !andb_true_iff in K. destruct K as [[[[_ Hi] Ht] Hd] Hc].
  destruct c as [n t r d a k]. cbn [sc_name sc_type sc_required sc_default sc_always sc_check] in *.
  assert (E : parse_column "" p (mkColumnDefinition n (column_value u (mkShownColumn n t r d a k))) =
    let ty := type_value t in
    mkColumn n p (ct_type ty) (ct_unsigned ty) (if r then Some true else ct_not_null ty) (ct_autoincrement ty) (ct_array ty)
      match d with Some d => Some (mkDefault (Some (parse_value (default_val d))) "") | None => parse_default (ct_default ty) end
      (option_map parse_value (ct_length ty)) (option_map parse_value (ct_scale ty))
      match k with Some k => Some (mkCheck (sql_text (sk_expr k)) "" false) | None => parse_check (ct_check ty) end
      match k with Some k => sk_no_inherit k | None => ct_check_no_inherit ty end
      (ct_charset ty) (normalize_collate (ct_collate ty) "") (ct_timezone ty) (if u then KeyUnique else key_of (ct_key_opt ty))
      (option_map parse_value (ct_on_update ty)) (ct_enum_values ty) (ct_references ty)
      match a with Some a => Some (mkIdentity (behavior a) false) | None => parse_identity (ct_identity ty) end
      match a with Some a => None | None => parse_sequence (ct_identity ty) end).
  { unfold column_value. cbn [sc_name sc_type sc_required sc_default sc_always sc_check]. generalize (type_value t). intros ty. cbv zeta.
    destruct ty, u, d, a as [[]|], k; cbn [opt]; try (cbn in Hi; rewrite Hi); try destruct r; reflexivity. }
  rewrite E. clear E Hi. cbv zeta.
  assert (D : match d with Some d => Some (mkDefault (Some (parse_value (default_val d))) "") | None => None end = option_map (fun d => mkDefault (Some (default_value d)) "") d).
  { destruct d as [d|]; [|reflexivity]. apply andb_true_iff in Hd as [Hd _]. cbn. now rewrite (parse_default_value d Hd). }
  assert (B : forall b, base_ok b = true -> option_map parse_value (option_map (fun n => mkSqlVal IntVal (show_Z n)) (base_length b)) = option_map integer_value (base_length b)).
  { intros [w| |[m|]|m|m] Hb; cbn [base_ok base_length option_map] in *; try reflexivity; now rewrite (parse_length_value m Hb). }
  assert (C : option_map (fun k => mkCheck (ck_definition k) "" false) (option_map (fun k => mkCheck (sql_text (sk_expr k)) (sk_name k) false) k) =
              match k with Some k => Some (mkCheck (sql_text (sk_expr k)) "" false) | None => None end) by now destruct k.
  assert (I : option_map (fun a => mkIdentity (behavior a) false) a = match a with Some a => Some (mkIdentity (behavior a) false) | None => None end) by now destruct a.
  assert (Q : match a with Some _ => None | None => None end = (None : option sequence)) by now destruct a.
  unfold exported_column, set_position.
  destruct t as [b|w|b|w|z|z]; cbn [type_ok] in Ht;
    cbn [ideal_column type_value sc_type sc_name sc_required sc_default sc_check sc_always c_name c_position c_type c_unsigned c_notnull c_autoinc c_array c_default c_length c_scale c_check c_check_no_inherit
         c_charset c_collate c_timezone c_key c_onupdate c_enum c_references c_identity c_sequence ct_type ct_unsigned ct_not_null ct_autoincrement ct_array ct_default ct_length ct_scale ct_check ct_check_no_inherit
         ct_charset ct_collate ct_timezone ct_key_opt ct_on_update ct_enum_values ct_references ct_identity];
    try rewrite (B _ Ht); rewrite <- ?U; cbn [parse_default parse_check parse_identity parse_sequence option_map key_of]; rewrite D, <- C, <- I, Q; try reflexivity.
  all: f_equal; try match goal with |- _ = (if ?x then None else None) => now destruct x end.
  all: try (destruct b as [w| |[m|]|m|m]; try reflexivity; cbn [base_ok] in Ht; apply mem_in in Ht; in_list Ht; reflexivity).
Qed.

(** ** One line *)
Definition single_line (p : piece) : bool := match p with PBlank s => negb (has_char newline s) | _ => true end.
Lemma one_line_app a b : one_line (a +++ b) <-> one_line a /\ one_line b.
Proof. unfold one_line. clear quoted; rewrite !has_char_app, !orb_false_iff. tauto. Qed.
Lemma has_char_in c s : has_char c s = true -> In c (list_ascii_of_string s).
Proof.
  induction s as [|d s IH]; cbn [has_char list_ascii_of_string]; [discriminate|]. destruct (Ascii.eqb_spec d c) as [->|N]; [now left|]. intros H. right. now apply IH.
Qed.
Lemma one_line_chars P s : all_chars P s = true -> P semicolon = false -> P newline = false -> one_line s.
Proof.
  intros H A B. split; [|clear A; rename B into A].
  - apply not_true_iff_false. intros X. apply has_char_in in X. rewrite all_chars_in in H. specialize (H _ X). congruence.
  - apply not_true_iff_false. intros X. apply has_char_in in X. rewrite all_chars_in in H. specialize (H _ X). congruence.
Qed.
Lemma simple_one_line n : simple_name n = true -> one_line n.
Proof.
  intros H. unfold simple_name in H. rewrite !andb_true_iff in H. destruct H as [[[_ H] _] _]. now apply (one_line_chars name_char).
Qed.
Lemma quotable_one_line n : quotable n = true -> one_line n.
Proof. unfold quotable. intros H. apply andb_true_iff in H as [_ H]. now apply (one_line_chars quotable_char). Qed.
Lemma twice_one_line s : all_chars text_char s = true -> one_line (quote_twice s).
Proof.
  intros H. apply (one_line_chars text_char); [|reflexivity|reflexivity]. induction s as [|c s IH]; [reflexivity|]. cbn [all_chars quote_twice] in *. apply andb_true_iff in H as [H1 H2].
  destruct (Ascii.eqb c "'"); cbn [all_chars]; now rewrite H1, (IH H2).
Qed.
Lemma piece_one_line p : pwf p = true -> single_line p = true -> one_line (ptext quoted p).
Proof.
  destruct p; cbn [ProofPieces.pwf single_line ptext]; intros H S.
  - destruct s as [|c s]; [discriminate|]. apply negb_true_iff in S. split; [|exact S]. clear S. revert H. generalize (String c s). intros w H.
    apply not_true_iff_false. intros X. apply has_char_in in X. rewrite all_chars_in in H. specialize (H _ X). discriminate.
  - unfold keyword_ok in H. apply andb_true_iff in H as [_ H]. destruct w as [|c r]; [discriminate|]. rewrite !andb_true_iff in H. destruct H as [[H1 _] H3].
    apply (one_line_chars (fun c => is_letter c || is_digit c)); [|reflexivity|reflexivity]. cbn [all_chars]. now rewrite H1, H3.
  - now apply simple_one_line.
  - rewrite !one_line_app. repeat split. all: try reflexivity. all: now apply quotable_one_line.
  - unfold ident. destruct (quoted n); [|now apply simple_one_line]. rewrite !one_line_app. repeat split. all: try reflexivity. all: now apply quotable_one_line.
  - rewrite !one_line_app. repeat split. all: try reflexivity. all: now apply twice_one_line.
  - apply Z.leb_le in H. destruct (show_Z_digits z H) as [D _]. apply (one_line_chars (fun c => is_digit c)); [|reflexivity|reflexivity].
    apply all_chars_in. intros d I. specialize (D d I). unfold digit, among in D. cbn in D. repeat (destruct D as [<-|D]; [reflexivity|]). contradiction.
  - destruct o; split; reflexivity.
  - apply existsb_exists in H as (d & D & E). apply Ascii.eqb_eq in E. subst d. cbv [punctuation In] in D. repeat (destruct D as [<-|D]; [split; reflexivity|]). contradiction.
  - split; reflexivity.
  - split; reflexivity.
Qed.
Lemma pieces_one_line l : forallb pwf l = true -> forallb single_line l = true -> one_line (render l).
Proof.
  induction l as [|p l IH]; [now split|]. cbn [forallb]. intros A B. apply andb_true_iff in A as [A1 A2]. apply andb_true_iff in B as [B1 B2]. rewrite render_cons, one_line_app.
  split; [now apply piece_one_line|now apply IH].
Qed.

Lemma ex_single_line e : forallb single_line (ex_pieces e) = true.
Proof. induction e; cbn [ex_pieces]; rewrite ?forallb_app; cbn [forallb single_line]; rewrite ?forallb_app, ?IHe, ?IHe1, ?IHe2; reflexivity. Qed.
Lemma sep_single_line {A} sep (f : A -> list piece) l : forallb single_line sep = true -> (forall x, forallb single_line (f x) = true) -> forallb single_line (sep_pieces sep f l) = true.
Proof.
  intros S F. destruct l as [|x l]; [reflexivity|]. cbn [sep_pieces]. rewrite forallb_app, F. cbn [andb]. induction l as [|y l IH]; [reflexivity|]. cbn [flat_map]. now rewrite !forallb_app, S, F, IH.
Qed.
Lemma condition_single_line w o : forallb single_line w = true -> forallb single_line (opt_pieces (fun e => w ++ group_pieces e) o) = true.
Proof. intros W. destruct o as [e|]; [|reflexivity]. cbn [opt_pieces]. unfold group_pieces. rewrite forallb_app, W. cbn [forallb single_line]. now rewrite forallb_app, ex_single_line. Qed.
Lemma index_single_line schema table i : forallb single_line (index_pieces schema table i) = true.
Proof.
  unfold index_pieces. rewrite !forallb_app, condition_single_line, sep_single_line by (reflexivity || (intros [n []]; reflexivity)). now destruct (six_unique i).
Qed.
Lemma fk_single_line schema table f : forallb single_line (fk_pieces schema table f) = true.
Proof. unfold fk_pieces. rewrite !forallb_app. now destruct (sf_update f), (sf_delete f). Qed.
Lemma policy_single_line table p : forallb single_line (policy_pieces table p) = true.
Proof. unfold policy_pieces. rewrite !forallb_app, !condition_single_line, sep_single_line by reflexivity. reflexivity. Qed.
Lemma view_single_line v : forallb single_line (view_pieces v) = true.
Proof. unfold view_pieces. rewrite !forallb_app, condition_single_line, sep_single_line by reflexivity. reflexivity. Qed.

(** The last character is no blank. *)
Definition closed (s : string) : Prop := exists a, last_char s = Some a /\ is_space a = false.
Lemma closed_app a b : closed b -> closed (a +++ b).
Proof. intros (c & E & N). exists c. split; [|exact N]. rewrite last_char_app; [exact E|]. intros ->. discriminate. Qed.
Lemma plain_one_line c s : one_line (String c s) -> is_space c = false -> c <> "-"%char -> closed (String c s) -> plain_statement (String c s).
Proof.
  intros [A B] N D C. constructor.
  - exists c. now split.
  - exact C.
  - exact A.
  - cbn [has_prefix]. destruct (Ascii.eqb_spec "-" c) as [<-|_]; [contradiction|reflexivity].
  - apply not_true_iff_false. intros H. apply contains_spec in H. destruct H as (x & y & E). rewrite E, !has_char_app in B. cbn in B. rewrite !orb_true_r in B. discriminate.
Qed.
End Back.
