(** The export of a readable PostgreSQL database is read as the database. *)
From Coq Require Import String Ascii List ZArith Bool Lia.
From Verif Require Import GoStr GoStrFacts GoNum Ast Formatter Generator Keywords Lexer Numerals SchemaText SqlAst SchemaParse ParserActions Parser Planner Catalog AdapterPostgres SpecPlan SpecMysql SpecDatabase SpecPostgres
  SpecLexer SpecText SpecLayout SpecExport SpecShown ProofOrder ProofNumerals ProofRun ProofText ProofExport ProofCatalog ProofExport3 ProofLead ProofReadEx ProofPieces ProofReadColumn ProofReadTable ProofReadRest ProofReadText ProofReadStatements ProofReadBack ProofPlan ProofPg ProofReadDatabase.
Import ListNotations.
Local Open Scope string_scope.
Local Open Scope list_scope.

(** ** Texts that end in no blank *)
Fixpoint solid_end (l : list piece) : bool :=
  match l with
  | [] => false
  | [p] => match p with PBlank _ | POp _ => false | _ => true end
  | _ :: l' => solid_end l'
  end.
Lemma solid_app a b : solid_end b = true -> solid_end (a ++ b) = true.
Proof.
  intros B. induction a as [|p a IH]; [exact B|]. cbn [app]. destruct (a ++ b) eqn:E; [|exact IH].
  destruct a, b; discriminate.
Qed.
Lemma solid_opt {A} (f : A -> list piece) o a : solid_end a = true -> (forall x, solid_end (f x) = true) -> solid_end (a ++ opt_pieces f o) = true.
Proof. intros S F. destruct o as [x|]; cbn [opt_pieces]; [now apply solid_app|now rewrite app_nil_r]. Qed.
Lemma solid_sep {A} sep (f : A -> list piece) l : l <> [] -> (forall x, solid_end (f x) = true) -> solid_end (sep_pieces sep f l) = true.
Proof.
  intros N F. destruct l as [|x l]; [contradiction|]. clear N. cbn [sep_pieces]. revert x. induction l as [|y l IH]; intros x; cbn [flat_map].
  - rewrite app_nil_r. apply F.
  - apply solid_app. rewrite <- app_assoc. apply solid_app. apply IH.
Qed.
Lemma solid_group w e : solid_end (w ++ group_pieces e) = true.
Proof. unfold group_pieces. apply solid_app. change (PChar "(" :: ex_pieces e ++ [PChar ")"]) with ((PChar "(" :: ex_pieces e) ++ [PChar ")"]). now apply solid_app. Qed.

Lemma last_char_in P s : s <> "" -> all_chars P s = true -> exists c, last_char s = Some c /\ P c = true.
Proof.
  induction s as [|c s IH]; [congruence|]. intros _ A. cbn [all_chars] in A. apply andb_true_iff in A as [A1 A2]. destruct s as [|d s].
  - now exists c.
  - destruct (IH ltac:(discriminate) A2) as (x & X & Y). now exists x.
Qed.
Lemma closed_chars P s : s <> "" -> all_chars P s = true -> (forall c, P c = true -> is_space c = false) -> closed s.
Proof. intros N A S. destruct (last_char_in P s N A) as (c & C & D). exists c. split; [exact C|now apply S]. Qed.

Section All.
Variable quoted : string -> bool.
Notation render := (ProofPieces.render quoted).
Notation pwf := (ProofPieces.pwf quoted).

Lemma name_char_solid c : name_char c = true -> is_space c = false.
Proof. destruct c as [[] [] [] [] [] [] [] []]; vm_compute; congruence. Qed.
Lemma word_char_solid c : is_letter c || is_digit c = true -> is_space c = false.
Proof. destruct c as [[] [] [] [] [] [] [] []]; vm_compute; congruence. Qed.
Lemma simple_closed n : simple_name n = true -> closed n.
Proof.
  intros N. apply (closed_chars name_char); [intros ->; discriminate| |exact name_char_solid].
  unfold simple_name in N. rewrite !andb_true_iff in N. tauto.
Qed.
Lemma closed_end a c : is_space c = false -> closed (a +++ String c "").
Proof. intros S. apply closed_app. now exists c. Qed.
Lemma piece_closed p : pwf p = true -> match p with PBlank _ | POp _ => false | _ => true end = true -> closed (ptext quoted p).
Proof.
  destruct p; cbn [ProofPieces.pwf ptext]; intros W S; try discriminate.
  - unfold keyword_ok in W. apply andb_true_iff in W as [_ W]. destruct w as [|c r]; [discriminate|]. rewrite !andb_true_iff in W. destruct W as [[W _] R].
    apply (closed_chars (fun c => is_letter c || is_digit c)); [discriminate| |exact word_char_solid]. cbn [all_chars]. now rewrite W, R.
  - now apply simple_closed.
  - apply closed_app. now apply closed_end.
  - unfold ident. destruct (quoted n); [apply closed_app; now apply closed_end|now apply simple_closed].
  - apply closed_app. now apply closed_end.
  - apply Z.leb_le in W. destruct (show_Z_digits z W) as [D N]. apply (closed_chars is_digit); [exact N| |].
    + apply all_chars_in. intros d I. specialize (D d I). unfold digit, among in D. cbn in D. repeat (destruct D as [<-|D]; [reflexivity|]). contradiction.
    + intros c C. apply word_char_solid. rewrite C. apply orb_true_r.
  - apply existsb_exists in W as (d & D & E). apply Ascii.eqb_eq in E. subst d. exists c. split; [reflexivity|]. cbv [punctuation In] in D. repeat (destruct D as [<-|D]; [reflexivity|]). contradiction.
  - now exists "."%char.
  - now exists ":"%char.
Qed.
Lemma render_closed l : forallb pwf l = true -> solid_end l = true -> closed (render l).
Proof.
  induction l as [|p l IH]; [discriminate|]. cbn [forallb]. intros W S. apply andb_true_iff in W as [W1 W2]. rewrite render_cons. destruct l as [|q l].
  - change (render []) with "". rewrite sapp_nil_r. now apply piece_closed.
  - apply closed_app. now apply IH.
Qed.

(** ** The statements after CREATE TABLE are on one line *)
Lemma line_plain l s : render l = s -> forallb pwf l = true -> forallb single_line l = true -> solid_end l = true ->
  (exists c r, s = String c r /\ is_space c = false /\ c <> "-"%char) -> plain_statement s.
Proof.
  intros R W L E (c & r & -> & S & D).
  apply plain_one_line; try assumption; rewrite <- R; [now apply pieces_one_line|now apply render_closed].
Qed.
Lemma index_plain schema table i : simple_name schema = true -> simple_name table = true -> index_ok quoted i = true -> plain_statement (index_def quoted schema table i).
Proof.
  intros S N K. apply (line_plain (index_pieces schema table i)).
  - now apply index_render.
  - exact (proj1 (index_written quoted schema table i S N K)).
  - apply index_single_line.
  - unfold index_pieces. rewrite ?app_assoc. apply solid_opt; [|intros e; apply solid_group]. now apply solid_app.
  - exists "C"%char. eexists. split; [reflexivity|]. now split.
Qed.
Lemma fk_plain schema table f : simple_name schema = true -> simple_name table = true -> fk_ok f = true ->
  plain_statement (foreign_def schema table (sf_name f) (sf_column f) (sf_schema f) (sf_table f) (sf_ref_column f) (action_words (sf_update f)) (action_words (sf_delete f))).
Proof.
  intros S N K. apply (line_plain (fk_pieces schema table f)).
  - apply fk_render.
  - exact (proj1 (fk_written quoted schema table f S N K)).
  - apply fk_single_line.
  - unfold fk_pieces. repeat apply solid_app. now destruct (sf_delete f).
  - exists "A"%char. eexists. split; [reflexivity|]. now split.
Qed.
Lemma policy_plain table p : simple_name table = true -> policy_ok p = true -> plain_statement (policy_def table (catalogue_policy quoted p)).
Proof.
  intros N K. destruct (policy_parts p K) as (_ & R & _). apply (line_plain (policy_pieces table p)).
  - now apply policy_render.
  - exact (proj1 (policy_written quoted table p N K)).
  - apply policy_single_line.
  - unfold policy_pieces. rewrite ?app_assoc. apply solid_opt; [|intros e; apply solid_group]. apply solid_opt; [|intros e; apply solid_group]. apply solid_app. apply solid_sep; [exact R|reflexivity].
  - exists "C"%char. eexists. split; [reflexivity|]. now split.
Qed.
Lemma view_plain v : view_ok v = true -> plain_statement (view_ddl (sv_schema v) (sv_view v) (pv_definition (catalogue_view quoted v))).
Proof.
  intros K. apply (line_plain (view_pieces v)).
  - now apply view_render.
  - exact (proj1 (view_written quoted v K)).
  - apply view_single_line.
  - unfold view_pieces. rewrite ?app_assoc. apply solid_opt; [|intros e; apply solid_group]. now apply solid_app.
  - exists "C"%char. eexists. split; [reflexivity|]. now split.
Qed.

(** ** Rows *)
Lemma ex_one_line e : ex_ok e = true -> one_line (pg_text quoted e).
Proof. intros K. rewrite <- (ex_render quoted e K). apply pieces_one_line; [now apply ex_wf|apply ex_single_line]. Qed.
Lemma one_line_join a b : one_line a -> one_line b -> one_line (a +++ b).
Proof. intros A B. exact (proj2 (one_line_app a b) (conj A B)). Qed.
Lemma number_one_line z : (0 <=? z)%Z = true -> one_line (show_Z z).
Proof. intros Z. exact (piece_one_line quoted (PNum z) Z eq_refl). Qed.
Lemma base_one_line b : base_ok b = true -> one_line (base_format b) /\ one_line (base_name b).
Proof.
  assert (L : forall n, length_ok n = true -> one_line (show_Z n)) by (intros n H; apply number_one_line; now apply length_nonneg).
  unfold base_format. destruct b as [w| |[m|]|m|m]; cbn [base_ok base_name base_length]; intros H; try (split; split; reflexivity).
  - rewrite sapp_nil_r. apply mem_in in H. cbv [one_word_types integer_words app In] in H. repeat (destruct H as [<-|H]; [repeat split; reflexivity|]). contradiction.
  - split; [|split; reflexivity]. repeat apply one_line_join; try (split; reflexivity). now apply L.
  - split; [|split; reflexivity]. repeat apply one_line_join; try (split; reflexivity). now apply L.
  - split; [|split; reflexivity]. repeat apply one_line_join; try (split; reflexivity). now apply L.
Qed.
Lemma row_clean u c d : column_ok c = true -> shows quoted u c d -> clean_row d.
Proof.
  unfold column_ok. rewrite !andb_true_iff. intros [[[[[Q _] _] Ht] Hd] Hc] [N T L _ D _ C I]. constructor.
  - rewrite N. now apply quotable_one_line.
  - rewrite T. unfold type_shown. destruct (sc_type c) as [b|w|b|w|[]|[]]; cbn [type_ok] in Ht; try (split; reflexivity).
    + destruct (base_one_line b Ht) as [A B]. cbn [data_type type_format]. now destruct (string_in _ _).
    + apply mem_in in Ht. destruct Ht as [<-|[]]. split; reflexivity.
    + destruct (base_one_line b Ht) as [A _]. cbn [data_type type_format]. change (string_in "ARRAY" ["ARRAY"; "USER-DEFINED"]) with true. cbv iota. apply one_line_join; [exact A|split; reflexivity].
    + apply mem_in in Ht. cbv [integer_words In] in Ht. repeat (destruct Ht as [<-|Ht]; [split; reflexivity|]). contradiction.
  - assert (X : match sc_default c with Some x => default_ok x = true | None => True end) by (destruct (sc_default c); [apply andb_true_iff in Hd; tauto|exact Logic.I]).
    assert (Y : one_line match sc_default c with Some x => default_text x | None => "" end).
    { destruct (sc_default c) as [x|]; [|split; reflexivity]. rewrite <- (default_render quoted x X). apply pieces_one_line; [now apply default_wf|].
      destruct x as [z|s ty|[]| |]; try reflexivity. cbn [default_pieces]. cbn [default_ok] in X. apply andb_true_iff in X as [_ X]. apply mem_in in X. cbv [text_types In] in X. repeat (destruct X as [<-|X]; [reflexivity|]). contradiction. }
    destruct (sc_type c); try (destruct D as [_ ->]; exact Y). apply D.
  - rewrite C. destruct (sc_check c) as [k|]; [|split; reflexivity]. cbn [check_text]. apply ex_fits_ok in Hc. repeat apply one_line_join; try (split; reflexivity); [now apply ex_one_line|]. now destruct (sk_no_inherit k).
  - rewrite I. destruct (sc_always c) as [[]|]; split; reflexivity.
Qed.
End All.
