(** Texts put together from words, names, numbers and punctuation, and their tokens. *)
From Coq Require Import String Ascii List ZArith Bool Lia.
From Verif Require Import GoStr GoStrFacts Ast Keywords Lexer SpecLexer SpecLayout ProofLexer ProofReadback ProofNumerals SpecShown ProofReadEx.
Import ListNotations.
Local Open Scope string_scope.
Local Open Scope list_scope.

Inductive piece :=
| PBlank (s : string)
| PWord (w : string)                       (* a keyword *)
| PBare (n : string)                       (* a name as it is *)
| PQuoted (n : string)                     (* a name in quotes *)
| PName (n : string)                       (* a name, in quotes if PostgreSQL quotes it *)
| PText (s : string)
| PNum (z : Z)
| POp (o : comparison)                     (* with a blank on either side *)
| PChar (c : ascii)
| PDot
| PCast.

Inductive class := Tight | Value | Dotted | Loose.
Definition class_of (p : piece) : class :=
  match p with
  | PWord _ | PBare _ | PQuoted _ | PName _ => Tight
  | PText _ | PNum _ => Value
  | PDot => Dotted
  | _ => Loose
  end.
Definition adjacent (a b : class) : bool :=
  match a, b with
  | Tight, Loose | Tight, Dotted | Value, Loose | Dotted, Tight | Loose, _ => true
  | _, _ => false
  end.
Fixpoint linked_after (k : class) (l : list piece) : bool :=
  match l with
  | [] => true
  | p :: l' => adjacent k (class_of p) && linked_after (class_of p) l'
  end.
Definition linked (l : list piece) : bool := linked_after Loose l.

Definition punctuation : list ascii := ["("; ")"; ","; "["; "]"]%char.
Definition keyword_token (w : string) : token :=
  match find_keyword keywords (to_lower w) with Some k => (KTok k, to_lower w) | None => (KTok "ID", w) end.

Section Pieces.
Variable quoted : string -> bool.
Notation ident := (ident quoted).

Definition ptext (p : piece) : string :=
  match p with
  | PBlank s => s
  | PWord w => w
  | PBare n => n
  | PQuoted n => """" ++ n ++ """"
  | PName n => ident n
  | PText s => "'" ++ quote_twice s ++ "'"
  | PNum z => show_Z z
  | POp o => " " ++ pg_operator o ++ " "
  | PChar c => String c ""
  | PDot => "."
  | PCast => "::"
  end%string.
Definition ptoken (p : piece) : list token :=
  match p with
  | PBlank _ => []
  | PWord w => [keyword_token w]
  | PBare n | PQuoted n | PName n => [name_token n]
  | PText s => [(KTok "STRING", s)]
  | PNum z => [(KTok "INTEGRAL", show_Z z)]
  | POp o => [op_token o]
  | PChar c => [(KChar c, ""%string)]
  | PDot => [dot]
  | PCast => [(KTok "TYPECAST", "::"%string)]
  end.
Definition keyword_ok (w : string) : bool :=
  match find_keyword keywords (to_lower w) with Some _ => true | None => false end &&
  match w with String c r => is_letter c && negb (Ascii.eqb c "@") && all_chars (fun c => is_letter c || is_digit c) r | EmptyString => false end.
Definition pwf (p : piece) : bool :=
  match p with
  | PBlank s => match s with EmptyString => false | _ => all_chars is_blank s end
  | PWord w => keyword_ok w
  | PBare n => simple_name n
  | PQuoted n => quotable n
  | PName n => if quoted n then quotable n else simple_name n
  | PText s => all_chars text_char s
  | PNum z => (0 <=? z)%Z
  | PChar c => existsb (Ascii.eqb c) punctuation
  | _ => true
  end.

Definition render (l : list piece) : string := fold_right (fun p r => ptext p ++ r)%string ""%string l.
Definition words (l : list piece) : list token := flat_map ptoken l.
Definition written (l : list piece) : Prop := forallb pwf l = true /\ linked l = true.

Lemma render_app a b : render (a ++ b) = (render a ++ render b)%string.
Proof. induction a as [|p a IH]; [reflexivity|]. cbn [app]. unfold render in *. cbn [fold_right]. now rewrite IH, sapp_assoc. Qed.
Lemma words_app a b : words (a ++ b) = words a ++ words b.
Proof. apply flat_map_app. Qed.

(** ** What a piece begins with *)
Definition begins (k : class) (c : ascii) : Prop :=
  match k with
  | Tight => is_letter c = true /\ c <> "@"%char \/ c = c_dq
  | Value => True
  | Dotted => c = "."%char
  | Loose => is_letter c = false /\ is_digit c = false /\ c <> "'"%char /\ c <> c_dq /\ c <> "."%char
  end.
Lemma simple_begins n : simple_name n = true -> exists c s, n = String c s /\ is_letter c = true /\ c <> "@"%char.
Proof.
  intros H. destruct (simple_parts n H) as (c & w & -> & S & _). exists c, w. repeat split; [now apply name_start_letter|]. intros ->. discriminate.
Qed.
Lemma blank_loose c : is_blank c = true -> begins Loose c.
Proof. destruct c as [[] [] [] [] [] [] [] []]; intros H; try discriminate H; repeat split; try reflexivity; discriminate. Qed.
Lemma piece_begins p : pwf p = true -> exists c s, ptext p = String c s /\ begins (class_of p) c.
Proof.
  destruct p; cbn [pwf ptext class_of]; intros H.
  - destruct s as [|c s]; [discriminate|]. cbn [all_chars] in H. apply andb_true_iff in H as [H _]. exists c, s. split; [reflexivity|now apply blank_loose].
  - unfold keyword_ok in H. apply andb_true_iff in H as [_ H]. destruct w as [|c r]; [discriminate|]. rewrite !andb_true_iff in H. destruct H as [[H1 H2] _].
    exists c, r. split; [reflexivity|]. left. split; [exact H1|]. apply negb_true_iff in H2. now apply Ascii.eqb_neq.
  - destruct (simple_begins n H) as (c & s & -> & H1). exists c, s. split; [reflexivity|now left].
  - exists c_dq, (n ++ """")%string. split; [reflexivity|now right].
  - unfold SpecShown.ident. destruct (quoted n).
    + exists c_dq, (n ++ """")%string. split; [reflexivity|now right].
    + destruct (simple_begins n H) as (c & s & -> & H1). exists c, s. split; [reflexivity|now left].
  - exists "'"%char, (quote_twice s ++ "'")%string. split; [reflexivity|exact I].
  - apply Z.leb_le in H. destruct (show_Z_digits z H) as [_ N]. destruct (show_Z z) as [|c s]; [contradiction|]. exists c, s. split; [reflexivity|exact I].
  - exists " "%char, (pg_operator o ++ " ")%string. split; [reflexivity|]. repeat split; try reflexivity; discriminate.
  - exists c, ""%string. split; [reflexivity|]. apply existsb_exists in H as (d & D & E). apply Ascii.eqb_eq in E. subst d.
    cbv [punctuation In] in D. repeat (destruct D as [<-|D]); try contradiction; repeat split; try reflexivity; discriminate.
  - exists "."%char, ""%string. split; reflexivity.
  - exists ":"%char, ":"%string. split; [reflexivity|]. repeat split; try reflexivity; discriminate.
Qed.

(** ** What may follow *)
Definition stops (k : class) (r : string) : Prop :=
  match k with
  | Tight => ends word_char r /\ ends (eq "'"%char) r /\ ends (eq c_dq) r
  | Value => ends digit r /\ ends letter r /\ ends (fun c => c = "."%char) r /\ ends (eq "'"%char) r
  | Dotted => ends digit r
  | Loose => True
  end.
Lemma ends_first (P : ascii -> Prop) c r : ~ P c -> ends P (String c r).
Proof. intros H d r' [= -> ->]. exact H. Qed.
Lemma not_digit c : is_digit c = false -> ~ digit c.
Proof. rewrite <- is_digit_spec. congruence. Qed.
Lemma not_letter c : is_letter c = false -> ~ letter c.
Proof. rewrite <- is_letter_spec. congruence. Qed.
Lemma letter_not_digit c : is_letter c = true -> is_digit c = false.
Proof. destruct c as [[] [] [] [] [] [] [] []]; vm_compute; congruence. Qed.
Lemma stops_begins a b c r : adjacent a b = true -> begins b c -> stops a (String c r).
Proof.
  intros A B. destruct a, b; try discriminate A; cbn [begins stops] in *; try exact I.
  - subst c. repeat split; apply ends_first; try discriminate. intros [W|W]; revert W; [now apply not_letter|now apply not_digit].
  - destruct B as (B1 & B2 & B3 & B4 & B5). repeat split; apply ends_first; try congruence. intros [W|W]; revert W; [now apply not_letter|now apply not_digit].
  - destruct B as (B1 & B2 & B3 & B4 & B5). repeat split; apply ends_first; try congruence; [now apply not_digit|now apply not_letter].
  - apply ends_first. apply not_digit. destruct B as [[B _]| ->]; [now apply letter_not_digit|reflexivity].
Qed.
Lemma stops_nil k : stops k "".
Proof. destruct k; cbn [stops]; repeat split; apply ends_nil. Qed.
Lemma linked_stops k l : forallb pwf l = true -> linked_after k l = true -> stops k (render l).
Proof.
  destruct l as [|p l]; [intros; apply stops_nil|]. cbn [forallb linked_after]. intros W L. apply andb_true_iff in W as [W _], L as [L _].
  destruct (piece_begins p W) as (c & s & E & B). unfold render. cbn [fold_right]. rewrite E. now apply (stops_begins k (class_of p)).
Qed.

(** ** Tokens of the pieces *)
Lemma word_lexeme n w r : keyword_ok w = true -> stops Tight r -> lexeme Postgres n (fst (keyword_token w)) (snd (keyword_token w)) w r.
Proof.
  unfold keyword_ok, keyword_token. intros H (S1 & S2 & S3). apply andb_true_iff in H as [K H]. destruct (find_keyword keywords (to_lower w)) as [k|] eqn:F; [|discriminate].
  destruct w as [|c w]; [discriminate|]. rewrite !andb_true_iff in H. destruct H as [[H1 H2] H3]. apply negb_true_iff, Ascii.eqb_neq in H2. cbn [fst snd].
  apply lx_word; [now apply is_letter_spec| |exact S1| | |apply word_keyword; now apply find_keyword_in].
  - apply (all_chars_spec (fun c => is_letter c || is_digit c)); [|exact H3]. intros d. rewrite <- word_char_spec, orb_false_r. reflexivity.
  - intros (_ & _ & r' & X). subst r. now apply (S2 _ _ eq_refl).
  - intros w' [X _]. contradiction.
Qed.
Lemma simple_lexeme n w r : simple_name w = true -> stops Tight r -> lexeme Postgres n (KTok "ID") w w r.
Proof.
  intros H (S1 & S2 & S3). destruct (simple_parts w H) as (c & s & -> & H1 & H2 & H3 & H4).
  assert (L : to_lower (String c s) = String c s) by (apply to_lower_same; cbn [all_chars]; now rewrite (name_start_char c H1), H2).
  apply lx_word; [apply is_letter_spec; now apply name_start_letter| |exact S1| | |].
  - apply (all_chars_spec (fun c => is_letter c || is_digit c)); [intros d; rewrite <- word_char_spec, orb_false_r; reflexivity|].
    rewrite all_chars_in in *. intros d D. now apply name_char_word, H2.
  - intros (_ & _ & r' & X). subst r. now apply (S2 _ _ eq_refl).
  - intros w' [-> _]. discriminate.
  - apply word_name; rewrite L; [|exact H4]. apply find_keyword_none. now apply keyword_none.
Qed.
Lemma quotable_parts n : quotable n = true -> n <> ""%string /\ has_char c_dq n = false.
Proof.
  unfold quotable. intros H. apply andb_true_iff in H as [H1 H2]. apply negb_true_iff, String.eqb_neq in H1. split; [exact H1|].
  clear H1. induction n as [|c n IH]; [reflexivity|]. cbn [all_chars] in H2. apply andb_true_iff in H2 as [H2 H3]. cbn [has_char].
  unfold quotable_char in H2. rewrite !andb_true_iff in H2. destruct H2 as [[H2 _] _]. apply negb_true_iff in H2. change (Ascii.eqb c c_dq = false) in H2.
  rewrite (IH H3). rewrite ?H2. rewrite Ascii.eqb_sym in H2. rewrite ?H2. reflexivity.
Qed.
Lemma quoted_lexeme n w r : quotable w = true -> stops Tight r -> lexeme Postgres n (KTok "ID") w ("""" ++ w ++ """")%string r.
Proof.
  intros H (_ & _ & S3). destruct (quotable_parts w H) as [H1 H2]. exact (name_lexeme Postgres n w r H1 H2 S3).
Qed.
Lemma quote_twice_text s : all_chars text_char s = true -> string_text "'" s (quote_twice s).
Proof.
  induction s as [|c s IH]; [constructor|]. cbn [all_chars quote_twice]. intros H. apply andb_true_iff in H as [H1 H2].
  destruct (Ascii.eqb_spec c "'") as [->|N]; [apply st_double; auto|]. apply st_plain; [exact N| |auto]. intros ->. discriminate.
Qed.
Lemma text_lexeme n s r : all_chars text_char s = true -> stops Value r -> lexeme Postgres n (KTok "STRING") s ("'" ++ quote_twice s ++ "'")%string r.
Proof. intros H (_ & _ & _ & S). apply (lx_string Postgres n "'" s (quote_twice s) r); [constructor|now apply quote_twice_text|exact S]. Qed.
Lemma number_lexeme n z r : (0 <= z)%Z -> stops Value r -> lexeme Postgres n (KTok "INTEGRAL") (show_Z z) (show_Z z) r.
Proof.
  intros H (S1 & S2 & S3 & _). destruct (show_Z_digits z H) as [D N]. apply lx_number; [|exact S1|exact S2]. destruct (show_Z z) as [|c s]; [contradiction|].
  apply num_integer; [apply D; now left|intros d X; apply D; now right|exact S3].
Qed.

Lemma gap_app g s : gap g -> all_chars is_blank s = true -> gap (g ++ s)%string.
Proof.
  intros G B. assert (S : forall b, all_of blank b -> all_of blank (b ++ s)%string).
  { intros b Hb c Hc. rewrite list_ascii_of_string_app in Hc || idtac.
    assert (X : In c (list_ascii_of_string b) \/ In c (list_ascii_of_string s)).
    { clear -Hc. induction b as [|d b IH]; [now right|]. cbn in Hc. destruct Hc as [<-|Hc]; [left; now left|]. destruct (IH Hc); [left; now right|now right]. }
    destruct X as [X|X]; [now apply Hb|]. rewrite all_chars_in in B. specialize (B c X). revert B. clear. unfold blank.
    destruct c as [[] [] [] [] [] [] [] []]; intros B; try discriminate B; vm_compute; tauto. }
  destruct G as [b Hb|b Hb]; [apply gap_blanks; auto|apply (gap_nul (b ++ s)); auto].
Qed.
Lemma nil_gap : gap "".
Proof. apply gap_blanks. intros c []. Qed.

Lemma scans_pieces l : forall k g n, gap g -> forallb pwf l = true -> linked_after k l = true -> scans Postgres n (g ++ render l)%string (words l).
Proof.
  induction l as [|p l IH]; intros k g n G W L.
  - unfold render, words. cbn. rewrite sapp_nil_r. now apply sc_end.
  - cbn [forallb linked_after] in W, L. apply andb_true_iff in W as [W1 W2], L as [L1 L2]. pose proof (linked_stops _ _ W2 L2) as S.
    assert (T : forall kd v text, lexeme Postgres n kd v text (render l) -> scans Postgres n (g ++ text ++ render l)%string ((kd, v) :: words l)).
    { intros kd v text X. apply sc_token; [exact G|exact X|]. exact (IH _ ""%string _ nil_gap W2 L2). }
    unfold render, words. cbn [fold_right flat_map]. fold (render l) (words l). destruct p; cbn [pwf ptext ptoken class_of app] in *.
    + rewrite <- sapp_assoc. destruct s as [|c s]; [discriminate|]. eapply IH; [now apply gap_app|exact W2|exact L2].
    + rewrite (surjective_pairing (keyword_token w)). apply T. now apply word_lexeme.
    + apply T. now apply simple_lexeme.
    + apply T. now apply quoted_lexeme.
    + apply T. unfold SpecShown.ident. destruct (quoted n0); [now apply quoted_lexeme|now apply simple_lexeme].
    + apply T. now apply text_lexeme.
    + apply T. apply number_lexeme; [now apply Z.leb_le|exact S].
    + replace (g ++ (" " ++ pg_operator o ++ " ") ++ render l)%string with ((g ++ " ") ++ pg_operator o ++ (" " ++ render l))%string by (now rewrite !sapp_assoc).
      rewrite (surjective_pairing (op_token o)). apply sc_token; [now apply gap_app| |].
      * replace (snd (op_token o)) with (operator_value (fst (op_token o))) by (destruct o; reflexivity).
        apply (lx_operator Postgres n _ _ match o with CmpLt => "<>=" | CmpLe => ">" | CmpGt => ">=" | _ => "" end).
        -- destruct o; cbn; tauto.
        -- cbn [String.append]. apply ends_first. destruct o; cbv [among list_ascii_of_string In]; intros X; decompose [or] X; congruence || contradiction.
      * apply (IH Loose " "%string); [now apply (gap_app "" " " nil_gap)|exact W2|exact L2].
    + apply T. change ""%string with (operator_value (KChar c)). apply (lx_operator Postgres n _ _ ""); [|intros d r' _ []].
      apply existsb_exists in W1 as (d & D & E). apply Ascii.eqb_eq in E. subst d.
      cbv [punctuation In] in D. repeat (destruct D as [<-|D]); try contradiction; cbn; tauto.
    + apply T. change ""%string with (operator_value (KChar ".")). apply (lx_operator Postgres n _ _ "0123456789"); [cbn; tauto|]. exact S.
    + apply T. change "::"%string with (operator_value (KTok "TYPECAST")) at 1. apply (lx_operator Postgres n _ _ ""); [cbn; tauto|intros d r' _ []].
Qed.

Lemma token_free p x : pwf p = true -> In x (ptoken p) -> is_comment (fst x) = false.
Proof.
  intros W H. destruct p; cbn [ptoken] in H; try contradiction; try (destruct H as [<-|[]]; try reflexivity).
  - cbn [pwf] in W. unfold keyword_ok in W. apply andb_true_iff in W as [W _]. unfold keyword_token. destruct (find_keyword keywords (to_lower w)) as [k|] eqn:F; [|discriminate].
    apply find_keyword_in in F. clear W. cbn [fst]. revert F. generalize (to_lower w). intros s F.
    assert (A : forallb (fun p => negb (is_comment (KTok (snd p)))) keywords = true) by (vm_compute; reflexivity).
    rewrite forallb_forall in A. specialize (A _ F). cbn [snd] in A. now apply negb_true_iff.
  - destruct o; reflexivity.
Qed.

Theorem pieces_say l : written l -> says Postgres (render l) (words l).
Proof.
  intros [W L]. exists (words l). split; [|split].
  - assert (G : gap (String c_nul "")) by (apply (gap_nul ""); intros c []). exact (scans_pieces l Loose (String c_nul "") 0 G W L).
  - unfold without_comments. assert (F : forall x, In x (words l) -> is_comment (fst x) = false).
    { unfold words. intros x X. apply in_flat_map in X as (p & P & X). rewrite forallb_forall in W. eapply token_free; eauto. }
    induction (words l) as [|x w IH]; [reflexivity|]. cbn [filter]. rewrite (F x (or_introl eq_refl)). cbn [negb]. rewrite IH; [reflexivity|]. intros y Y. apply F. now right.
  - left. intros x X. unfold words in X. apply in_flat_map in X as (p & P & X). rewrite forallb_forall in W. eapply token_free; eauto.
Qed.
End Pieces.
