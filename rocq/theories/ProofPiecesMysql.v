(** Texts of MySQL put together from words, names, numbers and punctuation, and their tokens. *)
From Coq Require Import String Ascii List ZArith Bool Lia.
From Verif Require Import GoStr GoStrFacts Ast Keywords Lexer SpecLexer SpecLayout ProofLexer ProofReadback ProofNumerals SpecShown SpecShownMysql ProofReadEx ProofPieces.
Import ListNotations.
Local Open Scope string_scope.
Local Open Scope list_scope.

Definition mclass (p : my_piece) : class :=
  match p with
  | MWord _ | MBare _ | MName _ => Tight
  | MText _ | MNum _ | MBits _ => Value
  | MDot => Dotted
  | _ => Loose
  end.
Fixpoint mlinked_after (k : class) (l : list my_piece) : bool :=
  match l with
  | [] => true
  | p :: l' => adjacent k (mclass p) && mlinked_after (mclass p) l'
  end.
Definition signs : list ascii := ["("; ")"; ","; "="]%char.

Definition mtoken (p : my_piece) : list token :=
  match p with
  | MBlank _ => []
  | MWord w => [keyword_token w]
  | MBare n | MName n => [name_token n]
  | MText s => [(KTok "STRING", s)]
  | MNum z => [(KTok "INTEGRAL", show_Z z)]
  | MBits s => [(KTok "BIT_LITERAL", s)]
  | MSign c => [(KChar c, ""%string)]
  | MDot => [dot]
  end.
Definition mwf (p : my_piece) : bool :=
  match p with
  | MBlank s => match s with EmptyString => false | _ => all_chars is_blank s end
  | MWord w => keyword_ok w
  | MBare n => my_word n
  | MName n => my_name n
  | MText s => true
  | MNum z => (0 <=? z)%Z
  | MBits s => all_chars is_bit s
  | MSign c => existsb (Ascii.eqb c) signs
  | MDot => true
  end.
Definition mwords (l : list my_piece) : list token := flat_map mtoken l.
Definition mwritten (l : list my_piece) : Prop := forallb mwf l = true /\ mlinked_after Loose l = true.

Lemma spell_app a b : spell (a ++ b) = (spell a ++ spell b)%string.
Proof. induction a as [|p a IH]; [reflexivity|]. cbn [app]. unfold spell in *. cbn [fold_right]. now rewrite IH, sapp_assoc. Qed.
Lemma mwords_app a b : mwords (a ++ b) = mwords a ++ mwords b.
Proof. apply flat_map_app. Qed.

(** ** What a piece begins with *)
Definition mbegins (k : class) (c : ascii) : Prop :=
  match k with
  | Tight => is_letter c = true /\ c <> "@"%char \/ c = "`"%char
  | Value => True
  | Dotted => c = "."%char
  | Loose => is_letter c = false /\ is_digit c = false /\ c <> "'"%char /\ c <> "`"%char /\ c <> "."%char
  end.
Lemma word_start_letter c : word_start c = true -> is_letter c = true /\ c <> "@"%char.
Proof. destruct c as [[] [] [] [] [] [] [] []]; vm_compute; intros H; try discriminate H; split; congruence. Qed.
Lemma word_part_char c : word_part c = true -> is_letter c || is_digit c = true.
Proof. destruct c as [[] [] [] [] [] [] [] []]; vm_compute; congruence. Qed.
Lemma my_word_parts n : my_word n = true -> exists c s, n = String c s /\ word_start c = true /\ all_chars word_part s = true /\
  is_keyword (to_lower n) = false /\ to_lower n <> "dual".
Proof.
  unfold my_word. rewrite !andb_true_iff. intros [[[H1 H2] H3] H4]. destruct n as [|c s]; [discriminate|]. exists c, s. split; [reflexivity|]. split; [exact H1|].
  cbn [all_chars] in H2. apply andb_true_iff in H2 as [_ H2]. split; [exact H2|]. apply negb_true_iff in H3, H4. split; [exact H3|]. now apply String.eqb_neq.
Qed.
Lemma mpiece_begins p : mwf p = true -> exists c s, spell_piece p = String c s /\ mbegins (mclass p) c.
Proof.
  destruct p; cbn [mwf spell_piece mclass]; intros H.
  - destruct s as [|c s]; [discriminate|]. cbn [all_chars] in H. apply andb_true_iff in H as [H _]. exists c, s. split; [reflexivity|].
    destruct c as [[] [] [] [] [] [] [] []]; try discriminate H; repeat split; try reflexivity; discriminate.
  - unfold keyword_ok in H. apply andb_true_iff in H as [_ H]. destruct w as [|c r]; [discriminate|]. rewrite !andb_true_iff in H. destruct H as [[H1 H2] _].
    exists c, r. split; [reflexivity|]. left. split; [exact H1|]. apply negb_true_iff in H2. now apply Ascii.eqb_neq.
  - destruct (my_word_parts n H) as (c & s & -> & H1 & _). exists c, s. split; [reflexivity|]. left. now apply word_start_letter.
  - exists "`"%char, (n ++ "`")%string. split; [reflexivity|now right].
  - exists "'"%char, (my_escaped s ++ "'")%string. split; [reflexivity|exact I].
  - apply Z.leb_le in H. destruct (show_Z_digits z H) as [_ N]. destruct (show_Z z) as [|c s]; [contradiction|]. exists c, s. split; [reflexivity|exact I].
  - exists "b"%char, ("'" ++ s ++ "'")%string. split; [reflexivity|exact I].
  - exists c, ""%string. split; [reflexivity|]. apply existsb_exists in H as (d & D & E). apply Ascii.eqb_eq in E. subst d.
    cbv [signs In] in D. repeat (destruct D as [<-|D]); try contradiction; repeat split; try reflexivity; discriminate.
  - exists "."%char, ""%string. split; reflexivity.
Qed.

(** ** What may follow *)
Definition mstops (k : class) (r : string) : Prop :=
  match k with
  | Tight => ends word_char r /\ ends (eq "'"%char) r /\ ends (eq "`"%char) r
  | Value => ends digit r /\ ends letter r /\ ends (fun c => c = "."%char) r /\ ends (eq "'"%char) r
  | Dotted => ends digit r
  | Loose => True
  end.
Lemma mstops_begins a b c r : adjacent a b = true -> mbegins b c -> mstops a (String c r).
Proof.
  intros A B. destruct a, b; try discriminate A; cbn [mbegins mstops] in *; try exact I.
  - subst c. repeat split; apply ends_first; try discriminate. intros [W|W]; revert W; [now apply not_letter|now apply not_digit].
  - destruct B as (B1 & B2 & B3 & B4 & B5). repeat split; apply ends_first; try congruence. intros [W|W]; revert W; [now apply not_letter|now apply not_digit].
  - destruct B as (B1 & B2 & B3 & B4 & B5). repeat split; apply ends_first; try congruence; [now apply not_digit|now apply not_letter].
  - apply ends_first. apply not_digit. destruct B as [[B _]| ->]; [now apply letter_not_digit|reflexivity].
Qed.
Lemma mstops_nil k : mstops k "".
Proof. destruct k; cbn [mstops]; repeat split; apply ends_nil. Qed.
Lemma mlinked_stops k l : forallb mwf l = true -> mlinked_after k l = true -> mstops k (spell l).
Proof.
  destruct l as [|p l]; [intros; apply mstops_nil|]. cbn [forallb mlinked_after]. intros W L. apply andb_true_iff in W as [W _], L as [L _].
  destruct (mpiece_begins p W) as (c & s & E & B). unfold spell. cbn [fold_right]. rewrite E. now apply (mstops_begins k (mclass p)).
Qed.

(** ** Tokens of the pieces *)
Lemma mword_lexeme n w r : keyword_ok w = true -> mstops Tight r -> lexeme Mysql n (fst (keyword_token w)) (snd (keyword_token w)) w r.
Proof.
  unfold keyword_ok, keyword_token. intros H (S1 & S2 & S3). apply andb_true_iff in H as [K H]. destruct (find_keyword keywords (to_lower w)) as [k|] eqn:F; [|discriminate].
  destruct w as [|c w]; [discriminate|]. rewrite !andb_true_iff in H. destruct H as [[H1 H2] H3]. apply negb_true_iff, Ascii.eqb_neq in H2. cbn [fst snd].
  apply lx_word; [now apply is_letter_spec| |exact S1| | |apply word_keyword; now apply find_keyword_in].
  - apply (all_chars_spec (fun c => is_letter c || is_digit c)); [|exact H3]. intros d. rewrite <- word_char_spec, orb_false_r. reflexivity.
  - intros (_ & _ & r' & X). subst r. now apply (S2 _ _ eq_refl).
  - intros w' [X _]. contradiction.
Qed.
Lemma mbare_lexeme n w r : my_word w = true -> mstops Tight r -> lexeme Mysql n (KTok "ID") w w r.
Proof.
  intros H (S1 & S2 & S3). destruct (my_word_parts w H) as (c & s & -> & H1 & H2 & H3 & H4). destruct (word_start_letter c H1) as [L1 L2].
  apply lx_word; [now apply is_letter_spec| |exact S1| | |].
  - apply (all_chars_spec (fun c => is_letter c || is_digit c)); [intros d; rewrite <- word_char_spec, orb_false_r; reflexivity|].
    rewrite all_chars_in in *. intros d D. now apply word_part_char, H2.
  - intros (_ & _ & r' & X). subst r. now apply (S2 _ _ eq_refl).
  - intros w' [X _]. contradiction.
  - apply word_name; [|exact H4]. apply find_keyword_none. now apply keyword_none.
Qed.
Lemma my_name_parts n : my_name n = true -> n <> ""%string /\ has_char "`" n = false.
Proof.
  unfold my_name. intros H. apply andb_true_iff in H as [H1 H2]. apply negb_true_iff, String.eqb_neq in H1. split; [exact H1|].
  clear H1. induction n as [|c n IH]; [reflexivity|]. cbn [all_chars] in H2. apply andb_true_iff in H2 as [H2 H3]. cbn [has_char].
  unfold back_char in H2. rewrite !andb_true_iff in H2. destruct H2 as [[H2 _] _]. apply negb_true_iff in H2.
  rewrite (IH H3). rewrite ?H2. rewrite Ascii.eqb_sym in H2. rewrite ?H2. reflexivity.
Qed.
Lemma mname_lexeme n w r : my_name w = true -> mstops Tight r -> lexeme Mysql n (KTok "ID") w ("`" ++ w ++ "`")%string r.
Proof.
  intros H (_ & _ & S3). destruct (my_name_parts w H) as [H1 H2]. exact (name_lexeme Mysql n w r H1 H2 S3).
Qed.
Lemma escaped_text s : string_text "'" s (my_escaped s).
Proof.
  induction s as [|c s IH]; [constructor|]. cbn [my_escaped].
  destruct (Ascii.eqb_spec c "'") as [->|N1]; [now apply st_double|].
  destruct (Ascii.eqb_spec c "\") as [->|N2]; [apply st_escape; [apply esc_named; vm_compute; tauto|exact IH]|].
  destruct (Ascii.eqb_spec c "010") as [->|N3]; [apply st_escape; [apply esc_named; vm_compute; tauto|exact IH]|].
  destruct (Ascii.eqb_spec c "013") as [->|N4]; [apply st_escape; [apply esc_named; vm_compute; tauto|exact IH]|].
  destruct (Ascii.eqb_spec c "000") as [->|N5]; [apply st_escape; [apply esc_named; vm_compute; tauto|exact IH]|].
  now apply st_plain.
Qed.
Lemma mtext_lexeme n s r : mstops Value r -> lexeme Mysql n (KTok "STRING") s ("'" ++ my_escaped s ++ "'")%string r.
Proof. intros (_ & _ & _ & S). apply (lx_string Mysql n "'" s (my_escaped s) r); [constructor|apply escaped_text|exact S]. Qed.
Lemma mnumber_lexeme n z r : (0 <= z)%Z -> mstops Value r -> lexeme Mysql n (KTok "INTEGRAL") (show_Z z) (show_Z z) r.
Proof.
  intros H (S1 & S2 & S3 & _). destruct (show_Z_digits z H) as [D N]. apply lx_number; [|exact S1|exact S2]. destruct (show_Z z) as [|c s]; [contradiction|].
  apply num_integer; [apply D; now left|intros d X; apply D; now right|exact S3].
Qed.
Lemma mbits_lexeme n s r : all_chars is_bit s = true -> lexeme Mysql n (KTok "BIT_LITERAL") s ("b'" ++ s ++ "'")%string r.
Proof.
  intros H. apply (lx_bit Mysql n "b" s r); [cbn; tauto|]. apply (all_chars_spec is_bit); [|exact H]. intros d. unfold is_bit, bit, among. cbn.
  rewrite orb_true_iff, !Ascii.eqb_eq. intuition congruence.
Qed.

Lemma mscans l : forall k g n, gap g -> forallb mwf l = true -> mlinked_after k l = true -> scans Mysql n (g ++ spell l)%string (mwords l).
Proof.
  induction l as [|p l IH]; intros k g n G W L.
  - unfold spell, mwords. cbn. rewrite sapp_nil_r. now apply sc_end.
  - cbn [forallb mlinked_after] in W, L. apply andb_true_iff in W as [W1 W2], L as [L1 L2]. pose proof (mlinked_stops _ _ W2 L2) as S.
    assert (T : forall kd v text, lexeme Mysql n kd v text (spell l) -> scans Mysql n (g ++ text ++ spell l)%string ((kd, v) :: mwords l)).
    { intros kd v text X. apply sc_token; [exact G|exact X|]. exact (IH _ ""%string _ nil_gap W2 L2). }
    unfold spell, mwords. cbn [fold_right flat_map]. fold (spell l) (mwords l). destruct p; cbn [mwf spell_piece mtoken mclass app] in *.
    + rewrite <- sapp_assoc. destruct s as [|c s]; [discriminate|]. eapply IH; [now apply gap_app|exact W2|exact L2].
    + rewrite (surjective_pairing (keyword_token w)). apply T. now apply mword_lexeme.
    + apply T. now apply mbare_lexeme.
    + apply T. now apply mname_lexeme.
    + apply T. now apply mtext_lexeme.
    + apply T. apply mnumber_lexeme; [now apply Z.leb_le|exact S].
    + apply T. now apply mbits_lexeme.
    + apply T. change ""%string with (operator_value (KChar c)). apply (lx_operator Mysql n _ _ ""); [|intros d r' _ []].
      apply existsb_exists in W1 as (d & D & E). apply Ascii.eqb_eq in E. subst d.
      cbv [signs In] in D. repeat (destruct D as [<-|D]); try contradiction; cbn; tauto.
    + apply T. change ""%string with (operator_value (KChar ".")). apply (lx_operator Mysql n _ _ "0123456789"); [cbn; tauto|]. exact S.
Qed.

Lemma mtoken_free p x : mwf p = true -> In x (mtoken p) -> is_comment (fst x) = false.
Proof.
  intros W H. destruct p; cbn [mtoken] in H; try contradiction; try (destruct H as [<-|[]]; try reflexivity).
  cbn [mwf] in W. exact (token_free (fun _ => false) (PWord w) _ W (or_introl eq_refl)).
Qed.

Theorem mpieces_say l : mwritten l -> says Mysql (spell l) (mwords l).
Proof.
  intros [W L]. exists (mwords l). split; [|split].
  - assert (G : gap (String c_nul "")) by (apply (gap_nul ""); intros c []). exact (mscans l Loose (String c_nul "") 0 G W L).
  - unfold without_comments. assert (F : forall x, In x (mwords l) -> is_comment (fst x) = false).
    { unfold mwords. intros x X. apply in_flat_map in X as (p & P & X). rewrite forallb_forall in W. eapply mtoken_free; eauto. }
    induction (mwords l) as [|x w IH]; [reflexivity|]. cbn [filter]. rewrite (F x (or_introl eq_refl)). cbn [negb]. rewrite IH; [reflexivity|]. intros y Y. apply F. now right.
  - left. intros x X. unfold mwords in X. apply in_flat_map in X as (p & P & X). rewrite forallb_forall in W. eapply mtoken_free; eauto.
Qed.
