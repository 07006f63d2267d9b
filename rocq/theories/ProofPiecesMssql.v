(** Texts of SQL Server put together from words, names, numbers and punctuation, and their
    tokens. *)
From Coq Require Import String Ascii List ZArith Bool Lia.
From Verif Require Import GoStr GoStrFacts Ast Keywords Lexer SpecLexer SpecLayout ProofLexer ProofReadback ProofNumerals SpecShown SpecShownMssql ProofReadEx ProofPieces.
Import ListNotations.
Local Open Scope string_scope.
Local Open Scope list_scope.

Inductive ms_piece :=
| WBlank (s : string)
| WWord (w : string)                       (* a keyword *)
| WBare (n : string)                       (* a name as it is *)
| WName (n : string)                       (* a name in brackets *)
| WText (s : string)
| WNum (z : Z)
| WOp (o : comparison)
| WSign (c : ascii)
| WDot.
Inductive qclass := CTight | CValue | CDotted | CLoose | COper.
Definition qclass_of (p : ms_piece) : qclass :=
  match p with
  | WWord _ | WBare _ | WName _ => CTight
  | WText _ | WNum _ => CValue
  | WDot => CDotted
  | WOp _ => COper
  | _ => CLoose
  end.
Definition qadjacent (a b : qclass) : bool :=
  match a, b with
  | CTight, (CLoose | CDotted | COper) | CValue, (CLoose | COper) | CDotted, CTight | CLoose, _ | COper, (CTight | CValue | CLoose) => true
  | _, _ => false
  end.
Fixpoint qlinked_after (k : qclass) (l : list ms_piece) : bool :=
  match l with
  | [] => true
  | p :: l' => qadjacent k (qclass_of p) && qlinked_after (qclass_of p) l'
  end.
Definition qsigns : list ascii := ["("; ")"; ","]%char.

Definition qtext (p : ms_piece) : string :=
  match p with
  | WBlank s => s
  | WWord w => w
  | WBare n => n
  | WName n => "[" ++ n ++ "]"
  | WText s => "'" ++ quote_twice s ++ "'"
  | WNum z => show_Z z
  | WOp o => pg_operator o
  | WSign c => String c ""
  | WDot => "."
  end%string.
Definition qtoken (p : ms_piece) : list token :=
  match p with
  | WBlank _ => []
  | WWord w => [keyword_token w]
  | WBare n | WName n => [name_token n]
  | WText s => [(KTok "STRING", s)]
  | WNum z => [(KTok "INTEGRAL", show_Z z)]
  | WOp o => [op_token o]
  | WSign c => [(KChar c, ""%string)]
  | WDot => [dot]
  end.
Definition qwf (p : ms_piece) : bool :=
  match p with
  | WBlank s => match s with EmptyString => false | _ => all_chars is_blank s end
  | WWord w => keyword_ok w
  | WBare n => mq_word n
  | WName n => mq_name n
  | WText s => all_chars text_char s
  | WSign c => existsb (Ascii.eqb c) qsigns
  | _ => true
  end.
Definition qspell (l : list ms_piece) : string := fold_right (fun p r => qtext p ++ r)%string ""%string l.
Definition qwords (l : list ms_piece) : list token := flat_map qtoken l.
Definition qwritten (l : list ms_piece) : Prop := forallb qwf l = true /\ qlinked_after CLoose l = true.

Lemma qspell_app a b : qspell (a ++ b) = (qspell a ++ qspell b)%string.
Proof. induction a as [|p a IH]; [reflexivity|]. cbn [app]. unfold qspell in *. cbn [fold_right]. now rewrite IH, sapp_assoc. Qed.
Lemma qspell_cons p l : qspell (p :: l) = (qtext p ++ qspell l)%string.
Proof. reflexivity. Qed.
Lemma qwords_app a b : qwords (a ++ b) = qwords a ++ qwords b.
Proof. apply flat_map_app. Qed.
Lemma qwords_cons p l : qwords (p :: l) = qtoken p ++ qwords l.
Proof. reflexivity. Qed.

(** ** What a piece begins with *)
Definition qbegins (k : qclass) (c : ascii) : Prop :=
  match k with
  | CTight => is_letter c = true /\ c <> "@"%char \/ c = "["%char
  | CValue => c = "'"%char \/ is_digit c = true \/ c = "-"%char
  | CDotted => c = "."%char
  | CLoose => is_letter c = false /\ is_digit c = false /\ c <> "'"%char /\ c <> "]"%char /\ c <> "."%char /\ ~ among "<>=" c
  | COper => is_letter c = false /\ is_digit c = false /\ c <> "'"%char /\ c <> "]"%char /\ c <> "."%char
  end.
Lemma mq_start_letter c : mq_word_start c = true -> is_letter c = true /\ c <> "@"%char.
Proof. destruct c as [[] [] [] [] [] [] [] []]; vm_compute; intros H; try discriminate H; split; congruence. Qed.
Lemma mq_part_char c : mq_word_part c = true -> is_letter c || is_digit c = true.
Proof. destruct c as [[] [] [] [] [] [] [] []]; vm_compute; congruence. Qed.
Lemma mq_word_parts n : mq_word n = true -> exists c s, n = String c s /\ mq_word_start c = true /\ all_chars mq_word_part s = true /\
  is_keyword (to_lower n) = false /\ to_lower n <> "dual".
Proof.
  unfold mq_word. rewrite !andb_true_iff. intros [[[H1 H2] H3] H4]. destruct n as [|c s]; [discriminate|]. exists c, s. split; [reflexivity|]. split; [exact H1|].
  cbn [all_chars] in H2. apply andb_true_iff in H2 as [_ H2]. split; [exact H2|]. apply negb_true_iff in H3, H4. split; [exact H3|]. now apply String.eqb_neq.
Qed.
Ltac not_among := let X := fresh in intros X; cbv [among list_ascii_of_string In] in X; decompose [or] X; congruence || contradiction.
Lemma digit_start c : digit c -> is_digit c = true.
Proof. now rewrite is_digit_spec. Qed.
Lemma qpiece_begins p : qwf p = true -> exists c s, qtext p = String c s /\ qbegins (qclass_of p) c.
Proof.
  destruct p; cbn [qwf qtext qclass_of]; intros H.
  - destruct s as [|c s]; [discriminate|]. cbn [all_chars] in H. apply andb_true_iff in H as [H _]. exists c, s. split; [reflexivity|].
    destruct c as [[] [] [] [] [] [] [] []]; try discriminate H; repeat split; try reflexivity; try discriminate; not_among.
  - unfold keyword_ok in H. apply andb_true_iff in H as [_ H]. destruct w as [|c r]; [discriminate|]. rewrite !andb_true_iff in H. destruct H as [[H1 H2] _].
    exists c, r. split; [reflexivity|]. left. split; [exact H1|]. apply negb_true_iff in H2. now apply Ascii.eqb_neq.
  - destruct (mq_word_parts n H) as (c & s & -> & H1 & _). exists c, s. split; [reflexivity|]. left. now apply mq_start_letter.
  - exists "["%char, (n ++ "]")%string. split; [reflexivity|now right].
  - exists "'"%char, (quote_twice s ++ "'")%string. split; [reflexivity|now left].
  - destruct z as [|q|q].
    + exists "0"%char, ""%string. split; [reflexivity|]. right. now left.
    + destruct (show_Z_digits (Z.pos q) ltac:(lia)) as [D N]. destruct (show_Z (Z.pos q)) as [|c s]; [contradiction|]. exists c, s. split; [reflexivity|]. right. left. apply digit_start, D. now left.
    + rewrite show_Z_neg. eexists _, _. split; [reflexivity|]. right. now right.
  - destruct o; eexists _, _; (split; [reflexivity|]); repeat split; try reflexivity; discriminate.
  - exists c, ""%string. split; [reflexivity|]. apply existsb_exists in H as (d & D & E). apply Ascii.eqb_eq in E. subst d.
    cbv [qsigns In] in D. repeat (destruct D as [<-|D]); try contradiction; repeat split; try reflexivity; try discriminate; not_among.
  - exists "."%char, ""%string. split; reflexivity.
Qed.

(** ** What may follow *)
Definition qstops (k : qclass) (r : string) : Prop :=
  match k with
  | CTight => ends word_char r /\ ends (eq "'"%char) r /\ ends (eq "]"%char) r
  | CValue => ends digit r /\ ends letter r /\ ends (fun c => c = "."%char) r /\ ends (eq "'"%char) r
  | CDotted => ends digit r
  | COper => ends (among "<>=") r
  | CLoose => True
  end.
Lemma qstops_begins a b c r : qadjacent a b = true -> qbegins b c -> qstops a (String c r).
Proof.
  intros A B. destruct a, b; try discriminate A; cbn [qbegins qstops] in *; try exact Logic.I.
  - subst c. repeat split; apply ends_first; try discriminate. intros [W|W]; revert W; [now apply not_letter|now apply not_digit].
  - destruct B as (B1 & B2 & B3 & B4 & B5 & B6). repeat split; apply ends_first; try congruence. intros [W|W]; revert W; [now apply not_letter|now apply not_digit].
  - destruct B as (B1 & B2 & B3 & B4 & B5). repeat split; apply ends_first; try congruence. intros [W|W]; revert W; [now apply not_letter|now apply not_digit].
  - destruct B as (B1 & B2 & B3 & B4 & B5 & B6). repeat split; apply ends_first; try congruence; [now apply not_digit|now apply not_letter].
  - destruct B as (B1 & B2 & B3 & B4 & B5). repeat split; apply ends_first; try congruence; [now apply not_digit|now apply not_letter].
  - apply ends_first. apply not_digit. destruct B as [[B _]| ->]; [now apply letter_not_digit|reflexivity].
  - apply ends_first. destruct B as [[B _]| ->]; [|not_among]. intros X. cbv [among list_ascii_of_string In] in X. decompose [or] X; subst; try discriminate; contradiction.
  - apply ends_first. destruct B as [-> |[B| ->]]; try not_among. intros X. cbv [among list_ascii_of_string In] in X. decompose [or] X; subst; try discriminate; contradiction.
  - apply ends_first. now destruct B as (_ & _ & _ & _ & _ & B).
Qed.
Lemma qstops_nil k : qstops k "".
Proof. destruct k; cbn [qstops]; repeat split; apply ends_nil. Qed.
Lemma qlinked_stops k l : forallb qwf l = true -> qlinked_after k l = true -> qstops k (qspell l).
Proof.
  destruct l as [|p l]; [intros; apply qstops_nil|]. cbn [forallb qlinked_after]. intros W L. apply andb_true_iff in W as [W _], L as [L _].
  destruct (qpiece_begins p W) as (c & s & E & B). unfold qspell. cbn [fold_right]. rewrite E. now apply (qstops_begins k (qclass_of p)).
Qed.

(** ** Tokens of the pieces *)
Lemma qword_lexeme n w r : keyword_ok w = true -> qstops CTight r -> lexeme Mssql n (fst (keyword_token w)) (snd (keyword_token w)) w r.
Proof.
  unfold keyword_ok, keyword_token. intros H (S1 & S2 & S3). apply andb_true_iff in H as [K H]. destruct (find_keyword keywords (to_lower w)) as [k|] eqn:F; [|discriminate].
  destruct w as [|c w]; [discriminate|]. rewrite !andb_true_iff in H. destruct H as [[H1 H2] H3]. apply negb_true_iff, Ascii.eqb_neq in H2. cbn [fst snd].
  apply lx_word; [now apply is_letter_spec| |exact S1| | |apply word_keyword; now apply find_keyword_in].
  - apply (all_chars_spec (fun c => is_letter c || is_digit c)); [|exact H3]. intros d. rewrite <- word_char_spec, orb_false_r. reflexivity.
  - intros (_ & _ & r' & X). subst r. now apply (S2 _ _ eq_refl).
  - intros w' [X _]. contradiction.
Qed.
Lemma qbare_lexeme n w r : mq_word w = true -> qstops CTight r -> lexeme Mssql n (KTok "ID") w w r.
Proof.
  intros H (S1 & S2 & S3). destruct (mq_word_parts w H) as (c & s & -> & H1 & H2 & H3 & H4). destruct (mq_start_letter c H1) as [L1 L2].
  apply lx_word; [now apply is_letter_spec| |exact S1| | |].
  - apply (all_chars_spec (fun c => is_letter c || is_digit c)); [intros d; rewrite <- word_char_spec, orb_false_r; reflexivity|].
    rewrite all_chars_in in *. intros d D. now apply mq_part_char, H2.
  - intros (_ & _ & r' & X). subst r. now apply (S2 _ _ eq_refl).
  - intros w' [X _]. contradiction.
  - apply word_name; [|exact H4]. apply find_keyword_none. now apply keyword_none.
Qed.
Lemma mq_name_parts n : mq_name n = true -> n <> ""%string /\ has_char "]" n = false.
Proof.
  unfold mq_name. intros H. apply andb_true_iff in H as [H1 H2]. apply negb_true_iff, String.eqb_neq in H1. split; [exact H1|].
  clear H1. induction n as [|c n IH]; [reflexivity|]. cbn [all_chars] in H2. apply andb_true_iff in H2 as [H2 H3]. cbn [has_char].
  unfold bracket_char in H2. rewrite !andb_true_iff in H2. destruct H2 as [[H2 _] _]. apply negb_true_iff in H2.
  rewrite (IH H3). rewrite ?H2. rewrite Ascii.eqb_sym in H2. rewrite ?H2. reflexivity.
Qed.
Lemma qname_lexeme n w r : mq_name w = true -> qstops CTight r -> lexeme Mssql n (KTok "ID") w ("[" ++ w ++ "]")%string r.
Proof.
  intros H (_ & _ & S3). destruct (mq_name_parts w H) as [H1 H2]. exact (name_lexeme Mssql n w r H1 H2 S3).
Qed.
Lemma qtext_lexeme n s r : all_chars text_char s = true -> qstops CValue r -> lexeme Mssql n (KTok "STRING") s ("'" ++ quote_twice s ++ "'")%string r.
Proof. intros H (_ & _ & _ & S). apply (lx_string Mssql n "'" s (quote_twice s) r); [constructor|now apply quote_twice_text|exact S]. Qed.
Lemma qnumber z r : (0 <= z)%Z -> ends (fun c => c = "."%char) r -> SpecLexer.number (KTok "INTEGRAL") (show_Z z) r.
Proof.
  intros H S. destruct (show_Z_digits z H) as [D N]. destruct (show_Z z) as [|c s]; [contradiction|].
  apply num_integer; [apply D; now left|intros d X; apply D; now right|exact S].
Qed.
Lemma qnumber_lexeme n z r : qstops CValue r -> lexeme Mssql n (KTok "INTEGRAL") (show_Z z) (show_Z z) r.
Proof.
  intros (S1 & S2 & S3 & _). destruct (Z_le_gt_dec 0 z) as [H|H]; [apply lx_number; [now apply qnumber|exact S1|exact S2]|].
  destruct z as [|p|p]; try lia. rewrite show_Z_neg. cbn [String.append]. apply lx_negative; [now apply qnumber|exact S1|exact S2].
Qed.

Lemma qscans l : forall k g n, gap g -> forallb qwf l = true -> qlinked_after k l = true -> scans Mssql n (g ++ qspell l)%string (qwords l).
Proof.
  induction l as [|p l IH]; intros k g n G W L.
  - unfold qspell, qwords. cbn. rewrite sapp_nil_r. now apply sc_end.
  - cbn [forallb qlinked_after] in W, L. apply andb_true_iff in W as [W1 W2], L as [L1 L2]. pose proof (qlinked_stops _ _ W2 L2) as S.
    assert (T : forall kd v text, lexeme Mssql n kd v text (qspell l) -> scans Mssql n (g ++ text ++ qspell l)%string ((kd, v) :: qwords l)).
    { intros kd v text X. apply sc_token; [exact G|exact X|]. exact (IH _ ""%string _ nil_gap W2 L2). }
    unfold qspell, qwords. cbn [fold_right flat_map]. fold (qspell l) (qwords l). destruct p; cbn [qwf qtext qtoken qclass_of app] in *.
    + rewrite <- sapp_assoc. destruct s as [|c s]; [discriminate|]. eapply IH; [now apply gap_app|exact W2|exact L2].
    + rewrite (surjective_pairing (keyword_token w)). apply T. now apply qword_lexeme.
    + apply T. now apply qbare_lexeme.
    + apply T. now apply qname_lexeme.
    + apply T. now apply qtext_lexeme.
    + apply T. now apply qnumber_lexeme.
    + rewrite (surjective_pairing (op_token o)). apply T. replace (snd (op_token o)) with (operator_value (fst (op_token o))) by (destruct o; reflexivity).
      apply (lx_operator Mssql n _ _ match o with CmpLt => "<>=" | CmpLe => ">" | CmpGt => ">=" | _ => "" end).
      * destruct o; cbn; tauto.
      * cbn [qstops] in S. intros c r E X. apply (S c r E). revert X. destruct o; cbv [among list_ascii_of_string In]; tauto.
    + apply T. change ""%string with (operator_value (KChar c)). apply (lx_operator Mssql n _ _ ""); [|intros d r' _ []].
      apply existsb_exists in W1 as (d & D & E). apply Ascii.eqb_eq in E. subst d.
      cbv [qsigns In] in D. repeat (destruct D as [<-|D]); try contradiction; cbn; tauto.
    + apply T. change ""%string with (operator_value (KChar ".")). apply (lx_operator Mssql n _ _ "0123456789"); [cbn; tauto|]. exact S.
Qed.

Lemma qtoken_free p x : qwf p = true -> In x (qtoken p) -> is_comment (fst x) = false.
Proof.
  intros W H. destruct p; cbn [qtoken] in H; try contradiction; try (destruct H as [<-|[]]; try reflexivity).
  - cbn [qwf] in W. exact (token_free (fun _ => false) (PWord w) _ W (or_introl eq_refl)).
  - destruct o; reflexivity.
Qed.

Theorem qpieces_say l : qwritten l -> says Mssql (qspell l) (qwords l).
Proof.
  intros [W L]. exists (qwords l). split; [|split].
  - assert (G : gap (String c_nul "")) by (apply (gap_nul ""); intros c []). exact (qscans l CLoose (String c_nul "") 0 G W L).
  - unfold without_comments. assert (F : forall x, In x (qwords l) -> is_comment (fst x) = false).
    { unfold qwords. intros x X. apply in_flat_map in X as (p & P & X). rewrite forallb_forall in W. eapply qtoken_free; eauto. }
    induction (qwords l) as [|x w IH]; [reflexivity|]. cbn [filter]. rewrite (F x (or_introl eq_refl)). cbn [negb]. rewrite IH; [reflexivity|]. intros y Y. apply F. now right.
  - left. intros x X. unfold qwords in X. apply in_flat_map in X as (p & P & X). rewrite forallb_forall in W. eapply qtoken_free; eauto.
Qed.

(** ** Pieces that may follow each other *)
Definition qloose (k : qclass) : Prop := k = CLoose.
Definition qloose_first (r : list ms_piece) : Prop := match r with [] => True | p :: _ => qclass_of p = CLoose end.
Definition qchunk (l : list ms_piece) : Prop := forall r, qloose_first r -> qlinked_after CLoose r = true -> qlinked_after CLoose (l ++ r) = true.
(** [qpart l]: well written after a blank; [qnext l]: after anything. *)
Definition qpart (l : list ms_piece) : Prop := forallb qwf l = true /\ qchunk l.
Definition qnext (l : list ms_piece) : Prop := qpart l /\ qloose_first l.
Lemma qlink_loose k r : k <> CDotted -> qloose_first r -> qlinked_after CLoose r = true -> qlinked_after k r = true.
Proof.
  destruct r as [|p r]; [reflexivity|]. cbn [qloose_first qlinked_after]. intros K E. rewrite E. intros L. apply andb_true_iff in L as [_ L]. rewrite L, andb_true_r. now destruct k.
Qed.
Lemma qpart_nil : qpart [].
Proof. split; [reflexivity|now intros r _ L]. Qed.
Lemma qnext_nil : qnext [].
Proof. split; [exact qpart_nil|exact Logic.I]. Qed.
Lemma qnext_part l : qnext l -> qpart l.
Proof. now intros [P _]. Qed.
Lemma qloose_app a b : qloose_first a -> qloose_first b -> qloose_first (a ++ b).
Proof. destruct a; now intros. Qed.
Lemma qpart_app a b : qpart a -> qnext b -> qpart (a ++ b).
Proof.
  intros [A C] [[B D] F]. split; [now rewrite forallb_app, A, B|]. intros r R L. rewrite <- app_assoc. apply C; [now apply qloose_app|now apply D].
Qed.
Lemma qnext_app a b : qnext a -> qnext b -> qnext (a ++ b).
Proof. intros [A L] B. split; [now apply qpart_app|]. apply qloose_app; [exact L|exact (proj2 B)]. Qed.
Lemma qnext_loose p l : qclass_of p = CLoose -> qwf p = true -> qpart l -> qnext (p :: l).
Proof.
  intros C W [A B]. split; [|exact C]. split; [cbn [forallb]; now rewrite W|]. intros r R L. cbn [app qlinked_after]. rewrite C. cbn [qadjacent andb]. now apply B.
Qed.
Lemma qpart_tight p l : qclass_of p = CTight \/ qclass_of p = CValue \/ qclass_of p = COper -> qwf p = true -> qnext l -> qpart (p :: l).
Proof.
  intros C W [[A B] F]. split; [cbn [forallb]; now rewrite W|]. intros r R L. cbn [app qlinked_after qadjacent andb].
  apply qlink_loose; [destruct C as [-> |[-> | ->]]; discriminate|now apply qloose_app|now apply B].
Qed.
Lemma qpart_dot p q l : qclass_of p = CTight -> qwf p = true -> qclass_of q = CTight -> qpart (q :: l) -> qpart (p :: WDot :: q :: l).
Proof.
  intros C W D [A B]. split; [cbn [forallb] in *; now rewrite W|]. intros r R L. specialize (B r R L). cbn [app qlinked_after qclass_of] in *. rewrite C, D in *. cbn [qadjacent andb] in *. exact B.
Qed.
Lemma qnext_flat_map {A} (f : A -> list ms_piece) l : (forall x, In x l -> qnext (f x)) -> qnext (flat_map f l).
Proof. induction l as [|x l IH]; [intros _; exact qnext_nil|]. intros H. cbn [flat_map]. apply qnext_app; [apply H; now left|apply IH; intros y Y; apply H; now right]. Qed.
Lemma qpart_written l : qpart l -> qwritten l.
Proof. intros [A B]. split; [exact A|]. rewrite <- (app_nil_r l). now apply B. Qed.
(** Fixed words. *)
Ltac qparts :=
  cbn [app]; repeat first
    [exact qpart_nil | exact qnext_nil | assumption
    | apply qpart_dot; [reflexivity|try assumption; try reflexivity|reflexivity|]
    | apply qpart_tight; [cbn; tauto|try assumption; try reflexivity|] | apply qnext_loose; [reflexivity|try assumption; try reflexivity|] | apply qnext_part].
