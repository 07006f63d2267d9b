(** The tokenizer and the lexical grammar. *)
From Coq Require Import String Ascii List ZArith Bool Arith Lia.
From Verif Require Import GoStr GoStrFacts Ast Keywords Lexer SpecLexer.
Import ListNotations.
Local Open Scope string_scope.

(** ** Character classes *)
Definition every_ascii : list ascii := map ascii_of_nat (seq 0 256).

Lemma every_ascii_in c : In c every_ascii.
Proof.
  unfold every_ascii. rewrite <- (ascii_nat_embedding c). apply in_map, in_seq.
  split; [lia|]. apply nat_ascii_bounded.
Qed.

Lemma by_enumeration (f g : ascii -> bool) :
  forallb (fun c => Bool.eqb (f c) (g c)) every_ascii = true -> forall c, f c = g c.
Proof.
  intros H c. rewrite forallb_forall in H. apply eqb_prop, H, every_ascii_in.
Qed.

Lemma one_of_in l c : one_of l c = true <-> In c l.
Proof.
  unfold one_of. rewrite existsb_exists. split.
  - intros (d & H & E). apply Ascii.eqb_eq in E. now subst.
  - intros H. exists c. split; [exact H|apply Ascii.eqb_refl].
Qed.

Lemma among_class f l : forallb (fun c => Bool.eqb (f c) (one_of (list_ascii_of_string l) c)) every_ascii = true ->
  forall c, f c = true <-> among l c.
Proof. intros H c. rewrite (by_enumeration _ _ H c). apply one_of_in. Qed.

Lemma is_letter_spec c : is_letter c = true <-> letter c.
Proof.
  unfold letter, lower_letter, upper_letter, among.
  rewrite <- !in_app_iff. rewrite <- one_of_in.
  rewrite (by_enumeration is_letter (one_of (list_ascii_of_string "abcdefghijklmnopqrstuvwxyz" ++ list_ascii_of_string "ABCDEFGHIJKLMNOPQRSTUVWXYZ" ++ list_ascii_of_string "_@")) eq_refl c). reflexivity.
Qed.
Lemma is_digit_spec c : is_digit c = true <-> digit c.
Proof. now apply among_class. Qed.
Lemma is_hex_spec c : is_hex_digit c = true <-> hex_digit c.
Proof. now apply among_class. Qed.
Lemma is_bit_spec c : is_bit c = true <-> bit c.
Proof. now apply among_class. Qed.
Lemma is_blank_spec c : is_blank c = true <-> blank c.
Proof.
  unfold is_blank, blank. rewrite one_of_in. simpl. intuition.
Qed.
Lemma is_carat_spec c : is_carat c = true <-> (quote c \/ c = "."%char).
Proof. unfold is_carat, quote. rewrite one_of_in. simpl. intuition. Qed.

(** ** Runs of characters *)
Lemma all_chars_spec f P s : (forall c, f c = true <-> P c) -> (all_chars f s = true <-> all_of P s).
Proof.
  intros E. unfold all_of. induction s as [|a s IH]; cbn [all_chars list_ascii_of_string In].
  - split; [intros _ c []|reflexivity].
  - rewrite andb_true_iff, IH, E. split.
    + intros [H1 H2] c [<-|H]; auto.
    + intros H. split; auto.
Qed.

Lemma at_class_ends f P r : (forall c, f c = true <-> P c) -> (at_class f r = false <-> ends P r).
Proof.
  intros E. unfold ends. destruct r as [|a r]; cbn [at_class].
  - split; [discriminate|reflexivity].
  - rewrite <- not_true_iff_false, E. split.
    + intros H c r' X. now injection X as <- <-.
    + intros H. now apply (H a r).
Qed.

Lemma at_char_class c : forall s, at_char c s = at_class (fun d => Ascii.eqb d c) s.
Proof. now intros []. Qed.

Lemma at_char_ends c r : at_char c r = false <-> ends (eq c) r.
Proof.
  rewrite at_char_class. apply at_class_ends. intros d. rewrite Ascii.eqb_eq. split; congruence.
Qed.

Lemma at_char_some c s : at_char c s = true <-> exists r, s = String c r.
Proof.
  destruct s as [|d s]; cbn [at_char]; [split; [discriminate|intros [r H]; discriminate]|].
  rewrite Ascii.eqb_eq. split; [intros ->; now exists s|intros [r H]; congruence].
Qed.

Lemma at_class_some p s : at_class p s = true <-> exists c r, s = String c r /\ p c = true.
Proof.
  destruct s as [|d s]; cbn [at_class]; [split; [discriminate|intros (c & r & H & _); discriminate]|].
  split; [intros H; now exists d, s|intros (c & r & H & E); congruence].
Qed.

Lemma span_app p a b : all_chars p a = true -> at_class p b = false -> span p (a ++ b) = (a, b).
Proof.
  intros Ha Hb. induction a as [|c a IH]; cbn [append span].
  - destruct b as [|c b]; [reflexivity|]. cbn in Hb. cbn. now rewrite Hb.
  - cbn [all_chars] in Ha. apply andb_true_iff in Ha. destruct Ha as [H1 H2]. rewrite H1. now rewrite IH.
Qed.

Lemma span_inv p s a b : span p s = (a, b) -> s = a ++ b /\ all_chars p a = true /\ at_class p b = false.
Proof.
  revert a b. induction s as [|c s IH]; intros a b; cbn [span].
  - intros [= <- <-]. auto.
  - destruct (p c) eqn:E.
    + destruct (span p s) as [a' b'] eqn:F. intros [= <- <-]. destruct (IH a' b' eq_refl) as (-> & H1 & H2).
      cbn. rewrite E. auto.
    + intros [= <- <-]. cbn. auto.
Qed.

Lemma span_spec f P s a b : (forall c, f c = true <-> P c) ->
  span f s = (a, b) <-> s = a ++ b /\ all_of P a /\ ends P b.
Proof.
  intros E. rewrite <- (all_chars_spec f P a E), <- (at_class_ends f P b E). split.
  - apply span_inv.
  - intros (-> & H1 & H2). now apply span_app.
Qed.

Lemma all_of_cons P c s : all_of P (String c s) <-> P c /\ all_of P s.
Proof. unfold all_of. cbn [list_ascii_of_string In]. split; [auto|]. intros [H1 H2] d [<-|H]; auto. Qed.
Lemma all_of_nil P : all_of P "".
Proof. intros c []. Qed.
Lemma ends_nil P : ends P "".
Proof. intros c r H. discriminate. Qed.

(** ** Gaps *)
Lemma skip_blank_spec s : exists b x, s = b ++ x /\ all_of blank b /\ ends blank x /\ skip_blank s = x.
Proof.
  unfold skip_blank. destruct (span is_blank s) as [b x] eqn:E. apply (span_spec _ _ _ _ _ is_blank_spec) in E.
  destruct E as (-> & H1 & H2). now exists b, x.
Qed.
Lemma skip_blank_app b x : all_of blank b -> ends blank x -> skip_blank (b ++ x) = x.
Proof.
  intros H1 H2. unfold skip_blank. rewrite (proj2 (span_spec _ _ (b ++ x) b x is_blank_spec)); auto.
Qed.

Definition begin (s : string) : string := if at_char c_nul s then next s else s.

Lemma begin_skip s : exists g x, s = g ++ x /\ gap g /\ ends blank x /\ skip_blank (begin s) = x.
Proof.
  unfold begin. destruct (at_char c_nul s) eqn:E.
  - apply at_char_some in E. destruct E as [r ->]. cbn [next].
    destruct (skip_blank_spec r) as (b & x & -> & H1 & H2 & H3). exists (String c_nul b), x.
    split; [reflexivity|]. split; [now apply gap_nul|]. auto.
  - destruct (skip_blank_spec s) as (b & x & -> & H1 & H2 & H3). exists b, x. split; [reflexivity|].
    split; [now apply gap_blanks|]. auto.
Qed.

Lemma begin_gap g x : gap g -> ends blank x -> ends (eq c_nul) x -> skip_blank (begin (g ++ x)) = x.
Proof.
  intros Hg Hb Hn. destruct Hg as [b H|b H].
  - unfold begin. assert (E : at_char c_nul (b ++ x) = false).
    { apply at_char_ends. destruct b as [|c b]; [exact Hn|]. apply all_of_cons in H. destruct H as [H _].
      intros d r' [= <- _] <-. unfold blank in H. cbv in H. intuition discriminate. }
    rewrite E. now apply skip_blank_app.
  - unfold begin. cbn. now apply skip_blank_app.
Qed.

(** ** Words *)
Fixpoint distinct (l : list string) : bool :=
  match l with [] => true | x :: l' => negb (existsb (String.eqb x) l') && distinct l' end.

Lemma distinct_spec l : distinct l = true -> NoDup l.
Proof.
  induction l as [|x l IH]; cbn; [constructor|]. rewrite andb_true_iff, negb_true_iff. intros [H1 H2].
  constructor; [|auto]. intros H. apply not_true_iff_false in H1. apply H1, existsb_exists. exists x.
  split; [exact H|apply String.eqb_refl].
Qed.

Lemma keywords_distinct : NoDup (map fst keywords).
Proof. apply distinct_spec. vm_compute. reflexivity. Qed.

Lemma find_keyword_in l w k : find_keyword l w = Some k -> In (w, k) l.
Proof.
  induction l as [|[a b] l IH]; cbn; [discriminate|]. destruct (String.eqb_spec a w) as [->|N]; [intros [= ->]|]; auto.
Qed.

Lemma find_keyword_some l w k : NoDup (map fst l) -> In (w, k) l -> find_keyword l w = Some k.
Proof.
  induction l as [|[a b] l IH]; cbn; [easy|]. intros N [[= -> ->]|H].
  - now rewrite String.eqb_refl.
  - inversion N as [|? ? Na Nd]; subst. destruct (String.eqb_spec a w) as [->|_]; [|auto].
    destruct Na. now apply (in_map fst l (w, k)).
Qed.

Lemma find_keyword_none l w : find_keyword l w = None <-> (forall k, ~ In (w, k) l).
Proof.
  induction l as [|[a b] l IH]; cbn; [now split; auto|]. destruct (String.eqb_spec a w) as [->|N].
  - split; [discriminate|]. intros H. destruct (H b). now left.
  - rewrite IH. split; intros H k; [intros [[= -> _]|X]|intros X]; [easy|now apply (H k)|apply (H k); now right].
Qed.

Definition word_token (w : string) : kind * string :=
  match find_keyword keywords (to_lower w) with
  | Some k => (KTok k, to_lower w)
  | None => if String.eqb (to_lower w) "dual" then (KTok "ID", to_lower w) else (KTok "ID", w)
  end.

Lemma word_token_spec w k v : word w k v <-> word_token w = (k, v).
Proof.
  unfold word_token. split.
  - intros [x t H|x H|x H1 H2].
    + rewrite (find_keyword_some _ _ _ keywords_distinct H). reflexivity.
    + rewrite H. reflexivity.
    + apply find_keyword_none in H1. rewrite H1. apply String.eqb_neq in H2. now rewrite H2.
  - destruct (find_keyword keywords (to_lower w)) as [t|] eqn:E.
    + intros [= <- <-]. apply word_keyword. now apply find_keyword_in.
    + destruct (String.eqb_spec (to_lower w) "dual") as [E2|N]; intros [= <- <-].
      * now apply word_dual.
      * apply word_name; [|exact N]. now apply find_keyword_none.
Qed.

Lemma scan_identifier_eq c sysvar s :
  scan_identifier c sysvar s =
  let (w, r) := span (fun c => is_letter c || is_digit c || (sysvar && is_carat c)) s in
  (fst (word_token (String c w)), snd (word_token (String c w)), r).
Proof.
  unfold scan_identifier, word_token. destruct (span _ s) as [w r].
  destruct (find_keyword keywords (to_lower (String c w))); [reflexivity|].
  destruct (String.eqb (to_lower (String c w)) "dual"); reflexivity.
Qed.

Lemma word_char_spec c : is_letter c || is_digit c || (false && is_carat c) = true <-> word_char c.
Proof. unfold word_char. rewrite andb_false_l, orb_false_r, orb_true_iff, is_letter_spec, is_digit_spec. reflexivity. Qed.
Lemma variable_char_spec c : is_letter c || is_digit c || (true && is_carat c) = true <-> variable_char c.
Proof.
  unfold variable_char, word_char. rewrite andb_true_l, !orb_true_iff, is_letter_spec, is_digit_spec, is_carat_spec.
  tauto.
Qed.

(** ** Quoted names *)
Lemma literal_sound sep s : forall seen v r, literal_identifier sep seen s = (true, v, r) ->
  (if seen then String sep s else s) = doubled sep v ++ String sep r /\ ends (eq sep) r.
Proof.
  induction s as [|c s IH]; intros seen v r; cbn [literal_identifier].
  - intros [= -> <- <-]. cbn. split; [reflexivity|apply ends_nil].
  - destruct seen.
    + destruct (Ascii.eqb_spec c sep) as [->|N].
      * destruct (literal_identifier sep false s) as [[ok v'] r'] eqn:E. intros [= -> <- <-].
        destruct (IH false v' r' E) as [-> H]. cbn [doubled]. now rewrite Ascii.eqb_refl.
      * intros [= <- <-]. cbn. split; [reflexivity|]. intros d x [= <- _]. congruence.
    + destruct (Ascii.eqb_spec c sep) as [->|N].
      * intros H. exact (IH true v r H).
      * destruct (literal_identifier sep false s) as [[ok v'] r'] eqn:E. intros [= -> <- <-].
        destruct (IH false v' r' E) as [-> H]. cbn [doubled]. apply Ascii.eqb_neq in N. now rewrite N.
Qed.

Lemma literal_error sep s : forall seen v r, literal_identifier sep seen s = (false, v, r) -> r = "".
Proof.
  induction s as [|c s IH]; intros seen v r; cbn [literal_identifier]; [congruence|].
  destruct seen; destruct (Ascii.eqb c sep); try discriminate; try (apply IH);
    destruct (literal_identifier sep false s) as [[ok v'] r'] eqn:E; intros [= -> <- <-]; eapply IH; eassumption.
Qed.

Lemma literal_complete sep v r : ends (eq sep) r -> literal_identifier sep false (doubled sep v ++ String sep r) = (true, v, r).
Proof.
  intros H. induction v as [|c v IH]; cbn [doubled append].
  - cbn. rewrite Ascii.eqb_refl. destruct r as [|d r]; [reflexivity|]. cbn.
    destruct (Ascii.eqb_spec d sep) as [->|N]; [|reflexivity]. now destruct (H sep r eq_refl).
  - destruct (Ascii.eqb_spec c sep) as [->|N].
    + cbn [append literal_identifier]. rewrite !Ascii.eqb_refl. now rewrite IH.
    + cbn [append literal_identifier]. apply Ascii.eqb_neq in N. rewrite N. now rewrite IH.
Qed.

(** ** Strings *)
Lemma escaped_spec d c : escaped d c <-> match sql_decode d with Some x => x | None => d end = c.
Proof.
  unfold sql_decode. split.
  - intros [x y H|y H].
    + unfold encode_ref in H. repeat (destruct H as [H|H]; [injection H as <- <-; reflexivity|]). destruct H.
    + destruct (find _ encode_ref) as [[a b]|] eqn:E; [|reflexivity]. apply find_some in E.
      destruct E as [E1 E2]. cbn in E2. apply Ascii.eqb_eq in E2. subst b. now destruct (H a).
  - destruct (find _ encode_ref) as [[a b]|] eqn:E; intros <-.
    + apply find_some in E. destruct E as [E1 E2]. cbn in E2. apply Ascii.eqb_eq in E2. subst b. now apply esc_named.
    + apply esc_other. intros c H. apply (find_none _ _ E) in H. cbn in H. now rewrite Ascii.eqb_refl in H.
Qed.

Lemma string_sound_n q n : q <> "\"%char -> forall s v r, String.length s <= n -> string_body q s = (true, v, r) ->
  exists body, s = body ++ String q r /\ string_text q v body /\ ends (eq q) r.
Proof.
  intros Hq. induction n as [|n IH]; intros s v r L.
  - destruct s; [discriminate|cbn in L; lia].
  - destruct s as [|c s]; [discriminate|]. cbn [string_body]. cbn in L.
    destruct (Ascii.eqb_spec c "\") as [->|N1].
    + destruct s as [|d s]; [discriminate|]. destruct (string_body q s) as [[ok v'] r'] eqn:E. intros [= -> <- <-].
      destruct (IH s v' r') as (body & -> & H1 & H2); [cbn in L; lia|exact E|].
      exists (String "\" (String d body)). split; [reflexivity|]. split; [|exact H2]. apply st_escape; [|exact H1].
      now apply escaped_spec.
    + destruct (Ascii.eqb_spec c q) as [->|N2].
      * destruct s as [|d s].
        -- intros [= <- <-]. exists "". split; [reflexivity|]. split; [constructor|apply ends_nil].
        -- destruct (Ascii.eqb_spec d q) as [->|N3].
           ++ destruct (string_body q s) as [[ok v'] r'] eqn:E. intros [= -> <- <-].
              destruct (IH s v' r') as (body & -> & H1 & H2); [cbn in L; lia|exact E|].
              exists (String q (String q body)). split; [reflexivity|]. split; [now apply st_double|exact H2].
           ++ intros [= <- <-]. exists "". split; [reflexivity|]. split; [constructor|].
              intros x y [= <- _]. congruence.
      * destruct (string_body q s) as [[ok v'] r'] eqn:E. intros [= -> <- <-].
        destruct (IH s v' r') as (body & -> & H1 & H2); [lia|exact E|].
        exists (String c body). split; [reflexivity|]. split; [now apply st_plain|exact H2].
Qed.

Lemma string_error_n q n : forall s v r, String.length s <= n -> string_body q s = (false, v, r) -> r = "".
Proof.
  induction n as [|n IH]; intros s v r L; (destruct s as [|c s]; [cbn; congruence|]); cbn in L; [lia|]. cbn [string_body].
  destruct (Ascii.eqb c "\").
  - destruct s as [|d s]; [congruence|]. destruct (string_body q s) as [[ok v'] r'] eqn:E. intros [= -> <- <-].
    apply (IH s v' r'); [cbn in L; lia|exact E].
  - destruct (Ascii.eqb c q).
    + destruct s as [|d s]; [congruence|]. destruct (Ascii.eqb d q); [|discriminate].
      destruct (string_body q s) as [[ok v'] r'] eqn:E. intros [= -> <- <-].
      apply (IH s v' r'); [cbn in L; lia|exact E].
    + destruct (string_body q s) as [[ok v'] r'] eqn:E. intros [= -> <- <-].
      apply (IH s v' r'); [lia|exact E].
Qed.

Lemma string_complete q v body r : q <> "\"%char -> string_text q v body -> ends (eq q) r ->
  string_body q (body ++ String q r) = (true, v, r).
Proof.
  intros Hq H Hr. apply Ascii.eqb_neq in Hq. induction H as [|c v s N1 N2 H IH|v s H IH|c d v s He H IH]; cbn [append].
  - cbn. rewrite Hq, Ascii.eqb_refl. destruct r as [|d r]; [reflexivity|].
    destruct (Ascii.eqb_spec d q) as [->|N]; [|reflexivity]. now destruct (Hr q r eq_refl).
  - cbn [string_body]. apply Ascii.eqb_neq in N1, N2. rewrite N1, N2. now rewrite IH.
  - cbn [string_body]. rewrite Hq, !Ascii.eqb_refl. now rewrite IH.
  - cbn [string_body]. rewrite Ascii.eqb_refl, IH. apply escaped_spec in He. now rewrite He.
Qed.

(** ** Comments *)
Lemma free_of_contains x s : free_of x s <-> contains s x = false.
Proof.
  rewrite <- not_true_iff_false, contains_spec. unfold free_of. split.
  - intros H (a & b & E). now apply (H a b).
  - intros H a b E. apply H. now exists a, b.
Qed.

Lemma free_of_cons x c s : free_of x (String c s) <-> has_prefix (String c s) x = false /\ free_of x s.
Proof. rewrite !free_of_contains. cbn [contains]. now rewrite orb_false_iff. Qed.

Lemma comment_sound s v r : comment_body s = (true, v, r) -> s = v ++ "*/" ++ r /\ free_of "*/" (v ++ "*").
Proof.
  revert v r. induction s as [|c s IH]; intros v r; cbn [comment_body]; [discriminate|].
  destruct (Ascii.eqb c "*" && at_char "/" s) eqn:E.
  - apply andb_true_iff in E. destruct E as [E1 E2]. apply Ascii.eqb_eq in E1. subst c.
    apply at_char_some in E2. destruct E2 as [s' ->]. intros [= <- <-]. split; [reflexivity|].
    now apply free_of_contains.
  - destruct (comment_body s) as [[ok v'] r'] eqn:F. intros [= -> <- <-].
    destruct (IH v' r' eq_refl) as [-> H]. split; [reflexivity|]. cbn [append]. apply free_of_cons. split; [|exact H].
    cbn [has_prefix]. destruct (Ascii.eqb_spec "*" c) as [<-|N]; [|reflexivity]. cbn in E.
    destruct v' as [|d v']; [reflexivity|]. cbn [append at_char] in E. cbn [append has_prefix].
    destruct (Ascii.eqb_spec "/" d) as [<-|N]; [discriminate E|reflexivity].
Qed.

Lemma comment_error s v r : comment_body s = (false, v, r) -> r = "".
Proof.
  revert v r. induction s as [|c s IH]; intros v r; cbn [comment_body]; [congruence|].
  destruct (Ascii.eqb c "*" && at_char "/" s); [discriminate|].
  destruct (comment_body s) as [[ok v'] r'] eqn:F. intros [= -> <- <-]. now apply (IH v').
Qed.

Lemma comment_complete v r : free_of "*/" (v ++ "*") -> comment_body (v ++ "*/" ++ r) = (true, v, r).
Proof.
  induction v as [|c v IH]; cbn [append]; intros H; [reflexivity|].
  apply free_of_cons in H. destruct H as [H1 H2]. cbn [comment_body].
  assert (E : Ascii.eqb c "*" && at_char "/" (v ++ "*/" ++ r) = false).
  { destruct (Ascii.eqb_spec c "*") as [->|N]; [|reflexivity]. cbn [andb]. destruct v as [|d v]; [reflexivity|].
    cbn [append at_char has_prefix] in H1 |- *. destruct (Ascii.eqb_spec d "/") as [->|N]; [|reflexivity]. destruct v; discriminate. }
  cbn [append] in E. rewrite E. cbn [append] in IH. now rewrite IH.
Qed.

Lemma line_sound s a r : span (fun c => negb (Ascii.eqb c c_lf)) s = (a, r) ->
  free_of nl a /\ (r = "" /\ s = a \/ exists r', r = String c_lf r' /\ s = a ++ nl ++ r').
Proof.
  intros H. apply span_inv in H. destruct H as (-> & Ha & Hr). split.
  - apply free_of_contains. clear Hr. induction a as [|c a IH]; [reflexivity|]. cbn [all_chars] in Ha.
    apply andb_true_iff in Ha. destruct Ha as [H1 H2]. cbn [contains]. rewrite (IH H2), orb_false_r.
    unfold nl. cbn [has_prefix]. apply negb_true_iff in H1. rewrite Ascii.eqb_sym in H1.
    change (ascii_of_nat 10) with c_lf. now rewrite H1.
  - destruct r as [|c r]; [left; split; [reflexivity|apply sapp_nil_r]|]. right. exists r. cbn in Hr.
    apply negb_false_iff, Ascii.eqb_eq in Hr. subst c. auto.
Qed.

Lemma line_span a r : free_of nl a -> (r = "" \/ exists r', r = String c_lf r') ->
  span (fun c => negb (Ascii.eqb c c_lf)) (a ++ r) = (a, r).
Proof.
  intros Ha Hr. apply span_app.
  - induction a as [|c a IH]; [reflexivity|]. apply free_of_cons in Ha. destruct Ha as [H1 H2].
    cbn [all_chars]. rewrite (IH H2), andb_true_r. unfold nl in H1. cbn [has_prefix] in H1.
    change (ascii_of_nat 10) with c_lf in H1. destruct (Ascii.eqb_spec c_lf c) as [<-|N]; [destruct a; discriminate|].
    apply negb_true_iff, Ascii.eqb_neq. congruence.
  - destruct Hr as [->|[r' ->]]; reflexivity.
Qed.

(** ** Numbers *)
Lemma e_spec c : one_of ["e"; "E"]%char c = true <-> among "eE" c.
Proof. apply one_of_in. Qed.
Lemma sign_spec c : one_of ["+"; "-"]%char c = true <-> among "+-" c.
Proof. apply one_of_in. Qed.
Lemma x_spec c : one_of ["x"; "X"]%char c = true <-> among "xX" c.
Proof. apply one_of_in. Qed.

Lemma among_eE c : among "eE" c -> letter c.
Proof. unfold letter, lower_letter, upper_letter, among. cbn. intuition (subst; auto 40). Qed.
Lemma among_xX c : among "xX" c -> letter c.
Proof. unfold letter, lower_letter, upper_letter, among. cbn. intuition (subst; auto 40). Qed.
Lemma digit_not_sign c : digit c -> ~ among "+-" c.
Proof. unfold digit, among. cbn. intros H1 H2. intuition (subst; discriminate). Qed.
Lemma digit_not_letter c : digit c -> ~ letter c.
Proof.
  intros H1 H2. apply is_digit_spec in H1. apply is_letter_spec in H2.
  assert (X : is_digit c && is_letter c = true) by now rewrite H1, H2.
  rewrite (by_enumeration (fun c => is_digit c && is_letter c) (fun _ => false) eq_refl c) in X. discriminate.
Qed.

Lemma exponent_sound tok buf s k v r : scan_exponent tok buf s = (k, v, r) ->
  (k = tok /\ v = buf /\ r = s /\ ends (among "eE") s) \/
  (k = KTok "FLOAT" /\ exists x, exponent x /\ s = x ++ r /\ v = buf ++ x /\ ends digit r /\ exponent_ends x r).
Proof.
  unfold scan_exponent. destruct (at_class _ s) eqn:E.
  - apply at_class_some in E. destruct E as (e & s' & -> & E). apply e_spec in E. cbn [take next].
    destruct (at_class (one_of ["+"; "-"]%char) s') eqn:G.
    + apply at_class_some in G. destruct G as (g & s'' & -> & G). apply sign_spec in G. cbn [take next].
      destruct (span is_digit s'') as [w r'] eqn:F. intros [= <- <- <-].
      apply (span_spec _ _ _ _ _ is_digit_spec) in F. destruct F as (-> & F1 & F2).
      right. split; [reflexivity|]. exists (String e (String g w)). split; [now apply exp_signed|].
      split; [reflexivity|]. split; [now rewrite !sapp_assoc|]. split; [exact F2|]. intros x X. discriminate X.
    + destruct (span is_digit s') as [w r'] eqn:F. intros [= <- <- <-].
      apply (span_spec _ _ _ _ _ is_digit_spec) in F. destruct F as (-> & F1 & F2).
      right. split; [reflexivity|]. exists (String e w). split; [now apply exp_plain|].
      split; [reflexivity|]. split; [now rewrite !sapp_assoc|]. split; [exact F2|]. intros x [= _ ->].
      apply (at_class_ends _ _ _ sign_spec). exact G.
  - intros [= <- <- <-]. left. split; [reflexivity|]. split; [reflexivity|]. split; [reflexivity|].
    now apply (at_class_ends _ _ _ e_spec).
Qed.

Lemma exponent_complete tok buf x r : exponent x -> ends digit r -> exponent_ends x r ->
  scan_exponent tok buf (x ++ r) = (KTok "FLOAT", buf ++ x, r).
Proof.
  intros Hx Hd He. unfold scan_exponent. destruct Hx as [e w E W|e g w E G W]; cbn [append at_class take next].
  - apply e_spec in E. rewrite E.
    assert (X : at_class (one_of ["+"; "-"]%char) (w ++ r) = false).
    { apply (at_class_ends _ _ _ sign_spec). destruct w as [|d w]; [now apply (He e)|].
      apply all_of_cons in W. destruct W as [W _]. intros c y [= <- _]. now apply digit_not_sign. }
    rewrite X. rewrite (proj2 (span_spec _ _ (w ++ r) w r is_digit_spec)) by auto. now rewrite sapp_assoc.
  - apply e_spec in E. rewrite E. apply sign_spec in G. rewrite G.
    rewrite (proj2 (span_spec _ _ (w ++ r) w r is_digit_spec)) by auto. now rewrite !sapp_assoc.
Qed.

Lemma no_exponent tok buf s : ends letter s -> scan_exponent tok buf s = (tok, buf, s).
Proof.
  intros H. unfold scan_exponent. assert (E : at_class (one_of ["e"; "E"]%char) s = false).
  { apply (at_class_ends _ _ _ e_spec). intros c y Hs Hc. apply (H c y Hs). now apply among_eE. }
  now rewrite E.
Qed.

Definition decimal (d : ascii) (s : string) : lexed :=
  let (w, r) := span is_digit s in
  if at_char "." r then
    let (f, r') := span is_digit (next r) in scan_exponent (KTok "FLOAT") (String d w ++ "." ++ f) r'
  else scan_exponent (KTok "INTEGRAL") (String d w) r.

Lemma scan_number_eq d s : digit d -> scan_number false (String d s) =
  number_exit (if Ascii.eqb d "0" && at_class (one_of ["x"; "X"]%char) s
               then let (w, r) := span is_hex_digit (next s) in (KTok "HEXNUM", "0" ++ take 1 s ++ w, r)
               else decimal d s).
Proof.
  intros Hd. unfold scan_number. f_equal. cbn [at_char]. destruct (Ascii.eqb_spec d "0") as [->|N].
  - cbn [next]. rewrite String.eqb_refl. cbn [andb]. destruct (at_class _ s); [reflexivity|].
    unfold decimal. destruct (span is_digit s) as [w r]. reflexivity.
  - cbn [andb String.eqb]. unfold decimal. cbn [span]. apply is_digit_spec in Hd. rewrite Hd.
    destruct (span is_digit s) as [w r]. reflexivity.
Qed.

Lemma number_exit_inv x k v r : number_exit x = (k, v, r) ->
  (k = lex_error /\ exists k', x = (k', v, r)) \/ (x = (k, v, r) /\ ends letter r).
Proof.
  destruct x as [[k' v'] r']. unfold number_exit. destruct (at_class is_letter r') eqn:E; intros [= <- <- <-].
  - left. split; [reflexivity|]. now exists k'.
  - right. split; [reflexivity|]. now apply (at_class_ends _ _ _ is_letter_spec).
Qed.

Lemma number_exit_eq k v r : ends letter r -> number_exit (k, v, r) = (k, v, r).
Proof. intros H. unfold number_exit. apply (at_class_ends _ _ _ is_letter_spec) in H. now rewrite H. Qed.

Definition number_ok (s : string) (x : lexed) : Prop :=
  let '(k, v, r) := x in s = v ++ r /\ v <> "" /\ (k = lex_error \/ number k v r /\ ends digit r /\ ends letter r).

Lemma number_sound d s : digit d -> number_ok (String d s) (scan_number false (String d s)).
Proof.
  intros Hd. rewrite (scan_number_eq d s Hd). destruct (number_exit _) as [[k v] r] eqn:E.
  apply number_exit_inv in E.
  set (x := if Ascii.eqb d "0" && at_class (one_of ["x"; "X"]%char) s then _ else _) in E.
  assert (X : let '(k, v, r) := x in String d s = v ++ r /\ v <> "" /\ (ends letter r -> number k v r /\ ends digit r)).
  { unfold x. clear E x k v r. destruct (Ascii.eqb d "0" && at_class (one_of ["x"; "X"]%char) s) eqn:E.
    - apply andb_true_iff in E. destruct E as [E1 E2]. apply Ascii.eqb_eq in E1. subst d.
      apply at_class_some in E2. destruct E2 as (c & s' & -> & E2). apply x_spec in E2. cbn [next take].
      destruct (span is_hex_digit s') as [w r] eqn:F. apply (span_spec _ _ _ _ _ is_hex_spec) in F.
      destruct F as (-> & F1 & F2). split; [reflexivity|]. split; [discriminate|]. intros Hl. split.
      + now apply num_hex.
      + intros a b Hr Ha. apply (F2 a b Hr). apply is_hex_spec. apply is_digit_spec in Ha. unfold is_hex_digit. now rewrite Ha.
    - clear E. unfold decimal. destruct (span is_digit s) as [w r] eqn:F.
      apply (span_spec _ _ _ _ _ is_digit_spec) in F. destruct F as (-> & F1 & F2).
      destruct (at_char "." r) eqn:Ep.
      + apply at_char_some in Ep. destruct Ep as [r1 ->]. cbn [next].
        destruct (span is_digit r1) as [f r2] eqn:G. apply (span_spec _ _ _ _ _ is_digit_spec) in G.
        destruct G as (-> & G1 & G2). destruct (scan_exponent _ _ r2) as [[k v] r3] eqn:H.
        apply exponent_sound in H. destruct H as [(-> & -> & -> & H)|(-> & x & Hx & -> & -> & H1 & H2)].
        * split; [cbn; now rewrite !sapp_assoc|]. split; [discriminate|]. intros Hl. split; [|exact G2].
          cbn [append]. now apply num_fraction.
        * split; [cbn; now rewrite !sapp_assoc|]. split; [discriminate|]. intros Hl. split; [|exact H1].
          cbn [append]. rewrite !sapp_assoc. cbn [append]. now apply num_both.
      + destruct (scan_exponent _ _ r) as [[k v] r3] eqn:H.
        apply exponent_sound in H. destruct H as [(-> & -> & -> & H)|(-> & x & Hx & -> & -> & H1 & H2)].
        * split; [reflexivity|]. split; [discriminate|]. intros Hl. split; [|exact F2]. apply num_integer; auto.
          apply at_char_ends in Ep. intros c y Hr ->. now apply (Ep "."%char y).
        * split; [cbn; now rewrite !sapp_assoc|]. split; [discriminate|]. intros Hl. split; [|exact H1].
          cbn [append]. now apply num_power. }
  unfold number_ok. destruct x as [[k' v'] r']. destruct E as [(-> & k2 & [= -> -> ->])|([= -> -> ->] & Hl)].
  - destruct X as (X1 & X2 & _). auto.
  - destruct X as (X1 & X2 & X3). split; [exact X1|]. split; [exact X2|]. right. destruct (X3 Hl). auto.
Qed.

Lemma number_complete k v r : number k v r -> ends digit r -> ends letter r -> scan_number false (v ++ r) = (k, v, r).
Proof.
  assert (Dot : forall y, at_char "." (String "." y) = true) by reflexivity.
  assert (NX : forall d s, digit d -> (forall c y, s = String c y -> among "xX" c -> False) ->
     scan_number false (String d s) = number_exit (decimal d s)).
  { intros d s Hd Hs. rewrite (scan_number_eq d s Hd). f_equal.
    assert (E : at_class (one_of ["x"; "X"]%char) s = false).
    { apply (at_class_ends _ _ _ x_spec). intros c y E Hc. now apply (Hs c y). }
    now rewrite E, andb_false_r. }
  assert (Dw : forall w y, digits w -> (w = "" -> forall c z, y = String c z -> ~ among "xX" c) ->
     forall c z, w ++ y = String c z -> among "xX" c -> False).
  { intros w y Hw Hy c z E Hc. destruct w as [|a w]; [now apply (Hy eq_refl c z)|]. injection E as <- _.
    apply all_of_cons in Hw. destruct Hw as [Hw _]. apply (digit_not_letter a Hw). now apply among_xX. }
  intros H Hd Hl. destruct H as [d w r Hd1 Hw Hp|x w r Hx Hw|d w f r Hd1 Hw Hf|d w x r Hd1 Hw Hx He|d w f x r Hd1 Hw Hf Hx He].
  - cbn [append]. rewrite NX; auto.
    2:{ apply (Dw w r Hw). intros _ c z -> Hc. apply (Hl c z eq_refl). now apply among_xX. }
    unfold decimal. rewrite (proj2 (span_spec _ _ (w ++ r) w r is_digit_spec)) by auto.
    assert (E : at_char "." r = false) by (apply at_char_ends; intros c y Hr <-; now apply (Hp "."%char y)).
    rewrite E, no_exponent by exact Hl. now apply number_exit_eq.
  - cbn [append]. rewrite scan_number_eq by (unfold digit, among; cbn; auto). rewrite Ascii.eqb_refl. cbn [andb at_class].
    rewrite (proj2 (x_spec x) Hx). cbn [next take].
    rewrite (proj2 (span_spec _ _ (w ++ r) w r is_hex_spec)).
    + cbn [append]. now apply number_exit_eq.
    + split; [reflexivity|]. split; [exact Hw|]. intros c y Hr Hc.
      assert (G : digit c \/ letter c).
      { apply is_hex_spec in Hc. unfold is_hex_digit in Hc. rewrite !orb_true_iff in Hc.
        destruct Hc as [[Hc|Hc]|Hc].
        - left. now apply is_digit_spec.
        - right. apply is_letter_spec. assert (X : negb (between "a" "f" c) || is_letter c = true)
            by (rewrite (by_enumeration (fun c => negb (between "a" "f" c) || is_letter c) (fun _ => true) eq_refl c); reflexivity).
          now rewrite Hc in X.
        - right. apply is_letter_spec. assert (X : negb (between "A" "F" c) || is_letter c = true)
            by (rewrite (by_enumeration (fun c => negb (between "A" "F" c) || is_letter c) (fun _ => true) eq_refl c); reflexivity).
          now rewrite Hc in X. }
      destruct G as [G|G]; [now apply (Hd c y)|now apply (Hl c y)].
  - cbn [append]. rewrite !sapp_assoc. cbn [append]. rewrite NX; auto.
    2:{ apply (Dw w _ Hw). intros _ c z [= <- _]. unfold among. cbn. intuition discriminate. }
    unfold decimal. rewrite (proj2 (span_spec _ _ (w ++ String "." (f ++ r)) w (String "." (f ++ r)) is_digit_spec)).
    + rewrite Dot. cbn [next]. rewrite (proj2 (span_spec _ _ (f ++ r) f r is_digit_spec)) by auto.
      rewrite no_exponent by exact Hl. now apply number_exit_eq.
    + split; [reflexivity|]. split; [exact Hw|]. intros c z [= <- _]. unfold digit, among. cbn. intuition discriminate.
  - cbn [append]. rewrite !sapp_assoc. rewrite NX; auto.
    2:{ apply (Dw w _ Hw). intros _ c z E Hc. destruct Hx as [e x' E1 _|e g x' E1 _ _]; injection E as <- _;
        unfold among in *; cbn in *; intuition (subst; discriminate). }
    unfold decimal. rewrite (proj2 (span_spec _ _ (w ++ x ++ r) w (x ++ r) is_digit_spec)).
    + assert (E : at_char "." (x ++ r) = false).
      { apply at_char_ends. intros c z E <-. destruct Hx as [e x' E1 _|e g x' E1 _ _]; injection E as -> _;
        unfold among in *; cbn in *; intuition discriminate. }
      rewrite E, exponent_complete by auto. now apply number_exit_eq.
    + split; [reflexivity|]. split; [exact Hw|]. intros c z E Hc.
      assert (C : among "eE" c) by (destruct Hx as [e x' E1 _|e g x' E1 _ _]; injection E as <- _; exact E1).
      apply (digit_not_letter c Hc). now apply among_eE.
  - cbn [append]. rewrite !sapp_assoc. cbn [append]. rewrite !sapp_assoc. rewrite NX; auto.
    2:{ apply (Dw w _ Hw). intros _ c z [= <- _]. unfold among. cbn. intuition discriminate. }
    unfold decimal.
    rewrite (proj2 (span_spec _ _ (w ++ String "." (f ++ x ++ r)) w (String "." (f ++ x ++ r)) is_digit_spec)).
    + rewrite Dot. cbn [next]. rewrite (proj2 (span_spec _ _ (f ++ x ++ r) f (x ++ r) is_digit_spec)).
      * rewrite exponent_complete by auto. cbn [append]. rewrite !sapp_assoc. cbn [append]. now apply number_exit_eq.
      * split; [reflexivity|]. split; [exact Hf|]. intros c z E Hc.
        assert (C : among "eE" c) by (destruct Hx as [e x' E1 _|e g x' E1 _ _]; injection E as <- _; exact E1).
        apply (digit_not_letter c Hc). now apply among_eE.
    + split; [reflexivity|]. split; [exact Hw|]. intros c z [= <- _]. unfold digit, among. cbn. intuition discriminate.
Qed.

Lemma point_sound s : at_class is_digit s = true ->
  let '(k, v, r) := scan_number true s in
  String "." s = v ++ r /\ v <> "" /\ (k = lex_error \/ k = KTok "FLOAT" /\ point_number v r /\ ends digit r /\ ends letter r).
Proof.
  intros H. apply at_class_some in H. destruct H as (d & s' & -> & Hd). pose proof Hd as Hd'. apply is_digit_spec in Hd.
  destruct (scan_number true (String d s')) as [[k v] r] eqn:E. unfold scan_number in E. apply number_exit_inv in E.
  cbn [span] in E. rewrite Hd' in E. destruct (span is_digit s') as [w r1] eqn:F.
  apply (span_spec _ _ _ _ _ is_digit_spec) in F. destruct F as (-> & F1 & F2).
  assert (X : forall k v r, scan_exponent (KTok "FLOAT") ("." ++ String d w) r1 = (k, v, r) ->
    String "." (String d (w ++ r1)) = v ++ r /\ v <> "" /\ k = KTok "FLOAT" /\ (ends letter r -> point_number v r /\ ends digit r)).
  { intros k0 v0 r0 H. apply exponent_sound in H. destruct H as [(-> & -> & -> & H)|(-> & x & Hx & -> & -> & H1 & H2)].
    - split; [reflexivity|]. split; [discriminate|]. split; [reflexivity|]. intros Hl. split; [now apply pn_plain|exact F2].
    - split; [cbn; now rewrite sapp_assoc|]. split; [discriminate|]. split; [reflexivity|]. intros Hl.
      split; [|exact H1]. cbn [append]. now apply pn_power. }
  destruct E as [(-> & k2 & E)|(E & Hl)]; destruct (X _ _ _ E) as (X1 & X2 & X3 & X4).
  - auto.
  - split; [exact X1|]. split; [exact X2|]. right. split; [exact X3|]. destruct (X4 Hl). auto.
Qed.

Lemma point_complete v r : point_number v r -> ends digit r -> ends letter r ->
  exists s, v ++ r = String "." s /\ at_class is_digit s = true /\ scan_number true s = (KTok "FLOAT", v, r).
Proof.
  intros H Hd Hl. destruct H as [d f r Hd1 Hf|d f x r Hd1 Hf Hx He]; cbn [append].
  - exists (String d (f ++ r)). split; [reflexivity|]. cbn [at_class]. apply is_digit_spec in Hd1. split; [exact Hd1|].
    unfold scan_number. cbn [span]. rewrite Hd1, (proj2 (span_spec _ _ (f ++ r) f r is_digit_spec)) by auto.
    rewrite no_exponent by exact Hl. now apply number_exit_eq.
  - exists (String d ((f ++ x) ++ r)). split; [reflexivity|]. cbn [at_class]. apply is_digit_spec in Hd1. split; [exact Hd1|].
    unfold scan_number. cbn [span]. rewrite sapp_assoc, Hd1, (proj2 (span_spec _ _ (f ++ x ++ r) f (x ++ r) is_digit_spec)).
    + rewrite exponent_complete by auto. cbn [append]. now apply number_exit_eq.
    + split; [reflexivity|]. split; [exact Hf|]. intros c z E Hc.
      assert (C : among "eE" c) by (destruct Hx as [e x' E1 _|e g x' E1 _ _]; injection E as <- _; exact E1).
      apply (digit_not_letter c Hc). now apply among_eE.
Qed.
