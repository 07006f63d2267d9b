(** One call of the tokenizer. *)
From Coq Require Import String Ascii List ZArith Bool Arith Lia.
From Verif Require Import GoStr GoStrFacts Ast Keywords Lexer SpecLexer ProofLexer.
Import ListNotations.
Local Open Scope string_scope.

(** A result that takes something from [s], and either an error or a lexeme. *)
Definition good (m : mode) (n : nat) (s : string) (x : lexed) : Prop :=
  let '(k, v, r) := x in
  exists text, s = text ++ r /\ text <> "" /\ (k = lex_error \/ lexeme m n k v text r).

Lemma good_error m n s v text r : s = text ++ r -> text <> "" -> good m n s (lex_error, v, r).
Proof. intros H1 H2. exists text. auto. Qed.

Lemma good_lexeme m n s k v text r : s = text ++ r -> text <> "" -> lexeme m n k v text r -> good m n s (k, v, r).
Proof. intros H1 H2 H3. exists text. auto. Qed.

Ltac ends_among :=
  let c := fresh "c" in let y := fresh "y" in let H := fresh "H" in
  intros c y -> H; vm_compute in H; repeat (destruct H as [<-|H]; [discriminate|]); destruct H.

Definition kind_eqb (a b : kind) : bool :=
  match a, b with
  | KEnd, KEnd => true
  | KChar x, KChar y => Ascii.eqb x y
  | KTok x, KTok y => String.eqb x y
  | _, _ => false
  end.
Lemma kind_eqb_eq a b : kind_eqb a b = true -> a = b.
Proof.
  destruct a, b; cbn; try discriminate; [reflexivity|intros H; apply Ascii.eqb_eq in H|intros H; apply String.eqb_eq in H];
    now subst.
Qed.

Definition has_operator (m : mode) (text : string) (k : kind) (bad : string) : bool :=
  existsb (fun x => String.eqb (fst (fst x)) text && kind_eqb (snd (fst x)) k && String.eqb (snd x) bad) (operators m).
Lemma has_operator_in m text k bad : has_operator m text k bad = true -> In (text, k, bad) (operators m).
Proof.
  unfold has_operator. rewrite existsb_exists. intros ([[a b] c] & H & E). cbn in E.
  rewrite !andb_true_iff, !String.eqb_eq in E. destruct E as [[-> E] ->]. apply kind_eqb_eq in E. now subst.
Qed.

Ltac in_operators :=
  apply has_operator_in; match goal with |- has_operator ?m _ _ _ = true => first [reflexivity | destruct m; reflexivity] end.

Lemma good_op m n text k bad r : In (text, k, bad) (operators m) -> operator_value k = "" -> text <> "" -> ends (among bad) r ->
  good m n (text ++ r) (k, "", r).
Proof.
  intros H1 H2 H3 H4. apply (good_lexeme _ _ _ _ _ text); auto. rewrite <- H2. now apply (lx_operator m n text k bad).
Qed.

Lemma good_word m n c s : is_letter c = true -> good m n (String c s) (scan_word c s).
Proof.
  intros Hc. apply is_letter_spec in Hc. unfold scan_word.
  destruct (one_of ["X"; "x"]%char c && at_char "'" s) eqn:E1.
  - apply andb_true_iff in E1. destruct E1 as [E1 E2]. apply at_char_some in E2. destruct E2 as [s' ->]. cbn [next].
    assert (X : among "xX" c) by (apply one_of_in in E1; unfold among; cbn in *; intuition).
    unfold scan_hex. destruct (span is_hex_digit s') as [b r] eqn:F.
    apply (span_spec _ _ _ _ _ is_hex_spec) in F. destruct F as (-> & F1 & F2).
    destruct (at_char "'" r) eqn:E3.
    + apply at_char_some in E3. destruct E3 as [r' ->]. cbn [next].
      assert (Y : String c (String "'" (b ++ String "'" r')) = String c ("'" ++ b ++ "'") ++ r')
        by (cbn; now rewrite sapp_assoc).
      destruct (Nat.even (String.length b)) eqn:E4.
      * rewrite Y. eapply good_lexeme; [reflexivity|discriminate|]. apply lx_hex; auto. now apply Nat.even_spec.
      * rewrite Y. eapply good_error; [reflexivity|discriminate].
    + apply (good_error _ _ _ _ (String c (String "'" b))); [reflexivity|discriminate].
  - destruct (one_of ["B"; "b"]%char c && at_char "'" s) eqn:E2.
    + apply andb_true_iff in E2. destruct E2 as [E2 E3]. apply at_char_some in E3. destruct E3 as [s' ->]. cbn [next].
      assert (X : among "bB" c) by (apply one_of_in in E2; unfold among; cbn in *; intuition).
      unfold scan_bit_literal. destruct (span is_bit s') as [b r] eqn:F.
      apply (span_spec _ _ _ _ _ is_bit_spec) in F. destruct F as (-> & F1 & F2).
      destruct (at_char "'" r) eqn:E3.
      * apply at_char_some in E3. destruct E3 as [r' ->]. cbn [next].
        apply (good_lexeme _ _ _ _ _ (String c ("'" ++ b ++ "'"))); [cbn; now rewrite sapp_assoc|discriminate|].
        now apply lx_bit.
      * apply (good_error _ _ _ _ (String c (String "'" b))); [reflexivity|discriminate].
    + rewrite scan_identifier_eq. destruct (Ascii.eqb c "@" && at_char "@" s) eqn:E3.
      * apply andb_true_iff in E3. destruct E3 as [E3 E4]. apply Ascii.eqb_eq in E3. subst c.
        apply at_char_some in E4. destruct E4 as [s' ->]. cbn [span].
        change (is_letter "@" || is_digit "@" || true && is_carat "@") with true. cbn iota.
        destruct (span _ s') as [w r] eqn:F. apply (span_spec _ _ _ _ _ variable_char_spec) in F.
        destruct F as (-> & F1 & F2). apply (good_lexeme _ _ _ _ _ ("@@" ++ w)); [reflexivity|discriminate|].
        apply lx_variable; auto. apply word_token_spec. cbn [append]. now destruct (word_token _).
      * destruct (span _ s) as [w r] eqn:F. apply (span_spec _ _ _ _ _ word_char_spec) in F.
        destruct F as (-> & F1 & F2). apply (good_lexeme _ _ _ _ _ (String c w)); [reflexivity|discriminate|].
        apply lx_word; auto.
        -- intros (H1 & -> & r' & ->). cbn [append at_char] in E1, E2. rewrite andb_true_r in E1, E2.
           unfold among in H1. cbn in H1. repeat (destruct H1 as [<-|H1]; [discriminate|]). destruct H1.
        -- intros w' [-> ->]. discriminate.
        -- apply word_token_spec. now destruct (word_token _).
Qed.

Lemma good_number m n c s : is_digit c = true -> good m n (String c s) (scan_number false (String c s)).
Proof.
  intros H. apply is_digit_spec in H. pose proof (number_sound c s H) as G. unfold number_ok in G.
  destruct (scan_number false (String c s)) as [[k v] r]. destruct G as (G1 & G2 & G3). exists v.
  split; [exact G1|]. split; [exact G2|]. destruct G3 as [G3|(G3 & G4 & G5)]; [auto|]. right. now apply lx_number.
Qed.

Lemma bind_char_spec c : is_letter c || is_digit c || Ascii.eqb c "." = true <-> (word_char c \/ c = "."%char).
Proof. unfold word_char. rewrite !orb_true_iff, is_letter_spec, is_digit_spec, Ascii.eqb_eq. reflexivity. Qed.

Lemma good_bind m n s : good m n (String ":" s) (scan_bind_var m (String ":" s)).
Proof.
  assert (B : forall tok buf s, buf <> "" -> (forall c w r, letter c -> all_of (fun c => word_char c \/ c = "."%char) w ->
      ends (fun c => word_char c \/ c = "."%char) r -> lexeme m n tok (buf ++ String c w) (buf ++ String c w) r) ->
      good m n (buf ++ s) (bind_name tok buf s)).
  { clear s. intros tok buf s Hb Hl. unfold bind_name. destruct (at_class is_letter s) eqn:E.
    - apply at_class_some in E. destruct E as (c & s' & -> & E). cbn [span]. rewrite E. cbn [orb].
      destruct (span _ s') as [w r] eqn:F. apply (span_spec _ _ _ _ _ bind_char_spec) in F. destruct F as (-> & F1 & F2).
      apply (good_lexeme _ _ _ _ _ (buf ++ String c w)); [now rewrite sapp_assoc| |].
      + intros X. destruct buf; [now apply Hb|discriminate].
      + apply Hl; auto. now apply is_letter_spec.
    - apply (good_error _ _ _ _ buf); auto. }
  unfold scan_bind_var. cbn [next]. destruct (at_char ":" s) eqn:E.
  - apply at_char_some in E. destruct E as [s' ->]. cbn [next]. destruct m.
    1,3,4: apply (B (KTok "LIST_ARG") "::"); [discriminate|]; intros; apply lx_list; auto; discriminate.
    apply (good_lexeme _ _ _ _ _ "::"); [reflexivity|discriminate|].
    apply (lx_operator Postgres n "::" (KTok "TYPECAST") ""); [|ends_among]. in_operators.
  - apply (B (KTok "VALUE_ARG") ":"); [discriminate|]. intros. now apply lx_bind.
Qed.

Lemma good_quoted m n o q s : name_quotes m o q -> good m n (String o s) (scan_literal_identifier q s).
Proof.
  intros H. unfold scan_literal_identifier. destruct (literal_identifier q false s) as [[ok v] r] eqn:E. destruct ok.
  - apply literal_sound in E. destruct E as [-> E].
    assert (X : String o (doubled q v ++ String q r) = String o (doubled q v ++ String q "") ++ r)
      by (cbn; now rewrite sapp_assoc).
    destruct (String.eqb_spec v "") as [->|N].
    + eapply good_error; [exact X|discriminate].
    + eapply good_lexeme; [exact X|discriminate|]. now apply lx_name.
  - apply literal_error in E. subst r. apply (good_error _ _ _ _ (String o s)); [now rewrite sapp_nil_r|discriminate].
Qed.

Lemma string_quote_not_backslash m q : string_quote m q -> q <> "\"%char.
Proof. intros [x|]; discriminate. Qed.

Lemma good_string m n q s : string_quote m q -> good m n (String q s) (scan_string q s).
Proof.
  intros H. pose proof (string_quote_not_backslash m q H) as Hq. unfold scan_string.
  destruct (string_body q s) as [[ok v] r] eqn:E. destruct ok.
  - destruct (string_sound_n q _ Hq s v r (le_n _) E) as (body & -> & H1 & H2).
    apply (good_lexeme _ _ _ _ _ (String q (body ++ String q ""))); [cbn; now rewrite sapp_assoc|discriminate|].
    now apply lx_string.
  - apply (string_error_n q _ s v r (le_n _)) in E. subst r.
    apply (good_error _ _ _ _ (String q s)); [now rewrite sapp_nil_r|discriminate].
Qed.

Lemma good_line m n p s : In p ["--"; "//"; "#"] -> good m n (p ++ s) (scan_comment_type1 p s).
Proof.
  intros H. unfold scan_comment_type1. destruct (span _ s) as [a r] eqn:E. apply line_sound in E.
  assert (P : p <> "") by (destruct H as [<-|[<-|[<-|[]]]]; discriminate).
  assert (Q : forall x, p ++ x <> "") by (intros x X; destruct p; [now apply P|discriminate]).
  destruct E as [E [(-> & ->)|(r' & -> & ->)]].
  - eapply good_lexeme; [symmetry; apply sapp_nil_r|apply Q|]. now apply lx_last_line.
  - change (String c_lf "") with nl. eapply good_lexeme; [|apply Q|now apply lx_line].
    now rewrite !sapp_assoc.
Qed.

Lemma good_block m n s : at_char "!" s = false -> good m n ("/*" ++ s) (scan_comment_type2 s).
Proof.
  intros H. unfold scan_comment_type2. destruct (comment_body s) as [[ok v] r] eqn:E. destruct ok.
  - apply comment_sound in E. destruct E as [-> E]. apply (good_lexeme _ _ _ _ _ ("/*" ++ v ++ "*/"));
      [cbn; now rewrite sapp_assoc|discriminate|]. apply lx_block; [exact E|].
    apply at_char_ends in H. intros c y Hv <-. subst v. now apply (H "!"%char (y ++ "*/" ++ r)).
  - apply comment_error in E. subst r. eapply good_error; [symmetry; apply sapp_nil_r|discriminate].
Qed.

(** ** One call *)
Definition after (t : tokenizer) (text r : string) : tokenizer :=
  set_input r (if String.eqb text "?" then count_posvar t else t).

Definition special (again : tokenizer -> scanned) (t : tokenizer) (body r : string) : scanned :=
  match extract_mysql_comment body with
  | None => ScanPanic
  | Some sql => again (set_special (Some (new_tokenizer (tk_mode t) sql)) (set_input r t))
  end.

Inductive outcome (again : tokenizer -> scanned) (t : tokenizer) (x : string) : scanned -> Prop :=
| oc_end : x = "" -> outcome again t x (Token KEnd "" (set_input "" t))
| oc_error text r v : x = text ++ r -> text <> "" -> outcome again t x (Token lex_error v (set_input r t))
| oc_lexeme text r k v : x = text ++ r -> text <> "" -> lexeme (tk_mode t) (tk_posvar t) k v text r ->
    outcome again t x (Token k v (after t text r))
| oc_special body r : x = "/*!" ++ body ++ "*/" ++ r -> free_of "*/" (body ++ "*") ->
    outcome again t x (special again t body r).

Lemma good_outcome again t c s x : c <> "?"%char -> good (tk_mode t) (tk_posvar t) (String c s) x ->
  outcome again t (String c s) (give t x).
Proof.
  intros Hc. destruct x as [[k v] r]. intros (text & E & N & [->|H]); unfold give.
  - now apply (oc_error again t _ text r v).
  - assert (X : text <> "?") by (intros ->; injection E as E _; congruence).
    apply String.eqb_neq in X. replace (set_input r t) with (after t text r) by (unfold after; now rewrite X).
    now apply oc_lexeme.
Qed.

Ltac op text bad := apply good_outcome; [discriminate|]; apply (good_op _ _ text _ bad); [in_operators|reflexivity|discriminate|ends_among].

Lemma scan_other_outcome again t c s : is_letter c = false -> is_digit c = false -> c <> ":"%char ->
  outcome again t (String c s) (scan_other again t c s).
Proof.
  intros HL HD HC. unfold scan_other.
  destruct (one_of single_chars c) eqn:E0.
  { assert (G : forall m, (m = Mssql -> c <> "["%char) -> In (self c) (operators m)).
    { intros m Hm. apply one_of_in in E0. unfold single_chars in E0.
      repeat (destruct E0 as [<-|E0]; [apply has_operator_in; destruct m; try (now destruct Hm); reflexivity|]). destruct E0. }
    assert (Q : c <> "?"%char) by (intros ->; discriminate).
    assert (K : forall m, tk_mode t = m -> (m = Mssql -> c <> "["%char) -> outcome again t (String c s) (give t (KChar c, "", s))).
    { intros m Hm Hb. apply good_outcome; [exact Q|]. apply (good_op _ _ (String c "") (KChar c) "");
        [rewrite Hm; now apply (G m)|reflexivity|discriminate|]. intros a b _ []. }
    destruct (tk_mode t) eqn:M; try (apply (K _ eq_refl); discriminate).
    destruct (Ascii.eqb_spec c "[") as [->|N]; [|apply (K _ eq_refl); auto].
    apply good_outcome; [discriminate|]. rewrite M. apply good_quoted. constructor. }
  clear E0.
  destruct (Ascii.eqb_spec c "&") as [->|N1].
  { destruct (at_char "&" s) eqn:E; [apply at_char_some in E; destruct E as [s' ->]; cbn [next]; op "&&" ""|op "&" "&"]. }
  destruct (Ascii.eqb_spec c "|") as [->|N2].
  { destruct (at_char "|" s) eqn:E; [apply at_char_some in E; destruct E as [s' ->]; cbn [next]; op "||" ""|op "|" "|"]. }
  destruct (Ascii.eqb_spec c "?") as [->|N3].
  { unfold give. change (set_input s (count_posvar t)) with (after t "?" s).
    apply oc_lexeme; [reflexivity|discriminate|]. apply lx_question. }
  destruct (Ascii.eqb_spec c ".") as [->|N4].
  { destruct (at_class is_digit s) eqn:E; [|op "." "0123456789"].
    pose proof (point_sound s E) as G. destruct (scan_number true s) as [[k v] r].
    destruct G as (G1 & G2 & G3). rewrite G1. destruct v as [|a v]; [now destruct G2|]. cbn [append] in G1 |- *.
    injection G1 as <- _. apply good_outcome; [discriminate|]. exists (String "." v). split; [reflexivity|]. split; [exact G2|].
    destruct G3 as [G3|(-> & G3 & G4 & G5)]; [auto|]. right. now apply lx_point. }
  destruct (Ascii.eqb_spec c "/") as [->|N5].
  { destruct (at_char "/" s) eqn:E.
    - apply at_char_some in E. destruct E as [s' ->]. cbn [next]. apply good_outcome; [discriminate|].
      apply (good_line _ _ "//"). cbn; auto.
    - destruct (at_char "*" s) eqn:E2; [|op "/" "/*"]. apply at_char_some in E2. destruct E2 as [s' ->]. cbn [next].
      destruct (at_char "!" s') eqn:E3; [|apply good_outcome; [discriminate|]; now apply good_block].
      apply at_char_some in E3. destruct E3 as [b ->]. unfold scan_special_comment. cbn [next].
      destruct (comment_body b) as [[ok v] r] eqn:F. destruct ok.
      + apply comment_sound in F. destruct F as [-> F]. exact (oc_special again t _ v r eq_refl F).
      + apply comment_error in F. subst r. unfold give. eapply oc_error; [symmetry; apply sapp_nil_r|discriminate]. }
  destruct (Ascii.eqb_spec c "#") as [->|N6].
  { apply good_outcome; [discriminate|]. apply (good_line _ _ "#"). cbn; auto. }
  destruct (Ascii.eqb_spec c "-") as [->|N7].
  { destruct (at_class is_digit s) eqn:E.
    - apply at_class_some in E. destruct E as (d & s' & -> & E). apply is_digit_spec in E.
      pose proof (number_sound d s' E) as G. unfold number_ok in G.
      destruct (scan_number false (String d s')) as [[k v] r]. destruct G as (G1 & G2 & G3). rewrite G1.
      apply good_outcome; [discriminate|]. exists (String "-" v). split; [reflexivity|]. split; [discriminate|].
      destruct G3 as [G3|(G3 & G4 & G5)]; [auto|]. right. now apply lx_negative.
    - destruct (at_char "-" s) eqn:E1.
      { apply at_char_some in E1. destruct E1 as [s' ->]. cbn [next]. apply good_outcome; [discriminate|].
        apply (good_line _ _ "--"). cbn; auto. }
      destruct (at_char ">" s) eqn:E2; [|op "-" "0123456789->"].
      apply at_char_some in E2. destruct E2 as [s' ->]. cbn [next]. destruct (at_char ">" s') eqn:E3; [|op "->" ">"].
      apply at_char_some in E3. destruct E3 as [s2 ->]. cbn [next]. op "->>" "". }
  destruct (Ascii.eqb_spec c "<") as [->|N8].
  { destruct (at_char ">" s) eqn:E1; [apply at_char_some in E1; destruct E1 as [s' ->]; cbn [next]; op "<>" ""|].
    destruct (at_char "<" s) eqn:E2; [apply at_char_some in E2; destruct E2 as [s' ->]; cbn [next]; op "<<" ""|].
    destruct (at_char "=" s) eqn:E3; [|op "<" "<>="].
    apply at_char_some in E3; destruct E3 as [s' ->]; cbn [next].
    destruct (at_char ">" s') eqn:E4; [apply at_char_some in E4; destruct E4 as [s2 ->]; cbn [next]; op "<=>" ""|op "<=" ">"]. }
  destruct (Ascii.eqb_spec c ">") as [->|N9].
  { destruct (at_char "=" s) eqn:E1; [apply at_char_some in E1; destruct E1 as [s' ->]; cbn [next]; op ">=" ""|].
    destruct (at_char ">" s) eqn:E2; [apply at_char_some in E2; destruct E2 as [s' ->]; cbn [next]; op ">>" ""|op ">" ">="]. }
  destruct (Ascii.eqb_spec c "!") as [->|N10].
  { destruct (at_char "=" s) eqn:E1; [apply at_char_some in E1; destruct E1 as [s' ->]; cbn [next]; op "!=" ""|op "!" "="]. }
  destruct (Ascii.eqb_spec c "'") as [->|N11].
  { apply good_outcome; [discriminate|]. apply good_string. constructor. }
  destruct (Ascii.eqb_spec c c_dq) as [->|N12].
  { destruct (tk_mode t) eqn:M; (apply good_outcome; [discriminate|]); rewrite M; [apply good_string; constructor|..];
      apply good_quoted; constructor; discriminate. }
  destruct (Ascii.eqb_spec c "`") as [->|N13].
  { destruct (tk_mode t) eqn:M; (apply good_outcome; [discriminate|]); rewrite M;
      try (apply good_quoted; constructor; discriminate). apply (good_error _ _ _ _ "`"); [reflexivity|discriminate]. }
  unfold give. apply (oc_error again t _ (String c "")); [reflexivity|discriminate].
Qed.

(** Every call ends in one of these ways. *)
Lemma scan_outer_outcome again t : tk_force_eof t = false -> tk_multi t = false ->
  exists g x, tk_input t = g ++ x /\ gap g /\ outcome again t x (scan_outer again t).
Proof.
  intros HF HM. destruct (begin_skip (tk_input t)) as (g & x & H1 & H2 & H3 & H4). exists g, x.
  split; [exact H1|]. split; [exact H2|]. unfold scan_outer. fold (begin (tk_input t)). rewrite HF, H4.
  destruct x as [|c s]; [now apply oc_end|].
  destruct (is_letter c) eqn:E1; [apply good_outcome; [intros ->; discriminate|now apply good_word]|].
  destruct (is_digit c) eqn:E2; [apply good_outcome; [intros ->; discriminate|now apply good_number]|].
  destruct (Ascii.eqb_spec c ":") as [->|N]; [apply good_outcome; [discriminate|apply good_bind]|].
  rewrite HM, andb_false_r. now apply scan_other_outcome.
Qed.

(** ** Lexemes are recognised *)
Definition dispatch (again : tokenizer -> scanned) (t : tokenizer) (c : ascii) (r : string) : scanned :=
  if is_letter c then give t (scan_word c r)
  else if is_digit c then give t (scan_number false (String c r))
  else if Ascii.eqb c ":" then give t (scan_bind_var (tk_mode t) (String c r))
  else scan_other again t c r.

Lemma scan_outer_at again t g c s : tk_force_eof t = false -> tk_multi t = false -> gap g ->
  tk_input t = g ++ String c s -> is_blank c = false -> Ascii.eqb c c_nul = false ->
  scan_outer again t = dispatch again t c s.
Proof.
  intros HF HM Hg Hi Hb Hn. unfold scan_outer, dispatch. fold (begin (tk_input t)). rewrite HF, Hi, begin_gap; auto.
  - now rewrite HM, andb_false_r.
  - intros d y [= <- _] Hd. apply is_blank_spec in Hd. congruence.
  - intros d y [= <- _] Hd. apply Ascii.eqb_neq in Hn. congruence.
Qed.

Lemma visible_letter c : is_letter c = true -> is_blank c = false /\ Ascii.eqb c c_nul = false.
Proof.
  intros H. pose proof (by_enumeration (fun c => negb (is_letter c) || (negb (is_blank c) && negb (Ascii.eqb c c_nul))) (fun _ => true) eq_refl c) as X.
  cbv beta in X. rewrite H in X. cbn in X. apply andb_true_iff in X. rewrite !negb_true_iff in X. exact X.
Qed.
Lemma visible_digit c : is_digit c = true -> is_letter c = false /\ is_blank c = false /\ Ascii.eqb c c_nul = false.
Proof.
  intros H. pose proof (by_enumeration (fun c => negb (is_digit c) || (negb (is_letter c) && (negb (is_blank c) && negb (Ascii.eqb c c_nul)))) (fun _ => true) eq_refl c) as X.
  cbv beta in X. rewrite H in X. cbn in X. rewrite !andb_true_iff, !negb_true_iff in X. exact X.
Qed.

Lemma ends_char bad x r : ends (among bad) r -> one_of (list_ascii_of_string bad) x = true -> at_char x r = false.
Proof. intros H1 H2. apply one_of_in in H2. apply at_char_ends. intros c y Hr <-. now apply (H1 x y). Qed.
Lemma ends_digits bad r : ends (among bad) r ->
  forallb (one_of (list_ascii_of_string bad)) (list_ascii_of_string "0123456789") = true -> at_class is_digit r = false.
Proof.
  intros H1 H2. rewrite forallb_forall in H2. apply (at_class_ends _ _ _ is_digit_spec). intros c y Hr Hc.
  apply (H1 c y Hr). apply one_of_in. now apply H2.
Qed.

Lemma word_complete c w k v r : letter c -> all_of word_char w -> ends word_char r ->
  ~ (among "xXbB" c /\ w = "" /\ exists r', r = String "'" r') -> (forall w', ~ (c = "@"%char /\ w = String "@" w')) ->
  word (String c w) k v -> scan_word c (w ++ r) = (k, v, r).
Proof.
  intros Hc Hw Hr Hx Hv Hk. unfold scan_word.
  assert (Q : among "xXbB" c -> at_char "'" (w ++ r) = false).
  { intros Ha. apply at_char_ends. intros a y E <-. destruct w as [|b w].
    - cbn in E. apply Hx. split; [exact Ha|]. split; [reflexivity|]. now exists y.
    - injection E as -> _. apply all_of_cons in Hw. destruct Hw as [Hw _]. apply word_char_spec in Hw. discriminate. }
  assert (E1 : one_of ["X"; "x"]%char c && at_char "'" (w ++ r) = false).
  { destruct (one_of _ c) eqn:E; [|reflexivity]. apply one_of_in in E. apply Q. unfold among. cbn in *. intuition. }
  assert (E2 : one_of ["B"; "b"]%char c && at_char "'" (w ++ r) = false).
  { destruct (one_of ["B"; "b"]%char c) eqn:E; [|reflexivity]. apply one_of_in in E. apply Q. unfold among. cbn in *. intuition. }
  assert (E3 : Ascii.eqb c "@" && at_char "@" (w ++ r) = false).
  { destruct (Ascii.eqb_spec c "@") as [->|N]; [|reflexivity]. cbn [andb]. apply at_char_ends. intros a y E <-.
    destruct w as [|b w]; [|injection E as -> _; now apply (Hv w)]. cbn in E. apply (Hr "@"%char y E).
    apply word_char_spec. reflexivity. }
  rewrite E1, E2, E3, scan_identifier_eq, (proj2 (span_spec _ _ (w ++ r) w r word_char_spec)) by auto.
  apply word_token_spec in Hk. now rewrite Hk.
Qed.

Ltac fire := cbn -[set_input count_posvar scan_number scan_literal_identifier scan_string scan_comment_type1
                   scan_comment_type2 scan_special_comment special give at_char at_class next show_Z scan_word operators].

Lemma one_of_false l x : one_of l x = false -> ~ In x l.
Proof. intros H1 H2. apply one_of_in in H2. congruence. Qed.

Lemma operator_complete again t s k bad r : In (s, k, bad) (operators (tk_mode t)) -> ends (among bad) r ->
  match s ++ r with String c y => dispatch again t c y | "" => OutOfFuel end = give t (k, operator_value k, r).
Proof.
  intros H Hr. unfold dispatch.
  destruct (tk_mode t) eqn:M; unfold operators in H; cbn in H;
  repeat (destruct H as [H|H]; [injection H as <- <- <-; unfold scan_other, scan_bind_var; rewrite ?M; cbn -[give];
    rewrite ?(ends_digits _ r Hr eq_refl);
    repeat match goal with |- context [at_char ?x r] => rewrite (ends_char _ x r Hr eq_refl) end; reflexivity|]);
  destruct H.
Qed.

Lemma scan_outer_lexeme again t g text r k v : tk_force_eof t = false -> tk_multi t = false -> gap g ->
  tk_input t = g ++ text ++ r -> lexeme (tk_mode t) (tk_posvar t) k v text r ->
  scan_outer again t = Token k v (after t text r).
Proof.
  intros HF HM Hg Hi H.
  assert (A : forall c s, text ++ r = String c s -> is_blank c = false -> Ascii.eqb c c_nul = false ->
    scan_outer again t = dispatch again t c s).
  { intros c s E Hb Hn. apply (scan_outer_at again t g); auto. now rewrite Hi, E. }
  assert (AL : forall c s, text ++ r = String c s -> is_letter c = true -> scan_outer again t = give t (scan_word c s)).
  { intros c s E Hl. destruct (visible_letter c Hl). rewrite (A c s E) by auto. unfold dispatch. now rewrite Hl. }
  assert (AD : forall c s, text ++ r = String c s -> is_digit c = true -> scan_outer again t = give t (scan_number false (String c s))).
  { intros c s E Hl. destruct (visible_digit c Hl) as (V1 & V2 & V3). rewrite (A c s E) by auto. unfold dispatch. now rewrite V1, Hl. }
  assert (F : forall x, text <> "?" -> x = (k, v, r) -> give t x = Token k v (after t text r)).
  { intros x Hq ->. unfold give, after. apply String.eqb_neq in Hq. now rewrite Hq. }
  destruct H as [c w k v r Hc Hw Hr Hx Hv Hk|w k v r Hw Hr Hk|x v r Hx Hv He|b v r Hb Hv|o q v r Hq Hv Hr|q v s r Hq Hs Hr
    |k v r Hn Hd Hl|k v r Hn Hd Hl|v r Hn Hd Hl|c w r Hc Hw Hr|c w r Hm Hc Hw Hr|r|s k bad r Ho Hr|p s r Hp Hs|p s Hp Hs|s r Hs Hb].
  - rewrite (AL c (w ++ r) eq_refl) by now apply is_letter_spec. apply F.
    + intros [= -> _]. apply is_letter_spec in Hc. discriminate.
    + now apply word_complete.
  - rewrite (AL "@"%char (String "@" (w ++ r)) eq_refl eq_refl). apply F; [discriminate|]. unfold scan_word.
    cbn [one_of existsb Ascii.eqb Bool.eqb orb andb at_char]. rewrite scan_identifier_eq. cbn [span].
    change (is_letter "@" || is_digit "@" || true && is_carat "@") with true. cbn iota.
    rewrite (proj2 (span_spec _ _ (w ++ r) w r variable_char_spec)) by auto.
    apply word_token_spec in Hk. cbn [append] in Hk. now rewrite Hk.
  - assert (E : String x ("'" ++ v ++ "'") ++ r = String x (String "'" (v ++ String "'" r))) by (cbn; now rewrite sapp_assoc).
    rewrite (AL x _ E). 2:{ apply is_letter_spec. now apply among_xX. }
    apply F; [intros [= _ X]; discriminate|]. unfold scan_word.
    assert (X : one_of ["X"; "x"]%char x = true) by (apply one_of_in; unfold among in Hx; cbn in *; intuition).
    rewrite X. cbn [andb at_char Ascii.eqb Bool.eqb next]. unfold scan_hex.
    rewrite (proj2 (span_spec _ _ (v ++ String "'" r) v (String "'" r) is_hex_spec)).
    + cbn [at_char Ascii.eqb Bool.eqb next]. apply Nat.even_spec in He. now rewrite He.
    + split; [reflexivity|]. split; [exact Hv|]. intros c y [= <- _] Hc. apply is_hex_spec in Hc. discriminate.
  - assert (E : String b ("'" ++ v ++ "'") ++ r = String b (String "'" (v ++ String "'" r))) by (cbn; now rewrite sapp_assoc).
    rewrite (AL b _ E). 2:{ unfold among in Hb. cbn in Hb. destruct Hb as [<-|[<-|[]]]; reflexivity. }
    apply F; [intros [= _ X]; discriminate|]. unfold scan_word.
    assert (X : one_of ["B"; "b"]%char b = true) by (apply one_of_in; unfold among in Hb; cbn in *; intuition).
    assert (Y : one_of ["X"; "x"]%char b = false) by (unfold among in Hb; cbn in Hb; destruct Hb as [<-|[<-|[]]]; reflexivity).
    rewrite X, Y. cbn [andb at_char Ascii.eqb Bool.eqb next]. unfold scan_bit_literal.
    rewrite (proj2 (span_spec _ _ (v ++ String "'" r) v (String "'" r) is_bit_spec)); [reflexivity|].
    split; [reflexivity|]. split; [exact Hv|]. intros c y [= <- _] Hc. apply is_bit_spec in Hc. discriminate.
  - assert (E : String o (doubled q v ++ String q "") ++ r = String o (doubled q v ++ String q r)) by (cbn; now rewrite sapp_assoc).
    assert (G : scan_literal_identifier q (doubled q v ++ String q r) = (KTok "ID", v, r)).
    { unfold scan_literal_identifier. rewrite literal_complete by exact Hr. apply String.eqb_neq in Hv. now rewrite Hv. }
    assert (N : String o (doubled q v ++ String q "") <> "?")
      by (intros [= _ X]; destruct (doubled q v); discriminate).
    assert (B : is_blank o = false /\ Ascii.eqb o c_nul = false) by (destruct Hq; split; reflexivity).
    rewrite (A o _ E) by apply B.
    rewrite <- (F _ N G). inversion Hq as [m Hm E1 E2 E3|m Hm E1 E2 E3|E1 E2 E3]; subst o q;
      unfold dispatch, scan_other; cbn -[give scan_literal_identifier].
    + destruct (tk_mode t) eqn:M; [reflexivity| |reflexivity|reflexivity]. now destruct Hm.
    + destruct (tk_mode t) eqn:M; [now destruct Hm|reflexivity|reflexivity|reflexivity].
    + now rewrite <- E1.
  - assert (E : String q (s ++ String q "") ++ r = String q (s ++ String q r)) by (cbn; now rewrite sapp_assoc).
    assert (G : scan_string q (s ++ String q r) = (KTok "STRING", v, r)).
    { unfold scan_string. rewrite (string_complete q v s r) by (auto; now apply (string_quote_not_backslash _ _ Hq)). reflexivity. }
    assert (N : String q (s ++ String q "") <> "?") by (intros [= _ X]; destruct s; discriminate).
    assert (B : is_blank q = false /\ Ascii.eqb q c_nul = false) by (destruct Hq; split; reflexivity).
    rewrite (A q _ E) by apply B. rewrite <- (F _ N G).
    inversion Hq as [m E1 E2|E1 E2]; subst q; unfold dispatch, scan_other; cbn -[give scan_string].
    + reflexivity.
    + now rewrite <- E1.
  - assert (X : exists d s, v = String d s /\ is_digit d = true).
    { destruct Hn; try (exists d; eexists; split; [reflexivity|now apply is_digit_spec]).
      now exists "0"%char, (String x w). }
    destruct X as (d & s & -> & Hdd). rewrite (AD d (s ++ r) eq_refl Hdd). apply F.
    + intros [= -> _]. discriminate.
    + exact (number_complete k (String d s) r Hn Hd Hl).
  - assert (X : exists d s, v = String d s /\ is_digit d = true).
    { destruct Hn; try (exists d; eexists; split; [reflexivity|now apply is_digit_spec]).
      now exists "0"%char, (String x w). }
    destruct X as (d & s & -> & Hdd). rewrite (A "-"%char (String d s ++ r) eq_refl eq_refl eq_refl).
    unfold dispatch, scan_other. cbn -[give scan_number at_class append]. cbn [append at_class]. rewrite Hdd.
    rewrite (number_complete k (String d s) r Hn Hd Hl : scan_number false (String d (s ++ r)) = _).
    apply F; [discriminate|reflexivity].
  - destruct (point_complete v r Hn Hd Hl) as (s & E1 & E2 & E3). rewrite (A "."%char s E1 eq_refl eq_refl).
    unfold dispatch, scan_other. cbn -[give scan_number at_class]. rewrite E2, E3. apply F; [|reflexivity].
    intros ->. discriminate.
  - rewrite (A ":"%char (String c w ++ r) eq_refl eq_refl eq_refl). unfold dispatch. cbn -[give scan_bind_var].
    apply F; [discriminate|]. unfold scan_bind_var. cbn [next at_char].
    apply is_letter_spec in Hc. assert (X : Ascii.eqb c ":" = false) by (destruct (Ascii.eqb_spec c ":") as [->|N]; [discriminate|reflexivity]).
    rewrite X. unfold bind_name. cbn [at_class span]. rewrite Hc. cbn [orb].
    rewrite (proj2 (span_spec _ _ (w ++ r) w r bind_char_spec)) by auto. reflexivity.
  - rewrite (A ":"%char (String ":" (String c w) ++ r) eq_refl eq_refl eq_refl). unfold dispatch. cbn -[give scan_bind_var].
    apply F; [discriminate|]. unfold scan_bind_var. cbn [next at_char Ascii.eqb Bool.eqb].
    assert (G : bind_name (KTok "LIST_ARG") "::" (String c (w ++ r)) = (KTok "LIST_ARG", "::" ++ String c w, r)).
    { apply is_letter_spec in Hc. unfold bind_name. cbn [at_class span]. rewrite Hc. cbn [orb].
      rewrite (proj2 (span_spec _ _ (w ++ r) w r bind_char_spec)) by auto. reflexivity. }
    destruct (tk_mode t); [exact G|now destruct Hm|exact G|exact G].
  - rewrite (A "?"%char r eq_refl eq_refl eq_refl). reflexivity.
  - pose proof (operator_complete again t s k bad r Ho Hr) as G.
    assert (X : forall a b c, In (a, b, c) (operators (tk_mode t)) ->
      (exists d y, a = String d y /\ is_blank d = false /\ Ascii.eqb d c_nul = false) /\ a <> "?").
    { intros a b c0 Hin.
      assert (Y : forallb (fun x => match fst (fst x) with String d y => negb (is_blank d) && negb (Ascii.eqb d c_nul) | "" => false end
                                    && negb (String.eqb (fst (fst x)) "?")) (operators (tk_mode t)) = true)
        by (destruct (tk_mode t); reflexivity).
      rewrite forallb_forall in Y. specialize (Y _ Hin). cbn [fst] in Y.
      apply andb_true_iff in Y. destruct Y as [Y1 Y2]. apply negb_true_iff, String.eqb_neq in Y2. split; [|exact Y2].
      destruct a as [|d y]; [discriminate|]. apply andb_true_iff in Y1. rewrite !negb_true_iff in Y1. now exists d, y. }
    destruct (X _ _ _ Ho) as [(d & y & -> & Y1 & Y2) Y3]. cbn [append] in G.
    rewrite (A d (y ++ r) eq_refl Y1 Y2), G. now apply F.
  - destruct Hp as [<-|[<-|[<-|[]]]].
    1: rewrite (A "-"%char (String "-" (s ++ nl) ++ r) eq_refl eq_refl eq_refl).
    2: rewrite (A "/"%char (String "/" (s ++ nl) ++ r) eq_refl eq_refl eq_refl).
    3: rewrite (A "#"%char ((s ++ nl) ++ r) eq_refl eq_refl eq_refl).
    all: unfold dispatch, scan_other; cbn -[give scan_comment_type1 append]; cbn [append at_char Ascii.eqb Bool.eqb next]; apply F; [discriminate|];
      unfold scan_comment_type1; rewrite sapp_assoc, (line_span s (nl ++ r) Hs) by (right; now exists r); cbn [append nl]; reflexivity.
  - destruct Hp as [<-|[<-|[<-|[]]]].
    1: rewrite (A "-"%char (String "-" s ++ "") eq_refl eq_refl eq_refl).
    2: rewrite (A "/"%char (String "/" s ++ "") eq_refl eq_refl eq_refl).
    3: rewrite (A "#"%char (s ++ "") eq_refl eq_refl eq_refl).
    all: unfold dispatch, scan_other; cbn -[give scan_comment_type1 append]; cbn [append at_char Ascii.eqb Bool.eqb next]; apply F; 
      [try discriminate; intros [= X] |
      unfold scan_comment_type1; rewrite (line_span s "" Hs) by (left; reflexivity); reflexivity].
  - assert (E : ("/*" ++ s ++ "*/") ++ r = String "/" (String "*" (s ++ "*/" ++ r))) by (cbn; now rewrite sapp_assoc).
    rewrite (A "/"%char _ E eq_refl eq_refl).
    assert (X : at_char "!" (s ++ "*/" ++ r) = false).
    { apply at_char_ends. intros c y Hs' <-. destruct s as [|a s]; [discriminate|]. injection Hs' as -> _. now apply (Hb "!"%char s). }
    unfold dispatch, scan_other. cbn -[give scan_comment_type2 at_char append]. cbn [at_char Ascii.eqb Bool.eqb next].
    cbn [at_char] in X. rewrite X.
    apply F; [discriminate|]. unfold scan_comment_type2. rewrite (comment_complete s r Hs). reflexivity.
Qed.

Lemma scan_outer_special again t g body r : tk_force_eof t = false -> tk_multi t = false -> gap g ->
  tk_input t = g ++ "/*!" ++ body ++ "*/" ++ r -> free_of "*/" (body ++ "*") ->
  scan_outer again t = special again t body r.
Proof.
  intros HF HM Hg Hi Hb. rewrite (scan_outer_at again t g "/" (String "*" (String "!" (body ++ "*/" ++ r)))); auto.
  unfold dispatch, scan_other. cbn -[append special scan_special_comment]. unfold scan_special_comment. cbn [next].
  now rewrite (comment_complete body r Hb).
Qed.

Lemma scan_outer_end again t g : tk_force_eof t = false -> tk_multi t = false -> gap g ->
  tk_input t = g -> scan_outer again t = Token KEnd "" (set_input "" t).
Proof.
  intros HF HM Hg Hi. unfold scan_outer. fold (begin (tk_input t)). rewrite HF, Hi, <- (sapp_nil_r g), begin_gap; auto using ends_nil.
Qed.
