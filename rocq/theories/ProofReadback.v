(** What sqldef writes, as its own tokenizer reads it. *)
From Coq Require Import String Ascii List ZArith Bool Arith Lia.
From Verif Require Import GoStr GoStrFacts Ast Keywords Lexer Formatter SpecLexer SpecReadback ProofLexer ProofScan ProofTokens Generator.
Import ListNotations.
Local Open Scope string_scope.
Local Open Scope list_scope.

(** ** One token *)
Lemma reads_one m k v text : text <> "?" -> k <> KTok "COMMENT" -> lexeme m 0 k v text "" ->
  tokens m text = Tokens [(k, v)].
Proof.
  intros Hq Hk H. apply (tokens_exact m text [(k, v)]).
  change (String c_nul text) with (String c_nul "" ++ text)%string. rewrite <- (sapp_nil_r text).
  apply rd_token; [apply gap_nul, all_of_nil|exact H|exact Hk|].
  apply rd_end, gap_blanks, all_of_nil.
Qed.

Lemma reads_then m n k v text r l : text <> "?" -> k <> KTok "COMMENT" -> lexeme m n k v text r ->
  reads m n r l -> reads m n (text ++ r)%string ((k, v) :: l).
Proof.
  intros Hq Hk H Hr. apply (rd_token m n "" text r k v l); [apply gap_blanks, all_of_nil|exact H|exact Hk|].
  unfold counted. destruct (String.eqb_spec text "?"); [easy|exact Hr].
Qed.

(** The first token of a text is what the first call gives. *)
Lemma tokens_head m sql k v l : tokens m sql = Tokens ((k, v) :: l) ->
  forall k' v' t', scan_token (new_tokenizer m sql) = Token k' v' t' -> is_comment k' = false -> k = k' /\ v = v'.
Proof.
  unfold tokens. cbn [tokens_fuel]. unfold lex. cbn [lex_fuel]. intros H k' v' t' E C. rewrite E, C in H. cbn [andb] in H.
  destruct k'; [discriminate| |].
  all: destruct (tokens_fuel _ t'); try discriminate; injection H as <- <- _; auto.
Qed.

(** ** Quoted names *)
Lemma doubled_length q v : String.length v <= String.length (doubled q v).
Proof. induction v as [|c v IH]; cbn; [lia|]. destruct (Ascii.eqb c q); cbn; lia. Qed.

Lemma doubled_same q v : String.length (doubled q v) <= String.length v -> has_char q v = false.
Proof.
  induction v as [|c v IH]; cbn; [reflexivity|]. pose proof (doubled_length q v).
  destruct (Ascii.eqb c q); cbn; [lia|]. intros L. apply IH. lia.
Qed.

Lemma doubled_free q v : has_char q v = false -> doubled q v = v.
Proof.
  induction v as [|c v IH]; cbn; [reflexivity|]. destruct (Ascii.eqb c q); cbn; [discriminate|]. intros H. now rewrite IH.
Qed.

Definition opening (m : mode) : ascii := match m with Postgres => c_dq | Mssql => "[" | _ => "`" end%char.

Lemma escape_eq m name : escape_sql_name m name = String (opening m) (name ++ String (closing m) "").
Proof. now destruct m. Qed.

Lemma quotes_of m : name_quotes m (opening m) (closing m).
Proof. destruct m; cbn; constructor; discriminate. Qed.

Lemma name_lexeme m n name r : name <> "" -> has_char (closing m) name = false -> ends (eq (closing m)) r ->
  lexeme m n (KTok "ID") name (escape_sql_name m name) r.
Proof.
  intros H1 H2 H3. rewrite escape_eq. rewrite <- (doubled_free _ _ H2) at 2. apply lx_name; [apply quotes_of|exact H1|exact H3].
Qed.

Lemma scan_name m name : scan_token (new_tokenizer m (escape_sql_name m name)) =
  give (new_tokenizer m (escape_sql_name m name)) (scan_literal_identifier (closing m) (name ++ String (closing m) "")%string).
Proof. rewrite escape_eq. unfold scan_token. cbn [scan]. destruct m; reflexivity. Qed.

Lemma name_exact m name : tokens m (escape_sql_name m name) = Tokens [(KTok "ID", name)] <->
  name <> "" /\ has_char (closing m) name = false.
Proof.
  split.
  - intros H. pose proof (tokens_head _ _ _ _ _ H) as T. pose proof (scan_name m name) as S.
    unfold scan_literal_identifier in S.
    destruct (literal_identifier (closing m) false (name ++ String (closing m) "")) as [[ok v] r] eqn:E.
    destruct ok; [|cbn [give] in S; destruct (T _ _ _ S eq_refl); discriminate].
    destruct (String.eqb_spec v "") as [->|N]; cbn [give] in S; destruct (T _ _ _ S eq_refl) as [X ->]; [discriminate|].
    split; [exact N|]. apply literal_sound in E. destruct E as [E _]. apply doubled_same.
    apply (f_equal String.length) in E. rewrite !sapp_length in E. cbn in E. lia.
  - intros [H1 H2]. apply reads_one; [now destruct m|discriminate|]. apply name_lexeme; auto. apply ends_nil.
Qed.

(** ** Strings *)
Lemma string_text_length q v s : string_text q v s -> String.length v <= String.length s.
Proof. induction 1; cbn; lia. Qed.

Lemma string_text_same q v s : string_text q v s -> String.length s <= String.length v ->
  has_char q v = false /\ has_char "\" v = false.
Proof.
  induction 1 as [|c v s H1 H2 H IH|v s H IH|c d v s H1 H IH]; cbn [String.length]; intros L; [auto| | |].
  - cbn [has_char]. destruct IH as [-> ->]; [lia|]. rewrite !orb_false_r. split; apply Ascii.eqb_neq; congruence.
  - apply string_text_length in H. lia.
  - apply string_text_length in H. lia.
Qed.

Lemma string_text_plain q v : has_char q v = false -> has_char "\" v = false -> string_text q v v.
Proof.
  induction v as [|c v IH]; cbn [has_char]; intros H1 H2; [constructor|]. apply orb_false_iff in H1, H2. destruct H1 as [A1 B1], H2 as [A2 B2].
  apply Ascii.eqb_neq in A1, A2. apply st_plain; auto.
Qed.

Lemma string_exact m v : tokens m ("'" ++ v ++ "'")%string = Tokens [(KTok "STRING", v)] <->
  has_char "'" v = false /\ has_char "\" v = false.
Proof.
  split.
  - intros H. pose proof (tokens_head _ _ _ _ _ H) as T.
    assert (S : scan_token (new_tokenizer m ("'" ++ v ++ "'")) = give (new_tokenizer m ("'" ++ v ++ "'")) (scan_string "'" (v ++ "'")%string))
      by (destruct m; reflexivity).
    unfold scan_string in S. destruct (string_body "'" (v ++ "'")) as [[ok w] r] eqn:E.
    destruct ok; cbn [give] in S; destruct (T _ _ _ S eq_refl) as [X Y]; [|discriminate]. subst w.
    apply (string_sound_n "'" _ ltac:(discriminate) _ _ _ (le_n _)) in E.
    destruct E as (s & E & Hs & _). apply (string_text_same _ _ _ Hs).
    apply (f_equal String.length) in E. rewrite !sapp_length in E. cbn in E. lia.
  - intros [H1 H2]. apply reads_one; [discriminate|discriminate|].
    apply (lx_string m 0 "'" v v ""); [constructor|now apply string_text_plain|apply ends_nil].
Qed.

Lemma encode_text v : string_text "'" v (encode_chars v).
Proof.
  induction v as [|c v IH]; cbn [encode_chars]; [constructor|].
  destruct (sql_encode c) as [e|] eqn:E.
  - apply st_escape; [|exact IH]. apply esc_named. unfold sql_encode in E.
    destruct (find _ encode_ref) as [p|] eqn:F; [|discriminate]. injection E as <-. apply find_some in F. destruct F as [F1 F2].
    apply Ascii.eqb_eq in F2. subst c. now destruct p.
  - apply st_plain; [| |exact IH]; intros ->; discriminate.
Qed.

Lemma encode_lexeme m n v r : ends (eq "'"%char) r -> lexeme m n (KTok "STRING") v (encode_bytes_sql v) r.
Proof.
  intros H. apply (lx_string m n "'" v (encode_chars v) r); [constructor|apply encode_text|exact H].
Qed.

Lemma encode_exact m v : tokens m (encode_bytes_sql v) = Tokens [(KTok "STRING", v)].
Proof. apply reads_one; [discriminate|discriminate|]. apply encode_lexeme, ends_nil. Qed.

(** ** Names written by the formatter *)
Lemma must_escape_false sysvar s : must_escape sysvar false s = false <->
  all_chars (fun c => is_letter c || is_digit c || (sysvar && is_carat c)) s = true.
Proof.
  induction s as [|c s IH]; [easy|]. cbn [must_escape all_chars].
  destruct (is_letter c), (is_digit c), sysvar, (is_carat c); cbn [andb orb negb]; try exact IH; split; discriminate.
Qed.

Lemma backticked_doubled v : backticked v = doubled "`" v.
Proof.
  induction v as [|c v IH]; [reflexivity|]. cbn [backticked doubled]. rewrite IH.
  destruct (Ascii.eqb_spec c "`") as [->|]; reflexivity.
Qed.

(** Whether the formatter writes the name as it is. *)
Definition bare_name (name : string) : bool :=
  negb (must_escape (has_prefix name "@@") true name) &&
  match find_keyword keywords (to_lower name) with Some _ => false | None => true end.

Lemma format_id_eq name : format_id name = if bare_name name then name else ("`" ++ backticked name ++ "`")%string.
Proof. unfold format_id, bare_name. destruct (must_escape _ _ _); [reflexivity|]. now destruct (find_keyword _ _). Qed.

Lemma carat_not_letter c : is_carat c = true -> is_letter c = false.
Proof. intros H. destruct (is_letter c) eqn:L; [|reflexivity]. revert H L. destruct c as [[] [] [] [] [] [] [] []]; discriminate. Qed.

Lemma bare_name_lexeme m n name : name <> "" -> bare_name name = true -> to_lower name <> "dual" \/ name = "dual" ->
  lexeme m n (KTok "ID") name name "".
Proof.
  intros H1 H2 H3. unfold bare_name in H2. apply andb_true_iff in H2. destruct H2 as [H2 K]. apply negb_true_iff in H2.
  destruct (find_keyword keywords (to_lower name)) eqn:F; [discriminate|].
  assert (W : word name (KTok "ID") name).
  { rewrite find_keyword_none in F. destruct H3 as [H3|H3].
    - now apply word_name.
    - subst name. exact (word_dual "dual" eq_refl). }
  destruct name as [|c w]; [now destruct H1|]. clear H1. cbn [must_escape] in H2.
  destruct (has_prefix (String c w) "@@") eqn:P.
  - apply has_prefix_spec in P. destruct P as [w' E]. cbn in E. injection E as -> ->.
    cbn [is_letter is_digit negb andb orb] in H2.
    assert (M : must_escape true false w' = false) by exact H2.
    apply must_escape_false in M. rewrite (all_chars_spec _ _ _ variable_char_spec) in M.
    change (lexeme m n (KTok "ID") ("@@" ++ w') ("@@" ++ w') ""). apply lx_variable; [exact M|apply ends_nil|exact W].
  - destruct (is_letter c) eqn:L; cbn [negb andb] in H2.
    2:{ cbn in H2. discriminate. }
    apply must_escape_false in H2. rewrite (all_chars_spec _ _ _ word_char_spec) in H2.
    apply lx_word; [now apply is_letter_spec|exact H2|apply ends_nil| | |exact W].
    + intros (_ & _ & r & X). discriminate.
    + intros w' [-> ->]. apply not_true_iff_false in P. apply P. apply has_prefix_spec. now exists w'.
Qed.

Lemma format_id_reads m name : m <> Postgres -> name <> "" -> to_lower name <> "dual" \/ name = "dual" ->
  tokens m (format_id name) = Tokens [(KTok "ID", name)].
Proof.
  intros Hm H1 H2. rewrite format_id_eq. destruct (bare_name name) eqn:B.
  - apply reads_one; [|discriminate|now apply bare_name_lexeme]. intros ->. discriminate.
  - rewrite backticked_doubled. apply reads_one; [discriminate|discriminate|].
    apply (lx_name m 0 "`" "`" name ""); [now apply nq_back|exact H1|apply ends_nil].
Qed.

Lemma format_id_postgres name : name <> "" -> to_lower name <> "dual" \/ name = "dual" ->
  (tokens Postgres (format_id name) = Tokens [(KTok "ID", name)] <-> bare_name name = true).
Proof.
  intros H1 H2. rewrite format_id_eq. destruct (bare_name name) eqn:B.
  - split; [reflexivity|]. intros _. apply reads_one; [|discriminate|now apply bare_name_lexeme]. intros ->. discriminate.
  - split; [|discriminate]. intros H.
    assert (S : scan_token (new_tokenizer Postgres ("`" ++ backticked name ++ "`")) =
      Token lex_error "`" (set_input (backticked name ++ "`") (new_tokenizer Postgres ("`" ++ backticked name ++ "`")))) by reflexivity.
    destruct (tokens_head _ _ _ _ _ H _ _ _ S eq_refl). discriminate.
Qed.

Lemma plain_name_spec name : plain_name name <-> name <> "" /\ bare_name name = true.
Proof.
  split.
  - intros H. assert (K : forall k, ~ In (to_lower name, k) keywords) by (destruct H; assumption).
    apply find_keyword_none in K. unfold bare_name. rewrite K, andb_true_r. destruct H as [c w H1 H2 _|w H1 _].
    + split; [discriminate|]. apply negb_true_iff. cbn [must_escape]. rewrite (proj2 (is_letter_spec c) H1). cbn [negb andb].
      apply must_escape_false. apply all_chars_spec with (P := fun x => is_letter x || is_digit x || (has_prefix (String c w) "@@" && is_carat x) = true); [tauto|].
      intros x Hx. specialize (H2 x Hx). destruct H2 as [H2|H2]; [apply is_letter_spec in H2|apply is_digit_spec in H2]; rewrite H2, ?orb_true_r; reflexivity.
    + split; [discriminate|]. apply negb_true_iff. 
      assert (P : has_prefix ("@@" ++ w) "@@" = true) by (apply has_prefix_spec; now exists w). rewrite P.
      change (must_escape true false w = false). apply must_escape_false. now apply (all_chars_spec _ _ _ variable_char_spec).
  - intros [H1 H2]. unfold bare_name in H2. apply andb_true_iff in H2. destruct H2 as [H2 K]. apply negb_true_iff in H2.
    destruct (find_keyword keywords (to_lower name)) eqn:F; [discriminate|]. rewrite find_keyword_none in F.
    destruct name as [|c w]; [easy|]. cbn [must_escape] in H2. destruct (has_prefix (String c w) "@@") eqn:P.
    + apply has_prefix_spec in P. destruct P as [w' E]. cbn in E. injection E as -> ->.
      change (must_escape true false w' = false) in H2. apply must_escape_false in H2. rewrite (all_chars_spec _ _ _ variable_char_spec) in H2.
      exact (pl_variable w' H2 F).
    + destruct (is_letter c) eqn:L; cbn [negb andb orb] in H2; [|discriminate H2].
      apply must_escape_false in H2. rewrite (all_chars_spec _ _ _ word_char_spec) in H2.
      apply pl_word; [now apply is_letter_spec|exact H2|exact F].
Qed.

Lemma format_id_postgres_spec name : name <> "" -> to_lower name <> "dual" \/ name = "dual" ->
  (tokens Postgres (format_id name) = Tokens [(KTok "ID", name)] <-> plain_name name).
Proof. intros H1 H2. rewrite (format_id_postgres name H1 H2), plain_name_spec. tauto. Qed.

(** ** Qualified names *)
Lemma name_then m n name r l : name <> "" -> has_char (closing m) name = false -> ends (eq (closing m)) r ->
  reads m n r l -> reads m n (escape_sql_name m name ++ r)%string ((KTok "ID", name) :: l).
Proof. intros H1 H2 H3 H4. apply reads_then; [now destruct m|discriminate|now apply name_lexeme|exact H4]. Qed.

Lemma start m s l : is_blank (match s with String c _ => c | "" => "a"%char end) = false ->
  reads m 0 s l -> (forall c r, s = String c r -> c <> c_nul) -> tokens m s = Tokens l.
Proof.
  intros Hb H Hn. apply (proj2 (tokens_exact m s l)).
  assert (G : forall g x, gap g -> s = (g ++ x)%string -> g = "").
  { intros g x [b B|b B] E.
    - destruct b as [|c b]; [reflexivity|]. subst s. change (is_blank c = false) in Hb. apply all_of_cons in B. destruct B as [B _].
      apply is_blank_spec in B. congruence.
    - subst s. exfalso. now apply (Hn _ _ eq_refl). }
  assert (N : gap (String c_nul "")) by apply gap_nul, all_of_nil.
  inversion H as [n0 g Hg E1 E2 E3|n0 g text r k0 v0 l0 Hg Hx Hk Hr E1 E2 E3|n0 g text r v0 l0 Hg Hx Hr E1 E2 E3|n0 g body inner r l1 l2 Hg Hf Hm H1 H2 E1 E2 E3]; subst n0; try subst l.
  - assert (E : s = "") by (apply (G s ""); [exact Hg|now rewrite sapp_nil_r]). rewrite E. apply rd_end, N.
  - rewrite (G g (text ++ r)%string) in * by auto. exact (rd_token m 0 (String c_nul "") text r k0 v0 l0 N Hx Hk Hr).
  - rewrite (G g (text ++ r)%string) in * by auto. exact (rd_comment m 0 (String c_nul "") text r v0 l0 N Hx Hr).
  - rewrite (G g ("/*!" ++ body ++ "*/" ++ r)%string) in * by auto.
    exact (rd_special m 0 (String c_nul "") body inner r l1 l2 N Hf Hm H1 H2).
Qed.

Lemma dot_reads m n r l : ends digit r -> reads m n r l -> reads m n ("." ++ r)%string ((KChar ".", "") :: l).
Proof.
  intros H1 H2. apply reads_then; [discriminate|discriminate| |exact H2].
  apply (lx_operator m n "." (KChar ".") "0123456789" r); [|exact H1]. apply has_operator_in. now destruct m.
Qed.

Lemma escape_start m name : exists s, escape_sql_name m name = String (opening m) s.
Proof. rewrite escape_eq. eauto. Qed.

Lemma qualified_reads m schema tbl : schema <> "" -> has_char (closing m) schema = false ->
  tbl <> "" -> has_char (closing m) tbl = false ->
  tokens m (escape_sql_name m schema ++ "." ++ escape_sql_name m tbl)%string =
    Tokens [(KTok "ID", schema); (KChar ".", ""); (KTok "ID", tbl)].
Proof.
  intros H1 H2 H3 H4. apply start.
  - destruct (escape_start m schema) as [s ->]. now destruct m.
  - apply name_then; [exact H1|exact H2|intros c r [= <- _]; destruct m; discriminate|].
    apply dot_reads.
    + intros c r E D. destruct (escape_start m tbl) as [s E2]. rewrite E2 in E. injection E as <- _. apply is_digit_spec in D. destruct m; discriminate.
    + rewrite <- (sapp_nil_r (escape_sql_name m tbl)). apply name_then; [exact H3|exact H4|apply ends_nil|].
      apply rd_end, gap_blanks, all_of_nil.
  - destruct (escape_start m schema) as [s ->]. intros c r [= <- _]. destruct m; discriminate.
Qed.

Lemma table_reads m name schema tbl : m = Postgres \/ m = Mssql ->
  name = (schema ++ "." ++ tbl)%string /\ has_char "." schema = false \/
  has_char "." name = false /\ schema = match m with Postgres => "public" | _ => "dbo" end /\ tbl = name ->
  schema <> "" -> has_char (closing m) schema = false -> tbl <> "" -> has_char (closing m) tbl = false ->
  tokens m (escape_table_name m name) = Tokens [(KTok "ID", schema); (KChar ".", ""); (KTok "ID", tbl)].
Proof.
  intros Hm H H1 H2 H3 H4. rewrite <- (qualified_reads m schema tbl H1 H2 H3 H4). f_equal.
  assert (E : split_first "." name = Some (schema, tbl) \/ split_first "." name = None /\ schema = match m with Postgres => "public" | _ => "dbo" end /\ tbl = name).
  { destruct H as [[-> H]|[H H']]; [left; now apply split_first_spec|right]. split; [now apply split_first_none|exact H']. }
  unfold escape_table_name. destruct Hm; subst m; destruct E as [->|[-> [-> ->]]]; reflexivity.
Qed.

Lemma occurs_spec c s : occurs c s <-> has_char c s = true.
Proof.
  unfold occurs. induction s as [|a s IH]; cbn; [easy|]. rewrite orb_true_iff, <- IH, Ascii.eqb_eq. tauto.
Qed.
Lemma occurs_not c s : ~ occurs c s <-> has_char c s = false.
Proof. rewrite occurs_spec. destruct (has_char c s); intuition congruence. Qed.

Lemma name_exact_spec m name : tokens m (escape_sql_name m name) = Tokens [(KTok "ID", name)] <->
  name <> "" /\ ~ occurs (closing m) name.
Proof. rewrite occurs_not. apply name_exact. Qed.

Lemma table_reads_spec m name schema tbl : m = Postgres \/ m = Mssql ->
  name = (schema ++ "." ++ tbl)%string /\ ~ occurs "." schema \/
  ~ occurs "." name /\ schema = match m with Postgres => "public" | _ => "dbo" end /\ tbl = name ->
  schema <> "" -> ~ occurs (closing m) schema -> tbl <> "" -> ~ occurs (closing m) tbl ->
  tokens m (escape_table_name m name) = Tokens [(KTok "ID", schema); (KChar ".", ""); (KTok "ID", tbl)].
Proof. rewrite !occurs_not. apply table_reads. Qed.

Lemma string_exact_spec m v : tokens m ("'" ++ v ++ "'") = Tokens [(KTok "STRING", v)] <->
  ~ occurs "'" v /\ ~ occurs "\" v.
Proof. rewrite !occurs_not. apply string_exact. Qed.

(** ** Crashes *)

Definition no_bare (s : string) : Prop := forall x, bare_comment x -> free_of x s.

Lemma free_of_suffix x a b : free_of x (a ++ b)%string -> free_of x b.
Proof. intros H p q E. apply (H (a ++ p)%string q). now rewrite E, !sapp_assoc. Qed.

Lemma no_bare_suffix a b : no_bare (a ++ b)%string -> no_bare b.
Proof. intros H x Hx. eapply free_of_suffix, H, Hx. Qed.

Lemma extract_none body : extract_mysql_comment body = None -> digits body /\ String.length body <= 5.
Proof.
  unfold extract_mysql_comment. assert (V : forall b n, n <= 6 -> after_version n b = None -> digits b /\ n + String.length b <= 6).
  { induction b as [|c b IH]; intros n L; cbn [after_version].
    - intros _. split; [apply all_of_nil|cbn; lia].
    - destruct (is_digit c) eqn:D; cbn [negb orb]; [|discriminate]. destruct (Nat.eqb_spec n 6); [discriminate|].
      intros H. apply IH in H; [|lia]. destruct H as [H1 H2]. split; [|cbn; lia]. apply all_of_cons. split; [now apply is_digit_spec|exact H1]. }
  destruct (after_version 1 body) eqn:E; [discriminate|]. intros _. apply V in E; [|lia]. destruct E. split; [assumption|lia].
Qed.

Lemma trim_left_suffix s : exists p, s = (p ++ trim_left s)%string.
Proof.
  induction s as [|c s [p IH]]; [now exists ""|]. cbn [trim_left]. destruct (is_space c); [|now exists ""].
  exists (String c p). cbn. congruence.
Qed.
Lemma trim_right_prefix s : exists p, s = (trim_right s ++ p)%string.
Proof.
  induction s as [|c s [p IH]]; [now exists ""|]. cbn [trim_right]. destruct (trim_right s) as [|d t] eqn:E.
  - destruct (is_space c); [now exists (String c s)|]. exists p. cbn in IH. cbn. congruence.
  - exists p. cbn in *. congruence.
Qed.

Lemma mysql_only_inside body inner : mysql_only body inner -> exists a b, body = (a ++ inner ++ b)%string.
Proof.
  intros [v c s H1 H2 H3]. destruct (trim_right_prefix (String c s)) as [q E]. destruct (trim_left_suffix (trim_right (String c s))) as [p F].
  exists (v ++ p)%string, q. rewrite sapp_assoc. f_equal. unfold trim_space. rewrite <- sapp_assoc, <- F. exact E.
Qed.

(** Inside a comment no comment ends. *)
Lemma inside_no_bare body inner : free_of "*/" (body ++ "*")%string -> mysql_only body inner -> no_bare (String c_nul inner).
Proof.
  intros F M x (d & _ & _ & ->) a b E. apply mysql_only_inside in M. destruct M as (p & q & ->).
  destruct a as [|c a]; [discriminate|]. injection E as _ E.
  apply (F (p ++ a ++ "/*!" ++ d)%string (b ++ q ++ "*")%string). rewrite E.
  change (String "/" (String "*" (String "!" ((d ++ "*/") ++ b))))%string with ("/*!" ++ (d ++ "*/") ++ b)%string.
  rewrite !sapp_assoc. reflexivity.
Qed.

Fixpoint safe (t : tokenizer) : Prop :=
  no_bare (tk_input t) /\ match tk_special t with Some sp => safe sp | None => True end.
Lemma safe_eq t : safe t <-> no_bare (tk_input t) /\ match tk_special t with Some sp => safe sp | None => True end.
Proof. now destruct t. Qed.

Lemma scan_safe n : forall t, safe t -> scan n t <> ScanPanic /\ (forall k v t', scan n t = Token k v t' -> safe t').
Proof.
  induction n as [|n IH]; intros t S; cbn [scan]; [split; [discriminate|intros; discriminate]|].
  assert (O : forall u, tk_special u = None -> safe u ->
    scan_outer (scan n) u <> ScanPanic /\ (forall k v t', scan_outer (scan n) u = Token k v t' -> safe t')).
  { clear t S. intros u Hs S. apply safe_eq in S. destruct S as [S _].
    destruct (scan_outer_any (scan n) u) as (g & x & Hi & [Ho|He]).
    2:{ rewrite He. split; [discriminate|]. intros k v t' [= _ _ <-]. apply safe_eq. cbn. rewrite Hs. split; [|exact I].
        rewrite Hi in S. now apply no_bare_suffix in S. }
    rewrite Hi in S. apply no_bare_suffix in S.
    inversion Ho as [Hx E1|text r v0 Hx Hn E1|text r k0 v0 Hx Hn Hl E1|body r Hx Hf E1]; subst x.
    - split; [discriminate|]. intros k v t' [= _ _ <-]. apply safe_eq. cbn. rewrite Hs. auto.
    - split; [discriminate|]. intros k v t' [= _ _ <-]. apply safe_eq. cbn. rewrite Hs. split; [|exact I]. now apply no_bare_suffix in S.
    - split; [discriminate|]. intros k v t' [= _ _ <-]. apply safe_eq.
      destruct (after_fields u text r) as (A1 & A2 & A3 & _). rewrite A1, A3, Hs. split; [|exact I]. now apply no_bare_suffix in S.
    - unfold special. destruct (extract_mysql_comment body) as [sql|] eqn:X.
      + apply IH. apply safe_eq. cbn [set_special set_input tk_input tk_special]. split.
        * apply (no_bare_suffix ("/*!" ++ body ++ "*/")). rewrite !sapp_assoc. exact S.
        * apply safe_eq. cbn [new_tokenizer tk_input tk_special]. split; [|exact I]. apply extract_spec in X. now apply (inside_no_bare body).
      + exfalso. apply extract_none in X. destruct X as [X1 X2].
        apply (S ("/*!" ++ body ++ "*/")%string) with (a := ""%string) (b := r); [now exists body|].
        now rewrite !sapp_assoc. }
  pose proof (proj1 (safe_eq t) S) as [S1 S2]. destruct (tk_special t) as [sp|] eqn:Hs; [|now apply O].
  destruct (IH sp S2) as [I1 I2]. destruct (scan n sp) as [k v sp'| |] eqn:E; [|now destruct I1|split; [discriminate|intros; discriminate]].
  assert (T : safe (set_special (Some sp') t)) by (apply safe_eq; cbn; split; [exact S1|now apply (I2 k v)]).
  destruct k.
  - apply O; [reflexivity|]. apply safe_eq. cbn. auto.
  - split; [discriminate|]. now intros k0 v0 t' [= _ _ <-].
  - split; [discriminate|]. now intros k0 v0 t' [= _ _ <-].
Qed.

Lemma lex_safe n : forall t, safe t -> lex_fuel n false t <> ScanPanic /\ (forall k v t', lex_fuel n false t = Token k v t' -> safe t').
Proof.
  induction n as [|n IH]; intros t S; cbn [lex_fuel]; [split; [discriminate|intros; discriminate]|].
  destruct (scan_safe (Datatypes.S (size t)) t S) as [S1 S2]. unfold scan_token. destruct (scan _ t) as [k v t'| |] eqn:E; [|now destruct S1|split; [discriminate|intros; discriminate]].
  destruct (is_comment k && negb false); [apply IH, (S2 k v t' eq_refl)|]. split; [discriminate|].
  intros k0 v0 t0 [= <- <- <-]. now apply (S2 k v).
Qed.

Lemma tokens_safe n : forall t, safe t -> tokens_fuel n t <> StreamPanic.
Proof.
  induction n as [|n IH]; intros t S; cbn [tokens_fuel]; [discriminate|].
  destruct (lex_safe (Datatypes.S (size t)) t S) as [L1 L2]. unfold lex.
  destruct (lex_fuel _ false t) as [k v t'| |] eqn:E; [|now destruct L1|discriminate].
  destruct k; [discriminate| |].
  all: specialize (IH t' (L2 _ _ _ eq_refl)); destruct (tokens_fuel n t'); congruence.
Qed.

Lemma no_crash m sql : no_bare sql -> tokens m sql <> StreamPanic.
Proof.
  intros H. apply tokens_safe. apply safe_eq. cbn. split; [|exact I]. intros x Hx a b E. destruct a as [|c a].
  - destruct Hx as (d & _ & _ & ->). discriminate.
  - injection E as _ E. exact (H x Hx a b E).
Qed.

Lemma no_crash_tokens m sql : (forall x, bare_comment x -> free_of x sql) -> exists l, tokens m sql = Tokens l.
Proof.
  intros H. pose proof (no_crash m sql H). pose proof (tokens_total m sql).
  destruct (tokens m sql) as [l| |]; [now exists l|easy|easy].
Qed.
