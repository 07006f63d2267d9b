(** What sqldef writes and what its tokenizer reads. *)
From Coq Require Import String Ascii List ZArith Bool.
From Verif Require Import GoStr Ast Generator Keywords Lexer Formatter Numerals SpecLexer SpecReadback SpecNumerals.
From Verif Require Import GoStrFacts ProofLexer ProofTokens ProofReadback ProofCase ProofNumerals.
Import ListNotations.
Local Open Scope string_scope.

(** ** C36: quoted identifiers denote the names

    False of names that contain the closing quote, because the planner does not double it.
    The condition is exact. *)
Theorem C36_quoted_names_read_back_partial (m : mode) (name : string) :
  tokens m (escape_sql_name m name) = Tokens [(KTok "ID", name)] <->
  name <> "" /\ ~ occurs (closing m) name.
Proof. exact (name_exact_spec m name). Qed.
Print Assumptions C36_quoted_names_read_back_partial.
Example C36_quoted_names_read_back_example :
  let name := "sel`ect -- 'x' ]" in
  ~ occurs (closing Postgres) name /\ escape_sql_name Postgres name = """sel`ect -- 'x' ]""" /\
  tokens Postgres (escape_sql_name Postgres name) = Tokens [(KTok "ID", name)].
Proof. cbv zeta. split; [rewrite occurs_not|split]; vm_compute; reflexivity. Qed.

(** Table names on PostgreSQL and SQL Server are written with their schema. *)
Theorem C36_table_names_read_back_partial (m : mode) (name schema tbl : string) :
  m = Postgres \/ m = Mssql ->
  name = schema ++ "." ++ tbl /\ ~ occurs "." schema \/
  ~ occurs "." name /\ schema = match m with Postgres => "public" | _ => "dbo" end /\ tbl = name ->
  schema <> "" -> ~ occurs (closing m) schema -> tbl <> "" -> ~ occurs (closing m) tbl ->
  tokens m (escape_table_name m name) = Tokens [(KTok "ID", schema); (KChar ".", ""); (KTok "ID", tbl)].
Proof. exact (table_reads_spec m name schema tbl). Qed.
Print Assumptions C36_table_names_read_back_partial.
Example C36_table_names_read_back_example :
  tokens Mssql (escape_table_name Mssql "sales.order.lines") =
    Tokens [(KTok "ID", "sales"); (KChar ".", ""); (KTok "ID", "order.lines")] /\
  tokens Postgres (escape_table_name Postgres "users") =
    Tokens [(KTok "ID", "public"); (KChar ".", ""); (KTok "ID", "users")].
Proof. split; vm_compute; reflexivity. Qed.

(** On each system some name is written so that it is another name, or an error, when read. *)
Theorem C36_quotes_in_names_refuted : forall m, exists name, name <> "" /\
  exists l, tokens m (escape_sql_name m name) = Tokens l /\ ~ In (KTok "ID", name) l.
Proof.
  intros m. exists match m with Postgres => "a""b" | Mssql => "a]b" | _ => "a`b" end. split; [now destruct m|].
  exists match m with
         | Mssql => [(KTok "ID", "a"); (KTok "ID", "b"); (KChar "]", "")]
         | _ => [(KTok "ID", "a"); (KTok "ID", "b"); (lex_error, "")]
         end.
  split; [now destruct m; vm_compute|]. destruct m; cbn; intuition discriminate.
Qed.
Print Assumptions C36_quotes_in_names_refuted.

(** ** C37: a string default denotes the string *)
Theorem C37_string_defaults_read_back_partial (m : mode) (v : string) :
  exists t, generate_default_definition (parse_value (mkSqlVal StrVal v)) = Ok ("DEFAULT " ++ t) /\
    (tokens m t = Tokens [(KTok "STRING", v)] <-> ~ occurs "'" v /\ ~ occurs "\" v).
Proof. exact (ex_intro _ ("'" ++ v ++ "'") (conj eq_refl (string_exact_spec m v))). Qed.
Print Assumptions C37_string_defaults_read_back_partial.
Example C37_string_defaults_read_back_example :
  let v := "say ""hi"" -- `x` /*!" in
  generate_default_definition (parse_value (mkSqlVal StrVal v)) = Ok ("DEFAULT '" ++ v ++ "'") /\
  tokens Mysql ("'" ++ v ++ "'") = Tokens [(KTok "STRING", v)].
Proof. split; vm_compute; reflexivity. Qed.

(** A quote ends the string and a backslash starts an escape sequence: the same default read
    from the desired schema is written as something else. *)
Theorem C37_quotes_in_defaults_refuted : forall m, exists v text t,
  tokens m text = Tokens [(KTok "STRING", v)] /\
  generate_default_definition (parse_value (mkSqlVal StrVal v)) = Ok ("DEFAULT " ++ t) /\
  exists l, tokens m t = Tokens l /\ ~ In (KTok "STRING", v) l.
Proof.
  intros m. exists "it's", "'it''s'", "'it's'". split; [now destruct m; vm_compute|]. split; [reflexivity|].
  exists [(KTok "STRING", "it"); (KTok "ID", "s"); (lex_error, "")].
  split; [now destruct m; vm_compute|]. cbn. intuition discriminate.
Qed.
Print Assumptions C37_quotes_in_defaults_refuted.
Theorem C37_backslashes_in_defaults_refuted : forall m, exists v text t,
  tokens m text = Tokens [(KTok "STRING", v)] /\
  generate_default_definition (parse_value (mkSqlVal StrVal v)) = Ok ("DEFAULT " ++ t) /\
  exists v', tokens m t = Tokens [(KTok "STRING", v')] /\ v <> v'.
Proof.
  intros m. exists "C:\new", "'C:\\new'", "'C:\new'". split; [now destruct m; vm_compute|]. split; [reflexivity|].
  exists (String "C" (String ":" (String c_lf "ew"))). split; [now destruct m; vm_compute|discriminate].
Qed.
Print Assumptions C37_backslashes_in_defaults_refuted.

(** ** C38: numeric defaults keep their value *)
Theorem C38_integer_defaults_keep_their_value_partial (m : mode) (s : string) (z : Z) :
  integer_literal s z -> (- 2 ^ 63 <= z <= 2 ^ 63 - 1)%Z ->
  exists t, generate_default_definition (parse_value (mkSqlVal IntVal s)) = Ok ("DEFAULT " ++ t) /\
    tokens m t = Tokens [(KTok "INTEGRAL", t)] /\ integer_literal t z.
Proof. exact (integer_default m s z). Qed.
Print Assumptions C38_integer_defaults_keep_their_value_partial.
Example C38_integer_defaults_keep_their_value_example :
  integer_literal "-007" (-7) /\
  generate_default_definition (parse_value (mkSqlVal IntVal "-007")) = Ok "DEFAULT -7".
Proof.
  split; [|vm_compute; reflexivity]. refine (il_negative "007" _ _); [|discriminate].
  now apply (all_chars_spec _ _ _ is_digit_spec).
Qed.

(** A decimal default with at most six decimals and less than 2^32 keeps its value. *)
Theorem C38_decimal_defaults_keep_their_value_partial (m : mode) (s : string) (neg : bool) (n k a : Z) :
  decimal_literal s neg n k -> millionths n k a -> (a < 2 ^ 32 * 1000000)%Z ->
  exists t, generate_default_definition (parse_value (mkSqlVal FloatVal s)) = Ok ("DEFAULT " ++ t) /\
    tokens m t = Tokens [(KTok "FLOAT", t)] /\
    exists n' k', decimal_literal t neg n' k' /\ millionths n' k' a.
Proof. exact (float_default m s neg n k a). Qed.
Print Assumptions C38_decimal_defaults_keep_their_value_partial.
Example C38_decimal_defaults_keep_their_value_example :
  decimal_literal "-12.5e-2" true 125 (-3) /\ millionths 125 (-3) 125000 /\
  generate_default_definition (parse_value (mkSqlVal FloatVal "-12.5e-2")) = Ok "DEFAULT -0.125000".
Proof.
  split; [|split; [right; vm_compute; split; reflexivity|vm_compute; reflexivity]].
  assert (D : forall w, all_chars is_digit w = true -> digits w)
    by (intros w; apply (all_chars_spec _ _ _ is_digit_spec)).
  exact (dl_fraction true "12" "5" "e-2" (-2) (D "12" eq_refl) (D "5" eq_refl) ltac:(discriminate)
           (pw_minus "e" "2" ltac:(left; reflexivity) (D "2" eq_refl) ltac:(discriminate))).
Qed.

(** Beyond 64 bits an integer default is cut to the largest value that fits; BIGINT UNSIGNED
    has such values. *)
Theorem C38_large_integers_refuted : exists s z t z', integer_literal s z /\
  generate_default_definition (parse_value (mkSqlVal IntVal s)) = Ok ("DEFAULT " ++ t) /\
  integer_literal t z' /\ z <> z'.
Proof.
  assert (D : forall w, all_chars is_digit w = true -> digits w)
    by (intros w; apply (all_chars_spec _ _ _ is_digit_spec)).
  exists "18446744073709551615", (amount "18446744073709551615"), "9223372036854775807", (amount "9223372036854775807").
  split; [apply il_plain; [now apply D|discriminate]|]. split; [vm_compute; reflexivity|].
  split; [apply il_plain; [now apply D|discriminate]|vm_compute; discriminate].
Qed.
Print Assumptions C38_large_integers_refuted.

(** Decimals after the sixth are lost. *)
Theorem C38_small_decimals_refuted : exists s n k t n' k', decimal_literal s false n k /\
  generate_default_definition (parse_value (mkSqlVal FloatVal s)) = Ok ("DEFAULT " ++ t) /\
  decimal_literal t false n' k' /\ n <> 0%Z /\ n' = 0%Z.
Proof.
  assert (D : forall w, all_chars is_digit w = true -> digits w)
    by (intros w; apply (all_chars_spec _ _ _ is_digit_spec)).
  exists "0.0000001", 1%Z, (-7)%Z, "0.000000", 0%Z, (-6)%Z.
  split; [exact (dl_fraction false "0" "0000001" "" 0 (D "0" eq_refl) (D "0000001" eq_refl) ltac:(discriminate) pw_none)|].
  split; [vm_compute; reflexivity|].
  split; [exact (dl_fraction false "0" "000000" "" 0 (D "0" eq_refl) (D "000000" eq_refl) ltac:(discriminate) pw_none)|].
  split; [discriminate|reflexivity].
Qed.
Print Assumptions C38_small_decimals_refuted.

(** ** C39: the tokenizer terminates and accounts for every byte *)
Theorem C39_tokenizer_terminates (m : mode) (sql : string) :
  tokens m sql <> StreamFuel /\
  forall l, tokens m sql = Tokens l -> List.length l <= S (String.length sql).
Proof. exact (conj (tokens_total m sql) (fun l => tokens_bounded m sql l)). Qed.
Print Assumptions C39_tokenizer_terminates.

(** Each call, in any state of the tokenizer, leaves less to read or reports the end. *)
Theorem C39_each_call_consumes (t : tokenizer) :
  exists r, scan_token t = r /\ r <> OutOfFuel /\
  forall k v t', r = Token k v t' -> k = KEnd \/ size t' < size t.
Proof.
  exact (ex_intro _ (scan_token t) (conj eq_refl (conj (scan_token_returns t)
           (fun k v t' => token_shrinks (S (size t)) t k v t')))).
Qed.
Print Assumptions C39_each_call_consumes.
Example C39_terminates_example :
  tokens Mysql "/*!50001 CREATE */ é?" =
    Tokens [(KTok "CREATE", "create"); (lex_error, String "195" ""); (lex_error, String "169" ""); (KTok "VALUE_ARG", ":v1")].
Proof. vm_compute. reflexivity. Qed.

(** It crashes on a comment for MySQL only that holds nothing but a version number, and only then. *)
Theorem C39_bare_comment_crashes_refuted : forall m, exists sql, tokens m sql = StreamPanic.
Proof. intros m. exists "CREATE TABLE t (id int) /*!40101*/;". destruct m; vm_compute; reflexivity. Qed.
Print Assumptions C39_bare_comment_crashes_refuted.
Theorem C39_no_other_crash_partial (m : mode) (sql : string) :
  (forall x, bare_comment x -> free_of x sql) -> exists l, tokens m sql = Tokens l.
Proof. exact (no_crash_tokens m sql). Qed.
Print Assumptions C39_no_other_crash_partial.
Example C39_no_other_crash_example :
  (forall x, bare_comment x -> free_of x "/*!40101 a*/") /\ tokens Mysql "/*!40101 a*/" = Tokens [(KTok "ID", "a")].
Proof.
  split; [|vm_compute; reflexivity]. intros x (d & D & L & ->) a b E.
  destruct a as [|c a].
  - do 6 (destruct d as [|? d]; [discriminate|]). cbn in L. do 5 apply le_S_n in L. inversion L.
  - do 12 (cbn in E; injection E as _ E; destruct a as [|? a]; [discriminate|]). discriminate.
Qed.

(** ** C40: keywords in any letter case *)
Theorem C40_letter_case (m : mode) (s s' : string) :
  to_lower s = to_lower s' -> same_kinds (tokens m s) (tokens m s').
Proof. exact (letter_case m s s'). Qed.
Print Assumptions C40_letter_case.
Example C40_letter_case_example :
  to_lower "Create TABLE `A` (X'1F', 1E3)" = to_lower "CREATE table `a` (x'1f', 1e3)" /\
  tokens Mysql "Create TABLE `A` (X'1F', 1E3)" =
    Tokens [(KTok "CREATE", "create"); (KTok "TABLE", "table"); (KTok "ID", "A"); (KChar "(", "");
            (KTok "HEX", "1F"); (KChar ",", ""); (KTok "FLOAT", "1E3"); (KChar ")", "")].
Proof. split; vm_compute; reflexivity. Qed.

(** ** C41: string literals of the formatter read back *)
Theorem C41_formatted_strings_read_back (m : mode) (v : string) :
  tokens m (encode_bytes_sql v) = Tokens [(KTok "STRING", v)].
Proof. exact (encode_exact m v). Qed.
Print Assumptions C41_formatted_strings_read_back.
Example C41_formatted_strings_example :
  encode_bytes_sql (String c_lf "it's \ ""x""") = "'\nit\'s \\ \""x\""'".
Proof. vm_compute. reflexivity. Qed.

(** ** C51: the tokens are those of the lexical grammar *)
Theorem C51_tokens_are_those_of_the_grammar (m : mode) (sql : string) (l : list (kind * string)) :
  (tokens m sql = Tokens l /\ no_errors l) <-> reads m 0 (String c_nul sql) l.
Proof. exact (tokens_exact m sql l). Qed.
Print Assumptions C51_tokens_are_those_of_the_grammar.
Example C51_tokens_example :
  tokens Mysql "a -> '$.b' <= -.5e3 -- c
 ? /* d */" = Tokens ([(KTok "ID", "a"); (KTok "JSON_EXTRACT_OP", ""); (KTok "STRING", "$.b"); (KTok "LE", "");
            (KChar "-", ""); (KTok "FLOAT", ".5e3"); (KTok "VALUE_ARG", ":v1")]) /\
  reads Mysql 0 (String c_nul "/*!40000 a*/ b")
    [(KTok "ID", "a"); (KTok "ID", "b")].
Proof.
  split; [vm_compute; reflexivity|]. apply C51_tokens_are_those_of_the_grammar.
  split; [vm_compute; reflexivity|intros v; cbn; intuition discriminate].
Qed.

(** ** C52: names written by the SQL formatter read back *)
Theorem C52_formatted_names_read_back_partial (m : mode) (name : string) :
  m <> Postgres -> name <> "" -> to_lower name <> "dual" \/ name = "dual" ->
  tokens m (format_id name) = Tokens [(KTok "ID", name)].
Proof. exact (format_id_reads m name). Qed.
Print Assumptions C52_formatted_names_read_back_partial.
Example C52_formatted_names_example :
  format_id "order" = "`order`" /\ format_id "a`b c" = "`a``b c`" /\ format_id "user_id" = "user_id".
Proof. repeat split; vm_compute; reflexivity. Qed.

(** The formatter always quotes with backticks, which PostgreSQL's tokenizer refuses. *)
Theorem C52_formatted_names_postgres_partial (name : string) :
  name <> "" -> to_lower name <> "dual" \/ name = "dual" ->
  (tokens Postgres (format_id name) = Tokens [(KTok "ID", name)] <-> plain_name name).
Proof. exact (format_id_postgres_spec name). Qed.
Print Assumptions C52_formatted_names_postgres_partial.
Theorem C52_formatted_names_postgres_refuted : exists name,
  tokens Postgres ("""" ++ name ++ """") = Tokens [(KTok "ID", name)] /\
  exists l, tokens Postgres (format_id name) = Tokens ((lex_error, "`") :: l).
Proof. exists "order". split; [vm_compute; reflexivity|]. eexists. vm_compute. reflexivity. Qed.
Print Assumptions C52_formatted_names_postgres_refuted.
Theorem C52_dual_refuted : exists name, tokens Mysql ("`" ++ name ++ "`") = Tokens [(KTok "ID", name)] /\
  tokens Mysql (format_id name) = Tokens [(KTok "ID", "dual")] /\ name <> "dual".
Proof. exists "Dual". repeat split; try (vm_compute; reflexivity). discriminate. Qed.
Print Assumptions C52_dual_refuted.

(** ** C53: bit defaults keep their value *)
Theorem C53_bit_defaults_read_back_partial (m : mode) (v : string) :
  exists t, generate_default_definition (parse_value (mkSqlVal BitVal v)) = Ok ("DEFAULT " ++ t) /\
    (tokens m t = Tokens [(KTok "BIT_LITERAL", v)] <-> v = "0" \/ v = "1").
Proof. exact (bit_default m v). Qed.
Print Assumptions C53_bit_defaults_read_back_partial.
Theorem C53_bit_strings_refuted : exists v text,
  tokens Mysql text = Tokens [(KTok "BIT_LITERAL", v)] /\
  generate_default_definition (parse_value (mkSqlVal BitVal v)) = Ok "DEFAULT b'0'" /\ v <> "0".
Proof. exists "101", "b'101'". repeat split; try (vm_compute; reflexivity). discriminate. Qed.
Print Assumptions C53_bit_strings_refuted.
