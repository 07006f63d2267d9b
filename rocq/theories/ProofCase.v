(** Letter case does not matter to the kinds of tokens. *)
From Coq Require Import String Ascii List ZArith Bool Arith Lia.
From Verif Require Import GoStr GoStrFacts Ast Keywords Lexer SpecLexer SpecReadback ProofLexer ProofScan ProofTokens.
Import ListNotations.
Local Open Scope string_scope.
Local Open Scope list_scope.

Definition caseless (p : ascii -> bool) : Prop := forall c, p (lower_ascii c) = p c.

Lemma caseless_check p : forallb (fun c => Bool.eqb (p (lower_ascii c)) (p c)) every_ascii = true -> caseless p.
Proof. intros H c. rewrite forallb_forall in H. apply eqb_prop. apply H, every_ascii_in. Qed.

Ltac caseless := apply caseless_check; vm_compute; reflexivity.

Lemma caseless_letter : caseless is_letter. Proof. caseless. Qed.
Lemma caseless_digit : caseless is_digit. Proof. caseless. Qed.
Lemma caseless_hex : caseless is_hex_digit. Proof. caseless. Qed.
Lemma caseless_bit : caseless is_bit. Proof. caseless. Qed.
Lemma caseless_carat : caseless is_carat. Proof. caseless. Qed.
Lemma caseless_blank : caseless is_blank. Proof. caseless. Qed.
Lemma caseless_space : caseless is_space. Proof. caseless. Qed.
Lemma caseless_e : caseless (one_of ["e"; "E"]%char). Proof. caseless. Qed.
Lemma caseless_sign : caseless (one_of ["+"; "-"]%char). Proof. caseless. Qed.
Lemma caseless_x : caseless (one_of ["X"; "x"]%char). Proof. caseless. Qed.
Lemma caseless_x2 : caseless (one_of ["x"; "X"]%char). Proof. caseless. Qed.
Lemma caseless_b : caseless (one_of ["B"; "b"]%char). Proof. caseless. Qed.

Lemma lower_twice c : lower_ascii (lower_ascii c) = lower_ascii c.
Proof. assert (H : forallb (fun c => Ascii.eqb (lower_ascii (lower_ascii c)) (lower_ascii c)) every_ascii = true) by (vm_compute; reflexivity).
  rewrite forallb_forall in H. apply Ascii.eqb_eq, H, every_ascii_in. Qed.
Lemma to_lower_twice s : to_lower (to_lower s) = to_lower s.
Proof. induction s as [|c s IH]; [reflexivity|]. cbn. now rewrite IH, lower_twice. Qed.
Lemma to_lower_app a b : to_lower (a ++ b)%string = (to_lower a ++ to_lower b)%string.
Proof. induction a as [|c a IH]; [reflexivity|]. cbn. now rewrite IH. Qed.
Lemma to_lower_length a : String.length (to_lower a) = String.length a.
Proof. induction a as [|c a IH]; [reflexivity|]. cbn. now rewrite IH. Qed.

(** A character that is not a letter is the lower case form of itself only. *)
Lemma caseless_char x : is_letter x = false -> caseless (fun c => Ascii.eqb c x).
Proof.
  intros H c. assert (E : forallb (fun x => is_letter x || forallb (fun c => Bool.eqb (Ascii.eqb (lower_ascii c) x) (Ascii.eqb c x)) every_ascii) every_ascii = true)
    by (vm_compute; reflexivity).
  rewrite forallb_forall in E. specialize (E x (every_ascii_in x)). rewrite H in E. cbn [orb] in E.
  rewrite forallb_forall in E. apply eqb_prop, E, every_ascii_in.
Qed.

Lemma lower_same c : is_letter c = false -> lower_ascii c = c.
Proof.
  intros H. assert (E : forallb (fun c => is_letter c || Ascii.eqb (lower_ascii c) c) every_ascii = true) by (vm_compute; reflexivity).
  rewrite forallb_forall in E. specialize (E c (every_ascii_in c)). rewrite H in E. now apply Ascii.eqb_eq.
Qed.

Lemma span_lower p s : caseless p -> forall a b, span p s = (a, b) -> span p (to_lower s) = (to_lower a, to_lower b).
Proof.
  intros P. induction s as [|c s IH]; intros a b; cbn [span to_lower]; [intros [= <- <-]; reflexivity|].
  rewrite P. destruct (p c).
  - destruct (span p s) as [a' b'] eqn:E. intros [= <- <-]. now rewrite (IH _ _ eq_refl).
  - intros [= <- <-]. reflexivity.
Qed.

Lemma at_class_lower p s : caseless p -> at_class p (to_lower s) = at_class p s.
Proof. intros P. destruct s; [reflexivity|]. apply P. Qed.
Lemma at_char_lower x s : is_letter x = false -> at_char x (to_lower s) = at_char x s.
Proof. intros P. destruct s; [reflexivity|]. apply (caseless_char x P). Qed.
Lemma next_lower s : next (to_lower s) = to_lower (next s).
Proof. now destruct s. Qed.

(** Same kind; what is left differs in letter case only. *)
Definition alike (x y : lexed) : Prop := fst (fst y) = fst (fst x) /\ snd y = to_lower (snd x).
Lemma alike_intro k v v' r : alike (k, v, r) (k, v', to_lower r).
Proof. split; reflexivity. Qed.

Ltac spans p H := match goal with |- context [span p ?s] =>
  let a := fresh "a" in let b := fresh "b" in let E := fresh "E" in
  destruct (span p s) as [a b] eqn:E; rewrite (span_lower p s H _ _ E) end.

Lemma identifier_lower c sysvar s : alike (scan_identifier c sysvar s) (scan_identifier (lower_ascii c) sysvar (to_lower s)).
Proof.
  unfold scan_identifier.
  assert (P : caseless (fun c => is_letter c || is_digit c || (sysvar && is_carat c))) by (intros d; now rewrite caseless_letter, caseless_digit, caseless_carat).
  spans (fun c => is_letter c || is_digit c || (sysvar && is_carat c)) P.
  cbn [to_lower]. rewrite lower_twice, to_lower_twice.
  destruct (find_keyword _ _); [apply alike_intro|]. destruct (String.eqb _ _); apply alike_intro.
Qed.

Lemma hex_lower s : alike (scan_hex s) (scan_hex (to_lower s)).
Proof.
  unfold scan_hex. spans is_hex_digit caseless_hex. rewrite at_char_lower, to_lower_length, next_lower by reflexivity.
  destruct (at_char _ _); [destruct (Nat.even _)|]; apply alike_intro.
Qed.
Lemma bit_lower s : alike (scan_bit_literal s) (scan_bit_literal (to_lower s)).
Proof.
  unfold scan_bit_literal. spans is_bit caseless_bit. rewrite at_char_lower, next_lower by reflexivity.
  destruct (at_char _ _); apply alike_intro.
Qed.

Lemma literal_lower sep : is_letter sep = false -> forall s seen ok v r, literal_identifier sep seen s = (ok, v, r) ->
  exists v', literal_identifier sep seen (to_lower s) = (ok, v', to_lower r) /\ v' = to_lower v.
Proof.
  intros N. induction s as [|c s IH]; intros seen ok v r; cbn [literal_identifier to_lower].
  - intros [= <- <- <-]. now exists "".
  - pose proof (caseless_char sep N c) as C. cbn beta in C. rewrite C. destruct seen, (Ascii.eqb c sep) eqn:E.
    + destruct (literal_identifier sep false s) as [[ok' v'] r'] eqn:L. intros [= <- <- <-].
      destruct (IH _ _ _ _ L) as (w & -> & ->). exists (String sep (to_lower v')). split; [reflexivity|]. cbn [to_lower]. now rewrite (lower_same sep N).
    + intros [= <- <- <-]. now exists "".
    + apply IH.
    + destruct (literal_identifier sep false s) as [[ok' v'] r'] eqn:L. intros [= <- <- <-].
      destruct (IH _ _ _ _ L) as (w & -> & ->). now exists (String (lower_ascii c) (to_lower v')).
Qed.
Lemma to_lower_empty v : String.eqb (to_lower v) "" = String.eqb v "".
Proof. now destruct v. Qed.
Lemma quoted_lower sep s : is_letter sep = false -> alike (scan_literal_identifier sep s) (scan_literal_identifier sep (to_lower s)).
Proof.
  intros N. unfold scan_literal_identifier. destruct (literal_identifier sep false s) as [[ok v] r] eqn:L.
  destruct (literal_lower sep N _ _ _ _ _ L) as (w & -> & ->). destruct ok; [|apply alike_intro].
  rewrite to_lower_empty. destruct (String.eqb v ""); apply alike_intro.
Qed.

Lemma bind_lower tok buf buf' s : alike (bind_name tok buf s) (bind_name tok buf' (to_lower s)).
Proof.
  unfold bind_name. rewrite (at_class_lower _ _ caseless_letter). destruct (at_class _ _); [|apply alike_intro].
  assert (P : caseless (fun c => is_letter c || is_digit c || Ascii.eqb c "."))
    by (intros d; rewrite caseless_letter, caseless_digit; now rewrite (caseless_char "." eq_refl d)).
  spans (fun c => is_letter c || is_digit c || Ascii.eqb c ".") P. apply alike_intro.
Qed.
Lemma bind_var_lower m s : alike (scan_bind_var m s) (scan_bind_var m (to_lower s)).
Proof.
  unfold scan_bind_var. rewrite !next_lower, at_char_lower by reflexivity. destruct (at_char _ _); [|apply bind_lower].
  destruct m; try apply bind_lower. apply alike_intro.
Qed.

Lemma exponent_lower tok buf buf' s : alike (scan_exponent tok buf s) (scan_exponent tok buf' (to_lower s)).
Proof.
  unfold scan_exponent. rewrite (at_class_lower _ _ caseless_e). destruct (at_class _ _); [|apply alike_intro].
  rewrite next_lower, (at_class_lower _ _ caseless_sign). destruct (at_class _ (next s)).
  - rewrite next_lower. spans is_digit caseless_digit. apply alike_intro.
  - spans is_digit caseless_digit. apply alike_intro.
Qed.
Lemma exit_lower x y : alike x y -> alike (number_exit x) (number_exit y).
Proof.
  destruct x as [[k v] r], y as [[k' v'] r']. intros [H1 H2]. cbn in H1, H2. subst. unfold number_exit.
  rewrite (at_class_lower _ _ caseless_letter). destruct (at_class _ _); apply alike_intro.
Qed.
Lemma number_lower d s : alike (scan_number d s) (scan_number d (to_lower s)).
Proof.
  unfold scan_number. apply exit_lower. destruct d.
  - spans is_digit caseless_digit. apply exponent_lower.
  - rewrite at_char_lower by reflexivity. destruct (at_char "0" s).
    + rewrite next_lower, (at_class_lower _ _ caseless_x2). cbn [String.eqb Ascii.eqb Bool.eqb andb].
      destruct (at_class _ _).
      * rewrite next_lower. spans is_hex_digit caseless_hex. apply alike_intro.
      * spans is_digit caseless_digit. rewrite at_char_lower by reflexivity. destruct (at_char "." b); [|apply exponent_lower].
        rewrite next_lower. spans is_digit caseless_digit. apply exponent_lower.
    + cbn [String.eqb andb]. spans is_digit caseless_digit. rewrite at_char_lower by reflexivity. destruct (at_char "." b); [|apply exponent_lower].
      rewrite next_lower. spans is_digit caseless_digit. apply exponent_lower.
Qed.

Lemma string_lower_n q : is_letter q = false -> forall n s ok v r, String.length s <= n -> string_body q s = (ok, v, r) ->
  exists v', string_body q (to_lower s) = (ok, v', to_lower r).
Proof.
  intros N. induction n as [|n IH]; intros s ok v r L; (destruct s as [|c s]; [cbn; intros [= <- <- <-]; now exists ""|]); cbn [String.length] in L; [lia|].
  cbn [string_body to_lower]. pose proof (caseless_char "\" eq_refl c) as C. cbn beta in C. rewrite C. 
  pose proof (caseless_char q N c) as C2. cbn beta in C2. rewrite C2.
  destruct (Ascii.eqb c "\").
  - destruct s as [|d s]; [intros [= <- <- <-]; now exists ""|]. cbn [to_lower]. cbn [String.length] in L.
    destruct (string_body q s) as [[ok' v'] r'] eqn:E. intros [= <- <- <-].
    destruct (IH s _ _ _ ltac:(lia) E) as [w ->]. eexists. reflexivity.
  - destruct (Ascii.eqb c q).
    + destruct s as [|d s]; [intros [= <- <- <-]; now exists ""|]. cbn [to_lower]. cbn [String.length] in L.
      pose proof (caseless_char q N d) as C3. cbn beta in C3. rewrite C3. destruct (Ascii.eqb d q).
      * destruct (string_body q s) as [[ok' v'] r'] eqn:E. intros [= <- <- <-].
        destruct (IH s _ _ _ ltac:(lia) E) as [w ->]. eexists. reflexivity.
      * intros [= <- <- <-]. now exists "".
    + destruct (string_body q s) as [[ok' v'] r'] eqn:E. intros [= <- <- <-].
      destruct (IH s _ _ _ ltac:(lia) E) as [w ->]. eexists. reflexivity.
Qed.
Lemma string_lower q s : is_letter q = false -> alike (scan_string q s) (scan_string q (to_lower s)).
Proof.
  intros N. unfold scan_string. destruct (string_body q s) as [[ok v] r] eqn:E.
  destruct (string_lower_n q N _ s _ _ _ (le_n _) E) as [w ->]. destruct ok; apply alike_intro.
Qed.

Lemma line_lower p s : alike (scan_comment_type1 p s) (scan_comment_type1 p (to_lower s)).
Proof.
  unfold scan_comment_type1.
  assert (P : caseless (fun c => negb (Ascii.eqb c c_lf))) by (intros d; now rewrite (caseless_char c_lf eq_refl d)).
  spans (fun c => negb (Ascii.eqb c c_lf)) P. destruct b as [|c b]; cbn [to_lower].
  - apply (alike_intro _ _ _ ""). - apply alike_intro.
Qed.

Lemma comment_lower s : forall ok v r, comment_body s = (ok, v, r) -> comment_body (to_lower s) = (ok, to_lower v, to_lower r).
Proof.
  induction s as [|c s IH]; intros ok v r; cbn [comment_body to_lower]; [intros [= <- <- <-]; reflexivity|].
  pose proof (caseless_char "*" eq_refl c) as C. cbn beta in C. rewrite C, at_char_lower, next_lower by reflexivity.
  destruct (Ascii.eqb c "*" && at_char "/" s); [intros [= <- <- <-]; reflexivity|].
  destruct (comment_body s) as [[ok' v'] r']. intros [= <- <- <-]. now rewrite (IH _ _ _ eq_refl).
Qed.
Lemma block_lower s : alike (scan_comment_type2 s) (scan_comment_type2 (to_lower s)).
Proof.
  unfold scan_comment_type2. destruct (comment_body s) as [[ok v] r] eqn:E. rewrite (comment_lower _ _ _ _ E).
  destruct ok; apply alike_intro.
Qed.

Lemma trim_left_lower s : trim_left (to_lower s) = to_lower (trim_left s).
Proof. induction s as [|c s IH]; [reflexivity|]. cbn. rewrite caseless_space. now destruct (is_space c). Qed.
Lemma trim_right_lower s : trim_right (to_lower s) = to_lower (trim_right s).
Proof.
  induction s as [|c s IH]; [reflexivity|]. cbn. rewrite IH, caseless_space.
  destruct (trim_right s); [now destruct (is_space c)|reflexivity].
Qed.
Lemma extract_lower b : extract_mysql_comment (to_lower b) = option_map to_lower (extract_mysql_comment b).
Proof.
  unfold extract_mysql_comment. assert (V : forall n b, after_version n (to_lower b) = option_map to_lower (after_version n b)).
  { intros n b'. revert n. induction b' as [|c b' IH]; intros n; [reflexivity|]. cbn [after_version to_lower]. rewrite caseless_digit, IH.
    now destruct (negb (is_digit c) || Nat.eqb n 6). }
  rewrite V. destruct (after_version 1 b); [|reflexivity]. cbn. unfold trim_space. now rewrite trim_right_lower, trim_left_lower.
Qed.

(** ** Tokenizers *)
Fixpoint low (t : tokenizer) : tokenizer :=
  mkTokenizer (to_lower (tk_input t)) (match tk_special t with Some sp => Some (low sp) | None => None end)
    (tk_posvar t) (tk_force_eof t) (tk_multi t) (tk_mode t).
Lemma low_eq t : low t = mkTokenizer (to_lower (tk_input t)) (option_map low (tk_special t))
    (tk_posvar t) (tk_force_eof t) (tk_multi t) (tk_mode t).
Proof. destruct t as [i [sp|] p f m md]; reflexivity. Qed.
Lemma low_input r t : low (set_input r t) = set_input (to_lower r) (low t).
Proof. rewrite !low_eq. reflexivity. Qed.
Lemma low_special x t : low (set_special x t) = set_special (option_map low x) (low t).
Proof. rewrite !low_eq. reflexivity. Qed.
Lemma low_count t : low (count_posvar t) = count_posvar (low t).
Proof. rewrite !low_eq. reflexivity. Qed.
Lemma low_new m s : low (new_tokenizer m s) = new_tokenizer m (to_lower s).
Proof. reflexivity. Qed.
Lemma low_size t : size (low t) = size t.
Proof.
  induction t as [t IH] using (well_founded_induction (well_founded_ltof _ size)). rewrite !size_eq.
  rewrite low_eq. cbn [tk_input tk_special]. rewrite to_lower_length. f_equal.
  destruct (tk_special t) as [sp|] eqn:E; [|reflexivity]. cbn [option_map]. f_equal. apply IH.
  unfold ltof. rewrite (size_eq t), E. lia.
Qed.

Inductive kin : scanned -> scanned -> Prop :=
| kin_token k v v' t : kin (Token k v t) (Token k v' (low t))
| kin_panic : kin ScanPanic ScanPanic
| kin_fuel : kin OutOfFuel OutOfFuel.

Lemma kin_cases x y : kin x y -> (exists k v v' t, x = Token k v t /\ y = Token k v' (low t)) \/
  (x = ScanPanic /\ y = ScanPanic) \/ (x = OutOfFuel /\ y = OutOfFuel).
Proof. intros [k v v' t| |]; auto. left. now exists k, v, v', t. Qed.

Lemma give_kin t x y : alike x y -> kin (give t x) (give (low t) y).
Proof.
  destruct x as [[k v] r], y as [[k' v'] r']. intros [H1 H2]. cbn in H1, H2. subst. unfold give. rewrite <- low_input. constructor.
Qed.
Lemma give_char t c s : kin (give t (KChar c, "", s)) (give (low t) (KChar c, "", to_lower s)).
Proof. apply give_kin, alike_intro. Qed.

Lemma low_mode t : tk_mode (low t) = tk_mode t. Proof. now rewrite low_eq. Qed.

Lemma special_lower again again' t s : (forall t, kin (again t) (again' (low t))) ->
  kin (scan_special_comment again t s) (scan_special_comment again' (low t) (to_lower s)).
Proof.
  intros A. unfold scan_special_comment. rewrite next_lower. destruct (comment_body (next s)) as [[ok v] r] eqn:E.
  rewrite (comment_lower _ _ _ _ E). destruct ok; [|apply give_kin, alike_intro].
  rewrite extract_lower. destruct (extract_mysql_comment v) as [sql|]; [|constructor]. cbn [option_map].
  rewrite low_mode, <- low_input, <- low_new.
  change (Some (low (new_tokenizer (tk_mode t) sql))) with (option_map low (Some (new_tokenizer (tk_mode t) sql))).
  rewrite <- low_special. apply A.
Qed.

Lemma other_lower again again' t c s : (forall t, kin (again t) (again' (low t))) -> is_letter c = false ->
  kin (scan_other again t c s) (scan_other again' (low t) c (to_lower s)).
Proof.
  intros A N. unfold scan_other. cbv zeta. rewrite low_mode.
  pose proof (give_char t c s) as G.
  destruct (one_of single_chars c).
  { destruct (tk_mode t); try exact G. destruct (Ascii.eqb c "["); [|exact G]. now apply give_kin, quoted_lower. }
  destruct (Ascii.eqb c "&"). { rewrite at_char_lower, next_lower by reflexivity. destruct (at_char _ s); [apply give_kin, alike_intro|exact G]. }
  destruct (Ascii.eqb c "|"). { rewrite at_char_lower, next_lower by reflexivity. destruct (at_char _ s); [apply give_kin, alike_intro|exact G]. }
  destruct (Ascii.eqb c "?"). { rewrite <- low_count. replace (tk_posvar (low t)) with (tk_posvar t) by now rewrite low_eq. apply give_kin, alike_intro. }
  destruct (Ascii.eqb c "."). { rewrite (at_class_lower _ _ caseless_digit). destruct (at_class _ s); [apply give_kin, number_lower|exact G]. }
  destruct (Ascii.eqb c "/").
  { rewrite !at_char_lower, !next_lower, !at_char_lower by reflexivity. destruct (at_char "/" s); [apply give_kin, line_lower|].
    destruct (at_char "*" s); [|exact G]. destruct (at_char "!" (next s)); [now apply special_lower|apply give_kin, block_lower]. }
  destruct (Ascii.eqb c "#"); [apply give_kin, line_lower|].
  destruct (Ascii.eqb c "-").
  { rewrite (at_class_lower _ _ caseless_digit), ?at_char_lower, ?next_lower, ?at_char_lower, ?next_lower by reflexivity. destruct (at_class _ s).
    - pose proof (number_lower false s) as H. destruct (scan_number false s) as [[k v] r], (scan_number false (to_lower s)) as [[k' v'] r'].
      destruct H as [H1 H2]. cbn in H1, H2. subst. apply give_kin, alike_intro.
    - destruct (at_char "-" s); [apply give_kin, line_lower|]. destruct (at_char ">" s); [|exact G].
      destruct (at_char ">" (next s)); apply give_kin, alike_intro. }
  destruct (Ascii.eqb c "<").
  { rewrite ?at_char_lower, ?next_lower, ?at_char_lower, ?next_lower by reflexivity. destruct (at_char ">" s); [apply give_kin, alike_intro|].
    destruct (at_char "<" s); [apply give_kin, alike_intro|]. destruct (at_char "=" s); [|exact G].
    destruct (at_char ">" (next s)); apply give_kin, alike_intro. }
  destruct (Ascii.eqb c ">").
  { rewrite !at_char_lower, !next_lower by reflexivity. destruct (at_char "=" s); [apply give_kin, alike_intro|].
    destruct (at_char ">" s); [apply give_kin, alike_intro|exact G]. }
  destruct (Ascii.eqb c "!"). { rewrite at_char_lower, next_lower by reflexivity. destruct (at_char _ s); [apply give_kin, alike_intro|exact G]. }
  destruct (Ascii.eqb c "'"); [now apply give_kin, string_lower|].
  destruct (Ascii.eqb c c_dq). { destruct (tk_mode t); apply give_kin; first [now apply string_lower|now apply quoted_lower]. }
  destruct (Ascii.eqb c "`"). { destruct (tk_mode t); apply give_kin; first [apply alike_intro|now apply quoted_lower]. }
  apply give_kin, alike_intro.
Qed.

Lemma word_lower c s : alike (scan_word c s) (scan_word (lower_ascii c) (to_lower s)).
Proof.
  unfold scan_word. rewrite caseless_x, caseless_b, !at_char_lower, next_lower by reflexivity.
  destruct (_ && _); [apply hex_lower|]. destruct (_ && _); [apply bit_lower|].
  replace (Ascii.eqb (lower_ascii c) "@") with (Ascii.eqb c "@") by (destruct c as [[] [] [] [] [] [] [] []]; reflexivity).
  replace (at_char "@" (to_lower s)) with (at_char "@" s)
    by (destruct s as [|d s]; [reflexivity|cbn; destruct d as [[] [] [] [] [] [] [] []]; reflexivity]).
  apply identifier_lower.
Qed.

Lemma skip_statement_lower s : skip_statement (to_lower s) = to_lower (skip_statement s).
Proof.
  induction s as [|c s IH]; [reflexivity|]. cbn. pose proof (caseless_char ";" eq_refl c) as C. cbn beta in C. rewrite C.
  now destruct (Ascii.eqb c ";").
Qed.

Lemma outer_lower again again' t : (forall t, kin (again t) (again' (low t))) -> kin (scan_outer again t) (scan_outer again' (low t)).
Proof.
  intros A. unfold scan_outer. replace (tk_input (low t)) with (to_lower (tk_input t)) by now rewrite low_eq.
  replace (tk_force_eof (low t)) with (tk_force_eof t) by now rewrite low_eq.
  replace (tk_multi (low t)) with (tk_multi t) by now rewrite low_eq. rewrite low_mode.
  rewrite at_char_lower, next_lower by reflexivity. set (s := if at_char c_nul (tk_input t) then next (tk_input t) else tk_input t).
  replace (if at_char c_nul (tk_input t) then to_lower (next (tk_input t)) else to_lower (tk_input t)) with (to_lower s)
    by (unfold s; now destruct (at_char c_nul (tk_input t))).
  destruct (tk_force_eof t); [rewrite skip_statement_lower; apply give_kin, alike_intro|].
  replace (skip_blank (to_lower s)) with (to_lower (skip_blank s))
    by (unfold skip_blank; destruct (span is_blank s) eqn:E; now rewrite (span_lower _ _ caseless_blank _ _ E)).
  destruct (skip_blank s) as [|c r]; cbn [to_lower]; [apply give_kin, (alike_intro _ _ _ "")|].
  rewrite caseless_letter. destruct (is_letter c) eqn:L; [apply give_kin, word_lower|].
  rewrite (lower_same c L). destruct (is_digit c).
  { pose proof (number_lower false (String c r)) as H. cbn [to_lower] in H. rewrite (lower_same c L) in H. now apply give_kin. }
  destruct (Ascii.eqb c ":").
  { pose proof (bind_var_lower (tk_mode t) (String c r)) as H. cbn [to_lower] in H. rewrite (lower_same c L) in H. now apply give_kin. }
  destruct (Ascii.eqb c ";" && tk_multi t).
  { apply give_kin. pose proof (alike_intro KEnd "" "" (String c r)) as H. cbn [to_lower] in H. now rewrite (lower_same c L) in H. }
  now apply other_lower.
Qed.

Lemma scan_lower n : forall t, kin (scan n t) (scan n (low t)).
Proof.
  induction n as [|n IH]; intros t; cbn [scan]; [constructor|].
  replace (tk_special (low t)) with (option_map low (tk_special t)) by now rewrite low_eq.
  destruct (tk_special t) as [sp|]; cbn [option_map]; [|now apply outer_lower].
  specialize (IH sp) as K. inversion K as [k v v' t' E1 E2|E1 E2|E1 E2]; [|constructor|constructor].
  destruct k.
  - change (set_special None (low t)) with (set_special (option_map low None) (low t)). rewrite <- low_special. now apply outer_lower.
  - change (Some (low t')) with (option_map low (Some t')). rewrite <- low_special. constructor.
  - change (Some (low t')) with (option_map low (Some t')). rewrite <- low_special. constructor.
Qed.

Lemma lex_lower n : forall allow t, kin (lex_fuel n allow t) (lex_fuel n allow (low t)).
Proof.
  induction n as [|n IH]; intros allow t; cbn [lex_fuel]; [constructor|]. unfold scan_token. rewrite low_size.
  pose proof (scan_lower (S (size t)) t) as K.
  apply kin_cases in K. destruct K as [(k & v & v' & t' & E1 & E2)|[(E1 & E2)|(E1 & E2)]]; rewrite E1, E2; [|constructor|constructor].
  destruct (is_comment k && negb allow); [apply IH|constructor].
Qed.

Lemma tokens_lower n : forall t, same_kinds (tokens_fuel n t) (tokens_fuel n (low t)).
Proof.
  induction n as [|n IH]; intros t; cbn [tokens_fuel]; [exact I|]. unfold lex. rewrite low_size.
  pose proof (lex_lower (S (size t)) false t) as K.
  apply kin_cases in K. destruct K as [(k & v & v' & t' & E1 & E2)|[(E1 & E2)|(E1 & E2)]]; rewrite E1, E2; [|exact I|exact I].
  specialize (IH t'). destruct k; [reflexivity| |].
  all: destruct (tokens_fuel n t'), (tokens_fuel n (low t')); try easy; cbn in *; congruence.
Qed.

Theorem letter_case m s s' : to_lower s = to_lower s' -> same_kinds (tokens m s) (tokens m s').
Proof.
  intros H. unfold tokens.
  pose proof (tokens_lower (S (size (new_tokenizer m s))) (new_tokenizer m s)) as A.
  pose proof (tokens_lower (S (size (new_tokenizer m s'))) (new_tokenizer m s')) as B.
  rewrite low_new in A, B. rewrite H in A.
  assert (L : size (new_tokenizer m s) = size (new_tokenizer m s')) by (rewrite <- (low_size (new_tokenizer m s)), <- (low_size (new_tokenizer m s')), !low_new; now rewrite H).
  rewrite L in *. destruct (tokens_fuel _ (new_tokenizer m s)), (tokens_fuel _ (new_tokenizer m s')), (tokens_fuel _ (new_tokenizer m (to_lower s'))); try easy; cbn in *; congruence.
Qed.
