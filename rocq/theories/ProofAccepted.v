(** Statements that are accepted: by the parser, by the splitter, by the ideal databases. *)
From Coq Require Import String Ascii List ZArith Bool.
From Verif Require Import GoStr GoStrFacts Ast Generator SchemaText SchemaParse Parser Planner SpecText ProofText SpecPlan ProofSelf ProofUntold SpecLayout ProofRun SpecMysql SpecDatabase
  SpecShownMysql SpecWordsMysql SpecAccepted.
Import ListNotations.
Local Open Scope list_scope.
Local Open Scope string_scope.

(** ** Words *)
Lemma same_words_sym m a b : same_words m a b -> same_words m b a.
Proof. intros (w & A & B). exists w. now split. Qed.
Lemma same_words_read m a b d : same_words m a b -> parse_ddl parse_strict_ddl m b = Ok d ->
  exists d', parse_ddl parse_strict_ddl m a = Ok d' /\ without_text d' = without_text d.
Proof.
  intros (w & A & B) P. pose proof (same_meaning m a b w A B) as E. rewrite P in E. cbn [in_ok] in E.
  destruct (parse_ddl parse_strict_ddl m a) as [d'| | |]; try discriminate E. exists d'. split; [reflexivity|]. cbn [in_ok] in E. injection E as E. exact E.
Qed.
Lemma same_words_all m l1 l2 : Forall2 (same_words m) l1 l2 -> forall r, parse_all (parse_ddl parse_strict_ddl) m l2 = Ok r ->
  exists r', parse_all (parse_ddl parse_strict_ddl) m l1 = Ok r' /\ map without_text r' = map without_text r.
Proof.
  intros F. induction F as [|a b l1 l2 W F IH]; intros r.
  - cbn [parse_all]. intros H. injection H as <-. exists []. now split.
  - cbn [parse_all]. destruct (parse_ddl parse_strict_ddl m b) as [d| | |] eqn:D; try discriminate. cbn [bind].
    destruct (parse_all (parse_ddl parse_strict_ddl) m l2) as [x| | |] eqn:X; try discriminate. cbn [bind]. intros H. injection H as <-.
    destruct (same_words_read _ _ _ _ W D) as (d' & -> & E). destruct (IH x eq_refl) as (x' & -> & E'). cbn [bind]. exists (d' :: x'). split; [reflexivity|]. cbn [map]. now rewrite E, E'.
Qed.
Lemma same_file_read m a b l : same_file m a b -> parse_file m b = Ok l -> exists l', parse_file m a = Ok l' /\ map without_text l' = map without_text l.
Proof. intros F. exact (same_words_all m _ _ F l). Qed.
Theorem same_file_nothing m a b l : same_file m a b -> parse_file m a = Ok l -> settled m l -> well_formed l = true -> plan_text m a b = Ok [].
Proof.
  intros F A S W. assert (F' : same_file m b a).
  { unfold same_file in *. clear -F. induction F; constructor; auto. now apply same_words_sym. }
  destruct (same_file_read m b a l F' A) as (l' & B & E).
  assert (P : plan m l l' = Ok []). { apply plan_untold. rewrite E. apply plan_untold. now apply plan_self. }
  unfold plan_text, generate_idempotent_ddls. rewrite A, B. cbn [bind]. now rewrite P.
Qed.

(** ** Literals *)
Lemma contains_around c x y sub : has_char c sub = false -> sub <> "" -> contains (x ++ String c y) sub = contains x sub || contains y sub.
Proof.
  intros C N. destruct (contains x sub || contains y sub) eqn:E.
  - apply orb_true_iff in E as [E|E]; [now apply contains_app_l|]. change (String c y) with (String c "" ++ y). now do 2 apply contains_app_r.
  - apply orb_false_iff in E as [X Y]. apply not_true_is_false. intros H. apply contains_spec in H as (p & q & H).
    revert p H. induction x as [|z x IH]; intros p H; cbn [append] in H.
    + destruct p as [|k p]; cbn [append] in H.
      * destruct sub as [|k sub]; [congruence|]. cbn [append] in H. injection H as -> H. cbn [has_char] in C. rewrite Ascii.eqb_refl in C. discriminate.
      * injection H as -> H. apply not_true_iff_false in Y. apply Y. apply contains_spec. now exists p, q.
    + destruct p as [|k p]; cbn [append] in H.
      * apply not_true_iff_false in X. apply X. apply contains_spec. exists "".
        assert (K : forall s z c y q, has_char c s = false -> (z ++ String c y = s ++ q -> exists r, z = s ++ r)%string).
        { clear. induction s as [|k s IH]; intros z c y q C H; [now exists z|]. destruct z as [|j z]; cbn [append] in H.
          - injection H as -> H. cbn [has_char] in C. rewrite Ascii.eqb_refl in C. discriminate.
          - injection H as -> H. cbn [has_char] in C. apply orb_false_iff in C as [_ C]. destruct (IH z c y q C H) as (r & ->). now exists r. }
        destruct (K sub (String z x) c y q C H) as (r & ->). now exists r.
      * injection H as -> H. cbn [contains] in X. apply orb_false_iff in X as [_ X]. exact (IH X p H).
Qed.
Lemma first_app a b : first_char (a ++ b) = match first_char a with Some c => Some c | None => first_char b end.
Proof. destruct a; reflexivity. Qed.
Lemma last_app a b : last_char (a ++ b) = match last_char b with Some c => Some c | None => last_char a end.
Proof.
  induction a as [|x a IH]; cbn [append].
  - destruct (last_char b); reflexivity.
  - destruct a as [|y a].
    + cbn [append last_char]. destruct b; [reflexivity|]. destruct (last_char (String a b)) eqn:E; [reflexivity|]. exfalso. clear -E. revert a E. induction b; intros; [discriminate|]. now apply (IHb a).
    + change (last_char (String x (String y a ++ b))) with (last_char (String y a ++ b)). exact IH.
Qed.
Lemma prefix_dashes a x y : has_prefix (a ++ String "'" x) "--" = has_prefix (a ++ String "'" y) "--".
Proof. destruct a as [|p [|q a]]; try reflexivity. cbn. destruct p as [[] [] [] [] [] [] [] []]; try reflexivity. destruct q as [[] [] [] [] [] [] [] []]; try reflexivity. now destruct a. Qed.

Theorem literal_is_plain a lit b : plain_statement (a ++ "''" ++ b) -> has_char semicolon lit = false -> contains lit (String newline "--") = false ->
  plain_statement (a ++ "'" ++ lit ++ "'" ++ b).
Proof.
  intros P S D. destruct P as [P1 P2 P3 P4 P5]. change ("''" ++ b)%string with (String "'" (String "'" b)) in *.
  change ("'" ++ lit ++ "'" ++ b)%string with (String "'" (lit ++ String "'" b)).
  constructor.
  - destruct P1 as (c & C & K). exists c. split; [|exact K]. rewrite first_app in *. destruct (first_char a); exact C.
  - destruct P2 as (c & C & K). exists c. split; [|exact K]. change (String "'" (lit ++ String "'" b)) with (("'" ++ lit) ++ String "'" b)%string.
    rewrite last_app in *. change (String "'" (String "'" b)) with ("'" ++ String "'" b)%string in C. rewrite last_app in *.
    destruct (last_char (String "'" b)) eqn:E; [exact C|]. exfalso. clear -E. revert E. generalize "'"%char. induction b; intros; [discriminate|]. now apply (IHb a).
  - revert P3. rewrite !has_char_app. cbn [has_char]. rewrite has_char_app, S. cbn [has_char]. auto.
  - now rewrite (prefix_dashes a _ (String "'" b)).
  - assert (Q : has_char "'" (String newline "--") = false) by reflexivity. assert (N : String newline "--" <> "") by discriminate.
    rewrite contains_around in P5 by assumption. apply orb_false_iff in P5 as [A B]. rewrite contains_around, contains_around, A, D by assumption. cbn [orb].
    change (String "'" b) with ("" ++ String "'" b) in B. rewrite contains_around in B by assumption. apply orb_false_iff in B. tauto.
Qed.

(** ** Statements of a plan that runs *)
Lemma mysql_each_runs before st after c c' : run_all (before ++ st :: after)%list c = Some c' -> exists x y, run_all before c = Some x /\ run (s_eff st) x = Some y.
Proof.
  revert c. induction before as [|s l IH]; intros c; cbn [app run_all].
  - destruct (run (s_eff st) c) as [y|] eqn:E; [|discriminate]. intros _. eauto.
  - destruct (run (s_eff s) c) as [d|]; [|discriminate]. apply IH.
Qed.
Lemma each_runs {T} (name : T -> string) create alter replaceable before st after c c' :
  execute_all name create alter replaceable (before ++ st :: after)%list c = Some c' ->
  exists x y, execute_all name create alter replaceable before c = Some x /\ execute name create alter replaceable (s_eff st) x = Some y.
Proof.
  revert c. induction before as [|s l IH]; intros c; cbn [app execute_all].
  - destruct (execute _ _ _ _ (s_eff st) c) as [y|] eqn:E; [|discriminate]. intros _. eauto.
  - destruct (execute _ _ _ _ (s_eff s) c) as [d|]; [|discriminate]. apply IH.
Qed.

(** ** Whole statements and files *)
Theorem literal_stays_whole a lit b t l : plain_statement (a ++ "''" ++ b) -> has_char semicolon lit = false -> contains lit (String newline "--") = false ->
  schema_text false t l -> split_statements ((a ++ "'" ++ lit ++ "'" ++ b) ++ ";" ++ t) = (a ++ "'" ++ lit ++ "'" ++ b)%string :: l.
Proof.
  intros P S D T. apply schema_text_split. pose proof (literal_is_plain a lit b P S D) as Q.
  exact (st_cons true "" true (a ++ "'" ++ lit ++ "'" ++ b)%string "" false t l (gap_nil true) Q (gap_nil false) T).
Qed.
