From Coq Require Import String Ascii List ZArith Bool Lia.
From Verif Require Import GoStr GoStrFacts Ast Generator SchemaText SpecText.
Import ListNotations.
Local Open Scope string_scope.

(** A character-by-character version of the removal of comment lines. *)
Inductive lstate := Bol | Mid | Skip.

Fixpoint strip (st : lstate) (s : string) : string :=
  match s with
  | EmptyString => EmptyString
  | String a s' =>
      if Ascii.eqb a newline then String a (strip Bol s')
      else match st with
           | Bol => if has_prefix s "--" then strip Skip s' else String a (strip Mid s')
           | Mid => String a (strip Mid s')
           | Skip => strip Skip s'
           end
  end.

Lemma split_prefix_dashes s l0 rest :
  split_char newline s = l0 :: rest -> has_prefix s "--" = has_prefix l0 "--".
Proof.
  intros H. destruct s as [|a s]; simpl in H.
  { injection H as <- <-. reflexivity. }
  destruct (Ascii.eqb a newline) eqn:E.
  { injection H as <- <-. apply Ascii.eqb_eq in E. subst a. reflexivity. }
  destruct (split_char newline s) as [|x l] eqn:Hs; [now destruct (split_char_nonempty newline s)|].
  injection H as <- <-. cbn [has_prefix]. destruct (Ascii.eqb "-" a); [|reflexivity].
  destruct s as [|b s]; simpl in Hs.
  { injection Hs as <- <-. reflexivity. }
  destruct (Ascii.eqb b newline) eqn:E2.
  { injection Hs as <- <-. apply Ascii.eqb_eq in E2. subst b. reflexivity. }
  assert (Hnil : forall z, has_prefix z "" = true) by (intros z; destruct z; reflexivity).
  destruct (split_char newline s) as [|y k]; injection Hs as <- <-; cbn [has_prefix]; destruct (Ascii.eqb "-" b);
    rewrite ?Hnil; reflexivity.
Qed.

Lemma join_cons sep x l : join sep (x :: l) = x ++ match l with [] => "" | _ => sep ++ join sep l end.
Proof. destruct l; simpl; [now rewrite sapp_nil_r|reflexivity]. Qed.

Lemma strip_lines s l0 rest :
  split_char newline s = l0 :: rest ->
  strip Mid s = join nl (l0 :: map blank_comment_line rest) /\
  strip Bol s = join nl (map blank_comment_line (l0 :: rest)) /\
  strip Skip s = join nl ("" :: map blank_comment_line rest).
Proof.
  revert l0 rest; induction s as [|a s IH]; intros l0 rest H.
  - simpl in H. injection H as <- <-. repeat split.
  - pose proof (split_prefix_dashes _ _ _ H) as Hpre.
    simpl in H. cbn [strip]. destruct (Ascii.eqb a newline) eqn:E.
    + injection H as <- <-. apply Ascii.eqb_eq in E. subst a.
      destruct (split_char newline s) as [|x l] eqn:Hs; [now destruct (split_char_nonempty newline s)|].
      destruct (IH x l eq_refl) as [_ [HB _]]. rewrite HB.
      split; [|split]; reflexivity.
    + destruct (split_char newline s) as [|x l] eqn:Hs; [now destruct (split_char_nonempty newline s)|].
      injection H as <- <-. destruct (IH x l eq_refl) as [HM [HB HS]].
      rewrite HM, HS. split; [|split].
      * rewrite !join_cons. reflexivity.
      * rewrite Hpre. cbn [map]. unfold blank_comment_line at 3.
        destruct (has_prefix (String a x) "--"); [reflexivity|]. rewrite !join_cons. reflexivity.
      * reflexivity.
Qed.

Lemma strip_comment_lines_eq s : strip_comment_lines s = strip Bol s.
Proof.
  unfold strip_comment_lines.
  destruct (split_char newline s) as [|x l] eqn:Hs; [now destruct (split_char_nonempty newline s)|].
  now destruct (strip_lines s x l Hs) as [_ [-> _]].
Qed.

Definition st_of (b : bool) : lstate := if b then Bol else Mid.

Lemma strip_skip c r : has_char newline c = false ->
  strip Skip (c ++ String newline r) = String newline (strip Bol r).
Proof.
  induction c as [|a c IH]; simpl; intros H.
  - reflexivity.
  - apply orb_false_iff in H. destruct H as [Ha Hc]. rewrite Ha. auto.
Qed.

Lemma strip_skip_end c : has_char newline c = false -> strip Skip c = "".
Proof.
  induction c as [|a c IH]; simpl; intros H; [reflexivity|].
  apply orb_false_iff in H. destruct H as [Ha Hc]. rewrite Ha. auto.
Qed.

Lemma dashes_prefix c : has_prefix (String "-" (String "-" c)) "--" = true.
Proof. destruct c; reflexivity. Qed.

Lemma strip_gap b g e : gap b g e -> forall r,
  exists w, all_chars is_space w = true /\ strip (st_of b) (g ++ r) = w ++ strip (st_of e) r.
Proof.
  induction 1 as [b|b a s e Ha Hn Hg IH|b s e Hg IH|c s e Hc Hg IH]; intros r.
  - exists "". split; reflexivity.
  - destruct (IH r) as [w [Hw Hs]]. exists (String a w). split.
    + simpl. now rewrite Ha.
    + cbn [append strip]. apply Ascii.eqb_neq in Hn. rewrite Hn. simpl in Hs. rewrite Hs.
      destruct b; [|reflexivity]. cbn [st_of].
      assert (Hp : has_prefix (String a (s ++ r)) "--" = false).
      { cbn [has_prefix]. destruct (Ascii.eqb "-" a) eqn:E; [|reflexivity].
        apply Ascii.eqb_eq in E. subst a. discriminate. }
      now rewrite Hp.
  - destruct (IH r) as [w [Hw Hs]]. exists (String newline w). split; [exact Hw|].
    cbn [append strip]. rewrite Ascii.eqb_refl. simpl in Hs. now rewrite Hs.
  - destruct (IH r) as [w [Hw Hs]]. exists (String newline w). split; [exact Hw|].
    rewrite !sapp_assoc. cbn [st_of].
    change ("--" ++ c ++ String newline s ++ r) with (String "-" (String "-" (c ++ String newline (s ++ r)))).
    cbn [strip]. replace (Ascii.eqb "-" newline) with false by reflexivity.
    rewrite dashes_prefix. rewrite strip_skip by assumption. simpl in Hs. now rewrite Hs.
Qed.

Lemma has_prefix_dash_cons a s : has_prefix (String a s) "--" = Ascii.eqb "-" a && has_prefix s "-".
Proof. simpl. destruct (Ascii.eqb "-" a); reflexivity. Qed.

Lemma has_prefix1_app s r a :
  (exists x, first_char s = Some x) -> has_prefix (s ++ r) (String a "") = has_prefix s (String a "").
Proof. destruct s; simpl; [intros [? ?]; discriminate|]. intros _. destruct (Ascii.eqb a a0); auto. destruct s, r; reflexivity. Qed.

Lemma strip_statement s r st :
  st <> Skip ->
  (st = Bol -> has_prefix s "--" = false) -> contains s (String newline "--") = false ->
  (exists a, last_char s = Some a /\ is_space a = false) ->
  (forall x, first_char r = Some x -> x <> "-"%char) ->
  strip st (s ++ r) = s ++ strip Mid r.
Proof.
  revert st; induction s as [|a s IH]; intros st Hst Hp Hc Hl Hr.
  { destruct Hl as [a [H _]]. discriminate. }
  cbn [append strip].
  assert (Hc' : contains s (String newline "--") = false).
  { simpl in Hc. now apply orb_false_iff in Hc. }
  destruct (Ascii.eqb a newline) eqn:E.
  - apply Ascii.eqb_eq in E. subst a. f_equal. apply IH; try assumption; [discriminate| |].
    + intros _. simpl in Hc. apply orb_false_iff in Hc. destruct Hc as [Hc _]. exact Hc.
    + destruct s; [|exact Hl]. simpl in Hl. destruct Hl as [a [Ha Hs]]. injection Ha as <-. discriminate.
  - assert (Hnot : st = Bol -> has_prefix (String a (s ++ r)) "--" = false).
    { intros ->. specialize (Hp eq_refl). rewrite has_prefix_dash_cons in *.
      destruct (Ascii.eqb "-" a); [|reflexivity]. simpl andb in *.
      destruct s as [|y s]; [|rewrite has_prefix1_app by (eexists; reflexivity); exact Hp].
      cbn [append]. destruct r as [|x r]; [reflexivity|]. cbn [has_prefix]. specialize (Hr x eq_refl).
      destruct (Ascii.eqb "-" x) eqn:Ex; [|reflexivity]. apply Ascii.eqb_eq in Ex. congruence. }
    assert (Hrest : strip Mid (s ++ r) = s ++ strip Mid r).
    { destruct s as [|y s]; [reflexivity|]. apply IH; try assumption; try discriminate. }
    destruct st; [rewrite (Hnot eq_refl)|idtac|now destruct Hst]; now rewrite Hrest.
Qed.

Lemma gap_first g e : gap false g e -> forall r, (forall x, first_char r = Some x -> x <> "-"%char) ->
  forall x, first_char (g ++ r) = Some x -> x <> "-"%char.
Proof.
  intros Hg r Hr x. inversion Hg; subst; simpl.
  - apply Hr.
  - intros [= <-]. intros ->. discriminate.
  - intros [= <-]. discriminate.
Qed.

Lemma gap_first_true g : gap false g true -> g <> "" /\ forall x r, first_char (g ++ r) = Some x -> x <> "-"%char.
Proof.
  intros Hg. inversion Hg; subst; split; try discriminate; simpl; intros x r [= <-]; [intros ->; discriminate|discriminate].
Qed.

Lemma space_no_semicolon w : all_chars is_space w = true -> has_char semicolon w = false.
Proof.
  induction w as [|a w IH]; simpl; [reflexivity|]. intros H. apply andb_true_iff in H. destruct H as [Ha Hw].
  rewrite (IH Hw), orb_false_r. destruct (Ascii.eqb a semicolon) eqn:E; [|reflexivity].
  apply Ascii.eqb_eq in E. subst a. discriminate.
Qed.

Definition pieces (s : string) : list string :=
  filter (fun x => negb (String.eqb x "")) (map trim_space (split_char semicolon s)).

Lemma pieces_blank_cons w r : all_chars is_space w = true -> pieces (w ++ ";" ++ r) = pieces r.
Proof.
  intros Hw. unfold pieces. change (";" ++ r) with (String semicolon r).
  rewrite split_char_app by now apply space_no_semicolon. cbn [map filter]. now rewrite trim_space_blank.
Qed.

Lemma pieces_blank w : all_chars is_space w = true -> pieces w = [].
Proof.
  intros Hw. unfold pieces. rewrite split_char_none by now apply space_no_semicolon. simpl.
  now rewrite trim_space_blank.
Qed.

Lemma plain_not_empty s : plain_statement s -> negb (String.eqb s "") = true.
Proof. intros H. destruct (ps_first _ H) as [a [Ha _]]. destruct s; [discriminate|reflexivity]. Qed.

Lemma pieces_stmt_cons w s w' r :
  all_chars is_space w = true -> plain_statement s -> all_chars is_space w' = true ->
  pieces (w ++ s ++ w' ++ ";" ++ r) = s :: pieces r.
Proof.
  intros Hw Hs Hw'. unfold pieces. change (";" ++ r) with (String semicolon r).
  replace (w ++ s ++ w' ++ String semicolon r) with ((w ++ s ++ w') ++ String semicolon r) by (now rewrite !sapp_assoc).
  rewrite split_char_app.
  2:{ rewrite !has_char_app, (space_no_semicolon w Hw), (space_no_semicolon w' Hw'), (ps_semicolon _ Hs). reflexivity. }
  cbn [map filter].
  destruct (ps_first _ Hs) as [a [Ha Ha']]. destruct (ps_last _ Hs) as [b [Hb Hb']].
  rewrite (trim_space_pad w s w' a b) by assumption. now rewrite plain_not_empty.
Qed.

Lemma pieces_stmt w s w' :
  all_chars is_space w = true -> plain_statement s -> all_chars is_space w' = true ->
  pieces (w ++ s ++ w') = [s].
Proof.
  intros Hw Hs Hw'. unfold pieces. rewrite split_char_none.
  2:{ rewrite !has_char_app, (space_no_semicolon w Hw), (space_no_semicolon w' Hw'), (ps_semicolon _ Hs). reflexivity. }
  cbn [map filter].
  destruct (ps_first _ Hs) as [a [Ha Ha']]. destruct (ps_last _ Hs) as [b [Hb Hb']].
  rewrite (trim_space_pad w s w' a b) by assumption. now rewrite plain_not_empty.
Qed.

Lemma strip_plain b s r : plain_statement s -> (forall x, first_char r = Some x -> x <> "-"%char) ->
  strip (st_of b) (s ++ r) = s ++ strip Mid r.
Proof.
  intros Hs Hr. apply strip_statement; auto.
  - now destruct b.
  - intros _. apply (ps_dashes _ Hs).
  - apply (ps_dash_lines _ Hs).
  - apply (ps_last _ Hs).
Qed.

Lemma strip_tail_comment c : has_char newline c = false -> strip Bol ("--" ++ c) = "".
Proof.
  intros H. change ("--" ++ c) with (String "-" (String "-" c)). cbn [strip].
  replace (Ascii.eqb "-" newline) with false by reflexivity.
  rewrite dashes_prefix. now apply strip_skip_end.
Qed.

Lemma schema_text_pieces b t l : schema_text b t l -> pieces (strip (st_of b) t) = l.
Proof.
  induction 1 as [b g e Hg|b g c Hg Hc|b g e s g' e' Hg Hs Hg'|b g e s g' c Hg Hs Hg' Hc|b g e t l Hg Ht IH|b g e s g' e' t l Hg Hs Hg' Ht IH].
  - destruct (strip_gap _ _ _ Hg "") as [w [Hw Hst]]. rewrite sapp_nil_r in Hst. rewrite Hst. simpl. rewrite sapp_nil_r. now apply pieces_blank.
  - destruct (strip_gap _ _ _ Hg ("--" ++ c)) as [w [Hw Hst]]. rewrite Hst. cbn [st_of].
    rewrite strip_tail_comment by assumption. rewrite sapp_nil_r. now apply pieces_blank.
  - destruct (strip_gap _ _ _ Hg (s ++ g')) as [w [Hw Hst]]. rewrite Hst.
    rewrite strip_plain; [|assumption|].
    2:{ intros x Hx. apply (gap_first g' e' Hg' ""); [discriminate|]. now rewrite sapp_nil_r. }
    destruct (strip_gap _ _ _ Hg' "") as [w' [Hw' Hst']]. rewrite sapp_nil_r in Hst'. simpl st_of in Hst'.
    rewrite Hst'. simpl. rewrite sapp_nil_r. now apply pieces_stmt.
  - destruct (strip_gap _ _ _ Hg (s ++ g' ++ "--" ++ c)) as [w [Hw Hst]]. rewrite Hst.
    rewrite strip_plain; [|assumption|].
    2:{ intros x Hx. destruct (gap_first_true g' Hg') as [_ Hf]. now apply (Hf x ("--" ++ c)). }
    destruct (strip_gap _ _ _ Hg' ("--" ++ c)) as [w' [Hw' Hst']]. simpl st_of in Hst'.
    rewrite Hst'. rewrite strip_tail_comment by assumption. rewrite sapp_nil_r. now apply pieces_stmt.
  - destruct (strip_gap _ _ _ Hg (";" ++ t)) as [w [Hw Hst]]. rewrite Hst.
    replace (strip (st_of e) (";" ++ t)) with (";" ++ strip Mid t) by now destruct e.
    rewrite pieces_blank_cons by assumption. exact IH.
  - destruct (strip_gap _ _ _ Hg (s ++ g' ++ ";" ++ t)) as [w [Hw Hst]]. rewrite Hst.
    rewrite strip_plain; [|assumption|].
    2:{ apply (gap_first g' e' Hg'). simpl. intros x [= <-]. discriminate. }
    destruct (strip_gap _ _ _ Hg' (";" ++ t)) as [w' [Hw' Hst']]. simpl st_of in Hst'. rewrite Hst'.
    replace (strip (st_of e') (";" ++ t)) with (";" ++ strip Mid t) by now destruct e'.
    rewrite pieces_stmt_cons by assumption. simpl in IH. now rewrite IH.
Qed.

Lemma schema_text_split t l : schema_text true t l -> split_statements t = l.
Proof. intros H. unfold split_statements. rewrite strip_comment_lines_eq. exact (schema_text_pieces true t l H). Qed.

(** The exported text lists the definitions. *)
Lemma gap2 : gap false (nl ++ nl) true.
Proof. apply gap_newline, gap_newline, gap_nil. Qed.

Lemma export_schema_text ds : Forall plain_statement ds -> ds <> [] ->
  forall b g e, gap b g e -> schema_text b (g ++ join (";" ++ nl ++ nl) ds ++ ";" ++ nl) ds.
Proof.
  induction 1 as [|d ds Hd Hds IH]; [congruence|]. intros _ b g e Hg.
  destruct ds as [|d2 ds].
  - simpl join. change (d ++ ";" ++ nl) with (d ++ "" ++ ";" ++ nl).
    apply (st_cons b g e d "" false nl []); auto; try constructor.
    eapply st_end. apply gap_newline, gap_nil.
  - rewrite join_cons. rewrite !sapp_assoc. 
    change (";" ++ (nl ++ nl) ++ ?x) with ("" ++ ";" ++ (nl ++ nl) ++ x).
    apply (st_cons b g e d "" false _ (d2 :: ds)); auto; try constructor.
    apply (IH ltac:(discriminate) false (nl ++ nl) true gap2).
Qed.

Lemma export_roundtrip ds : Forall plain_statement ds ->
  split_statements (if String.eqb (join (";" ++ nl ++ nl) ds) "" then "-- No table exists --" ++ nl
                    else join (";" ++ nl ++ nl) ds ++ ";" ++ nl) = ds.
Proof.
  intros H. destruct ds as [|d ds].
  - reflexivity.
  - assert (Hne : String.eqb (join (";" ++ nl ++ nl) (d :: ds)) "" = false).
    { apply String.eqb_neq. intros E. rewrite join_cons in E. inversion H; subst.
      destruct (ps_first _ H2) as [a [Ha _]]. destruct d; discriminate. }
    rewrite Hne. apply schema_text_split.
    apply (export_schema_text (d :: ds) H ltac:(discriminate) true "" true). constructor.
Qed.

Lemma parse_all_ok parse1 m l ds :
  Forall2 (fun x d => parse1 m x = Ok d) l ds -> parse_all parse1 m l = Ok ds.
Proof. induction 1 as [|x d l ds Hx _ IH]; simpl; [reflexivity|]. now rewrite Hx, IH. Qed.

Lemma parse_all_err parse1 m a x b e ds :
  Forall2 (fun x d => parse1 m x = Ok d) a ds -> parse1 m x = Err e ->
  parse_all parse1 m (a ++ x :: b)%list = Err e.
Proof.
  induction 1 as [|y d l ds Hy _ IH]; intros Hx; simpl.
  - now rewrite Hx.
  - now rewrite Hy, (IH Hx).
Qed.

Lemma schema_text_parse parse1 m t l :
  schema_text true t l ->
  (forall ds, Forall2 (fun x d => parse1 m x = Ok d) l ds -> parse_ddls parse1 m t = Ok ds) /\
  (forall a x b e ds, l = (a ++ x :: b)%list -> Forall2 (fun x d => parse1 m x = Ok d) a ds ->
     parse1 m x = Err e -> parse_ddls parse1 m t = Err e).
Proof.
  intros H. unfold parse_ddls. rewrite (schema_text_split _ _ H). split.
  - apply parse_all_ok.
  - intros a x b e ds -> Ha Hx. now apply (parse_all_err _ _ _ _ _ _ ds).
Qed.
