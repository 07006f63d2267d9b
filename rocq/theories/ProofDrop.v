(** --skip-drop: which planned statements contain the letters DROP. *)
From Coq Require Import String Ascii List ZArith Bool Lia DecimalString Decimal SpecFloat.
From Verif Require Import GoStr GoStrFacts GoNum Ast Generator SchemaText Runner SpecRunner SpecSql SpecDrop
  ProofRunner ProofSql.
Import ListNotations.
Local Open Scope string_scope.
Local Open Scope list_scope.

(** ** Removals *)
Lemma contains_sentence w l : In w l -> contains w "DROP" = true -> contains (sentence l) "DROP" = true.
Proof.
  unfold sentence. induction l as [|x l IH]; [contradiction|]. intros [->|Hin] Hw.
  - destruct l; [exact Hw|]. cbn [join]. now apply contains_app_l.
  - destruct l as [|y l]; [contradiction|]. change (join " " (x :: y :: l)) with (x ++ " " ++ join " " (y :: l))%string.
    apply contains_app_r, contains_app_r. now apply IH.
Qed.

Lemma removal_has_drop m e s : removes e = true -> sql_of m e = Some s -> contains s "DROP" = true.
Proof.
  intros Hr Hs. destruct e; try discriminate; destruct m; cbn [sql_of drop_index] in Hs; try discriminate; injection Hs as <-;
    match goal with
    | |- contains (sentence ?l) _ = true =>
        let rec go l := match l with
          | ?x :: ?r => first [ apply (contains_sentence x); [cbn; tauto|reflexivity] | go r ]
          | ?a ++ ?b => let l' := eval cbn [app] in l in go l'
          end in go l
    end.
Qed.

(** ** What is sent *)
Lemma planned_texts w parse1 m o : planned w parse1 m o = do out <- planned_operations w parse1 m o; Ok (map s_text out).
Proof.
  unfold planned, planned_operations. destruct (snd (dump_ddls w [])); [|reflexivity]. destruct (w_read_file _ _ _); [|reflexivity].
  unfold generate_idempotent_ddls. destruct (parse_ddls parse1 m s0); try reflexivity. cbn [bind]. destruct (parse_ddls parse1 m s); reflexivity.
Qed.

Lemma sent_selected w parse1 m o s : In s (sent (run w parse1 m o)) ->
  exists ddls, planned w parse1 m o = Ok ddls /\ In s (selected (opt_skip_drop o) ddls).
Proof.
  intros H. rewrite sent_db in H.
  destruct (opt_dry_run o) eqn:Hd; [rewrite run_dry_quiet in H by auto; contradiction|].
  destruct (opt_export o) eqn:He; [rewrite run_dry_quiet in H by auto; contradiction|].
  destruct (planned w parse1 m o) as [[|d ddls]| | |] eqn:Hp.
  2:{ exists (d :: ddls). split; [reflexivity|].
      destruct (run_trace _ _ _ _ _ _ Hd He Hp) as [[Ht _]|[(c & Ht & _)|(ex & bad & rest & r & l & l' & Hw & Ht & _)]]; rewrite Ht in H.
      - contradiction.
      - cbn [sent flat_map] in H. change (In s (sent (map (fun x => Exec x true) (selected (opt_skip_drop o) (d :: ddls)) ++ [Commit c]))) in H.
        rewrite sent_execs in H. simpl in H. now rewrite app_nil_r in H.
      - change (In s (sent (map (fun x => Exec x true) ex ++ [Exec bad false; Rollback r]))) in H.
        rewrite sent_execs in H. rewrite Hw. simpl in H. apply in_app_or in H. apply in_or_app. destruct H as [H|[H|[]]]; [now left|right; now left]. }
  all: rewrite (proj1 (run_nothing w parse1 m o ltac:(congruence) He)) in H; contradiction.
Qed.

Lemma sent_removes_nothing w parse1 m o s :
  opt_skip_drop o = true -> In s (sent (run w parse1 m o)) ->
  exists out, planned_operations w parse1 m o = Ok out /\ In s (map s_text out) /\
    forall st, In st out -> s_text st = s -> removes (s_eff st) = false.
Proof.
  intros Hk H. apply sent_selected in H as (ddls & Hp & Hs). rewrite planned_texts in Hp.
  destruct (planned_operations w parse1 m o) as [out| | |] eqn:Ho; try discriminate. injection Hp as <-.
  exists out. split; [reflexivity|]. unfold selected in Hs. rewrite Hk in Hs. apply filter_In in Hs as [Hin Hc].
  split; [exact Hin|]. intros st Hst <-. destruct (removes (s_eff st)) eqn:Hr; [|reflexivity].
  assert (Hsays : says m st).
  { unfold planned_operations in Ho. destruct (snd (dump_ddls w [])); [|discriminate]. destruct (w_read_file _ _ _); [|discriminate].
    bind_step Ho. bind_step Ho. pose proof (plan_says _ _ _ _ Ho) as Hf. rewrite Forall_forall in Hf. now apply Hf. }
  pose proof (removal_has_drop m _ _ Hr Hsays) as Hd. simpl in Hc. rewrite Hd in Hc. discriminate.
Qed.

Lemma removals_shown_as_skipped m desired current out :
  plan m desired current = Ok out ->
  Forall (fun st => removes (s_eff st) = true ->
            line_for true (s_text st) = ("-- Skipped: " ++ s_text st ++ ";" ++ nl)%string) out.
Proof.
  intros H. eapply Forall_impl; [|exact (plan_says _ _ _ _ H)]. intros st Hs Hr. unfold line_for.
  now rewrite (removal_has_drop m _ _ Hr Hs).
Qed.

(** ** Statements without the letters *)
Definition free (s : string) : Prop := contains s "DROP" = false.

Definition apart (c : ascii) : bool :=
  negb (Ascii.eqb c "D"%char || Ascii.eqb c "R"%char || Ascii.eqb c "O"%char || Ascii.eqb c "P"%char).

Lemma prefix_empty s : has_prefix s "" = true.
Proof. now destruct s. Qed.

Lemma contains_apart c a b : apart c = true ->
  contains (a ++ String c b) "DROP" = contains a "DROP" || contains b "DROP".
Proof.
  intros Hc. unfold apart in Hc. rewrite negb_true_iff, !orb_false_iff in Hc. destruct Hc as [[[HD HR] HO] HP].
  assert (Hs : forall x, Ascii.eqb c x = Ascii.eqb x c) by (intros; apply Ascii.eqb_sym).
  rewrite Hs in HD, HR, HO, HP.
  assert (Hp : forall p a, (forall x, In x (list_ascii_of_string p) -> Ascii.eqb x c = false) -> p <> "" ->
               has_prefix (a ++ String c b) p = has_prefix a p).
  { induction p as [|x p IH]; intros a' Hx Hne; [contradiction|]. destruct a' as [|y a']; simpl.
    - now rewrite (Hx x) by now left.
    - destruct (Ascii.eqb x y); [|reflexivity]. destruct p as [|z p]; [now rewrite !prefix_empty|]. apply IH; [|discriminate].
      intros w Hw. apply Hx. now right. }
  assert (Hd : forall x, In x (list_ascii_of_string "DROP") -> Ascii.eqb x c = false).
  { intros x [<-|[<-|[<-|[<-|[]]]]]; assumption. }
  induction a as [|y a IH].
  - change (contains ("" ++ String c b) "DROP") with (has_prefix (String c b) "DROP" || contains b "DROP").
    change (String c b) with ("" ++ String c b)%string. rewrite Hp by (assumption || discriminate). reflexivity.
  - change (contains (String y a ++ String c b) "DROP") with (has_prefix (String y a ++ String c b) "DROP" || contains (a ++ String c b) "DROP").
    rewrite IH, Hp by (assumption || discriminate). change (contains (String y a) "DROP") with (has_prefix (String y a) "DROP" || contains a "DROP").
    now rewrite orb_assoc.
Qed.

Lemma free_apart c a b : apart c = true -> free a -> free b -> free (a ++ String c b).
Proof. unfold free. intros Hc Ha Hb. now rewrite contains_apart, Ha, Hb. Qed.
Lemma free_cons c b : apart c = true -> free b -> free (String c b).
Proof. intros Hc Hb. exact (free_apart c "" b Hc eq_refl Hb). Qed.
Lemma free_snoc c a : apart c = true -> free a -> free (a ++ String c "").
Proof. intros Hc Ha. now apply free_apart. Qed.

Lemma free_parens s : free s -> free (parens s).
Proof. intros H. unfold parens. apply (free_cons "("); [reflexivity|]. now apply free_snoc. Qed.

Lemma free_sentence l : Forall free l -> free (sentence l).
Proof.
  unfold sentence. induction 1 as [|x l Hx Hl IH]; [reflexivity|]. destruct l as [|y l]; [exact Hx|].
  change (free (x ++ String " " (join " " (y :: l)))). now apply free_apart.
Qed.

Lemma free_commas l : Forall free l -> free (join ", " l).
Proof.
  induction 1 as [|x l Hx Hl IH]; [reflexivity|]. destruct l as [|y l]; [exact Hx|].
  change (free (x ++ String "," (String " " (join ", " (y :: l))))). apply free_apart; [reflexivity|exact Hx|]. now apply free_cons.
Qed.

Lemma free_comma l : Forall free l -> free (join "," l).
Proof.
  induction 1 as [|x l Hx Hl IH]; [reflexivity|]. destruct l as [|y l]; [exact Hx|].
  change (free (x ++ String "," (join "," (y :: l)))). now apply free_apart.
Qed.

Lemma contains_mono a b c : contains (a ++ b ++ c) "DROP" = false -> contains b "DROP" = false.
Proof.
  intros H. destruct (contains b "DROP") eqn:E; [|reflexivity]. rewrite <- H. symmetry. apply contains_app_r, contains_app_l, E.
Qed.

Lemma split_char_free c s : free s -> Forall free (split_char c s).
Proof.
  intros H. apply Forall_forall. intros x Hx. rewrite <- (join_split c s) in H. revert Hx H.
  induction (split_char c s) as [|y l IH]; [contradiction|]. intros [->|Hx] H.
  - destruct l as [|z l]; [exact H|]. change (join (String c "") (x :: z :: l)) with ("" ++ x ++ (String c "" ++ join (String c "") (z :: l)))%string in H.
    exact (contains_mono _ _ _ H).
  - destruct l as [|z l]; [contradiction|]. apply IH; [exact Hx|].
    change (join (String c "") (y :: z :: l)) with (y ++ (String c "" ++ join (String c "") (z :: l)))%string in H.
    rewrite <- (sapp_nil_r (String c "" ++ _)) in H. apply contains_mono in H.
    rewrite <- (sapp_nil_r (join _ _)) in H. now apply contains_mono in H.
Qed.

Lemma free_join_dot l : Forall free l -> free (join "." l).
Proof.
  induction 1 as [|x l Hx Hl IH]; [reflexivity|]. destruct l as [|y l]; [exact Hx|].
  change (free (x ++ String "." (join "." (y :: l)))). now apply free_apart.
Qed.

Lemma free_quoted m n : free n -> free (quoted m n).
Proof.
  intros H. destruct m; cbn [quoted]; (apply free_cons; [reflexivity|]); now apply free_snoc.
Qed.

Lemma free_table_ref m n : free n -> free (table_ref m n).
Proof.
  intros H. assert (Hpair : forall a b, free a -> free b -> free (quoted m a ++ "." ++ quoted m b)).
  { intros a b Ha Hb. apply (free_apart "."); [reflexivity| |]; now apply free_quoted. }
  pose proof (split_char_free "." n H) as Hs.
  destruct m; unfold table_ref; try now apply free_quoted.
  all: destruct (split_char "." n) as [|sch rest]; [now apply Hpair|]; destruct rest as [|r1 rest]; [now apply Hpair|].
  all: inversion Hs; subst; apply Hpair; [assumption|now apply free_join_dot].
Qed.

(** Numbers. *)
Fixpoint no_D (s : string) : bool := match s with "" => true | String a s' => negb (Ascii.eqb a "D"%char) && no_D s' end.
Lemma no_D_free s : no_D s = true -> free s.
Proof.
  induction s as [|a s IH]; [reflexivity|]. cbn [no_D]. rewrite andb_true_iff, negb_true_iff. intros [Ha Hs]. unfold free.
  change (contains (String a s) "DROP") with (has_prefix (String a s) "DROP" || contains s "DROP").
  rewrite (IH Hs), orb_false_r. cbn [has_prefix]. rewrite Ascii.eqb_sym, Ha. reflexivity.
Qed.
Lemma no_D_app a b : no_D (a ++ b) = no_D a && no_D b.
Proof. induction a as [|x a IH]; [reflexivity|]. cbn [no_D append]. now rewrite IH, andb_assoc. Qed.
Lemma no_D_uint d : no_D (NilEmpty.string_of_uint d) = true.
Proof. induction d; simpl; auto. Qed.
Lemma no_D_Z z : no_D (show_Z z) = true.
Proof.
  unfold show_Z. assert (H : forall d, no_D (NilZero.string_of_uint d) = true) by (intros d; destruct d; simpl; auto; apply no_D_uint).
  destruct (Z.to_int z); simpl; auto.
Qed.
Lemma no_D_pad k : forall z, no_D (pad_digits k z) = true.
Proof. induction k as [|k IH]; intros z; [reflexivity|]. cbn [pad_digits]. now rewrite no_D_app, IH, no_D_Z. Qed.
Lemma no_D_f x : no_D (show_f x) = true.
Proof.
  destruct x as [s|s| |s m e]; try destruct s; try reflexivity; cbn [show_f]; rewrite !no_D_app, no_D_Z, no_D_pad; reflexivity.
Qed.
Lemma free_Z z : free (show_Z z). Proof. apply no_D_free, no_D_Z. Qed.
Lemma free_f x : free (show_f x). Proof. apply no_D_free, no_D_f. Qed.

Lemma trim_left_sub s : exists a, s = (a ++ trim_left s)%string.
Proof.
  induction s as [|c s [a IH]]; [now exists ""|]. simpl. destruct (is_space c); [|now exists ""]. exists (String c a). simpl. now rewrite <- IH.
Qed.
Lemma trim_right_sub s : exists b, s = (trim_right s ++ b)%string.
Proof.
  induction s as [|c s [b IH]]; [now exists ""|]. simpl. destruct (trim_right s) as [|x y] eqn:E.
  - destruct (is_space c); [now exists (String c s)|now exists s].
  - exists b. rewrite IH at 1. reflexivity.
Qed.
Lemma free_trim s : free s -> free (trim_space s).
Proof.
  intros H. unfold trim_space. destruct (trim_right_sub s) as [b Hb]. destruct (trim_left_sub (trim_right s)) as [a Ha].
  unfold free in *. rewrite Hb, Ha, sapp_assoc in H. exact (contains_mono _ _ _ H).
Qed.

Lemma Forall_when (P : string -> Prop) b l : (b = true -> Forall P l) -> Forall P (when b l).
Proof. destruct b; simpl; auto. Qed.

Ltac frees := repeat match goal with
  | |- Forall free (_ ++ _) => apply Forall_app; split
  | |- Forall free (_ :: _) => constructor
  | |- Forall free [] => constructor
  | |- Forall free (when _ _) => apply Forall_when; intros _
  | |- Forall free (given _ _) => apply Forall_when; intros _
  | |- Forall free (if ?b then _ else _) => destruct b
  | |- free (sentence _) => apply free_sentence
  | |- free (parens _) => apply free_parens
  | |- free (show_Z _) => apply free_Z
  | |- free (show_f _) => apply free_f
  | |- free (quoted _ _) => apply free_quoted
  | |- free (table_ref _ _) => apply free_table_ref
  | |- free (join ", " _) => apply free_commas
  | |- free (join "," _) => apply free_comma
  | |- free (trim_space _) => apply free_trim
  | |- free (if ?b then _ else _) => destruct b
  | H : Forall free (_ ++ _) |- _ => apply Forall_app in H; destruct H
  | H : Forall free (_ :: _) |- _ => let a := fresh in let b := fresh in apply Forall_cons_iff in H; destruct H as [a b]
  | H : free ?x |- free ?x => exact H
  | H : Forall free ?x |- Forall free ?x => exact H
  | |- free _ => reflexivity
  end.

Lemma free_default v s : Forall free (value_strings (Some v)) -> default_text v = Some s -> free s.
Proof.
  unfold default_text. intros H. cbn [value_strings] in H. destruct (v_type v); intros E; try discriminate; injection E as <-; frees.
  apply (free_cons "'"); [reflexivity|]. now apply free_snoc.
Qed.

Lemma free_type c : Forall free (column_strings c) -> free (type_text c).
Proof.
  unfold column_strings. intros H. unfold type_text. frees.
  assert (Hargs : free (match match c_length c, c_scale c with
    | Some l, Some s => Some [v_raw l; v_raw s] | Some l, None => Some [v_raw l]
    | None, _ => if String.eqb (c_type c) "enum" then Some (c_enum c) else None end
    with Some l => parens (join ", " l) | None => "" end ++ (if c_array c then "[]" else "")) /\
    (match match c_length c, c_scale c with
    | Some l, Some s => Some [v_raw l; v_raw s] | Some l, None => Some [v_raw l]
    | None, _ => if String.eqb (c_type c) "enum" then Some (c_enum c) else None end
    with Some l => parens (join ", " l) | None => "" end ++ (if c_array c then "[]" else ""))%string = "" \/
    exists a b, (match match c_length c, c_scale c with
    | Some l, Some s => Some [v_raw l; v_raw s] | Some l, None => Some [v_raw l]
    | None, _ => if String.eqb (c_type c) "enum" then Some (c_enum c) else None end
    with Some l => parens (join ", " l) | None => "" end ++ (if c_array c then "[]" else ""))%string = String a b /\ apart a = true /\ free b).
  { assert (Hp : forall l, Forall free l -> exists a b, (parens (join ", " l) ++ (if c_array c then "[]" else ""))%string = String a b /\ apart a = true /\ free b).
    { intros l Hl. unfold parens. eexists _, _. split; [reflexivity|]. split; [reflexivity|].
      rewrite sapp_assoc. apply (free_apart ")"); [reflexivity|now apply free_commas|]. destruct (c_array c); reflexivity. }
    destruct (c_length c) as [l|].
    - right. destruct (c_scale c) as [s|]; apply Hp; cbn [value_strings] in *; frees.
    - destruct (String.eqb (c_type c) "enum"); [right; apply Hp; assumption|].
      destruct (c_array c); [right|left; split; reflexivity]. eexists _, _. split; [reflexivity|]. split; reflexivity. }
  destruct Hargs as [[_ ->]|(a & b & -> & Ha & Hb)]; [now rewrite sapp_nil_r|]. now apply free_apart.
Qed.

Lemma free_numbers w z : free w -> Forall free (number_words w z).
Proof. intros H. destruct z; cbn [number_words]; frees. Qed.

Lemma free_sequence s : free (sq_name s) -> free (sequence_text s).
Proof.
  intros H. unfold sequence_text. frees; apply free_numbers; reflexivity.
Qed.

Lemma free_column m u c s : Forall free (column_strings c) -> column_text m u c = Some s -> free s.
Proof.
  intros H. unfold column_text. destruct (default_words c) as [wd|] eqn:Ed; [|discriminate].
  destruct (unique_words u c) as [wu|] eqn:Eu; [|discriminate]. destruct (identity_words m c) as [wi|] eqn:Ei; [|discriminate].
  intros E. injection E as <-. pose proof (free_type c H) as Ht.
  assert (Hd : Forall free wd).
  { unfold default_words in Ed. unfold column_strings in H. destruct (c_default c) as [[[v|] k]|]; try (injection Ed as <-; constructor).
    destruct (default_text v) as [x|] eqn:Ex; [|discriminate]. injection Ed as <-. constructor; [|constructor].
    eapply free_default; [|exact Ex]. cbn [df_value df_constraint] in H. frees; cbn [value_strings]; frees. }
  assert (Hu : Forall free wu).
  { unfold unique_words in Eu. destruct (c_key c); try discriminate; injection Eu as <-; frees. }
  assert (Hi : Forall free wi).
  { unfold identity_words in Ei. unfold column_strings in H. frees. destruct (c_identity c) as [[b r]|]; [destruct b as [|b0 b]|].
    - destruct (c_sequence c) as [q|]; [|injection Ei as <-; constructor]. destruct m; try (injection Ei as <-; constructor).
      destruct (sq_start_with q); [|discriminate]. destruct (sq_increment_by q); [|discriminate]. injection Ei as <-. frees.
      apply (free_apart "(" "IDENTITY"); [reflexivity|reflexivity|]. apply (free_apart ","); [reflexivity|apply free_Z|]. apply free_snoc; [reflexivity|apply free_Z].
    - injection Ei as <-. cbn [id_behavior] in *. frees. destruct (c_sequence c); frees. apply free_sequence. assumption.
    - destruct (c_sequence c) as [q|]; [|injection Ei as <-; constructor]. destruct m; try (injection Ei as <-; constructor).
      destruct (sq_start_with q); [|discriminate]. destruct (sq_increment_by q); discriminate. }
  unfold column_strings in H. frees.
  - unfold null_words. destruct (c_identity c), (c_notnull c) as [[|]|], (c_key c); frees.
  - destruct (c_onupdate c); cbn [value_strings] in *; frees.
  - unfold check_words. destruct (c_check c); frees.
Qed.

Lemma all_some_in {A} (l : list (option A)) : forall r, all_some l = Some r -> forall x, In x r -> In (Some x) l.
Proof.
  induction l as [|[a|] l IH]; simpl; intros r H x Hx; [injection H as <-; contradiction| |discriminate].
  destruct (all_some l) as [r'|]; [|discriminate]. injection H as <-. destruct Hx as [->|Hx]; [now left|right]. now apply (IH r').
Qed.

Lemma free_options m l w : Forall free (flat_map (fun o => io_name o :: value_strings (io_value o)) l) -> option_words m l = Some w -> Forall free w.
Proof.
  intros H E. destruct l as [|[n v] l]; [destruct m; injection E as <-; constructor|].
  destruct m; cbn [option_words] in E; try (injection E as <-; constructor).
  - destruct v as [v|]; [|discriminate]. injection E as <-. cbn [flat_map io_name io_value value_strings app] in H. frees.
  - destruct (all_some _) as [r|] eqn:Er; [|discriminate]. injection E as <-. frees. apply Forall_forall. intros x Hx.
    apply (all_some_in _ _ Er) in Hx. apply in_map_iff in Hx as ([n' v'] & Ho & Hin). unfold mssql_option in Ho. cbn [io_value io_name] in Ho.
    destruct v' as [v'|]; [|discriminate]. injection Ho as <-. rewrite Forall_forall in H.
    assert (Hn : free n') by (apply H; apply in_flat_map; eexists; split; [exact Hin|]; simpl; tauto).
    assert (Hv : free (v_raw v')) by (apply H; apply in_flat_map; eexists; split; [exact Hin|]; simpl; tauto).
    frees; destruct (v_type v'); frees.
Qed.

Lemma free_add_key m t i s : free t -> Forall free (index_strings i) -> add_key m t i = Some s -> free s.
Proof.
  unfold add_key, index_strings. intros Ht H E. frees. destruct (option_words m (i_options i)) as [w|] eqn:Ew; [|discriminate].
  assert (Hw : Forall free w) by (eapply free_options; eauto). injection E as <-.
  assert (Hk : free (key_columns m i)).
  { unfold key_columns. frees. apply Forall_map, Forall_forall. intros ic Hic. unfold key_column. frees.
    assert (Hq : free (ic_column ic)) by (match goal with H : Forall free (map ic_column _) |- _ => rewrite Forall_map, Forall_forall in H; now apply H end).
    apply (free_quoted m) in Hq. destruct (ic_length ic); [|now rewrite sapp_nil_r]. apply free_apart; [reflexivity|assumption|].
    apply free_snoc; [reflexivity|apply free_Z]. }
  destruct m, (i_primary i); frees.
Qed.

Lemma free_fk m f : Forall free (foreign_key_strings f) -> Forall free (foreign_key_words m f).
Proof.
  unfold foreign_key_strings, foreign_key_words. intros H. frees.
  all: apply Forall_map; eapply Forall_impl; [apply free_quoted|assumption].
Qed.

Lemma some_inj {A} (a b : A) : Some a = Some b -> a = b.
Proof. now intros [= ->]. Qed.
Ltac sinj E := apply some_inj in E; subst.

Lemma free_trigger m t w : Forall free (trigger_strings t) -> trigger_words m t = Some w -> Forall free w.
Proof. unfold trigger_strings, trigger_words. intros H E. destruct m; try discriminate; sinj E; frees. Qed.

Lemma free_position m p : Forall free (position_strings p) -> Forall free (position_words m p).
Proof. destruct p; cbn [position_strings position_words]; intros H; frees. Qed.

Lemma free_operation m e s : removes e = false -> Forall free (operation_strings e) -> sql_of m e = Some s -> free s.
Proof.
  intros Hr H E. destruct e; try discriminate; cbn [operation_strings] in H; cbn [sql_of] in E.
  - sinj E. frees.
  - destruct m; try discriminate; sinj E; frees.
  - destruct m; try discriminate; sinj E; frees.
  - destruct (trigger_words m tr) as [w|] eqn:Ew; [|destruct m; discriminate].
    assert (Hw := free_trigger _ _ _ H Ew). destruct m; sinj E; frees.
  - destruct (trigger_words m tr) as [w|] eqn:Ew; [|destruct m; discriminate].
    assert (Hw := free_trigger _ _ _ H Ew). destruct m; try discriminate; sinj E; frees.
  - frees. destruct (column_text m true c) as [def|] eqn:Ec; [|destruct m; discriminate].
    assert (Hc : free def) by (eapply free_column; eauto). assert (Hp := free_position m p ltac:(assumption)).
    destruct m; sinj E; frees.
  - frees. destruct m; try discriminate. destruct (column_text Mysql false c) as [def|] eqn:Ec; [|discriminate].
    assert (Hc : free def) by (eapply free_column; eauto). assert (Hp := free_position Mysql p ltac:(assumption)).
    sinj E; frees.
  - frees. destruct m; try discriminate. sinj E. frees. apply (free_apart "("); [reflexivity|frees|]. apply free_snoc; [reflexivity|frees].
  - frees. destruct m; try discriminate. sinj E. frees. now apply free_type.
  - frees. destruct m; try discriminate. sinj E. frees.
  - frees. destruct m; try discriminate. sinj E. frees. destruct s0; frees. now apply free_sequence.
  - frees. destruct m; try discriminate. sinj E. frees.
  - frees. destruct m; try discriminate; destruct d as [[v|] n]; try discriminate. cbn [df_value] in *.
    destruct (default_text v) as [x|] eqn:Ex; [|discriminate]. sinj E. frees. eapply free_default; [|exact Ex]. assumption.
  - frees. destruct m; try discriminate; destruct d as [[v|] n]; try discriminate. cbn [df_value df_constraint] in *.
    destruct (default_text v) as [x|] eqn:Ex; [|discriminate]. sinj E. frees. eapply free_default; [|exact Ex]. assumption.
  - frees. destruct m; try discriminate; sinj E; frees.
  - frees. destruct (i_primary i); [|destruct m; discriminate]. destruct m; (eapply free_add_key; [| |exact E]; assumption).
  - frees. destruct (i_primary i); [destruct m; discriminate|]. destruct m; (eapply free_add_key; [| |exact E]; assumption).
  - destruct m; try discriminate. sinj E. reflexivity.
  - frees. assert (Hf := free_fk m f ltac:(assumption)). destruct m; sinj E; frees.
Qed.

(** Statements that remove nothing, built from strings without the letters, are not skipped. *)
Lemma harmless_selected m desired current out :
  plan m desired current = Ok out ->
  forall skip st, In st out -> removes (s_eff st) = false ->
  (forall s, In s (operation_strings (s_eff st)) -> contains s "DROP" = false) ->
  In (s_text st) (selected skip (map s_text out)) /\ line_for skip (s_text st) = (s_text st ++ ";" ++ nl)%string.
Proof.
  intros H skip st Hin Hr Hs. pose proof (plan_says _ _ _ _ H) as Hf. rewrite Forall_forall in Hf. specialize (Hf st Hin).
  assert (Hfree : free (s_text st)) by (eapply (free_operation m); eauto; now apply Forall_forall). unfold free in Hfree.
  split; [|unfold line_for; now rewrite Hfree, andb_false_r].
  apply filter_In. split; [now apply in_map|]. now rewrite Hfree, andb_false_r.
Qed.

Lemma harmless_sent w parse1 m o out :
  opt_dry_run o = false -> opt_export o = false ->
  planned_operations w parse1 m o = Ok out ->
  exit_codes (run w parse1 m o) = [0%Z] ->
  forall st, In st out -> removes (s_eff st) = false ->
  (forall s, In s (operation_strings (s_eff st)) -> contains s "DROP" = false) ->
  In (Exec (s_text st) true) (run w parse1 m o).
Proof.
  intros Hd He Ho Hx st Hin Hr Hs.
  assert (Hp : planned w parse1 m o = Ok (map s_text out)) by (rewrite planned_texts, Ho; reflexivity).
  assert (exists desired current, plan m desired current = Ok out) as (desired & current & Hplan).
  { unfold planned_operations in Ho. destruct (snd (dump_ddls w [])); [|discriminate]. destruct (w_read_file _ _ _); [|discriminate].
    bind_step Ho. bind_step Ho. eauto. }
  destruct (run_success _ _ _ _ _ Hd He Hp ltac:(destruct out; [contradiction|discriminate]) Hx) as (c & Ht).
  apply (in_db_trace (Exec (s_text st) true)); [reflexivity|]. rewrite Ht. right. apply in_or_app. left. apply in_map_iff. exists (s_text st).
  split; [reflexivity|]. eapply harmless_selected; eauto.
Qed.
