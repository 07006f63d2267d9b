(** The ideal PostgreSQL table: names and soundness are kept by every statement. *)
From Coq Require Import String Ascii List ZArith Bool Lia.
From Verif Require Import GoStr GoStrFacts Ast Generator SpecPlan ProofPlan SpecColumns ProofColumns SpecOrder ProofOrder
  SpecMysql ProofMysql SpecDatabase ProofDatabase SpecPostgres SpecConvergePg.
Import ListNotations.
Local Open Scope string_scope.
Local Open Scope list_scope.

Lemma distinct_spec l : distinct l = true <-> NoDup l.
Proof.
  induction l as [|x l IH]; [split; [constructor|reflexivity]|]. cbn [distinct]. rewrite andb_true_iff, negb_true_iff, mem_not_in, IH.
  split; [intros [H1 H2]; now constructor|intros H; inversion H; auto].
Qed.

Lemma all_in_spec l l' : all_in l l' = true <-> forall x, In x l -> In x l'.
Proof. unfold all_in. rewrite forallb_forall. split; intros H x Hx; apply mem_in, H, Hx. Qed.

Lemma serial_base_plain s b : serial_base s = Some b -> serial_base b = None /\ is_integer b = true.
Proof.
  unfold serial_base. destruct (String.eqb s "serial"); [intros H; injection H as <-; split; reflexivity|].
  destruct (String.eqb s "bigserial"); [intros H; injection H as <-; split; reflexivity|].
  destruct (String.eqb s "smallserial"); [intros H; injection H as <-; split; reflexivity|discriminate].
Qed.

Lemma integer_not_serial s : is_integer s = true -> is_serial s = false.
Proof.
  unfold is_integer, base_serial. destruct (String.eqb_spec s "integer") as [->|_]; [reflexivity|].
  destruct (String.eqb_spec s "bigint") as [->|_]; [reflexivity|]. destruct (String.eqb_spec s "smallint") as [->|_]; [reflexivity|discriminate].
Qed.

Section Alter.
Variable castable : column -> column -> bool.
Notation pg_alter := (pg_alter castable).

Definition replaced (n : string) (y : column) (l : list column) : list column :=
  map (fun x => if String.eqb (c_name x) n then y else x) l.

Lemma on_column_inv n f g g' : on_column n f g = Some g' ->
  exists y y', named c_name n (g_columns g) = Some y /\ f y = Some y' /\ g' = with_cols (replaced n y' (g_columns g)) g.
Proof.
  unfold on_column. destruct (named c_name n (g_columns g)) as [y|]; [|discriminate]. destruct (f y) as [y'|] eqn:E; [|discriminate].
  intros H. injection H as <-. exists y, y'. auto.
Qed.

Lemma on_column_some n f g y y' : named c_name n (g_columns g) = Some y -> f y = Some y' ->
  on_column n f g = Some (with_cols (replaced n y' (g_columns g)) g).
Proof. intros H1 H2. unfold on_column. now rewrite H1, H2. Qed.

Lemma replaced_names_of n y l : c_name y = n -> map c_name (replaced n y l) = map c_name l.
Proof.
  intros E. unfold replaced. rewrite map_map. apply map_ext. intros x. destruct (String.eqb_spec (c_name x) n); congruence.
Qed.

Lemma in_replaced n y l x : In x (replaced n y l) -> x = y \/ (In x l /\ c_name x <> n).
Proof.
  unfold replaced. intros H. apply in_map_iff in H as (z & <- & Hz). destruct (String.eqb_spec (c_name z) n); auto.
Qed.

Lemma named_replaced n y l x : c_name y = n -> named c_name x (replaced n y l) =
  if String.eqb x n then (match named c_name n l with Some _ => Some y | None => None end) else named c_name x l.
Proof.
  intros E. induction l as [|z l IH]; [now destruct (String.eqb x n)|]. cbn [replaced map]. rewrite !named_cons. fold (replaced n y l). rewrite IH.
  destruct (String.eqb_spec (c_name z) n) as [Ez|Nz].
  - rewrite E. destruct (String.eqb_spec x n) as [->|N].
    + now rewrite String.eqb_refl.
    + destruct (String.eqb_spec n x); [congruence|]. destruct (String.eqb_spec (c_name z) x); [congruence|reflexivity].
  - destruct (String.eqb_spec x n) as [->|N].
    + now destruct (String.eqb_spec (c_name z) n).
    + reflexivity.
Qed.

Lemma alter_type_name d y y' : alter_type castable d y = Some y' -> c_name y' = c_name y.
Proof.
  unfold alter_type. destruct (is_serial (wanted_type d)); [discriminate|]. destruct (castable y d); [|discriminate]. cbn [negb].
  destruct (is_serial (c_type y)).
  - destruct (base_serial (wanted_type d)); [|discriminate]. destruct (c_array d); [discriminate|]. intros H; now injection H as <-.
  - destruct (c_identity y); [destruct (_ && _); [|discriminate]|]; intros H; now injection H as <-.
Qed.
Lemma drop_not_null_name b y y' : drop_not_null b y = Some y' -> c_name y' = c_name y.
Proof. unfold drop_not_null. destruct (c_identity y); [discriminate|]. destruct (b || _); [discriminate|]. intros H; now injection H as <-. Qed.
Lemma add_identity_name i y y' : add_identity i y = Some y' -> c_name y' = c_name y.
Proof.
  unfold add_identity. destruct (c_identity y); [discriminate|]. destruct (c_default y); [discriminate|]. destruct (c_notnull y) as [[]|]; try discriminate.
  destruct (_ && _); [|discriminate]. intros H; now injection H as <-.
Qed.
Lemma change_identity_name i y y' : change_identity i y = Some y' -> c_name y' = c_name y.
Proof. unfold change_identity. destruct (c_identity y); [|discriminate]. destruct (String.eqb _ _); [discriminate|]. intros H; now injection H as <-. Qed.
Lemma change_default_name d y y' : change_default d y = Some y' -> c_name y' = c_name y.
Proof. unfold change_default. destruct (c_identity y); [discriminate|]. intros H; now injection H as <-. Qed.

Lemma on_column_name n f g g' : on_column n f g = Some g' -> g_name g' = g_name g.
Proof. intros H. apply on_column_inv in H as (y & y' & _ & _ & ->). reflexivity. Qed.

Lemma pg_alter_name e g g' : pg_alter e g = Some g' -> g_name g' = g_name g.
Proof.
  destruct e; cbn [SpecPostgres.pg_alter]; try discriminate; try (apply on_column_name).
  - destruct d; try discriminate; try (destruct (_ || _); [discriminate|]; intros H; now injection H as <-).
    + unfold add_fk. destruct (_ && _); [|discriminate]. intros H; now injection H as <-.
    + destruct (mem _ _); [discriminate|]. intros H; now injection H as <-.
  - destruct (mem _ _); [|discriminate]. intros H; now injection H as <-.
  - destruct (_ || _); [discriminate|]. destruct (match c_check c with Some _ => _ | None => _ end); [discriminate|].
    destruct (is_unique _); [destruct (mem _ _); [discriminate|]|]; intros H; now injection H as <-.
  - destruct (mem _ _); [|discriminate]. intros H; now injection H as <-.
  - destruct (plain n); [|discriminate]. destruct (find _ _); [|discriminate]. apply on_column_name.
  - destruct (_ && _); [|discriminate]. apply on_column_name.
  - destruct (g_pk g) as [[k l]|]; [|discriminate]. destruct (String.eqb _ _); [|discriminate]. intros H; now injection H as <-.
  - destruct (g_pk g); [discriminate|]. destruct (_ && _); [|discriminate]. intros H; now injection H as <-.
  - destruct (_ && _); [|discriminate]. intros H; now injection H as <-.
  - destruct (mem _ _); [|discriminate]. intros H; now injection H as <-.
  - unfold add_fk. destruct (_ && _); [|discriminate]. intros H; now injection H as <-.
Qed.

Lemma pg_create_name t g : pg_create t = Some g -> g_name g = t_name t.
Proof. unfold pg_create. destruct (_ && _); [|discriminate]. intros H. now injection H as <-. Qed.

(** ** Soundness *)
Lemma with_cols_sound g cols : sound g -> map c_name cols = map c_name (g_columns g) ->
  (forall c, In c cols -> stored c) ->
  (forall c, In c (g_columns g) -> c_notnull c = Some true -> in_key g (c_name c) = true -> exists c', In c' cols /\ c_name c' = c_name c /\ c_notnull c' = Some true) ->
  sound (with_cols cols g).
Proof.
  intros [H1 H2 H3 H4 H5 H6 H6' H7 H8] Hn Hs Hk. constructor; cbn [with_cols g_columns g_indexes g_fks g_policies g_pk]; auto.
  - now rewrite Hn.
  - intros k l x E Hx. destruct (H6 k l x E Hx) as (c & Hc & <- & Hc'). apply Hk; auto. unfold in_key. rewrite E. now apply mem_in.
Qed.

Lemma on_column_sound n f g g' : sound g ->
  (forall y y', f y = Some y' -> c_name y' = c_name y) ->
  (forall y y', In y (g_columns g) -> f y = Some y' -> stored y -> stored y') ->
  (forall y y', f y = Some y' -> c_notnull y = Some true -> c_notnull y' = Some true \/ in_key g n = false) ->
  on_column n f g = Some g' -> sound g'.
Proof.
  intros Hs Hn Hst Hnn H. apply on_column_inv in H as (y & y' & Hy & Hf & ->). destruct (named_some c_name _ _ _ Hy) as [Hin En].
  assert (En' : c_name y' = n) by (rewrite (Hn _ _ Hf); exact En).
  apply with_cols_sound; auto.
  - now apply replaced_names_of.
  - intros c Hc. apply in_replaced in Hc as [->|[Hc _]]; [|apply (so_column _ Hs c Hc)]. apply (Hst y y' Hin Hf). apply (so_column _ Hs y Hin).
  - intros c Hc Hcn Hk. destruct (String.eqb_spec (c_name c) n) as [E|N].
    + exists y'. split; [unfold replaced; apply in_map_iff; exists c; now rewrite E, String.eqb_refl|]. split; [congruence|].
      assert (c = y) as ->.
      { pose proof (named_self c_name _ c (so_names _ Hs) Hc) as A. congruence. }
      destruct (Hnn y y' Hf Hcn) as [|Hx]; [assumption|]. rewrite En in Hk. congruence.
    + exists c. split; [|auto]. unfold replaced. apply in_map_iff. exists c. split; [|exact Hc]. destruct (String.eqb_spec (c_name c) n); [congruence|reflexivity].
Qed.

Lemma valid_serial c : valid_definition c = true -> is_serial (wanted_type c) = true -> c_default c = None.
Proof.
  unfold valid_definition. rewrite !andb_true_iff. intros H E. destruct H as [[_ H] _]. rewrite E in H. rewrite !andb_true_iff in H.
  destruct H as [_ H]. now destruct (c_default c).
Qed.
Lemma valid_identity c i : valid_definition c = true -> c_identity c = Some i ->
  c_default c = None /\ is_integer (wanted_type c) = true /\ c_array c = false /\ id_behavior i <> "" /\ id_not_for_replication i = false /\ c_notnull c <> Some false.
Proof.
  unfold valid_definition. rewrite !andb_true_iff. intros H E. destruct H as [[[_ H] _] _]. rewrite E in H. rewrite !andb_true_iff, !negb_true_iff in H.
  destruct H as [[[[[H1 H2] H3] H4] H5] H6]. split; [now destruct (c_default c)|]. split; [exact H1|]. split; [exact H2|]. split; [now apply String.eqb_neq|].
  split; [exact H4|]. intros X. rewrite X in H5. discriminate.
Qed.

Lemma valid_check c : valid_definition c = true -> c_check c = None -> c_check_no_inherit c = false.
Proof. unfold valid_definition. rewrite !andb_true_iff. intros [_ H] E. rewrite E in H. now apply negb_true_iff. Qed.

Lemma recorded_stored k c : valid_definition c = true -> stored (pg_recorded k c).
Proof.
  intros H. split; cbn [pg_recorded c_type c_notnull c_default c_identity].
  - intros Es. rewrite (valid_serial c H Es). split; [|reflexivity]. unfold says_required. now rewrite Es, !orb_true_r.
  - split.
    + intros i E. destruct (c_identity c) as [j|] eqn:Ej; [|discriminate]. injection E as <-. destruct (valid_identity c j H Ej) as (-> & _). auto.
    + cbn [pg_recorded c_check c_check_no_inherit]. intros E. destruct (c_check c) eqn:Ec; [discriminate|]. apply (valid_check c H Ec).
Qed.

Lemma stored_notnull o c : stored c -> (o = Some true \/ is_serial (c_type c) = false) -> stored (set_notnull o c).
Proof.
  intros [H1 H2] Ho. split; cbn [set_notnull c_type c_notnull c_default c_identity]; [|exact H2].
  intros E. destruct Ho as [->|Ho]; [|congruence]. destruct (H1 E). auto.
Qed.

Lemma type_stored d y y' : alter_type castable d y = Some y' -> stored y -> stored y'.
Proof.
  unfold alter_type. destruct (is_serial (wanted_type d)) eqn:Ew; [discriminate|]. destruct (castable y d); [|discriminate]. cbn [negb]. intros H [H1 H2].
  destruct (is_serial (c_type y)) eqn:Es.
  - destruct (base_serial (wanted_type d)); [|discriminate]. destruct (c_array d); [discriminate|]. injection H as <-. split; [intros _; now apply H1|exact H2].
  - assert (y' = set_type (wanted_type d) (snd (canonical (c_type d))) d y) as -> by (destruct (c_identity y); [destruct (_ && _); [|discriminate]|]; congruence).
    split; [intros X; cbn [set_type c_type] in X; congruence|exact H2].
Qed.

Lemma filter_app_one {A} (f : A -> string) l x : NoDup (map f l) -> ~ In (f x) (map f l) -> NoDup (map f (l ++ [x])).
Proof. intros H Hx. rewrite map_app. now apply nodup_snoc. Qed.

Lemma nodup_filter_names {A} (f : A -> string) p l : NoDup (map f l) -> NoDup (map f (filter p l)).
Proof.
  induction l as [|x l IH]; [auto|]. cbn [map filter]. intros H. inversion H as [|? ? Hx Hl]; subst. destruct (p x); [|auto].
  cbn [map]. constructor; [|auto]. intros X. apply Hx. apply in_map_iff in X as (y & <- & Hy). apply filter_In in Hy as [Hy _]. now apply in_map.
Qed.

Lemma column_f_sound n f g g' : sound g ->
  (forall y y', f y = Some y' -> c_name y' = c_name y /\ (stored y -> stored y') /\ (c_notnull y = Some true -> c_notnull y' = Some true \/ in_key g n = false)) ->
  on_column n f g = Some g' -> sound g'.
Proof.
  intros Hs H. apply on_column_sound; [exact Hs|..].
  - intros y y' E. apply (H y y' E).
  - intros y y' _ E. apply (H y y' E).
  - intros y y' E. apply (H y y' E).
Qed.

Theorem alter_sound e g g' : sound g -> pg_alter e g = Some g' -> sound g'.
Proof.
  intros Hs. pose proof Hs as [H1 H2 H3 H4 H5 H6 H6' H7 H8].
  assert (Hfk : forall f, add_fk f g = Some g' -> sound g').
  { intros f H. unfold add_fk in H. destruct (_ && _) eqn:E; [|discriminate]. injection H as <-. rewrite !andb_true_iff, !negb_true_iff in E.
    destruct E as [[[[[[_ _] E3] E4] E5] E6] _]. apply mem_not_in in E4.
    constructor; cbn [with_refs g_columns g_indexes g_fks g_policies g_pk]; auto; [now apply filter_app_one|].
    intros x Hx. apply in_app_iff in Hx as [Hx|[<-|[]]]; [auto|]. split; [intros X; rewrite X in E5; discriminate|]. split; [intros X; rewrite X in E6; discriminate|exact E3]. }
  destruct e; cbn [SpecPostgres.pg_alter]; intros H; try discriminate.
  - destruct d; try discriminate.
    + destruct (_ || _) eqn:E; [discriminate|]. injection H as <-. rewrite !orb_false_iff in E. destruct E as [[[[E1 E2] E3] E4] E5]. apply mem_not_in in E1.
      constructor; cbn [with_idx g_columns g_indexes g_fks g_policies g_pk]; auto; [now apply filter_app_one|].
      intros x Hx. apply in_app_iff in Hx as [Hx|[<-|[]]]; auto.
    + now apply (Hfk fk).
    + destruct (mem _ _) eqn:E; [discriminate|]. injection H as <-. apply mem_not_in in E.
      constructor; cbn [with_policies g_columns g_indexes g_fks g_policies g_pk]; auto. now apply filter_app_one.
  - destruct (mem _ _) eqn:E; [|discriminate]. injection H as <-.
    constructor; cbn [with_policies g_columns g_indexes g_fks g_policies g_pk]; auto. now apply nodup_filter_names.
  - destruct (_ || _) eqn:E; [discriminate|]. apply orb_false_iff in E as [E1 E2]. apply mem_not_in in E1. apply negb_false_iff in E2.
    destruct (match c_check c with Some _ => _ | None => _ end) eqn:E3; [discriminate|].
    assert (Hg : sound (with_cols (g_columns g ++ [pg_recorded (auto_check (g_name g) (c_name c)) c]) g)).
    { constructor; cbn [with_cols g_columns g_indexes g_fks g_policies g_pk]; auto.
      - apply filter_app_one; auto.
      - intros x Hx. apply in_app_iff in Hx as [Hx|[<-|[]]]; [auto|]. now apply recorded_stored.
      - intros k l x Ek Hx. destruct (H6 k l x Ek Hx) as (y & Hy & Hy'). exists y. split; [apply in_app_iff; now left|exact Hy']. }
    destruct (is_unique (c_key c)); [|injection H as <-; exact Hg]. destruct (mem _ _) eqn:E4; [discriminate|]. injection H as <-. apply mem_not_in in E4.
    destruct Hg as [G1 G2 G3 G4 G5 G6 G6' G7 G8]. constructor; cbn [with_idx with_cols g_columns g_indexes g_fks g_policies g_pk] in *; auto; [now apply filter_app_one|].
    intros x Hx. apply in_app_iff in Hx as [Hx|[<-|[]]]; auto.
  - destruct (mem c (column_names_of g)) eqn:E; [|discriminate]. injection H as <-.
    constructor; cbn [g_columns g_indexes g_fks g_policies g_pk]; auto; try (now apply nodup_filter_names).
    + intros x Hx. apply filter_In in Hx as [Hx _]. auto.
    + intros k l x Ek Hx. destruct (g_pk g) as [[k' l']|] eqn:Eg; [|discriminate]. destruct (mem c l') eqn:Em; [discriminate|]. injection Ek as -> ->.
      destruct (H6 k l x eq_refl Hx) as (y & Hy & En & Hn). exists y. split; [|auto]. apply filter_In. split; [exact Hy|].
      apply negb_true_iff, String.eqb_neq. intros X. apply mem_not_in in Em. apply Em. congruence.
    + intros k Ek. destruct (g_pk g) as [[k' l']|] eqn:Eg; [|discriminate]. destruct (mem c l'); [discriminate|]. injection Ek as -> ->. now apply (H6' k).
    + intros x Hx. apply filter_In in Hx as [Hx _]. auto.
    + intros x Hx. apply filter_In in Hx as [Hx _]. auto.
  - revert H. apply column_f_sound; [exact Hs|]. intros y y' E. split; [now apply (alter_type_name ty)|]. split; [now apply (type_stored ty)|].
    unfold alter_type in E. destruct (is_serial (wanted_type ty)); [discriminate|]. destruct (castable y ty); [|discriminate]. cbn [negb] in E.
    destruct (is_serial (c_type y)).
    * destruct (base_serial (wanted_type ty)); [|discriminate]. destruct (c_array ty); [discriminate|]. injection E as <-. auto.
    * destruct (c_identity y); [destruct (_ && _); [|discriminate]|]; injection E as <-; auto.
  - revert H. apply column_f_sound; [exact Hs|]. intros y y' E. split; [eapply drop_not_null_name, E|]. unfold drop_not_null in E.
    destruct (c_identity y) eqn:Ei; [discriminate|]. destruct (_ || _) eqn:Eo; [discriminate|]. injection E as <-. apply orb_false_iff in Eo as [Eo1 Eo2].
    split; [|auto]. intros Hst. apply stored_notnull; auto.
  - revert H. apply column_f_sound; [exact Hs|]. intros y y' E. injection E as <-. split; [reflexivity|]. split; [|auto]. intros Hst. apply stored_notnull; auto.
  - revert H. apply column_f_sound; [exact Hs|]. intros y y' E. split; [eapply add_identity_name, E|]. unfold add_identity in E.
    destruct (c_identity y) eqn:Ei; [discriminate|]. destruct (c_default y) eqn:Ed; [discriminate|]. destruct (c_notnull y) as [[]|] eqn:En; try discriminate.
    destruct (_ && _); [|discriminate]. injection E as <-. split; [|auto]. intros [S1 [S2 S3]].
    split; [exact S1|]. split; [|exact S3]. intros j Ej. injection Ej as <-. auto.
  - revert H. apply column_f_sound; [exact Hs|]. intros y y' E. injection E as <-. split; [reflexivity|]. split; [|auto]. intros [S1 [S2 S3]].
    split; [exact S1|]. split; [discriminate|exact S3].
  - revert H. apply column_f_sound; [exact Hs|]. intros y y' E. split; [eapply change_identity_name, E|]. unfold change_identity in E.
    destruct (c_identity y) eqn:Ei; [|discriminate]. destruct (String.eqb _ _); [discriminate|]. injection E as <-. split; [|auto]. intros [S1 [S2 S3]].
    split; [exact S1|]. split; [|exact S3]. intros j Ej. injection Ej as <-. destruct (S2 _ Ei). auto.
  - revert H. apply column_f_sound; [exact Hs|]. intros y y' E. split; [eapply change_default_name, E|]. unfold change_default in E.
    destruct (c_identity y) eqn:Ei; [discriminate|]. injection E as <-. split; [|auto]. intros [S1 [S2 S3]].
    split; cbn [set_default c_type c_notnull c_default c_identity c_check c_check_no_inherit]; [|split; [rewrite Ei; discriminate|exact S3]]. unfold is_serial. destruct (serial_base (c_type y)) eqn:Eb.
    + destruct (serial_base_plain _ _ Eb) as [-> _]. discriminate.
    + now rewrite Eb.
  - revert H. apply column_f_sound; [exact Hs|]. intros y y' E. split; [eapply change_default_name, E|]. unfold change_default in E.
    destruct (c_identity y) eqn:Ei; [discriminate|]. injection E as <-. split; [|auto]. intros [S1 [S2 S3]].
    split; cbn [set_default c_type c_notnull c_default c_identity c_check c_check_no_inherit]; [|split; [rewrite Ei; discriminate|exact S3]]. unfold is_serial. destruct (serial_base (c_type y)) eqn:Eb.
    + destruct (serial_base_plain _ _ Eb) as [-> _]. discriminate.
    + now rewrite Eb.
  - destruct (plain n); [|discriminate]. destruct (find _ _) as [y0|]; [|discriminate]. revert H. apply column_f_sound; [exact Hs|]. intros y y' E. injection E as <-.
    split; [reflexivity|]. split; [|auto]. intros [S1 [S2 S3]]. split; [exact S1|]. split; [exact S2|reflexivity].
  - destruct (_ && _); [|discriminate]. revert H. apply column_f_sound; [exact Hs|]. intros y y' E. destruct (c_check y); [discriminate|]. injection E as <-.
    split; [reflexivity|]. split; [|auto]. intros [S1 [S2 S3]]. split; [exact S1|]. split; [exact S2|discriminate].
  - destruct (g_pk g) as [[k l]|] eqn:Eg; [|discriminate]. destruct (String.eqb _ _); [|discriminate]. injection H as <-.
    constructor; cbn [with_pk g_columns g_indexes g_fks g_policies g_pk]; auto; discriminate.
  - destruct (g_pk g) eqn:Eg; [discriminate|]. destruct (_ && _) eqn:E; [|discriminate]. injection H as <-.
    rewrite !andb_true_iff in E. destruct E as [[[[[_ _] E3] E4] E5] _]. apply negb_true_iff, Nat.eqb_neq in E3. rewrite all_in_spec in E5.
    assert (Hreq : forall x, c_name (require (key_columns i) x) = c_name x) by (intros x; unfold require; now destruct (mem _ _)).
    constructor; cbn [with_pk with_cols g_columns g_indexes g_fks g_policies g_pk]; auto.
    + rewrite map_map. erewrite map_ext; [exact H1|]. exact Hreq.
    + intros x Hx. apply in_map_iff in Hx as (y & <- & Hy). unfold require. destruct (mem _ _); [apply stored_notnull; auto|auto].
    + intros k l x Ek Hx. injection Ek as <- <-. specialize (E5 x Hx). unfold column_names_of in E5. apply in_map_iff in E5 as (y & Ey & Hy).
      exists (require (key_columns i) y). split; [now apply in_map|]. split; [now rewrite Hreq|]. unfold require. rewrite (proj2 (mem_in (c_name y) _)); [reflexivity|]. now rewrite Ey.
    + intros k Ek. injection Ek as _ Ek. apply E3. unfold key_columns in Ek. destruct (i_columns i); [reflexivity|discriminate].
  - destruct (_ && _); [|discriminate]. injection H as <-.
    constructor; cbn [with_idx g_columns g_indexes g_fks g_policies g_pk]; auto; [now apply nodup_filter_names|].
    intros x Hx. apply filter_In in Hx as [Hx _]. auto.
  - destruct (mem _ _); [|discriminate]. injection H as <-.
    constructor; cbn [with_refs g_columns g_indexes g_fks g_policies g_pk]; auto; [now apply nodup_filter_names|].
    intros x Hx. apply filter_In in Hx as [Hx _]. auto.
  - now apply (Hfk f).
Qed.

Lemma alters_sound out : forall g g', sound g -> alters pg_alter out g = Some g' -> sound g'.
Proof.
  induction out as [|s out IH]; intros g g' Hs H; cbn [alters] in H; [now injection H as <-|].
  destruct (pg_alter (s_eff s) g) as [g1|] eqn:E; [|discriminate]. apply (IH g1); [|exact H]. now apply (alter_sound (s_eff s) g).
Qed.
End Alter.
