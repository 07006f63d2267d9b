(** One run on an ideal PostgreSQL: what CREATE TABLE asks, and the statements about one column. *)
From Coq Require Import String Ascii List ZArith Bool Lia.
From Verif Require Import GoStr GoStrFacts Ast Generator SpecPlan ProofPlan ProofSteps ProofTables ProofCompare ProofSelf SpecColumns
  ProofColumns SpecOrder ProofOrder SpecMysql ProofMysql ProofConverge ProofSettle SpecDatabase ProofDatabase SpecPostgres SpecConvergePg
  ProofPg ProofPgDump.
Import ListNotations.
Local Open Scope string_scope.
Local Open Scope list_scope.

(** ** CREATE TABLE *)
Definition declared_key (t : table) : option (string * list string) :=
  match pk_declarations t with k :: _ => Some k | [] => None end.
Definition key_names (t : table) : list string := match declared_key t with Some (_, l) => l | None => [] end.
Definition unique_columns (t : table) : list column := filter (fun c => is_unique (c_key c)) (t_columns t).
Definition uniques (t : table) : list index := map (fun c => pg_unique (t_name t) (c_name c)) (unique_columns t).
Definition created_fks (t : table) : list foreign_key :=
  t_fks t ++ map (column_fk (t_name t)) (filter (fun c => negb (String.eqb (c_references c) "")) (t_columns t)).
Definition created_columns (t : table) : list column :=
  map (require (key_names t)) (map (fun c => pg_recorded (created_check (t_name t) c) c) (t_columns t)).
Definition created_tab (t : table) : pg_tab :=
  mkPg (t_name t) (created_columns t) (declared_key t) (uniques t) (map i_name (uniques t)) (created_fks t) [].

Definition fk_ok (t : table) (f : foreign_key) : Prop :=
  fk_constraint f <> "" /\ fk_index_name f = "" /\ fk_not_for_replication f = false /\ fk_index_columns f <> [] /\
  fk_ref_columns f <> [] /\ forall x, In x (fk_index_columns f) -> In x (map c_name (t_columns t)).

Record accepted (t : table) : Prop := {
  ac_valid : forall c, In c (t_columns t) -> valid_definition c = true;
  ac_names : NoDup (map c_name (t_columns t));
  ac_primary : forall i, In i (t_indexes t) -> i_primary i = true;
  ac_policies : t_policies t = [];
  ac_keys : length (pk_declarations t) <= 1;
  ac_key : forall k, In k (pk_declarations t) -> snd k <> [] /\ NoDup (snd k) /\ forall x, In x (snd k) -> In x (map c_name (t_columns t));
  ac_indexes : NoDup (map i_name (uniques t));
  ac_fks : NoDup (map fk_constraint (created_fks t));
  ac_fk : forall f, In f (created_fks t) -> fk_ok t f }.

Lemma create_accepted t g : pg_create t = Some g -> g = created_tab t /\ accepted t.
Proof.
  unfold pg_create. fold (unique_columns t). fold (uniques t). fold (created_fks t). fold (declared_key t).
  change (match declared_key t with Some (_, l) => l | None => [] end) with (key_names t). fold (created_columns t).
  destruct (_ && _) eqn:E; [|discriminate]. intros H. injection H as <-. split; [reflexivity|].
  rewrite !andb_true_iff in E. destruct E as [[[[[[[[[E1 E2] E3] E4] E5] E6] E7] E8] E9] E10].
  rewrite forallb_forall in E1, E3, E6, E10. rewrite distinct_spec in E2, E7, E9.
  constructor; auto.
  - now destruct (t_policies t).
  - now apply Nat.leb_le.
  - intros k Hk. specialize (E6 k Hk). rewrite !andb_true_iff, distinct_spec, all_in_spec in E6. destruct E6 as [[A B] C].
    split; [|auto]. intros X. rewrite X in A. discriminate.
  - clear -E7. induction (map fst (pk_declarations t)) as [|x r IH]; [exact E7|]. inversion E7; auto.
  - intros f Hf. specialize (E10 f Hf). rewrite !andb_true_iff, !negb_true_iff, all_in_spec in E10. destruct E10 as [[[[[A1 A2] A3] A4] A5] A6].
    split; [now apply String.eqb_neq|]. split; [now apply String.eqb_eq|]. split; [exact A3|].
    split; [intros X; rewrite X in A4; discriminate|]. split; [intros X; rewrite X in A5; discriminate|exact A6].
Qed.

Lemma require_name l c : c_name (require l c) = c_name c.
Proof. unfold require. now destruct (mem _ _). Qed.
Lemma require_stored l c : stored c -> stored (require l c).
Proof. unfold require. destruct (mem _ _); [|auto]. intros H. apply stored_notnull; auto. Qed.

Lemma created_names t : map c_name (created_columns t) = map c_name (t_columns t).
Proof. unfold created_columns. rewrite !map_map. apply map_ext. intros c. now rewrite require_name. Qed.

Lemma create_sound t g : pg_create t = Some g -> sound g.
Proof.
  intros H. apply create_accepted in H as [-> [H1 H2 H3 H4 H5 H6 H7 H8 H9]].
  constructor; cbn [created_tab g_columns g_indexes g_fks g_policies g_pk]; auto.
  - now rewrite created_names.
  - constructor.
  - intros c Hc. unfold created_columns in Hc. apply in_map_iff in Hc as (c1 & <- & Hc). apply in_map_iff in Hc as (c0 & <- & Hc).
    apply require_stored, recorded_stored; auto.
  - intros k l x Ek Hx. unfold declared_key in Ek. destruct (pk_declarations t) as [|k0 r] eqn:Ep; [discriminate|]. injection Ek as ->.
    destruct (H6 (k, l) (or_introl eq_refl)) as (_ & _ & Hin). specialize (Hin x Hx). rewrite <- created_names in Hin. apply in_map_iff in Hin as (c & Ec & Hc).
    exists c. split; [exact Hc|]. split; [exact Ec|]. unfold created_columns in Hc. apply in_map_iff in Hc as (c1 & <- & _). unfold require.
    rewrite require_name in Ec. assert (mem (c_name c1) (key_names t) = true) as ->; [|reflexivity].
    apply mem_in. unfold key_names, declared_key. rewrite Ep, Ec. exact Hx.
  - intros k Ek. unfold declared_key in Ek. destruct (pk_declarations t) as [|k0 r]; [discriminate|]. injection Ek as ->.
    destruct (H6 (k, []) (or_introl eq_refl)) as (X & _). now apply X.
  - intros i Hi. unfold uniques in Hi. apply in_map_iff in Hi as (c & <- & _). reflexivity.
  - intros f Hf. destruct (H9 f Hf) as (_ & _ & A & B & C & _). auto.
Qed.

(** ** One column *)
Definition becomes (n : string) (g : pg_tab) (y : column) : pg_tab := with_cols (replaced n y (g_columns g)) g.

Lemma replaced_same n y l : NoDup (map c_name l) -> named c_name n l = Some y -> replaced n y l = l.
Proof.
  intros Hn Hy. unfold replaced. rewrite <- (map_id l) at 2. apply map_ext_in. intros x Hx. destruct (String.eqb_spec (c_name x) n) as [E|]; [|reflexivity].
  subst n. rewrite (named_self c_name l x Hn Hx) in Hy. congruence.
Qed.
Lemma becomes_same n g y : NoDup (map c_name (g_columns g)) -> named c_name n (g_columns g) = Some y -> becomes n g y = g.
Proof. intros Hn Hy. unfold becomes. rewrite replaced_same by assumption. now destruct g. Qed.
Lemma becomes_twice n g y y' : c_name y = n -> becomes n (becomes n g y) y' = becomes n g y'.
Proof.
  intros E. unfold becomes, with_cols. cbn [g_columns g_name g_pk g_indexes g_owned g_fks g_policies]. f_equal. unfold replaced. rewrite map_map.
  apply map_ext. intros x. destruct (String.eqb_spec (c_name x) n) as [|N]; [now rewrite E, String.eqb_refl|]. now destruct (String.eqb_spec (c_name x) n).
Qed.
Lemma becomes_named n g y y0 : c_name y = n -> named c_name n (g_columns g) = Some y0 -> named c_name n (g_columns (becomes n g y)) = Some y.
Proof. intros E H. cbn [becomes with_cols g_columns]. rewrite (named_replaced n y _ n E), String.eqb_refl. now rewrite H. Qed.
Lemma becomes_names n g y : c_name y = n -> map c_name (g_columns (becomes n g y)) = map c_name (g_columns g).
Proof. intros E. now apply replaced_names_of. Qed.

Section Column.
Variable castable : column -> column -> bool.
Notation run := (alters (pg_alter castable)).

Variables (l : list ddl) (t : table) (s : pg_tab).
Hypothesis Hac : accepted t.
Hypothesis Hpt : pg_table l t.
Hypothesis Hs : sound s.
Hypothesis Hex : exportable s.
Hypothesis Hset : pg_settles castable l t s.
Hypothesis Hname : g_name s = t_name t.
Let ct := exported_table s.

Variables (c y : column) (z : Z).
Hypothesis Hc : In c (t_columns t).
Hypothesis Hy : In y (g_columns s).
Hypothesis Hyc : c_name y = c_name c.
Let n := c_name c.
Let cc := set_position z (exported_column s y).

Lemma ct_name : t_name ct = t_name t.
Proof. exact Hname. Qed.

(** Type *)
Definition typed (y1 : column) : Prop :=
  c_name y1 = n /\ same_as_wanted y1 c /\ c_notnull y1 = c_notnull y /\ c_identity y1 = c_identity y /\ c_default y1 = c_default y /\
  c_check y1 = c_check y /\ c_check_no_inherit y1 = c_check_no_inherit y /\ (is_serial (c_type y1) = true -> is_serial (c_type y) = true).

Lemma valid_enum x : valid_definition x = true -> c_enum x = [].
Proof. unfold valid_definition. destruct (c_enum x); [reflexivity|]. rewrite !andb_true_iff. intros H. decompose [and] H. discriminate. Qed.

Lemma wanted_matches x : valid_definition c = true -> pg_definition t c -> same_as_wanted x c -> data_type_matches Postgres (exported_column s x) c.
Proof.
  intros Hv [Hd _] (H1 & H2 & H3 & H4 & H5 & H6). split; [cbn [exported_column c_type]; now rewrite H1|]. split; [cbn [exported_column c_enum]; now rewrite (valid_enum _ Hv)|].
  split; [|exact H3]. cbn [exported_column c_length]. intros a b Ha Hb. destruct (shows_length x); [|discriminate]. rewrite H4 in Ha. unfold wanted_length in Ha. rewrite Hb in Ha. congruence.
Qed.

Lemma data_type_position a b x : data_type_matches Postgres (set_position a b) x <-> data_type_matches Postgres b x.
Proof. reflexivity. Qed.

Lemma stage_type g : sound g -> named c_name n (g_columns g) = Some y ->
  exists y1, run (pg_type ct t cc c) g = Some (becomes n g y1) /\ typed y1.
Proof.
  intros Hg Hn. unfold pg_type. pose proof (ac_valid _ Hac c Hc) as Hv. pose proof (pt_columns _ _ Hpt c Hc) as Hd.
  destruct (have_same_data_type Postgres cc c) eqn:E.
  - exists y. cbn [alters]. rewrite becomes_same by (try apply (so_names _ Hg); assumption). split; [reflexivity|].
    assert (same_as_wanted y c) as Hw.
    { destruct (sp_type _ _ _ _ Hset c y Hc Hy Hyc) as [H|(H & _)]; [exact H|]. apply data_type_spec in E. exfalso. apply H. exact E. }
    repeat split; auto; apply Hw.
  - destruct (sp_type _ _ _ _ Hset c y Hc Hy Hyc) as [H|(_ & H1 & H2 & H3 & H4 & H5 & H6)].
    { exfalso. assert (have_same_data_type Postgres cc c = true); [|congruence]. apply data_type_spec. apply (wanted_matches y Hv Hd H). }
    exists (set_type (wanted_type c) (snd (canonical (c_type c))) c y). split.
    + cbn [alters s_eff]. change (c_name cc) with (c_name y). rewrite Hyc. fold n. cbn [pg_alter].
      rewrite (on_column_some n (alter_type castable c) g y (set_type (wanted_type c) (snd (canonical (c_type c))) c y) Hn); [reflexivity|].
      unfold alter_type. rewrite H2, H1, H3. cbn [negb]. destruct (c_identity y) eqn:Ei; [|reflexivity].
      destruct H4 as [-> ->]; [congruence|]. reflexivity.
    + split; [exact Hyc|]. split; [|repeat split; cbn [set_type c_type]; congruence].
      unfold same_as_wanted, wanted_zone. rewrite H5, H6. repeat split.
Qed.

(** NOT NULL *)
Lemma current_key : is_primary_key cc ct = in_key s n.
Proof.
  unfold is_primary_key. assert (is_key_primary (c_key cc) = false) as ->.
  { cbn [cc set_position exported_column c_key]. now destruct (existsb _ _). }
  cbn [orb ct exported_table t_indexes]. rewrite existsb_app, (exported_indexes_eq _ Hex).
  assert (existsb (fun i => i_primary i && existsb (fun ic => String.eqb (ic_column ic) (c_name cc)) (i_columns i)) (g_indexes s) = false) as ->.
  { apply not_true_iff_false. intros H. apply existsb_exists in H as (i & Hi & H). rewrite (so_index _ Hs i Hi) in H. discriminate. }
  rewrite orb_false_r. unfold exported_pk, in_key. destruct (g_pk s) as [[k ks]|]; [|reflexivity]. cbn [existsb i_primary i_columns andb]. rewrite orb_false_r.
  change (c_name cc) with (c_name y). rewrite Hyc. fold n. unfold mem. induction ks as [|x ks IH]; [reflexivity|]. cbn [map existsb ic_column]. rewrite IH, String.eqb_sym. reflexivity.
Qed.

Lemma current_required : not_null Postgres cc = true <-> c_notnull y = Some true.
Proof.
  unfold not_null. cbn [cc set_position exported_column c_notnull c_type]. destruct (c_notnull y) as [[]|] eqn:E; [tauto|split; discriminate|].
  split; [|discriminate]. intros H. exfalso. assert (is_serial (c_type y) = true) as Hx.
  { apply orb_true_iff in H as [H|H]; apply String.eqb_eq in H; rewrite H; reflexivity. }
  destruct (so_column _ Hs y Hy) as [Hst _]. destruct (Hst Hx) as [X _]. congruence.
Qed.

Definition nulled (y1 y2 : column) : Prop :=
  c_name y2 = n /\ same_as_wanted y2 c /\ c_identity y2 = c_identity y /\ c_default y2 = c_default y /\
  c_check y2 = c_check y /\ c_check_no_inherit y2 = c_check_no_inherit y /\ c_type y2 = c_type y1 /\
  (required c -> c_notnull y2 = Some true) /\ (in_key s n = true -> c_notnull y2 = Some true) /\
  (c_notnull y2 = Some true -> required c \/ in_primary_key t c).

Lemma in_key_notnull : in_key s n = true -> c_notnull y = Some true.
Proof.
  unfold in_key. intros H. destruct (g_pk s) as [[k ks]|] eqn:E; [|discriminate]. apply mem_in in H.
  destruct (so_pk _ Hs k ks n E H) as (x & Hx & En & Hn). assert (x = y) as ->; [|exact Hn].
  pose proof (named_self c_name _ x (so_names _ Hs) Hx) as A. pose proof (named_self c_name _ y (so_names _ Hs) Hy) as B. rewrite Hyc in B. fold n in B. rewrite En in A. congruence.
Qed.

Lemma stage_null g y1 : sound g -> named c_name n (g_columns g) = Some y1 -> typed y1 -> (forall x, in_key g x = in_key s x) ->
  exists y2, run (pg_null ct t cc c) g = Some (becomes n g y2) /\ nulled y1 y2.
Proof.
  intros Hg Hn (T1 & T2 & T3 & T4 & T5 & T6 & T7 & T8) Hk. unfold pg_null. rewrite current_key.
  assert (Hsame : forall P : c_notnull y1 = Some true -> required c \/ in_primary_key t c,
     (required c -> c_notnull y1 = Some true) -> nulled y1 y1).
  { intros P Q. unfold nulled. repeat (split; [first [assumption|reflexivity]|]). split; [|exact P]. intros K. rewrite T3. now apply in_key_notnull. }
  destruct (in_key s n) eqn:Ek.
  - exists y1. cbn [alters]. rewrite becomes_same by (try apply (so_names _ Hg); assumption). split; [reflexivity|].
    apply Hsame; [intros _; now apply (sp_null _ _ _ _ Hset)|]. intros _. rewrite T3. now apply in_key_notnull.
  - destruct (not_null Postgres cc) eqn:E1, (not_null Postgres c) eqn:E2; cbn [andb negb].
    + exists y1. cbn [alters]. rewrite becomes_same by (try apply (so_names _ Hg); assumption). split; [reflexivity|].
      apply Hsame; [intros _; left; now apply required_spec|]. intros _. rewrite T3. now apply current_required.
    + exists (set_notnull None y1).
      assert (Hnr : ~ required c) by (rewrite <- required_spec; congruence).
      assert (Hid : c_identity y = None).
      { destruct (c_identity y) eqn:Ei; [|reflexivity]. exfalso. destruct (sp_identity _ _ _ _ Hset c y Hc Hy Hyc) as [X|X]; [left; congruence|tauto|]. fold n in X. congruence. }
      assert (Hse : is_serial (c_type y) = false).
      { apply not_true_iff_false. intros X. destruct (sp_identity _ _ _ _ Hset c y Hc Hy Hyc) as [Y|Y]; [auto|tauto|]. fold n in Y. congruence. }
      split.
      * cbn [alters s_eff]. change (c_name cc) with (c_name y). rewrite Hyc. fold n. cbn [pg_alter]. rewrite Hk, Ek.
        rewrite (on_column_some n (drop_not_null false) g y1 (set_notnull None y1) Hn); [reflexivity|]. unfold drop_not_null. rewrite T4, Hid. cbn [orb].
        destruct (is_serial (c_type y1)); [now rewrite T8 in Hse|reflexivity].
      * unfold nulled. repeat (split; [first [assumption|reflexivity]|]). split; [tauto|]. split; [congruence|]. discriminate.
    + exists (set_notnull (Some true) y1). split.
      * cbn [alters s_eff]. change (c_name cc) with (c_name y). rewrite Hyc. fold n. cbn [pg_alter].
        rewrite (on_column_some n _ g y1 (set_notnull (Some true) y1) Hn) by reflexivity. reflexivity.
      * unfold nulled. repeat (split; [first [assumption|reflexivity]|]). intros _. left. now apply required_spec.
    + exists y1. cbn [alters]. rewrite becomes_same by (try apply (so_names _ Hg); assumption). split; [reflexivity|].
      apply Hsame.
      * intros X. rewrite T3 in X. apply current_required in X. congruence.
      * intros X. apply required_spec in X. congruence.
Qed.

(** Identity *)
Definition identified (y3 : column) : Prop :=
  c_name y3 = n /\ same_as_wanted y3 c /\ c_default y3 = c_default y /\
  c_check y3 = c_check y /\ c_check_no_inherit y3 = c_check_no_inherit y /\
  (required c -> c_notnull y3 = Some true) /\
  (c_notnull y3 = Some true -> required c \/ in_primary_key t c) /\
  option_map id_behavior (c_identity y3) = option_map id_behavior (c_identity c).

Lemma stage_identity g y1 y2 : sound g -> named c_name n (g_columns g) = Some y2 -> typed y1 -> nulled y1 y2 ->
  exists y3, run (pg_identity ct t cc c) g = Some (becomes n g y3) /\ identified y3.
Proof.
  intros Hg Hn (_ & _ & _ & _ & _ & _ & _ & T8) (N1 & N2 & N3 & N4 & N5 & N6 & N7 & N8 & N9 & N10). pose proof (ac_valid _ Hac c Hc) as Hv.
  assert (Hsame : option_map id_behavior (c_identity y2) = option_map id_behavior (c_identity c) -> identified y2).
  { intros P. unfold identified. repeat (split; [assumption|]). exact P. }
  assert (Hset' : forall i, option_map id_behavior (Some i) = option_map id_behavior (c_identity c) -> identified (set_identity (Some i) y2)).
  { intros i P. unfold identified. repeat (split; [first [assumption|reflexivity]|]). exact P. }
  unfold pg_identity. change (c_identity cc) with (c_identity y). change (c_name cc) with (c_name y). rewrite Hyc. fold n.
  destruct (are_same_identity (c_identity y) (c_identity c)) eqn:Ea.
  - exists y2. cbn [alters]. rewrite becomes_same by (try apply (so_names _ Hg); assumption). split; [reflexivity|]. apply Hsame.
    apply are_same_identity_spec in Ea. now rewrite N3, Ea.
  - destruct (c_identity y) as [a|] eqn:Ey, (c_identity c) as [b|] eqn:Ec.
    + exists (set_identity (Some (kept_identity b)) y2). destruct (valid_identity c b Hv Ec) as (_ & _ & _ & V4 & _). split; [|now apply Hset'].
      cbn [alters s_eff pg_alter]. rewrite (on_column_some n _ g y2 (set_identity (Some (kept_identity b)) y2) Hn); [reflexivity|].
      unfold change_identity. rewrite N3. now destruct (String.eqb_spec (id_behavior b) "").
    + exists (set_identity None y2). split.
      * cbn [alters s_eff pg_alter]. now rewrite (on_column_some n _ g y2 (set_identity None y2) Hn).
      * unfold identified. repeat (split; [first [assumption|reflexivity]|]). rewrite Ec. reflexivity.
    + exists (set_identity (Some (kept_identity b)) y2). destruct (valid_identity c b Hv Ec) as (V1 & V2 & V3 & V4 & _). split; [|now apply Hset'].
      cbn [alters s_eff pg_alter]. rewrite (on_column_some n _ g y2 (set_identity (Some (kept_identity b)) y2) Hn); [reflexivity|].
      unfold add_identity. rewrite N3, N4. rewrite (sp_add_identity _ _ _ _ Hset c y Hc Hy Hyc Ey) by congruence.
      assert (c_notnull y2 = Some true) as ->.
      { destruct (sp_identity _ _ _ _ Hset c y Hc Hy Hyc) as [X|X]; [right; left; congruence|auto|auto]. }
      destruct N2 as (-> & _ & -> & _). rewrite V2, V3. cbn [negb andb]. now destruct (String.eqb_spec (id_behavior b) "").
    + discriminate.
Qed.

(** Default *)
Definition defaulted (y4 : column) : Prop :=
  c_name y4 = n /\ same_as_wanted y4 c /\
  c_check y4 = c_check y /\ c_check_no_inherit y4 = c_check_no_inherit y /\
  (required c -> c_notnull y4 = Some true) /\
  (c_notnull y4 = Some true -> required c \/ in_primary_key t c) /\
  option_map id_behavior (c_identity y4) = option_map id_behavior (c_identity c) /\ default_matches y4 c.

Lemma kept_real d : real_default (kept_default d) = real_default d.
Proof.
  unfold kept_default. destruct (real_default d) as [v|] eqn:E; [|reflexivity]. destruct d as [[[w|] k]|]; [|discriminate|discriminate].
  cbn [real_default] in *. destruct (v_type w) eqn:Ew; try (injection E as ->; now rewrite Ew). destruct (String.eqb (v_raw w) "null") eqn:Er; [discriminate|]. injection E as ->. now rewrite Ew, Er.
Qed.

Lemma stage_default g y1 y3 out : sound g -> named c_name n (g_columns g) = Some y3 -> typed y1 -> c_type y3 = c_type y1 -> identified y3 ->
  pg_default ct t cc c = Ok out -> exists y4, run out g = Some (becomes n g y4) /\ defaulted y4.
Proof.
  intros Hg Hn (_ & _ & _ & _ & _ & _ & _ & T8) Hty (I1 & I2 & I3 & I4 & I5 & I6 & I7 & I8) H. pose proof (ac_valid _ Hac c Hc) as Hv.
  unfold pg_default in H. change (c_default cc) with (c_default y) in H.
  destruct (are_same_default (c_default y) (c_default c)) eqn:Ed.
  - injection H as <-. exists y3. cbn [alters]. rewrite becomes_same by (try apply (so_names _ Hg); assumption). split; [reflexivity|].
    unfold defaulted. repeat (split; [assumption|]). unfold default_matches. rewrite I3. apply (default_spec y c). exact Ed.
  - assert (Hdiff : ~ default_matches y c) by (rewrite <- default_spec; congruence). clear Ed.
    assert (Hreal : real_default (c_default y) <> None \/ real_default (c_default c) <> None).
    { unfold default_matches in Hdiff. destruct (real_default (c_default y)); [left; discriminate|]. destruct (real_default (c_default c)); [right; discriminate|]. exfalso. apply Hdiff. exact I. }
    assert (Hidc : c_identity c = None).
    { destruct (c_identity c) as [i|] eqn:Ei; [|reflexivity]. exfalso. destruct (valid_identity c i Hv Ei) as (V1 & _).
      destruct Hreal as [R|R]; [|rewrite V1 in R; now apply R]. destruct (c_identity y) as [j|] eqn:Ej.
      - destruct (so_column _ Hs y Hy) as (_ & X & _). destruct (X j Ej) as [Y _]. rewrite Y in R. now apply R.
      - rewrite (sp_add_identity _ _ _ _ Hset c y Hc Hy Hyc Ej) in R by congruence. now apply R. }
    assert (Hid3 : c_identity y3 = None) by (rewrite Hidc in I8; now destruct (c_identity y3)).
    assert (Hser : serial_base (c_type y3) = None).
    { destruct (serial_base (c_type y3)) eqn:Eb; [|reflexivity]. exfalso. assert (is_serial (c_type y3) = true) as X by (unfold is_serial; now rewrite Eb).
      assert (c_default y = None) as X1 by (apply (so_column _ Hs y Hy); apply T8; congruence).
      destruct I2 as (W & _). rewrite W in X. apply (valid_serial c Hv) in X. rewrite X1, X in Hreal. destruct Hreal as [R|R]; now apply R. }
    assert (Hfin : forall d, kept_default d = kept_default (c_default c) -> defaulted (set_default (kept_default d) y3)).
    { intros d Hd. assert (Ht : c_type (set_default (kept_default d) y3) = c_type y3) by (cbn [set_default c_type]; now rewrite Hser).
      unfold defaulted. split; [exact I1|]. split; [destruct I2 as (W1 & W2); split; [congruence|exact W2]|].
      repeat (split; [assumption|]). unfold default_matches. cbn [set_default c_default]. rewrite Hd, kept_real. apply value_matches_refl. }
    assert (Hrun : forall d, on_column n (change_default d) g = Some (becomes n g (set_default (kept_default d) y3))).
    { intros d. apply on_column_some with (y := y3); [exact Hn|]. unfold change_default. now rewrite Hid3. }
    change (c_name cc) with (c_name y) in H. rewrite Hyc in H. fold n in H. destruct (c_default c) as [d|] eqn:Ec.
    + destruct (df_value d); [|discriminate]. destruct (generate_default_definition v) as [def| | |]; try discriminate. cbn [bind] in H. injection H as <-.
      exists (set_default (kept_default (Some d)) y3). split; [|now apply Hfin]. cbn [alters s_eff pg_alter]. now rewrite Hrun.
    + injection H as <-. exists (set_default (kept_default None) y3). split; [|now apply Hfin]. cbn [alters s_eff pg_alter]. now rewrite Hrun.
Qed.

(** CHECK *)
Definition half (y5 : column) : Prop :=
  c_name y5 = n /\ same_as_wanted y5 c /\
  (required c -> c_notnull y5 = Some true) /\
  (c_notnull y5 = Some true -> required c \/ in_primary_key t c) /\
  option_map id_behavior (c_identity y5) = option_map id_behavior (c_identity c) /\ default_matches y5 c /\
  option_map ck_definition (c_check y5) = option_map ck_definition (c_check c) /\
  c_check_no_inherit y5 = c_check_no_inherit c.

Definition check_kept (y5 : column) : Prop :=
  forall k, has_check k y5 = true -> has_check k y = true \/ k = auto_check (t_name t) n.

Lemma check_exported : check_matches cc c -> option_map ck_definition (c_check y) = option_map ck_definition (c_check c) /\ c_check_no_inherit y = c_check_no_inherit c.
Proof.
  intros [H1 H2]. cbn [cc set_position exported_column c_check c_check_no_inherit] in *. split; [|exact H2]. destruct (c_check y), (c_check c); cbn in *; try tauto. f_equal. tauto.
Qed.

Lemma find_check g k y0 : named c_name n (g_columns g) = Some y0 -> NoDup (map c_name (g_columns g)) -> has_check k y0 = true ->
  (forall x, In x (g_columns g) -> c_name x <> n -> has_check k x = false) -> exists x, find (has_check k) (g_columns g) = Some x /\ c_name x = n.
Proof.
  intros H1 _ H2 H3. apply named_some in H1 as [H1 _]. destruct (find (has_check k) (g_columns g)) as [x|] eqn:E.
  - exists x. split; [reflexivity|]. apply find_some in E as [Hx Ex]. destruct (string_dec (c_name x) n) as [|N]; [assumption|]. rewrite (H3 x Hx N) in Ex. discriminate.
  - pose proof (find_none _ _ E y0 H1). congruence.
Qed.

Lemma stage_check g y4 : sound g -> named c_name n (g_columns g) = Some y4 -> defaulted y4 ->
  (~ check_matches (exported_column s y) c -> forall x, In x (g_columns g) -> c_name x <> n -> has_check (planned_check t c) x = false) ->
  exists y5, run (pg_check ct t cc c) g = Some (becomes n g y5) /\ half y5 /\ check_kept y5.
Proof.
  intros Hg Hn (D1 & D2 & D3 & D4 & D5 & D6 & D7 & D8) Hothers.
  assert (Hfin : forall o b, option_map ck_definition o = option_map ck_definition (c_check c) -> b = c_check_no_inherit c -> half (set_check o b y4)).
  { intros o b H1 H2. unfold half. repeat (split; [first [assumption|reflexivity]|]). exact H2. }
  unfold pg_check. destruct (are_same_check (c_check cc) (c_check c) && Bool.eqb (c_check_no_inherit cc) (c_check_no_inherit c)) eqn:Ek.
  - apply check_spec in Ek. apply check_exported in Ek as [Ek1 Ek2]. exists y4. cbn [alters]. rewrite becomes_same by (try apply (so_names _ Hg); assumption). split; [reflexivity|].
    split; [unfold half; repeat (split; [assumption|]); split; [now rewrite D3|now rewrite D4]|]. intros k. unfold has_check. rewrite D3. auto.
  - assert (Hm : ~ check_matches (exported_column s y) c).
    { intros X. assert (check_matches cc c) as Y by exact X. apply check_spec in Y. congruence. }
    specialize (Hothers Hm). destruct (sp_check _ _ _ _ Hset c y Hc Hy Hyc Hm) as (P1 & P2 & P3 & P4 & _).
    cbv zeta. fold (check_name "public." (t_name t) (c_name c)). fold (planned_check t c).
    set (k := planned_check t c) in *. change (c_name cc) with (c_name y). rewrite Hyc. fold n.
    assert (Hdrop : exists y', run (match c_check cc with Some _ => [mkStmt (Generator.alter Postgres (t_name t) ++ " DROP CONSTRAINT " ++ k)%string (EffDropCheck (t_name t) n k)] | None => [] end) g
              = Some (becomes n g y') /\ y' = set_check None false y4).
    { destruct (c_check cc) as [d0|] eqn:Ecc.
      - assert (exists d, c_check y = Some d) as [d Ed]. { cbn [cc set_position exported_column c_check] in Ecc. destruct (c_check y); [eauto|discriminate]. }
        exists (set_check None false y4). split; [|reflexivity]. cbn [alters s_eff pg_alter]. rewrite P1, P2.
        destruct (find_check g k y4 Hn (so_names _ Hg)) as (x & -> & Ex).
        + unfold has_check. rewrite D3, Ed, (P4 d Ed). apply String.eqb_refl.
        + exact Hothers.
        + rewrite Ex. rewrite (on_column_some n _ g y4 (set_check None false y4) Hn) by reflexivity. reflexivity.
      - assert (c_check y = None) as Ed. { cbn [cc set_position exported_column c_check] in Ecc. destruct (c_check y); [discriminate|reflexivity]. }
        exists y4. cbn [alters]. rewrite becomes_same by (try apply (so_names _ Hg); assumption). split; [reflexivity|].
        assert (A1 : c_check_no_inherit y4 = false) by (rewrite D4; now apply (so_column _ Hs y Hy)).
        assert (A2 : c_check y4 = None) by congruence. clear -A1 A2. destruct y4. cbn in *. now subst. }
    destruct Hdrop as (y' & E1 & ->).
    assert (Hn' : named c_name n (g_columns (becomes n g (set_check None false y4))) = Some (set_check None false y4)) by (eapply becomes_named; [exact D1|exact Hn]).
    destruct (c_check c) as [d|] eqn:Ec.
    + exists (set_check (Some (mkCheck (ck_definition d) k false)) (c_check_no_inherit c) y4). split; [|split].
      * rewrite alters_app, E1. cbn [alters s_eff pg_alter]. rewrite P1, P2. cbn [andb].
        assert (existsb (has_check k) (g_columns (becomes n g (set_check None false y4))) = false) as ->.
        { apply not_true_iff_false. intros H. apply existsb_exists in H as (x & Hx & H). cbn [becomes with_cols g_columns] in Hx. apply in_replaced in Hx as [->|[Hx Nx]]; [discriminate|].
          rewrite (Hothers x Hx Nx) in H. discriminate. }
        cbn [negb]. rewrite (on_column_some n _ _ (set_check None false y4) (set_check (Some (mkCheck (ck_definition d) k false)) (c_check_no_inherit c) y4) Hn').
        -- fold (becomes n (becomes n g (set_check None false y4)) (set_check (Some (mkCheck (ck_definition d) k false)) (c_check_no_inherit c) y4)). now rewrite becomes_twice.
        -- reflexivity.
      * apply Hfin; [reflexivity|reflexivity].
      * intros k'. unfold has_check. cbn [set_check c_check ck_constraint]. intros X. apply String.eqb_eq in X. right. subst k'. exact P3.
    + exists (set_check None false y4). split; [now rewrite app_nil_r|]. split; [apply Hfin; [reflexivity|]|intros k'; discriminate].
      symmetry. now apply (valid_check c (ac_valid _ Hac c Hc)).
Qed.

(** All statements about the column. *)
Lemma column_run g out : sound g -> g_pk g = g_pk s -> named c_name n (g_columns g) = Some y ->
  (~ check_matches (exported_column s y) c -> forall x, In x (g_columns g) -> c_name x <> n -> has_check (planned_check t c) x = false) ->
  ddls_column_postgres ct t cc c = Ok out ->
  exists y5, run out g = Some (becomes n g y5) /\ half y5 /\ check_kept y5.
Proof.
  intros Hg Hpk Hn Hothers H. unfold ddls_column_postgres in H. destruct (pg_default ct t cc c) as [df| | |] eqn:Ed; try discriminate. cbn [bind] in H. injection H as <-.
  assert (Hkeep : forall y', c_name y' = n -> forall out', run out' g = Some (becomes n g y') -> sound (becomes n g y')) by (intros y' _ out' E; eapply alters_sound; eauto).
  destruct (stage_type g Hg Hn) as (y1 & E1 & T). pose proof T as (T1 & _).
  assert (G1 : sound (becomes n g y1)) by (eapply alters_sound; eauto).
  assert (N1 : named c_name n (g_columns (becomes n g y1)) = Some y1) by (eapply becomes_named; eauto).
  destruct (stage_null (becomes n g y1) y1 G1 N1 T) as (y2 & E2 & N). { intros x. unfold in_key. cbn [becomes with_cols g_pk]. now rewrite Hpk. }
  pose proof N as (T2 & _). rewrite becomes_twice in E2 by assumption.
  assert (G2 : sound (becomes n g y2)) by (eapply alters_sound; eauto).
  assert (N2 : named c_name n (g_columns (becomes n g y2)) = Some y2) by (eapply becomes_named; eauto).
  destruct (stage_identity (becomes n g y2) y1 y2 G2 N2 T N) as (y3 & E3 & Id). pose proof Id as (T3 & _). rewrite becomes_twice in E3 by assumption.
  assert (G3 : sound (becomes n g y3)) by (eapply alters_sound; eauto).
  assert (N3 : named c_name n (g_columns (becomes n g y3)) = Some y3) by (eapply becomes_named; eauto).
  assert (Hty : c_type y3 = c_type y1).
  { destruct T as (_ & (W & _) & _). destruct Id as (_ & (W' & _) & _). congruence. }
  destruct (stage_default (becomes n g y3) y1 y3 df G3 N3 T Hty Id Ed) as (y4 & E4 & D). pose proof D as (T4 & _). rewrite becomes_twice in E4 by assumption.
  assert (G4 : sound (becomes n g y4)) by (eapply alters_sound; eauto).
  assert (N4 : named c_name n (g_columns (becomes n g y4)) = Some y4) by (eapply becomes_named; eauto).
  destruct (stage_check (becomes n g y4) y4 G4 N4 D) as (y5 & E5 & K).
  { intros Hm x Hx Nx. cbn [becomes with_cols g_columns] in Hx. apply in_replaced in Hx as [->|[Hx _]]; [congruence|]. now apply Hothers. }
  rewrite becomes_twice in E5 by assumption. exists y5. split; [|exact K].
  rewrite alters_app, E1, alters_app, E2, alters_app, E3, alters_app, E4. exact E5.
Qed.
End Column.
