(** A PostgreSQL database is copied by its export, but for its foreign keys (C101). *)
From Coq Require Import String Ascii List ZArith Bool Lia.
From Verif Require Import GoStr GoStrFacts Ast Generator SchemaText SchemaParse Parser Planner Catalog AdapterPostgres SpecPlan SpecColumns SpecMysql SpecDatabase SpecPostgres
  SpecLayout SpecShown SpecConvergePg ProofPlan ProofSteps ProofConverge ProofPg ProofPgDump ProofUntold ProofEndToEnd ProofReadExport Runner SpecRunner SpecTwoRuns ProofTwoRuns ProofTwoRunsAll ProofPlannableRun
  CommandLine SpecUrl SpecCommand SpecLine ProofLine SpecCopy SpecCopyPg ProofCopy.
Import ListNotations.
Local Open Scope string_scope.
Local Open Scope list_scope.

Lemma mem_cases x l : mem x l = true -> In x l.
Proof. unfold mem. intros H. apply existsb_exists in H as (y & Y & E). apply String.eqb_eq in E. now subst. Qed.

(** ** A column is made again *)
Definition canonical_kept (s : string) : Prop := canonical s = (s, false).
Lemma ideal_canonical c : column_ok c = true -> canonical (c_type (ideal_column c)) = (c_type (ideal_column c), false).
Proof.
  intros H. unfold column_ok in H. repeat (apply andb_true_iff in H as [H ?]).
  assert (T : type_ok (sc_type c) = true) by assumption. clear - T. unfold ideal_column.
  destruct (sc_type c) as [b|w|b|w|z|z]; cbn [c_type]; try reflexivity.
  - destruct b as [w| |n|n|n]; try reflexivity. apply mem_cases in T. cbn [base_name]. cbn in T. repeat (destruct T as [<-|T]; [reflexivity|]). destruct T.
  - apply mem_cases in T. cbn in T. destruct T as [<-|[]]. reflexivity.
  - destruct b as [w| |n|n|n]; try reflexivity. apply mem_cases in T. cbn [base_name]. cbn in T. repeat (destruct T as [<-|T]; [reflexivity|]). destruct T.
  - unfold serial_name. destruct (String.eqb w "smallint"); [reflexivity|]. now destruct (String.eqb w "bigint").
Qed.
Lemma ideal_bare c : let x := ideal_column c in
  c_position x = 0%Z /\ c_unsigned x = false /\ c_autoinc x = false /\ c_scale x = None /\ c_charset x = "" /\ c_collate x = "" /\ c_key x = KeyNone /\ c_onupdate x = None /\
  c_enum x = [] /\ c_references x = "" /\ c_sequence x = None /\ (c_notnull x = Some true \/ c_notnull x = None) /\
  (c_default x = None \/ exists d, c_default x = Some (mkDefault (Some (default_value d)) "")) /\
  (c_identity x = None \/ exists b, c_identity x = Some (mkIdentity (behavior b) false)) /\
  (forall k, c_check x = Some k -> ck_not_for_replication k = false).
Proof.
  unfold ideal_column. destruct (sc_type c); cbv zeta; cbn; repeat (split; [reflexivity|]);
    (split; [destruct (sc_required c); auto|]); (split; [destruct (sc_default c) as [d|]; [right; now exists d|now left]|]);
    (split; [destruct (sc_always c) as [b0|]; [right; now exists b0|now left]|]); intros k; destruct (sc_check c); intros E; now inversion E.
Qed.
Lemma ideal_shows c : column_ok c = true -> (if shows_length (ideal_column c) then c_length (ideal_column c) else None) = c_length (ideal_column c).
Proof.
  intros H. unfold column_ok in H. repeat (apply andb_true_iff in H as [H ?]).
  assert (T : type_ok (sc_type c) = true) by assumption. clear - T. unfold ideal_column.
  destruct (sc_type c) as [b|w|b|w|z|z]; try (destruct b as [w| |n|n|n]); cbn [c_length shows_length option_map base_length]; try reflexivity;
    try (destruct (shows_length _); reflexivity).
Qed.
Lemma ideal_length c : column_ok c = true -> c_length (ideal_column c) = None -> (String.eqb (c_type (ideal_column c)) "character" || String.eqb (c_type (ideal_column c)) "bit") = false.
Proof.
  intros H. unfold column_ok in H. repeat (apply andb_true_iff in H as [H ?]).
  assert (T : type_ok (sc_type c) = true) by assumption. clear - T. unfold ideal_column.
  destruct (sc_type c) as [b|w|b|w|z|z]; try (destruct b as [w| |n|n|n]); cbn [c_length c_type option_map base_length base_name]; intros L; try discriminate; try reflexivity.
  - apply mem_cases in T. cbn in T. repeat (destruct T as [<-|T]; [reflexivity|]). destruct T.
  - apply mem_cases in T. cbn in T. destruct T as [<-|[]]. reflexivity.
  - apply mem_cases in T. cbn in T. repeat (destruct T as [<-|T]; [reflexivity|]). destruct T.
  - unfold serial_name. destruct (String.eqb w "smallint"); [reflexivity|]. now destruct (String.eqb w "bigint").
Qed.

Lemma real_kept d : kept_default (Some (mkDefault (Some (default_value d)) "")) = Some (mkDefault (Some (default_value d)) "").
Proof. destruct d as [z|s ty|b| |]; try reflexivity. Qed.

Lemma column_again g c p k : column_ok c = true -> stored (ideal_column c) -> g_owned g = [] ->
  (forall i, c_identity (ideal_column c) = Some i -> c_notnull (ideal_column c) = Some true /\ is_integer (c_type (ideal_column c)) && negb (c_array (ideal_column c)) = true) ->
  (forall x, c_check (ideal_column c) = Some x -> ck_constraint x = k) ->
  valid_definition (set_position p (exported_column g (ideal_column c))) = true /\ pg_recorded k (set_position p (exported_column g (ideal_column c))) = ideal_column c.
Proof.
  intros H (S1 & S2 & S3) O I K. pose proof (ideal_canonical c H) as C. pose proof (ideal_shows c H) as L. pose proof (ideal_length c H) as L2.
  destruct (ideal_bare c) as (B1 & B2 & B3 & B4 & B5 & B6 & B7 & B8 & B9 & B10 & B11 & B12 & B13 & B14 & B15).
  assert (SA : is_serial (c_type (ideal_column c)) = true -> c_array (ideal_column c) = false).
  { clear - H. unfold column_ok in H. repeat (apply andb_true_iff in H as [H ?]). assert (T : type_ok (sc_type c) = true) by assumption. clear - T. unfold ideal_column.
    destruct (sc_type c) as [b|w|b|w|z|z]; try reflexivity. cbn [c_type c_array]. destruct b as [w| |n|n|n]; try discriminate. intros X. exfalso. apply mem_cases in T. cbn in T. cbn [base_name] in X.
    repeat (destruct T as [<-|T]; [discriminate|]). destruct T. }
  destruct (ideal_column c) as [nm ps ty un nn au ar de le sc ch ni cs co tz ke ou en re id sq].
  unfold valid_definition, pg_recorded, says_required, wanted_zone, wanted_length, wanted_type.
  cbn [c_position c_unsigned c_autoinc c_scale c_charset c_collate c_key c_onupdate c_enum c_references c_sequence c_type c_length c_notnull c_identity c_check c_default c_array c_timezone c_name c_check_no_inherit exported_column set_position] in *.
  subst. rewrite C, L, O.
  assert (E0 : existsb (fun i => mem (i_name i) [] && mem nm (key_columns i)) (g_indexes g) = false).
  { clear. induction (g_indexes g); auto. }
  rewrite E0. cbn [fst snd]. cbn [is_key_primary orb negb andb String.eqb]. rewrite ?orb_false_r. split.
  - destruct B13 as [->|(d & ->)].
    + destruct B14 as [->|(b & ->)].
      * cbn [option_map df_value negb andb]. destruct ch as [x|]; cbn [option_map ck_not_for_replication negb].
        -- destruct (is_serial ty) eqn:Sr; [|reflexivity]. rewrite (SA eq_refl). destruct B12 as [->| ->]; reflexivity.
        -- rewrite (S3 eq_refl). destruct (is_serial ty) eqn:Sr; [|reflexivity]. rewrite (SA eq_refl). destruct B12 as [->| ->]; reflexivity.
      * destruct (I _ eq_refl) as [-> J]. apply andb_true_iff in J as [J1 J2]. rewrite J1, J2. cbn [id_behavior id_not_for_replication negb andb].
        assert (Bh : String.eqb (behavior b) "" = false) by (now destruct b). rewrite Bh. cbn [negb andb].
        destruct ch as [x|]; cbn [option_map ck_not_for_replication negb].
        -- destruct (is_serial ty); reflexivity.
        -- rewrite (S3 eq_refl). destruct (is_serial ty); reflexivity.
    + cbn [df_value]. destruct (is_serial ty) eqn:Sr; [destruct (S1 eq_refl); discriminate|].
      destruct B14 as [->|(b & ->)]; [|destruct (S2 _ eq_refl); discriminate].
      destruct ch as [x|]; cbn [option_map ck_not_for_replication negb andb]; [reflexivity|]. now rewrite (S3 eq_refl).
  - f_equal.
    + destruct B12 as [->| ->]; [reflexivity|]. destruct B14 as [->|(b & ->)]; [|destruct (I _ eq_refl); discriminate]. destruct (is_serial ty) eqn:Sr; [destruct (S1 eq_refl); discriminate|reflexivity].
    + destruct B13 as [->|(d & ->)]; [reflexivity|]. apply real_kept.
    + destruct le as [v|]; [reflexivity|]. now rewrite (L2 eq_refl).
    + destruct ar; reflexivity.
    + destruct ch as [x|]; [|reflexivity]. cbn [option_map ck_definition]. rewrite <- (K x eq_refl), <- (B15 x eq_refl). now destruct x.
    + destruct B14 as [->|(b & ->)]; [reflexivity|]. reflexivity.
Qed.

(** ** A table is made again *)
Lemma again_list (e h : column -> column) l : forall z, (forall p c, In c l -> h (set_position p (e c)) = c) -> map h (number z (map e l)) = l.
Proof. induction l as [|c l IH]; intros z H; [reflexivity|]. cbn [map number]. rewrite (H z c (or_introl eq_refl)). f_equal. apply IH. intros p x X. apply H. now right. Qed.
Lemma number_each (P : column -> Prop) (e : column -> column) l : forall z, (forall p c, In c l -> P (set_position p (e c))) -> forall c, In c (number z (map e l)) -> P c.
Proof. induction l as [|c l IH]; intros z H x X; [destruct X|]. cbn [map number] in X. destruct X as [<-|X]; [apply H; now left|]. apply (IH (z + 1)%Z); [|exact X]. intros p y Y. apply H. now right. Qed.

Section Again.
Variable g : pg_tab.
Hypothesis Hcol : forall p c, In c (g_columns g) ->
  valid_definition (set_position p (exported_column g c)) = true /\
  pg_recorded (created_check (g_name g) (set_position p (exported_column g c))) (set_position p (exported_column g c)) = c.
Hypothesis Hs : sound g.
Hypothesis He : exportable g.
Hypothesis Hn : pg_natural g = true.
Hypothesis Hu : pg_unnamed g = true.

Lemma owned_none : g_owned g = [].
Proof. unfold pg_unnamed in Hu. apply andb_true_iff in Hu as [H _]. apply andb_true_iff in H as [H _]. now destruct (g_owned g). Qed.
Lemma exported_key c : c_key (exported_column g c) = KeyNone.
Proof. unfold exported_column. cbn [c_key]. rewrite owned_none. replace (existsb _ (g_indexes g)) with false; [reflexivity|]. induction (g_indexes g); auto. Qed.
Lemma bare_key c : In c (t_columns (bare_table g)) -> c_key c = KeyNone /\ c_references c = "".
Proof.
  cbn [bare_table t_columns]. apply (number_each (fun c => c_key c = KeyNone /\ c_references c = "")). intros p y _. split; [exact (exported_key y)|reflexivity].
Qed.
Lemma bare_names : map c_name (t_columns (bare_table g)) = map c_name (g_columns g).
Proof. cbn [bare_table t_columns]. rewrite ProofConverge.number_names, map_map. reflexivity. Qed.
Lemma bare_pk : pk_declarations (bare_table g) = match g_pk g with Some k => [k] | None => [] end.
Proof.
  unfold pk_declarations. rewrite (filter_none (fun c => is_key_primary (c_key c))) by (intros c C; now rewrite (proj1 (bare_key c C))).
  cbn [bare_table t_indexes t_name map app exported_pk]. unfold exported_pk. destruct (g_pk g) as [[k l]|] eqn:E; [|reflexivity]. cbn [map i_name]. change (String.eqb "PRIMARY" "PRIMARY") with true. cbv beta iota.
  rewrite (ex_pk _ He k l E). unfold key_columns. cbn [i_columns]. rewrite map_map. cbn [ic_column]. rewrite map_id. reflexivity.
Qed.
Lemma bare_checks : map (created_check (g_name g)) (filter (fun c => match c_check c with Some _ => true | None => false end) (t_columns (bare_table g))) =
  flat_map (fun c => match c_check c with Some k => [ck_constraint k] | None => [] end) (g_columns g).
Proof.
  assert (A : forall c, In c (g_columns g) -> match c_check c with Some k => String.eqb (ck_constraint k) (auto_check (g_name g) (c_name c)) | None => true end = true).
  { unfold pg_unnamed in Hu. apply andb_true_iff in Hu as [H _]. apply andb_true_iff in H as [_ H]. now apply forallb_forall. }
  clear Hcol. cbn [bare_table t_columns]. generalize 0%Z. revert A. generalize (g_columns g). induction l as [|c l IH]; intros A z; [reflexivity|].
  cbn [map number filter set_position c_check exported_column flat_map]. destruct (c_check c) as [k|] eqn:E; cbn [option_map map app].
  - f_equal; [|apply IH; intros x X; apply A; now right]. pose proof (A c (or_introl eq_refl)) as B. rewrite E in B. apply String.eqb_eq in B. rewrite B. unfold created_check. cbn [c_check set_position exported_column]. rewrite E. reflexivity.
  - apply IH. intros x X. apply A. now right.
Qed.

Definition made_table : pg_tab := mkPg (g_name g) (g_columns g) (g_pk g) [] [] [] [].
Lemma made : pg_create (bare_table g) = Some made_table.
Proof.
  unfold pg_create. cbv zeta. rewrite bare_pk. change (t_name (bare_table g)) with (g_name g).
  rewrite (filter_none (fun c => is_unique (c_key c))) by (intros c C; now rewrite (proj1 (bare_key c C))).
  rewrite (filter_none (fun c => negb (String.eqb (c_references c) ""))) by (intros c C; now rewrite (proj2 (bare_key c C))).
  rewrite bare_checks, bare_names. cbn [map app bare_table t_fks t_policies forallb]. fold (bare_table g).
  assert (V : forallb valid_definition (t_columns (bare_table g)) = true).
  { apply forallb_forall. cbn [bare_table t_columns]. apply number_each. intros p c C. exact (proj1 (Hcol p c C)). }
  assert (D : distinct (map c_name (g_columns g)) = true) by (apply ProofPg.distinct_spec; exact (so_names _ Hs)).
  assert (Dc : distinct (flat_map (fun c => match c_check c with Some k => [ck_constraint k] | None => [] end) (g_columns g)) = true) by (unfold pg_unnamed in Hu; now apply andb_true_iff in Hu as [_ H]).
  cbn [bare_table t_columns t_indexes] in V |- *. rewrite V, D, Dc.
  assert (P : forallb i_primary (exported_pk g) = true) by (unfold exported_pk; now destruct (g_pk g) as [[k l]|]).
  cbn [t_indexes bare_table]. rewrite P. cbn [andb].
  assert (R : map (require match match match g_pk g with Some k => [k] | None => [] end with [] => None | k :: _ => Some k end with Some (_, l) => l | None => [] end)
    (map (fun c => pg_recorded (created_check (g_name g) c) c) (number 0 (map (exported_column g) (g_columns g)))) = g_columns g).
  { rewrite again_list by (intros p c C; exact (proj2 (Hcol p c C))). clear - Hs. pose proof (so_pk _ Hs) as Q. destruct (g_pk g) as [[k l]|].
    - transitivity (map (fun c : column => c) (g_columns g)); [|apply map_id]. apply map_ext_in. intros c C. unfold require. destruct (mem (c_name c) l) eqn:M; [|reflexivity].
      apply mem_cases in M. destruct (Q k l _ eq_refl M) as (c' & C' & E & N). assert (c' = c) as ->.
      { pose proof (so_names _ Hs) as Nd. clear - C C' E Nd. revert Nd C C'. generalize (g_columns g). induction l as [|x l IH]; [easy|]. cbn [map]. intros N A B. inversion N as [|? ? N1 N2]; subst.
        destruct A as [->|A], B as [->|B]; auto; exfalso; apply N1; [rewrite <- E|rewrite E]; now apply in_map. }
      destruct c. cbn in N. subst. reflexivity.
    - transitivity (map (fun c : column => c) (g_columns g)); [|apply map_id]. apply map_ext_in. reflexivity. }
  rewrite R. unfold made_table.
  unfold pg_natural in Hn. apply andb_true_iff in Hn as [H1 _]. apply andb_true_iff in H1 as [_ H1].
  pose proof (so_pk_columns _ Hs) as Z. clear - H1 Z. destruct (g_pk g) as [[k l]|]; [|reflexivity]. apply andb_true_iff in H1 as [H1 H2]. cbn [length Nat.leb forallb snd fst map app distinct mem existsb negb andb].
  destruct l as [|x l]; [destruct (Z k eq_refl)|]. rewrite H1. unfold all_in. rewrite H2. reflexivity.
Qed.
End Again.

(** ** The statements of one table *)
Section Run.
Variables (castable : column -> column -> bool) (replaceable : view -> string -> bool).
Notation exec := (execute_all g_name pg_create (pg_alter castable) replaceable).

Lemma exec_app a b c : exec (a ++ b) c = match exec a c with Some c' => exec b c' | None => None end.
Proof. revert c. induction a as [|s a IH]; intros c; [reflexivity|]. cbn [app execute_all]. destruct (execute _ _ _ _ (s_eff s) c); auto. Qed.

Lemma named_end T (g : pg_tab) : ~ In (g_name g) (map g_name T) -> named g_name (g_name g) (T ++ [g]) = Some g.
Proof.
  intros N. unfold named. induction T as [|x T IH]; cbn [app find]; [now rewrite String.eqb_refl|]. destruct (String.eqb_spec (g_name x) (g_name g)) as [E|]; [exfalso; apply N; left; exact E|].
  apply IH. intros X. apply N. now right.
Qed.
Lemma replace_end T (g h : pg_tab) : ~ In (g_name g) (map g_name T) -> replace_named g_name (g_name g) h (T ++ [g]) = T ++ [h].
Proof.
  intros N. unfold replace_named. induction T as [|x T IH]; cbn [app map]; [now rewrite String.eqb_refl|]. destruct (String.eqb_spec (g_name x) (g_name g)) as [E|]; [exfalso; apply N; left; exact E|].
  f_equal. apply IH. intros X. apply N. now right.
Qed.

Lemma indexes_run T V R l : forall g rest, map without_text l = map (CreateIndex "" (g_name g)) rest -> ~ In (g_name g) (map g_name T) ->
  NoDup (map i_name (g_indexes g ++ rest)) -> (forall i, In i rest -> ends_with "_pkey" (i_name i) = false) -> (forall k m, g_pk g = Some (k, m) -> k = pkey_name (g_name g)) ->
  (forall i, In i rest -> i_primary i = false) ->
  forallb (fun i => negb (Nat.eqb (length (i_columns i)) 0) && forallb (fun x => mem x (map c_name (g_columns g))) (map ic_column (i_columns i) ++ i_included i)) rest = true ->
  exec (flat_map (fresh Postgres) l) (mkDatabase (T ++ [g]) V R) = Some (mkDatabase (T ++ [with_idx (g_indexes g ++ rest) (g_owned g) g]) V R).
Proof.
  induction l as [|d l IH]; intros g rest E N U K P Q C; destruct rest as [|i rest]; try discriminate.
  - cbn [flat_map execute_all]. rewrite app_nil_r. now destruct g.
  - cbn [map] in E. injection E as E0 E. destruct d as [|s n j| | | | | |]; try discriminate. injection E0 as -> ->.
    cbn [flat_map fresh app execute_all verbatim s_eff]. unfold execute. cbn [eff_table ddl_table table_run db_tables db_views db_triggers]. unfold table_run. rewrite (named_end _ _ N). cbn [pg_alter].
    cbn [forallb] in C. apply andb_true_iff in C as [C1 C2]. apply andb_true_iff in C1 as [C0 C1].
    assert (M : mem (i_name i) (index_names_in g) = false).
    { apply mem_false. intros X. rewrite map_app in U. cbn [map] in U. apply NoDup_remove_2 in U. apply U. apply in_or_app. now left. }
    assert (Pk : match g_pk g with Some (k, _) => String.eqb k (i_name i) | None => false end = false).
    { destruct (g_pk g) as [[k m]|] eqn:Eg; [|reflexivity]. apply String.eqb_neq. intros X. rewrite (P k m eq_refl) in X. specialize (K i (or_introl eq_refl)).
      enough (ends_with "_pkey" (i_name i) = true) by congruence. apply ends_with_spec. exists (bare (g_name g)). now rewrite <- X. }
    rewrite M, Pk, (Q i (or_introl eq_refl)). apply negb_true_iff in C0. rewrite C0. unfold all_in, index_columns, key_columns, column_names_of. rewrite C1. cbn [orb negb].
    rewrite (replace_end _ _ _ N). pose proof (IH (with_idx (g_indexes g ++ [i]) (g_owned g) g) rest) as G. cbn [with_idx g_name g_columns g_pk g_indexes g_owned] in G. rewrite <- app_assoc in G. cbn [app] in G.
    apply G; auto.
    + intros j J. apply K. now right.
    + intros j J. apply Q. now right.
Qed.

Lemma fks_run l n (r : list foreign_key) c : map without_text l = map (AddForeignKey "" n) r -> exec (flat_map (fresh Postgres) l) c = Some c.
Proof.
  revert r. induction l as [|d l IH]; intros r E; [reflexivity|]. destruct r as [|f r]; [discriminate|]. cbn [map] in E. injection E as E0 E. destruct d; try discriminate.
  cbn [flat_map fresh app]. exact (IH r E).
Qed.

Lemma policies_run T V R l : forall g rest, map without_text l = map (AddPolicy "" (g_name g)) rest -> ~ In (g_name g) (map g_name T) ->
  NoDup (map p_name (g_policies g ++ rest)) ->
  exec (flat_map (fresh Postgres) l) (mkDatabase (T ++ [g]) V R) = Some (mkDatabase (T ++ [with_policies (g_policies g ++ rest) g]) V R).
Proof.
  induction l as [|d l IH]; intros g rest E N U; destruct rest as [|i rest]; try discriminate.
  - cbn [flat_map execute_all]. rewrite app_nil_r. now destruct g.
  - cbn [map] in E. injection E as E0 E. destruct d as [| | | | |s n j| |]; try discriminate. injection E0 as -> ->.
    cbn [flat_map fresh app execute_all verbatim s_eff]. unfold execute. cbn [eff_table ddl_table table_run db_tables db_views db_triggers]. unfold table_run. rewrite (named_end _ _ N). cbn [pg_alter].
    assert (M : mem (p_name i) (map p_name (g_policies g)) = false).
    { apply mem_false. intros X. rewrite map_app in U. cbn [map] in U. apply NoDup_remove_2 in U. apply U. apply in_or_app. now left. }
    rewrite M. rewrite (replace_end _ _ _ N). pose proof (IH (with_policies (g_policies g ++ [i]) g) rest) as G. cbn [with_policies g_name g_policies] in G. rewrite <- app_assoc in G. cbn [app] in G. now apply G.
Qed.

Lemma table_run_again T V R l g :
  (forall p c, In c (g_columns g) ->
    valid_definition (set_position p (exported_column g c)) = true /\
    pg_recorded (created_check (g_name g) (set_position p (exported_column g c))) (set_position p (exported_column g c)) = c) ->
  sound g -> exportable g -> pg_natural g = true -> pg_unnamed g = true -> ~ In (g_name g) (map g_name T) ->
  map without_text l = exported_statements g ->
  exec (flat_map (fresh Postgres) l) (mkDatabase T V R) = Some (mkDatabase (T ++ [unlinked g]) V R).
Proof.
  intros Hc Hs He Hn Hu N E. unfold exported_statements in E. rewrite (exported_indexes_eq g He) in E. destruct l as [|d l]; [discriminate|]. cbn [map] in E. injection E as E0 E.
  destruct d as [s t| | | | | | |]; try discriminate. injection E0 as ->. destruct (untold_split _ _ _ _ E) as (A & B & C & -> & EA & EB & EC).
  cbn [flat_map fresh app execute_all verbatim s_eff]. unfold execute. cbn [eff_table ddl_table db_tables db_views db_triggers t_name]. unfold table_run.
  apply mem_false in N as M. rewrite M. change (mkTable (g_name g) _ _ _ _) with (bare_table g). rewrite (made g Hc Hs He Hn Hu).
  rewrite !flat_map_app, !exec_app. pose proof (indexes_run T V R A (made_table g) (g_indexes g)) as I. cbn [made_table g_name g_indexes g_pk g_columns app g_owned] in I.
  rewrite I; clear I.
  2:{ exact EA. } 2:{ exact N. } 2:{ exact (so_indexes _ Hs). } 2:{ intros i X. exact (proj1 (ex_index _ He i X)). } 2:{ exact (ex_pk _ He). } 2:{ exact (so_index _ Hs). }
  2:{ unfold pg_natural in Hn. now apply andb_true_iff in Hn as [_ Hn]. }
  cbv beta iota. rewrite exec_app, (fks_run B _ _ _ EB). cbv beta iota.
  pose proof (policies_run T V R C (with_idx (g_indexes g) [] (made_table g)) (g_policies g)) as P. unfold with_idx, made_table in *. cbn [g_name g_columns g_pk g_fks g_policies app] in *.
  rewrite P.
  - unfold unlinked, with_policies. cbn [g_name g_columns g_pk g_indexes g_owned g_fks]. now rewrite (owned_none g Hu).
  - destruct (g_policies g) as [|p r] eqn:Ep; [exact EC|]. rewrite (ex_policies _ He) in EC; [exact EC|]. rewrite Ep. discriminate.
  - exact N.
  - exact (so_policies _ Hs).
Qed.

Lemma views_run_again T R l : forall V W, map without_text l = map DView W -> NoDup (map vw_name V ++ map vw_name W) ->
  exists Y, exec (flat_map (fresh Postgres) l) (mkDatabase T V R) = Some (mkDatabase T (V ++ Y) R) /\ Forall2 same_view Y W.
Proof.
  induction l as [|d l IH]; intros V W E N; destruct W as [|w W]; try discriminate.
  - exists []. cbn. rewrite app_nil_r. split; [reflexivity|constructor].
  - cbn [map] in E. injection E as E0 E. destruct d as [| | | | | |v|]; try discriminate. injection E0 as E0.
    assert (En : vw_name v = vw_name w) by (now rewrite <- E0). assert (Ed : vw_definition v = vw_definition w) by (now rewrite <- E0).
    cbn [flat_map fresh app execute_all verbatim s_eff]. unfold execute. cbn [eff_table ddl_table view_ops db_tables db_views db_triggers view_run].
    assert (M : mem (vw_name v) (map vw_name V) = false).
    { apply mem_false. rewrite En. intros X. cbn [map] in N. apply NoDup_remove_2 in N. apply N. apply in_or_app. now left. }
    unfold view_run. rewrite M. destruct (IH (V ++ [v]) W E) as (Y & F & S).
    + rewrite map_app, <- app_assoc. cbn [map app]. rewrite En. exact N.
    + exists (v :: Y). rewrite <- app_assoc in F. cbn [app] in F. split; [exact F|]. constructor; [now split|exact S].
Qed.
End Run.

(** ** The database *)
Section Copy.
Variable quoted : string -> bool.
Variables (castable : column -> column -> bool) (replaceable : view -> string -> bool).
Variable d : shown_database.
Hypothesis Hr : database_readable quoted d = true.
Hypothesis Ho : database_ok (ideal d).
Hypothesis Hn : forallb pg_natural (db_tables (ideal d)) = true.
Hypothesis Hu : forallb pg_unnamed (db_tables (ideal d)) = true.
Notation exec := (execute_all g_name pg_create (pg_alter castable) replaceable).

Lemma ideal_again t p c : In t (sd_tables d) -> In c (g_columns (ideal_table t)) ->
  valid_definition (set_position p (exported_column (ideal_table t) c)) = true /\
  pg_recorded (created_check (g_name (ideal_table t)) (set_position p (exported_column (ideal_table t) c))) (set_position p (exported_column (ideal_table t) c)) = c.
Proof.
  intros I C. assert (G : In (ideal_table t) (db_tables (ideal d))) by (cbn [ideal db_tables]; now apply in_map).
  pose proof (proj1 (forallb_forall _ _) Hn _ G) as Ng. pose proof (proj1 (forallb_forall _ _) Hu _ G) as Ug. pose proof (so_column _ (do_sound _ Ho _ G) c C) as S.
  pose proof (proj1 (forallb_forall _ _) (proj1 (database_parts quoted d Hr)) t I) as K. unfold table_ok in K. repeat (apply andb_true_iff in K as [K ?]).
  assert (Kc : forallb column_ok (st_columns t) = true) by assumption.
  unfold pg_unnamed in Ug. apply andb_true_iff in Ug as [Ug _]. apply andb_true_iff in Ug as [Ug1 Ug2]. unfold pg_natural in Ng. apply andb_true_iff in Ng as [Ng _]. apply andb_true_iff in Ng as [Ng _].
  pose proof (proj1 (forallb_forall _ _) Ng c C) as Nc. pose proof (proj1 (forallb_forall _ _) Ug2 c C) as Uc. cbv beta in Nc, Uc.
  assert (W : g_owned (ideal_table t) = []) by (now destruct (g_owned (ideal_table t))).
  assert (Eg : g_name (ideal_table t) = (st_schema t ++ "." ++ SpecShown.st_name t)%string) by reflexivity.
  set (g := ideal_table t) in *. assert (Gc : g_columns g = map ideal_column (st_columns t)) by reflexivity. clearbody g. rewrite Gc in C.
  apply in_map_iff in C as (x & <- & X). pose proof (proj1 (forallb_forall _ _) Kc x X) as Kx.
  apply column_again; auto.
  - intros i Ei. rewrite Ei in Nc. split; [|exact Nc]. clear - Kx Ei. unfold column_ok in Kx. repeat (apply andb_true_iff in Kx as [Kx ?]).
    assert (A : match sc_always x with Some _ => sc_required x | None => true end = true) by assumption. clear - A Ei. unfold ideal_column in *.
    destruct (sc_type x); cbn [c_identity c_notnull] in *; destruct (sc_always x); try discriminate; now rewrite A.
  - intros k Ek. rewrite Ek in Uc. apply String.eqb_eq in Uc. rewrite Uc. unfold created_check. cbn [set_position exported_column c_check]. rewrite Ek. reflexivity.
Qed.

Lemma tables_run_again L : forall l T V R, incl L (sd_tables d) -> NoDup (map g_name T ++ map g_name (map ideal_table L)) ->
  map without_text l = flat_map exported_statements (map ideal_table L) ->
  exec (flat_map (fresh Postgres) l) (mkDatabase T V R) = Some (mkDatabase (T ++ map unlinked (map ideal_table L)) V R).
Proof.
  induction L as [|t L IH]; intros l T V R I N E.
  - cbn [map flat_map] in E. apply map_eq_nil in E as ->. cbn. now rewrite app_nil_r.
  - cbn [map flat_map] in E. apply map_eq_app in E as (a & b & -> & Ea & Eb). rewrite flat_map_app, exec_app.
    assert (It : In t (sd_tables d)) by (apply I; now left). assert (G : In (ideal_table t) (db_tables (ideal d))) by (cbn [ideal db_tables]; now apply in_map).
    rewrite (table_run_again castable replaceable T V R a (ideal_table t)).
    + cbv beta iota. rewrite IH.
      * cbn [map]. now rewrite <- app_assoc.
      * intros x X. apply I. now right.
      * rewrite map_app, <- app_assoc. exact N.
      * exact Eb.
    + intros p c C. now apply ideal_again.
    + exact (do_sound _ Ho _ G).
    + exact (do_exportable _ Ho _ G).
    + exact (proj1 (forallb_forall _ _) Hn _ G).
    + exact (proj1 (forallb_forall _ _) Hu _ G).
    + cbn [map] in N. apply NoDup_remove_2 in N. intros X. apply N. apply in_or_app. now left.
    + exact Ea.
Qed.

Theorem pg_copied l : map without_text l = pg_dump (ideal d) ->
  exists out c, plan Postgres l [] = Ok out /\ exec out pg_nothing = Some c /\ unlinked_copy_of c (ideal d).
Proof.
  intros E. assert (W : well_formed l = true) by (rewrite <- well_formed_untold, E; apply dump_well_formed; [exact Ho|intros g G; now apply (ideal_fks d)]).
  assert (N : NoDup (created l)) by (unfold created; rewrite <- tables_untold, E; change (NoDup (created (pg_dump (ideal d)))); rewrite pg_dump_created; exact (do_tables _ Ho)).
  exists (flat_map (fresh Postgres) l). unfold pg_dump in E. apply map_eq_app in E as (a & b & -> & Ea & Eb).
  destruct (views_run_again castable replaceable (map unlinked (map ideal_table (sd_tables d))) [] b [] (db_views (ideal d)) Eb (do_views _ Ho)) as (Y & F & S).
  eexists. split; [now apply plan_fresh|]. split.
  - rewrite flat_map_app, exec_app. unfold pg_nothing. rewrite (tables_run_again (sd_tables d)); [exact F|apply incl_refl| |exact Ea]. exact (do_tables _ Ho).
  - split; [reflexivity|]. split; [exact S|reflexivity].
Qed.

Theorem pg_copy_run step w file : answers w file (dump_database (SpecShown.catalogue quoted d)) "" -> serves step w pg_nothing ->
  (forall l out, parse_file Postgres (dump_database (SpecShown.catalogue quoted d)) = Ok l -> plan Postgres l [] = Ok out -> does step (fun st => execute g_name pg_create (pg_alter castable) replaceable (s_eff st)) out) ->
  exists c, applied step (command w Postgres file) pg_nothing c /\ unlinked_copy_of c (ideal d).
Proof.
  intros A V U. destruct (export_read quoted d Hr) as (l & P & E). destruct (pg_copied l E) as (out & c & F & R & Q).
  apply (run_reaches step w pg_nothing Postgres file _ "" (map s_text out) (fun c => unlinked_copy_of c (ideal d)) A V).
  - unfold plan_text, generate_idempotent_ddls. change (dump_database (SpecShown.catalogue quoted d)) with (export_text quoted d). rewrite P. cbn [bind]. change (parse_file Postgres "") with (Ok (@nil ddl)). cbn [bind]. now rewrite F.
  - exists c. split; [|exact Q]. now rewrite (steps_db _ _ _ _ step out (U l out P F)).
Qed.
Theorem pg_copy_typed step connect mc words conn file db :
  line_names Postgres mc words conn file -> found_at connect conn db ->
  answers (on_machine mc db) file (dump_database (SpecShown.catalogue quoted d)) "" -> serves step (on_machine mc db) pg_nothing ->
  (forall l out, parse_file Postgres (dump_database (SpecShown.catalogue quoted d)) = Ok l -> plan Postgres l [] = Ok out -> does step (fun st => execute g_name pg_create (pg_alter castable) replaceable (s_eff st)) out) ->
  opens (typed connect Postgres mc words) conn /\
  exists c, applied step (doings (typed connect Postgres mc words)) pg_nothing c /\ unlinked_copy_of c (ideal d).
Proof. intros Hl Hf A Z U. destruct (line_runs _ _ _ _ _ _ _ Hl Hf) as [H1 H2]. split; [exact H1|]. rewrite H2. exact (pg_copy_run step _ file A Z U). Qed.
End Copy.

Lemma unlinked_whole c d : unlinked_copy_of c d -> (forall g, In g (db_tables d) -> g_fks g = []) -> pg_copy_of c d.
Proof.
  intros (A & B & C) H. split; [|now split]. rewrite A. transitivity (map (fun g : pg_tab => g) (db_tables d)); [|apply map_id]. apply map_ext_in. intros g G. pose proof (H g G) as E.
  destruct g. cbn in E. subst. reflexivity.
Qed.

Theorem pg_copy_whole quoted castable replaceable step connect mc words conn file db d :
  line_names Postgres mc words conn file -> found_at connect conn db ->
  database_readable quoted d = true -> database_ok (ideal d) ->
  forallb pg_natural (db_tables (ideal d)) = true -> forallb pg_unnamed (db_tables (ideal d)) = true ->
  answers (on_machine mc db) file (dump_database (SpecShown.catalogue quoted d)) "" -> serves step (on_machine mc db) pg_nothing ->
  (forall l out, parse_file Postgres (dump_database (SpecShown.catalogue quoted d)) = Ok l -> plan Postgres l [] = Ok out ->
     does step (fun st => execute g_name pg_create (pg_alter castable) replaceable (s_eff st)) out) ->
  opens (typed connect Postgres mc words) conn /\
  exists c, applied step (doings (typed connect Postgres mc words)) pg_nothing c /\ unlinked_copy_of c (ideal d) /\
    ((forall g, In g (db_tables (ideal d)) -> g_fks g = []) -> pg_copy_of c (ideal d)).
Proof.
  intros Hl Hf R O N U A Z D. destruct (pg_copy_typed quoted castable replaceable d R O N U step connect mc words conn file db Hl Hf A Z D) as (H & c & C1 & C2).
  split; [exact H|]. exists c. split; [exact C1|]. split; [exact C2|]. exact (unlinked_whole c (ideal d) C2).
Qed.
