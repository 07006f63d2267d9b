(** Proofs about the catalogue queries for PostgreSQL. *)
From Coq Require Import String Ascii List ZArith Bool Lia.
From Verif Require Import GoStr GoStrFacts SchemaText SchemaParse Catalog AdapterPostgres SpecExport.
Import ListNotations.
Local Open Scope string_scope.

Lemma split_full t : has_char "." (pt_schema t) = false -> split_table_name "public" (full_name t) = (pt_schema t, pt_name t).
Proof. intros H. unfold split_table_name, full_name. change ("." ++ pt_name t) with (String "." (pt_name t)). now rewrite split_first_spec. Qed.

Lemma filter_none {A} (f : A -> bool) l : (forall x, In x l -> f x = false) -> filter f l = [].
Proof. induction l as [|x l IH]; intros H; [reflexivity|]. cbn. rewrite (H x) by now left. apply IH. intros y I. apply H. now right. Qed.

Lemma filter_middle {A} (f : A -> bool) a x b : f x = true -> (forall y, In y (a ++ b) -> f y = false) -> filter f (a ++ x :: b) = [x].
Proof.
  intros F N. rewrite filter_app. cbn. rewrite F, !filter_none; auto; intros y I; apply N, in_or_app; auto.
Qed.

Lemma filter_table db t : the_table db t -> filter (is_table (pt_schema t) (pt_name t)) (pd_tables db) = [t].
Proof.
  intros (_ & a & b & -> & N). apply filter_middle.
  - unfold is_table. now rewrite !String.eqb_refl.
  - intros y I. unfold is_table. apply andb_false_iff. destruct (String.eqb_spec (pt_schema y) (pt_schema t)); [|now left].
    right. apply String.eqb_neq. intros E. exact (N y I (conj e E)).
Qed.

(** ** Columns *)
Lemma filter_column (l : list pg_column) f : NoDup (map pc_name l) -> In f l ->
  filter (fun s => String.eqb (pc_name s) (pc_name f)) l = [f].
Proof.
  induction l as [|x l IH]; intros N I; [easy|]. cbn [map] in N. inversion N as [|? ? N1 N2]; subst. cbn [filter].
  destruct I as [->|I].
  - rewrite String.eqb_refl, filter_none; [reflexivity|]. intros y J. apply String.eqb_neq. intros E.
    apply N1. rewrite <- E. now apply in_map.
  - destruct (String.eqb_spec (pc_name x) (pc_name f)) as [E|E]; [|now apply IH].
    exfalso. apply N1. rewrite E. now apply in_map.
Qed.

Lemma string_in_spec x l : string_in x l = true <-> In x l.
Proof.
  unfold string_in. rewrite existsb_exists. split.
  - intros (y & I & E). apply String.eqb_eq in E. now subst.
  - intros I. exists x. split; [exact I|apply String.eqb_refl].
Qed.
Lemma kind_eqb_spec a b : kind_eqb a b = true <-> a = b.
Proof. destruct a, b; cbn; intuition discriminate. Qed.

Lemma constraints_on_spec k c t x : In x (constraints_on k c t) <-> constraint_of t k c x.
Proof.
  unfold constraints_on, constraint_of. rewrite filter_In, andb_true_iff, kind_eqb_spec, string_in_spec. tauto.
Qed.

Lemma at_most_one {A} (l : list A) : NoDup l -> (forall x y, In x l -> In y l -> x = y) -> l = [] \/ exists x, l = [x].
Proof.
  intros N H. destruct l as [|x [|y l]]; [now left|right; now exists x|].
  exfalso. inversion N as [|? ? N1 _]; subst. apply N1. left. symmetry. apply H; cbn; auto.
Qed.

Lemma constraints_one t k c : single_constraints t -> k = ConUnique \/ k = ConCheck ->
  constraints_on k c t = [] \/ exists x, constraints_on k c t = [x].
Proof.
  intros [N S] K. apply at_most_one.
  - now apply NoDup_filter.
  - intros x y X Y. rewrite constraints_on_spec in *. exact (S k c x y K X Y).
Qed.

Lemma trim_left_set_id cut s : (forall c, first_char s = Some c -> has_ascii c cut = false) -> trim_left_set cut s = s.
Proof. destruct s as [|c s]; [reflexivity|]. cbn. intros H. now rewrite (H c). Qed.
Lemma trim_right_set_id cut s : (forall c, last_char s = Some c -> has_ascii c cut = false) -> trim_right_set cut s = s.
Proof.
  induction s as [|a s IH]; [reflexivity|]. intros H. cbn [trim_right_set].
  destruct s as [|b s]; [cbn; now rewrite (H a)|]. rewrite IH; [reflexivity|]. intros c L. apply H. exact L.
Qed.

Lemma no_edge_trim s : no_edge s -> trim_set (dq ++ " ") s = s.
Proof.
  intros H. assert (G : forall c, c <> " "%char /\ c <> """"%char -> has_ascii c (dq ++ " ") = false).
  { intros c [A B]. cbn. apply Ascii.eqb_neq in A, B. rewrite Ascii.eqb_sym in A, B. cbn in A, B. now rewrite A, B. }
  unfold trim_set. rewrite trim_right_set_id.
  - apply trim_left_set_id. intros c F. apply G, H. now left.
  - intros c L. apply G, H. now right.
Qed.

Lemma type_shown_spec ty f :
  type_shown ty f = if in_dec string_dec ty ["ARRAY"; "USER-DEFINED"] then f else ty.
Proof.
  unfold type_shown, string_in. destruct (in_dec _ _ _) as [I|I].
  - replace (existsb _ _) with true; [reflexivity|]. symmetry. apply existsb_exists. exists ty. split; [exact I|apply String.eqb_refl].
  - replace (existsb _ _) with false; [reflexivity|]. symmetry. apply not_true_iff_false. intros H. apply existsb_exists in H.
    destruct H as (x & J & E). apply String.eqb_eq in E. now subst.
Qed.

Lemma columns_exact db t : the_table db t -> only_name db t -> NoDup (map pc_name (pt_columns t)) -> single_constraints t ->
  (forall c, In c (pt_columns t) -> no_edge (pc_name c)) ->
  Forall2 (tells t) (pt_columns t) (get_columns db (full_name t)).
Proof.
  intros T (a & b & E & O) N S NE. unfold get_columns. rewrite split_full by apply T.
  unfold column_rows. rewrite (filter_table db t T). cbn [flat_map]. rewrite app_nil_r.
  assert (INF : forall f, In f (pt_columns t) -> information_columns db (pt_name t) (pc_name f) = [f]).
  { intros f I. unfold information_columns. rewrite E, filter_middle.
    - cbn [flat_map]. rewrite app_nil_r. now apply filter_column.
    - apply String.eqb_refl.
    - intros y J. apply String.eqb_neq. exact (O y J). }
  assert (G : forall l, (forall f, In f l -> In f (pt_columns t)) ->
     Forall2 (tells t) l (map dump_column_of (flat_map (fun f =>
        flat_map (fun p => flat_map (fun pc => map (fun s => mkColumnRow s (pc_format f) (is_set p) (option_map con_def pc))
              (information_columns db (pt_name t) (pc_name f)))
          (left_join (constraints_on ConCheck (pc_name f) t)))
        (left_join (constraints_on ConUnique (pc_name f) t))) l))).
  { induction l as [|f l IH]; intros I; cbn [flat_map]; [constructor|].
    rewrite (INF f) by (apply I; now left). specialize (IH (fun x J => I x (or_intror J))).
    assert (IF : In f (pt_columns t)) by (apply I; now left).
    pose proof (constraints_on_spec ConUnique (pc_name f) t) as SU.
    pose proof (constraints_on_spec ConCheck (pc_name f) t) as SC.
    destruct (constraints_one t ConUnique (pc_name f) S (or_introl eq_refl)) as [U|[u U]];
      destruct (constraints_one t ConCheck (pc_name f) S (or_intror eq_refl)) as [K|[k K]];
      rewrite U in *; rewrite K in *; cbn [left_join map flat_map app]; constructor; auto;
      (constructor; cbn [dump_column_of dc_name dc_type dc_length dc_nullable dc_default dc_autoinc dc_unique dc_check dc_identity
                         cr_column cr_format cr_unique cr_check is_set option_map or_empty];
       [ now apply no_edge_trim, NE | apply type_shown_spec | reflexivity | reflexivity | reflexivity | | | | reflexivity ]).
    all: try (destruct (pc_default f) as [x|]; [|split; [discriminate|now intros (? & ?)]];
              rewrite has_prefix_spec; split; intros (r & R); exists r; congruence).
    all: try (split; [discriminate|]; intros (x & X); apply SU in X; destruct X).
    all: try (split; [intros _; exists u; apply SU; now left|reflexivity]).
    all: split.
    all: try (intros x X; apply SC in X; destruct X as [<-|[]]; reflexivity).
    all: try (intros x X; apply SC in X; destruct X).
    all: try (intros _; reflexivity).
    all: intros X; exfalso; apply (X k), SC; now left. }
  apply G. auto.
Qed.

(** ** Primary keys *)
Lemma filter_named {A} (name : A -> string) (f : A -> bool) l c : NoDup (map name l) -> In c l -> f c = true ->
  filter (fun x => f x && String.eqb (name x) (name c)) l = [c].
Proof.
  induction l as [|x l IH]; intros N I F; [easy|]. cbn [map] in N. inversion N as [|? ? N1 N2]; subst. cbn [filter].
  destruct I as [->|I].
  - rewrite F, String.eqb_refl. cbn [andb]. rewrite filter_none; [reflexivity|]. intros y J. apply andb_false_iff. right.
    apply String.eqb_neq. intros E. apply N1. rewrite <- E. now apply in_map.
  - destruct (String.eqb_spec (name x) (name c)) as [E|E].
    + exfalso. apply N1. rewrite E. now apply in_map.
    + rewrite andb_false_r. now apply IH.
Qed.

Lemma sort_numbered l : forall n, sort_by_position (numbered n l) = numbered n l.
Proof.
  induction l as [|x l IH]; intros n; [reflexivity|]. cbn [numbered sort_by_position]. rewrite IH.
  destruct l as [|y l]; [reflexivity|]. cbn [numbered insert_by_position fst].
  replace (Nat.leb n (S n)) with true by (symmetry; apply Nat.leb_le; lia). reflexivity.
Qed.
Lemma numbered_snd {A} (l : list A) : forall n, map snd (numbered n l) = l.
Proof. induction l as [|x l IH]; intros n; cbn; [reflexivity|]. now rewrite IH. Qed.

Lemma in_all db t x : the_table db t -> In x (pt_constraints t) -> In x (all_constraints db).
Proof.
  intros (_ & a & b & E & _) I. unfold all_constraints. rewrite E. apply in_flat_map. exists t. split; [|exact I].
  apply in_or_app. right. now left.
Qed.

Lemma primary_exact db t a pk b : the_table db t -> distinct_constraints db ->
  pt_constraints t = (a ++ pk :: b)%list -> con_kind_of pk = ConPrimary ->
  (forall x, In x (a ++ b)%list -> con_kind_of x <> ConPrimary) ->
  get_primary_key_columns db (full_name t) = con_columns pk.
Proof.
  intros T D E K N. unfold get_primary_key_columns. rewrite split_full by apply T. rewrite (filter_table db t T).
  cbn [flat_map]. rewrite app_nil_r, E, filter_middle.
  2:{ now apply kind_eqb_spec. }
  2:{ intros y I. destruct (kind_eqb (con_kind_of y) ConPrimary) eqn:F; [|reflexivity].
      apply kind_eqb_spec in F. now destruct (N y I). }
  cbn [flat_map]. rewrite app_nil_r.
  rewrite (filter_named con_name (fun c => is_key (con_kind_of c)) (all_constraints db) pk).
  - cbn [flat_map]. rewrite app_nil_r, sort_numbered. apply numbered_snd.
  - exact D.
  - apply (in_all db t); [exact T|]. rewrite E. apply in_or_app. right. now left.
  - now rewrite K.
Qed.

Lemma no_primary db t : the_table db t -> (forall x, In x (pt_constraints t) -> con_kind_of x <> ConPrimary) ->
  get_primary_key_columns db (full_name t) = [].
Proof.
  intros T N. unfold get_primary_key_columns. rewrite split_full by apply T. rewrite (filter_table db t T).
  cbn [flat_map]. rewrite (filter_none (fun c => kind_eqb (con_kind_of c) ConPrimary)); [reflexivity|].
  intros y I. destruct (kind_eqb (con_kind_of y) ConPrimary) eqn:F; [|reflexivity]. apply kind_eqb_spec in F. now destruct (N y I).
Qed.

(** ** Foreign keys *)
Definition owned (db : pg_database) : list (pg_table * pg_constraint) :=
  flat_map (fun T => map (pair T) (pt_constraints T)) (pd_tables db).

Lemma owned_names db : map (fun p => con_name (snd p)) (owned db) = map con_name (flat_map pt_constraints (pd_tables db)).
Proof.
  unfold owned. induction (pd_tables db) as [|T l IH]; [reflexivity|]. cbn [flat_map]. rewrite !map_app, IH, map_map. reflexivity.
Qed.

Lemma filter_filter {A} (f g : A -> bool) l : filter f (filter g l) = filter (fun x => f x && g x) l.
Proof. induction l as [|x l IH]; [reflexivity|]. cbn. destruct (g x); cbn; rewrite ?andb_true_r, ?andb_false_r, IH; reflexivity. Qed.

Lemma filter_owned db t c f : the_table db t -> distinct_constraints db -> In c (pt_constraints t) -> f (t, c) = true ->
  filter (fun p => f p && String.eqb (con_name (snd p)) (con_name c)) (owned db) = [(t, c)].
Proof.
  intros (_ & a & b & E & _) D I F.
  apply (filter_named (fun p : pg_table * pg_constraint => con_name (snd p)) f (owned db) (t, c)).
  - rewrite owned_names. exact D.
  - unfold owned. rewrite E. apply in_flat_map. exists t. split; [apply in_or_app; right; now left|]. now apply in_map.
  - exact F.
Qed.

Lemma foreign_exact db t : the_table db t -> distinct_constraints db ->
  (forall c, In c (pt_constraints t) -> con_kind_of c = ConForeign ->
     exists x y, con_columns c = [x] /\ con_ref_columns c = [y]) ->
  get_foreign_defs db (full_name t) =
    map (fun c => foreign_def (pt_schema t) (pt_name t) (con_name c) (join ", " (con_columns c)) (con_ref_schema c)
                    (con_ref_table c) (join ", " (con_ref_columns c)) (con_on_update c) (con_on_delete c))
        (filter (fun c => match con_kind_of c with ConForeign => true | _ => false end) (pt_constraints t)).
Proof.
  intros T D S. unfold get_foreign_defs. rewrite split_full by apply T. cbv zeta. fold (owned db). rewrite (filter_table db t T).
  cbn [flat_map]. rewrite app_nil_r.
  replace (filter (fun c => kind_eqb (con_kind_of c) ConForeign) (pt_constraints t))
    with (filter (fun c => match con_kind_of c with ConForeign => true | _ => false end) (pt_constraints t))
    by (apply filter_ext; intros c; now destruct (con_kind_of c)).
  assert (G : forall c, In c (filter (fun c => match con_kind_of c with ConForeign => true | _ => false end) (pt_constraints t)) ->
    In c (pt_constraints t) /\ con_kind_of c = ConForeign).
  { intros c I. apply filter_In in I. destruct I as [I K]. split; [exact I|]. now destruct (con_kind_of c). }
  revert G. generalize (filter (fun c => match con_kind_of c with ConForeign => true | _ => false end) (pt_constraints t)).
  induction l as [|c l IH]; intros G; [reflexivity|]. cbn [flat_map map].
  rewrite IH by (intros x I; apply G; now right). clear IH.
  destruct (G c (or_introl eq_refl)) as [I K]. destruct (S c I K) as (x & y & X & Y).
  match goal with |- (?u ++ ?v)%list = ?w :: ?v' => assert (Q : u = [w]); [|now rewrite Q] end.
  rewrite !filter_filter. rewrite (filter_owned db t c (fun p => is_key (con_kind_of (snd p)))) by (auto; cbn; now rewrite K).
  rewrite (filter_owned db t c (fun p => kind_eqb (con_kind_of (snd p)) ConForeign)) by (auto; cbn; now rewrite K).
  replace (filter (fun p : pg_table * pg_constraint => String.eqb (con_name (snd p)) (con_name c)) (owned db)) with [(t, c)]
    by (symmetry; exact (filter_owned db t c (fun _ => true) T D I eq_refl)).
  cbn [flat_map snd fst]. rewrite X. cbn [flat_map]. unfold column_usage. rewrite K, Y. reflexivity.
Qed.
