(** The rows the catalogue queries return for a database the views tell of. *)
From Coq Require Import String Ascii List ZArith Bool Permutation Lia.
From Verif Require Import GoStr GoStrFacts Generator Catalog AdapterPostgres AdapterMssql ExportMssql QueryMssql SpecShownMssql SpecSysMssql.
Import ListNotations.
Local Open Scope string_scope.
Local Open Scope list_scope.

(** ** Lists *)
Lemma perm_forall2 {A B} (R : A -> B -> Prop) l l' : Permutation l l' -> forall m, Forall2 R l m -> exists m', Permutation m m' /\ Forall2 R l' m'.
Proof.
  intros P. induction P as [|x l l' P IH|x y l|l1 l2 l3 P1 IH1 P2 IH2]; intros m F.
  - inversion F; subst. exists []. now split.
  - inversion F as [|? b ? m0 Rx F0]; subst. destruct (IH m0 F0) as (m' & Pm & Fm). exists (b :: m'). split; [now constructor|now constructor].
  - inversion F as [|? b ? m0 Rx F0]; subst. inversion F0 as [|? c ? m1 Ry F1]; subst. exists (c :: b :: m1). split; [constructor|]. repeat (constructor; auto).
  - destruct (IH1 m F) as (m1 & Q1 & F1). destruct (IH2 m1 F1) as (m2 & Q2 & F2). exists m2. split; [eapply perm_trans; eauto|exact F2].
Qed.
Lemma perm_filter {A} (p : A -> bool) l l' : Permutation l l' -> Permutation (filter p l) (filter p l').
Proof.
  intros P. induction P; cbn [filter].
  - constructor.
  - destruct (p x); [now constructor|assumption].
  - destruct (p x), (p y); try apply Permutation_refl. constructor.
  - eapply perm_trans; eauto.
Qed.
Lemma filter_ext_in' {A} (p q : A -> bool) l : (forall x, In x l -> p x = q x) -> filter p l = filter q l.
Proof. induction l as [|a l IH]; intros H; [reflexivity|]. cbn [filter]. rewrite (H a) by now left. rewrite IH; [reflexivity|]. intros x I. apply H. now right. Qed.
Lemma filter_one {A K} (key : A -> K) (p : A -> bool) l b : NoDup (map key l) -> In b l -> p b = true -> (forall x, In x l -> p x = true -> key x = key b) -> filter p l = [b].
Proof.
  induction l as [|a l IH]; intros N I Pb U; [destruct I|]. cbn [map] in N. inversion N as [|? ? Na Nl]; subst. cbn [filter].
  destruct I as [->|I].
  - rewrite Pb. f_equal. destruct (filter p l) as [|c r] eqn:F; [reflexivity|]. exfalso.
    assert (C : In c (filter p l)) by (rewrite F; now left). apply filter_In in C as [C Pc]. apply Na. rewrite <- (U c (or_intror C) Pc). now apply in_map.
  - destruct (p a) eqn:Pa.
    + exfalso. apply Na. rewrite (U a (or_introl eq_refl) Pa). now apply in_map.
    + apply IH; auto. intros x X. apply U. now right.
Qed.
Lemma filter_none {A} (p : A -> bool) l : (forall x, In x l -> p x = false) -> filter p l = [].
Proof. intros H. induction l as [|a l IH]; [reflexivity|]. cbn [filter]. rewrite (H a) by now left. apply IH. intros x I. apply H. now right. Qed.
Lemma find_filter {A} (p : A -> bool) l : List.find p l = hd_error (filter p l).
Proof. induction l as [|a l IH]; [reflexivity|]. cbn [List.find filter]. destruct (p a); [reflexivity|exact IH]. Qed.
Lemma scan_rows {A B} (f : A -> res B) l m : Forall2 (fun a b => f a = Ok b) l m -> scan_all_rows f l = Ok m.
Proof. induction 1 as [|a b l m H F IH]; [reflexivity|]. cbn [scan_all_rows]. rewrite H. cbn [bind]. now rewrite IH. Qed.
Lemma scan_answer {A B} (f : A -> res B) rows m got : Forall2 (fun a b => f a = Ok b) rows m -> answer rows got ->
  exists m', Permutation m m' /\ scan_all_rows f got = Ok m'.
Proof. intros F P. destruct (perm_forall2 _ _ _ P m F) as (m' & Q & F'). exists m'. split; [exact Q|]. now apply scan_rows. Qed.

Section Told.
Context (s : sys) (K : sys_keys s).

Lemma object_found ob : In ob (sys_objects s) -> object_of s (so_id ob) = Some ob.
Proof.
  intros I. unfold object_of. rewrite find_filter, (filter_one so_id _ _ ob (sq_objects _ K) I); [reflexivity|apply Z.eqb_refl|]. intros x _ E. now apply Z.eqb_eq in E.
Qed.
Lemma pair_name ob x : String.eqb (so_schema x) (so_schema ob) && String.eqb (so_name x) (so_name ob) = true -> (so_schema x, so_name x) = (so_schema ob, so_name ob).
Proof. intros E. apply andb_true_iff in E as [A B]. apply String.eqb_eq in A, B. now rewrite A, B. Qed.
Lemma object_id_found ob : In ob (sys_objects s) -> object_id s (so_schema ob) (so_name ob) = Some (so_id ob).
Proof.
  intros I. unfold object_id. rewrite find_filter, (filter_one (fun o => (so_schema o, so_name o)) _ _ ob (sq_names _ K) I); [reflexivity|now rewrite !String.eqb_refl|].
  intros x _ E. now apply pair_name.
Qed.
Lemma table_id_found ob : In ob (sys_objects s) -> so_type ob = "U" -> table_id s (so_schema ob) (so_name ob) = Some (so_id ob).
Proof.
  intros I T. unfold table_id. rewrite find_filter, (filter_one (fun o => (so_schema o, so_name o)) _ _ ob (sq_names _ K) I); [reflexivity|now rewrite T, !String.eqb_refl|].
  intros x _ E. apply andb_true_iff in E as [E _]. now apply pair_name.
Qed.
Lemma col_found o id n : column_called s o id n -> col_name s o id = Some n.
Proof.
  intros (x & I & <- & <- & <-). unfold col_name. rewrite find_filter, (filter_one (fun c => (sc_object c, sc_id c)) _ _ x (sq_columns _ K) I); [reflexivity|now rewrite !Z.eqb_refl|].
  intros y _ E. apply andb_true_iff in E as [A B]. apply Z.eqb_eq in A, B. now rewrite A, B.
Qed.

(** ** Columns *)
Definition columns_of_rows (l : list sys_column) : list (sys_column * sys_type * option sys_check * option sys_identity) :=
  left_join (fun x (i : sys_identity) => Z.eqb (sc_object (fst (fst x))) (sd_object i) && Z.eqb (sd_column i) (sc_id (fst (fst x))))
    (left_join (fun x (k : sys_check) => Z.eqb (sc_object (fst x)) (sk_parent k) && Z.eqb (sk_column k) (sc_id (fst x)))
       (inner_join (fun c t => Z.eqb (sc_user_type c) (sy_id t)) l (sys_types s))
       (sys_checks s))
    (sys_identities s).
Lemma inner_app {A B} on (l l' : list A) (r : list B) : inner_join on (l ++ l') r = inner_join on l r ++ inner_join on l' r.
Proof. apply flat_map_app. Qed.
Lemma left_app {A B} on (l l' : list A) (r : list B) : left_join on (l ++ l') r = left_join on l r ++ left_join on l' r.
Proof. apply flat_map_app. Qed.
Lemma rows_cons x l : columns_of_rows (x :: l) = columns_of_rows [x] ++ columns_of_rows l.
Proof. unfold columns_of_rows. change (x :: l) with ([x] ++ l). now rewrite inner_app, !left_app. Qed.

Lemma column_row o x c : sc_object x = o -> tells_column s o x c -> exists row, columns_of_rows [x] = [row] /\ scan_column s row = Ok c.
Proof.
  intros O (N & L & U & T & D & I & C).
  assert (Ti : inner_join (fun c t => Z.eqb (sc_user_type c) (sy_id t)) [x] (sys_types s) = [(x, mkSysType (sc_user_type x) (mc_type c))]).
  { unfold inner_join. cbn [flat_map]. rewrite (filter_one sy_id _ _ _ (sq_types _ K) T); [reflexivity|apply Z.eqb_refl|]. intros y _ E. apply Z.eqb_eq in E. now symmetry. }
  assert (Ck : left_join (fun x (k : sys_check) => Z.eqb (sc_object (fst x)) (sk_parent k) && Z.eqb (sk_column k) (sc_id (fst x))) [(x, mkSysType (sc_user_type x) (mc_type c))] (sys_checks s) =
    [(x, mkSysType (sc_user_type x) (mc_type c), option_map (fun k => mkSysCheck (mk_name k) o (sc_id x) (Some (mk_definition k)) (mk_not_for_replication k)) (mc_check c))]).
  { unfold left_join. cbn [flat_map fst]. rewrite (filter_ext_in' _ (fun k => Z.eqb (sk_parent k) o && Z.eqb (sk_column k) (sc_id x))).
    2: { intros y _. now rewrite O, (Z.eqb_sym o). }
    rewrite C. destruct (mc_check c); reflexivity. }
  assert (Id : exists i, columns_of_rows [x] = [(x, mkSysType (sc_user_type x) (mc_type c), option_map (fun k => mkSysCheck (mk_name k) o (sc_id x) (Some (mk_definition k)) (mk_not_for_replication k)) (mc_check c), i)] /\
     forall m, mc_identity c = Some m -> i = Some (mkSysIdentity o (sc_id x) (Some (mi_seed m)) (Some (mi_increment m)) (Some (mi_not_for_replication m)))).
  { unfold columns_of_rows. rewrite Ti, Ck. unfold left_join. cbn [flat_map fst].
    destruct (mc_identity c) as [m|].
    - destruct I as [_ I]. rewrite (filter_one (fun i => (sd_object i, sd_column i)) _ _ _ (sq_identities _ K) I).
      + eexists. split; [reflexivity|]. intros m0 E. injection E as <-. reflexivity.
      + cbn. now rewrite O, !Z.eqb_refl.
      + intros y _ E. apply andb_true_iff in E as [A B]. apply Z.eqb_eq in A, B. cbn. now rewrite B, <- A, O.
    - match goal with |- context [filter ?p (sys_identities s)] => assert (W : exists w, filter p (sys_identities s) = w /\ (length w <= 1)%nat) end.
      { eexists. split; [reflexivity|]. match goal with |- (length (filter ?p _) <= 1)%nat => destruct (filter p (sys_identities s)) as [|a [|b w]] eqn:F end; cbn; try lia. exfalso.
        assert (Ia : In a (sys_identities s) /\ In b (sys_identities s)).
        { split; (apply (filter_In (fun i : sys_identity => Z.eqb (sc_object x) (sd_object i) && Z.eqb (sd_column i) (sc_id x))); rewrite F; cbn; auto). }
        destruct Ia as [Ia Ib].
        assert (Pa : filter (fun i : sys_identity => Z.eqb (sc_object x) (sd_object i) && Z.eqb (sd_column i) (sc_id x)) (sys_identities s) = [a]).
        { apply (filter_one (fun i => (sd_object i, sd_column i)) _ _ a (sq_identities _ K) Ia).
          - assert (X : In a (filter (fun i : sys_identity => Z.eqb (sc_object x) (sd_object i) && Z.eqb (sd_column i) (sc_id x)) (sys_identities s))) by (rewrite F; now left). now apply filter_In in X.
          - assert (X : In a (filter (fun i : sys_identity => Z.eqb (sc_object x) (sd_object i) && Z.eqb (sd_column i) (sc_id x)) (sys_identities s))) by (rewrite F; now left).
            apply filter_In in X as [_ X]. apply andb_true_iff in X as [X1 X2]. apply Z.eqb_eq in X1, X2.
            intros y _ E. apply andb_true_iff in E as [E1 E2]. apply Z.eqb_eq in E1, E2. now rewrite <- E1, E2, <- X1, X2. }
        rewrite Pa in F. discriminate. }
      destruct W as (w & -> & Lw). destruct w as [|a [|b w]]; [| |cbn in Lw; lia]; (eexists; split; [reflexivity|discriminate]). }
  destruct Id as (i & R & Hi). eexists. split; [exact R|]. unfold scan_column.
  assert (Dd : (if Z.eqb (sc_default x) 0 then Ok None
        else bind (not_nil (object_name s (sc_default x))) (fun n => bind (not_nil (object_definition s (sc_default x))) (fun v => Ok (Some (n, v))))) = Ok (mc_default c)).
  { destruct (mc_default c) as [[n v]|].
    - destruct D as (Z0 & ob & Io & Eo & En & Ed). apply Z.eqb_neq in Z0. rewrite Z0. unfold object_name, object_definition. rewrite <- Eo, (object_found _ Io). cbn [option_map not_nil bind].
      rewrite Ed, En. reflexivity.
    - now rewrite D. }
  rewrite Dd. cbn [bind].
  assert (Ii : (if sc_identity x then
          bind (not_nil i) (fun i => bind (not_nil (sd_seed i)) (fun seed => bind (not_nil (sd_increment i)) (fun inc =>
          bind (not_nil (sd_not_for_replication i)) (fun n => Ok (Some (mkMsIdentity seed inc n))))))
        else Ok None) = Ok (mc_identity c)).
  { destruct (mc_identity c) as [m|].
    - destruct I as [-> _]. rewrite (Hi m eq_refl). cbn. now destruct m.
    - now rewrite I. }
  rewrite Ii. cbn [bind].
  destruct (mc_check c) as [k|] eqn:Ec; cbn [option_map not_nil sk_definition sk_name sk_not_for_replication bind sy_name]; rewrite <- N, <- L, <- U; destruct c; cbn in *; subst; try (destruct k); reflexivity.
Qed.
Lemma column_rows o l cs : (forall x, In x l -> sc_object x = o) -> Forall2 (tells_column s o) l cs -> Forall2 (fun row c => scan_column s row = Ok c) (columns_of_rows l) cs.
Proof.
  intros O F. induction F as [|x c l cs T F IH]; [constructor|]. rewrite rows_cons.
  destruct (column_row o x c (O x (or_introl eq_refl)) T) as (row & -> & S). constructor; [exact S|]. apply IH. intros y Y. apply O. now right.
Qed.

(** ** Indexes *)
Definition emptied (r : ms_index_row) : ms_index_row :=
  mkMsIndexRow (mir_name r) (mir_primary r) (mir_unique r) (mir_type r) (mir_padded r) (mir_fill r) (mir_ignore_dup r) (mir_no_recompute r) (mir_incremental r)
    (mir_row_locks r) (mir_page_locks r) [].
Definition index_rows_of (l : list sys_index) : list (sys_index * sys_stat) :=
  inner_join (fun x t => Z.eqb (sx_object x) (ss_object t) && Z.eqb (sx_id x) (ss_id t)) l (sys_stats s).
Definition index_columns_of (l : list sys_index) : list (sys_index * sys_index_column) :=
  inner_join (fun x c => Z.eqb (sx_object x) (sxc_object c) && Z.eqb (sx_id x) (sxc_index c)) l (sys_index_columns s).
Definition heap (x : sys_index) : bool := Z.eqb (sx_id x) 0.
Lemma without_heap {B} (on : sys_index -> B -> bool) (r : list B) l : (forall x, In x l -> heap x = true -> forall b, In b r -> on x b = false) ->
  inner_join on l r = inner_join on (filter (fun x => negb (heap x)) l) r.
Proof.
  unfold inner_join. induction l as [|x l IH]; intros H; [reflexivity|]. cbn [flat_map filter]. rewrite IH by (intros y Y; apply H; now right).
  destruct (heap x) eqn:Hx; cbn [negb flat_map]; [|reflexivity]. rewrite filter_none; [reflexivity|]. now apply H; [left|].
Qed.
Lemma index_row o x r : sx_object x = o -> tells_index s o x r -> exists t, index_rows_of [x] = [(x, t)] /\ scan_index (x, t) = Ok (emptied r).
Proof.
  intros O (N & E1 & E2 & E3 & E4 & E5 & E6 & E7 & E8 & T & _). eexists. split.
  - unfold index_rows_of, inner_join. cbn [flat_map]. rewrite (filter_one (fun t => (ss_object t, ss_id t)) _ _ _ (sq_stats _ K) T).
    + reflexivity.
    + cbn. now rewrite O, !Z.eqb_refl.
    + intros y _ E. apply andb_true_iff in E as [A B]. apply Z.eqb_eq in A, B. cbn. now rewrite <- A, <- B, O.
  - unfold scan_index. rewrite N. cbn [not_null bind ss_no_recompute ss_incremental]. unfold emptied. now rewrite E1, E2, E3, E4, E5, E6, E7, E8.
Qed.
Lemma index_rows o l rs : (forall x, In x l -> sx_object x = o) -> Forall2 (tells_index s o) l rs -> Forall2 (fun row r => scan_index row = Ok (emptied r)) (index_rows_of l) rs.
Proof.
  intros O F. induction F as [|x r l rs T F IH]; [constructor|]. unfold index_rows_of. change (x :: l) with ([x] ++ l). rewrite inner_app.
  destruct (index_row o x r (O x (or_introl eq_refl)) T) as (t & E & S). fold (index_rows_of [x]) (index_rows_of l). rewrite E. constructor; [exact S|]. apply IH. intros y Y. apply O. now right.
Qed.
Definition named_columns (r : ms_index_row) : list (string * ms_index_column) := map (pair (mir_name r)) (mir_columns r).
Lemma index_column_rows_scan o l rs : (forall x, In x l -> sx_object x = o) -> Forall2 (tells_index s o) l rs ->
  Forall2 (fun row nc => scan_index_column s row = Ok nc) (index_columns_of l) (flat_map named_columns rs).
Proof.
  intros O F. induction F as [|x r l rs T F IH]; [constructor|]. unfold index_columns_of. change (x :: l) with ([x] ++ l). rewrite inner_app. cbn [flat_map].
  apply Forall2_app; [|apply IH; intros y Y; apply O; now right].
  assert (Ox : sx_object x = o) by (apply O; now left). destruct T as (N & _ & _ & _ & _ & _ & _ & _ & _ & _ & C).
  unfold inner_join. cbn [flat_map]. rewrite app_nil_r. rewrite (filter_ext_in' _ (fun c => Z.eqb (sxc_object c) o && Z.eqb (sxc_index c) (sx_id x))).
  2: { intros y _. rewrite Ox. f_equal; apply Z.eqb_sym. }
  fold (index_column_rows s o (sx_id x)). unfold named_columns.
  assert (Ob : forall c, In c (index_column_rows s o (sx_id x)) -> sxc_object c = o).
  { intros c Ic. unfold index_column_rows in Ic. apply filter_In in Ic as [_ Ic]. apply andb_true_iff in Ic as [Ic _]. now apply Z.eqb_eq in Ic. }
  revert Ob C. generalize (index_column_rows s o (sx_id x)) (mir_columns r). intros cs ks Ob C.
  induction C as [|c k cs ks (Cn & Cd & Ci) C IHc]; [constructor|]. cbn [map]. constructor.
  - unfold scan_index_column. rewrite N. cbn [not_null bind]. rewrite (Ob c (or_introl eq_refl)), (col_found _ _ _ Cn). cbn [not_null bind]. rewrite Cd, Ci. now destruct k.
  - apply IHc. intros y Y. apply Ob. now right.
Qed.

Lemma set_new r l : ~ In (mir_name r) (map mir_name l) -> set_index r l = l ++ [r].
Proof.
  induction l as [|x l IH]; intros N; [reflexivity|]. cbn [set_index map app] in *. destruct (String.eqb_spec (mir_name x) (mir_name r)) as [E|E].
  - exfalso. apply N. now left.
  - rewrite IH; [reflexivity|]. intros I. apply N. now right.
Qed.
Lemma set_all rows : forall l, NoDup (map mir_name (l ++ rows)) -> fold_left (fun l x => set_index x l) rows l = l ++ rows.
Proof.
  induction rows as [|r rows IH]; intros l N; cbn [fold_left]; [now rewrite app_nil_r|]. rewrite set_new.
  - rewrite IH; rewrite <- app_assoc; [reflexivity|exact N].
  - rewrite map_app in N. apply NoDup_remove_2 in N. intros I. apply N. apply in_or_app. now left.
Qed.

(** What is collected for a name. *)
Definition collected (n : string) (l : list (string * ms_index_column)) : list ms_index_column := map snd (filter (fun nc => String.eqb (fst nc) n) l).
Definition more_columns (l : list (string * ms_index_column)) (r : ms_index_row) : ms_index_row :=
  mkMsIndexRow (mir_name r) (mir_primary r) (mir_unique r) (mir_type r) (mir_padded r) (mir_fill r) (mir_ignore_dup r) (mir_no_recompute r) (mir_incremental r)
    (mir_row_locks r) (mir_page_locks r) (mir_columns r ++ collected (mir_name r) l).
Lemma more_none r : more_columns [] r = r.
Proof. unfold more_columns. cbn. rewrite app_nil_r. now destruct r. Qed.
Lemma more_names nc l : map mir_name (map (more_columns nc) l) = map mir_name l.
Proof. rewrite map_map. reflexivity. Qed.
Lemma add_one n c l : NoDup (map mir_name l) -> In n (map mir_name l) -> add_index_column n c l = Ok (map (more_columns [(n, c)]) l).
Proof.
  induction l as [|x l IH]; intros N I; [destruct I|]. cbn [add_index_column map] in *. inversion N as [|? ? Nx Nl]; subst.
  destruct (String.eqb_spec (mir_name x) n) as [E|E].
  - f_equal. f_equal.
    + unfold with_index_column, more_columns, collected. cbn [filter fst]. rewrite <- E, String.eqb_refl. reflexivity.
    + rewrite <- (map_id l) at 1. apply map_ext_in. intros y Y. unfold more_columns, collected. cbn [filter fst].
      destruct (String.eqb_spec n (mir_name y)) as [En|En]; [|cbn; rewrite app_nil_r; now destruct y]. exfalso. apply Nx. rewrite E, En. now apply in_map.
  - destruct I as [I|I]; [contradiction|]. rewrite (IH Nl I). cbn [bind]. f_equal. f_equal.
    unfold more_columns, collected. cbn [filter fst]. destruct (String.eqb_spec n (mir_name x)); [congruence|]. cbn. rewrite app_nil_r. now destruct x.
Qed.
Lemma add_all got : forall ncs l, Forall2 (fun row nc => scan_index_column s row = Ok nc) got ncs -> NoDup (map mir_name l) -> (forall nc, In nc ncs -> In (fst nc) (map mir_name l)) ->
  add_index_columns s got l = Ok (map (more_columns ncs) l).
Proof.
  induction got as [|row got IH]; intros ncs l F N H; inversion F as [|? nc ? ncs' S F']; subst; cbn [add_index_columns].
  - f_equal. rewrite <- (map_id l) at 1. apply map_ext. intros r. now rewrite more_none.
  - rewrite S. cbn [bind]. rewrite (add_one (fst nc) (snd nc) l N (H nc (or_introl eq_refl))). cbn [bind].
    rewrite (IH ncs' _ F'); [|now rewrite more_names|intros x X; rewrite more_names; apply H; now right].
    f_equal. rewrite map_map. apply map_ext. intros r. unfold more_columns, collected. cbn [mir_name mir_primary mir_unique mir_type mir_padded mir_fill mir_ignore_dup mir_no_recompute mir_incremental mir_row_locks mir_page_locks mir_columns filter fst].
    rewrite <- app_assoc. f_equal. f_equal. destruct nc as [n c]. cbn [fst snd]. destruct (String.eqb n (mir_name r)); reflexivity.
Qed.
Lemma filter_all {A} (p : A -> bool) l : (forall x, In x l -> p x = true) -> filter p l = l.
Proof. intros H. induction l as [|a l IH]; [reflexivity|]. cbn [filter]. rewrite (H a) by now left. f_equal. apply IH. intros x X. apply H. now right. Qed.
Lemma collected_all r rs : NoDup (map mir_name rs) -> In r rs -> collected (mir_name r) (flat_map named_columns rs) = mir_columns r.
Proof.
  unfold collected. induction rs as [|x rs IH]; intros N I; [destruct I|]. cbn [map flat_map] in *. inversion N as [|? ? Nx Nl]; subst. rewrite filter_app, map_app.
  destruct I as [->|I].
  - rewrite (filter_all _ (named_columns r)); [|intros y Y; unfold named_columns in Y; apply in_map_iff in Y as (z & <- & _); apply String.eqb_refl].
    rewrite (filter_none _ (flat_map named_columns rs)).
    + rewrite app_nil_r. unfold named_columns. rewrite map_map. cbn [snd]. apply map_id.
    + intros y Y. apply in_flat_map in Y as (z & Z1 & Z2). unfold named_columns in Z2. apply in_map_iff in Z2 as (w & <- & _). cbn [fst]. apply String.eqb_neq. intros E. apply Nx. rewrite <- E. now apply in_map.
  - rewrite (filter_none _ (named_columns x)); [apply IH; auto|]. intros y Y. unfold named_columns in Y. apply in_map_iff in Y as (z & <- & _). cbn [fst]. apply String.eqb_neq. intros E. apply Nx. rewrite E. now apply in_map.
Qed.

Definition index_permuted (a b : ms_index_row) : Prop := emptied a = emptied b /\ Permutation (mir_columns a) (mir_columns b).
Lemma indexes_told o ob rs r : In ob (sys_objects s) -> so_id ob = o -> heap_silent s o ->
  Forall2 (tells_index s o) (filter (fun x => Z.eqb (sx_object x) o && negb (Z.eqb (sx_id x) 0)) (sys_indexes s)) rs -> NoDup (map mir_name rs) ->
  indexes_read s (so_schema ob) (so_name ob) r -> exists l l', r = Ok l' /\ Permutation rs l /\ Forall2 index_permuted l l'.
Proof.
  intros Io Eo (Hs & Hc) F N (got & columns & A & B & ->).
  set (mine := filter (fun x => Z.eqb (sx_object x) o) (sys_indexes s)).
  assert (E0 : filter (fun x => is_id (object_id s (so_schema ob) (so_name ob)) (sx_object x)) (sys_indexes s) = mine).
  { rewrite (object_id_found ob Io), Eo. reflexivity. }
  assert (E1 : filter (fun x => Z.eqb (sx_object x) o && negb (Z.eqb (sx_id x) 0)) (sys_indexes s) = filter (fun x => negb (heap x)) mine).
  { unfold mine, heap. clear. induction (sys_indexes s) as [|x l IH]; [reflexivity|]. cbn [filter]. destruct (Z.eqb (sx_object x) o); cbn [filter andb]; rewrite IH; reflexivity. }
  assert (Om : forall x, In x (filter (fun x => negb (heap x)) mine) -> sx_object x = o).
  { intros x I. apply filter_In in I as [I _]. unfold mine in I. apply filter_In in I as [_ I]. now apply Z.eqb_eq. }
  assert (Mo : forall x, In x mine -> sx_object x = o) by (intros x I; unfold mine in I; apply filter_In in I as [_ I]; now apply Z.eqb_eq).
  rewrite E1 in F. unfold index_query in A. unfold index_column_query in B. rewrite E0 in A, B.
  rewrite without_heap in A.
  2: { intros x I H t T. destruct (Z.eqb_spec (sx_object x) (ss_object t)) as [Et|]; [|reflexivity]. unfold heap in H. apply Z.eqb_eq in H. rewrite H.
       cbn [andb]. apply Z.eqb_neq. intros Q. apply (Hs t T); [|now symmetry]. rewrite <- Et. now apply Mo. }
  rewrite without_heap in B.
  2: { intros x I H t T. destruct (Z.eqb_spec (sx_object x) (sxc_object t)) as [Et|]; [|reflexivity]. unfold heap in H. apply Z.eqb_eq in H. rewrite H.
       cbn [andb]. apply Z.eqb_neq. intros Q. apply (Hc t T); [|now symmetry]. rewrite <- Et. now apply Mo. }
  pose proof (index_rows o _ rs Om F) as R. pose proof (index_column_rows_scan o _ rs Om F) as C. unfold index_rows_of in R. unfold index_columns_of in C.
  destruct (perm_forall2 _ _ _ A rs R) as (rs' & Pr & R'). destruct (perm_forall2 _ _ _ B _ C) as (ncs & Pc & C').
  assert (Sr : scan_all_rows scan_index got = Ok (map emptied rs')).
  { apply scan_rows. clear -R'. induction R'; [constructor|]. cbn [map]. now constructor. }
  assert (Nn : NoDup (map mir_name rs')) by (eapply Permutation_NoDup; [apply Permutation_map; exact Pr|exact N]).
  assert (Ne : map mir_name (map emptied rs') = map mir_name rs') by (rewrite map_map; reflexivity).
  rewrite Sr. cbn [bind]. rewrite set_all by (cbn [app]; now rewrite Ne). cbn [app].
  rewrite (add_all columns ncs _ C').
  - exists rs', (map (more_columns ncs) (map emptied rs')). split; [reflexivity|]. split; [exact Pr|].
    assert (Q : forall r, In r rs' -> Permutation (mir_columns r) (collected (mir_name r) ncs)).
    { intros r I. rewrite <- (collected_all r rs N) at 1; [|eapply Permutation_in; [apply Permutation_sym; exact Pr|exact I]].
      unfold collected. apply Permutation_map, perm_filter, Pc. }
    clear -Q. induction rs' as [|r rs' IH]; [constructor|]. cbn [map]. constructor; [|apply IH; intros y Y; apply Q; now right].
    split; [reflexivity|]. cbn. apply Q. now left.
  - now rewrite Ne.
  - intros nc I. rewrite Ne. eapply Permutation_in in I; [|apply Permutation_sym; exact Pc]. apply in_flat_map in I as (r & Ir & I). unfold named_columns in I. apply in_map_iff in I as (c & <- & _). cbn [fst].
    eapply Permutation_in; [apply Permutation_map; exact Pr|]. now apply in_map.
Qed.

(** ** Foreign keys *)
Lemma fks_told o ob rows r : In ob (sys_objects s) -> so_id ob = o -> tells_fks s o rows -> fks_read s (so_schema ob) (so_name ob) r -> exists rows', r = Ok rows' /\ Permutation rows rows'.
Proof.
  intros Io Eo (groups & G & ->) (got & A & ->). unfold fk_query in A. rewrite (object_id_found ob Io), Eo in A.
  assert (S : Forall2 (fun row x => scan_fk s row = Ok x)
     (inner_join (fun f c => Z.eqb (sf_id f) (sfc_constraint c)) (filter (fun f => is_id (Some o) (sf_parent f)) (sys_fks s)) (sys_fk_columns s)) (concat groups)).
  { clear A. cbn [is_id]. revert G. generalize (filter (fun f => Z.eqb (sf_parent f) o) (sys_fks s)). intros l G.
    induction G as [|f g l groups Gf G IH]; [constructor|]. cbn [concat]. change (f :: l) with ([f] ++ l). rewrite inner_app. apply Forall2_app; [|exact IH].
    unfold inner_join. cbn [flat_map]. rewrite app_nil_r. rewrite (filter_ext_in' _ (fun c => Z.eqb (sfc_constraint c) (sf_id f))) by (intros y _; apply Z.eqb_sym).
    clear -K Gf. induction Gf as [|c x cs g T Gf IH]; [constructor|]. cbn [map]. constructor; [|exact IH].
    destruct T as (T1 & T2 & T3 & T4 & T5 & T6 & (ob & Io & Eo & En)). unfold scan_fk. rewrite (col_found _ _ _ T5), (col_found _ _ _ T6). cbn [not_null bind].
    unfold object_name. rewrite <- Eo, (object_found _ Io). cbn [option_map not_null bind]. rewrite En, <- T1, <- T2, <- T3, <- T4. now destruct x. }
  destruct (scan_answer _ _ _ _ S A) as (m & P & ->). now exists m.
Qed.
Lemma columns_told o ob cs r : In ob (sys_objects s) -> so_id ob = o -> so_type ob = "U" ->
  Forall2 (tells_column s o) (filter (fun x => Z.eqb (sc_object x) o) (sys_columns s)) cs -> columns_read s (so_schema ob) (so_name ob) r -> exists cs', r = Ok cs' /\ Permutation cs cs'.
Proof.
  intros Io Eo T F (got & A & ->).
  assert (E : column_query s (so_schema ob) (so_name ob) = columns_of_rows (filter (fun x => Z.eqb (sc_object x) o) (sys_columns s))).
  { unfold column_query. rewrite (table_id_found ob Io T), Eo. reflexivity. }
  rewrite E in A.
  assert (O : forall x, In x (filter (fun x => Z.eqb (sc_object x) o) (sys_columns s)) -> sc_object x = o) by (intros x I; apply filter_In in I as [_ I]; now apply Z.eqb_eq).
  pose proof (column_rows o _ cs O F) as S. destruct (scan_answer _ _ _ _ S A) as (m & P & ->). now exists m.
Qed.

(** ** Modules *)
Lemma modules_told ids texts r : Forall2 (tells_module s) ids texts -> modules_read s ids r -> exists texts', r = Ok texts' /\ Permutation texts texts'.
Proof.
  intros F (got & A & ->). unfold module_query in A.
  assert (S : Forall2 (fun (m : Z * option string) x => not_null (snd m) = Ok x) (map snd (inner_join (fun id m => Z.eqb (fst m) id) ids (sys_modules s))) texts).
  { clear A. induction F as [|id t ids texts T F IH]; [constructor|]. change (id :: ids) with ([id] ++ ids). rewrite inner_app, map_app. change (t :: texts) with ([t] ++ texts). apply Forall2_app; [|exact IH].
    unfold inner_join. cbn [flat_map]. rewrite (filter_one fst _ _ (id, Some t) (sq_modules _ K) T); [|apply Z.eqb_refl|intros y _ E; now apply Z.eqb_eq in E]. cbn [map app snd].
    constructor; [reflexivity|constructor]. }
  destruct (scan_answer _ _ _ _ S A) as (m & P & ->). now exists m.
Qed.
Lemma views_in_objects : (forall id, In id (sys_views s) -> In id (map so_id (sys_objects s))) -> view_ids s = sys_views s.
Proof.
  unfold view_ids. induction (sys_views s) as [|id l IH]; intros H; [reflexivity|]. change (id :: l) with ([id] ++ l) at 1. rewrite inner_app, map_app, IH by (intros x X; apply H; now right).
  destruct (proj1 (in_map_iff _ _ _) (H id (or_introl eq_refl))) as (ob & <- & Io). unfold inner_join. cbn [flat_map].
  rewrite (filter_one so_id _ _ ob (sq_objects _ K) Io); [reflexivity|apply Z.eqb_refl|intros y _ E; now apply Z.eqb_eq in E].
Qed.
End Told.
