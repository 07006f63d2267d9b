(** Convergence on MySQL: a kept table. *)
From Coq Require Import String Ascii List ZArith Bool Lia Permutation SpecFloat.
From Verif Require Import GoStr GoStrFacts Ast Generator SpecPlan SpecColumns SpecOrder SpecMysql SpecConverge ProofPlan
  ProofSteps ProofTables ProofCompare ProofExact ProofObjects ProofColumns ProofSelf ProofOrder ProofMysql.
Import ListNotations.
Local Open Scope string_scope.
Local Open Scope list_scope.

Lemma ok_inj {A} (a b : A) : Ok a = Ok b -> a = b.
Proof. congruence. Qed.
Ltac okinj H := apply ok_inj in H; subst.

(** ** Copies of a declared column *)
Definition copies (s c : column) : Prop := definition_matches s c /\ default_matches s c.
Definition shape (c : column) : Prop :=
  c_key c = KeyNone /\ c_position c = 0%Z /\ (c_enum c <> [] -> c_type c = "enum" /\ c_length c = None).

Lemma recorded_name c : c_name (recorded c) = c_name c.
Proof. reflexivity. Qed.

Lemma value_matches_refl v : value_matches v v.
Proof. destruct v; simpl; auto. Qed.

Lemma same_value_refl v : (forall x, v = Some x -> v_float x <> S754_nan) -> same_value v v.
Proof. intros H. destruct v as [x|]; simpl; [|exact I]. repeat split; auto. apply SFeqb_refl. now apply H. Qed.

Lemma recorded_enum c : (c_enum c <> [] -> c_type c = "enum" /\ c_length c = None) -> c_enum (recorded c) = c_enum c.
Proof.
  intros H. simpl. destruct (c_enum c) as [|e l] eqn:E.
  - destruct (c_length c); [reflexivity|]. now destruct (String.eqb _ _).
  - destruct H as [Ht Hl]; [discriminate|]. rewrite Hl, Ht. reflexivity.
Qed.

Lemma recorded_shape c : shape (recorded c).
Proof.
  split; [reflexivity|]. split; [reflexivity|]. simpl. destruct (c_length c) as [v|]; [congruence|].
  destruct (String.eqb_spec (c_type c) "enum") as [E|]; [auto|congruence].
Qed.

Lemma recorded_autoinc b c : recorded (set_autoinc b c) = set_autoinc b (recorded c).
Proof. reflexivity. Qed.

Lemma copies_autoinc b s c : copies (set_autoinc b s) c <-> copies s c.
Proof. reflexivity. Qed.

Lemma copies_recorded c : mysql_definition c -> copies (recorded c) c.
Proof.
  intros (Hk & _ & He & Hu). split; [|apply value_matches_refl]. unfold definition_matches, data_type_matches.
  rewrite recorded_enum by exact He. simpl. repeat split; auto.
  - apply Relation_Operators.rst_refl.
  - intros a b Ha Hb. congruence.
  - destruct (c_notnull c) as [[|]|]; destruct (c_key c); auto; discriminate.
  - intros [H|H]; [now rewrite H|]. rewrite H. now destruct (c_notnull c) as [[|]|].
  - now apply same_value_refl.
Qed.

Lemma copies_notnull s c : copies s c -> says_not_null c -> copies (set_notnull (Some true) s) c.
Proof.
  intros [(H1 & H2 & H3 & H4 & H5) H6] Hn. split; [|exact H6]. repeat split; try tauto. all: try apply H1; apply H5.
Qed.

Lemma copies_position z s c : copies (set_position z s) c <-> copies s c.
Proof. reflexivity. Qed.

Lemma shape_notnull o c : shape c -> shape (set_notnull o c).
Proof. intros H. exact H. Qed.
Lemma shape_autoinc b c : shape c -> shape (set_autoinc b c).
Proof. intros H. exact H. Qed.

(** A column of the catalogue written back. *)
Lemma rerecorded cc c : shape cc -> copies cc c -> copies (recorded cc) c.
Proof.
  intros (Hk & _ & He) [(H1 & H2 & H3 & H4 & H5) H6]. split; [|exact H6].
  unfold definition_matches, data_type_matches in *. rewrite recorded_enum by exact He. simpl. rewrite Hk.
  repeat split; try tauto; try apply H1; try apply H5.
  - intros H. apply H3. now destruct (c_notnull cc) as [[|]|].
  - intros H. apply H3 in H. now rewrite H.
Qed.

(** ** Keys *)
Lemma index_matches_columns a b : index_matches a b -> key_columns a = key_columns b.
Proof.
  intros (_ & _ & H & _). unfold key_columns. induction H as [|x y l l' H _ IH]; [reflexivity|]. simpl. rewrite IH. f_equal. apply H.
Qed.
Lemma index_matches_primary a b : index_matches a b -> i_primary a = i_primary b.
Proof. now intros (_ & H & _). Qed.
Lemma index_matches_refl i : NoDup (map io_name (i_options i)) -> index_matches i i.
Proof. intros H. apply are_same_indexes_spec. now apply same_index_refl. Qed.

Lemma recorded_matches i : short_key i -> index_matches (recorded_index i) i.
Proof.
  intros (Hw & Hi & Ho & Hd). unfold index_matches. simpl. rewrite Hw, Hi. repeat split; auto.
  - induction (i_columns i) as [|c l IH]; simpl; constructor.
    + split; [reflexivity|]. simpl. destruct (Hd c (or_introl eq_refl)) as [E|[E|[E|[]]]]; rewrite <- E; simpl; auto.
    + apply IH. intros; apply Hd; now right.
  - intros o Hin. destruct (i_options i) as [|o' [|]]; simpl in *; [tauto| |lia]. destruct Hin as [->|[]].
    exists o. simpl. rewrite String.eqb_refl. split; [reflexivity|apply value_matches_refl].
Qed.

Lemma recorded_index_columns i : key_columns (recorded_index i) = key_columns i.
Proof. unfold key_columns. simpl. rewrite map_map. reflexivity. Qed.

Lemma find_named {A} (f : A -> string) n l : find (fun x => String.eqb (f x) n) l = named f n l.
Proof. reflexivity. Qed.

(** ** Numbered columns *)
Lemma named_number x l : forall z, named c_name x l = None -> named c_name x (number z l) = None.
Proof.
  induction l as [|c l IH]; intros z H; [reflexivity|]. cbn [number]. rewrite named_cons in *. cbn [c_name set_position].
  destruct (String.eqb (c_name c) x); [discriminate|auto].
Qed.
Lemma named_number_some x l c : forall z, named c_name x l = Some c -> exists k, named c_name x (number z l) = Some (set_position k c).
Proof.
  induction l as [|y l IH]; intros z H; [discriminate|]. cbn [number]. rewrite named_cons in *. cbn [c_name set_position].
  destruct (String.eqb (c_name y) x); [injection H as ->; eauto|]. now apply IH.
Qed.
Lemma number_names l : forall z, map c_name (number z l) = map c_name l.
Proof. induction l as [|c l IH]; intros z; [reflexivity|]. simpl. now rewrite IH. Qed.
Lemma in_number l : forall z c, In c (number z l) -> exists k c0, In c0 l /\ c = set_position k c0.
Proof.
  induction l as [|y l IH]; intros z c; [intros []|]. cbn [number]. intros [<-|H].
  - exists z, y. split; [now left|reflexivity].
  - destruct (IH _ _ H) as (k & c0 & Hc & E). exists k, c0. split; [now right|exact E].
Qed.

(** ** One kept table *)
Section Kept.
Variables (l : list ddl) (t st : table).
Hypothesis Hmt : mysql_table l t.
Hypothesis Hct : catalogue_table st.
Hypothesis Hse : settles l t st.
Hypothesis Hname : t_name st = t_name t.
Let n := t_name t.
Let ct := with_columns (number 0 (t_columns st)) st.
Let keys := all_keys l t.

Lemma ct_name_eq : t_name ct = n.
Proof. exact Hname. Qed.

Lemma current_column x : match find_column (t_columns ct) x with
  | Some cc => exists k c0, column_of st x = Some c0 /\ cc = set_position k c0
  | None => column_of st x = None
  end.
Proof.
  unfold find_column. rewrite find_named. unfold ct, column_of. simpl. destruct (named c_name x (t_columns st)) as [c0|] eqn:E.
  - destruct (named_number_some x _ _ 0%Z E) as (k & ->). eauto.
  - now rewrite named_number.
Qed.

Lemma st_good : good st.
Proof. destruct Hct. now apply integrity_good. Qed.

(** What stays true all along. *)
Definition pk_named (s : table) : Prop := forall y k, key_of s y = Some k -> (i_primary k = true <-> y = "PRIMARY").
Definition shaped (s : table) : Prop := forall y c, column_of s y = Some c -> shape c.
Definition inv (s : table) : Prop := good s /\ pk_named s /\ shaped s /\ same_frame st s.

Lemma st_inv : inv st.
Proof.
  split; [exact st_good|]. split; [|split; [|apply frame_refl]].
  - intros y k H. apply named_some in H as [H <-]. now apply (ct_primary_name _ Hct).
  - intros y c H. apply named_some in H as [H _]. now apply (ct_columns _ Hct).
Qed.

Lemma in_pk_key s x : pk_named s -> NoDup (map i_name (t_indexes s)) ->
  (in_pk s x = true <-> exists k, key_of s "PRIMARY" = Some k /\ In x (key_columns k)).
Proof.
  intros Hp Hn. unfold in_pk. rewrite existsb_exists. split.
  - intros (k & Hk & E). apply andb_true_iff in E as [E1 E2]. exists k. apply mem_in in E2. split; [|exact E2].
    assert (Hk' : key_of s (i_name k) = Some k) by now apply named_self. rewrite <- (proj1 (Hp _ _ Hk') E1). exact Hk'.
  - intros (k & Hk & Hx). exists k. pose proof (proj2 (Hp _ _ Hk) eq_refl) as E. apply named_some in Hk as [Hk _]. split; [exact Hk|].
    rewrite E. now apply mem_in.
Qed.

(** *** Declared keys *)
Lemma unique_declared c : In c (t_columns t) -> is_unique (c_key c) = true -> In (unique_index (c_name c)) keys.
Proof.
  intros Hc Hu. unfold keys, all_keys. apply in_or_app. left. simpl. apply in_or_app. right. apply in_or_app. right.
  apply in_map_iff. exists c. split; [reflexivity|]. now apply filter_In.
Qed.
Lemma inline_declared i : In i (t_indexes t) -> In i keys.
Proof. intros H. unfold keys, all_keys. apply in_or_app. left. simpl. apply in_or_app. right. apply in_or_app. now left. Qed.
Lemma separate_declared i : In i (indexes_on n l) -> In i keys.
Proof. intros H. unfold keys, all_keys. apply in_or_app. now right. Qed.

Lemma key_unique i j : In i keys -> In j keys -> i_name i = i_name j -> i = j.
Proof.
  intros Hi Hj E. pose proof (mt_keys _ _ Hmt) as Hn. fold keys in Hn.
  pose proof (named_self i_name keys i Hn Hi) as H1. pose proof (named_self i_name keys j Hn Hj) as H2. congruence.
Qed.

Lemma pk_declared i : In i keys -> (i_primary i = true <-> i_name i = "PRIMARY").
Proof. intros H. apply (mt_key _ _ Hmt i H). Qed.

(** *** The first phase: columns, one by one *)

(** What the table has for a desired column that had its turn. *)
Definition first_copy (c s : column) : Prop :=
  shape s /\ c_name s = c_name c /\ copies s c /\
  match column_of st (c_name c) with
  | Some cc => c_autoinc cc = true -> c_autoinc c = true -> c_autoinc s = true
  | None => True
  end /\
  (c_autoinc s = true -> exists cc, column_of st (c_name c) = Some cc /\ c_autoinc cc = true).

Record after_columns (done : list column) (s : table) : Prop := {
  ac_inv : inv s;
  ac_done : forall c, In c done -> exists s', column_of s (c_name c) = Some s' /\ first_copy c s';
  ac_rest : forall y, ~ In y (map c_name done) -> column_of s y = column_of st y;
  ac_names : forall y, In y (names s) <-> In y (names st) \/ In y (map c_name done);
  ac_unique : forall c, In c done -> is_unique (c_key c) = true ->
    exists k, key_of s (c_name c) = Some k /\ index_matches k (unique_index (c_name c));
  ac_keys : forall y, (forall c, In c done -> is_unique (c_key c) = true -> c_name c <> y) -> key_of s y = key_of st y;
  ac_stay : forall y k, key_of st y = Some k -> key_of s y = Some k;
  ac_fks : t_fks s = t_fks st }.

Lemma after_nothing : after_columns [] st.
Proof.
  constructor; simpl; try tauto; auto. apply st_inv.
Qed.

Lemma column_names_in s x : In x (names s) <-> exists c, column_of s x = Some c.
Proof.
  unfold names, column_of. split; [apply named_in|]. intros (c & H). apply named_some in H as [H <-]. now apply in_map.
Qed.

Lemma primary_key_columns_st k x : key_of st "PRIMARY" = Some k -> In x (key_columns k) -> in_pk st x = true.
Proof. intros Hk Hx. apply in_pk_key; [apply st_inv|apply (ct_keys _ Hct)|]. eauto. Qed.

Lemma put_somewhere c prev L : (forall p, prev = Some p -> In p (map c_name L)) -> exists r, put_column c (pos_of prev) L = Some r.
Proof.
  intros H. pose proof (put_names c (pos_of prev) L) as E.
  destruct (place_spec prev (c_name c) (map c_name L) H) as (a & b & Ep & _). unfold place in Ep. rewrite Ep in E.
  destruct (put_column c (pos_of prev) L); [eauto|discriminate].
Qed.

Lemma named_replace old c x L : c_name c = old ->
  named c_name x (map (fun y => if String.eqb (c_name y) old then c else y) L) =
  match named c_name x L with Some y => Some (if String.eqb x old then c else y) | None => None end.
Proof.
  intros E. induction L as [|y L IH]; [reflexivity|]. cbn [map]. rewrite !named_cons.
  destruct (String.eqb_spec (c_name y) old) as [Ey|Ny].
  - rewrite E. destruct (String.eqb_spec old x) as [Ex|N].
    + rewrite <- Ex, String.eqb_refl. destruct (String.eqb_spec (c_name y) old); [reflexivity|congruence].
    + destruct (String.eqb_spec (c_name y) x); [congruence|exact IH].
  - destruct (String.eqb_spec (c_name y) x) as [Ex|N]; [|exact IH].
    destruct (String.eqb_spec x old); [congruence|reflexivity].
Qed.

Lemma replace_names old c L : c_name c = old ->
  map c_name (map (fun y => if String.eqb (c_name y) old then c else y) L) = map c_name L.
Proof.
  intros E. rewrite map_map. apply map_ext. intros y. destruct (String.eqb_spec (c_name y) old); congruence.
Qed.

(** CHANGE COLUMN to the same name. *)
Lemma do_change tbl old c p s : good s -> c_name c = old -> In old (names s) ->
  (p = PosNone \/ exists prev, p = pos_of prev /\ forall q, prev = Some q -> In q (names s) /\ q <> old) ->
  (c_autoinc c = true -> exists cc, column_of s old = Some cc /\ (c_autoinc cc = true \/
     ((exists y k, key_of s y = Some k /\ begins k old) /\ forall y d, column_of s y = Some d -> c_autoinc d = true -> y = old))) ->
  exists s', alter_table (EffChangeColumn tbl old c p) s = Some s' /\ good s' /\ same_frame s s' /\ t_indexes s' = t_indexes s /\ t_fks s' = t_fks s /\
    (forall y, In y (names s') <-> In y (names s)) /\
    (forall y, column_of s' y = if String.eqb y old then Some (kept_notnull s (recorded c)) else column_of s y).
Proof.
  intros Hg Hn Hin Hp Ha. cbn [alter_table]. rewrite Hn, String.eqb_refl, (proj2 (mem_in _ _) Hin). cbn [andb].
  set (c' := kept_notnull s (recorded c)).
  assert (Hc' : c_name c' = old) by (unfold c', kept_notnull; destruct (in_pk _ _); exact Hn).
  assert (Ha' : c_autoinc c' = c_autoinc c) by (unfold c', kept_notnull; destruct (in_pk _ _); reflexivity).
  assert (Hgo : forall L, NoDup (map c_name L) -> (forall y, In y (map c_name L) <-> In y (names s)) ->
     (forall y, named c_name y L = if String.eqb y old then Some c' else column_of s y) ->
     good (with_columns L s)).
  { intros L HnL HL Hl. destruct Hg as [G1 G2 G3 G4 G5 G6 G7]. constructor; unfold names, column_of, key_of, fk_of in *; simpl; auto.
    - intros y k x Hy Hx. apply HL. eauto.
    - intros y k x Hy Hx. apply HL. eauto.
    - intros x d Hx Hd. rewrite Hl in Hx. destruct (String.eqb_spec x old) as [->|N]; [|eauto]. injection Hx as <-.
      rewrite Ha' in Hd. destruct (Ha Hd) as (cc & Hcc & [Hca|[Hk _]]); eauto.
    - intros x d y e Hx Hy Hd He. rewrite Hl in Hx, Hy.
      destruct (String.eqb_spec x old) as [->|Nx], (String.eqb_spec y old) as [->|Ny]; auto.
      + injection Hx as <-. rewrite Ha' in Hd. destruct (Ha Hd) as (cc & Hcc & [Hca|[_ Ho]]).
        * apply (G7 old cc y e); auto.
        * symmetry. eapply Ho; eauto.
      + injection Hy as <-. rewrite Ha' in He. destruct (Ha He) as (cc & Hcc & [Hca|[_ Ho]]).
        * apply (G7 x d old cc); auto.
        * eapply Ho; eauto.
      + eapply G7; eauto. }
  assert (Hput : forall prev, (forall q, prev = Some q -> In q (names s) /\ q <> old) ->
    exists L, put_column c' (pos_of prev) (remove_named c_name old (t_columns s)) = Some L /\ good (with_columns L s) /\
      (forall y, In y (map c_name L) <-> In y (names s)) /\ (forall y, named c_name y L = if String.eqb y old then Some c' else column_of s y)).
  { intros prev Hprev.
    assert (Hrm : map c_name (remove_named c_name old (t_columns s)) = take_out old (names s)) by apply names_remove.
    destruct (put_somewhere c' prev (remove_named c_name old (t_columns s))) as (L & EL).
    { intros q Hq. rewrite Hrm. apply take_out_in. now apply Hprev. }
    exists L. split; [exact EL|].
    assert (Hnot : ~ In (c_name c') (map c_name (remove_named c_name old (t_columns s)))).
    { rewrite Hrm, Hc', take_out_in. tauto. }
    assert (Hl : forall y, named c_name y L = if String.eqb y old then Some c' else column_of s y).
    { intros y. rewrite (named_put c' _ _ _ y EL Hnot), Hc', named_remove. unfold column_of.
      destruct (String.eqb y old); reflexivity. }
    assert (HL : forall y, In y (map c_name L) <-> In y (names s)).
    { intros y. apply put_column_split in EL as (a & b & Eab & ->).
      assert (H : In y (map c_name (a ++ b)) <-> In y (names s) /\ y <> old) by (rewrite <- Eab, Hrm; apply take_out_in).
      rewrite map_app in *. cbn [map]. rewrite in_app_iff in *. cbn [In]. rewrite Hc'. destruct (string_dec y old) as [->|N]; intuition congruence. }
    split; [|split; auto]. apply Hgo; auto.
    apply put_column_split in EL as (a & b & Eab & ->). rewrite map_app. cbn [map].
    apply (NoDup_Add (a := c_name c') (l := map c_name a ++ map c_name b)); [apply Add_app|]. rewrite <- map_app, <- Eab.
    split; [apply nodup_remove, (good_names _ Hg)|exact Hnot]. }
  destruct Hp as [->|(prev & -> & Hprev)].
  - eexists. split; [reflexivity|].
    assert (Hl : forall y, named c_name y (map (fun y0 => if String.eqb (c_name y0) old then c' else y0) (t_columns s)) =
       if String.eqb y old then Some c' else column_of s y).
    { intros y. rewrite named_replace by exact Hc'. fold (column_of s y). destruct (String.eqb_spec y old) as [->|N]; [|now destruct (column_of s y)].
      apply column_names_in in Hin as (cc & ->). reflexivity. }
    assert (HL : map c_name (map (fun y0 => if String.eqb (c_name y0) old then c' else y0) (t_columns s)) = names s) by (apply replace_names; exact Hc').
    split; [|split; [|split; [|split; [|split]]]]; try reflexivity.
    + apply Hgo; auto; rewrite HL; [apply (good_names _ Hg)|tauto].
    + now split.
    + intros y. unfold names at 1. simpl. rewrite HL. tauto.
    + exact Hl.
  - destruct (Hput prev Hprev) as (L & EL & HgL & HL & Hl).
    exists (with_columns L s). split.
    { destruct prev; cbn [pos_of] in *; rewrite EL; reflexivity. }
    split; [exact HgL|]. split; [now split|]. split; [reflexivity|]. split; [reflexivity|]. split; [exact HL|exact Hl].
Qed.

Lemma kept_recorded s c0 : c_name (kept_notnull s (recorded c0)) = c_name c0 /\ c_autoinc (kept_notnull s (recorded c0)) = c_autoinc c0 /\
  shape (kept_notnull s (recorded c0)).
Proof. unfold kept_notnull. destruct (in_pk _ _); (split; [reflexivity|]; split; [reflexivity|]; exact (recorded_shape c0)). Qed.

(** Written back by CHANGE COLUMN, a desired column is a copy of itself. *)
Lemma kept_copies s c : mysql_definition c -> (in_pk s (c_name c) = true -> says_not_null c) -> copies (kept_notnull s (recorded c)) c.
Proof.
  intros Hd Hp. unfold kept_notnull. cbn [c_name recorded]. destruct (in_pk s (c_name c)); [|now apply copies_recorded].
  apply copies_notnull; auto. now apply copies_recorded.
Qed.

Lemma first_recorded cc c s : copies (kept_notnull s (recorded c)) c -> copies (kept_notnull s (recorded (first_version cc c))) c.
Proof. unfold first_version. destruct (c_autoinc cc); auto. unfold kept_notnull. cbn [c_name recorded set_autoinc]. now destruct (in_pk _ _). Qed.

Lemma st_pk_frame s done : after_columns done s -> (forall c, In c done -> In c (t_columns t)) ->
  forall x, in_pk s x = true -> in_pk st x = true.
Proof.
  intros H Hd x Hx. destruct (ac_inv _ _ H) as (Hg & Hp & _). apply in_pk_key in Hx as (k & Hk & Hx); [|exact Hp|apply (good_keys _ Hg)].
  rewrite (ac_keys _ _ H) in Hk.
  - now apply (primary_key_columns_st k).
  - intros c Hc Hu E. pose proof (pk_declared _ (unique_declared c (Hd c Hc) Hu)) as Hpk. cbn [unique_index i_primary i_name] in Hpk.
    apply Hpk in E. discriminate.
Qed.

Lemma columns_step done prev c a s : after_columns done s -> In c (t_columns t) -> ~ In (c_name c) (map c_name done) ->
  (forall d, In d done -> In d (t_columns t)) ->
  (forall p, prev = Some p -> In p (map c_name done)) ->
  ddls_column Mysql ct t prev c = Ok a ->
  exists s', exec a s = Some s' /\ after_columns (done ++ [c]) s'.
Proof.
  intros H Hc Hnd Hdone Hprev Ha. unfold ddls_column in Ha. pose proof (current_column (c_name c)) as Hcur.
  pose proof (mt_columns _ _ Hmt c Hc) as Hdef.
  assert (Hstc : column_of s (c_name c) = column_of st (c_name c)) by now apply (ac_rest _ _ H).
  destruct (ac_inv _ _ H) as (Hg & Hpk & Hsh & Hfr).
  assert (Hu_s : is_unique (c_key c) = true -> key_of s (c_name c) = key_of st (c_name c)).
  { intros Hu. apply (ac_keys _ _ H). intros d Hd Hud E. apply Hnd. rewrite <- E. now apply in_map. }
  (* a step that changes only column [c], followed by an optional unique key *)
  assert (Hfin : forall s1 c1, good s1 -> same_frame s s1 -> t_indexes s1 = t_indexes s -> t_fks s1 = t_fks s ->
     (forall y, In y (names s1) <-> In y (names s) \/ y = c_name c) ->
     (forall y, column_of s1 y = if String.eqb y (c_name c) then Some c1 else column_of s y) ->
     first_copy c c1 ->
     (is_unique (c_key c) = true -> key_of st (c_name c) <> None -> exists k, key_of st (c_name c) = Some k /\ index_matches k (unique_index (c_name c))) ->
     if is_unique (c_key c) && match key_of st (c_name c) with None => true | _ => false end
     then exists s', add_key (unique_index (c_name c)) s1 = Some s' /\ good s' /\ after_columns (done ++ [c]) s'
     else after_columns (done ++ [c]) s1).
  { intros s1 c1 Hg1 Hf1 Hi1 Hfk1 Hn1 Hc1 Hcopy Huq.
    assert (Hk1 : forall y, key_of s1 y = key_of s y) by (intros y; unfold key_of; now rewrite Hi1).
    assert (Hpk1 : pk_named s1) by (intros y k Hk; apply Hpk; now rewrite <- Hk1).
    assert (Hsh1 : shaped s1).
    { intros y d Hd. rewrite Hc1 in Hd. destruct (String.eqb y (c_name c)); [injection Hd as <-; apply Hcopy|eauto]. }
    assert (Hdone1 : forall d, In d (done ++ [c]) -> exists s', column_of s1 (c_name d) = Some s' /\ first_copy d s').
    { intros d Hd. apply in_app_or in Hd as [Hd|[<-|[]]].
      - destruct (ac_done _ _ H d Hd) as (s' & E & Hs'). exists s'. split; [|exact Hs']. rewrite Hc1.
        destruct (String.eqb_spec (c_name d) (c_name c)) as [E'|_]; [|exact E]. exfalso. apply Hnd. rewrite <- E'. now apply in_map.
      - exists c1. rewrite Hc1, String.eqb_refl. auto. }
    assert (Hrest1 : forall y, ~ In y (map c_name (done ++ [c])) -> column_of s1 y = column_of st y).
    { intros y Hy. rewrite map_app, in_app_iff in Hy. rewrite Hc1. destruct (String.eqb_spec y (c_name c)) as [->|_].
      - exfalso. apply Hy. right. now left.
      - apply (ac_rest _ _ H). tauto. }
    assert (Hnames1 : forall y, In y (names s1) <-> In y (names st) \/ In y (map c_name (done ++ [c]))).
    { intros y. rewrite Hn1, (ac_names _ _ H), map_app, in_app_iff. simpl. intuition congruence. }
    destruct (is_unique (c_key c)) eqn:Eu; cbn [andb].
    - destruct (key_of st (c_name c)) as [k|] eqn:Ek.
      + constructor; auto.
        * split; [exact Hg1|]. split; [exact Hpk1|]. split; [exact Hsh1|]. eapply frame_trans; eauto.
        * intros d Hd Hud. apply in_app_or in Hd as [Hd|[<-|[]]].
          -- rewrite Hk1. now apply (ac_unique _ _ H).
          -- destruct (Huq eq_refl) as (k' & Hk' & Hm); [discriminate|]. injection Hk' as <-. exists k. rewrite Hk1, (Hu_s eq_refl). auto.
        * intros y Hy. rewrite Hk1. apply (ac_keys _ _ H). intros d Hd. apply Hy. apply in_or_app. now left.
        * intros y k' Hy. rewrite Hk1. now apply (ac_stay _ _ H).
        * rewrite Hfk1. apply (ac_fks _ _ H).
      + destruct (do_add_key (unique_index (c_name c)) s1) as (s' & E & Hg' & Hf' & Hcol' & Hfk' & Hk').
        { exact Hg1. } { cbn [unique_index i_name]. now rewrite Hk1, (Hu_s eq_refl). } { reflexivity. }
        { cbn. intros x [<-|[]]. apply Hn1. now right. }
        cbn [unique_index i_name] in Hk'.
        exists s'. split; [exact E|]. split; [exact Hg'|]. constructor.
        * split; [exact Hg'|]. split; [|split].
          -- intros y k Hy. rewrite Hk' in Hy. destruct (String.eqb_spec y (c_name c)) as [->|_].
             ++ injection Hy as <-. cbn. split; [discriminate|]. intros E'.
                pose proof (pk_declared _ (unique_declared c Hc Eu)) as Hpd. cbn in Hpd. now apply Hpd.
             ++ now apply Hpk1.
          -- intros y d. unfold column_of. rewrite Hcol'. apply Hsh1.
          -- eapply frame_trans; [exact Hfr|]. eapply frame_trans; eauto.
        * intros d Hd. unfold column_of. rewrite Hcol'. now apply Hdone1.
        * intros y Hy. unfold column_of. rewrite Hcol'. now apply Hrest1.
        * intros y. unfold names. rewrite Hcol'. apply Hnames1.
        * intros d Hd Hud. rewrite Hk'. destruct (String.eqb_spec (c_name d) (c_name c)) as [E'|N].
          -- exists (unique_index (c_name c)). split; [reflexivity|]. rewrite E'. apply index_matches_refl. constructor.
          -- rewrite Hk1. apply in_app_or in Hd as [Hd|[<-|[]]]; [|congruence]. now apply (ac_unique _ _ H).
        * intros y Hy. rewrite Hk'. destruct (String.eqb_spec y (c_name c)) as [->|N].
          -- exfalso. apply (Hy c); auto. apply in_or_app. right. now left.
          -- rewrite Hk1. apply (ac_keys _ _ H). intros d Hd. apply Hy. apply in_or_app. now left.
        * intros y k Hy. rewrite Hk'. destruct (String.eqb_spec y (c_name c)) as [->|N]; [congruence|]. rewrite Hk1. now apply (ac_stay _ _ H).
        * rewrite Hfk', Hfk1. apply (ac_fks _ _ H).
    - constructor; auto.
      + split; [exact Hg1|]. split; [exact Hpk1|]. split; [exact Hsh1|]. eapply frame_trans; eauto.
      + intros d Hd Hud. apply in_app_or in Hd as [Hd|[<-|[]]]; [|congruence]. rewrite Hk1. now apply (ac_unique _ _ H).
      + intros y Hy. rewrite Hk1. apply (ac_keys _ _ H). intros d Hd. apply Hy. apply in_or_app. now left.
      + intros y k' Hy. rewrite Hk1. now apply (ac_stay _ _ H).
      + rewrite Hfk1. apply (ac_fks _ _ H). }
  assert (Huq : is_unique (c_key c) = true -> key_of st (c_name c) <> None ->
     exists k, key_of st (c_name c) = Some k /\ index_matches k (unique_index (c_name c))).
  { intros Hu Hk. destruct (key_of st (c_name c)) as [k|] eqn:Ek; [|congruence]. exists k. split; [reflexivity|].
    apply named_some in Ek as [Hk1 Hk2]. now apply (se_unique _ _ _ Hse c k). }
  destruct (find_column (t_columns ct) (c_name c)) as [cc|] eqn:Ef.
  - destruct Hcur as (kpos & c0 & Hc0 & ->). set (cc := set_position kpos c0) in *.
    cbn [c_autoinc set_position] in Ha. fold (c_autoinc cc) in Ha. fold (first_version cc c) in Ha.
    assert (Hcc0 : c_name c0 = c_name c) by (apply named_some in Hc0; tauto).
    assert (Hin : In (c_name c) (names s)) by (apply column_names_in; rewrite Hstc; eauto).
    unfold ddls_column_mysql in Ha. cbv zeta in Ha. bind_inv Ha. apply ok_inj in Ha. subst a.
    destruct (first_fields cc c) as (F1 & F2 & F3 & _).
    set (ch := _ || _) in E.
    (* after the optional CHANGE COLUMN *)
    assert (Hch : exists s1 c1, exec a0 s = Some s1 /\ good s1 /\ same_frame s s1 /\ t_indexes s1 = t_indexes s /\ t_fks s1 = t_fks s /\
       (forall y, In y (names s1) <-> In y (names s) \/ y = c_name c) /\
       (forall y, column_of s1 y = if String.eqb y (c_name c) then Some c1 else column_of s y) /\ first_copy c c1).
    { destruct ch eqn:Ech.
      - bind_inv E. injection E as <-.
        assert (Hfa : c_autoinc (first_version cc c) = true -> c_autoinc c0 = true).
        { unfold first_version. cbn [c_autoinc cc set_position]. destruct (c_autoinc c0); auto. }
        destruct (do_change n (c_name c) (first_version cc c) (if change_order ct t cc (first_version cc c) then pos_of prev else PosNone) s Hg)
          as (s1 & E1 & Hg1 & Hf1 & Hi1 & Hfk1 & Hn1 & Hc1).
        + exact F1.
        + exact Hin.
        + destruct (change_order _ _ _ _); [right|now left]. exists prev. split; [reflexivity|]. intros q Hq.
          assert (Hqd := Hprev q Hq). split; [apply (ac_names _ _ H); now right|]. intros ->. tauto.
        + intros Hau. exists c0. rewrite Hstc. split; [exact Hc0|]. left. now apply Hfa.
        + exists s1, (kept_notnull s (recorded (first_version cc c))).
          destruct (kept_recorded s (first_version cc c)) as (K1 & K2 & K3). rewrite F1 in K1.
          split.
          { apply exec_one; [|exact Hg1]. cbn [s_eff]. change (c_name cc) with (c_name c0). rewrite Hcc0. exact E1. }
          repeat (split; [assumption|]). split.
          { intros y. rewrite Hn1. intuition (subst; auto). }
          split; [exact Hc1|]. split; [exact K3|]. split; [exact K1|]. split.
          { apply first_recorded. apply kept_copies; [exact Hdef|]. intros Hp. apply (se_primary _ _ _ Hse c Hc).
            eapply st_pk_frame; eauto. }
          rewrite Hc0, K2. split.
          { intros Ha1 Ha2. unfold first_version. cbn [c_autoinc cc set_position]. now rewrite Ha1. }
          intros Hau. exists c0. split; [reflexivity|]. now apply Hfa.
      - injection E as <-. exists s, c0. split; [reflexivity|]. split; [exact Hg|]. split; [apply frame_refl|].
        split; [reflexivity|]. split; [reflexivity|]. split.
        { intros y. intuition (subst; auto). }
        split.
        { intros y. destruct (String.eqb_spec y (c_name c)) as [->|]; [|reflexivity]. now rewrite Hstc. }
        unfold ch in Ech. apply orb_false_iff in Ech as [Ech _]. apply orb_false_iff in Ech as [Ed1 Ed2].
        apply negb_false_iff in Ed1, Ed2. apply definition_spec in Ed1. apply default_spec in Ed2.
        rewrite first_definition in Ed1. rewrite first_default in Ed2.
        split; [eapply Hsh; rewrite Hstc; exact Hc0|]. split; [exact Hcc0|]. split; [split; assumption|]. rewrite Hc0. split; [auto|]. eauto. }
    destruct Hch as (s1 & c1 & Hex & Hg1 & Hf1 & Hi1 & Hfk1 & Hn1 & Hc1 & Hcopy).
    specialize (Hfin s1 c1 Hg1 Hf1 Hi1 Hfk1 Hn1 Hc1 Hcopy Huq).
    assert (Hcond : is_unique (c_key (first_version cc c)) && negb (is_unique (c_key cc)) &&
       match find_index (t_indexes ct) (c_name (first_version cc c)) with None => true | _ => false end =
       is_unique (c_key c) && match key_of st (c_name c) with None => true | _ => false end).
    { replace (c_key (first_version cc c)) with (c_key c) by (unfold first_version; now destruct (c_autoinc cc)). rewrite F1.
      replace (c_key cc) with KeyNone.
      - cbn [is_unique negb]. now rewrite andb_true_r.
      - symmetry. apply (Hsh (c_name c) c0). now rewrite Hstc. }
    rewrite Hcond. rewrite (exec_then _ _ _ _ Hex). destruct (is_unique (c_key c) && _).
    + destruct Hfin as (s' & E' & Hg' & Hafter). exists s'. split; [|exact Hafter].
      cbn [exec s_eff]. unfold exec1. cbn [alter_table]. rewrite F1, E'. now rewrite (good_integrity _ Hg').
    + exists s1. auto.
  - unfold ddls_new_column in Ha. bind_inv Ha. injection Ha as <-. cbn [c_name set_autoinc] in *.
    assert (Hnin : ~ In (c_name c) (names s)).
    { rewrite column_names_in, Hstc, Hcur. intros (x & Hx). discriminate. }
    destruct (put_somewhere (recorded (set_autoinc false c)) prev (t_columns s)) as (L & EL).
    { intros p Hp. apply (ac_names _ _ H). right. now apply Hprev. }
    destruct (do_put (recorded (set_autoinc false c)) (pos_of prev) s (t_columns s) L Hg) as (Hg1 & Hc1 & Hn1); auto.
    { intros x. tauto. } { apply (good_names _ Hg). }
    cbn [c_name recorded set_autoinc] in Hc1, Hn1.
    assert (Hcopy : first_copy c (recorded (set_autoinc false c))).
    { split; [apply recorded_shape|]. split; [reflexivity|]. split; [exact (copies_recorded c Hdef)|]. rewrite Hcur. split; [exact I|]. discriminate. }
    specialize (Hfin (with_columns L s) (recorded (set_autoinc false c)) Hg1 (conj eq_refl eq_refl) eq_refl eq_refl Hn1 Hc1 Hcopy Huq).
    assert (Hu : is_unique (c_key c) = true -> key_of st (c_name c) = None).
    { intros Hu. destruct (key_of st (c_name c)) as [k|] eqn:Ek; [|reflexivity]. exfalso. apply named_some in Ek as [Hk1 Hk2].
      destruct (se_unique _ _ _ Hse c k Hc Hu Hk1 Hk2) as [Hi _]. apply column_names_in in Hi as (x & Hx). congruence. }
    assert (Hal : alter_table (EffAddColumn (t_name t) (set_autoinc false c) (pos_of prev)) s =
       if is_unique (c_key c) then add_key (unique_index (c_name c)) (with_columns L s) else Some (with_columns L s)).
    { cbn [alter_table c_name set_autoinc c_key]. rewrite (proj2 (mem_not_in _ _) Hnin). now rewrite EL. }
    destruct (is_unique (c_key c)) eqn:Eu; cbn [andb] in Hfin.
    + rewrite (Hu eq_refl) in Hfin. destruct Hfin as (s' & E' & Hg' & Hafter). exists s'. split; [|exact Hafter].
      cbn [exec s_eff]. unfold exec1. rewrite Hal, E'. now rewrite (good_integrity _ Hg').
    + exists (with_columns L s). split; [|exact Hfin]. cbn [exec s_eff]. unfold exec1. rewrite Hal. now rewrite (good_integrity _ Hg1).
Qed.

Lemma columns_loop rest : forall done prev o s, t_columns t = done ++ rest -> after_columns done s ->
  (forall p, prev = Some p -> In p (map c_name done)) -> ddls_columns Mysql ct t prev rest = Ok o ->
  exists s', exec o s = Some s' /\ after_columns (done ++ rest) s'.
Proof.
  induction rest as [|c rest IH]; intros done prev o s Ht H Hp Ho; cbn [ddls_columns] in Ho.
  - okinj Ho. exists s. rewrite app_nil_r. auto.
  - bind_inv Ho. bind_inv Ho. okinj Ho.
    assert (Hn := mt_names _ _ Hmt). unfold names in Hn. rewrite Ht, map_app in Hn. cbn [map] in Hn.
    destruct (columns_step done prev c a s H) as (s1 & E1 & H1).
    + rewrite Ht. apply in_or_app. right. now left.
    + apply NoDup_remove_2 in Hn. intros Hi. apply Hn. apply in_or_app. now left.
    + intros d Hd. rewrite Ht. apply in_or_app. now left.
    + exact Hp.
    + exact E.
    + rewrite (exec_then _ _ _ _ E1). destruct (IH (done ++ [c]) (Some (c_name c)) a0 s1) as (s' & E' & H').
      * now rewrite <- app_assoc.
      * exact H1.
      * intros p [= <-]. rewrite map_app. apply in_or_app. right. now left.
      * exact E0.
      * exists s'. rewrite <- app_assoc in H'. auto.
Qed.

Lemma columns_phase o : ddls_columns Mysql ct t None (t_columns t) = Ok o ->
  exists s, exec o st = Some s /\ after_columns (t_columns t) s.
Proof.
  intros H. destruct (columns_loop (t_columns t) [] None o st) as (s & E & Hs); auto.
  - exact after_nothing.
  - discriminate.
  - exists s. auto.
Qed.

(** *** The second phase: AUTO_INCREMENT goes *)
Definition loses (c0 : column) : bool :=
  c_autoinc c0 && match named c_name (c_name c0) (t_columns t) with None => true | Some dc => negb (c_autoinc dc) end.

Section Remove.
Variable s1 : table.
Hypothesis H1 : after_columns (t_columns t) s1.

Definition half (done : list string) (s : table) : Prop :=
  good s /\ same_frame s1 s /\ t_indexes s = t_indexes s1 /\ t_fks s = t_fks s1 /\ (forall y, In y (names s) <-> In y (names s1)) /\
  forall y, column_of s y = match column_of st y with
                            | Some c0 => if mem y done && loses c0 then Some (kept_notnull s1 (recorded (set_autoinc false c0))) else column_of s1 y
                            | None => column_of s1 y
                            end.

Lemma remove_loop rest : forall done o s, t_columns ct = done ++ rest -> half (map c_name done) s ->
  concat_map (fun cc =>
        let gone := match find_column (t_columns t) (c_name cc) with
                    | None => true
                    | Some dc => negb (c_autoinc dc)
                    end in
        if c_autoinc cc && gone then
          do def <- generate_column_definition Mysql (set_autoinc false cc) false;
          Ok [mkStmt (alter Mysql (t_name ct) ++ " CHANGE COLUMN " ++
                      escape_sql_name Mysql (c_name cc) ++ " " ++ def)%string
                     (EffChangeColumn (t_name ct) (c_name cc) (set_autoinc false cc) PosNone)]
        else Ok []) rest = Ok o ->
  exists s', exec o s = Some s' /\ half (map c_name (done ++ rest)) s'.
Proof.
  induction rest as [|cc rest IH]; intros done o s Ht H Ho; cbn [concat_map] in Ho.
  - okinj Ho. exists s. rewrite app_nil_r. auto.
  - bind_inv Ho. bind_inv Ho. okinj Ho. cbv zeta in E.
    assert (Hcc : In cc (number 0 (t_columns st))) by (change (t_columns ct) with (number 0 (t_columns st)) in Ht; rewrite Ht; apply in_or_app; right; now left).
    destruct (in_number _ _ _ Hcc) as (k & c0 & Hc0 & ->).
    assert (Hst : column_of st (c_name c0) = Some c0) by (apply named_self; [apply (ct_names _ Hct)|exact Hc0]).
    destruct H as (Hg & Hf & Hi & Hfk & Hn & Hc).
    assert (Hstep : exists s', exec a s = Some s' /\ half (map c_name (done ++ [set_position k c0])) s').
    { cbn [c_autoinc set_position c_name] in E. fold (loses c0) in E. unfold find_column in E. rewrite find_named in E. fold (loses c0) in E.
      destruct (loses c0) eqn:El.
      - bind_inv E. okinj E.
        destruct (do_change (t_name ct) (c_name c0) (set_autoinc false (set_position k c0)) PosNone s Hg) as (s' & E' & Hg' & Hf' & Hi' & Hfk' & Hn' & Hc').
        + reflexivity.
        + apply Hn. apply (ac_names _ _ H1). left. now apply in_map.
        + now left.
        + discriminate.
        + exists s'. split; [apply exec_one; [exact E'|exact Hg']|].
          split; [exact Hg'|]. split; [eapply frame_trans; eauto|]. split; [congruence|]. split; [congruence|].
          split; [intros y; rewrite Hn'; apply Hn|].
          intros y. rewrite Hc', map_app. cbn [map c_name set_position]. rewrite mem_app. cbn [mem existsb]. rewrite orb_false_r.
          destruct (String.eqb_spec y (c_name c0)) as [->|N].
          * rewrite Hst, orb_true_r, El. cbn [andb]. f_equal. unfold kept_notnull, in_pk. now rewrite Hi.
          * rewrite orb_false_r. apply Hc.
      - okinj E. exists s. split; [reflexivity|]. split; [exact Hg|]. split; [exact Hf|]. split; [exact Hi|]. split; [exact Hfk|]. split; [exact Hn|].
        intros y. rewrite Hc, map_app. cbn [map c_name set_position]. rewrite mem_app. cbn [mem existsb]. rewrite orb_false_r.
        destruct (String.eqb_spec y (c_name c0)) as [->|N]; [|now rewrite orb_false_r]. rewrite Hst, El, !andb_false_r. reflexivity. }
    destruct Hstep as (s' & E' & H'). rewrite (exec_then _ _ _ _ E').
    destruct (IH (done ++ [set_position k c0]) a0 s') as (s'' & E'' & H'').
    + now rewrite <- app_assoc.
    + exact H'.
    + reflexivity.
    + exists s''. rewrite <- app_assoc in H''. auto.
Qed.
End Remove.

(** Columns once AUTO_INCREMENT is gone where it has to go. *)
Definition keeps_auto (c : column) : Prop := c_autoinc c = true /\ exists cc, column_of st (c_name c) = Some cc /\ c_autoinc cc = true.
Record ready (s : table) : Prop := {
  rd_columns : forall c, In c (t_columns t) -> exists s', column_of s (c_name c) = Some s' /\ copies s' c /\ (c_autoinc s' = true <-> keeps_auto c);
  rd_gone : forall y s', ~ In y (names t) -> column_of s y = Some s' -> c_autoinc s' = false;
  rd_names : forall y, In y (names s) <-> In y (names st) \/ In y (names t) }.

Lemma in_names_t x : In x (names t) -> exists c, In c (t_columns t) /\ c_name c = x.
Proof. intros H. apply in_map_iff in H as (c & E & Hc). eauto. Qed.
Lemma named_t c : In c (t_columns t) -> named c_name (c_name c) (t_columns t) = Some c.
Proof. apply named_self. apply (mt_names _ _ Hmt). Qed.

Lemma remove_phase s1 o : after_columns (t_columns t) s1 -> ddls_remove_autoinc Mysql ct t = Ok o ->
  exists s, exec o s1 = Some s /\ ready s /\ inv s /\ t_indexes s = t_indexes s1 /\ t_fks s = t_fks s1.
Proof.
  intros H1 Ho. unfold ddls_remove_autoinc in Ho.
  destruct (remove_loop s1 H1 (t_columns ct) [] o s1) as (s & E & Hg & Hf & Hi & Hfk & Hn & Hc); auto.
  { destruct (ac_inv _ _ H1) as (Hg & _). split; [exact Hg|]. split; [apply frame_refl|]. split; [reflexivity|]. split; [reflexivity|].
    split; [tauto|]. intros y. now destruct (column_of st y). }
  exists s. split; [exact E|]. cbn [app] in Hc.
  assert (Hc2 : forall y, column_of s y = match column_of st y with
      | Some c0 => if loses c0 then Some (kept_notnull s1 (recorded (set_autoinc false c0))) else column_of s1 y | None => column_of s1 y end).
  { intros y. rewrite Hc. destruct (column_of st y) as [c0|] eqn:Ey; [|reflexivity].
    assert (mem y (map c_name (t_columns ct)) = true) as ->; [|reflexivity]. apply mem_in. change (t_columns ct) with (number 0 (t_columns st)).
    rewrite number_names. apply column_names_in. eauto. }
  clear Hc. destruct (ac_inv _ _ H1) as (Hg1 & Hp1 & Hs1 & Hf1).
  assert (Hpk_st : forall x, in_pk s1 x = true -> in_pk st x = true) by (intros x; eapply st_pk_frame; eauto).
  split; [|split; [|split; [exact Hi|exact Hfk]]].
  - constructor.
    + intros c Hcin. destruct (ac_done _ _ H1 c Hcin) as (s' & Es' & Hsh & Hnm & Hcp & Hk & Ha).
      rewrite Hc2. destruct (column_of st (c_name c)) as [c0|] eqn:E0.
      * assert (Hn0 : c_name c0 = c_name c) by (apply named_some in E0; tauto).
        unfold loses. rewrite Hn0, (named_t c Hcin). destruct (c_autoinc c0) eqn:Ea0; cbn [andb].
        -- destruct (c_autoinc c) eqn:Eac; cbn [negb].
           ++ exists s'. split; [exact Es'|]. split; [exact Hcp|]. unfold keeps_auto. rewrite Eac, E0. split; eauto.
           ++ eexists. split; [reflexivity|]. destruct (kept_recorded s1 (set_autoinc false c0)) as (_ & K2 & _). rewrite K2. split.
              ** assert (Hcop : copies c0 c).
                 { apply named_some in E0 as [Hi0 _]. destruct (se_loses _ _ _ Hse c c0); auto. now split. }
                 apply (rerecorded c0) in Hcop; [|apply (ct_columns _ Hct); apply named_some in E0; tauto].
                 unfold kept_notnull. cbn [c_name recorded set_autoinc]. destruct (in_pk s1 (c_name c0)) eqn:Ep; [|exact Hcop].
                 apply copies_notnull; [exact Hcop|]. apply (se_primary _ _ _ Hse c Hcin). rewrite <- Hn0. now apply Hpk_st.
              ** cbn. unfold keeps_auto. rewrite Eac. split; [discriminate|]. now intros [? _].
        -- exists s'. split; [exact Es'|]. split; [exact Hcp|]. unfold keeps_auto. rewrite E0. split.
           ++ intros Hs'. destruct (Ha Hs') as (cc & Ecc & Hcc). congruence.
           ++ intros (_ & cc & Ecc & Hcc). congruence.
      * exists s'. split; [exact Es'|]. split; [exact Hcp|]. unfold keeps_auto. rewrite E0. split.
        -- intros Hs'. destruct (Ha Hs') as (cc & Ecc & Hcc). congruence.
        -- intros (_ & cc & Ecc & Hcc). congruence.
    + intros y s' Hy Hs'. rewrite Hc2 in Hs'. rewrite (ac_rest _ _ H1) in Hs' by exact Hy.
      destruct (column_of st y) as [c0|] eqn:E0; [|discriminate].
      assert (Hn0 : c_name c0 = y) by (apply named_some in E0; tauto).
      unfold loses in Hs'. rewrite Hn0 in Hs'. rewrite (proj2 (named_none c_name y (t_columns t)) Hy) in Hs'. rewrite andb_true_r in Hs'.
      destruct (c_autoinc c0) eqn:Ea0.
      * apply (f_equal (fun o => match o with Some c => c_autoinc c | None => false end)) in Hs'.
        destruct (kept_recorded s1 (set_autoinc false c0)) as (_ & K2 & _). rewrite K2 in Hs'. now rewrite <- Hs'.
      * injection Hs' as <-. exact Ea0.
    + intros y. rewrite Hn. apply (ac_names _ _ H1).
  - split; [exact Hg|]. split; [|split].
    + intros y k. unfold key_of. rewrite Hi. apply Hp1.
    + intros y c Hy. rewrite Hc2 in Hy. destruct (column_of st y) as [c0|]; [|eapply Hs1; eauto].
      destruct (loses c0); [|eapply Hs1; eauto]. apply (f_equal (fun o => match o with Some c => c | None => c end)) in Hy. subst c. apply kept_recorded.
    + eapply frame_trans; eauto.
Qed.

(** *** Keys *)

(** The keys named in [P] are as declared, the others as they were. *)
Record settled (P : list string) (s : table) : Prop := {
  sk_inv : inv s;
  sk_names : forall x, In x (names t) -> In x (names s);
  sk_done : forall i, In i keys -> In (i_name i) P -> exists k, key_of s (i_name i) = Some k /\ index_matches k i;
  sk_rest : forall y, ~ In y P -> key_of s y = key_of st y;
  sk_gone : forall y, In y P -> ~ In y (map i_name keys) -> key_of s y = None;
  sk_auto : forall x c, column_of s x = Some c -> c_autoinc c = true ->
    exists i k, In i keys /\ key_of s (i_name i) = Some k /\ index_matches k i /\ begins k x }.

Definition wrong (y : string) (k : index) : Prop := forall i, In i keys -> i_name i = y -> ~ index_matches k i.

Lemma key_of_name s y k : key_of s y = Some k -> i_name k = y.
Proof. intros H. now apply named_some in H. Qed.

Lemma can_drop P s y k : settled P s -> ~ In y P -> key_of st y = Some k -> wrong y k ->
  forall x c, column_of s x = Some c -> c_autoinc c = true -> exists y' k', y' <> y /\ key_of s y' = Some k' /\ begins k' x.
Proof.
  intros H Hy Hk Hw x c Hx Hc. destruct (sk_auto _ _ H x c Hx Hc) as (i & k' & Hi & Hk' & Hm & Hb).
  exists (i_name i), k'. split; [|auto]. intros E. rewrite E, (sk_rest _ _ H _ Hy), Hk in Hk'. injection Hk' as <-. exact (Hw i Hi E Hm).
Qed.

Definition new_key (s : table) (y : string) (o : option index) (s' : table) : Prop :=
  forall z, key_of s' z = if String.eqb z y then o else key_of s z.

Lemma inv_keys s s' y o : inv s -> good s' -> same_frame s s' -> (forall k, o = Some k -> (i_primary k = true <-> y = "PRIMARY")) ->
  shaped s' -> new_key s y o s' -> inv s'.
Proof.
  intros (_ & Hp & _ & Hf) Hg Hf' Hk Hsh Hn. split; [exact Hg|]. split; [|split; [exact Hsh|eapply frame_trans; eauto]].
  intros z k Hz. rewrite Hn in Hz. destruct (String.eqb_spec z y) as [->|N]; auto.
Qed.

Lemma shaped_same s s' : t_columns s' = t_columns s -> shaped s -> shaped s'.
Proof. intros E H y c. unfold column_of. rewrite E. apply H. Qed.

(** The key [y] was missing or wrong and now is [j]. *)
Lemma settled_put P s s' y i j : settled P s -> ~ In y P -> inv s' -> (forall x, In x (names s) -> In x (names s')) ->
  new_key s y (Some j) s' -> In i keys -> i_name i = y -> index_matches j i ->
  (forall k, key_of st y = Some k -> ~ index_matches k i) ->
  (forall x c, column_of s' x = Some c -> c_autoinc c = true -> exists c', column_of s x = Some c' /\ c_autoinc c' = true) ->
  settled (y :: P) s'.
Proof.
  intros H Hy Hinv Hnm Hn Hi Ei Hm Hw Ha. constructor; auto.
  - intros x Hx. apply Hnm. now apply (sk_names _ _ H).
  - intros i' Hi' Hin. rewrite Hn. destruct (String.eqb_spec (i_name i') y) as [E|N].
    + rewrite (key_unique i' i); auto; [eauto|congruence].
    + destruct Hin as [Hin|Hin]; [congruence|]. now apply (sk_done _ _ H).
  - intros z Hz. rewrite Hn. destruct (String.eqb_spec z y) as [->|N]; [exfalso; apply Hz; now left|].
    apply (sk_rest _ _ H). intros Hi'. apply Hz. now right.
  - intros z Hz Hnk. rewrite Hn. destruct (String.eqb_spec z y) as [->|N].
    + exfalso. apply Hnk. rewrite <- Ei. now apply in_map.
    + destruct Hz as [Hz|Hz]; [congruence|]. now apply (sk_gone _ _ H).
  - intros x c Hx Hc. destruct (Ha x c Hx Hc) as (c' & Hx' & Hc'). destruct (sk_auto _ _ H x c' Hx' Hc') as (i' & k' & Hi' & Hk' & Hm' & Hb).
    exists i', k'. split; [exact Hi'|]. split; [|auto]. rewrite Hn. destruct (String.eqb_spec (i_name i') y) as [E|N]; [|exact Hk'].
    exfalso. rewrite E, (sk_rest _ _ H _ Hy) in Hk'. apply (Hw k'); [exact Hk'|]. rewrite (key_unique i i'); auto. congruence.
Qed.

(** The key [y] is gone. *)
Lemma settled_drop P s s' y : settled P s -> inv s' -> names s' = names s ->
  new_key s y None s' -> ~ In y (map i_name keys) ->
  (forall x c, column_of s' x = Some c -> c_autoinc c = true -> exists c', column_of s x = Some c' /\ c_autoinc c' = true) ->
  settled (y :: P) s'.
Proof.
  intros H Hinv Hnm Hn Hk Ha. constructor; auto.
  - intros x Hx. rewrite Hnm. now apply (sk_names _ _ H).
  - intros i' Hi' Hin. rewrite Hn. destruct (String.eqb_spec (i_name i') y) as [E|N].
    + exfalso. apply Hk. rewrite <- E. now apply in_map.
    + destruct Hin as [Hin|Hin]; [congruence|]. now apply (sk_done _ _ H).
  - intros z Hz. rewrite Hn. destruct (String.eqb_spec z y) as [->|N]; [exfalso; apply Hz; now left|].
    apply (sk_rest _ _ H). intros Hi'. apply Hz. now right.
  - intros z Hz Hnk. rewrite Hn. destruct (String.eqb_spec z y) as [->|N]; [reflexivity|].
    destruct Hz as [Hz|Hz]; [congruence|]. now apply (sk_gone _ _ H).
  - intros x c Hx Hc. destruct (Ha x c Hx Hc) as (c' & Hx' & Hc'). destruct (sk_auto _ _ H x c' Hx' Hc') as (i' & k' & Hi' & Hk' & Hm' & Hb).
    exists i', k'. split; [exact Hi'|]. split; [|auto]. rewrite Hn. destruct (String.eqb_spec (i_name i') y) as [E|N]; [|exact Hk'].
    exfalso. apply Hk. rewrite <- E. now apply in_map.
Qed.

(** Nothing to do for the key [y]. *)
Lemma settled_skip P s y : settled P s -> ~ In y P ->
  (forall i, In i keys -> i_name i = y -> exists k, key_of st y = Some k /\ index_matches k i) ->
  (~ In y (map i_name keys) -> key_of st y = None) -> settled (y :: P) s.
Proof.
  intros H Hy Hi Hn. destruct H as [H1 H2 H3 H4 H5 H6]. constructor; auto.
  - intros i' Hi' [Hin|Hin]; [|auto]. rewrite <- Hin, (H4 y Hy). now apply Hi.
  - intros z Hz. apply H4. intros Hi'. apply Hz. now right.
  - intros z [<-|Hz] Hnk; [|auto]. rewrite (H4 y Hy). auto.
Qed.

Lemma same_auto s s' : t_columns s' = t_columns s ->
  forall x c, column_of s' x = Some c -> c_autoinc c = true -> exists c', column_of s x = Some c' /\ c_autoinc c' = true.
Proof. intros E x c. unfold column_of. rewrite E. eauto. Qed.

Lemma same_names s s' : t_columns s' = t_columns s -> names s' = names s.
Proof. unfold names. now intros ->. Qed.

Lemma settle_key P s y i j o add drop : settled P s -> ~ In y P -> In i keys -> i_name i = y -> i_primary i = false ->
  i_name j = y -> index_matches j i ->
  (forall s, alter_table (s_eff add) s = add_key j s) -> (forall s, alter_table (s_eff drop) s = drop_key y s) ->
  match key_of st y with
  | None => o = [add]
  | Some k => (index_matches k i /\ o = []) \/ (~ index_matches k i /\ o = [drop; add])
  end ->
  exists s', exec o s = Some s' /\ settled (y :: P) s' /\ t_columns s' = t_columns s /\ t_fks s' = t_fks s.
Proof.
  intros H Hy Hi Ei Hp Ej Hm Hadd Hdrop Ho.
  assert (Hpj : i_primary j = false) by (rewrite (index_matches_primary _ _ Hm); exact Hp).
  assert (Hcols : forall x, In x (key_columns j) -> In x (names t)).
  { intros x Hx. rewrite (index_matches_columns _ _ Hm) in Hx. now apply (mt_key_columns _ _ Hmt i). }
  assert (Hpk : forall k, Some j = Some k -> (i_primary k = true <-> y = "PRIMARY")).
  { intros k [= <-]. rewrite (index_matches_primary _ _ Hm), <- Ei. now apply pk_declared. }
  destruct (key_of st y) as [k|] eqn:Ek.
  - destruct Ho as [[Hk ->]|[Hk ->]].
    + exists s. split; [reflexivity|]. split; [|auto]. apply settled_skip; auto.
      * intros i' Hi' E'. rewrite (key_unique i' i); auto; [eauto|congruence].
      * intros Hn. exfalso. apply Hn. rewrite <- Ei. now apply in_map.
    + assert (Hw : wrong y k) by (intros i' Hi' E'; rewrite (key_unique i' i); auto; congruence).
      destruct (sk_inv _ _ H) as (Hg & Hpn & Hsh & Hf).
      destruct (do_drop_key y s k Hg) as (s1 & E1 & Hg1 & Hf1 & Hc1 & Hk1 & Hl1).
      { now rewrite (sk_rest _ _ H). }
      { now apply (can_drop P s y k). }
      destruct (do_add_key j s1 Hg1) as (s2 & E2 & Hg2 & Hf2 & Hc2 & Hk2 & Hl2).
      { now rewrite Ej, Hl1, String.eqb_refl. }
      { exact Hpj. }
      { intros x Hx. rewrite (same_names _ _ Hc1). now apply (sk_names _ _ H), Hcols. }
      assert (Hnew : new_key s y (Some j) s2).
      { intros z. rewrite Hl2, Ej, Hl1. now destruct (String.eqb z y). }
      exists s2. split; [|split; [|split; congruence]].
      * change [drop; add] with ([drop] ++ [add]). rewrite (exec_then _ _ _ s1).
        -- apply exec_one; [now rewrite Hadd|exact Hg2].
        -- apply exec_one; [now rewrite Hdrop|exact Hg1].
      * apply (settled_put P s s2 y i j); auto.
        -- eapply (inv_keys s s2 y (Some j)); eauto; [apply (sk_inv _ _ H)|eapply frame_trans; eauto|].
           apply (shaped_same s); [congruence|exact Hsh].
        -- intros x Hx. now rewrite (same_names s s2) by congruence.
        -- intros k0 Hk0. rewrite Ek in Hk0. injection Hk0 as <-. exact Hk.
        -- apply same_auto. congruence.
  - subst o. destruct (sk_inv _ _ H) as (Hg & Hpn & Hsh & Hf).
    destruct (do_add_key j s Hg) as (s2 & E2 & Hg2 & Hf2 & Hc2 & Hk2 & Hl2).
    { rewrite Ej, (sk_rest _ _ H) by exact Hy. exact Ek. }
    { exact Hpj. }
    { intros x Hx. now apply (sk_names _ _ H), Hcols. }
    assert (Hnew : new_key s y (Some j) s2) by (intros z; now rewrite Hl2, Ej).
    exists s2. split; [apply exec_one; [now rewrite Hadd|exact Hg2]|]. split; [|auto].
    apply (settled_put P s s2 y i j); auto.
    + eapply (inv_keys s s2 y (Some j)); eauto; [apply (sk_inv _ _ H)|]. apply (shaped_same s); auto.
    + intros x Hx. now rewrite (same_names s s2).
    + intros k0. congruence.
    + now apply same_auto.
Qed.

(** *** The third phase: the primary key *)
Definition unique_names : list string := map c_name (filter (fun c => is_unique (c_key c)) (t_columns t)).

Lemma primary_not_unique : ~ In "PRIMARY" unique_names.
Proof.
  intros H. apply in_map_iff in H as (c & E & Hc). apply filter_In in Hc as [Hc Hu].
  pose proof (pk_declared _ (unique_declared c Hc Hu)) as Hpk. cbn [unique_index i_primary i_name] in Hpk. apply Hpk in E. discriminate.
Qed.

Lemma auto_declared c : In c (t_columns t) -> c_autoinc c = true -> exists i, In i (t_indexes (created_table t)) /\ begins i (c_name c).
Proof.
  intros Hc Ha. pose proof (mt_integrity _ _ Hmt) as H. unfold integrity in H. rewrite !andb_true_iff in H. destruct H as [[_ H] _].
  rewrite forallb_forall in H. cbn [created_table t_columns] in H. specialize (H _ (in_map _ _ _ Hc)). cbn [c_autoinc c_name] in H.
  rewrite Ha in H. unfold keyed in H. apply existsb_exists in H as (i & Hi & Hk). exists i. split; [exact Hi|].
  unfold begins. destruct (key_columns i) as [|y r]; [discriminate|]. apply String.eqb_eq in Hk. subst. eauto.
Qed.

Lemma ready_settled s s1 : after_columns (t_columns t) s1 -> ready s -> inv s -> t_indexes s = t_indexes s1 -> settled unique_names s.
Proof.
  intros H1 Hr Hi Hx. assert (Hk : forall y, key_of s y = key_of s1 y) by (intros y; unfold key_of; now rewrite Hx). constructor; auto.
  - intros x H. apply (rd_names _ Hr). now right.
  - intros i Hin Hu. rewrite Hk. apply in_map_iff in Hu as (c & E & Hc). apply filter_In in Hc as [Hc Hu].
    assert (i = unique_index (c_name c)) as ->.
    { apply key_unique; auto. now apply unique_declared. }
    apply (ac_unique _ _ H1 c Hc Hu).
  - intros y Hy. rewrite Hk. apply (ac_keys _ _ H1). intros c Hc Hu E. apply Hy. rewrite <- E. apply in_map. now apply filter_In.
  - intros y Hy Hn. exfalso. apply Hn. apply in_map_iff in Hy as (c & E & Hc). apply filter_In in Hc as [Hc Hu]. rewrite <- E.
    change (c_name c) with (i_name (unique_index (c_name c))). apply in_map. now apply unique_declared.
  - intros x c Hc Ha. destruct (in_dec string_dec x (names t)) as [Hin|Hout].
    + destruct (in_names_t x Hin) as (d & Hd & <-). destruct (rd_columns _ Hr d Hd) as (s' & Es' & _ & Hs').
      rewrite Es' in Hc. injection Hc as ->. apply Hs' in Ha as (Had & cc & Hcc & Hca).
      apply named_some in Hcc as [Hcc En]. destruct (se_keeps _ _ _ Hse d cc Hd Hcc En Hca Had) as (k & i & rest & Hki & Hkc & Hin' & Ein & Hm).
      exists i, k. split; [exact Hin'|]. split; [|split; [exact Hm|exists rest; exact Hkc]]. rewrite Hk, Ein. apply (ac_stay _ _ H1).
      apply named_self; [apply (ct_keys _ Hct)|exact Hki].
    + rewrite (rd_gone _ Hr x c Hout Hc) in Ha. discriminate.
Qed.

Lemma current_pk : primary_key ct = key_of st "PRIMARY".
Proof.
  unfold primary_key. change (t_indexes ct) with (t_indexes st).
  assert (E : find i_primary (t_indexes st) = key_of st "PRIMARY").
  { unfold key_of, named. pose proof (ct_primary_name _ Hct) as Hp. induction (t_indexes st) as [|i r IH]; [reflexivity|]. cbn [find].
    pose proof (Hp i (or_introl eq_refl)) as Hi. destruct (String.eqb_spec (i_name i) "PRIMARY") as [E|N], (i_primary i) eqn:Ei; try reflexivity.
    - apply Hi in E. discriminate.
    - exfalso. now apply N, Hi.
    - apply IH. intros j Hj. apply Hp. now right. }
  rewrite E. destruct (key_of st "PRIMARY"); [reflexivity|].
  assert (filter (fun c => is_key_primary (c_key c)) (t_columns ct) = []) as ->; [|reflexivity].
  destruct (filter _ _) as [|c r] eqn:Ef; [reflexivity|]. assert (Hc : In c (c :: r)) by now left. rewrite <- Ef in Hc. apply filter_In in Hc as [Hc Hk].
  apply in_number in Hc as (k & c0 & Hc0 & ->). cbn [c_key set_position] in Hk. destruct (ct_columns _ Hct c0 Hc0) as (E0 & _). now rewrite E0 in Hk.
Qed.

Lemma declared_pk : match primary_key t with
  | Some i => In i keys /\ i_name i = "PRIMARY" /\ short_key i /\ forall c, In c (t_columns t) -> In (c_name c) (key_columns i) -> says_not_null c
  | None => ~ In "PRIMARY" (map i_name keys)
  end.
Proof.
  unfold primary_key. destruct (find i_primary (t_indexes t)) as [i|] eqn:Ef.
  - apply find_some in Ef as [Hi Hp]. pose proof (inline_declared i Hi) as Hk. split; [exact Hk|]. split; [now apply pk_declared|].
    split; [now apply (mt_inline _ _ Hmt)|]. intros c Hc Hx. left. apply (mt_primary _ _ Hmt c Hc). apply existsb_exists. exists i.
    split; [exact Hi|]. rewrite Hp. now apply mem_in.
  - set (cols := filter (fun c => is_key_primary (c_key c)) (t_columns t)).
    destruct (map (fun c => mkIndexColumn (c_name c) None "") cols) as [|a r] eqn:Em.
    + assert (Hc : cols = []) by (destruct cols; [reflexivity|discriminate]). intros Hin. apply in_map_iff in Hin as (i & Ei & Hi).
      apply (pk_declared i Hi) in Ei. unfold keys, all_keys in Hi. apply in_app_or in Hi as [Hi|Hi].
      * cbn [created_table t_indexes] in Hi. fold cols in Hi.
        change (filter (fun c => match c_key c with KeyPrimary => true | _ => false end) (t_columns t)) with cols in Hi. rewrite Hc in Hi.
        cbn [app] in Hi. apply in_app_or in Hi as [Hi|Hi].
        -- rewrite (find_none _ _ Ef i Hi) in Ei. discriminate.
        -- apply in_map_iff in Hi as (c & <- & _). discriminate.
      * now rewrite (mt_separate _ _ Hmt i Hi) in Ei.
    + split; [|split; [reflexivity|split]].
      * unfold keys, all_keys. apply in_or_app. left. cbn [created_table t_indexes].
        change (filter (fun c => match c_key c with KeyPrimary => true | _ => false end) (t_columns t)) with cols. apply in_or_app. left. rewrite Em.
        destruct cols; [discriminate|]. now left.
      * split; [reflexivity|]. split; [reflexivity|]. split; [simpl; auto|]. intros c Hc. cbn [i_columns] in Hc. rewrite <- Em in Hc.
        apply in_map_iff in Hc as (c' & <- & _). now left.
      * intros c Hc Hx. right. unfold key_columns in Hx. cbn [i_columns] in Hx. rewrite <- Em, map_map in Hx. cbn [ic_column] in Hx.
        apply in_map_iff in Hx as (c' & En & Hc'). apply filter_In in Hc' as [Hc' Hk].
        assert (c' = c) as ->. { pose proof (named_t c' Hc') as E1. pose proof (named_t c Hc) as E2. rewrite En in E1. congruence. }
        destruct (c_key c); now try discriminate.
Qed.

Lemma primary_phase s o : settled unique_names s -> ready s -> ddls_primary_key Mysql ct t = Ok o ->
  exists s', exec o s = Some s' /\ settled ("PRIMARY" :: unique_names) s' /\ ready s' /\ t_fks s' = t_fks s.
Proof.
  intros H Hr Ho. unfold ddls_primary_key in Ho. rewrite current_pk in Ho. pose proof declared_pk as Hd. pose proof primary_not_unique as Hu.
  assert (Hskip : forall P : Prop, (P -> settled ("PRIMARY" :: unique_names) s) -> P ->
    exists s', exec [] s = Some s' /\ settled ("PRIMARY" :: unique_names) s' /\ ready s' /\ t_fks s' = t_fks s) by (intros Q HQ q; exists s; auto).
  destruct (sk_inv _ _ H) as (Hg & Hpn & Hsh & Hf).
  (* adding the new one *)
  assert (Hadd : forall i s1 stm, primary_key t = Some i -> stmt_add_index Mysql (t_name t) i = Ok stm ->
    (forall k, key_of st "PRIMARY" = Some k -> ~ index_matches k i) ->
    good s1 -> same_frame s s1 -> t_columns s1 = t_columns s -> t_fks s1 = t_fks s -> new_key s "PRIMARY" None s1 ->
    exists s', exec [stm] s1 = Some s' /\ settled ("PRIMARY" :: unique_names) s' /\ ready s' /\ t_fks s' = t_fks s).
  { intros i s1 stm Ei Es Hw Hg1 Hf1 Hc1 Hk1 Hn1. rewrite Ei in Hd. destruct Hd as (Hin & En & Hshort & Hnn).
    assert (Hpi : i_primary i = true) by now apply pk_declared.
    unfold stmt_add_index in Es. bind_inv Es. okinj Es. rewrite Hpi.
    assert (Hcols : forall x, In x (key_columns i) -> In x (names t)) by (intros x; now apply (mt_key_columns _ _ Hmt i)).
    destruct (do_add_pk (recorded_index i) s1 Hg1) as (s2 & E2 & Hg2 & Hf2 & Hnm2 & Hfk2 & Hc2 & Hk2).
    { cbn [recorded_index i_name]. now rewrite En, Hn1. }
    { exact Hpi. }
    { intros x Hx. rewrite recorded_index_columns in Hx. rewrite (same_names _ _ Hc1). now apply (sk_names _ _ H), Hcols. }
    assert (Hc2' : forall x, column_of s2 x = match column_of s x with Some c => Some (if mem x (key_columns i) then set_notnull (Some true) c else c) | None => None end).
    { intros x. rewrite Hc2, recorded_index_columns. unfold column_of. now rewrite Hc1. }
    assert (Hnew : new_key s "PRIMARY" (Some (recorded_index i)) s2).
    { intros z. rewrite Hk2. cbn [recorded_index i_name]. rewrite En, Hn1. now destruct (String.eqb z "PRIMARY"). }
    exists s2. split; [apply exec_one; [exact E2|exact Hg2]|]. split; [|split; [|congruence]].
    - apply (settled_put unique_names s s2 "PRIMARY" i (recorded_index i)); auto.
      + eapply (inv_keys s s2 "PRIMARY" (Some (recorded_index i))); eauto; [apply (sk_inv _ _ H)|eapply frame_trans; eauto| |].
        * intros k [= <-]. cbn [recorded_index i_primary]. rewrite Hpi. tauto.
        * intros y c Hy. rewrite Hc2' in Hy. destruct (column_of s y) as [c'|] eqn:Ey; [|discriminate]. injection Hy as <-.
          destruct (mem y (key_columns i)); [apply shape_notnull|]; eapply Hsh; eauto.
      + intros x Hx. rewrite Hnm2, (same_names _ _ Hc1). exact Hx.
      + now apply recorded_matches.
      + intros x c Hx Hc. rewrite Hc2' in Hx. destruct (column_of s x) as [c'|] eqn:Ex; [|discriminate]. injection Hx as <-. exists c'.
        split; [reflexivity|]. now destruct (mem _ _).
    - constructor.
      + intros c Hc. destruct (rd_columns _ Hr c Hc) as (s' & Es' & Hcp & Ha). rewrite Hc2', Es'. eexists. split; [reflexivity|].
        destruct (mem (c_name c) (key_columns i)) eqn:Em; [|auto]. split; [|exact Ha]. apply copies_notnull; [exact Hcp|]. apply Hnn; auto. now apply mem_in.
      + intros y s' Hy Hs'. rewrite Hc2' in Hs'. destruct (column_of s y) as [c'|] eqn:Ey; [|discriminate]. injection Hs' as <-.
        pose proof (rd_gone _ Hr y c' Hy Ey) as Hgo. now destruct (mem _ _).
      + intros y. rewrite Hnm2, (same_names _ _ Hc1). apply (rd_names _ Hr). }
  (* dropping the old one *)
  assert (Hdrop : forall k, key_of st "PRIMARY" = Some k -> wrong "PRIMARY" k ->
    exists s1, drop_key "PRIMARY" s = Some s1 /\ good s1 /\ same_frame s s1 /\ t_columns s1 = t_columns s /\ t_fks s1 = t_fks s /\ new_key s "PRIMARY" None s1).
  { intros k Hk Hw. destruct (do_drop_key "PRIMARY" s k Hg) as (s1 & E1 & Hg1 & Hf1 & Hc1 & Hk1 & Hl1); [now rewrite (sk_rest _ _ H)|now apply (can_drop unique_names s "PRIMARY" k)|].
    exists s1. auto 10. }
  assert (Hnone : key_of st "PRIMARY" = None -> new_key s "PRIMARY" None s).
  { intros E z. destruct (String.eqb_spec z "PRIMARY") as [->|N]; [|reflexivity]. now rewrite (sk_rest _ _ H). }
  destruct (key_of st "PRIMARY") as [k|] eqn:Ek; destruct (primary_key t) as [i|] eqn:Ei; cbn [are_same_primary_keys] in Ho.
  - destruct (are_same_indexes k i) eqn:Es.
    + okinj Ho. apply (Hskip True); [intros _|exact I]. apply are_same_indexes_spec in Es. destruct Hd as (Hin & En & _). apply settled_skip; auto.
      * intros i' Hi' E'. rewrite (key_unique i' i); auto; [eauto|congruence].
      * intros Hn. exfalso. apply Hn. rewrite <- En. now apply in_map.
    + apply are_same_indexes_false in Es. assert (Hw : wrong "PRIMARY" k).
      { intros i' Hi' E'. destruct Hd as (Hin & En & _). rewrite (key_unique i' i); auto. congruence. }
      cbn [bind] in Ho. bind_inv Ho. bind_inv E. okinj E. okinj Ho.
      destruct (Hdrop k eq_refl Hw) as (s1 & E1 & Hg1 & Hf1 & Hc1 & Hk1 & Hn1).
      destruct (Hadd i s1 a0 eq_refl E0) as (s' & E' & R'); auto.
      { intros k' [= <-]. exact Es. }
      exists s'. split; [|exact R']. rewrite (exec_then _ _ _ s1); [exact E'|]. apply exec_one; auto.
  - cbn [bind] in Ho. okinj Ho. assert (Hw : wrong "PRIMARY" k).
    { intros i' Hi' E'. exfalso. apply Hd. rewrite <- E'. now apply in_map. }
    destruct (Hdrop k eq_refl Hw) as (s1 & E1 & Hg1 & Hf1 & Hc1 & Hk1 & Hn1). exists s1. split; [apply exec_one; auto|]. split; [|split; [|exact Hk1]].
    + apply (settled_drop unique_names s s1); auto.
      * eapply (inv_keys s s1 "PRIMARY" None); eauto; [apply (sk_inv _ _ H)|congruence|]. now apply (shaped_same s).
      * now apply same_names.
      * now apply same_auto.
    + destruct Hr as [R1 R2 R3]. constructor; unfold column_of in *; rewrite ?Hc1; auto. intros y. rewrite (same_names _ _ Hc1). apply R3.
  - cbn [bind] in Ho. bind_inv Ho. bind_inv E. okinj E. okinj Ho. apply (Hadd i s a0 eq_refl E0); auto.
    + congruence.
    + apply frame_refl.
  - okinj Ho. apply (Hskip True); [intros _|exact I]. apply settled_skip; auto. intros i' Hi' E'. exfalso. apply Hd. rewrite <- E'. now apply in_map.
Qed.

(** *** The fourth phase: the indexes of the CREATE TABLE *)
Lemma settled_ext P Q s : (forall y, In y P <-> In y Q) -> settled P s -> settled Q s.
Proof.
  intros E [H1 H2 H3 H4 H5 H6]. constructor; auto.
  - intros i Hi Hq. apply H3; auto. now apply E.
  - intros y Hy. apply H4. now rewrite E.
  - intros y Hy. apply H5. now apply E.
Qed.

Lemma ready_same s s' : t_columns s' = t_columns s -> ready s -> ready s'.
Proof.
  intros E [R1 R2 R3]. constructor; unfold column_of in *; rewrite ?E; auto. intros y. rewrite (same_names _ _ E). apply R3.
Qed.

Lemma keys_split : NoDup (map i_name (t_indexes t) ++ unique_names ++ map i_name (indexes_on n l)).
Proof.
  pose proof (mt_keys _ _ Hmt) as H. unfold all_keys in H. rewrite map_app in H. cbn [created_table t_indexes] in H. rewrite map_app in H.
  rewrite <- app_assoc in H. apply NoDup_app_r in H. rewrite map_app, map_map, <- app_assoc in H. exact H.
Qed.

Lemma nodup_apart {A} (a b : list A) x : NoDup (a ++ b) -> In x a -> In x b -> False.
Proof.
  induction a as [|y a IH]; intros H Ha Hb; [destruct Ha|]. cbn [app] in H. inversion H; subst. destruct Ha as [->|Ha]; [|auto].
  apply H2. apply in_or_app. now right.
Qed.

Lemma add_index_alter tbl i stm : stmt_add_index Mysql tbl i = Ok stm -> forall s, alter_table (s_eff stm) s = add_key (recorded_index i) s.
Proof. unfold stmt_add_index. intros H s. bind_inv H. okinj H. cbn [s_eff]. now destruct (i_primary i). Qed.

Lemma find_index_st y : find_index (t_indexes ct) y = key_of st y.
Proof. exact (find_named i_name y (t_indexes st)). Qed.

Lemma inline_loop rest : forall done o s, t_indexes t = done ++ rest -> settled ("PRIMARY" :: unique_names ++ map i_name done) s ->
  concat_map (ddls_index Mysql ct t) rest = Ok o ->
  exists s', exec o s = Some s' /\ settled ("PRIMARY" :: unique_names ++ map i_name (done ++ rest)) s' /\ t_columns s' = t_columns s /\ t_fks s' = t_fks s.
Proof.
  induction rest as [|i rest IH]; intros done o s Ht H Ho; cbn [concat_map] in Ho.
  - okinj Ho. exists s. rewrite app_nil_r. auto.
  - bind_inv Ho. bind_inv Ho. okinj Ho.
    assert (Hin : In i (t_indexes t)) by (rewrite Ht; apply in_or_app; right; now left).
    pose proof (inline_declared i Hin) as Hik.
    assert (Hstep : exists s', exec a s = Some s' /\ settled ("PRIMARY" :: unique_names ++ map i_name (done ++ [i])) s' /\ t_columns s' = t_columns s /\ t_fks s' = t_fks s).
    { unfold ddls_index in E. destruct (i_primary i) eqn:Ep.
      - okinj E. exists s. split; [reflexivity|]. split; [|auto]. refine (settled_ext _ _ s _ H). intros y.
        apply (pk_declared i Hik) in Ep. rewrite map_app. cbn [map In]. rewrite !in_app_iff. cbn [In]. rewrite Ep. tauto.
      - assert (Hnot : ~ In (i_name i) ("PRIMARY" :: unique_names ++ map i_name done)).
        { intros [Hx|Hx].
          - symmetry in Hx. apply (pk_declared i Hik) in Hx. congruence.
          - pose proof keys_split as Hk. apply in_app_or in Hx as [Hx|Hx].
            + apply (nodup_apart _ _ (i_name i) Hk); [now apply in_map|apply in_or_app; now left].
            + rewrite Ht, map_app, <- app_assoc in Hk. apply (nodup_apart _ _ (i_name i) Hk Hx). now left. }
        assert (Hgo : forall stm, stmt_add_index Mysql (t_name t) i = Ok stm ->
          match key_of st (i_name i) with
          | None => a = [stm]
          | Some k => (index_matches k i /\ a = []) \/ (~ index_matches k i /\ a = [stmt_drop_index Mysql (t_name t) (i_name i); stm])
          end -> exists s', exec a s = Some s' /\ settled ("PRIMARY" :: unique_names ++ map i_name (done ++ [i])) s' /\ t_columns s' = t_columns s /\ t_fks s' = t_fks s).
        { intros stm Es Ha.
          destruct (settle_key _ s (i_name i) i (recorded_index i) a stm (stmt_drop_index Mysql (t_name t) (i_name i)) H Hnot Hik eq_refl Ep eq_refl) as (s' & E' & H' & R'); auto.
          - apply recorded_matches. now apply (mt_inline _ _ Hmt).
          - now apply (add_index_alter (t_name t)).
          - exists s'. split; [exact E'|]. split; [|exact R']. refine (settled_ext _ _ s' _ H'). intros y.
            rewrite map_app. cbn [map In]. rewrite !in_app_iff. cbn [In]. tauto. }
        rewrite find_index_st in E. destruct (key_of st (i_name i)) as [k|] eqn:Ek.
        + destruct (are_same_indexes k i) eqn:Es.
          * okinj E. destruct (stmt_add_index Mysql (t_name t) i) as [stm| | |] eqn:Est.
            -- apply (Hgo stm eq_refl). left. split; [now apply are_same_indexes_spec|reflexivity].
            -- exists s. split; [reflexivity|]. split; [|auto]. apply (settled_ext (i_name i :: "PRIMARY" :: unique_names ++ map i_name done)).
               ++ intros y. rewrite map_app. cbn [map In]. rewrite !in_app_iff. cbn [In]. tauto.
               ++ apply settled_skip; auto.
                  ** intros i' Hi' E'. rewrite (key_unique i' i); auto. exists k. split; [exact Ek|now apply are_same_indexes_spec].
                  ** intros Hn. exfalso. apply Hn. now apply in_map.
            -- exists s. split; [reflexivity|]. split; [|auto]. apply (settled_ext (i_name i :: "PRIMARY" :: unique_names ++ map i_name done)).
               ++ intros y. rewrite map_app. cbn [map In]. rewrite !in_app_iff. cbn [In]. tauto.
               ++ apply settled_skip; auto.
                  ** intros i' Hi' E'. rewrite (key_unique i' i); auto. exists k. split; [exact Ek|now apply are_same_indexes_spec].
                  ** intros Hn. exfalso. apply Hn. now apply in_map.
            -- exists s. split; [reflexivity|]. split; [|auto]. apply (settled_ext (i_name i :: "PRIMARY" :: unique_names ++ map i_name done)).
               ++ intros y. rewrite map_app. cbn [map In]. rewrite !in_app_iff. cbn [In]. tauto.
               ++ apply settled_skip; auto.
                  ** intros i' Hi' E'. rewrite (key_unique i' i); auto. exists k. split; [exact Ek|now apply are_same_indexes_spec].
                  ** intros Hn. exfalso. apply Hn. now apply in_map.
          * bind_inv E. okinj E. apply (Hgo a1 eq_refl). right. split; [now apply are_same_indexes_false|reflexivity].
        + bind_inv E. okinj E. now apply (Hgo a1 eq_refl). }
    destruct Hstep as (s1 & E1 & H1 & Hc1 & Hf1). rewrite (exec_then _ _ _ _ E1).
    destruct (IH (done ++ [i]) a0 s1) as (s' & E' & H' & Hc' & Hf'); auto.
    + now rewrite <- app_assoc.
    + exists s'. rewrite <- app_assoc in H'. split; [exact E'|]. split; [exact H'|]. split; congruence.
Qed.

(** *** The fifth phase: AUTO_INCREMENT comes *)
Definition inline_names : list string := "PRIMARY" :: unique_names ++ map i_name (t_indexes t).

Definition columns_at (Q : column -> Prop) (s : table) : Prop :=
  (forall c, In c (t_columns t) -> exists s', column_of s (c_name c) = Some s' /\ copies s' c /\ (c_autoinc s' = true <-> Q c)) /\
  (forall y s', ~ In y (names t) -> column_of s y = Some s' -> c_autoinc s' = false) /\
  (forall y, In y (names s) <-> In y (names st) \/ In y (names t)).

Lemma created_in_inline i : In i (t_indexes (created_table t)) -> In (i_name i) inline_names.
Proof.
  intros H. cbn [created_table t_indexes] in H. apply in_app_or in H as [H|H].
  - left. destruct (filter _ _); [destruct H|]. destruct H as [<-|[]]. reflexivity.
  - right. apply in_or_app. apply in_app_or in H as [H|H]; [right; now apply in_map|left].
    apply in_map_iff in H as (c & <- & Hc). cbn [unique_index i_name]. now apply in_map.
Qed.

Lemma created_declared i : In i (t_indexes (created_table t)) -> In i keys.
Proof. intros H. unfold keys, all_keys. apply in_or_app. now left. Qed.

Lemma one_auto c d : In c (t_columns t) -> In d (t_columns t) -> c_autoinc c = true -> c_autoinc d = true -> c = d.
Proof.
  intros Hc Hd Hac Had. pose proof (mt_integrity _ _ Hmt) as H. unfold integrity in H. rewrite !andb_true_iff in H. destruct H as [_ H].
  apply Nat.leb_le in H. cbn [created_table t_columns] in H.
  assert (Hl : length (filter c_autoinc (t_columns t)) <= 1).
  { revert H. generalize (in_pk t). intros f H. clear -H. induction (t_columns t) as [|c r IH]; [simpl; lia|]. cbn [map filter c_autoinc] in H |- *.
    destruct (c_autoinc c); cbn [length] in *; [|auto]. assert (Hr := H). apply le_S_n in H.
    assert (Hz : length (filter c_autoinc r) <= 0); [|lia]. clear -H. revert H.
    induction r as [|d r IH]; intros H; [simpl; lia|]. cbn [map filter c_autoinc] in H |- *. destruct (c_autoinc d); cbn [length] in *; [lia|auto]. }
  assert (H1 : In c (filter c_autoinc (t_columns t))) by now apply filter_In.
  assert (H2 : In d (filter c_autoinc (t_columns t))) by now apply filter_In.
  destruct (filter c_autoinc (t_columns t)) as [|x [|y r]]; [destruct H1| |simpl in Hl; lia].
  destruct H1 as [<-|[]], H2 as [<-|[]]. reflexivity.
Qed.

Lemma pk_says_not_null s c : settled inline_names s -> In c (t_columns t) -> in_pk s (c_name c) = true -> says_not_null c.
Proof.
  intros H Hc Hp. destruct (sk_inv _ _ H) as (Hg & Hpn & _). apply (in_pk_key s _ Hpn) in Hp as (k & Hk & Hx); [|apply (good_keys _ Hg)].
  pose proof declared_pk as Hd. destruct (primary_key t) as [i|].
  - destruct Hd as (Hin & En & _ & Hnn). apply Hnn; [exact Hc|]. destruct (sk_done _ _ H i Hin) as (k' & Hk' & Hm); [rewrite En; now left|].
    rewrite En in Hk'. assert (k' = k) as -> by congruence. now rewrite <- (index_matches_columns _ _ Hm).
  - rewrite (sk_gone _ _ H "PRIMARY") in Hk; [discriminate|now left|exact Hd].
Qed.

Lemma auto_loop rest : forall done o s, t_columns t = done ++ rest -> settled inline_names s ->
  columns_at (fun c => keeps_auto c \/ (In c done /\ c_autoinc c = true)) s ->
  concat_map (fun dc =>
        let missing := match find_column (t_columns ct) (c_name dc) with
                       | None => true
                       | Some cc => negb (c_autoinc cc)
                       end in
        if c_autoinc dc && missing then
          do def <- generate_column_definition Mysql dc false;
          Ok [mkStmt (alter Mysql (t_name ct) ++ " CHANGE COLUMN " ++
                      escape_sql_name Mysql (c_name dc) ++ " " ++ def)%string
                     (EffChangeColumn (t_name ct) (c_name dc) dc PosNone)]
        else Ok []) rest = Ok o ->
  exists s', exec o s = Some s' /\ settled inline_names s' /\
    columns_at (fun c => keeps_auto c \/ (In c (done ++ rest) /\ c_autoinc c = true)) s' /\ t_fks s' = t_fks s.
Proof.
  induction rest as [|c rest IH]; intros done o s Ht H Hc Ho; cbn [concat_map] in Ho.
  - okinj Ho. exists s. rewrite app_nil_r. auto.
  - bind_inv Ho. bind_inv Ho. okinj Ho. cbv zeta in E.
    assert (Hin : In c (t_columns t)) by (rewrite Ht; apply in_or_app; right; now left).
    assert (Hstep : exists s', exec a s = Some s' /\ settled inline_names s' /\
      columns_at (fun d => keeps_auto d \/ (In d (done ++ [c]) /\ c_autoinc d = true)) s' /\ t_fks s' = t_fks s).
    { pose proof (current_column (c_name c)) as Hcc. destruct Hc as (Hc1 & Hc2 & Hc3).
      destruct (c_autoinc c && _) eqn:Em in E.
      - apply andb_true_iff in Em as [Hac Hmiss]. bind_inv E. okinj E.
        destruct (sk_inv _ _ H) as (Hg & Hpn & Hsh & Hf).
        destruct (Hc1 c Hin) as (s0 & Es0 & _ & _).
        destruct (auto_declared c Hin Hac) as (i & Hi & Hb).
        destruct (sk_done _ _ H i (created_declared i Hi) (created_in_inline i Hi)) as (k & Hk & Hm).
        assert (Hbk : begins k (c_name c)).
        { destruct Hb as (r & Hr). exists r. now rewrite (index_matches_columns _ _ Hm). }
        destruct (do_change (t_name ct) (c_name c) c PosNone s Hg eq_refl) as (s' & E' & Hg' & Hf' & Hi' & Hfk' & Hn' & Hcol').
        { apply Hc3. right. now apply in_map. }
        { now left. }
        { intros _. exists s0. split; [exact Es0|]. right. split; [eauto|]. intros y d Hy Hd.
          destruct (in_dec string_dec y (names t)) as [Hyin|Hyout].
          - destruct (in_names_t y Hyin) as (c' & Hc' & <-). destruct (Hc1 c' Hc') as (s1 & Es1 & _ & Ha1).
            rewrite Es1 in Hy. injection Hy as ->. apply Ha1 in Hd.
            assert (Hac' : c_autoinc c' = true) by (destruct Hd as [[Hd _]|[_ Hd]]; exact Hd).
            now rewrite (one_auto c' c).
          - rewrite (Hc2 y d Hyout Hy) in Hd. discriminate. }
        assert (Hkey : forall y, key_of s' y = key_of s y) by (intros y; unfold key_of; now rewrite Hi').
        exists s'. split; [apply exec_one; [exact E'|exact Hg']|]. split; [|split; [|exact Hfk']].
        + destruct H as [H1 H2 H3 H4 H5 H6]. constructor.
          * split; [exact Hg'|]. split; [|split; [|eapply frame_trans; eauto]].
            -- intros y k0. rewrite Hkey. apply Hpn.
            -- intros y d Hy. rewrite Hcol' in Hy. destruct (String.eqb y (c_name c)); [|eapply Hsh; eauto].
               apply (f_equal (fun o => match o with Some c => c | None => c end)) in Hy. subst d. apply kept_recorded.
          * intros x Hx. apply Hn'. now apply H2.
          * intros j Hj Hp. rewrite Hkey. now apply H3.
          * intros y Hy. rewrite Hkey. now apply H4.
          * intros y Hy. rewrite Hkey. now apply H5.
          * intros x d Hx Hd. rewrite Hcol' in Hx. destruct (String.eqb_spec x (c_name c)) as [->|N].
            -- exists i, k. rewrite Hkey. split; [now apply created_declared|]. auto.
            -- destruct (H6 x d Hx Hd) as (j & k0 & Hj & Hk0 & R). exists j, k0. rewrite Hkey. auto.
        + split; [|split].
          * intros d Hd. rewrite Hcol'. destruct (String.eqb_spec (c_name d) (c_name c)) as [Ed|N].
            -- assert (d = c) as ->. { pose proof (named_t d Hd) as Q1. pose proof (named_t c Hin) as Q2. rewrite Ed in Q1. congruence. }
               eexists. split; [reflexivity|]. split.
               ++ apply kept_copies; [now apply (mt_columns _ _ Hmt)|]. now apply pk_says_not_null.
               ++ destruct (kept_recorded s c) as (_ & -> & _). split; [|auto]. intros _. right. split; [apply in_or_app; right; now left|exact Hac].
            -- destruct (Hc1 d Hd) as (s1 & Es1 & Hcp & Ha1). exists s1. split; [exact Es1|]. split; [exact Hcp|]. rewrite Ha1.
               split; (intros [K|[K1 K2]]; [now left|right; split; [|exact K2]]).
               ++ apply in_or_app. now left.
               ++ apply in_app_or in K1 as [K1|[K1|[]]]; [exact K1|congruence].
          * intros y s'' Hy Hs'. rewrite Hcol' in Hs'. destruct (String.eqb_spec y (c_name c)) as [->|N].
            -- exfalso. apply Hy. now apply in_map.
            -- eapply Hc2; eauto.
          * intros y. rewrite Hn'. apply Hc3.
      - okinj E. exists s. split; [reflexivity|]. split; [exact H|]. split; [|reflexivity]. split; [|split; assumption].
        intros d Hd. destruct (Hc1 d Hd) as (s1 & Es1 & Hcp & Ha1). exists s1. split; [exact Es1|]. split; [exact Hcp|]. rewrite Ha1.
        split; (intros [K|[K1 K2]]; [now left|]).
        + right. split; [apply in_or_app; now left|exact K2].
        + apply in_app_or in K1 as [K1|[K1|[]]]; [right; auto|]. subst d. left. rewrite K2 in Em. cbn [andb] in Em.
          destruct (find_column (t_columns ct) (c_name c)) as [cc|]; [|discriminate]. destruct Hcc as (kk & c0 & Hc0 & ->).
          split; [exact K2|]. exists c0. split; [exact Hc0|]. cbn [c_autoinc set_position] in Em. now apply negb_false_iff in Em. }
    destruct Hstep as (s1 & E1 & H1 & Hc1 & Hf1). rewrite (exec_then _ _ _ _ E1).
    destruct (IH (done ++ [c]) a0 s1) as (s' & E' & H' & Hc' & Hf'); auto.
    + now rewrite <- app_assoc.
    + exists s'. rewrite <- app_assoc in Hc'. split; [exact E'|]. split; [exact H'|]. split; [exact Hc'|congruence].
Qed.

(** The columns are as desired. *)
Definition columns_done : table -> Prop := columns_at (fun c => c_autoinc c = true).

Lemma auto_phase o s : settled inline_names s -> ready s -> ddls_add_autoinc Mysql ct t = Ok o ->
  exists s', exec o s = Some s' /\ settled inline_names s' /\ columns_done s' /\ t_fks s' = t_fks s.
Proof.
  intros H Hr Ho. destruct (auto_loop (t_columns t) [] o s) as (s' & E & H' & (K1 & K2 & K3) & Hf); auto.
  - split; [|split].
    + intros c Hc. destruct (rd_columns _ Hr c Hc) as (s' & E & Hcp & Ha). exists s'. split; [exact E|]. split; [exact Hcp|]. rewrite Ha.
      cbn [In]. tauto.
    + apply (rd_gone _ Hr).
    + apply (rd_names _ Hr).
  - exists s'. split; [exact E|]. split; [exact H'|]. split; [|exact Hf]. split; [|split; assumption].
    intros c Hc. destruct (K1 c Hc) as (s0 & E0 & Hcp & Ha). exists s0. split; [exact E0|]. split; [exact Hcp|]. rewrite Ha. cbn [app].
    split; [intros [[K _]|[_ K]]; exact K|auto].
Qed.

(** *** The sixth phase: foreign keys *)
Definition fks_at (done : list foreign_key) (s0 s : table) : Prop :=
  good s /\ same_frame s0 s /\ t_columns s = t_columns s0 /\ t_indexes s = t_indexes s0 /\
  (forall f, In f done -> exists f', fk_of s (fk_constraint f) = Some f' /\ fk_same f' f) /\
  (forall y, ~ In y (map fk_constraint done) -> fk_of s y = fk_of st y).

Lemma fk_columns_t f x : In f (t_fks t) -> In x (fk_index_columns f) -> In x (names t).
Proof.
  intros Hf Hx. pose proof (mt_integrity _ _ Hmt) as H. unfold integrity in H. rewrite !andb_true_iff in H. destruct H as [[[_ H] _] _].
  rewrite forallb_forall in H. specialize (H f Hf). rewrite forallb_forall in H. specialize (H x Hx). apply mem_in in H.
  unfold names in H |- *. cbn [created_table t_columns] in H. now rewrite map_map in H.
Qed.

Lemma fk_same_refl f : fk_same f f.
Proof. unfold fk_same, fk_matches, action_matches. auto 10. Qed.

Lemma fks_loop s0 rest : (forall x, In x (names t) -> In x (names s0)) -> forall done o s, t_fks t = done ++ rest -> fks_at done s0 s ->
  concat_map (ddls_fk Mysql ct t) rest = Ok o ->
  exists s', exec o s = Some s' /\ fks_at (done ++ rest) s0 s'.
Proof.
  intros Hnames. induction rest as [|f rest IH]; intros done o s Ht H Ho; cbn [concat_map] in Ho.
  - okinj Ho. exists s. rewrite app_nil_r. auto.
  - bind_inv Ho. bind_inv Ho. okinj Ho.
    assert (Hin : In f (t_fks t)) by (rewrite Ht; apply in_or_app; right; now left).
    assert (Hnd : ~ In (fk_constraint f) (map fk_constraint done)).
    { intros Hx. pose proof (mt_fks _ _ Hmt) as Hk. rewrite Ht, map_app in Hk. apply (nodup_apart _ _ _ Hk Hx). now left. }
    assert (Hstep : exists s', exec a s = Some s' /\ fks_at (done ++ [f]) s0 s').
    { destruct H as (Hg & Hf & Hc & Hi & Hd & Hr).
      assert (Hput : forall s1, good s1 -> same_frame s s1 -> t_columns s1 = t_columns s -> t_indexes s1 = t_indexes s ->
        (forall y, fk_of s1 y = if String.eqb y (fk_constraint f) then None else fk_of s y) ->
        exists s', exec [stmt_add_fk Mysql (t_name t) f] s1 = Some s' /\ fks_at (done ++ [f]) s0 s').
      { intros s1 Hg1 Hf1 Hc1 Hi1 Hl1. destruct (do_add_fk (t_name t) f s1 Hg1) as (s2 & E2 & Hg2 & Hf2 & Hc2 & Hi2 & Hl2).
        - now rewrite Hl1, String.eqb_refl.
        - intros x Hx. rewrite (same_names s0 s1) by congruence. apply Hnames. now apply (fk_columns_t f).
        - exists s2. split; [apply exec_one; [exact E2|exact Hg2]|]. split; [exact Hg2|]. split; [eapply frame_trans; [exact Hf|]; eapply frame_trans; eauto|].
          split; [congruence|]. split; [congruence|]. split.
          + intros g Hgi. rewrite Hl2, Hl1. destruct (String.eqb_spec (fk_constraint g) (fk_constraint f)) as [Eg|N].
            * exists f. split; [reflexivity|]. apply in_app_or in Hgi as [Hgi|[<-|[]]]; [|apply fk_same_refl].
              exfalso. apply Hnd. rewrite <- Eg. now apply in_map.
            * apply in_app_or in Hgi as [Hgi|[<-|[]]]; [now apply Hd|congruence].
          + intros y Hy. rewrite Hl2, Hl1. rewrite map_app, in_app_iff in Hy. cbn [map In] in Hy.
            destruct (String.eqb_spec y (fk_constraint f)) as [Ey|N]; [exfalso; apply Hy; right; left; congruence|]. apply Hr. tauto. }
      unfold ddls_fk in E. destruct (String.eqb _ _); [discriminate|].
      change (find_fk (t_fks ct) (fk_constraint f)) with (find (fun f0 => String.eqb (fk_constraint f0) (fk_constraint f)) (t_fks st)) in E.
      rewrite find_named in E. fold (fk_of st (fk_constraint f)) in E.
      destruct (fk_of st (fk_constraint f)) as [cf|] eqn:Ecf.
      - assert (Hcf : In cf (t_fks st) /\ fk_constraint cf = fk_constraint f) by now apply named_some in Ecf. destruct Hcf as [Hcf Ecn].
        destruct (are_same_foreign_keys Mysql cf f) eqn:Es.
        + okinj E. exists s. split; [reflexivity|]. apply are_same_foreign_keys_spec in Es.
          split; [exact Hg|]. split; [exact Hf|]. split; [exact Hc|]. split; [exact Hi|]. split.
          * intros g Hgi. apply in_app_or in Hgi as [Hgi|[<-|[]]]; [now apply Hd|]. exists cf. rewrite (Hr _ Hnd). split; [exact Ecf|].
            now apply (se_fks _ _ _ Hse).
          * intros y Hy. apply Hr. rewrite map_app, in_app_iff in Hy. tauto.
        + okinj E. rewrite Ecn. destruct (do_drop_fk (t_name t) (fk_constraint f) s cf Hg) as (s1 & E1 & Hg1 & Hf1 & Hc1 & Hi1 & Hl1); [now rewrite Hr|].
          destruct (Hput s1) as (s2 & E2 & H2); auto. exists s2. split; [|exact H2]. rewrite (exec_then _ _ _ s1); [exact E2|]. apply exec_one; auto.
      - okinj E. apply Hput; auto.
        + apply frame_refl.
        + intros y. destruct (String.eqb_spec y (fk_constraint f)) as [->|N]; [|reflexivity]. now rewrite Hr. }
    destruct Hstep as (s1 & E1 & H1). rewrite (exec_then _ _ _ _ E1).
    destruct (IH (done ++ [f]) a0 s1) as (s' & E' & H'); auto.
    + now rewrite <- app_assoc.
    + exists s'. rewrite <- app_assoc in H'. auto.
Qed.

(** Columns and keys do not notice. *)
Lemma settled_same P s s' : good s' -> same_frame s s' -> t_columns s' = t_columns s -> t_indexes s' = t_indexes s -> settled P s -> settled P s'.
Proof.
  intros Hg Hf Hc Hi [(H0 & H1 & H2 & H3) H4 H5 H6 H7 H8]. constructor; unfold key_of, column_of in *; rewrite ?Hi, ?Hc; auto.
  - split; [exact Hg|]. split; [unfold pk_named, key_of; now rewrite Hi|]. split; [unfold shaped, column_of; now rewrite Hc|eapply frame_trans; eauto].
  - intros x Hx. rewrite (same_names _ _ Hc). auto.
Qed.

Lemma columns_same Q s s' : t_columns s' = t_columns s -> columns_at Q s -> columns_at Q s'.
Proof.
  intros E (R1 & R2 & R3). unfold columns_at, column_of in *. rewrite E. split; [exact R1|]. split; [exact R2|]. intros y. rewrite (same_names _ _ E). apply R3.
Qed.

(** *** The seventh phase: separate CREATE INDEX statements *)
Lemma separate_loop rest : Forall (fun d => ddl_table d = Some n) rest -> (forall d, In d rest -> mysql_statement d) ->
  forall (done : list index) s, indexes_on n l = done ++ indexes_on n rest ->
  settled (inline_names ++ map i_name done) s ->
  exists s', exec (flat_map (standalone Mysql ct) rest) s = Some s' /\
    settled (inline_names ++ map i_name (done ++ indexes_on n rest)) s' /\ t_columns s' = t_columns s /\ t_fks s' = t_fks s.
Proof.
  intros Hall. induction Hall as [|d rest Hd Hrest IH]; intros Hms done s Hl H.
  - exists s. cbn [flat_map indexes_on exec]. rewrite app_nil_r. auto.
  - cbn [flat_map]. assert (Hms' : forall d0, In d0 rest -> mysql_statement d0) by (intros; apply Hms; now right).
    assert (Hidx : forall i : index, forall d', (d' = d) -> indexes_on n (d :: rest) = i :: indexes_on n rest -> standalone Mysql ct d = 
        match find_index (t_indexes ct) (i_name i) with
        | None => [verbatim d]
        | Some ci => if are_same_indexes ci i then [] else [stmt_drop_index Mysql n (i_name ci); verbatim d]
        end -> (forall s, alter_table (s_eff (verbatim d)) s = add_key i s) ->
        exists s', exec (standalone Mysql ct d ++ flat_map (standalone Mysql ct) rest) s = Some s' /\
          settled (inline_names ++ map i_name (done ++ indexes_on n (d :: rest))) s' /\ t_columns s' = t_columns s /\ t_fks s' = t_fks s).
    { intros i d' _ Ei Est Hal. rewrite Ei in Hl.
      assert (Hin : In i (indexes_on n l)) by (rewrite Hl; apply in_or_app; right; now left).
      pose proof (separate_declared i Hin) as Hik.
      assert (Hnot : ~ In (i_name i) (inline_names ++ map i_name done)).
      { intros Hx. pose proof keys_split as Hk. rewrite Hl in Hk. apply in_app_or in Hx as [[Hx|Hx]|Hx].
        - symmetry in Hx. apply (pk_declared i Hik) in Hx. pose proof (mt_separate _ _ Hmt i Hin). congruence.
        - apply in_app_or in Hx as [Hx|Hx].
          + apply NoDup_app_r in Hk. apply (nodup_apart _ _ (i_name i) Hk Hx). rewrite map_app. apply in_or_app. right. now left.
          + apply (nodup_apart _ _ (i_name i) Hk Hx). apply in_or_app. right. rewrite map_app. apply in_or_app. right. now left.
        - apply NoDup_app_r, NoDup_app_r in Hk. rewrite map_app in Hk. apply (nodup_apart _ _ (i_name i) Hk Hx). now left. }
      destruct (settle_key _ s (i_name i) i i (standalone Mysql ct d) (verbatim d) (stmt_drop_index Mysql n (i_name i)) H Hnot Hik eq_refl) as (s1 & E1 & H1 & Hc1 & Hf1); auto.
      - now apply (mt_separate _ _ Hmt).
      - apply index_matches_refl. apply (mt_key _ _ Hmt i Hik).
      - rewrite Est, find_index_st. destruct (key_of st (i_name i)) as [k|] eqn:Ek; [|reflexivity]. rewrite (key_of_name _ _ _ Ek).
        destruct (are_same_indexes k i) eqn:Es; [left|right]; (split; [|reflexivity]); [now apply are_same_indexes_spec|now apply are_same_indexes_false].
      - rewrite (exec_then _ _ _ _ E1). destruct (IH Hms' (done ++ [i]) s1) as (s' & E' & H' & Hc' & Hf').
        + now rewrite <- app_assoc.
        + refine (settled_ext _ _ s1 _ H1). intros y. rewrite map_app. cbn [map In]. rewrite !in_app_iff. cbn [In]. tauto.
        + exists s'. split; [exact E'|]. rewrite <- app_assoc in H'. rewrite Ei. split; [exact H'|]. split; congruence. }
    pose proof (Hms d (or_introl eq_refl)) as Hd'.
    destruct d as [? ?|? tn i|? tn i|? ? ?|? ? ?|? ? ?|?|?]; simpl in Hd; try discriminate; try (destruct Hd'; fail).
    + cbn [standalone app]. apply IH; auto.
    + injection Hd as Hd. subst tn. apply (Hidx i _ eq_refl).
      * cbn [indexes_on flat_map]. now rewrite String.eqb_refl.
      * reflexivity.
      * reflexivity.
    + injection Hd as Hd. subst tn. apply (Hidx i _ eq_refl).
      * cbn [indexes_on flat_map]. now rewrite String.eqb_refl.
      * reflexivity.
      * reflexivity.
Qed.

(** *** Clean-up *)
Hypothesis Hstm : forall d, In d l -> mysql_statement d.
Let dt := full_table l t.

Lemma no_fks_on : fks_on n l = [].
Proof.
  unfold fks_on. apply flat_map_nil. intros d Hd. pose proof (Hstm d Hd) as H. now destruct d.
Qed.
Lemma no_policies_on : policies_on n l = [].
Proof.
  unfold policies_on. apply flat_map_nil. intros d Hd. pose proof (Hstm d Hd) as H. now destruct d.
Qed.
Lemma no_marks : pk_marks n l = [].
Proof.
  unfold pk_marks. apply flat_map_nil. intros d Hd. pose proof (Hstm d Hd) as H. now destruct d.
Qed.
Lemma dt_columns : t_columns dt = t_columns t.
Proof.
  unfold dt, full_table. cbn [t_columns]. fold n. rewrite no_marks. rewrite <- (map_id (t_columns t)) at 2. now apply map_ext.
Qed.
Lemma dt_fks : t_fks dt = t_fks t.
Proof. unfold dt, full_table. cbn [t_fks]. fold n. now rewrite no_fks_on, app_nil_r. Qed.
Lemma dt_policies : t_policies dt = [].
Proof. unfold dt, full_table. cbn [t_policies]. fold n. now rewrite no_policies_on, (mt_policies _ _ Hmt). Qed.

(** Foreign keys. *)
Definition fks_done (s : table) : Prop :=
  (forall f, In f (t_fks t) -> exists f', fk_of s (fk_constraint f) = Some f' /\ fk_same f' f) /\
  (forall y f, fk_of s y = Some f -> In y (map fk_constraint (t_fks t))).

Definition drop_fk (f : foreign_key) : list stmt :=
  if mem (fk_constraint f) (map fk_constraint (t_fks t)) then [] else [stmt_drop_fk_mysql (t_name ct) (fk_constraint f)].
Lemma cleanup_fks_eq : cleanup_fks Mysql ct dt = flat_map drop_fk (t_fks ct).
Proof. apply flat_map_ext. intros f. rewrite contains_string_mem, dt_fks. reflexivity. Qed.

Lemma cleanup_fks_loop s0 rest : forall done s, t_fks ct = done ++ rest -> good s -> same_frame s0 s -> t_columns s = t_columns s0 -> t_indexes s = t_indexes s0 ->
  (forall y, fk_of s y = if mem y (map fk_constraint done) && negb (mem y (map fk_constraint (t_fks t))) then None else fk_of s0 y) ->
  (forall y, ~ In y (map fk_constraint (t_fks t)) -> fk_of s0 y = fk_of st y) ->
  exists s', exec (flat_map drop_fk rest) s = Some s' /\
    good s' /\ same_frame s0 s' /\ t_columns s' = t_columns s0 /\ t_indexes s' = t_indexes s0 /\
    (forall y, fk_of s' y = if mem y (map fk_constraint (done ++ rest)) && negb (mem y (map fk_constraint (t_fks t))) then None else fk_of s0 y).
Proof.
  induction rest as [|f rest IH]; intros done s Ht Hg Hf Hc Hi Hl H0.
  - exists s. rewrite app_nil_r. auto 10.
  - cbn [flat_map]. change (done ++ f :: rest) with (done ++ [f] ++ rest). rewrite (app_assoc done). unfold drop_fk at 1.
    destruct (mem (fk_constraint f) (map fk_constraint (t_fks t))) eqn:Em.
    + cbn [app]. apply IH; auto; [now rewrite <- app_assoc|]. intros y. rewrite Hl, map_app, mem_app. cbn [map mem existsb]. rewrite orb_false_r.
      destruct (String.eqb_spec y (fk_constraint f)) as [->|N]; [|now rewrite orb_false_r]. rewrite Em. cbn [negb]. now rewrite !andb_false_r.
    + assert (Hst : fk_of st (fk_constraint f) = Some f).
      { apply named_self; [apply (ct_fks _ Hct)|]. change (t_fks ct) with (t_fks st) in Ht. rewrite Ht. apply in_or_app. right. now left. }
      assert (Hd : mem (fk_constraint f) (map fk_constraint done) = false).
      { apply mem_not_in. intros Hx. pose proof (ct_fks _ Hct) as Hk. change (t_fks ct) with (t_fks st) in Ht. rewrite Ht, map_app in Hk.
        apply (nodup_apart _ _ _ Hk Hx). now left. }
      destruct (do_drop_fk (t_name ct) (fk_constraint f) s f Hg) as (s1 & E1 & Hg1 & Hf1 & Hc1 & Hi1 & Hl1).
      { rewrite Hl, Hd. cbn [andb]. rewrite H0; [exact Hst|]. now apply mem_not_in. }
      rewrite (exec_then _ _ s s1) by (apply exec_one; auto). apply IH; auto.
      * now rewrite <- app_assoc.
      * eapply frame_trans; eauto.
      * congruence.
      * congruence.
      * intros y. rewrite Hl1, Hl, map_app, mem_app. cbn [map mem existsb]. rewrite orb_false_r.
        destruct (String.eqb_spec y (fk_constraint f)) as [->|N]; [|now rewrite orb_false_r]. now rewrite orb_true_r, Em.
Qed.

(** Keys. *)
Definition all_names : list string := inline_names ++ map i_name (indexes_on n l).

Lemma all_names_keys y : In y (map i_name keys) -> In y all_names.
Proof.
  intros H. apply in_map_iff in H as (i & <- & Hi). unfold keys, all_keys in Hi. unfold all_names. apply in_or_app. apply in_app_or in Hi as [Hi|Hi].
  - left. now apply created_in_inline.
  - right. now apply in_map.
Qed.
Lemma all_names_declared y : In y all_names -> y = "PRIMARY" \/ In y (map i_name keys).
Proof.
  unfold all_names. intros H. apply in_app_or in H as [[H|H]|H].
  - left. congruence.
  - right. apply in_app_or in H as [H|H].
    + apply in_map_iff in H as (c & <- & Hc). apply filter_In in Hc as [Hc Hu]. change (c_name c) with (i_name (unique_index (c_name c))).
      apply in_map. now apply unique_declared.
    + apply in_map_iff in H as (i & <- & Hi). apply in_map. now apply inline_declared.
  - right. apply in_map_iff in H as (i & <- & Hi). apply in_map. now apply separate_declared.
Qed.

Lemma dt_index_names y : In y (index_names (t_indexes dt)) -> In y (map i_name keys).
Proof.
  unfold dt, full_table. cbn [t_indexes]. unfold index_names. rewrite map_app, in_app_iff. intros [H|H].
  - apply in_map_iff in H as (i & <- & Hi). apply in_map. now apply inline_declared.
  - apply in_map_iff in H as (i & <- & Hi). apply in_map. now apply separate_declared.
Qed.

Lemma cleanup_indexes_loop rest : forall done o s P, t_indexes ct = done ++ rest -> settled P s ->
  (forall y, In y all_names -> In y P) -> (forall y, In y P -> In y all_names \/ In y (map i_name done)) ->
  (forall k, In k done -> In (i_name k) P \/ key_tolerated t k) ->
  concat_map (fun i => if contains_string (index_names (t_indexes dt)) (i_name i) ||
                          contains_string (fk_index_names (t_fks dt)) (i_name i) then Ok []
                       else absent_index Mysql ct dt i) rest = Ok o ->
  exists s' P', exec o s = Some s' /\ settled P' s' /\ t_columns s' = t_columns s /\ t_fks s' = t_fks s /\
    (forall y, In y all_names -> In y P') /\ (forall k, In k (done ++ rest) -> In (i_name k) P' \/ key_tolerated t k).
Proof.
  induction rest as [|k rest IH]; intros done o s P Ht H HP1 HP2 Hd Ho; cbn [concat_map] in Ho.
  - okinj Ho. exists s, P. rewrite app_nil_r. auto 10.
  - bind_inv Ho. bind_inv Ho. okinj Ho. change (t_indexes ct) with (t_indexes st) in *.
    assert (Hin : In k (t_indexes st)) by (rewrite Ht; apply in_or_app; right; now left).
    assert (Hkst : key_of st (i_name k) = Some k) by (apply named_self; [apply (ct_keys _ Hct)|exact Hin]).
    assert (Hkeep : forall o', Ok o' = Ok a -> o' = [] -> In (i_name k) P \/ key_tolerated t k ->
      exists s' P', exec (a ++ a0) s = Some s' /\ settled P' s' /\ t_columns s' = t_columns s /\ t_fks s' = t_fks s /\
       (forall y, In y all_names -> In y P') /\ (forall j, In j (done ++ k :: rest) -> In (i_name j) P' \/ key_tolerated t j)).
    { intros o' Eo -> Hk. apply ok_inj in Eo. subst a. cbn [app]. destruct (IH (done ++ [k]) a0 s P) as (s' & P' & E' & H' & R1 & R2 & R3 & R4); auto.
      - now rewrite <- app_assoc.
      - intros y Hy. destruct (HP2 y Hy) as [K|K]; [now left|right]. rewrite map_app. apply in_or_app. now left.
      - intros j Hj. apply in_app_or in Hj as [Hj|[<-|[]]]; auto.
      - exists s', P'. rewrite <- app_assoc in R4. auto 10. }
    assert (Hdrop : a = [stmt_drop_index Mysql (t_name ct) (i_name k)] -> ~ In (i_name k) all_names ->
      exists s' P', exec (a ++ a0) s = Some s' /\ settled P' s' /\ t_columns s' = t_columns s /\ t_fks s' = t_fks s /\
       (forall y, In y all_names -> In y P') /\ (forall j, In j (done ++ k :: rest) -> In (i_name j) P' \/ key_tolerated t j)).
    { intros -> Hn. assert (Hnk : ~ In (i_name k) (map i_name keys)) by (intros Hx; now apply Hn, all_names_keys).
      assert (HnP : ~ In (i_name k) P).
      { intros Hx. destruct (HP2 _ Hx) as [K|K]; [tauto|]. pose proof (ct_keys _ Hct) as Hk. rewrite Ht, map_app in Hk. apply (nodup_apart _ _ _ Hk K). now left. }
      destruct (sk_inv _ _ H) as (Hg & Hpn & Hsh & Hf).
      destruct (do_drop_key (i_name k) s k Hg) as (s1 & E1 & Hg1 & Hf1 & Hc1 & Hk1 & Hl1).
      { now rewrite (sk_rest _ _ H). }
      { apply (can_drop P s (i_name k) k); auto. intros i Hi Ei. exfalso. apply Hnk. rewrite <- Ei. now apply in_map. }
      rewrite (exec_then _ _ s s1) by (apply exec_one; auto).
      destruct (IH (done ++ [k]) a0 s1 (i_name k :: P)) as (s' & P' & E' & H' & R1 & R2 & R3 & R4); auto.
      - now rewrite <- app_assoc.
      - apply (settled_drop P s s1); auto.
        + eapply (inv_keys s s1 (i_name k) None); eauto; [apply (sk_inv _ _ H)|congruence|]. now apply (shaped_same s).
        + now apply same_names.
        + now apply same_auto.
      - intros y Hy. right. auto.
      - intros y Hy. rewrite map_app, in_app_iff. cbn [map In]. destruct Hy as [<-|Hy]; [tauto|]. destruct (HP2 y Hy); tauto.
      - intros j Hj. apply in_app_or in Hj as [Hj|[<-|[]]]; [|left; now left]. destruct (Hd j Hj); [left; now right|now right].
      - exists s', P'. rewrite <- app_assoc in R4. split; [exact E'|]. split; [exact H'|]. split; [congruence|]. split; [congruence|]. auto. }
    destruct (contains_string (index_names (t_indexes dt)) (i_name k)) eqn:E1.
    { cbn [orb] in E. apply (Hkeep [] E eq_refl). left. apply HP1, all_names_keys, dt_index_names. now apply contains_string_spec. }
    cbn [orb] in E. rewrite dt_fks in E. destruct (contains_string (fk_index_names (t_fks t)) (i_name k)) eqn:E2.
    { apply (Hkeep [] E eq_refl). destruct (i_primary k) eqn:Ep.
      - left. apply HP1. apply (ct_primary_name _ Hct k Hin) in Ep. rewrite Ep. now left.
      - right. split; [exact Ep|]. left. apply fk_index_names_spec. now apply contains_string_spec. }
    unfold absent_index in E. rewrite dt_columns in E. destruct (i_primary k) eqn:Ep.
    { assert (Hp : In (i_name k) P).
      { apply HP1. apply (ct_primary_name _ Hct k Hin) in Ep. rewrite Ep. now left. }
      destruct (find _ _) in E.
      - destruct (i_columns k) in E; [discriminate|]. destruct (String.eqb _ _) in E; [|discriminate]. apply (Hkeep [] E eq_refl). now left.
      - apply (Hkeep [] E eq_refl). now left. }
    assert (Hnot : ~ key_tolerated t k -> ~ In (i_name k) all_names).
    { intros Hnt Hx. apply all_names_declared in Hx as [Hx|Hx].
      - apply (ct_primary_name _ Hct k Hin) in Hx. congruence.
      - apply in_map_iff in Hx as (i & Ei & Hi). unfold keys, all_keys in Hi. apply in_app_or in Hi as [Hi|Hi].
        + cbn [created_table t_indexes] in Hi. apply in_app_or in Hi as [Hi|Hi].
          * destruct (filter _ _) in Hi; [destruct Hi|]. destruct Hi as [<-|[]]. cbn [i_name] in Ei. symmetry in Ei.
            apply (ct_primary_name _ Hct k Hin) in Ei. congruence.
          * apply in_app_or in Hi as [Hi|Hi].
            -- apply contains_string_false in E1. apply E1. unfold dt, full_table. cbn [t_indexes]. unfold index_names. rewrite map_app, in_app_iff. left.
               rewrite <- Ei. now apply in_map.
            -- apply in_map_iff in Hi as (c & <- & Hc). apply filter_In in Hc as [Hc Hu]. cbn [unique_index i_name] in Ei.
               destruct (se_unique _ _ _ Hse c k Hc Hu Hin (eq_sym Ei)) as (_ & Hm). apply Hnt. split; [exact Ep|]. right. destruct Hm as (M1 & _ & M3 & _).
               split; [exact M1|]. cbn [unique_index i_columns] in M3. inversion M3 as [|ic ? rr ? Hic Hrr]; subst. exists c, ic, rr.
               split; [exact Hc|]. split; [exact Hu|]. split; [reflexivity|]. destruct Hic as [-> _]. reflexivity.
        + apply contains_string_false in E1. apply E1. unfold dt, full_table. cbn [t_indexes]. unfold index_names. rewrite map_app, in_app_iff. right.
          rewrite <- Ei. now apply in_map. }
    assert (Hbk : ~ backs_fk (t_fks t) (i_name k)).
    { intros Hb. apply fk_index_names_spec in Hb. apply contains_string_false in E2. tauto. }
    destruct (i_unique k) eqn:Eu.
    + destruct (t_columns t) as [|c0 cs] eqn:Ec.
      * apply ok_inj in E. apply Hdrop; [auto|]. apply Hnot. intros [_ [Hb|(_ & c & ic & r & Hc & _)]]; [tauto|]. rewrite Ec in Hc. destruct Hc.
      * destruct (i_columns k) as [|ic ics] eqn:Eic; [discriminate|]. destruct (existsb _ _) eqn:Ex in E.
        -- apply (Hkeep [] E eq_refl). right. split; [exact Ep|]. right. apply existsb_exists in Ex as (c & Hc & Hx). apply andb_prop in Hx as [Hx1 Hx2].
           apply String.eqb_eq in Hx1. split; [exact Eu|]. exists c, ic, ics. rewrite Ec. auto.
        -- apply ok_inj in E. apply Hdrop; [auto|]. apply Hnot. intros [_ [Hb|(_ & c & ic' & r & Hc & Hu & Hi & Hcn)]]; [tauto|].
           rewrite Eic in Hi. injection Hi as <- <-. rewrite Ec in Hc.
           assert (Hf : existsb (fun c => String.eqb (c_name c) (ic_column ic) && is_unique (c_key c)) (c0 :: cs) = true).
           { apply existsb_exists. exists c. split; [exact Hc|]. rewrite Hcn, String.eqb_refl. exact Hu. }
           congruence.
    + apply ok_inj in E. apply Hdrop; [auto|]. apply Hnot. intros [_ [Hb|(Hu & _)]]; [tauto|congruence].
Qed.

(** Columns. *)
Definition drop_column (c : column) : list stmt :=
  if mem (c_name c) (names t) then [] else absent_column Mysql ct (c_name c).
Lemma cleanup_columns_eq : cleanup_columns Mysql ct dt = flat_map drop_column (t_columns ct).
Proof. apply flat_map_ext. intros c. rewrite contains_string_mem, dt_columns. reflexivity. Qed.

Lemma cleanup_columns_loop s0 rest : forall done s, t_columns ct = done ++ rest -> good s -> same_frame s0 s -> t_indexes s = t_indexes s0 -> t_fks s = t_fks s0 ->
  (forall y k x, key_of s0 y = Some k -> In x (key_columns k) -> In x (names t)) ->
  (forall y f x, fk_of s0 y = Some f -> In x (fk_index_columns f) -> In x (names t)) ->
  (forall y, In y (names s) <-> In y (names s0) /\ (In y (names t) \/ ~ In y (map c_name done))) ->
  (forall y, In y (names t) -> column_of s y = column_of s0 y) ->
  (forall y, In y (map c_name (t_columns ct)) -> In y (names s0)) -> NoDup (map c_name (t_columns ct)) ->
  exists s', exec (flat_map drop_column rest) s = Some s' /\
    good s' /\ same_frame s0 s' /\ t_indexes s' = t_indexes s0 /\ t_fks s' = t_fks s0 /\
    (forall y, In y (names s') <-> In y (names s0) /\ (In y (names t) \/ ~ In y (map c_name (done ++ rest)))) /\
    (forall y, In y (names t) -> column_of s' y = column_of s0 y).
Proof.
  induction rest as [|c rest IH]; intros done s Ht Hg Hf Hi Hfk Hk Hfc Hn Hc Hall Hnd.
  - exists s. rewrite app_nil_r. auto 10.
  - cbn [flat_map]. unfold drop_column at 1.
    assert (Hcin : In (c_name c) (map c_name (t_columns ct))) by (rewrite Ht, map_app; apply in_or_app; right; now left).
    destruct (mem (c_name c) (names t)) eqn:Em.
    + apply mem_in in Em. cbn [app]. destruct (IH (done ++ [c]) s) as (s' & E' & R); auto.
      * now rewrite <- app_assoc.
      * intros y. rewrite Hn, map_app, in_app_iff. cbn [map In]. split; (intros [K1 K2]; split; [exact K1|]); destruct K2 as [K2|K2]; auto.
        destruct (string_dec y (c_name c)) as [->|N]; [now left|]. right. intros [K|[K|[]]]; [tauto|congruence].
      * exists s'. rewrite <- app_assoc in R. auto.
    + apply mem_not_in in Em. assert (Hd : ~ In (c_name c) (map c_name done)).
      { intros Hx. rewrite Ht, map_app in Hnd. apply (nodup_apart _ _ _ Hnd Hx). now left. }
      destruct (do_drop_column (t_name ct) (c_name c) s Hg) as (s1 & E1 & Hg1 & Hf1 & Hi1 & Hfk1 & Hn1 & Hc1).
      { apply Hn. split; [auto|now right]. }
      { intros y k Hy Hx. unfold key_of in Hy. rewrite Hi in Hy. apply Em. eapply Hk; eauto. }
      { intros y f Hy Hx. unfold fk_of in Hy. rewrite Hfk in Hy. apply Em. eapply Hfc; eauto. }
      cbn [absent_column app]. change (?a :: flat_map ?g rest) with ([a] ++ flat_map g rest).
      rewrite (exec_then _ _ s s1) by (apply exec_one; auto).
      destruct (IH (done ++ [c]) s1) as (s' & E' & R); auto.
      * now rewrite <- app_assoc.
      * eapply frame_trans; eauto.
      * congruence.
      * congruence.
      * intros y. rewrite Hn1, take_out_in, Hn, map_app, in_app_iff. cbn [map In]. split.
        -- intros [[K1 K2] K3]. split; [exact K1|]. destruct K2 as [K2|K2]; [now left|]. right. intros [K|[K|[]]]; [tauto|congruence].
        -- intros [K1 K2]. destruct K2 as [K2|K2].
           ++ split; [auto|]. intros ->. tauto.
           ++ split; [split; [exact K1|right; tauto]|]. intros ->. apply K2. right. now left.
      * intros y Hy. rewrite Hc1. destruct (String.eqb_spec y (c_name c)) as [->|N]; [tauto|auto].
      * exists s'. rewrite <- app_assoc in R. auto.
Qed.

(** *** All phases *)
Record finished (s : table) : Prop := {
  fi_good : good s;
  fi_pk : pk_named s;
  fi_shaped : shaped s;
  fi_frame : same_frame st s;
  fi_columns : forall c, In c (t_columns t) -> exists s', column_of s (c_name c) = Some s' /\ copies s' c /\ (c_autoinc s' = true <-> c_autoinc c = true);
  fi_names : forall y, In y (names s) <-> In y (names t);
  fi_keys : forall i, In i keys -> exists k, key_of s (i_name i) = Some k /\ index_matches k i;
  fi_other : forall y k, key_of s y = Some k -> In y (map i_name keys) \/ key_tolerated t k;
  fi_fks : fks_done s }.

Lemma phases cols rem pk idx ainc fks cix :
  ddls_columns Mysql ct t None (t_columns t) = Ok cols -> ddls_remove_autoinc Mysql ct t = Ok rem -> ddls_primary_key Mysql ct t = Ok pk ->
  concat_map (ddls_index Mysql ct t) (t_indexes t) = Ok idx -> ddls_add_autoinc Mysql ct t = Ok ainc ->
  concat_map (ddls_fk Mysql ct t) (t_fks t) = Ok fks -> cleanup_indexes Mysql ct dt = Ok cix ->
  exists s, exec (cols ++ rem ++ pk ++ idx ++ ainc ++ fks ++ flat_map (standalone Mysql ct) (statements_on n l) ++
    cleanup_fks Mysql ct dt ++ cix ++ cleanup_columns Mysql ct dt ++ cleanup_policies Mysql ct dt) st = Some s /\ finished s.
Proof.
  intros H1 H2 H3 H4 H5 H6 H7.
  destruct (columns_phase cols H1) as (s1 & E1 & A1). rewrite (exec_then _ _ _ _ E1). clear E1 H1.
  destruct (remove_phase s1 rem A1 H2) as (s2 & E2 & R2 & I2 & X2 & F2). rewrite (exec_then _ _ _ _ E2). clear E2 H2.
  pose proof (ready_settled s2 s1 A1 R2 I2 X2) as S2.
  destruct (primary_phase s2 pk S2 R2 H3) as (s3 & E3 & S3 & R3 & F3). rewrite (exec_then _ _ _ _ E3). clear E3 H3.
  destruct (inline_loop (t_indexes t) [] idx s3) as (s4 & E4 & S4 & C4 & F4); auto.
  { now rewrite app_nil_r. }
  rewrite (exec_then _ _ _ _ E4). clear E4 H4. cbn [app] in S4.
  destruct (auto_phase ainc s4 S4 (ready_same _ _ C4 R3) H5) as (s5 & E5 & S5 & C5 & F5). rewrite (exec_then _ _ _ _ E5). clear E5 H5.
  destruct (fks_loop s5 (t_fks t)) with (done := @nil foreign_key) (o := fks) (s := s5) as (s6 & E6 & (G6 & Fr6 & C6 & I6 & D6 & N6)); auto.
  { apply (sk_names _ _ S5). }
  { split; [apply (sk_inv _ _ S5)|]. split; [apply frame_refl|]. split; [reflexivity|]. split; [reflexivity|]. split; [intros f []|].
    intros y _. unfold fk_of. rewrite F5, F4, F3, F2. now rewrite (ac_fks _ _ A1). }
  rewrite (exec_then _ _ _ _ E6). clear E6 H6. cbn [app] in D6, N6.
  pose proof (settled_same _ _ _ G6 Fr6 C6 I6 S5) as S6. pose proof (columns_same _ _ _ C6 C5) as K6.
  destruct (separate_loop (statements_on n l)) with (done := @nil index) (s := s6) as (s7 & E7 & S7 & C7 & F7).
  { apply statements_on_table. }
  { intros d Hd. apply Hstm. unfold statements_on in Hd. now apply filter_In in Hd. }
  { cbn [app]. clear. unfold indexes_on, statements_on. induction l as [|d r IH]; [reflexivity|]. cbn [flat_map filter]. rewrite IH.
    destruct d; cbn [ddl_table is_some_eqb]; try (destruct (String.eqb _ _); reflexivity); try reflexivity;
      (destruct (String.eqb _ _) eqn:E; [cbn [flat_map]; now rewrite E|reflexivity]). }
  { now rewrite app_nil_r. }
  rewrite (exec_then _ _ _ _ E7). clear E7. cbn [app] in S7.
  assert (Eon : indexes_on n (statements_on n l) = indexes_on n l).
  { clear. unfold indexes_on, statements_on. induction l as [|d r IH]; [reflexivity|]. cbn [flat_map filter]. rewrite <- IH.
    destruct d; cbn [ddl_table is_some_eqb]; try (destruct (String.eqb _ _); reflexivity); try reflexivity;
      (destruct (String.eqb _ _) eqn:E; [cbn [flat_map]; now rewrite E|reflexivity]). }
  rewrite Eon in S7. fold all_names in S7. pose proof (columns_same _ _ _ C7 K6) as K7.
  assert (L7 : forall y, fk_of s7 y = fk_of s6 y) by (intros y; unfold fk_of; now rewrite F7).
  rewrite cleanup_fks_eq. destruct (cleanup_fks_loop s7 (t_fks ct) [] s7) as (s8 & E8 & G8 & Fr8 & C8 & I8 & L8); auto.
  { apply (sk_inv _ _ S7). }
  { apply frame_refl. }
  { intros y Hy. rewrite L7. now apply N6. }
  rewrite (exec_then _ _ _ _ E8). clear E8. cbn [app] in L8.
  pose proof (settled_same _ _ _ G8 Fr8 C8 I8 S7) as S8. pose proof (columns_same _ _ _ C8 K7) as K8.
  assert (FD8 : fks_done s8).
  { split.
    - intros f Hf. destruct (D6 f Hf) as (f' & Ef & Hs). exists f'. split; [|exact Hs]. rewrite L8, L7.
      rewrite (proj2 (mem_in (fk_constraint f) (map fk_constraint (t_fks t)))) by now apply in_map. cbn [negb]. now rewrite andb_false_r.
    - intros y f Hy. rewrite L8, L7 in Hy. destruct (in_dec string_dec y (map fk_constraint (t_fks t))) as [Hin|Hout]; [exact Hin|].
      exfalso. rewrite (N6 y Hout) in Hy. rewrite (proj2 (mem_not_in _ _) Hout) in Hy. change (t_fks ct) with (t_fks st) in Hy.
      rewrite (proj2 (mem_true_some fk_constraint y (t_fks st))) in Hy; [discriminate|]. exists f. unfold fk_of in Hy. now destruct (_ && _) in Hy. }
  destruct (cleanup_indexes_loop (t_indexes ct) [] cix s8 all_names) as (s9 & P9 & E9 & S9 & C9 & F9 & A9 & B9); auto.
  { intros k []. }
  rewrite (exec_then _ _ _ _ E9). clear E9. cbn [app] in B9.
  pose proof (columns_same _ _ _ C9 K8) as (K9a & K9b & K9c).
  assert (L9 : forall y, fk_of s9 y = fk_of s8 y) by (intros y; unfold fk_of; now rewrite F9).
  assert (O9 : forall y k, key_of s9 y = Some k -> In y (map i_name keys) \/ (key_of st y = Some k /\ key_tolerated t k /\ ~ In y (map i_name keys))).
  { intros y k Hy. destruct (in_dec string_dec y (map i_name keys)) as [Hin|Hout]; [now left|right].
    destruct (in_dec string_dec y P9) as [HP|HP]; [rewrite (sk_gone _ _ S9 y HP Hout) in Hy; discriminate|].
    rewrite (sk_rest _ _ S9 y HP) in Hy. split; [exact Hy|]. split; [|exact Hout]. destruct (B9 k) as [K|K]; auto.
    - apply named_some in Hy. apply Hy.
    - rewrite (key_of_name _ _ _ Hy) in K. tauto. }
  destruct (sk_inv _ _ S9) as (G9 & Pn9 & Sh9 & Fr9).
  rewrite cleanup_columns_eq. destruct (cleanup_columns_loop s9 (t_columns ct) [] s9) as (s10 & E10 & G10 & Fr10 & I10 & F10 & N10 & C10); auto.
  { apply frame_refl. }
  { intros y k x Hy Hx. destruct (O9 y k Hy) as [Hin|(Hst & Htol & Hout)].
    - apply in_map_iff in Hin as (i & Ei & Hi). destruct (sk_done _ _ S9 i Hi) as (k' & Hk' & Hm).
      { apply A9, all_names_keys. now apply in_map. }
      rewrite Ei, Hy in Hk'. injection Hk' as <-. rewrite (index_matches_columns _ _ Hm) in Hx. now apply (mt_key_columns _ _ Hmt i).
    - pose proof Hst as Hst'. apply named_some in Hst' as [Hin En]. apply (se_tolerated _ _ _ Hse k x Hin); auto. now rewrite En. }
  { intros y f x Hy Hx. rewrite L9 in Hy. destruct FD8 as [D8a D8b]. pose proof (D8b y f Hy) as Hin. apply in_map_iff in Hin as (g & Eg & Hg).
    destruct (D8a g Hg) as (f' & Ef & (_ & Hs & _)). rewrite Eg, Hy in Ef. injection Ef as <-. rewrite Hs in Hx. now apply (fk_columns_t g). }
  { intros y. cbn [map In]. tauto. }
  { intros y Hy. apply K9c. left. change (t_columns ct) with (number 0 (t_columns st)) in Hy. now rewrite number_names in Hy. }
  { change (t_columns ct) with (number 0 (t_columns st)). rewrite number_names. apply (ct_names _ Hct). }
  rewrite (exec_then _ _ _ _ E10). clear E10. cbn [app] in N10.
  assert (Hpol : cleanup_policies Mysql ct dt = []).
  { unfold cleanup_policies. change (t_policies ct) with (t_policies st). now rewrite (ct_policies _ Hct). }
  rewrite Hpol. exists s10. split; [reflexivity|].
  assert (Kx : forall y, key_of s10 y = key_of s9 y) by (intros y; unfold key_of; now rewrite I10).
  assert (Lx : forall y, fk_of s10 y = fk_of s8 y) by (intros y; unfold fk_of; rewrite F10; apply L9).
  assert (Nx : forall y, In y (names s10) <-> In y (names t)).
  { intros y. rewrite N10, K9c. change (t_columns ct) with (number 0 (t_columns st)). rewrite number_names. fold (names st). tauto. }
  constructor.
  - exact G10.
  - intros y k. rewrite Kx. apply Pn9.
  - intros y c Hy. assert (Hin : In y (names t)) by (apply Nx, column_names_in; eauto). rewrite (C10 y Hin) in Hy. eapply Sh9; eauto.
  - eapply frame_trans; eauto.
  - intros c Hc. rewrite C10 by now apply in_map. now apply K9a.
  - exact Nx.
  - intros i Hi. rewrite Kx. apply (sk_done _ _ S9 i Hi). apply A9, all_names_keys. now apply in_map.
  - intros y k Hy. rewrite Kx in Hy. destruct (O9 y k Hy) as [K|(_ & K & _)]; auto.
  - destruct FD8 as [D8a D8b]. split; [intros f Hf; rewrite Lx; auto|]. intros y f Hy. rewrite Lx in Hy. eauto.
Qed.

(** A finished table in the right order has the schema. *)
Lemma finished_reached s : finished s -> names s = names t -> table_reached l t s.
Proof.
  intros [G P Sh F C N K O (D1 & D2)] Hn. constructor.
  - assert (Hall : forall a b, map c_name a = map c_name b -> (forall x, In x a -> In x (t_columns s)) -> (forall x, In x b -> In x (t_columns t)) ->
      Forall2 column_reached a b); [|now apply Hall].
    induction a as [|x a IH]; intros [|y b] E Ha Hb; cbn [map] in E; try discriminate; constructor; injection E as E1 E2.
    + destruct (C y (Hb y (or_introl eq_refl))) as (s' & Es & (H1 & H2) & H3).
      assert (s' = x) as ->.
      { pose proof (named_self c_name (t_columns s) x (good_names _ G) (Ha x (or_introl eq_refl))) as E. rewrite E1 in E. unfold column_of in Es. congruence. }
      split; [exact E1|]. split; [exact H1|]. split; [exact H2|]. destruct (c_autoinc x), (c_autoinc y); intuition congruence.
    + apply IH; auto; intros; [apply Ha|apply Hb]; now right.
  - intros i Hi. destruct (K i Hi) as (k & Hk & Hm). exists k. apply named_some in Hk as [Hk En]. auto.
  - intros k Hk. apply (O (i_name k) k). apply named_self; [apply (good_keys _ G)|exact Hk].
  - intros f Hf. destruct (D1 f Hf) as (f' & Hf' & Hs). exists f'. apply named_some in Hf' as [Hf' En]. auto.
  - intros f Hf. apply (D2 (fk_constraint f) f). apply named_self; [apply (good_fks _ G)|exact Hf].
Qed.

Lemma finished_table s : finished s -> catalogue_table s.
Proof.
  intros [G P Sh F C N K O D]. constructor.
  - apply (good_names _ G).
  - apply (good_keys _ G).
  - apply (good_fks _ G).
  - destruct F as [_ ->]. apply (ct_policies _ Hct).
  - now apply good_integrity.
  - intros c Hc. apply (Sh (c_name c)). apply named_self; [apply (good_names _ G)|exact Hc].
  - intros i Hi. apply (P (i_name i)). apply named_self; [apply (good_keys _ G)|exact Hi].
  - intros c Hc Hp. assert (Hcn : column_of s (c_name c) = Some c) by (apply named_self; [apply (good_names _ G)|exact Hc]).
    apply (in_pk_key s _ P) in Hp as (k & Hk & Hx); [|apply (good_keys _ G)].
    assert (Hin : In (c_name c) (names t)) by (apply N, column_names_in; eauto). destruct (in_names_t _ Hin) as (d & Hd & En).
    destruct (C d Hd) as (s' & Es & ((_ & _ & Hnn & _) & _) & _). rewrite En, Hcn in Es. injection Es as <-. apply Hnn.
    pose proof declared_pk as Hpk. destruct (primary_key t) as [i|].
    + destruct Hpk as (Hik & Ei & _ & Hsay). apply Hsay; [exact Hd|]. destruct (K i Hik) as (k' & Hk' & Hm). rewrite Ei, Hk in Hk'. injection Hk' as <-.
      rewrite En, <- (index_matches_columns _ _ Hm). exact Hx.
    + exfalso. destruct (O _ _ Hk) as [Hd'|[Htol _]]; [tauto|]. rewrite (proj2 (P _ _ Hk) eq_refl) in Htol. discriminate.
Qed.
End Kept.
