(** Exactly which columns, indexes, keys and policies the plan adds and drops. *)
From Coq Require Import String Ascii List ZArith Bool Lia.
From Verif Require Import GoStr GoStrFacts Ast Generator SpecPlan ProofPlan ProofSteps ProofTables ProofCompare.
Import ListNotations.
Local Open Scope string_scope.
Local Open Scope list_scope.

(** ** Contributions *)
Lemma contrib_app {A B} (R : A -> list B -> Prop) l1 l2 o1 o2 :
  contrib R l1 o1 -> contrib R l2 o2 -> contrib R (l1 ++ l2) (o1 ++ o2).
Proof. induction 1; simpl; intros; [assumption|]. rewrite <- app_assoc. constructor; auto. Qed.

Lemma contrib_impl {A B} (R S : A -> list B -> Prop) l o :
  (forall x o, In x l -> R x o -> S x o) -> contrib R l o -> contrib S l o.
Proof.
  intros H Hc. induction Hc; constructor; auto.
  - apply H; simpl; auto.
  - apply IHHc. intros. apply H; simpl; auto.
Qed.

Lemma contrib_fun {A B} (R : A -> list B -> Prop) (g : A -> list B) l :
  (forall x, In x l -> R x (g x)) -> contrib R l (flat_map g l).
Proof. induction l; simpl; intros H; constructor; auto. Qed.

Lemma contrib_silent {A B} (R : A -> list B -> Prop) l o :
  (forall x o, In x l -> R x o -> o = []) -> contrib R l o -> o = [].
Proof.
  intros H Hc. induction Hc; [reflexivity|]. rewrite (H x o); simpl; auto. apply IHHc. intros. eapply H; simpl; eauto.
Qed.

Section Effects.
Context {B : Type} (f : effect -> list B).

Lemma effects_app a b : effects f (a ++ b) = effects f a ++ effects f b.
Proof. unfold effects. apply flat_map_app. Qed.

Lemma effects_flat_map {A} (g : A -> list stmt) l :
  effects f (flat_map g l) = flat_map (fun x => effects f (g x)) l.
Proof. induction l; simpl; [reflexivity|]. now rewrite effects_app, IHl. Qed.

Lemma effects_concat_map {A} (R : A -> list B -> Prop) (g : A -> res (list stmt)) l o :
  (forall x o', In x l -> g x = Ok o' -> R x (effects f o')) ->
  concat_map g l = Ok o -> contrib R l (effects f o).
Proof.
  revert o; induction l as [|x l IH]; simpl; intros o H E.
  - injection E as <-. constructor.
  - bind_inv E. bind_inv E. injection E as <-. rewrite effects_app. constructor; auto.
Qed.

Lemma effects_silent (P : effect -> bool) o :
  (forall e, P e = true -> f e = []) -> Forall (fun s => P (s_eff s) = true) o -> effects f o = [].
Proof. intros H Ho. induction Ho; simpl; [reflexivity|]. now rewrite (H _ H0). Qed.

Lemma effects_part n out : (forall e, eff_table e <> Some n -> f e = []) ->
  effects f (table_part n out) = effects f out.
Proof.
  intros H. induction out as [|s out IH]; simpl; [reflexivity|].
  destruct (is_some_eqb (eff_table (s_eff s)) n) eqn:E; simpl; rewrite IH; [reflexivity|].
  rewrite H; [reflexivity|]. intros Hc. rewrite Hc in E. simpl in E. rewrite String.eqb_refl in E. discriminate.
Qed.
End Effects.

(** ** Kinds of statement each part of the planner emits *)
Definition k_column (e : effect) : bool :=
  match e with
  | EffAddColumn _ _ _ | EffChangeColumn _ _ _ _ | EffDropColumn _ _ | EffAddUniqueKey _ _
  | EffAlterType _ _ _ | EffDropNotNull _ _ | EffSetNotNull _ _ | EffAddIdentity _ _ _ _
  | EffDropIdentity _ _ | EffSetIdentity _ _ _ | EffDropDefault _ _ | EffSetDefault _ _ _
  | EffAddDefault _ _ _ | EffDropDefaultConstraint _ _ _ | EffDropCheck _ _ _
  | EffAddCheck _ _ _ _ _ => true
  | _ => false
  end.
Definition k_change (e : effect) : bool := match e with EffChangeColumn _ _ _ _ => true | _ => false end.
Definition k_primary (e : effect) : bool :=
  match e with EffDropPrimaryKey _ | EffAddPrimaryKey _ _ | EffDropPrimaryConstraint _ _ => true | _ => false end.
Definition k_index (e : effect) : bool :=
  match e with EffAddIndex _ _ | EffDropIndex _ _ | EffNothing _ => true | _ => false end.
Definition k_fk (e : effect) : bool :=
  match e with EffDropForeignKey _ _ | EffAddForeignKey _ _ => true | _ => false end.
Definition k_policy (e : effect) : bool := match e with EffDropPolicy _ _ => true | _ => false end.
Definition k_no_add (e : effect) : bool := match e with EffAddColumn _ _ _ => false | _ => k_column e end.
(** neither adds nor drops a column *)
Definition k_in_place (e : effect) : bool :=
  match e with EffAddColumn _ _ _ | EffDropColumn _ _ => false | _ => k_column e end.

Notation all k o := (Forall (fun s => k (s_eff s) = true) o).

Lemma all_weaken (P Q : effect -> bool) o : (forall e, P e = true -> Q e = true) -> all P o -> all Q o.
Proof. intros H Ho. eapply Forall_impl; [|exact Ho]. auto. Qed.

Lemma all_concat_map {A} (k : effect -> bool) (g : A -> res (list stmt)) l o :
  (forall x o, In x l -> g x = Ok o -> all k o) -> concat_map g l = Ok o -> all k o.
Proof. intros H. apply concat_map_Forall. exact H. Qed.

Lemma all_flat_map {A} (k : effect -> bool) (g : A -> list stmt) l :
  (forall x, In x l -> all k (g x)) -> all k (flat_map g l).
Proof. induction l; simpl; intros H; [constructor|]. apply Forall_app. split; auto. Qed.

Lemma kind_mysql cur des prev cc dc o : ddls_column_mysql cur des prev cc dc = Ok o -> all k_in_place o.
Proof.
  unfold ddls_column_mysql. intros H. bind_inv H. injection H as <-. apply Forall_app. split.
  - destruct (_ || _ || _) in E; [|injection E as <-; constructor]. bind_inv E. injection E as <-. repeat constructor.
  - destruct (_ && _); repeat constructor.
Qed.

Lemma kind_postgres cur des cc dc o : ddls_column_postgres cur des cc dc = Ok o -> all k_in_place o.
Proof.
  unfold ddls_column_postgres. intros H. bind_inv H. injection H as <-. rewrite !Forall_app. repeat split.
  - unfold pg_type. destruct (have_same_data_type _ _ _); repeat constructor.
  - unfold pg_null. destruct (is_primary_key _ _); [constructor|]. destruct (_ && _); [repeat constructor|].
    destruct (_ && _); repeat constructor.
  - unfold pg_identity. destruct (are_same_identity _ _); [constructor|].
    destruct (c_identity cc), (c_identity dc); repeat constructor.
  - unfold pg_default in E. destruct (are_same_default _ _); [injection E as <-; constructor|].
    destruct (c_default dc) as [d|]; [|injection E as <-; repeat constructor].
    destruct (df_value d); [|discriminate]. bind_inv E. injection E as <-. repeat constructor.
  - unfold pg_check. destruct (_ && _); [constructor|]. apply Forall_app.
    split; [destruct (c_check cc)|destruct (c_check dc)]; repeat constructor.
Qed.

Lemma kind_ms_check cur des cc dc : all k_in_place (ms_check cur des cc dc).
Proof.
  unfold ms_check. destruct (_ && _); [constructor|]. apply Forall_app.
  split; [destruct (c_check cc)|destruct (c_check dc)]; repeat constructor.
Qed.

Lemma kind_ms_default cur des cc dc o : ms_default cur des cc dc = Ok o -> all k_in_place o.
Proof.
  unfold ms_default. destruct (are_same_default _ _); intros E0; [injection E0 as <-; constructor|]. bind_inv E0. injection E0 as <-.
  apply Forall_app. split.
  - destruct (c_default cc); repeat constructor.
  - destruct (c_default dc) as [d|]; [|injection E as <-; constructor].
    destruct (df_value d); [|discriminate]. bind_inv E. injection E as <-. repeat constructor.
Qed.

Lemma kind_ms_identity cur des cc dc o : ms_identity cur des cc dc = Ok o -> all k_column o.
Proof.
  unfold ms_identity. destruct (are_same_identity _ _); intros E; [injection E as <-; constructor|]. bind_inv E. injection E as <-.
  apply Forall_app. split.
  - destruct (c_identity cc); repeat constructor.
  - destruct (c_identity dc); [|injection E0 as <-; constructor]. bind_inv E0. injection E0 as <-. repeat constructor.
Qed.

Lemma in_place_column o : all k_in_place o -> all k_column o.
Proof. apply all_weaken. intros e. destruct e; simpl; auto. Qed.

Lemma kind_new_column m des prev c o : ddls_new_column m des prev c = Ok o -> all k_column o.
Proof. unfold ddls_new_column. intros H. bind_inv H. injection H as <-. repeat constructor. Qed.

Lemma kind_column m cur des prev c o : ddls_column m cur des prev c = Ok o -> all k_column o.
Proof.
  unfold ddls_column. destruct (find_column _ _).
  - destruct m.
    + intros H. apply in_place_column. eapply kind_mysql; eauto.
    + intros H. apply in_place_column. eapply kind_postgres; eauto.
    + intros H. injection H as <-. constructor.
    + unfold ddls_column_mssql. intros H. bind_inv H. bind_inv H. injection H as <-. rewrite !Forall_app. repeat split.
      * apply in_place_column, kind_ms_check.
      * eapply kind_ms_identity; eauto.
      * apply in_place_column. eapply kind_ms_default; eauto.
  - apply kind_new_column.
Qed.

Lemma kind_columns m cur des l : forall prev o, ddls_columns m cur des prev l = Ok o -> all k_column o.
Proof.
  induction l as [|c l IH]; simpl; intros prev o H.
  - injection H as <-. constructor.
  - bind_inv H. bind_inv H. injection H as <-. apply Forall_app. split; [eapply kind_column|eapply IH]; eauto.
Qed.

Lemma kind_remove_autoinc m cur des o : ddls_remove_autoinc m cur des = Ok o -> all k_change o.
Proof.
  unfold ddls_remove_autoinc. destruct m; intros H; try (injection H as <-; constructor).
  eapply all_concat_map; [|exact H]. intros x o' _ Hx. cbv beta zeta in Hx.
  destruct (_ && _) in Hx; [|injection Hx as <-; constructor]. bind_inv Hx. injection Hx as <-. repeat constructor.
Qed.

Lemma kind_add_autoinc m cur des o : ddls_add_autoinc m cur des = Ok o -> all k_change o.
Proof.
  unfold ddls_add_autoinc. destruct m; intros H; try (injection H as <-; constructor).
  eapply all_concat_map; [|exact H]. intros x o' _ Hx. cbv beta zeta in Hx.
  destruct (_ && _) in Hx; [|injection Hx as <-; constructor]. bind_inv Hx. injection Hx as <-. repeat constructor.
Qed.

Lemma primary_key_primary t i : primary_key t = Some i -> i_primary i = true.
Proof.
  unfold primary_key. destruct (find i_primary (t_indexes t)) as [j|] eqn:E.
  - intros H. injection H as <-. now apply find_some in E.
  - destruct (map _ _); [discriminate|]. intros H. injection H as <-. reflexivity.
Qed.

Lemma kind_primary_key m cur des o : ddls_primary_key m cur des = Ok o -> all k_primary o.
Proof.
  unfold ddls_primary_key. destruct (are_same_primary_keys _ _); intros H; [injection H as <-; constructor|].
  bind_inv H. bind_inv H. injection H as <-. apply Forall_app. split.
  - destruct (primary_key cur); [|injection E as <-; constructor].
    destruct m; try (injection E as <-; repeat constructor).
    destruct (split_first "." (t_name des)) as [[? ?]|]; [|discriminate]. injection E as <-. repeat constructor.
  - destruct (primary_key des) eqn:Ep; [|injection E0 as <-; constructor]. bind_inv E0. injection E0 as <-.
    unfold stmt_add_index in E1. bind_inv E1. injection E1 as <-. rewrite (primary_key_primary _ _ Ep). repeat constructor.
Qed.

Lemma kind_drop_index m n i : k_index (s_eff (stmt_drop_index m n i)) = true.
Proof. destruct m; reflexivity. Qed.

Lemma add_index_secondary m n i s : i_primary i = false -> stmt_add_index m n i = Ok s -> s_eff s = EffAddIndex n i.
Proof. unfold stmt_add_index. intros Hp H. bind_inv H. injection H as <-. now rewrite Hp. Qed.

Lemma kind_ix m cur des i o : ddls_index m cur des i = Ok o -> all k_index o.
Proof.
  unfold ddls_index. intros H. destruct (i_primary i) eqn:Hp; [injection H as <-; constructor|].
  destruct (find_index _ _) as [ci|].
  - destruct (are_same_indexes ci i); [injection H as <-; constructor|]. bind_inv H. injection H as <-.
    repeat constructor; [apply kind_drop_index|]. now rewrite (add_index_secondary _ _ _ _ Hp E).
  - bind_inv H. injection H as <-. repeat constructor. now rewrite (add_index_secondary _ _ _ _ Hp E).
Qed.

Lemma kind_fk m cur des f o : ddls_fk m cur des f = Ok o -> all k_fk o.
Proof.
  unfold ddls_fk. intros H. destruct (String.eqb _ _); [discriminate|].
  destruct (find_fk _ _) as [cf|]; [|injection H as <-; repeat constructor].
  destruct (are_same_foreign_keys _ _ _); injection H as <-; [constructor|].
  apply Forall_app. split; [destruct m|]; repeat constructor.
Qed.

Lemma kind_cleanup_fks m cur des : all k_fk (cleanup_fks m cur des).
Proof.
  apply all_flat_map. intros f _. destruct (contains_string _ _); [constructor|]. unfold absent_fk.
  destruct m; try (destruct (existsb _ _)); repeat constructor.
Qed.

Lemma kind_absent_index m cur des i o : absent_index m cur des i = Ok o ->
  all (if i_primary i then k_primary else k_index) o.
Proof.
  unfold absent_index. destruct (i_primary i).
  - destruct (find _ _).
    + destruct (i_columns i); [discriminate|]. destruct (String.eqb _ _); intros H; [injection H as <-; constructor|discriminate].
    + destruct m; intros H; injection H as <-; repeat constructor.
  - destruct (i_unique i).
    + destruct (t_columns des), (i_columns i); try discriminate; try (destruct (existsb _ _)); intros H;
        try discriminate; injection H as <-; repeat constructor; apply kind_drop_index.
    + intros H. injection H as <-. repeat constructor. apply kind_drop_index.
Qed.

Definition k_index_or_primary (e : effect) : bool := k_index e || k_primary e.

Lemma kind_cleanup_indexes m cur des o : cleanup_indexes m cur des = Ok o -> all k_index_or_primary o.
Proof.
  apply all_concat_map. intros i o' _ H. destruct (_ || _); [injection H as <-; constructor|].
  apply kind_absent_index in H. eapply all_weaken; [|exact H]. intros e He. unfold k_index_or_primary.
  destruct (i_primary i); rewrite He; auto. now rewrite orb_true_r.
Qed.

Lemma kind_cleanup_columns m cur des : all k_column (cleanup_columns m cur des).
Proof.
  apply all_flat_map. intros c _. destruct (contains_string _ _); [constructor|]. unfold absent_column. apply Forall_app.
  split; [|repeat constructor]. destruct m; try constructor. apply all_flat_map. intros c' _.
  destruct (c_default c'); [|constructor]. destruct (_ && _); repeat constructor.
Qed.

Lemma kind_cleanup_policies m cur des : all k_policy (cleanup_policies m cur des).
Proof. apply all_flat_map. intros p _. destruct (contains_string _ _); repeat constructor. Qed.

Definition k_standalone (e : effect) : bool :=
  match e with
  | EffVerbatim (CreateIndex _ _ _) | EffVerbatim (AddIndex _ _ _) | EffVerbatim (AddPolicy _ _ _) => true
  | _ => k_index e || k_policy e
  end.

Lemma kind_standalone m ct l : all k_standalone (flat_map (standalone m ct) l).
Proof.
  apply all_flat_map. intros d _. destruct d; simpl; try constructor.
  - destruct (find_index _ _); [destruct (are_same_indexes _ _)|]; repeat constructor. destruct m; reflexivity.
  - destruct (find_index _ _); [destruct (are_same_indexes _ _)|]; repeat constructor. destruct m; reflexivity.
  - destruct (find_policy _ _); [destruct (are_same_policies _ _)|]; repeat constructor.
Qed.

(** ** The sections of the plan of a kept table *)
Section Kept.
Context (m : mode) (desired current : list ddl) (out : list stmt).
Hypothesis Hnd : NoDup (created desired).
Hypothesis Hnc : NoDup (created current).
Hypothesis Hplan : plan m desired current = Ok out.
Context (t ct : table).
Hypothesis Ht : In t (tables_in desired).
Hypothesis Hct : In ct (schema current).
Hypothesis Hname : t_name ct = t_name t.
Let n := t_name t.
Let dt := full_table desired t.

Lemma kept_sections : exists cols rem pk idx ainc fks cix,
  ddls_columns m ct t None (t_columns t) = Ok cols /\
  ddls_remove_autoinc m ct t = Ok rem /\
  ddls_primary_key m ct t = Ok pk /\
  concat_map (ddls_index m ct t) (t_indexes t) = Ok idx /\
  ddls_add_autoinc m ct t = Ok ainc /\
  concat_map (ddls_fk m ct t) (t_fks t) = Ok fks /\
  cleanup_indexes m ct dt = Ok cix /\
  table_part n out = cols ++ rem ++ pk ++ idx ++ ainc ++ fks ++
    flat_map (standalone m ct) (statements_on n desired) ++
    cleanup_fks m ct dt ++ cix ++ cleanup_columns m ct dt ++ cleanup_policies m ct dt.
Proof.
  destruct (kept_part m desired current out Hnd Hnc Hplan t ct Ht Hct Hname) as (a & c & Ha & Hc & Hp).
  unfold ddls_for_create_table in Ha. do 6 bind_inv Ha. injection Ha as <-.
  unfold cleanup_kept in Hc. bind_inv Hc. injection Hc as <-.
  eexists _, _, _, _, _, _, _. repeat (split; [reflexivity || eassumption|]). fold n in Hp. rewrite Hp. unfold dt.
  now rewrite <- !app_assoc.
Qed.

(** C15 *)
Lemma columns_dropped l : forall prev o, ddls_columns m ct t prev l = Ok o ->
  contrib (desired_column_drop m ct) l (effects (dropped_columns n) o).
Proof.
  induction l as [|c l IH]; intros prev o H; simpl in H.
  - injection H as <-. constructor.
  - bind_inv H. bind_inv H. injection H as <-. rewrite effects_app. constructor; [|eauto].
    clear IH E0. unfold ddls_column in E. unfold desired_column_drop, identity_differs, named.
    fold (find_column (t_columns ct) (c_name c)).
    destruct (find_column (t_columns ct) (c_name c)) as [cc|] eqn:Ef.
    + assert (Hin : all k_in_place a -> effects (dropped_columns n) a = []).
      { apply effects_silent. intros e. destruct e; simpl; auto; discriminate. }
      destruct m; try (right; split; [intros cc' (Hm & _); discriminate|]).
      * apply Hin. eapply kind_mysql; eauto.
      * apply Hin. eapply kind_postgres; eauto.
      * injection E as <-. reflexivity.
      * unfold ddls_column_mssql in E. bind_inv E. bind_inv E. injection E as <-.
        rewrite !effects_app.
        assert (Hs : forall x, all k_in_place x -> effects (dropped_columns n) x = []).
        { intros x. apply effects_silent. intros e. destruct e; simpl; auto; discriminate. }
        rewrite (Hs _ (kind_ms_check _ _ _ _)), (Hs _ (kind_ms_default _ _ _ _ _ E1)), app_nil_r. simpl.
        unfold ms_identity in E0.
        assert (Hid : c_identity (if c_autoinc cc then c else set_autoinc false c) = c_identity c)
          by (destruct (c_autoinc cc); reflexivity).
        rewrite Hid in E0.
        destruct (are_same_identity (c_identity cc) (c_identity c)) eqn:Es.
        { apply are_same_identity_spec in Es. injection E0 as <-. right. split; [|reflexivity].
          intros cc' (_ & H & Hne). injection H as <-. now destruct Hne. }
        apply are_same_identity_false in Es. bind_inv E0. injection E0 as <-. rewrite effects_app.
        assert (Ha : effects (dropped_columns n) a = []).
        { destruct (c_identity c); [|injection E as <-; reflexivity]. bind_inv E. injection E as <-. reflexivity. }
        rewrite Ha, app_nil_r. destruct (c_identity cc) as [i|] eqn:Ei.
        -- left. exists cc. rewrite Ei. repeat split; auto; try discriminate. simpl. rewrite Hname. fold n.
           rewrite String.eqb_refl. apply find_some in Ef as [_ Ef]. apply String.eqb_eq in Ef. now rewrite Ef.
        -- right. split; [|reflexivity]. intros cc' (_ & H & _). injection H as <-. assumption.
    + right. split.
      * intros cc' (_ & H & _). discriminate.
      * unfold ddls_new_column in E. bind_inv E. injection E as <-. reflexivity.
Qed.

Lemma sil {B} (f : effect -> list B) (k : effect -> bool) o :
  all k o -> (forall e, k e = true -> f e = []) -> effects f o = [].
Proof. intros H Hf. eapply effects_silent; eauto. Qed.

Ltac kinds := let e := fresh in intros e; destruct e as [[]| | | | | | | | | | | | | | | | | | | | | | | | | | | | | | | |]; simpl; auto; discriminate.

Lemma filter_out_names {A B} (f : A -> string) (g : B -> string) (l' : list B) (l : list A) :
  flat_map (fun x => if contains_string (map g l') (f x) then [] else [x]) l = without f g l' l.
Proof.
  induction l as [|x l IH]; simpl; [reflexivity|]. rewrite IH, contains_string_mem.
  destruct (mem (f x) (map g l')); reflexivity.
Qed.

Lemma if_flat_map {A B} (p : A -> bool) (h : A -> list B) l :
  flat_map (fun x => if p x then [] else h x) l = flat_map h (filter (fun x => negb (p x)) l).
Proof. induction l as [|x l IH]; simpl; [reflexivity|]. destruct (p x); simpl; now rewrite IH. Qed.

Lemma flat_map_single {A B} (h : A -> B) l : flat_map (fun x => [h x]) l = map h l.
Proof. induction l; simpl; congruence. Qed.

Lemma cleanup_dropped : effects (dropped_columns n) (cleanup_columns m ct dt) =
  map c_name (without c_name c_name (t_columns t) (t_columns ct)).
Proof.
  unfold cleanup_columns. rewrite effects_flat_map.
  rewrite <- (flat_map_single c_name (without _ _ _ _)). unfold without.
  rewrite <- (if_flat_map (fun c => mem (c_name c) (map c_name (t_columns t)))).
  apply flat_map_ext. intros c. rewrite contains_string_mem.
  assert (Hcols : column_names (t_columns dt) = map c_name (t_columns t)).
  { unfold dt, full_table, column_names. simpl. rewrite map_map. apply map_ext. intros x. unfold mark.
    destruct (mem _ _); reflexivity. }
  rewrite Hcols. destruct (mem _ _); [reflexivity|]. unfold absent_column. rewrite effects_app.
  rewrite (sil _ k_in_place).
  - simpl. rewrite Hname. fold n. now rewrite String.eqb_refl.
  - destruct m; try constructor. apply all_flat_map. intros c' _. destruct (c_default c'); [|constructor].
    destruct (_ && _); repeat constructor.
  - kinds.
Qed.

Theorem dropped_columns_exact : exists identity_drops,
  contrib (desired_column_drop m ct) (t_columns t) identity_drops /\
  effects (dropped_columns n) out =
    identity_drops ++ map c_name (without c_name c_name (t_columns t) (t_columns ct)).
Proof.
  destruct kept_sections as (cols & rem & pk & idx & ainc & fks & cix & H1 & H2 & H3 & H4 & H5 & H6 & H7 & Hp).
  exists (effects (dropped_columns n) cols). split; [eapply columns_dropped; eauto|].
  rewrite <- (effects_part _ n).
  2:{ intros e He. destruct e; simpl in *; auto. destruct (String.eqb_spec t0 n); [congruence|reflexivity]. }
  rewrite Hp, !effects_app, cleanup_dropped.
  rewrite (sil _ k_change rem), (sil _ k_primary pk), (sil _ k_index idx), (sil _ k_change ainc),
    (sil _ k_fk fks), (sil _ k_standalone (flat_map _ _)), (sil _ k_fk (cleanup_fks _ _ _)),
    (sil _ k_index_or_primary cix), (sil _ k_policy (cleanup_policies _ _ _)); try kinds.
  - simpl. now rewrite app_nil_r.
  - apply kind_cleanup_policies.
  - eapply kind_cleanup_indexes; eauto.
  - apply kind_cleanup_fks.
  - apply kind_standalone.
  - eapply all_concat_map; [|exact H6]. intros; eapply kind_fk; eauto.
  - eapply kind_add_autoinc; eauto.
  - eapply all_concat_map; [|exact H4]. intros; eapply kind_ix; eauto.
  - eapply kind_primary_key; eauto.
  - eapply kind_remove_autoinc; eauto.
Qed.

(** C16 *)
Lemma columns_added l : forall prev o, ddls_columns m ct t prev l = Ok o ->
  contrib (desired_column_add m ct) (with_previous prev l) (effects (added_columns n) o).
Proof.
  induction l as [|c l IH]; intros prev o H; simpl in H.
  - injection H as <-. constructor.
  - bind_inv H. bind_inv H. injection H as <-. rewrite effects_app. cbn [with_previous]. constructor; [|eauto].
    clear IH E0. unfold ddls_column in E. unfold desired_column_add, identity_differs, named.
    fold (find_column (t_columns ct) (c_name c)).
    destruct (find_column (t_columns ct) (c_name c)) as [cc|] eqn:Ef.
    + right.
      assert (Hs : forall x, all k_in_place x -> effects (added_columns n) x = []).
      { intros x Hx. eapply sil; [exact Hx|kinds]. }
      destruct m; try (right; split; [exists cc; reflexivity|]; split; [intros cc' (Hm & _); discriminate|]).
      * apply Hs. eapply kind_mysql; eauto.
      * apply Hs. eapply kind_postgres; eauto.
      * injection E as <-. reflexivity.
      * unfold ddls_column_mssql in E. bind_inv E. bind_inv E. injection E as <-.
        rewrite !effects_app.
        rewrite (Hs _ (kind_ms_check _ _ _ _)), (Hs _ (kind_ms_default _ _ _ _ _ E1)), app_nil_r. simpl.
        unfold ms_identity in E0.
        assert (Hid : c_identity (if c_autoinc cc then c else set_autoinc false c) = c_identity c)
          by (destruct (c_autoinc cc); reflexivity).
        rewrite Hid in E0.
        destruct (are_same_identity (c_identity cc) (c_identity c)) eqn:Es.
        { apply are_same_identity_spec in Es. injection E0 as <-. right. split; [exists cc; reflexivity|]. split; [|reflexivity].
          intros cc' (_ & H & Hne). injection H as <-. now destruct Hne. }
        apply are_same_identity_false in Es. bind_inv E0. injection E0 as <-. rewrite effects_app.
        match goal with |- context [effects _ (match c_identity cc with _ => _ end)] =>
          replace (effects (added_columns n) (match c_identity cc with Some _ => _ | None => _ end))
            with (@nil (column * col_pos)) by (destruct (c_identity cc); reflexivity) end.
        cbn [app]. destruct (c_identity c) as [i|] eqn:Ei.
        -- left. exists cc, (if c_autoinc cc then c_autoinc c else false). repeat split; auto; try discriminate.
           bind_inv E. injection E as <-. simpl. fold n. rewrite String.eqb_refl.
           destruct (c_autoinc cc); [|reflexivity]. do 2 f_equal. destruct c; reflexivity.
        -- right. split; [exists cc; reflexivity|]. split; [reflexivity|]. injection E as <-. reflexivity.
    + left. split; [reflexivity|]. unfold ddls_new_column in E. bind_inv E. injection E as <-. simpl. fold n.
      rewrite String.eqb_refl. unfold pos_of. destruct m, prev; reflexivity.
Qed.

Theorem added_columns_exact :
  contrib (desired_column_add m ct) (with_previous None (t_columns t)) (effects (added_columns n) out).
Proof.
  destruct kept_sections as (cols & rem & pk & idx & ainc & fks & cix & H1 & H2 & H3 & H4 & H5 & H6 & H7 & Hp).
  rewrite <- (effects_part _ n).
  2:{ intros e He. destruct e; simpl in *; auto. destruct (String.eqb_spec t0 n); [congruence|reflexivity]. }
  rewrite Hp, !effects_app.
  rewrite (sil _ k_change rem), (sil _ k_primary pk), (sil _ k_index idx), (sil _ k_change ainc),
    (sil _ k_fk fks), (sil _ k_standalone (flat_map _ _)), (sil _ k_fk (cleanup_fks _ _ _)),
    (sil _ k_index_or_primary cix), (sil _ k_policy (cleanup_policies _ _ _)),
    (sil _ k_no_add (cleanup_columns _ _ _)); try kinds.
  - simpl. rewrite app_nil_r. eapply columns_added; eauto.
  - apply all_flat_map. intros c _. destruct (contains_string _ _); [constructor|]. unfold absent_column. apply Forall_app.
    split; [|repeat constructor]. destruct m; try constructor. apply all_flat_map. intros c' _.
    destruct (c_default c'); [|constructor]. destruct (_ && _); repeat constructor.
  - apply kind_cleanup_policies.
  - eapply kind_cleanup_indexes; eauto.
  - apply kind_cleanup_fks.
  - apply kind_standalone.
  - eapply all_concat_map; [|exact H6]. intros; eapply kind_fk; eauto.
  - eapply kind_add_autoinc; eauto.
  - eapply all_concat_map; [|exact H4]. intros; eapply kind_ix; eauto.
  - eapply kind_primary_key; eauto.
  - eapply kind_remove_autoinc; eauto.
Qed.

(** C18 *)
Lemma drop_index_ops i : effects (index_ops n) [stmt_drop_index m n i] = drop_index_op m i.
Proof. destruct m; simpl; rewrite ?String.eqb_refl; reflexivity. Qed.

Lemma inline_index_ops i o : ddls_index m ct t i = Ok o -> desired_inline_index m ct i (effects (index_ops n) o).
Proof.
  unfold ddls_index, desired_inline_index, desired_index, named. fold (find_index (t_indexes ct) (i_name i)).
  destruct (i_primary i) eqn:Hpr; intros H; [injection H as <-; reflexivity|].
  assert (Hadd : forall s, stmt_add_index m (t_name t) i = Ok s -> effects (index_ops n) [s] = [Add i]).
  { intros s Hs. unfold effects. simpl. rewrite (add_index_secondary _ _ _ _ Hpr Hs). simpl. fold n. now rewrite String.eqb_refl. }
  destruct (find_index _ _) as [ci|].
  - destruct (are_same_indexes ci i) eqn:Es.
    + injection H as <-. left. split; [now apply are_same_indexes_spec|reflexivity].
    + bind_inv H. injection H as <-. right. split; [now apply are_same_indexes_false|].
      match goal with s : stmt |- _ =>
        change [stmt_drop_index m (t_name t) (i_name i); s] with ([stmt_drop_index m (t_name t) (i_name i)] ++ [s]);
        rewrite effects_app, (Hadd s eq_refl) end. fold n. now rewrite drop_index_ops.
  - bind_inv H. injection H as <-. now apply Hadd.
Qed.

Lemma standalone_index_ops l : Forall (fun d => ddl_table d = Some n) l ->
  contrib (desired_index m ct) (indexes_on n l) (effects (index_ops n) (flat_map (standalone m ct) l)).
Proof.
  assert (Hone : forall d i, effects (index_ops n) [verbatim d] = [Add i] ->
    desired_index m ct i (effects (index_ops n)
      match find_index (t_indexes ct) (i_name i) with
      | None => [verbatim d]
      | Some ci => if are_same_indexes ci i then [] else [stmt_drop_index m n (i_name ci); verbatim d]
      end)).
  { intros d i Hd. unfold desired_index, named. fold (find_index (t_indexes ct) (i_name i)).
    destruct (find_index _ _) as [ci|] eqn:Ef; [|assumption].
    destruct (are_same_indexes ci i) eqn:Es.
    - left. split; [now apply are_same_indexes_spec|reflexivity].
    - right. split; [now apply are_same_indexes_false|].
      change [stmt_drop_index m n (i_name ci); verbatim d] with ([stmt_drop_index m n (i_name ci)] ++ [verbatim d]).
      rewrite effects_app, Hd, drop_index_ops. apply find_some in Ef as [_ Ef]. apply String.eqb_eq in Ef. now rewrite Ef. }
  induction 1 as [|d l Hd _ IH]; [constructor|]. simpl. rewrite effects_app.
  destruct d; simpl in Hd; try discriminate; injection Hd as Hd; simpl; rewrite ?Hd, ?String.eqb_refl.
  - exact IH.
  - apply contrib_cons; [|exact IH]. apply Hone. unfold effects. simpl. now rewrite String.eqb_refl.
  - apply contrib_cons; [|exact IH]. apply Hone. unfold effects. simpl. now rewrite String.eqb_refl.
  - exact IH.
  - exact IH.
  - destruct (find_policy _ _) as [cp|]; [destruct (are_same_policies _ _)|]; exact IH.
Qed.

Lemma fk_index_names_spec l x : In x (fk_index_names l) <-> backs_fk l x.
Proof.
  unfold backs_fk. induction l as [|f l IH]; simpl.
  - split; [tauto|]. intros (f & [] & _).
  - assert (Hstep : (exists f0, (f = f0 \/ In f0 l) /\ x <> "" /\ (x = fk_index_name f0 \/ (fk_index_name f0 = "" /\ x = fk_constraint f0))) <->
      (x <> "" /\ (x = fk_index_name f \/ (fk_index_name f = "" /\ x = fk_constraint f))) \/ In x (fk_index_names l)).
    { rewrite IH. split.
      - intros (f0 & [<-|H] & H2); [left; exact H2|right; exists f0; tauto].
      - intros [H|(f0 & H & H2)]; [exists f; tauto|exists f0; tauto]. }
    rewrite Hstep. clear Hstep.
    destruct (String.eqb_spec (fk_index_name f) "") as [E1|E1]; simpl.
    + destruct (String.eqb_spec (fk_constraint f) "") as [E2|E2]; simpl.
      * rewrite E1, E2. intuition congruence.
      * split; [intros [<-|H]; [left; auto|auto]|]. intros [[H [H2|[_ H2]]]|H]; [congruence|left; congruence|auto].
    + split; [intros [<-|H]; [left; auto|auto]|]. intros [[H [H2|[H2 _]]]|H]; [left; congruence|congruence|auto].
Qed.

Lemma current_index_ops i o :
  (if contains_string (index_names (t_indexes dt)) (i_name i) || contains_string (fk_index_names (t_fks dt)) (i_name i)
   then Ok [] else absent_index m ct dt i) = Ok o ->
  current_index m dt i (effects (index_ops n) o).
Proof.
  rewrite !contains_string_mem. intros H. unfold current_index.
  destruct (mem (i_name i) (index_names (t_indexes dt))) eqn:E1; cbn [orb] in H.
  { injection H as <-. left. split; [reflexivity|]. left. now apply mem_spec. }
  destruct (mem (i_name i) (fk_index_names (t_fks dt))) eqn:E2.
  { injection H as <-. left. split; [reflexivity|]. right. left. apply fk_index_names_spec. now apply mem_spec. }
  apply mem_false in E1. apply mem_false in E2. rewrite fk_index_names_spec in E2.
  unfold absent_index in H. destruct (i_primary i) eqn:Epr.
  { left. split; [|auto]. destruct (find _ _).
    - destruct (i_columns i); [discriminate|]. destruct (String.eqb _ _); [injection H as <-; reflexivity|discriminate].
    - destruct m; injection H as <-; reflexivity. }
  assert (Hdrop : o = [stmt_drop_index m (t_name ct) (i_name i)] -> effects (index_ops n) o = drop_index_op m (i_name i)).
  { intros ->. rewrite Hname. fold n. apply drop_index_ops. }
  destruct (i_unique i) eqn:Eu.
  2:{ injection H as <-. right. rewrite Hdrop by reflexivity. repeat split; auto. intros (Hx & _). discriminate. }
  destruct (t_columns dt) as [|c0 cs] eqn:Ec.
  { injection H as <-. right. rewrite Hdrop by reflexivity. repeat split; auto. intros (_ & c & _ & _ & [] & _). }
  destruct (i_columns i) as [|ic ics] eqn:Ei; [discriminate|].
  destruct (existsb _ _) eqn:Ex in H.
  - injection H as <-. left. split; [reflexivity|]. do 3 right. split; [reflexivity|].
    apply existsb_exists in Ex as (c & Hin & Hx). apply andb_prop in Hx as [Hx1 Hx2]. apply String.eqb_eq in Hx1.
    exists c, ic, ics. auto.
  - injection H as <-. right. rewrite Hdrop by reflexivity. repeat split; auto.
    intros (_ & c & ic' & rest & Hin & Hu & Hi & Hc). injection Hi as <- <-.
    assert (Hf : existsb (fun c => String.eqb (c_name c) (ic_column ic) && is_unique (c_key c)) (c0 :: cs) = true).
    { apply existsb_exists. exists c. split; [assumption|]. rewrite Hc, String.eqb_refl. exact Hu. }
    congruence.
Qed.

Theorem index_ops_exact : exists inline separate cleanup,
  contrib (desired_inline_index m ct) (t_indexes t) inline /\
  contrib (desired_index m ct) (indexes_on n desired) separate /\
  contrib (current_index m dt) (t_indexes ct) cleanup /\
  effects (index_ops n) out = inline ++ separate ++ cleanup.
Proof.
  destruct kept_sections as (cols & rem & pk & idx & ainc & fks & cix & H1 & H2 & H3 & H4 & H5 & H6 & H7 & Hp).
  exists (effects (index_ops n) idx), (effects (index_ops n) (flat_map (standalone m ct) (statements_on n desired))),
    (effects (index_ops n) cix).
  split; [eapply effects_concat_map; [|exact H4]; intros; now apply inline_index_ops|].
  split.
  { assert (Hon : forall l, indexes_on n (statements_on n l) = indexes_on n l).
    { unfold indexes_on, statements_on. induction l as [|d l IH]; simpl; [reflexivity|].
      destruct d; simpl; try exact IH; try (destruct (String.eqb _ n) eqn:E; simpl; rewrite ?E; simpl; now rewrite ?IH). }
    rewrite <- (Hon desired). apply standalone_index_ops. apply statements_on_table. }
  split; [eapply effects_concat_map; [|exact H7]; intros x o' _ Hx; now apply current_index_ops|].
  rewrite <- (effects_part _ n out).
  2:{ intros e He. destruct e as [d| | | | | | | | | | | | | | | | | | | | | | | | | | | | | | | |]; simpl in *; auto;
        try destruct d; simpl in *; auto; match goal with |- context [String.eqb ?a n] => destruct (String.eqb_spec a n); [congruence|reflexivity] end. }
  rewrite Hp, !effects_app.
  rewrite (sil _ k_column cols), (sil _ k_change rem), (sil _ k_primary pk), (sil _ k_change ainc),
    (sil _ k_fk fks), (sil _ k_fk (cleanup_fks _ _ _)), (sil _ k_column (cleanup_columns _ _ _)),
    (sil _ k_policy (cleanup_policies _ _ _)); try kinds.
  - simpl. now rewrite app_nil_r.
  - apply kind_cleanup_policies.
  - apply kind_cleanup_columns.
  - apply kind_cleanup_fks.
  - eapply all_concat_map; [|exact H6]. intros; eapply kind_fk; eauto.
  - eapply kind_add_autoinc; eauto.
  - eapply kind_primary_key; eauto.
  - eapply kind_remove_autoinc; eauto.
  - eapply kind_columns; eauto.
Qed.

(** C19 *)
Lemma fk_ops_desired f o : ddls_fk m ct t f = Ok o -> desired_fk m ct f (effects (fk_ops n) o).
Proof.
  unfold ddls_fk, desired_fk, named. fold (find_fk (t_fks ct) (fk_constraint f)). intros H.
  destruct (String.eqb _ _); [discriminate|].
  assert (Hadd : effects (fk_ops n) [stmt_add_fk m (t_name t) f] = [Add f]).
  { unfold effects. simpl. fold n. now rewrite String.eqb_refl. }
  destruct (find_fk _ _) as [cf|] eqn:Ef.
  - destruct (are_same_foreign_keys m cf f) eqn:Es; injection H as <-.
    + left. split; [now apply are_same_foreign_keys_spec|reflexivity].
    + right. split; [now apply are_same_foreign_keys_false|]. rewrite effects_app, Hadd.
      apply find_some in Ef as [_ Ef]. apply String.eqb_eq in Ef.
      destruct m; simpl; fold n; rewrite ?String.eqb_refl, ?Ef; reflexivity.
  - injection H as <-. exact Hadd.
Qed.

Lemma fk_ops_current f : current_fk m dt f
  (effects (fk_ops n) (if contains_string (fk_names (t_fks dt)) (fk_constraint f) then [] else absent_fk m ct dt f)).
Proof.
  unfold current_fk. rewrite contains_string_mem. fold (fk_names (t_fks dt)).
  destruct (mem (fk_constraint f) (fk_names (t_fks dt))) eqn:E1.
  { left. split; [|reflexivity]. left. now apply mem_spec. }
  apply mem_false in E1.
  assert (Hex : existsb (fun c => String.eqb (c_references c) (fk_ref_name f)) (t_columns dt) = true <->
    exists c, In c (t_columns dt) /\ c_references c = fk_ref_name f).
  { rewrite existsb_exists. split; intros (c & H1 & H2); exists c; (split; [assumption|now apply String.eqb_eq]). }
  unfold absent_fk. destruct m; simpl; rewrite ?Hname; fold n; rewrite ?String.eqb_refl.
  - right. split; [|reflexivity]. intros [H|[H|[[H|H] _]]]; congruence || tauto.
  - destruct (existsb _ _).
    + left. split; [|reflexivity]. right. right. split; [auto|]. now apply Hex.
    + right. simpl. rewrite ?Hname. fold n. rewrite ?String.eqb_refl. split; [|reflexivity].
      intros [H|[H|[_ H]]]; try congruence; try tauto. apply Hex in H. discriminate.
  - left. split; [auto|reflexivity].
  - destruct (existsb _ _).
    + left. split; [|reflexivity]. right. right. split; [auto|]. now apply Hex.
    + right. simpl. rewrite ?Hname. fold n. rewrite ?String.eqb_refl. split; [|reflexivity].
      intros [H|[H|[_ H]]]; try congruence; try tauto. apply Hex in H. discriminate.
Qed.

Theorem fk_ops_exact : exists inline cleanup,
  contrib (desired_fk m ct) (t_fks t) inline /\
  contrib (current_fk m dt) (t_fks ct) cleanup /\
  effects (fk_ops n) out = inline ++ cleanup.
Proof.
  destruct kept_sections as (cols & rem & pk & idx & ainc & fks & cix & H1 & H2 & H3 & H4 & H5 & H6 & H7 & Hp).
  exists (effects (fk_ops n) fks), (effects (fk_ops n) (cleanup_fks m ct dt)).
  split; [eapply effects_concat_map; [|exact H6]; intros; now apply fk_ops_desired|].
  split; [unfold cleanup_fks; rewrite effects_flat_map; apply contrib_fun; intros; apply fk_ops_current|].
  rewrite <- (effects_part _ n out).
  2:{ intros e He. destruct e; simpl in *; auto;
      match goal with |- context [String.eqb ?a n] => destruct (String.eqb_spec a n); [congruence|reflexivity] end. }
  rewrite Hp, !effects_app.
  rewrite (sil _ k_column cols), (sil _ k_change rem), (sil _ k_primary pk), (sil _ k_index idx), (sil _ k_change ainc),
    (sil _ k_standalone (flat_map _ _)), (sil _ k_index_or_primary cix), (sil _ k_column (cleanup_columns _ _ _)),
    (sil _ k_policy (cleanup_policies _ _ _)); try kinds.
  - simpl. now rewrite app_nil_r.
  - apply kind_cleanup_policies.
  - apply kind_cleanup_columns.
  - eapply kind_cleanup_indexes; eauto.
  - apply kind_standalone.
  - eapply kind_add_autoinc; eauto.
  - eapply all_concat_map; [|exact H4]. intros; eapply kind_ix; eauto.
  - eapply kind_primary_key; eauto.
  - eapply kind_remove_autoinc; eauto.
  - eapply kind_columns; eauto.
Qed.

(** C24 *)
Lemma standalone_policy_ops l : Forall (fun d => ddl_table d = Some n) l ->
  contrib (desired_policy ct) (policies_on n l) (effects (policy_ops n) (flat_map (standalone m ct) l)).
Proof.
  induction 1 as [|d l Hd _ IH]; [constructor|]. simpl. rewrite effects_app.
  destruct d; simpl in Hd; try discriminate; injection Hd as Hd; simpl; rewrite ?Hd, ?String.eqb_refl; try exact IH.
  - destruct (find_index _ _) as [ci|]; [destruct (are_same_indexes _ _)|]; try exact IH. destruct m; exact IH.
  - destruct (find_index _ _) as [ci|]; [destruct (are_same_indexes _ _)|]; try exact IH. destruct m; exact IH.
  - apply contrib_cons; [|exact IH]. unfold desired_policy, named. fold (find_policy (t_policies ct) (p_name p)).
    destruct (find_policy _ _) as [cp|] eqn:Ef.
    + destruct (are_same_policies cp p) eqn:Es.
      * left. split; [now apply are_same_policies_spec|reflexivity].
      * right. split; [now apply are_same_policies_false|]. unfold effects. simpl. rewrite !String.eqb_refl.
        apply find_some in Ef as [_ Ef]. apply String.eqb_eq in Ef. now rewrite Ef.
    + unfold effects. simpl. now rewrite String.eqb_refl.
Qed.

Theorem policy_ops_exact : exists separate,
  contrib (desired_policy ct) (policies_on n desired) separate /\
  effects (policy_ops n) out =
    separate ++ map (fun p => Drop (p_name p)) (without p_name p_name (t_policies dt) (t_policies ct)).
Proof.
  destruct kept_sections as (cols & rem & pk & idx & ainc & fks & cix & H1 & H2 & H3 & H4 & H5 & H6 & H7 & Hp).
  exists (effects (policy_ops n) (flat_map (standalone m ct) (statements_on n desired))).
  split.
  { assert (Hon : forall l, policies_on n (statements_on n l) = policies_on n l).
    { unfold policies_on, statements_on. induction l as [|d l IH]; simpl; [reflexivity|].
      destruct d; simpl; try exact IH; try (destruct (String.eqb _ n) eqn:E; simpl; rewrite ?E; simpl; now rewrite ?IH). }
    rewrite <- (Hon desired). apply standalone_policy_ops. apply statements_on_table. }
  rewrite <- (effects_part _ n out).
  2:{ intros e He. destruct e as [d| | | | | | | | | | | | | | | | | | | | | | | | | | | | | | | |]; simpl in *; auto;
        try destruct d; simpl in *; auto; match goal with |- context [String.eqb ?a n] => destruct (String.eqb_spec a n); [congruence|reflexivity] end. }
  rewrite Hp, !effects_app.
  rewrite (sil _ k_column cols), (sil _ k_change rem), (sil _ k_primary pk), (sil _ k_index idx), (sil _ k_change ainc),
    (sil _ k_fk fks), (sil _ k_fk (cleanup_fks _ _ _)), (sil _ k_index_or_primary cix),
    (sil _ k_column (cleanup_columns _ _ _)); try kinds.
  - cbn [app]. f_equal. unfold cleanup_policies. rewrite effects_flat_map.
    rewrite <- (flat_map_single _ (without _ _ _ _)). unfold without.
    rewrite <- (if_flat_map (fun p => mem (p_name p) (map p_name (t_policies dt)))).
    apply flat_map_ext. intros p. rewrite contains_string_mem. fold (policy_names (t_policies dt)).
    destruct (mem _ _); [reflexivity|]. unfold effects. simpl. rewrite Hname. fold n. now rewrite String.eqb_refl.
  - apply kind_cleanup_columns.
  - eapply kind_cleanup_indexes; eauto.
  - apply kind_cleanup_fks.
  - eapply all_concat_map; [|exact H6]. intros; eapply kind_fk; eauto.
  - eapply kind_add_autoinc; eauto.
  - eapply all_concat_map; [|exact H4]. intros; eapply kind_ix; eauto.
  - eapply kind_primary_key; eauto.
  - eapply kind_remove_autoinc; eauto.
  - eapply kind_columns; eauto.
Qed.

(** C19, order: once an obsolete column or index of the table is being dropped, its foreign
    keys have all been dealt with. *)
Lemma part_split x s y : is_some_eqb (eff_table (s_eff s)) n = true ->
  table_part n (x ++ s :: y) = table_part n x ++ s :: table_part n y.
Proof. intros H. rewrite part_app. simpl. now rewrite H. Qed.

Lemma app_split_cases {A} (l1 l2 x y : list A) s : l1 ++ l2 = x ++ s :: y ->
  In s l1 \/ exists z, x = l1 ++ z /\ l2 = z ++ s :: y.
Proof.
  revert x. induction l1 as [|a l1 IH]; intros x H; simpl in *.
  - right. exists x. auto.
  - destruct x as [|b x]; simpl in H; injection H as -> H.
    + left. auto.
    + destruct (IH x H) as [Hi|(z & -> & Hz)]; [auto|]. right. exists z. auto.
Qed.

Lemma contrib_in {A B} (R : A -> list B -> Prop) l o b : contrib R l o -> In b o ->
  exists x o', In x l /\ R x o' /\ In b o'.
Proof.
  induction 1 as [|x o' l o HR _ IH]; simpl; [tauto|]. rewrite in_app_iff. intros [H|H].
  - exists x, o'. auto.
  - destruct (IH H) as (x' & o'' & H1 & H2 & H3). exists x', o''. auto.
Qed.

Lemma in_effects {B} (f : effect -> list B) o s b : In s o -> In b (f (s_eff s)) -> In b (effects f o).
Proof. intros H1 H2. unfold effects. apply in_flat_map. eauto. Qed.

Theorem fks_before_columns x s y c : out = x ++ s :: y ->
  s_eff s = EffDropColumn n c -> ~ In c (map c_name (t_columns t)) ->
  effects (fk_ops n) y = [].
Proof.
  intros Ho Hs Hc.
  destruct kept_sections as (cols & rem & pk & idx & ainc & fks & cix & H1 & H2 & H3 & H4 & H5 & H6 & H7 & Hp).
  rewrite Ho, part_split in Hp by (rewrite Hs; simpl; apply String.eqb_refl).
  rewrite <- (effects_part _ n y).
  2:{ intros e He. destruct e; simpl in *; auto;
      match goal with |- context [String.eqb ?a n] => destruct (String.eqb_spec a n); [congruence|reflexivity] end. }
  assert (Hk : forall k o, all k o -> k (EffDropColumn n c) = false -> ~ In s o).
  { intros k o Ha Hf Hi. rewrite Forall_forall in Ha. specialize (Ha s Hi). simpl in Ha. rewrite Hs in Ha. congruence. }
  symmetry in Hp.
  apply app_split_cases in Hp as [Hp|(z1 & _ & Hp)].
  { exfalso. apply Hc. assert (Hd : In c (effects (dropped_columns n) cols)).
    { eapply in_effects; [exact Hp|]. rewrite Hs. simpl. rewrite String.eqb_refl. now left. }
    destruct (contrib_in _ _ _ _ (columns_dropped _ _ _ H1) Hd) as (x0 & o' & Hx & [(cc & _ & _ & ->)|[_ ->]] & Hin);
      [|destruct Hin]. destruct Hin as [<-|[]]. now apply in_map. }
  apply app_split_cases in Hp as [Hp|(z2 & _ & Hp)]; [now apply (Hk k_change rem) in Hp; [| eapply kind_remove_autoinc; eauto|reflexivity]|].
  apply app_split_cases in Hp as [Hp|(z3 & _ & Hp)]; [now apply (Hk k_primary pk) in Hp; [| eapply kind_primary_key; eauto|reflexivity]|].
  apply app_split_cases in Hp as [Hp|(z4 & _ & Hp)].
  { now apply (Hk k_index idx) in Hp; [|eapply all_concat_map; [|exact H4]; intros; eapply kind_ix; eauto|reflexivity]. }
  apply app_split_cases in Hp as [Hp|(z5 & _ & Hp)]; [now apply (Hk k_change ainc) in Hp; [| eapply kind_add_autoinc; eauto|reflexivity]|].
  apply app_split_cases in Hp as [Hp|(z6 & _ & Hp)].
  { now apply (Hk k_fk fks) in Hp; [|eapply all_concat_map; [|exact H6]; intros; eapply kind_fk; eauto|reflexivity]. }
  apply app_split_cases in Hp as [Hp|(z7 & _ & Hp)]; [now apply (Hk k_standalone _) in Hp; [| apply kind_standalone|reflexivity]|].
  apply app_split_cases in Hp as [Hp|(z8 & _ & Hp)]; [now apply (Hk k_fk _) in Hp; [| apply kind_cleanup_fks|reflexivity]|].
  assert (Hrest : effects (fk_ops n) (cix ++ cleanup_columns m ct dt ++ cleanup_policies m ct dt) = []).
  { rewrite !effects_app. rewrite (sil _ k_index_or_primary cix), (sil _ k_column (cleanup_columns _ _ _)), (sil _ k_policy (cleanup_policies _ _ _)); try kinds; auto.
    - apply kind_cleanup_policies.
    - apply kind_cleanup_columns.
    - eapply kind_cleanup_indexes; eauto. }
  rewrite Hp, effects_app in Hrest. apply app_eq_nil in Hrest as [_ Hrest].
  change (s :: table_part n y) with ([s] ++ table_part n y) in Hrest. rewrite effects_app in Hrest. now apply app_eq_nil in Hrest.
Qed.

Theorem fks_before_indexes x s y i : out = x ++ s :: y ->
  s_eff s = EffDropIndex n i -> ~ In i (map i_name (t_indexes dt)) ->
  effects (fk_ops n) y = [].
Proof.
  intros Ho Hs Hc.
  destruct kept_sections as (cols & rem & pk & idx & ainc & fks & cix & H1 & H2 & H3 & H4 & H5 & H6 & H7 & Hp).
  rewrite Ho, part_split in Hp by (rewrite Hs; simpl; apply String.eqb_refl).
  rewrite <- (effects_part _ n y).
  2:{ intros e He. destruct e; simpl in *; auto;
      match goal with |- context [String.eqb ?a n] => destruct (String.eqb_spec a n); [congruence|reflexivity] end. }
  assert (Hk : forall k o, all k o -> k (EffDropIndex n i) = false -> ~ In s o).
  { intros k o Ha Hf Hi. rewrite Forall_forall in Ha. specialize (Ha s Hi). simpl in Ha. rewrite Hs in Ha. congruence. }
  assert (Hop : In (Drop i) (index_ops n (s_eff s))) by (rewrite Hs; simpl; rewrite String.eqb_refl; now left).
  symmetry in Hp.
  apply app_split_cases in Hp as [Hp|(z1 & _ & Hp)]; [now apply (Hk k_column cols) in Hp; [| eapply kind_columns; eauto|reflexivity]|].
  apply app_split_cases in Hp as [Hp|(z2 & _ & Hp)]; [now apply (Hk k_change rem) in Hp; [| eapply kind_remove_autoinc; eauto|reflexivity]|].
  apply app_split_cases in Hp as [Hp|(z3 & _ & Hp)]; [now apply (Hk k_primary pk) in Hp; [| eapply kind_primary_key; eauto|reflexivity]|].
  assert (Hdi : forall x0 o', desired_index m ct x0 o' -> In (Drop i) o' -> i = i_name x0).
  { intros x0 o' HR Hin. unfold desired_index in HR. destruct (named _ _ _).
    - destruct HR as [[_ ->]|[_ ->]]; [destruct Hin|]. apply in_app_iff in Hin as [Hin|[Hin|[]]]; [|discriminate].
      destruct m; simpl in Hin; intuition congruence.
    - subst o'. destruct Hin as [Hin|[]]; discriminate. }
  apply app_split_cases in Hp as [Hp|(z4 & _ & Hp)].
  { exfalso. apply Hc. pose proof (in_effects (index_ops n) _ _ _ Hp Hop) as Hd.
    assert (Hcon : contrib (desired_inline_index m ct) (t_indexes t) (effects (index_ops n) idx)).
    { eapply effects_concat_map; [|exact H4]; intros; now apply inline_index_ops. }
    destruct (contrib_in _ _ _ _ Hcon Hd) as (x0 & o' & Hx & HR & Hin).
    unfold desired_inline_index in HR. destruct (i_primary x0); [subst; destruct Hin|].
    rewrite (Hdi _ _ HR Hin). unfold dt, full_table. simpl. apply in_map, in_app_iff. now left. }
  apply app_split_cases in Hp as [Hp|(z5 & _ & Hp)]; [now apply (Hk k_change ainc) in Hp; [| eapply kind_add_autoinc; eauto|reflexivity]|].
  apply app_split_cases in Hp as [Hp|(z6 & _ & Hp)].
  { now apply (Hk k_fk fks) in Hp; [|eapply all_concat_map; [|exact H6]; intros; eapply kind_fk; eauto|reflexivity]. }
  apply app_split_cases in Hp as [Hp|(z7 & _ & Hp)].
  { exfalso. apply Hc. pose proof (in_effects (index_ops n) _ _ _ Hp Hop) as Hd.
    destruct (contrib_in _ _ _ _ (standalone_index_ops _ (statements_on_table n desired)) Hd) as (x0 & o' & Hx & HR & Hin).
    rewrite (Hdi _ _ HR Hin). unfold dt, full_table. simpl. apply in_map, in_app_iff. right. fold n.
    unfold indexes_on in Hx |- *. apply in_flat_map in Hx as (d & Hd1 & Hd2). apply in_flat_map. exists d.
    split; [|exact Hd2]. unfold statements_on in Hd1. now apply filter_In in Hd1. }
  apply app_split_cases in Hp as [Hp|(z8 & _ & Hp)]; [now apply (Hk k_fk _) in Hp; [| apply kind_cleanup_fks|reflexivity]|].
  assert (Hrest : effects (fk_ops n) (cix ++ cleanup_columns m ct dt ++ cleanup_policies m ct dt) = []).
  { rewrite !effects_app. rewrite (sil _ k_index_or_primary cix), (sil _ k_column (cleanup_columns _ _ _)), (sil _ k_policy (cleanup_policies _ _ _)); try kinds; auto.
    - apply kind_cleanup_policies.
    - apply kind_cleanup_columns.
    - eapply kind_cleanup_indexes; eauto. }
  rewrite Hp, effects_app in Hrest. apply app_eq_nil in Hrest as [_ Hrest].
  change (s :: table_part n y) with ([s] ++ table_part n y) in Hrest. rewrite effects_app in Hrest. now apply app_eq_nil in Hrest.
Qed.
End Kept.
