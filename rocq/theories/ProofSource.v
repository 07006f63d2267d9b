(** Proofs for the sources of planned definitions. *)
From Coq Require Import String Ascii List ZArith Bool Lia.
From Verif Require Import GoStr Ast Generator SpecPlan SpecSource ProofTables ProofPlan ProofSql.
Import ListNotations.
Local Open Scope string_scope.
Local Open Scope list_scope.

Lemma in_inline {A} (f : table -> list A) n l x : In x (inline f n l) <-> exists t, In t (tables_in l) /\ t_name t = n /\ In x (f t).
Proof.
  unfold inline. rewrite in_flat_map. split; intros (t & Ht & H); exists t; (split; [exact Ht|]).
  - destruct (String.eqb_spec (t_name t) n); [auto|destruct H].
  - destruct H as [-> H]. now rewrite String.eqb_refl.
Qed.
Lemma tables_in_app a b : tables_in (a ++ b) = tables_in a ++ tables_in b.
Proof. apply flat_map_app. Qed.
Lemma in_tables x t l : In (CreateTable x t) l -> In t (tables_in l).
Proof. intros H. apply in_flat_map. eexists. split; [exact H|]. now left. Qed.

(** The columns of the tables planned against are columns of the two schemas. *)
Definition known (src : list ddl) (l : list table) : Prop :=
  forall t c, In t l -> In c (t_columns t) -> exists c0, In c0 (columns_of (t_name t) src) /\ unkeyed c = unkeyed c0.

Lemma known_app src a b : known src a -> known src b -> known src (a ++ b).
Proof. intros Ha Hb t c Ht Hc. apply in_app_or in Ht. destruct Ht; [eapply Ha|eapply Hb]; eauto. Qed.
Lemma known_written src t : In t (tables_in src) -> known src [t].
Proof. intros H x c [<-|[]] Hc. exists c. split; [|reflexivity]. apply in_inline. eauto. Qed.
Lemma known_update src f n l : known src l -> (forall t, In t l -> t_name t = n -> known src [f t]) -> known src (update_table f n l).
Proof.
  induction l as [|z l IH]; cbn [update_table]; intros H Hf; [exact H|].
  assert (Hl : known src l) by (intros t c Ht; apply H; now right).
  destruct (String.eqb_spec (t_name z) n) as [E|_].
  - change (f z :: l) with ([f z] ++ l). apply known_app; [apply Hf; [now left|exact E]|exact Hl].
  - change (z :: update_table f n l) with ([z] ++ update_table f n l). apply known_app.
    + intros t c [<-|[]]. apply H. now left.
    + apply IH; [exact Hl|]. intros t Ht. apply Hf. now right.
Qed.
Lemma known_same src l (f : table -> table) : known src l -> (forall t, t_name (f t) = t_name t /\ t_columns (f t) = t_columns t) -> forall t, In t l -> known src [f t].
Proof. intros H Hf t Ht x c [<-|[]]. destruct (Hf t) as [-> ->]. now apply H. Qed.

Lemma merged_columns (t1 t2 : table) c : In c (t_columns (merge_table t1 t2)) -> In c (t_columns t1) \/ In c (t_columns t2).
Proof.
  unfold merge_table. cbn [t_columns set_indexes set_columns]. generalize (t_columns t1). induction (t_columns t2) as [|y l IH]; cbn [fold_left]; intros a H; [now left|].
  apply IH in H. destruct H as [H|H]; [|right; now right]. destruct (contains_string _ _); [|now left].
  apply in_app_or in H. destruct H as [H|[<-|[]]]; [now left|right; now left].
Qed.

Lemma mark_known src i t t' : known src [t] -> mark_primary i t = Ok t' -> known src [t'] /\ t_name t' = t_name t.
Proof.
  intros H E. unfold mark_primary in E. destruct (t_columns t) as [|c0 l] eqn:Ec; [injection E as <-; auto|].
  destruct (i_columns i); [discriminate|]. injection E as <-. split; [|reflexivity].
  intros x c [<-|[]] Hc. apply (in_map_iff (fun c => if String.eqb (c_name c) (ic_column i0) then set_key KeyPrimary c else c) (c0 :: l) c) in Hc. destruct Hc as (y & Ey & Hy).
  rewrite <- Ec in Hy. destruct (H t y (or_introl eq_refl) Hy) as (c1 & H1 & H2).
  exists c1. split; [exact H1|]. cbv beta in Ey. rewrite <- Ey, <- H2. destruct (String.eqb _ _); reflexivity.
Qed.

Lemma convert_known src l : forall acc r, known src acc -> incl (tables_in l) (tables_in src) -> convert_from acc l = Ok r -> known src r.
Proof.
  induction l as [|d l IH]; cbn [convert_from]; intros acc r Ha Hi H; [injection H as <-; exact Ha|].
  bind_step H.
  assert (Hi' : incl (tables_in l) (tables_in src)). { intros t Ht. apply Hi. change (d :: l) with ([d] ++ l). rewrite tables_in_app. apply in_or_app. now right. }
  apply (IH x r); [|exact Hi'|exact H]. clear IH H.
  destruct d; cbn [convert_step] in E; try (injection E as <-; exact Ha); try discriminate.
  - injection E as <-. apply known_app; [exact Ha|]. apply known_written. apply Hi. now left.
  - destruct (find_table _ _); [|discriminate]. injection E as <-. apply known_update; [exact Ha|]. intros t1 Ht1 _. eapply (known_same src acc); eauto.
  - destruct (find_table _ _) as [t1|] eqn:Ef; [|discriminate]. bind_step E. injection E as <-. apply find_table_some in Ef. destruct Ef as [Hin Hn].
    apply known_update; [exact Ha|]. intros t2 _ _. eapply mark_known; [|exact E0]. intros y c [<-|[]]. now apply Ha.
  - destruct (find_table _ _); [|discriminate]. injection E as <-. apply known_update; [exact Ha|]. intros t1 Ht1 _. eapply (known_same src acc); eauto.
  - destruct (find_table _ _); [|discriminate]. injection E as <-. apply known_update; [exact Ha|]. intros t1 Ht1 _. eapply (known_same src acc); eauto.
Qed.

Lemma step_known m src d g g' o : In d src -> known src (g_cur g) -> step m g d = Ok (g', o) -> known src (g_cur g').
Proof.
  intros Hd Hg H. destruct d; cbn [step] in H; try discriminate.
  - apply in_tables in Hd. unfold step_create_table in H. destruct (find_table _ _) as [ct|] eqn:Ef.
    + bind_step H. injection H as <- <-. cbn [g_cur set_des set_cur]. apply known_update; [exact Hg|].
      intros y Hy Hn z c [<-|[]] Hc. cbn [t_name merge_table set_indexes set_columns]. apply merged_columns in Hc. destruct Hc as [Hc|Hc]; [now apply Hg|].
      exists c. split; [|reflexivity]. apply in_inline. exists t. unfold merge_table. cbn. auto.
    + injection H as <- <-. cbn. apply known_app; [exact Hg|now apply known_written].
  - unfold step_index in H. destruct (find_table (g_cur g) _); [|discriminate].
    destruct (find_index _ _) as [ci|]; [destruct (are_same_indexes ci i)|]; destruct (find_table (g_des g) _); try discriminate;
      destruct (contains_string _ _); try discriminate; injection H as <- <-; cbn [g_cur set_des set_cur]; [exact Hg| |];
      (apply known_update; [exact Hg|]; intros y Hy _; eapply known_same; [exact Hg| |exact Hy]; intros; split; reflexivity).
  - unfold step_index in H. destruct (find_table (g_cur g) _); [|discriminate].
    destruct (find_index _ _) as [ci|]; [destruct (are_same_indexes ci i)|]; destruct (find_table (g_des g) _); try discriminate;
      destruct (contains_string _ _); try discriminate; injection H as <- <-; cbn [g_cur set_des set_cur]; [exact Hg| |];
      (apply known_update; [exact Hg|]; intros y Hy _; eapply known_same; [exact Hg| |exact Hy]; intros; split; reflexivity).
  - unfold step_fk in H. destruct (find_table _ _); [|discriminate]. destruct (contains_string _ _); [discriminate|]. injection H as <- <-. exact Hg.
  - unfold step_policy in H. destruct (find_table (g_cur g) _); [|discriminate].
    destruct (find_policy _ _) as [cp|]; [destruct (are_same_policies cp p)|]; destruct (find_table (g_des g) _); try discriminate;
      destruct (contains_string _ _); try discriminate; injection H as <- <-; cbn [g_cur set_des set_cur]; [exact Hg|exact Hg|].
    apply known_update; [exact Hg|]; intros y Hy _; eapply known_same; [exact Hg| |exact Hy]; intros; split; reflexivity.
  - unfold step_view in H. destruct (contains_string _ _); [discriminate|]. injection H as <- <-. exact Hg.
  - unfold step_trigger in H. destruct (trigger_definition m t); injection H as <- <-; exact Hg.
Qed.

(** ** One table *)
Section Table.
Variables (desired current : list ddl) (cur des : table).
Hypothesis des_in : In des (tables_in desired).
Hypothesis same_name : t_name cur = t_name des.
Hypothesis cur_known : known (current ++ desired) [cur].

Definition asked (st : stmt) : Prop := asked_for desired current (s_eff st).

Lemma column_in c : In c (t_columns des) -> In c (columns_of (t_name des) desired).
Proof. intros H. apply in_inline. eauto. Qed.
Lemma column_in_cur c : In c (t_columns des) -> In c (columns_of (t_name cur) desired).
Proof. rewrite same_name. apply column_in. Qed.
Lemma found l n c : find_column l n = Some c -> In c l /\ c_name c = n.
Proof. intros H. apply find_some in H. destruct H as [H1 H2]. apply String.eqb_eq in H2. auto. Qed.

Ltac from c0 := exists c0; split; [first [now apply column_in | now apply column_in_cur]|]; split.

Definition before (prev : option string) : Prop := match prev with Some x => In x (map c_name (t_columns des)) | None => True end.
Lemma pos_before prev : before prev -> match pos_of prev with PosAfter y => In y (map c_name (columns_of (t_name des) desired)) | _ => True end.
Proof. destruct prev as [x|]; cbn; [|auto]. intros H. apply in_map_iff in H. destruct H as (c & <- & H). apply in_map. now apply column_in. Qed.

Lemma column_asked m prev c o : before prev -> In c (t_columns des) -> ddls_column m cur des prev c = Ok o -> Forall asked o.
Proof.
  intros Hp Hc H. apply pos_before in Hp. unfold ddls_column in H. destruct (find_column _ _) as [cc|] eqn:Ef.
  - apply found in Ef. destruct Ef as [Hcc Hn]. set (dc := if c_autoinc cc then c else set_autoinc false c) in H.
    assert (Hdc : is_column dc c) by (unfold dc, is_column; destruct (c_autoinc cc); auto).
    assert (Edc : c_name dc = c_name c /\ c_default dc = c_default c /\ c_check dc = c_check c /\ c_identity dc = c_identity c /\ c_sequence dc = c_sequence c /\
      c_notnull dc = c_notnull c /\ c_type dc = c_type c /\ c_key dc = c_key c).
    { unfold dc. destruct (c_autoinc cc); repeat split; reflexivity. }
    clearbody dc. destruct Edc as (E1 & E2 & E3 & E4 & E5 & E6 & E7 & E8). destruct m.
    + unfold ddls_column_mysql in H. bind_step H. injection H as <-. apply Forall_app. split.
      * destruct (_ || _ || _) in E; [|injection E as <-; constructor]. bind_step E. injection E as <-. constructor; [|constructor].
        unfold asked; cbn [s_eff asked_for]. split; [destruct (change_order _ _ _ _); [exact Hp|exact I]|]. split; [congruence|]. left. from c; [now symmetry|exact Hdc].
      * destruct (is_unique (c_key dc)) eqn:Eu; [|constructor]. cbn [andb]. destruct (_ && _); [|constructor]. constructor; [|constructor].
        unfold asked; cbn [s_eff asked_for]. from c; [now symmetry|]. now rewrite <- E8.
    + unfold ddls_column_postgres in H. bind_step H. injection H as <-. rewrite !Forall_app. repeat split.
      * unfold pg_type. destruct (have_same_data_type _ _ _); constructor; [|constructor]. unfold asked; cbn [s_eff asked_for].
        split; [congruence|]. from c; [now symmetry|exact Hdc].
      * unfold pg_null. destruct (is_primary_key _ _); [constructor|]. destruct (_ && _); [repeat constructor|].
        destruct (negb (not_null Postgres cc)); [|constructor]. cbn [andb]. destruct (not_null Postgres dc) eqn:En; constructor; [|constructor].
        unfold asked; cbn [s_eff asked_for]. from c; [now symmetry|]. unfold not_null in En. rewrite E6, E7 in En. unfold declared_required.
        destruct (c_notnull c) as [[]|]; [now left|discriminate|]. right. split; [reflexivity|].
        apply orb_true_iff in En. destruct En as [En|En]; apply String.eqb_eq in En; auto.
      * unfold pg_identity. destruct (are_same_identity _ _); [constructor|].
        destruct (c_identity cc), (c_identity dc) eqn:Ei; repeat constructor; unfold asked; cbn [s_eff asked_for].
        -- from c; congruence.
        -- from c; [congruence|]. split; congruence.
      * unfold pg_default in E. destruct (are_same_default _ _); [injection E as <-; constructor|].
        destruct (c_default dc) as [[v k]|] eqn:Ed; [|injection E as <-; repeat constructor]. cbn [df_value] in E.
        destruct v as [v|]; [|discriminate]. bind_step E. injection E as <-. constructor; [|constructor]. unfold asked; cbn [s_eff asked_for].
        from c; congruence.
      * unfold pg_check. destruct (_ && _); [constructor|]. apply Forall_app.
        split; [destruct (c_check cc); repeat constructor|]. destruct (c_check dc) eqn:Ek; constructor; [|constructor].
        unfold asked; cbn [s_eff asked_for]. from c; congruence.
    + injection H as <-. constructor.
    + unfold ddls_column_mssql in H. bind_step H. bind_step H. injection H as <-. rewrite !Forall_app. repeat split.
      * unfold ms_check. destruct (_ && _); [constructor|]. apply Forall_app.
        split; [destruct (c_check cc); repeat constructor|]. destruct (c_check dc) eqn:Ek; constructor; [|constructor].
        unfold asked; cbn [s_eff asked_for]. from c; congruence.
      * unfold ms_identity in E. destruct (are_same_identity _ _); [injection E as <-; constructor|]. bind_step E. injection E as <-.
        apply Forall_app. split; [destruct (c_identity cc); repeat constructor|].
        destruct (c_identity dc); [|injection E9 as <-; constructor]. bind_step E9. injection E9 as <-. constructor; [|constructor].
        unfold asked; cbn [s_eff asked_for]. split; [exact I|]. from c; [now symmetry|exact Hdc].
      * unfold ms_default in E0. destruct (are_same_default _ _); [injection E0 as <-; constructor|]. bind_step E0. injection E0 as <-.
        apply Forall_app. split; [destruct (c_default cc); repeat constructor|].
        destruct (c_default dc) as [[v k]|] eqn:Ed; [|injection E9 as <-; constructor]. cbn [df_value df_constraint] in E9.
        destruct v as [v|]; [|discriminate]. bind_step E9. injection E9 as <-. constructor; [|constructor]. unfold asked; cbn [s_eff asked_for].
        from c; congruence.
  - unfold ddls_new_column in H. bind_step H. injection H as <-. constructor; [|constructor]. unfold asked; cbn [s_eff asked_for].
    split; [destruct m; first [exact Hp|exact I]|]. from c; [reflexivity|now right].
Qed.

Lemma columns_asked m l : incl l (t_columns des) -> forall prev o, before prev -> ddls_columns m cur des prev l = Ok o -> Forall asked o.
Proof.
  induction l as [|c l IH]; cbn [ddls_columns]; intros Hi prev o Hb H.
  - injection H as <-. constructor.
  - bind_step H. bind_step H. injection H as <-. apply Forall_app. split; [eapply column_asked; [exact Hb|apply Hi; now left|exact E]|].
    eapply IH; [| |exact E0]; [intros y Hy; apply Hi; now right|]. cbn. apply in_map, Hi. now left.
Qed.

Lemma remove_autoinc_asked m o : ddls_remove_autoinc m cur des = Ok o -> Forall asked o.
Proof.
  unfold ddls_remove_autoinc. intros H. destruct m; try (injection H as <-; constructor).
  eapply concat_map_Forall; [|exact H]. intros x o' Hin Hx. cbv beta zeta in Hx.
  destruct (c_autoinc x) eqn:Ea; cbn [andb] in Hx; [|injection Hx as <-; constructor].
  destruct (match find_column (t_columns des) (c_name x) with Some dc => negb (c_autoinc dc) | None => true end); [|injection Hx as <-; constructor].
  bind_step Hx. injection Hx as <-. constructor; [|constructor]. unfold asked; cbn [s_eff asked_for]. split; [exact I|]. split; [reflexivity|]. right.
  destruct (cur_known cur x (or_introl eq_refl) Hin) as (c0 & H1 & H2). exists c0. split; [exact H1|].
  assert (Ha : c_autoinc c0 = c_autoinc x) by (change (c_autoinc (unkeyed c0) = c_autoinc (unkeyed x)); now rewrite H2).
  split; [congruence|]. transitivity (set_autoinc false (unkeyed x)); [reflexivity|]. rewrite H2. reflexivity.
Qed.

Lemma add_autoinc_asked m o : ddls_add_autoinc m cur des = Ok o -> Forall asked o.
Proof.
  unfold ddls_add_autoinc. intros H. destruct m; try (injection H as <-; constructor).
  eapply concat_map_Forall; [|exact H]. intros x o' Hin Hx. cbv beta zeta in Hx.
  destruct (_ && _) in Hx; [|injection Hx as <-; constructor]. bind_step Hx. injection Hx as <-.
  constructor; [|constructor]. unfold asked; cbn [s_eff asked_for]. split; [exact I|]. split; [reflexivity|]. left. from x; [reflexivity|now left].
Qed.

Lemma key_declared i : primary_key des = Some i -> In i (table_indexes_of (t_name des) desired) \/ exists x, In x (tables_in desired) /\ t_name x = t_name des /\ key_of_columns x i.
Proof.
  unfold primary_key. destruct (find i_primary _) as [j|] eqn:Ef.
  - intros H. injection H as ->. left. apply find_some in Ef. apply in_inline. exists des. tauto.
  - intros H. right. exists des. split; [exact des_in|]. split; [reflexivity|]. unfold key_of_columns.
    destruct (filter (fun c => is_key_primary (c_key c)) (t_columns des)) as [|c l] eqn:El; [discriminate|]. cbn [map] in H.
    assert (E : i = mkIndex "PRIMARY" "primary key" (map (fun c => mkIndexColumn (c_name c) None "") (c :: l)) true true "" [] true "" "" []) by (injection H as <-; reflexivity).
    rewrite E. cbn [i_primary i_unique i_options i_columns]. rewrite map_map. repeat split; reflexivity.
Qed.

Lemma primary_of_primary i : primary_key des = Some i -> i_primary i = true.
Proof.
  unfold primary_key. destruct (find i_primary _) as [j|] eqn:Ef.
  - intros H. injection H as ->. now apply find_some in Ef.
  - destruct (map _ _); [discriminate|]. intros H. injection H as <-. reflexivity.
Qed.

Lemma add_index_asked m n i s : stmt_add_index m n i = Ok s -> s_eff s = (if i_primary i then EffAddPrimaryKey n i else EffAddIndex n i).
Proof. unfold stmt_add_index. intros H. bind_step H. injection H as <-. reflexivity. Qed.

Lemma drop_index_asked m n i : asked (stmt_drop_index m n i).
Proof. destruct m; exact I. Qed.

Lemma primary_key_asked m o : ddls_primary_key m cur des = Ok o -> Forall asked o.
Proof.
  unfold ddls_primary_key. intros H. destruct (are_same_primary_keys _ _); [injection H as <-; constructor|].
  bind_step H. bind_step H. injection H as <-. apply Forall_app. split.
  - destruct (primary_key cur); [|injection E as <-; constructor].
    destruct m; [| destruct (split_first _ _) as [[a b]|]; [|discriminate]| |]; injection E as <-; repeat constructor.
  - destruct (primary_key des) eqn:Ep; [|injection E0 as <-; constructor]. bind_step E0. injection E0 as <-.
    constructor; [|constructor]. unfold asked. rewrite (add_index_asked _ _ _ _ E1), (primary_of_primary _ Ep). cbn [asked_for]. now apply key_declared.
Qed.

Lemma index_asked m i o : In i (t_indexes des) -> ddls_index m cur des i = Ok o -> Forall asked o.
Proof.
  intros Hi H. unfold ddls_index in H. destruct (i_primary i) eqn:Ep; [injection H as <-; constructor|].
  assert (Ha : forall s, stmt_add_index m (t_name des) i = Ok s -> asked s).
  { intros s Hs. unfold asked. rewrite (add_index_asked _ _ _ _ Hs), Ep. cbn [asked_for]. apply in_inline. eauto. }
  destruct (find_index _ _) as [ci|].
  - destruct (are_same_indexes ci i); [injection H as <-; constructor|]. bind_step H. injection H as <-.
    constructor; [apply drop_index_asked|]. constructor; [now apply Ha|constructor].
  - bind_step H. injection H as <-. constructor; [now apply Ha|constructor].
Qed.

Lemma fk_asked m f o : In f (t_fks des) -> ddls_fk m cur des f = Ok o -> Forall asked o.
Proof.
  intros Hi H. unfold ddls_fk in H. destruct (String.eqb _ _); [discriminate|].
  assert (Ha : asked (stmt_add_fk m (t_name des) f)) by (unfold asked; cbn [stmt_add_fk s_eff asked_for]; apply in_inline; eauto).
  destruct (find_fk _ _) as [cf|]; [|injection H as <-; constructor; [exact Ha|constructor]].
  destruct (are_same_foreign_keys _ _ _); injection H as <-; [constructor|].
  apply Forall_app. split; [|constructor; [exact Ha|constructor]]. destruct m; repeat constructor.
Qed.

Lemma create_table_asked m o : ddls_for_create_table m cur des = Ok o -> Forall asked o.
Proof.
  unfold ddls_for_create_table. intros H. do 6 bind_step H. injection H as <-. rewrite !Forall_app. repeat split.
  - eapply columns_asked; [| |eauto]; [apply incl_refl|exact I].
  - eapply remove_autoinc_asked; eauto.
  - eapply primary_key_asked; eauto.
  - eapply concat_map_Forall; [|exact E2]. intros i o Hi. now apply index_asked.
  - eapply add_autoinc_asked; eauto.
  - eapply concat_map_Forall; [|exact E4]. intros i o Hi. now apply fk_asked.
Qed.
End Table.

(** ** The plan *)
Lemma cleanup_kept_asked desired current m cur des o : cleanup_kept m cur des = Ok o -> Forall (asked desired current) o.
Proof.
  unfold cleanup_kept. intros H. bind_step H. injection H as <-. rewrite !Forall_app. repeat split.
  - unfold cleanup_fks. apply Forall_flat_map, Forall_forall. intros f _. destruct (contains_string _ _); [constructor|].
    unfold absent_fk. destruct m; [|destruct (existsb _ _); [constructor|]|constructor|destruct (existsb _ _); [constructor|]]; repeat constructor.
  - unfold cleanup_indexes in E. eapply concat_map_Forall; [|exact E]. intros i o _ Hi. cbv beta in Hi. destruct (_ || _) in Hi; [injection Hi as <-; constructor|].
    unfold absent_index in Hi. destruct (i_primary i).
    + destruct (find _ _).
      * destruct (i_columns i); [discriminate|]. destruct (String.eqb _ _); [injection Hi as <-; constructor|discriminate].
      * destruct m; injection Hi as <-; repeat constructor.
    + assert (Hd : Forall (asked desired current) [stmt_drop_index m (t_name cur) (i_name i)]) by (constructor; [apply drop_index_asked|constructor]).
      destruct (i_unique i); [|injection Hi as <-; exact Hd].
      destruct (t_columns des); [injection Hi as <-; exact Hd|]. destruct (i_columns i); [discriminate|].
      destruct (existsb _ _); injection Hi as <-; [constructor|exact Hd].
  - unfold cleanup_columns. apply Forall_flat_map, Forall_forall. intros c _. destruct (contains_string _ _); [constructor|].
    unfold absent_column. apply Forall_app. split; [|repeat constructor].
    destruct m; try constructor. apply Forall_flat_map, Forall_forall. intros y _. destruct (c_default y) as [d|]; [|constructor].
    destruct (_ && _); repeat constructor.
  - unfold cleanup_policies. apply Forall_flat_map, Forall_forall. intros p _. destruct (contains_string _ _); repeat constructor.
Qed.

Lemma step_asked desired current m g d g' o : In d desired -> known (current ++ desired) (g_cur g) ->
  step m g d = Ok (g', o) -> Forall (asked desired current) o.
Proof.
  intros Hd Hg H. assert (Hv : asked desired current (verbatim d)) by exact Hd.
  destruct d; cbn [step] in H; try discriminate.
  - unfold step_create_table in H. destruct (find_table _ _) as [ct|] eqn:Ef.
    + bind_step H. injection H as <- <-. apply find_table_some in Ef. destruct Ef as [Hin Hn].
      eapply create_table_asked; [eapply in_tables; exact Hd|exact Hn| |exact E]. intros y c [<-|[]]. now apply Hg.
    + injection H as <- <-. constructor; [exact Hv|constructor].
  - unfold step_index in H. destruct (find_table _ _); [|discriminate].
    destruct (find_index _ _) as [ci|]; [destruct (are_same_indexes ci i)|]; destruct (find_table (g_des g) _); try discriminate;
      destruct (contains_string _ _); try discriminate; injection H as <- <-; repeat (apply Forall_cons; [first [exact Hv | apply drop_index_asked]|]); apply Forall_nil.
  - unfold step_index in H. destruct (find_table _ _); [|discriminate].
    destruct (find_index _ _) as [ci|]; [destruct (are_same_indexes ci i)|]; destruct (find_table (g_des g) _); try discriminate;
      destruct (contains_string _ _); try discriminate; injection H as <- <-; repeat (apply Forall_cons; [first [exact Hv | apply drop_index_asked]|]); apply Forall_nil.
  - unfold step_fk in H. destruct (find_table _ _); [|discriminate]. destruct (contains_string _ _); [discriminate|]. injection H as <- <-. constructor.
  - unfold step_policy in H. destruct (find_table _ _); [|discriminate].
    destruct (find_policy _ _) as [cp|]; [destruct (are_same_policies cp p)|]; destruct (find_table (g_des g) _); try discriminate;
      destruct (contains_string _ _); try discriminate; injection H as <- <-; repeat (apply Forall_cons; [first [exact Hv | exact I]|]); apply Forall_nil.
  - unfold step_view in H. destruct (contains_string _ _); [discriminate|]. injection H as <- <-.
    assert (Hx : exists w, In (DView w) desired /\ vw_name w = vw_name v /\ vw_definition w = vw_definition v) by eauto.
    destruct (find_view _ _) as [cv|]; [|constructor; [exact Hv|constructor]]. destruct (String.eqb _ _); [constructor|].
    destruct m; repeat (apply Forall_cons; [first [exact Hx | exact I]|]); apply Forall_nil.
  - unfold step_trigger in H. destruct (trigger_definition m t) as [def|] eqn:Ed; [|injection H as <- <-; constructor].
    injection H as <- <-.
    destruct (find_trigger _ _) as [ct|]; [|constructor; [exact Hd|constructor]]. destruct (are_same_trigger ct t); [constructor|].
    destruct m; repeat (apply Forall_cons; [first [exact Hd | exact I]|]); apply Forall_nil.
Qed.

Lemma steps_asked desired current m l : incl l desired -> forall g g' o, known (current ++ desired) (g_cur g) -> steps m g l = Ok (g', o) -> Forall (asked desired current) o.
Proof.
  induction l as [|d l IH]; cbn [steps]; intros Hi g g' o Hg H; [injection H as <- <-; constructor|].
  destruct (step m g d) as [[g1 a]| | |] eqn:E; try discriminate. cbn [bind] in H.
  destruct (steps m g1 l) as [[g2 b]| | |] eqn:E2; try discriminate. injection H as <- <-.
  assert (Hd : In d desired) by (apply Hi; now left). apply Forall_app. split; [eapply step_asked; eauto|].
  eapply IH; [|eapply step_known; [|exact Hg|exact E]|exact E2]; [intros y Hy; apply Hi; now right|]. apply in_or_app. now right.
Qed.

Lemma cleanup_tables_asked desired current m des l : forall live o, cleanup_tables m des live l = Ok o -> Forall (asked desired current) o.
Proof.
  induction l as [|t l IH]; cbn [cleanup_tables]; intros live o H; [injection H as <-; constructor|].
  destruct (find_table des (t_name t)).
  - bind_step H. bind_step H. injection H as <-. apply Forall_app. split; [eapply cleanup_kept_asked|eapply IH]; eauto.
  - destruct (remove_table _ _); [|discriminate]. bind_step H. injection H as <-. constructor; [exact I|eapply IH; eauto].
Qed.

Theorem plan_asked m desired current out : plan m desired current = Ok out -> Forall (fun st => asked_for desired current (s_eff st)) out.
Proof.
  unfold plan, generate_ddls. intros H. bind_step H.
  destruct (steps m (init_state x current) desired) as [[g a]| | |] eqn:E2; try discriminate. cbn [bind] in H.
  bind_step H. injection H as <-. rewrite !Forall_app. repeat split.
  - eapply steps_asked; [apply incl_refl| |exact E2]. cbn [init_state g_cur]. eapply convert_known; [| |exact E].
    + intros t c [].
    + rewrite tables_in_app. apply incl_appl, incl_refl.
  - eapply cleanup_tables_asked; eauto.
  - unfold cleanup_views. apply Forall_flat_map, Forall_forall. intros v _. destruct (contains_string _ _); repeat constructor.
Qed.
