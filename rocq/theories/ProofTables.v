(** The part of the plan about one table. *)
From Coq Require Import String Ascii List ZArith Bool Lia.
From Verif Require Import GoStr GoStrFacts Ast Generator SpecPlan ProofPlan ProofSteps.
Import ListNotations.
Local Open Scope string_scope.
Local Open Scope list_scope.

Definition about (n : string) (s : stmt) : Prop := eff_table (s_eff s) = Some n.

Lemma concat_map_Forall {A B} (P : B -> Prop) (f : A -> res (list B)) l o :
  (forall x o, In x l -> f x = Ok o -> Forall P o) -> concat_map f l = Ok o -> Forall P o.
Proof.
  revert o; induction l as [|x l IH]; simpl; intros o H E.
  - injection E as <-. constructor.
  - destruct (f x) as [a| | |] eqn:Ef; try discriminate. simpl in E.
    destruct (concat_map f l) as [b| | |] eqn:Ec; try discriminate. injection E as <-.
    apply Forall_app. split; eauto.
Qed.

(** A tactic for "every statement listed is about [n]". *)
Ltac bind_inv H :=
  match type of H with
  | bind ?x _ = Ok _ => let E := fresh "E" in destruct x eqn:E; [|discriminate|discriminate|discriminate]; cbn [bind] in H
  end.

Lemma new_column_about m des prev c o : ddls_new_column m des prev c = Ok o -> Forall (about (t_name des)) o.
Proof. unfold ddls_new_column. intros H. bind_inv H. injection H as <-. repeat constructor. Qed.

Lemma column_mysql_about cur des prev cc dc o : ddls_column_mysql cur des prev cc dc = Ok o -> Forall (about (t_name des)) o.
Proof.
  unfold ddls_column_mysql. intros H. bind_inv H. injection H as <-. apply Forall_app. split.
  - destruct (_ || _ || _) in E; [|injection E as <-; constructor]. bind_inv E. injection E as <-. repeat constructor.
  - destruct (_ && _); repeat constructor.
Qed.

Lemma column_postgres_about cur des cc dc o : t_name cur = t_name des ->
  ddls_column_postgres cur des cc dc = Ok o -> Forall (about (t_name des)) o.
Proof.
  unfold ddls_column_postgres. intros Hn H. bind_inv H. injection H as <-. rewrite !Forall_app. repeat split.
  - unfold pg_type. destruct (have_same_data_type _ _ _); repeat constructor.
  - unfold pg_null. destruct (is_primary_key _ _); [constructor|]. destruct (_ && _); [repeat constructor|].
    destruct (_ && _); repeat constructor.
  - unfold pg_identity. destruct (are_same_identity _ _); [constructor|].
    destruct (c_identity cc), (c_identity dc); repeat constructor. now rewrite Hn.
  - unfold pg_default in E. destruct (are_same_default _ _); [injection E as <-; constructor|].
    destruct (c_default dc) as [d|]; [|injection E as <-; repeat constructor; unfold about; simpl; now rewrite Hn].
    destruct (df_value d); [|discriminate]. bind_inv E. injection E as <-. repeat constructor. unfold about; simpl; now rewrite Hn.
  - unfold pg_check. destruct (_ && _); [constructor|]. apply Forall_app.
    split; [destruct (c_check cc)|destruct (c_check dc)]; repeat constructor.
Qed.

Lemma column_mssql_about cur des cc dc o : t_name cur = t_name des ->
  ddls_column_mssql cur des cc dc = Ok o -> Forall (about (t_name des)) o.
Proof.
  unfold ddls_column_mssql. intros Hn H. bind_inv H. bind_inv H. injection H as <-. rewrite !Forall_app. repeat split.
  - unfold ms_check. destruct (_ && _); [constructor|]. apply Forall_app.
    split; [destruct (c_check cc)|destruct (c_check dc)]; repeat constructor.
  - unfold ms_identity in E. destruct (are_same_identity _ _); [injection E as <-; constructor|]. bind_inv E. injection E as <-.
    apply Forall_app. split.
    + destruct (c_identity cc); repeat constructor. unfold about; simpl; now rewrite Hn.
    + destruct (c_identity dc); [|injection E1 as <-; constructor]. bind_inv E1. injection E1 as <-. repeat constructor.
  - unfold ms_default in E0. destruct (are_same_default _ _); [injection E0 as <-; constructor|]. bind_inv E0. injection E0 as <-.
    apply Forall_app. split.
    + destruct (c_default cc); repeat constructor. unfold about; simpl; now rewrite Hn.
    + destruct (c_default dc) as [d|]; [|injection E1 as <-; constructor].
      destruct (df_value d); [|discriminate]. bind_inv E1. injection E1 as <-. repeat constructor. unfold about; simpl; now rewrite Hn.
Qed.

Lemma column_about m cur des prev c o : t_name cur = t_name des ->
  ddls_column m cur des prev c = Ok o -> Forall (about (t_name des)) o.
Proof.
  unfold ddls_column. intros Hn H. destruct (find_column _ _).
  - destruct m.
    + eapply column_mysql_about; eauto.
    + eapply column_postgres_about; eauto.
    + injection H as <-. constructor.
    + eapply column_mssql_about; eauto.
  - eapply new_column_about; eauto.
Qed.

Lemma columns_about m cur des l : t_name cur = t_name des -> forall prev o,
  ddls_columns m cur des prev l = Ok o -> Forall (about (t_name des)) o.
Proof.
  intros Hn. induction l as [|c l IH]; simpl; intros prev o H.
  - injection H as <-. constructor.
  - bind_inv H. bind_inv H. injection H as <-. apply Forall_app. split; [eapply column_about|eapply IH]; eauto.
Qed.

Lemma add_index_about m n i s : stmt_add_index m n i = Ok s -> about n s.
Proof. unfold stmt_add_index. intros H. bind_inv H. injection H as <-. unfold about. simpl. destruct (i_primary i); reflexivity. Qed.

Lemma drop_index_about m n i : about n (stmt_drop_index m n i).
Proof. destruct m; reflexivity. Qed.

Lemma remove_autoinc_about m cur des o : t_name cur = t_name des -> ddls_remove_autoinc m cur des = Ok o -> Forall (about (t_name des)) o.
Proof.
  unfold ddls_remove_autoinc. intros Hn H. destruct m; try (injection H as <-; constructor).
  eapply concat_map_Forall; [|exact H]. intros x o' _ Hx. cbv beta zeta in Hx.
  destruct (_ && _) in Hx; [|injection Hx as <-; constructor]. bind_inv Hx. injection Hx as <-.
  repeat constructor. unfold about; simpl; now rewrite Hn.
Qed.

Lemma add_autoinc_about m cur des o : t_name cur = t_name des -> ddls_add_autoinc m cur des = Ok o -> Forall (about (t_name des)) o.
Proof.
  unfold ddls_add_autoinc. intros Hn H. destruct m; try (injection H as <-; constructor).
  eapply concat_map_Forall; [|exact H]. intros x o' _ Hx. cbv beta zeta in Hx.
  destruct (_ && _) in Hx; [|injection Hx as <-; constructor]. bind_inv Hx. injection Hx as <-.
  repeat constructor. unfold about; simpl; now rewrite Hn.
Qed.

Lemma primary_key_about m cur des o : ddls_primary_key m cur des = Ok o -> Forall (about (t_name des)) o.
Proof.
  unfold ddls_primary_key. intros H. destruct (are_same_primary_keys _ _); [injection H as <-; constructor|].
  bind_inv H. bind_inv H. injection H as <-. apply Forall_app. split.
  - destruct (primary_key cur); [|injection E as <-; constructor].
    destruct m; try (injection E as <-; repeat constructor).
    destruct (split_first "." (t_name des)) as [[? ?]|]; [|discriminate]. injection E as <-. repeat constructor.
  - destruct (primary_key des); [|injection E0 as <-; constructor]. bind_inv E0. injection E0 as <-.
    repeat constructor. eapply add_index_about; eauto.
Qed.

Lemma index_about m cur des i o : ddls_index m cur des i = Ok o -> Forall (about (t_name des)) o.
Proof.
  unfold ddls_index. intros H. destruct (i_primary i); [injection H as <-; constructor|].
  destruct (find_index _ _) as [ci|].
  - destruct (are_same_indexes ci i); [injection H as <-; constructor|]. bind_inv H. injection H as <-.
    repeat constructor; [apply drop_index_about|eapply add_index_about; eauto].
  - bind_inv H. injection H as <-. repeat constructor. eapply add_index_about; eauto.
Qed.

Lemma fk_about m cur des f o : ddls_fk m cur des f = Ok o -> Forall (about (t_name des)) o.
Proof.
  unfold ddls_fk. intros H. destruct (String.eqb _ _); [discriminate|].
  destruct (find_fk _ _) as [cf|]; [|injection H as <-; repeat constructor].
  destruct (are_same_foreign_keys _ _ _); injection H as <-; [constructor|].
  apply Forall_app. split; [destruct m|]; repeat constructor.
Qed.

Lemma create_table_about m cur des o : t_name cur = t_name des ->
  ddls_for_create_table m cur des = Ok o -> Forall (about (t_name des)) o.
Proof.
  unfold ddls_for_create_table. intros Hn H. do 6 bind_inv H. injection H as <-. rewrite !Forall_app.
  split; [eapply columns_about; eauto|]. split; [eapply remove_autoinc_about; eauto|].
  split; [eapply primary_key_about; eauto|].
  split; [eapply concat_map_Forall; [|exact E2]; intros; eapply index_about; eauto|].
  split; [eapply add_autoinc_about; eauto|].
  eapply concat_map_Forall; [|exact E4]. intros. eapply fk_about; eauto.
Qed.

Lemma cleanup_kept_about m cur des o : cleanup_kept m cur des = Ok o -> Forall (about (t_name cur)) o.
Proof.
  unfold cleanup_kept. intros H. bind_inv H. injection H as <-. rewrite !Forall_app.
  assert (Hflat : forall A (f : A -> list stmt) l, (forall x, Forall (about (t_name cur)) (f x)) -> Forall (about (t_name cur)) (flat_map f l)).
  { intros A f l Hf. induction l; simpl; [constructor|]. apply Forall_app. auto. }
  split.
  { apply Hflat. intros f. destruct (contains_string _ _); [constructor|]. unfold absent_fk.
    destruct m; try (destruct (existsb _ _)); repeat constructor. }
  split.
  { eapply concat_map_Forall; [|exact E]. intros i o _ Hi. cbv beta in Hi. destruct (_ || _); [injection Hi as <-; constructor|].
    unfold absent_index in Hi. destruct (i_primary i).
    - destruct (find _ _).
      + destruct (i_columns i); [discriminate|]. destruct (String.eqb _ _); [injection Hi as <-; constructor|discriminate].
      + destruct m; injection Hi as <-; repeat constructor.
    - destruct (i_unique i).
      + destruct (t_columns des), (i_columns i); try discriminate;
          try (destruct (existsb _ _)); injection Hi as <-; repeat constructor; apply drop_index_about.
      + injection Hi as <-. repeat constructor. apply drop_index_about. }
  split.
  { apply Hflat. intros c. destruct (contains_string _ _); [constructor|]. unfold absent_column. apply Forall_app.
    split; [|repeat constructor]. destruct m; try constructor. apply Hflat. intros c'.
    destruct (c_default c'); [|constructor]. destruct (_ && _); repeat constructor. }
  apply Hflat. intros p. destruct (contains_string _ _); repeat constructor.
Qed.

(** ** Filtering by table *)
Lemma part_app n a b : table_part n (a ++ b) = table_part n a ++ table_part n b.
Proof. apply filter_app. Qed.

Lemma part_all n o : Forall (about n) o -> table_part n o = o.
Proof.
  induction 1 as [|s o H _ IH]; simpl; [reflexivity|]. rewrite H. simpl. rewrite String.eqb_refl, IH. reflexivity.
Qed.

Lemma part_none n k o : Forall (about k) o -> k <> n -> table_part n o = [].
Proof.
  intros H Hk. induction H as [|s o H _ IH]; simpl; [reflexivity|]. rewrite H. simpl.
  apply String.eqb_neq in Hk. rewrite Hk. exact IH.
Qed.

Lemma local_about m tables views triggers d o n :
  local m tables views triggers d = Ok o -> ddl_table d = Some n -> Forall (about n) o.
Proof.
  intros H Hd. destruct d; simpl in *; injection Hd as <- || discriminate.
  - destruct (find_table tables (t_name t)) as [ct|] eqn:E.
    + apply find_table_some in E. eapply create_table_about; [|exact H]. tauto.
    + injection H as <-. repeat constructor.
  - destruct (find_table tables table_name) as [ct|]; [|injection H as <-; repeat constructor].
    destruct (find_index _ _) as [ci|]; [|injection H as <-; repeat constructor].
    destruct (are_same_indexes ci i); injection H as <-; repeat constructor. apply drop_index_about.
  - destruct (find_table tables table_name) as [ct|]; [|injection H as <-; repeat constructor].
    destruct (find_index _ _) as [ci|]; [|injection H as <-; repeat constructor].
    destruct (are_same_indexes ci i); injection H as <-; repeat constructor. apply drop_index_about.
  - discriminate.
  - injection H as <-. constructor.
  - destruct (find_table tables table_name) as [ct|]; [|injection H as <-; repeat constructor].
    destruct (find_policy _ _) as [cp|]; [|injection H as <-; repeat constructor].
    destruct (are_same_policies cp p); injection H as <-; repeat constructor.
Qed.

Lemma local_no_table m tables views triggers d o n :
  local m tables views triggers d = Ok o -> ddl_table d = None -> table_part n o = [].
Proof.
  intros H Hd. destruct d; simpl in *; try discriminate.
  - injection H as <-. destruct (find_view _ _); [destruct (String.eqb _ _); [|destruct m]|]; reflexivity.
  - destruct (trigger_definition m t); injection H as <-; [|reflexivity].
    destruct (find_trigger _ _); [destruct (are_same_trigger _ _); [|destruct m]|]; reflexivity.
Qed.

Lemma concat_map_part m tables views triggers n l o :
  concat_map (local m tables views triggers) l = Ok o ->
  concat_map (local m tables views triggers) (statements_on n l) = Ok (table_part n o).
Proof.
  revert o; induction l as [|d l IH]; simpl; intros o H.
  - injection H as <-. reflexivity.
  - bind_inv H. bind_inv H. injection H as <-. rewrite part_app. specialize (IH _ eq_refl).
    destruct (ddl_table d) as [k|] eqn:Ed; simpl.
    + pose proof (local_about _ _ _ _ _ _ _ E Ed) as Ha.
      destruct (String.eqb k n) eqn:Ek; simpl.
      * apply String.eqb_eq in Ek. subst k. rewrite E, IH. simpl. now rewrite (part_all n a Ha).
      * apply String.eqb_neq in Ek. now rewrite (part_none n k a Ha Ek).
    + now rewrite (local_no_table _ _ _ _ _ _ n E Ed).
Qed.

Lemma cleanup_tables_part m des n l : forall live o,
  cleanup_tables m des live l = Ok o ->
  NoDup (map t_name l) ->
  match find_table l n with
  | None => table_part n o = []
  | Some ct =>
      match find_table des n with
      | None => table_part n o = [stmt_drop_table m n]
      | Some dt => cleanup_kept m ct dt = Ok (table_part n o)
      end
  end.
Proof.
  induction l as [|t l IH]; intros live o H Hn.
  { injection H as <-. reflexivity. }
  inversion Hn as [|? ? Ht Hl]; subst. cbn [cleanup_tables] in H. unfold find_table at 1. cbn [find].
  destruct (String.eqb (t_name t) n) eqn:En.
  - apply String.eqb_eq in En. subst n.
    assert (Hnone : find_table l (t_name t) = None) by now apply find_table_none.
    destruct (find_table des (t_name t)) as [dt|].
    + bind_inv H. bind_inv H. injection H as <-. rewrite part_app.
      specialize (IH _ _ E0 Hl). rewrite Hnone in IH. rewrite IH, app_nil_r. f_equal. symmetry.
      apply part_all. eapply cleanup_kept_about; eauto.
    + destruct (remove_table (t_name t) live) as [live'|]; [|discriminate]. bind_inv H. injection H as <-.
      specialize (IH _ _ E Hl). rewrite Hnone in IH. cbn. rewrite String.eqb_refl. f_equal. exact IH.
  - apply String.eqb_neq in En. fold (find_table l n).
    destruct (find_table des (t_name t)) as [dt|].
    + bind_inv H. bind_inv H. injection H as <-. rewrite part_app.
      rewrite (part_none n (t_name t) a); [|eapply cleanup_kept_about; eauto|assumption]. simpl. eapply IH; eauto.
    + destruct (remove_table (t_name t) live) as [live'|]; [|discriminate]. bind_inv H. injection H as <-.
      cbn. apply String.eqb_neq in En. rewrite En. eapply IH; eauto.
Qed.

Lemma obsolete_views_part m desired views n : table_part n (obsolete_views m desired views) = [].
Proof.
  unfold obsolete_views. induction views as [|v l IH]; simpl; [reflexivity|]. rewrite part_app, IH.
  destruct (mem _ _); reflexivity.
Qed.

(** ** The statements on a table in a well-formed schema *)
Lemma in_created_app n a b : In n (created (a ++ b)) <-> In n (created a) \/ In n (created b).
Proof. unfold created, tables_in. rewrite flat_map_app, map_app, in_app_iff. tauto. Qed.

Lemma statements_on_absent n l : forall before, well_formed_after before l = true ->
  ~ In n (created before) -> ~ In n (created l) -> statements_on n l = [].
Proof.
  induction l as [|d l IH]; intros before Hw Hb Hl; [reflexivity|].
  cbn [well_formed_after] in Hw. apply andb_prop in Hw as [Hd Hw].
  change (d :: l) with ([d] ++ l) in Hl. rewrite in_created_app in Hl.
  assert (Hrest : statements_on n l = []).
  { apply IH with (before := before ++ [d]); auto. rewrite in_created_app. tauto. }
  cbn [statements_on filter]. fold (statements_on n l). rewrite Hrest.
  destruct (is_some_eqb (ddl_table d) n) eqn:E; [exfalso|reflexivity].
  destruct d; simpl in *; try discriminate; apply String.eqb_eq in E; subst;
    try (apply andb_prop in Hd as [Hd _]; apply mem_spec in Hd; tauto).
  tauto.
Qed.

Lemma no_create_again n l : ~ In n (created l) ->
  Forall (fun d => match d with CreateTable _ _ => False | _ => True end) (statements_on n l).
Proof.
  intros H. apply Forall_forall. intros d Hd. unfold statements_on in Hd. apply filter_In in Hd as [Hi E].
  destruct d; auto. simpl in E. apply String.eqb_eq in E. apply H. unfold created, tables_in.
  apply in_map_iff. exists t. split; [assumption|]. apply in_flat_map. eexists. split; [exact Hi|]. simpl. auto.
Qed.

Lemma statements_on_head n l : forall before t, well_formed_after before l = true ->
  ~ In n (created before) -> NoDup (created l) -> In t (tables_in l) -> t_name t = n ->
  exists s rest, statements_on n l = CreateTable s t :: rest /\
    Forall (fun d => match d with CreateTable _ _ => False | _ => True end) rest.
Proof.
  induction l as [|d l IH]; intros before t Hw Hb Hn Ht Hname; [destruct Ht|].
  cbn [well_formed_after] in Hw. apply andb_prop in Hw as [Hd Hw].
  cbn [statements_on filter]. fold (statements_on n l).
  destruct (is_some_eqb (ddl_table d) n) eqn:E.
  - destruct d as [s t'|? ? ?|? ? ?|? ? ?|? ? ?|? ? ?|?|?]; simpl in E, Hd; try discriminate;
      apply String.eqb_eq in E; subst;
      try (apply andb_prop in Hd as [Hd _]; apply mem_spec in Hd; tauto).
    simpl in Ht. inversion Hn as [|? ? Hni Hn']; subst.
    destruct Ht as [<-|Ht].
    + exists s, (statements_on (t_name t') l). split; [reflexivity|]. now apply no_create_again.
    + exfalso. apply Hni. rewrite E. apply in_map. exact Ht.
  - eapply IH; eauto.
    + rewrite in_created_app. intros [H|H]; [tauto|]. destruct d; simpl in *; try tauto.
      apply String.eqb_neq in E. destruct H as [H|H]; tauto.
    + change (d :: l) with ([d] ++ l) in Hn. unfold created, tables_in in Hn.
      rewrite flat_map_app, map_app in Hn. now apply NoDup_app_r in Hn.
    + change (d :: l) with ([d] ++ l) in Ht. unfold tables_in in Ht. rewrite flat_map_app, in_app_iff in Ht.
      destruct Ht as [Ht|Ht]; [exfalso|exact Ht]. destruct d; simpl in *; try tauto.
      destruct Ht as [->|[]]. apply String.eqb_neq in E. tauto.
Qed.

(** The statement a separate CREATE INDEX, policy, ... contributes to a kept table. *)
Definition standalone (m : mode) (ct : table) (d : ddl) : list stmt :=
  match d with
  | CreateIndex _ n i | AddIndex _ n i =>
      match find_index (t_indexes ct) (i_name i) with
      | None => [verbatim d]
      | Some ci => if are_same_indexes ci i then [] else [stmt_drop_index m n (i_name ci); verbatim d]
      end
  | AddPolicy _ n p =>
      match find_policy (t_policies ct) (p_name p) with
      | None => [verbatim d]
      | Some cp => if are_same_policies cp p then [] else [stmt_drop_policy m (p_name cp) n; verbatim d]
      end
  | _ => []
  end.

Lemma local_standalone m tables views triggers ct d o :
  find_table tables (t_name ct) = Some ct -> ddl_table d = Some (t_name ct) ->
  match d with CreateTable _ _ => False | _ => True end ->
  local m tables views triggers d = Ok o -> o = standalone m ct d.
Proof.
  intros Hf Hd Hc H. destruct d; simpl in *; try tauto; try discriminate; injection Hd as ->; rewrite ?Hf in H.
  - destruct (find_index _ _); [destruct (are_same_indexes _ _)|]; injection H as <-; reflexivity.
  - destruct (find_index _ _); [destruct (are_same_indexes _ _)|]; injection H as <-; reflexivity.
  - injection H as <-. reflexivity.
  - destruct (find_policy _ _); [destruct (are_same_policies _ _)|]; injection H as <-; reflexivity.
Qed.

Lemma concat_map_standalone m tables views triggers ct l : 
  find_table tables (t_name ct) = Some ct ->
  Forall (fun d => match d with CreateTable _ _ => False | _ => True end) l ->
  Forall (fun d => ddl_table d = Some (t_name ct)) l -> forall o,
  concat_map (local m tables views triggers) l = Ok o -> o = flat_map (standalone m ct) l.
Proof.
  intros Hf. induction l as [|d l IH]; intros H1 H2 o H; simpl in H.
  - injection H as <-. reflexivity.
  - inversion H1; inversion H2; subst. bind_inv H. bind_inv H. injection H as <-. simpl. f_equal.
    + eapply local_standalone; eauto.
    + now apply IH.
Qed.

Lemma statements_on_table n l : Forall (fun d => ddl_table d = Some n) (statements_on n l).
Proof.
  apply Forall_forall. intros d H. unfold statements_on in H. apply filter_In in H as [_ H].
  unfold is_some_eqb in H. destruct (ddl_table d); [|discriminate]. apply String.eqb_eq in H. congruence.
Qed.

(** ** The plan for one table *)
Section Plan.
Context (m : mode) (desired current : list ddl) (out : list stmt).
Hypothesis Hnd : NoDup (created desired).
Hypothesis Hnc : NoDup (created current).
Hypothesis Hplan : plan m desired current = Ok out.

Lemma names_schema l : map t_name (schema l) = created l.
Proof. unfold schema, created. now rewrite map_map. Qed.

Lemma plan_parts : well_formed desired = true /\
  exists a b, concat_map (local m (schema current) (views_in current) (triggers_in current)) desired = Ok a /\
    cleanup_tables m (schema desired) (schema current) (schema current) = Ok b /\
    out = a ++ b ++ obsolete_views m desired (views_in current).
Proof.
  destruct (plan_ok_inv m desired current out Hnd Hplan) as (Hw & tables & a & b & Hc & Ha & Hb & Hr).
  rewrite (convert_schema current tables Hnc Hc) in *. split; [assumption|]. exists a, b. auto.
Qed.

Lemma plan_part n : exists a b, 
  concat_map (local m (schema current) (views_in current) (triggers_in current)) (statements_on n desired) = Ok a /\
  table_part n out = a ++ b /\
  match find_table (schema current) n with
  | None => b = []
  | Some ct =>
      match find_table (schema desired) n with
      | None => b = [stmt_drop_table m n]
      | Some dt => cleanup_kept m ct dt = Ok b
      end
  end.
Proof.
  destruct plan_parts as (Hw & a & b & Ha & Hb & Hr).
  exists (table_part n a), (table_part n b). split; [now apply concat_map_part|].
  split; [now rewrite Hr, !part_app, obsolete_views_part, app_nil_r|].
  eapply cleanup_tables_part; [exact Hb|]. now rewrite names_schema.
Qed.

Lemma in_tables_schema l t : In t (tables_in l) -> In (full_table l t) (schema l).
Proof. intros H. unfold schema. now apply in_map. Qed.

(** A kept table. *)
Theorem kept_part t ct : In t (tables_in desired) -> In ct (schema current) -> t_name ct = t_name t ->
  exists a c, ddls_for_create_table m ct t = Ok a /\ cleanup_kept m ct (full_table desired t) = Ok c /\
    table_part (t_name t) out = a ++ flat_map (standalone m ct) (statements_on (t_name t) desired) ++ c.
Proof.
  intros Ht Hct Hn. destruct (plan_part (t_name t)) as (a & c & Ha & Hp & Hc).
  assert (Hfc : find_table (schema current) (t_name t) = Some ct).
  { rewrite <- Hn. apply find_table_unique; [now rewrite names_schema|assumption]. }
  assert (Hfd : find_table (schema desired) (t_name t) = Some (full_table desired t)).
  { change (t_name t) with (t_name (full_table desired t)).
    apply find_table_unique; [now rewrite names_schema|now apply in_tables_schema]. }
  rewrite Hfc, Hfd in Hc. destruct plan_parts as (Hw & _).
  destruct (statements_on_head (t_name t) desired [] t Hw (fun H => H) Hnd Ht eq_refl) as (s & rest & Hs & Hrest).
  pose proof (statements_on_table (t_name t) desired) as Hall. rewrite Hs in Ha, Hall |- *.
  inversion Hall as [|? ? _ Hall']; subst. simpl in Ha. rewrite Hfc in Ha. bind_inv Ha. bind_inv Ha. injection Ha as <-.
  exists a0, c. rewrite Hp, <- app_assoc. repeat split; auto. cbn [flat_map standalone]. cbn [app]. do 2 f_equal.
  eapply concat_map_standalone; [| | |exact E0]; auto; rewrite Hn; auto.
Qed.

(** A new table. *)
Theorem new_part n : In n (created desired) -> ~ In n (created current) ->
  table_part n out =
    map verbatim (filter (fun d => match d with AddForeignKey _ _ _ => false | _ => true end)
                         (statements_on n desired)).
Proof.
  intros Hd Hc. destruct (plan_part n) as (a & c & Ha & Hp & Hx).
  assert (Hfc : find_table (schema current) n = None) by (apply find_table_none; now rewrite names_schema).
  rewrite Hfc in Hx. subst c. rewrite Hp, app_nil_r. clear Hp Hd.
  pose proof (statements_on_table n desired) as Hall. revert a Ha.
  induction Hall as [|d l Hd _ IH]; intros a Ha; simpl in Ha.
  - injection Ha as <-. reflexivity.
  - bind_inv Ha. bind_inv Ha. injection Ha as <-. rewrite (IH _ eq_refl). cbn [filter].
    destruct d; simpl in Hd; try discriminate; injection Hd as Hd; simpl in E; rewrite ?Hd, ?Hfc in E; try subst;
      try discriminate; injection E as <-; reflexivity.
Qed.

(** An obsolete table. *)
Theorem obsolete_part n : In n (created current) -> ~ In n (created desired) ->
  table_part n out = [stmt_drop_table m n].
Proof.
  intros Hc Hd. destruct (plan_part n) as (a & c & Ha & Hp & Hx). destruct plan_parts as (Hw & _).
  rewrite (statements_on_absent n desired [] Hw (fun H => H) Hd) in Ha. injection Ha as <-.
  assert (Hfd : find_table (schema desired) n = None) by (apply find_table_none; now rewrite names_schema).
  rewrite Hfd in Hx. destruct (find_table (schema current) n) as [ct|] eqn:E.
  - subst c. exact Hp.
  - apply find_table_none in E. rewrite names_schema in E. tauto.
Qed.

(** A table of neither schema. *)
Theorem unknown_part n : ~ In n (created current) -> ~ In n (created desired) -> table_part n out = [].
Proof.
  intros Hc Hd. destruct (plan_part n) as (a & c & Ha & Hp & Hx). destruct plan_parts as (Hw & _).
  rewrite (statements_on_absent n desired [] Hw (fun H => H) Hd) in Ha. injection Ha as <-.
  assert (Hfc : find_table (schema current) n = None) by (apply find_table_none; now rewrite names_schema).
  rewrite Hfc in Hx. subst c. exact Hp.
Qed.
End Plan.
