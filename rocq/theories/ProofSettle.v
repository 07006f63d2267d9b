(** Convergence on MySQL: the whole catalogue. *)
From Coq Require Import String Ascii List ZArith Bool Lia Permutation SpecFloat.
From Verif Require Import GoStr GoStrFacts Ast Generator SpecPlan SpecColumns SpecOrder SpecMysql SpecConverge ProofPlan
  ProofSteps ProofTables ProofCompare ProofExact ProofObjects ProofColumns ProofSelf ProofOrder ProofMysql ProofConverge.
Import ListNotations.
Local Open Scope string_scope.
Local Open Scope list_scope.

(** ** The dump *)
Definition numbered_table (t : table) : table := with_columns (number 0 (t_columns t)) t.

Lemma flat_map_map {A B C} (f : A -> B) (g : B -> list C) l : flat_map g (map f l) = flat_map (fun x => g (f x)) l.
Proof. induction l as [|x l IH]; [reflexivity|]. cbn [map flat_map]. now rewrite IH. Qed.
Lemma flat_map_single {A B} (f : A -> B) l : flat_map (fun x => [f x]) l = map f l.
Proof. induction l as [|x l IH]; [reflexivity|]. cbn [map flat_map app]. now rewrite IH. Qed.

Section Dump.
Variable cat : catalogue.

Lemma dump_tables : tables_in (dump cat) = map numbered_table (cat_tables cat).
Proof.
  unfold tables_in, dump. rewrite !flat_map_app, !flat_map_map. cbn beta iota.
  rewrite (flat_map_nil _ (cat_views cat)), (flat_map_nil _ (cat_triggers cat)) by reflexivity. rewrite !app_nil_r. apply flat_map_single.
Qed.
Lemma dump_views : views_in (dump cat) = cat_views cat.
Proof.
  unfold views_in, dump. rewrite !flat_map_app, !flat_map_map. cbn beta iota.
  rewrite (flat_map_nil _ (cat_tables cat)), (flat_map_nil _ (cat_triggers cat)) by reflexivity. rewrite app_nil_r. cbn [app].
  rewrite flat_map_single. apply map_id.
Qed.
Lemma dump_triggers : triggers_in (dump cat) = cat_triggers cat.
Proof.
  unfold triggers_in, dump. rewrite !flat_map_app, !flat_map_map. cbn beta iota.
  rewrite (flat_map_nil _ (cat_tables cat)), (flat_map_nil _ (cat_views cat)) by reflexivity. cbn [app].
  rewrite flat_map_single. apply map_id.
Qed.
Lemma dump_created : created (dump cat) = map t_name (cat_tables cat).
Proof. unfold created. rewrite dump_tables, map_map. reflexivity. Qed.

Lemma dump_separate {A} (f : ddl -> list A) :
  (forall s t, f (CreateTable s t) = []) -> (forall v, f (DView v) = []) -> (forall t, f (DTrigger t) = []) -> flat_map f (dump cat) = [].
Proof.
  intros H1 H2 H3. apply flat_map_nil. intros d Hd. unfold dump in Hd. rewrite !in_app_iff, !in_map_iff in Hd.
  destruct Hd as [(x & <- & _)|[(x & <- & _)|(x & <- & _)]]; auto.
Qed.

Lemma dump_schema : schema (dump cat) = map numbered_table (cat_tables cat).
Proof.
  unfold schema. rewrite dump_tables. rewrite <- (map_id (map numbered_table (cat_tables cat))) at 2. apply map_ext. intros t. unfold full_table.
  assert (E1 : indexes_on (t_name t) (dump cat) = []) by now apply dump_separate.
  assert (E2 : fks_on (t_name t) (dump cat) = []) by now apply dump_separate.
  assert (E3 : policies_on (t_name t) (dump cat) = []) by now apply dump_separate.
  assert (E4 : pk_marks (t_name t) (dump cat) = []) by now apply dump_separate.
  rewrite E1, E2, E3, E4, !app_nil_r. destruct t as [tn tc ti tf tp]. cbn [t_name t_columns t_indexes t_fks t_policies]. f_equal.
  rewrite <- (map_id tc) at 2. now apply map_ext.
Qed.

Lemma in_dump_schema t : In t (cat_tables cat) -> In (numbered_table t) (schema (dump cat)).
Proof. rewrite dump_schema. apply in_map. Qed.
End Dump.

(** ** Column order *)
Lemma add_key_columns i s s' : add_key i s = Some s' -> names s' = names s.
Proof.
  unfold add_key. destruct (mem _ _); [discriminate|]. intros [= <-]. unfold names. cbn [t_columns]. destruct (i_primary i); [|reflexivity].
  rewrite map_map. apply map_ext. intros c. now destruct (mem _ _).
Qed.
Lemma drop_key_columns x s s' : drop_key x s = Some s' -> names s' = names s.
Proof. unfold drop_key. destruct (mem _ _); [|discriminate]. intros [= <-]. reflexivity. Qed.

Lemma alter_order n e s s' : eff_table e = Some n -> alter_table e s = Some s' -> reorder n e (names s) = Some (names s').
Proof.
  intros He H. destruct e; cbn [eff_table] in He; try discriminate; cbn [alter_table] in H; try discriminate;
    try (injection He as He; subst); cbn [reorder]; rewrite ?String.eqb_refl;
    try (apply add_key_columns in H; now rewrite H); try (apply drop_key_columns in H; now rewrite H).
  - destruct d; cbn in H; try discriminate; apply add_key_columns in H; now rewrite H.
  - destruct (mem _ _); [discriminate|]. pose proof (put_names (recorded c) p (t_columns s)) as Hp. cbn [recorded c_name] in Hp.
    unfold names at 1. rewrite Hp. destruct (put_column _ _ _) as [r|]; [|discriminate]. destruct (is_unique _).
    + apply add_key_columns in H. now rewrite H.
    + injection H as <-. reflexivity.
  - destruct (String.eqb_spec (c_name c) old) as [Ec|N]; [|discriminate]. destruct (mem old (names s)) eqn:Em; [|discriminate]. cbn [andb negb orb] in H |- *.
    rewrite Ec, String.eqb_refl. cbn [negb andb]. set (c' := kept_notnull s (recorded c)) in *.
    assert (Hc' : c_name c' = old) by (unfold c', kept_notnull; destruct (in_pk _ _); exact Ec).
    assert (Hr : forall q, put old q (take_out old (names s)) = match put_column c' q (remove_named c_name old (t_columns s)) with Some r => Some (map c_name r) | None => None end).
    { intros q. rewrite <- (put_names c' q), Hc'. unfold names. now rewrite names_remove. }
    destruct p.
    + injection H as <-. f_equal. unfold names. cbn [with_columns t_columns]. rewrite (replace_names old c' (t_columns s) Hc').
      rewrite <- (map_id (map c_name (t_columns s))) at 2. apply map_ext. intros y. destruct (String.eqb_spec y old); congruence.
    + rewrite Hr. destruct (put_column _ _ _); [|discriminate]. injection H as <-. reflexivity.
    + rewrite Hr. destruct (put_column _ _ _); [|discriminate]. injection H as <-. reflexivity.
  - destruct (mem _ _); [|discriminate]. injection H as <-. f_equal. unfold names. cbn [with_columns t_columns]. now rewrite names_remove.
  - destruct (mem _ _); [|discriminate]. injection H as <-. reflexivity.
  - destruct (mem _ _); [discriminate|]. injection H as <-. reflexivity.
Qed.

Lemma exec_order n out : (forall s, In s out -> eff_table (s_eff s) = Some n) -> forall s s',
  exec out s = Some s' -> order_after n out (names s) = Some (names s').
Proof.
  induction out as [|x out IH]; intros Hall s s' H; cbn [exec] in H.
  - injection H as <-. reflexivity.
  - unfold exec1 in H. destruct (alter_table (s_eff x) s) as [s1|] eqn:E; [|discriminate]. destruct (integrity s1); [|discriminate].
    cbn [order_after]. rewrite (alter_order n (s_eff x) s s1); [|apply Hall; now left|exact E]. apply IH; [|exact H]. intros y Hy. apply Hall. now right.
Qed.

Lemma table_part_about n out s : In s (table_part n out) -> eff_table (s_eff s) = Some n.
Proof.
  unfold table_part. intros H. apply filter_In in H as [_ H]. unfold is_some_eqb in H. destruct (eff_table _); [|discriminate].
  apply String.eqb_eq in H. congruence.
Qed.


(** ** Running a plan, table by table *)
Definition step_table (e : effect) (o : option table) : option (option table) :=
  match e with
  | EffVerbatim (CreateTable _ t) =>
      match o with Some _ => None | None => if integrity (created_table t) then Some (Some (created_table t)) else None end
  | EffDropTable _ => match o with Some _ => Some None | None => None end
  | _ => match o with
         | Some t => match exec1 e t with Some t' => Some (Some t') | None => None end
         | None => None
         end
  end.
Fixpoint run_table (out : list stmt) (o : option table) : option (option table) :=
  match out with
  | [] => Some o
  | s :: out' => match step_table (s_eff s) o with Some o' => run_table out' o' | None => None end
  end.

Lemma exec_run_table out : forall t t', exec out t = Some t' -> run_table out (Some t) = Some (Some t').
Proof.
  induction out as [|s out IH]; intros t t' H; cbn [exec run_table] in *; [congruence|].
  destruct (exec1 (s_eff s) t) as [t1|] eqn:E; [|discriminate].
  assert (step_table (s_eff s) (Some t) = Some (Some t1)) as ->; [|auto].
  destruct (s_eff s); cbn [step_table]; try (now rewrite E); try (unfold exec1 in E; discriminate).
  destruct d; try (now rewrite E). unfold exec1 in E. discriminate.
Qed.

Definition view_step (o : view_op) (l : list view) : option (list view) :=
  match o with
  | ViewAsWritten v => if mem (vw_name v) (map vw_name l) then None else Some (l ++ [v])
  | ViewReplace n d => Some (remove_named vw_name n l ++ [mkView "" n d])
  | ViewDrop n => if mem n (map vw_name l) then Some (remove_named vw_name n l) else None
  | ViewCreate _ _ => None
  end.
Fixpoint run_views (o : list view_op) (l : list view) : option (list view) :=
  match o with
  | [] => Some l
  | x :: o' => match view_step x l with Some l' => run_views o' l' | None => None end
  end.
Definition trigger_step (o : trigger_op) (l : list trigger) : option (list trigger) :=
  match o with
  | TriggerCreate t => if mem (tr_name t) (map tr_name l) then None else Some (l ++ [t])
  | TriggerDrop n => if mem n (map tr_name l) then Some (remove_named tr_name n l) else None
  | TriggerAlter _ => None
  end.
Fixpoint run_triggers (o : list trigger_op) (l : list trigger) : option (list trigger) :=
  match o with
  | [] => Some l
  | x :: o' => match trigger_step x l with Some l' => run_triggers o' l' | None => None end
  end.

Lemma add_key_name i s s' : add_key i s = Some s' -> t_name s' = t_name s.
Proof. unfold add_key. destruct (mem _ _); [discriminate|]. now intros [= <-]. Qed.
Lemma drop_key_name x s s' : drop_key x s = Some s' -> t_name s' = t_name s.
Proof. unfold drop_key. destruct (mem _ _); [|discriminate]. now intros [= <-]. Qed.

Lemma alter_name e t t' : alter_table e t = Some t' -> t_name t' = t_name t.
Proof.
  intros H. destruct e; cbn [alter_table] in H; try discriminate; try (now apply add_key_name in H); try (now apply drop_key_name in H).
  - destruct d; try discriminate; now apply add_key_name in H.
  - destruct (mem _ _); [discriminate|]. destruct (put_column _ _ _); [|discriminate]. destruct (is_unique _); [apply add_key_name in H; exact H|].
    injection H as <-. reflexivity.
  - destruct (_ && _); [|discriminate]. destruct p; [injection H as <-; reflexivity| |];
      (destruct (put_column _ _ _); [|discriminate]; injection H as <-; reflexivity).
  - destruct (mem _ _); [|discriminate]. injection H as <-. reflexivity.
  - destruct (mem _ _); [|discriminate]. injection H as <-. reflexivity.
  - destruct (mem _ _); [discriminate|]. injection H as <-. reflexivity.
Qed.

Lemma replace_lookup n t l x : t_name t = n -> table_named x (replace_table n t l) = match table_named x l with Some y => Some (if String.eqb x n then t else y) | None => None end.
Proof.
  intros E. unfold table_named, replace_table. induction l as [|y l IH]; [reflexivity|]. cbn [map]. rewrite !named_cons.
  destruct (String.eqb_spec (t_name y) n) as [Ey|Ny].
  - rewrite E. destruct (String.eqb_spec n x) as [Ex|N].
    + subst x. rewrite Ey, String.eqb_refl. reflexivity.
    + destruct (String.eqb_spec (t_name y) x) as [E1|N1]; [congruence|]. exact IH.
  - destruct (String.eqb_spec (t_name y) x) as [E1|N1]; [|exact IH]. destruct (String.eqb_spec x n); [congruence|reflexivity].
Qed.
Lemma replace_table_names n t l : t_name t = n -> map t_name (replace_table n t l) = map t_name l.
Proof. intros E. unfold replace_table. rewrite map_map. apply map_ext. intros y. destruct (String.eqb_spec (t_name y) n); congruence. Qed.

(** The effects that are about a table, a view or a trigger. *)
Definition about_something (e : effect) : Prop :=
  (exists n, eff_table e = Some n) \/ (exists o, view_ops e = [o]) \/ (exists o, trigger_ops e = [o]).

Lemma step_on_table e c n o' : eff_table e = Some n -> NoDup (map t_name (cat_tables c)) ->
  step_table e (table_named n (cat_tables c)) = Some o' ->
  exists c', run e c = Some c' /\ NoDup (map t_name (cat_tables c')) /\ cat_views c' = cat_views c /\ cat_triggers c' = cat_triggers c /\
    forall x, table_named x (cat_tables c') = if String.eqb x n then o' else table_named x (cat_tables c).
Proof.
  intros He Hnd Hs.
  assert (Halter : match table_named n (cat_tables c) with
                   | Some t => match exec1 e t with Some t' => Some (Some t') | None => None end
                   | None => None end = Some o' ->
     run e c = match eff_table e with
      | None => None
      | Some n =>
          match table_named n (cat_tables c) with
          | None => None
          | Some t =>
              match alter_table e t with
              | Some t' => if integrity t'
                           then Some (mkCatalogue (replace_table n t' (cat_tables c)) (cat_views c) (cat_triggers c))
                           else None
              | None => None
              end
          end
      end ->
     exists c', run e c = Some c' /\ NoDup (map t_name (cat_tables c')) /\ cat_views c' = cat_views c /\ cat_triggers c' = cat_triggers c /\
       forall x, table_named x (cat_tables c') = if String.eqb x n then o' else table_named x (cat_tables c)).
  { intros H Hr. rewrite He in Hr. destruct (table_named n (cat_tables c)) as [t|] eqn:Et; [|discriminate]. unfold exec1 in H.
    destruct (alter_table e t) as [t'|] eqn:Ea; [|discriminate]. destruct (integrity t'); [|discriminate].
    apply (f_equal (fun o => match o with Some x => x | None => o' end)) in H. subst o'.
    assert (Hn : t_name t' = n) by (rewrite (alter_name _ _ _ Ea); now apply named_some in Et).
    eexists. split; [exact Hr|]. cbn [cat_tables cat_views cat_triggers]. split; [now rewrite (replace_table_names n t')|]. split; [reflexivity|]. split; [reflexivity|].
    intros x. rewrite (replace_lookup n t' _ x Hn). destruct (String.eqb_spec x n) as [->|N]; [now rewrite Et|]. now destruct (table_named x (cat_tables c)). }
  destruct e; cbn [eff_table] in He; try discriminate; try (apply Halter; [exact Hs|reflexivity]).
  - destruct d; cbn [ddl_table] in He; try discriminate; try (apply Halter; [exact Hs|reflexivity]). clear Halter.
    injection He as He. cbn [step_table run] in *. destruct (table_named n (cat_tables c)) eqn:Et; [discriminate|].
    rewrite He. rewrite (proj2 (mem_false_none t_name n (cat_tables c)) Et). destruct (integrity (created_table t)); [|discriminate].
    apply (f_equal (fun o => match o with Some x => x | None => o' end)) in Hs. subst o'.
    eexists. split; [reflexivity|]. cbn [cat_tables cat_views cat_triggers]. split; [|split; [reflexivity|split; [reflexivity|]]].
    + rewrite map_app. cbn [map]. apply nodup_snoc; [exact Hnd|]. change (t_name (created_table t)) with (t_name t). rewrite He. now apply (named_none t_name).
    + intros x. unfold table_named in *. rewrite named_app, named_cons. change (t_name (created_table t)) with (t_name t). rewrite He.
      destruct (String.eqb_spec x n) as [->|N]; [now rewrite Et, String.eqb_refl|]. destruct (named t_name x (cat_tables c)); [reflexivity|].
      destruct (String.eqb_spec n x); [congruence|reflexivity].
  - clear Halter. injection He as He. cbn [step_table run] in *. subst t. destruct (table_named n (cat_tables c)) as [t|] eqn:Et; [|discriminate].
    rewrite (proj2 (mem_true_some t_name n (cat_tables c)) (ex_intro _ t Et)). injection Hs as <-.
    eexists. split; [reflexivity|]. cbn [cat_tables cat_views cat_triggers]. split; [now apply nodup_remove|]. split; [reflexivity|]. split; [reflexivity|].
    intros x. unfold table_named. apply named_remove.
Qed.

Lemma step_elsewhere e c v' tr' : eff_table e = None -> about_something e ->
  run_views (view_ops e) (cat_views c) = Some v' -> run_triggers (trigger_ops e) (cat_triggers c) = Some tr' ->
  run e c = Some (mkCatalogue (cat_tables c) v' tr').
Proof.
  intros He Ha Hv Ht. assert (Hno : view_ops e = [] -> trigger_ops e = [] -> False).
  { intros E1 E2. destruct Ha as [(n & E)|[(o & E)|(o & E)]]; congruence. }
  destruct e; cbn [eff_table] in He; try discriminate; cbn [view_ops trigger_ops run_views run_triggers view_step trigger_step run] in *;
    try (exfalso; now apply Hno).
  1: { destruct d; cbn [ddl_table] in He; try discriminate; cbn [view_ops trigger_ops run_views run_triggers view_step trigger_step run] in *; try (exfalso; now apply Hno).
    destruct (mem _ _); [discriminate|]. injection Hv as <-. injection Ht as <-. reflexivity. }
  all: try (destruct (mem _ _); try discriminate); try discriminate Hv; try discriminate Ht; injection Hv as <-; injection Ht as <-; reflexivity.
Qed.

Lemma run_views_app a b l : run_views (a ++ b) l = match run_views a l with Some l' => run_views b l' | None => None end.
Proof. revert l; induction a as [|x a IH]; intros l; [reflexivity|]. cbn [app run_views]. destruct (view_step x l); auto. Qed.
Lemma run_triggers_app a b l : run_triggers (a ++ b) l = match run_triggers a l with Some l' => run_triggers b l' | None => None end.
Proof. revert l; induction a as [|x a IH]; intros l; [reflexivity|]. cbn [app run_triggers]. destruct (trigger_step x l); auto. Qed.

Lemma table_no_views e n : eff_table e = Some n -> view_ops e = [] /\ trigger_ops e = [].
Proof. intros H. destruct e; cbn in *; try discriminate; auto. destruct d; cbn in *; try discriminate; auto. Qed.

Lemma run_all_split out : forall c final v' tr', NoDup (map t_name (cat_tables c)) -> (forall s, In s out -> about_something (s_eff s)) ->
  (forall n, run_table (table_part n out) (table_named n (cat_tables c)) = Some (final n)) ->
  run_views (effects view_ops out) (cat_views c) = Some v' -> run_triggers (effects trigger_ops out) (cat_triggers c) = Some tr' ->
  exists c', run_all out c = Some c' /\ NoDup (map t_name (cat_tables c')) /\ cat_views c' = v' /\ cat_triggers c' = tr' /\
    forall n, table_named n (cat_tables c') = final n.
Proof.
  induction out as [|s out IH]; intros c final v' tr' Hnd Hall Hf Hv Ht.
  - exists c. cbn in *. split; [reflexivity|]. split; [exact Hnd|]. split; [congruence|]. split; [congruence|]. intros n. specialize (Hf n). congruence.
  - unfold effects in Hv, Ht. cbn [flat_map] in Hv, Ht. cbn [run_all]. rewrite run_views_app in Hv. rewrite run_triggers_app in Ht.
    pose proof (Hall s (or_introl eq_refl)) as Hs. destruct (eff_table (s_eff s)) as [n|] eqn:En.
    + destruct (table_no_views _ _ En) as [Ev Et]. rewrite Ev in Hv. rewrite Et in Ht. cbn [run_views run_triggers] in Hv, Ht.
      pose proof (Hf n) as Hn. unfold table_part in Hn. cbn [filter] in Hn. rewrite En in Hn. cbn [is_some_eqb] in Hn. rewrite String.eqb_refl in Hn.
      cbn [run_table] in Hn. destruct (step_table (s_eff s) (table_named n (cat_tables c))) as [o'|] eqn:Es; [|discriminate].
      destruct (step_on_table _ c n o' En Hnd Es) as (c' & Er & Hnd' & Ev' & Et' & Hl). rewrite Er.
      apply (IH c' final); auto; [intros; apply Hall; now right| |now rewrite Ev'|now rewrite Et'].
      intros x. rewrite Hl. specialize (Hf x). unfold table_part in Hf. cbn [filter] in Hf. rewrite En in Hf. cbn [is_some_eqb] in Hf.
      destruct (String.eqb_spec x n) as [->|N].
      * exact Hn.
      * destruct (String.eqb_spec n x); [congruence|]. exact Hf.
    + destruct (run_views (view_ops (s_eff s)) (cat_views c)) as [v1|] eqn:Ev; [|discriminate].
      destruct (run_triggers (trigger_ops (s_eff s)) (cat_triggers c)) as [t1|] eqn:Et; [|discriminate].
      rewrite (step_elsewhere _ c v1 t1 En Hs Ev Et). apply (IH (mkCatalogue (cat_tables c) v1 t1) final); auto.
      * intros; apply Hall; now right.
      * intros x. specialize (Hf x). unfold table_part in Hf. cbn [filter] in Hf. rewrite En in Hf. exact Hf.
Qed.

(** ** Views *)
Lemma run_desired_views cur l ops : contrib (desired_view Mysql cur) l ops -> NoDup (map vw_name l) -> forall L,
  (forall v, In v l -> named vw_name (vw_name v) L = named vw_name (vw_name v) cur) -> NoDup (map vw_name L) ->
  exists L', run_views ops L = Some L' /\ NoDup (map vw_name L') /\
    (forall v, In v l -> exists v', named vw_name (vw_name v) L' = Some v' /\ same_letters (vw_definition v') (vw_definition v)) /\
    (forall n, ~ In n (map vw_name l) -> named vw_name n L' = named vw_name n L).
Proof.
  induction 1 as [|v o l ops Hv _ IH]; intros Hnd L HL HnL.
  - exists L. split; [reflexivity|]. split; [exact HnL|]. split; [intros v []|auto].
  - cbn [map] in Hnd. inversion Hnd as [|? ? Hni Hnd']; subst.
    assert (Hstep : exists L1, run_views o L = Some L1 /\ NoDup (map vw_name L1) /\
      (exists v', named vw_name (vw_name v) L1 = Some v' /\ same_letters (vw_definition v') (vw_definition v)) /\
      forall n, n <> vw_name v -> named vw_name n L1 = named vw_name n L).
    { unfold desired_view in Hv. rewrite <- (HL v (or_introl eq_refl)) in Hv. destruct (named vw_name (vw_name v) L) as [cv|] eqn:Ec.
      - destruct Hv as [[Hs ->]|[Hs ->]].
        + exists L. split; [reflexivity|]. split; [exact HnL|]. split; [eauto|auto].
        + cbn [run_views view_step]. eexists. split; [reflexivity|]. split; [|split].
          * rewrite map_app. cbn [map vw_name]. apply nodup_snoc; [now apply nodup_remove|]. rewrite names_remove. intros Hx. apply take_out_in in Hx. tauto.
          * exists (mkView "" (vw_name v) (vw_definition v)). split; [|reflexivity]. rewrite named_app, named_remove, String.eqb_refl, named_cons. cbn [vw_name].
            now rewrite String.eqb_refl.
          * intros n Hn. rewrite named_app, named_remove, named_cons. cbn [vw_name]. destruct (String.eqb_spec n (vw_name v)); [congruence|].
            destruct (named vw_name n L); [reflexivity|]. destruct (String.eqb_spec (vw_name v) n); [congruence|reflexivity].
      - subst o. cbn [run_views view_step]. rewrite (proj2 (mem_false_none vw_name _ _) Ec). eexists. split; [reflexivity|]. split; [|split].
        + rewrite map_app. cbn [map]. apply nodup_snoc; [exact HnL|]. now apply (named_none vw_name).
        + exists v. split; [|reflexivity]. rewrite named_app, Ec, named_cons, String.eqb_refl. reflexivity.
        + intros n Hn. rewrite named_app, named_cons. destruct (named vw_name n L); [reflexivity|]. destruct (String.eqb_spec (vw_name v) n); [congruence|reflexivity]. }
    destruct Hstep as (L1 & E1 & Hn1 & (v' & Ev' & Hv') & Ho1).
    destruct (IH Hnd' L1) as (L' & E' & Hn' & Hd' & Ho').
    { intros w Hw. rewrite Ho1; [apply HL; now right|]. intros E. apply Hni. rewrite <- E. now apply in_map. }
    { exact Hn1. }
    exists L'. rewrite run_views_app, E1. split; [exact E'|]. split; [exact Hn'|]. split.
    + intros w [<-|Hw]; [|auto]. exists v'. rewrite Ho' by exact Hni. auto.
    + intros n Hn. cbn [map In] in Hn. rewrite Ho' by tauto. apply Ho1. intros ->. tauto.
Qed.

Lemma run_drop_views : forall d L, NoDup (map vw_name d) -> (forall v, In v d -> In (vw_name v) (map vw_name L)) -> NoDup (map vw_name L) ->
  exists L', run_views (map (fun v => ViewDrop (vw_name v)) d) L = Some L' /\ NoDup (map vw_name L') /\
    forall n, named vw_name n L' = if mem n (map vw_name d) then None else named vw_name n L.
Proof.
  induction d as [|v d IH]; intros L Hd Hin HnL.
  - exists L. auto.
  - cbn [map run_views view_step]. rewrite (proj2 (mem_in _ _) (Hin v (or_introl eq_refl))). cbn [map] in Hd. inversion Hd as [|? ? Hni Hd']; subst.
    destruct (IH (remove_named vw_name (vw_name v) L)) as (L' & E' & Hn' & Hl'); auto.
    + intros w Hw. rewrite names_remove. apply take_out_in. split; [apply Hin; now right|]. intros E. apply Hni. rewrite <- E. now apply in_map.
    + now apply nodup_remove.
    + exists L'. split; [exact E'|]. split; [exact Hn'|]. intros n. rewrite Hl', named_remove. cbn [map mem existsb].
      destruct (String.eqb_spec n (vw_name v)) as [->|N]; cbn [orb]; [now destruct (mem _ _)|reflexivity].
Qed.

(** ** Triggers *)
Lemma run_desired_triggers cur l ops : contrib (desired_trigger Mysql cur) l ops -> NoDup (map tr_name l) -> forall L,
  (forall v, In v l -> named tr_name (tr_name v) L = named tr_name (tr_name v) cur) -> NoDup (map tr_name L) ->
  exists L', run_triggers ops L = Some L' /\ NoDup (map tr_name L') /\
    (forall v, In v l -> exists v', named tr_name (tr_name v) L' = Some v' /\ trigger_matches v' v) /\
    (forall n, ~ In n (map tr_name l) -> named tr_name n L' = named tr_name n L).
Proof.
  induction 1 as [|v o l ops Hv _ IH]; intros Hnd L HL HnL.
  - exists L. split; [reflexivity|]. split; [exact HnL|]. split; [intros v []|auto].
  - cbn [map] in Hnd. inversion Hnd as [|? ? Hni Hnd']; subst.
    assert (Hrefl : trigger_matches v v).
    { unfold trigger_matches. split; [reflexivity|]. split; [reflexivity|]. split; [reflexivity|]. induction (tr_body v); constructor; [reflexivity|assumption]. }
    assert (Hstep : exists L1, run_triggers o L = Some L1 /\ NoDup (map tr_name L1) /\
      (exists v', named tr_name (tr_name v) L1 = Some v' /\ trigger_matches v' v) /\
      forall n, n <> tr_name v -> named tr_name n L1 = named tr_name n L).
    { unfold desired_trigger in Hv. rewrite <- (HL v (or_introl eq_refl)) in Hv. destruct (named tr_name (tr_name v) L) as [cv|] eqn:Ec.
      - destruct Hv as [[Hs ->]|[Hs ->]].
        + exists L. split; [reflexivity|]. split; [exact HnL|]. split; [eauto|auto].
        + cbn [run_triggers trigger_step]. rewrite (proj2 (mem_true_some tr_name _ _) (ex_intro _ cv Ec)). rewrite names_remove.
          assert (Hx : ~ In (tr_name v) (take_out (tr_name v) (map tr_name L))) by (intros Hx; apply take_out_in in Hx; tauto).
          rewrite (proj2 (mem_not_in _ _) Hx). eexists. split; [reflexivity|]. split; [|split].
          * rewrite map_app. cbn [map]. apply nodup_snoc; [now apply nodup_remove|]. now rewrite names_remove.
          * exists v. split; [|exact Hrefl]. rewrite named_app, named_remove, String.eqb_refl, named_cons. now rewrite String.eqb_refl.
          * intros n Hn. rewrite named_app, named_remove, named_cons. destruct (String.eqb_spec n (tr_name v)); [congruence|].
            destruct (named tr_name n L); [reflexivity|]. destruct (String.eqb_spec (tr_name v) n); [congruence|reflexivity].
      - subst o. cbn [run_triggers trigger_step]. rewrite (proj2 (mem_false_none tr_name _ _) Ec). eexists. split; [reflexivity|]. split; [|split].
        + rewrite map_app. cbn [map]. apply nodup_snoc; [exact HnL|]. now apply (named_none tr_name).
        + exists v. split; [|exact Hrefl]. rewrite named_app, Ec, named_cons, String.eqb_refl. reflexivity.
        + intros n Hn. rewrite named_app, named_cons. destruct (named tr_name n L); [reflexivity|]. destruct (String.eqb_spec (tr_name v) n); [congruence|reflexivity]. }
    destruct Hstep as (L1 & E1 & Hn1 & (v' & Ev' & Hv') & Ho1).
    destruct (IH Hnd' L1) as (L' & E' & Hn' & Hd' & Ho').
    { intros w Hw. rewrite Ho1; [apply HL; now right|]. intros E. apply Hni. rewrite <- E. now apply in_map. }
    { exact Hn1. }
    exists L'. rewrite run_triggers_app, E1. split; [exact E'|]. split; [exact Hn'|]. split.
    + intros w [<-|Hw]; [|auto]. exists v'. rewrite Ho' by exact Hni. auto.
    + intros n Hn. cbn [map In] in Hn. rewrite Ho' by tauto. apply Ho1. intros ->. tauto.
Qed.
(** ** A kept table *)
Section Run.
Variables (l : list ddl) (cat : catalogue) (out : list stmt).
Hypothesis Hms : mysql_schema l.
Hypothesis Hco : catalogue_ok cat.
Hypothesis Hcv : convertible l cat.
Hypothesis Hplan : plan Mysql l (dump cat) = Ok out.

Lemma dump_nodup : NoDup (created (dump cat)).
Proof. rewrite dump_created. apply (co_tables _ Hco). Qed.

Lemma kept_runs t st : In t (tables_in l) -> In st (cat_tables cat) -> t_name st = t_name t ->
  exists s, exec (table_part (t_name t) out) st = Some s /\ table_reached l t s /\ catalogue_table s /\ t_name s = t_name t.
Proof.
  intros Ht Hst Hn.
  pose proof (ms_tables _ Hms t Ht) as Hmt. pose proof (co_table _ Hco st Hst) as Hct. pose proof (proj1 Hcv t st Ht Hst Hn) as Hse.
  destruct (kept_sections Mysql l (dump cat) out (ms_created _ Hms) dump_nodup Hplan t (numbered_table st) Ht (in_dump_schema cat st Hst) Hn)
    as (cols & rem & pk & idx & ainc & fks & cix & H1 & H2 & H3 & H4 & H5 & H6 & H7 & Hp).
  destruct (phases l t st Hmt Hct Hse (ms_statements _ Hms) cols rem pk idx ainc fks cix H1 H2 H3 H4 H5 H6 H7) as (s & Es & Hf).
  assert (Es' : exec (table_part (t_name t) out) st = Some s) by (rewrite Hp; exact Es). clear Es. rename Es' into Es.
  exists s. split; [exact Es|].
  assert (Hnames : names s = names t).
  { pose proof (exec_order (t_name t) (table_part (t_name t) out) (table_part_about _ _) st s Es) as Ho.
    assert (En : names (numbered_table st) = names st) by apply number_names.
    rewrite <- order_after_part in Ho.
    pose proof (run_in_order l (dump cat) out (ms_created _ Hms) dump_nodup Hplan t (numbered_table st) Ht (in_dump_schema cat st Hst) Hn (mt_names _ _ Hmt)) as Hr.
    rewrite En in Hr. rewrite (Hr (ct_names _ Hct) (se_order _ _ _ Hse)) in Ho. congruence. }
  split; [eapply finished_reached; eauto|]. split; [eapply finished_table; eauto|].
  destruct (fi_frame _ _ _ _ Hf) as [-> _]. exact Hn.
Qed.

(** ** A new table *)
Lemma new_table t d : mysql_table l t -> t_name d = t_name t -> t_columns d = t_columns (created_table t) -> t_fks d = t_fks t ->
  t_policies d = [] -> t_indexes d = all_keys l t -> table_reached l t d /\ catalogue_table d.
Proof.
  intros Hmt Hn Hc Hf Hp Hi.
  assert (Hnames : names d = names t) by (unfold names; rewrite Hc; cbn [created_table t_columns]; now rewrite map_map).
  assert (Hpk : forall c, In c (t_columns t) -> in_pk d (c_name c) = true -> says_not_null c).
  { intros c Hcin Hx. unfold in_pk in Hx. rewrite Hi in Hx. apply existsb_exists in Hx as (k & Hk & Hx). apply andb_true_iff in Hx as [Hx1 Hx2].
    apply mem_in in Hx2. pose proof (declared_pk l t Hmt) as Hd. pose proof (proj1 (pk_declared l t Hmt k Hk) Hx1) as En.
    destruct (primary_key t) as [i|].
    - destruct Hd as (Hin & Ein & _ & Hsay). apply Hsay; [exact Hcin|]. rewrite (key_unique l t Hmt i k); auto. congruence.
    - exfalso. apply Hd. rewrite <- En. now apply in_map. }
  assert (Hnn : forall c, In c (t_columns t) -> in_pk t (c_name c) = true -> in_pk d (c_name c) = true).
  { intros c Hcin Hx. unfold in_pk in *. rewrite Hi. apply existsb_exists in Hx as (k & Hk & Hx). apply existsb_exists. exists k. split; [|exact Hx].
    now apply inline_declared. }
  split; constructor.
  - rewrite Hc. cbn [created_table t_columns].
    assert (Hall : forall r, (forall c, In c r -> In c (t_columns t)) -> Forall2 column_reached (map (fun c => mkColumn (c_name c) 0 (c_type c) (c_unsigned c)
                 (match c_notnull c, c_key c with
                  | Some true, _ | _, KeyPrimary => Some true
                  | o, _ => if in_pk t (c_name c) then Some true else o
                  end)
                 (c_autoinc c) (c_array c) (c_default c) (c_length c) (c_scale c) (c_check c)
                 (c_check_no_inherit c) (c_charset c) (c_collate c) (c_timezone c) KeyNone (c_onupdate c)
                 (c_enum c) "" None None) r) r); [|now apply Hall].
    induction r as [|c r IH]; intros Hr; cbn [map]; constructor; [|apply IH; intros; apply Hr; now right].
    pose proof (Hr c (or_introl eq_refl)) as Hcin. destruct (mt_columns _ _ Hmt c Hcin) as (D1 & D2 & D3 & D4).
    assert (Hsay : in_pk t (c_name c) = true -> c_notnull c = Some true) by now apply (mt_primary _ _ Hmt).
    split; [reflexivity|]. split; [|split; [apply value_matches_refl|reflexivity]].
    split; [|split; [reflexivity|split; [|split; [reflexivity|split; [exact D1|split; [exact D1|split; [now right|split; [now right|]]]]]]]].
    + pose proof (copies_recorded c (mt_columns _ _ Hmt c Hcin)) as ((K & _) & _). unfold data_type_matches in K |- *. cbn [c_type c_enum c_length c_array recorded] in *.
      destruct K as (K1 & _ & K3). split; [exact K1|]. split; [reflexivity|exact K3].
    + cbn [c_notnull]. destruct (c_notnull c) as [[|]|], (c_key c), (in_pk t (c_name c)); try (now intuition congruence);
        try (specialize (Hsay eq_refl); intuition congruence).
    + now apply same_value_refl.
  - intros i Hin. exists i. rewrite Hi. split; [exact Hin|]. split; [reflexivity|]. apply index_matches_refl. apply (mt_key _ _ Hmt i Hin).
  - intros k Hk. left. rewrite Hi in Hk. now apply in_map.
  - intros f Hfin. exists f. rewrite Hf. split; [exact Hfin|]. split; [reflexivity|apply fk_same_refl].
  - intros f Hfin. rewrite Hf in Hfin. now apply in_map.
  - rewrite Hnames. apply (mt_names _ _ Hmt).
  - rewrite Hi. apply (mt_keys _ _ Hmt).
  - rewrite Hf. apply (mt_fks _ _ Hmt).
  - exact Hp.
  - pose proof (mt_integrity _ _ Hmt) as H. unfold integrity in *. rewrite !andb_true_iff in *. destruct H as [[[K1 K2] K3] K4].
    rewrite Hnames, Hi, Hf, Hc. split; [split; [split|]|].
    + apply forallb_forall. intros k Hk. apply forallb_forall. intros x Hx. apply mem_in. now apply (mt_key_columns _ _ Hmt k).
    + rewrite forallb_forall in *. intros f Hfin. specialize (K2 f Hfin). rewrite forallb_forall in *. intros x Hx. specialize (K2 x Hx).
      apply mem_in. apply mem_in in K2. unfold names in K2. cbn [created_table t_columns] in K2. now rewrite map_map in K2.
    + rewrite forallb_forall in *. intros c Hcin. specialize (K3 c Hcin). apply orb_true_iff in K3 as [K3|K3]; [now rewrite K3|]. apply orb_true_iff. right.
      unfold keyed in *. rewrite Hi. unfold all_keys. rewrite existsb_app. now rewrite K3.
    + exact K4.
  - intros c Hcin. rewrite Hc in Hcin. cbn [created_table t_columns] in Hcin. apply in_map_iff in Hcin as (c0 & <- & Hc0).
    split; [reflexivity|]. split; [reflexivity|]. destruct (mt_columns _ _ Hmt c0 Hc0) as (_ & _ & D3 & _). exact D3.
  - intros i Hin. rewrite Hi in Hin. now apply (pk_declared l t Hmt).
  - intros c Hcin Hx. rewrite Hc in Hcin. cbn [created_table t_columns] in Hcin. apply in_map_iff in Hcin as (c0 & <- & Hc0).
    cbn [c_name c_notnull] in *. destruct (Hpk c0 Hc0 Hx) as [->| ->]; [reflexivity|]. destruct (c_notnull c0) as [[|]|]; reflexivity.
Qed.

(** CREATE INDEX statements one after the other. *)
Lemma create_indexes t rest : forall d, mysql_table l t -> good d -> names d = names t -> 
  Forall (fun x => ddl_table x = Some (t_name t)) rest -> (forall x, In x rest -> mysql_statement x) ->
  Forall (fun x => match x with CreateTable _ _ => False | _ => True end) rest ->
  (forall i, In i (indexes_on (t_name t) rest) -> In i (indexes_on (t_name t) l)) ->
  NoDup (map i_name (t_indexes d ++ indexes_on (t_name t) rest)) ->
  exists s, exec (map verbatim rest) d = Some s /\ t_name s = t_name d /\ t_columns s = t_columns d /\ t_fks s = t_fks d /\ t_policies s = t_policies d /\
    t_indexes s = t_indexes d ++ indexes_on (t_name t) rest.
Proof.
  induction rest as [|x rest IH]; intros d Hmt Hg Hn H1 H2 H3 H4 H5.
  - exists d. cbn [map exec indexes_on flat_map]. rewrite app_nil_r. auto 10.
  - inversion H1 as [|? ? Hx H1']; subst. inversion H3 as [|? ? Hx3 H3']; subst. pose proof (H2 x (or_introl eq_refl)) as Hx2.
    assert (Hstep : forall i, indexes_on (t_name t) (x :: rest) = i :: indexes_on (t_name t) rest ->
       (forall s, alter_table (s_eff (verbatim x)) s = add_key i s) ->
       exists s, exec (map verbatim (x :: rest)) d = Some s /\ t_name s = t_name d /\ t_columns s = t_columns d /\ t_fks s = t_fks d /\ t_policies s = t_policies d /\
         t_indexes s = t_indexes d ++ indexes_on (t_name t) (x :: rest)).
    { intros i Ei Hal. rewrite Ei in *.
      assert (Hi : In i (indexes_on (t_name t) l)) by (apply H4; now left).
      assert (Hni : ~ In (i_name i) (map i_name (t_indexes d))).
      { intros Hy. rewrite map_app in H5. apply (nodup_apart _ _ _ H5 Hy). now left. }
      destruct (do_add_key i d Hg) as (s1 & E1 & G1 & (F1 & F1') & C1 & K1 & _).
      { now apply (named_none i_name). }
      { now apply (mt_separate _ _ Hmt). }
      { intros y Hy. rewrite Hn. apply (mt_key_columns _ _ Hmt i); [|exact Hy]. now apply separate_declared. }
      assert (I1 : t_indexes s1 = t_indexes d ++ [i]).
      { unfold add_key in E1. destruct (mem _ _); [discriminate|]. injection E1 as <-. reflexivity. }
      destruct (IH s1) as (s & E & R1 & R2 & R3 & R4 & R5); auto.
      - rewrite <- Hn. now apply same_names.
      - intros y Hy. apply H2. now right.
      - intros j Hj. apply H4. now right.
      - rewrite I1, <- app_assoc. exact H5.
      - exists s. cbn [map exec]. unfold exec1. rewrite Hal, E1, (good_integrity _ G1). split; [exact E|]. rewrite I1, <- app_assoc in R5.
        split; [congruence|]. split; [congruence|]. split; [congruence|]. split; [congruence|]. exact R5. }
    destruct x as [? ?|? tn i|? tn i|? ? ?|? ? ?|? ? ?|?|?]; simpl in Hx; try discriminate; try (destruct Hx2; fail); try (destruct Hx3; fail);
      injection Hx as Hx; subst tn; (apply (Hstep i); [cbn [indexes_on flat_map]; now rewrite String.eqb_refl|reflexivity]).
Qed.
(** ** All of it *)
Lemma plan_about : forall s, In s out -> about_something (s_eff s).
Proof.
  destruct (plan_parts Mysql l (dump cat) out (ms_created _ Hms) dump_nodup Hplan) as (_ & a & b & Ha & Hb & Ho).
  intros s Hs. rewrite Ho, !in_app_iff in Hs. destruct Hs as [Hs|[Hs|Hs]].
  - assert (H : Forall (fun s => about_something (s_eff s)) a); [|now rewrite Forall_forall in H; apply H].
    eapply concat_map_Forall; [|exact Ha]. intros d o _ Hd. destruct (ddl_table d) as [n|] eqn:Ed.
    + eapply Forall_impl; [|eapply local_about; eauto]. intros x Hx. left. eauto.
    + destruct d; simpl in Ed; try discriminate; simpl in Hd.
      * injection Hd as <-. destruct (find_view _ _); [destruct (String.eqb _ _)|]; repeat (apply Forall_cons || apply Forall_nil); right; left; eexists; reflexivity.
      * injection Hd as <-. destruct (find_trigger _ _); [destruct (are_same_trigger _ _)|]; repeat (apply Forall_cons || apply Forall_nil); right; right; eexists; reflexivity.
  - pose proof (kind_cleanup_tables _ _ _ _ _ Hb) as Hk. rewrite Forall_forall in Hk. specialize (Hk s Hs). cbv beta in Hk.
    left. destruct (s_eff s) as [[]| | | | | | | | | | | | | | | | | | | | | | | | | | | | | | | |]; simpl in *; try discriminate; eauto.
  - pose proof (kind_obsolete_views Mysql l (views_in (dump cat))) as Hk. rewrite Forall_forall in Hk. specialize (Hk s Hs). cbv beta in Hk.
    right. left. destruct (s_eff s); try discriminate. eexists. reflexivity.
Qed.

Lemma views_distinct : NoDup (map vw_name (views_in l)).
Proof.
  pose proof (ms_well_formed _ Hms) as Hw. unfold well_formed in Hw.
  assert (G : forall r before, well_formed_after before r = true ->
     NoDup (map vw_name (views_in r)) /\ forall n, In n (map vw_name (views_in r)) -> ~ In n (map vw_name (views_in before))).
  { induction r as [|d r IH]; intros before H; [split; [constructor|intros n []]|]. cbn [well_formed_after] in H. apply andb_prop in H as [Hd H].
    destruct (IH _ H) as [I1 I2].
    assert (I2' : forall n, In n (map vw_name (views_in r)) -> ~ In n (map vw_name (views_in before))).
    { intros n Hn Hx. apply (I2 n Hn). unfold views_in. rewrite flat_map_app, map_app. apply in_app_iff. now left. }
    destruct d; try (split; [exact I1|exact I2']).
    simpl in Hd. apply negb_true_iff, mem_not_in in Hd. split.
    - cbn [views_in flat_map app map]. constructor; [|exact I1]. intros Hx. apply (I2 _ Hx). unfold views_in. rewrite flat_map_app, map_app.
      apply in_app_iff. right. now left.
    - intros n [<-|Hn]; [exact Hd|now apply I2']. }
  now apply (G l []).
Qed.

Lemma filter_all {A} (p : A -> bool) (r : list A) : (forall x, In x r -> p x = true) -> filter p r = r.
Proof. induction r as [|x r IH]; intros H; [reflexivity|]. cbn [filter]. rewrite (H x (or_introl eq_refl)), IH; auto. intros y Hy. apply H. now right. Qed.

Lemma nodup_map_filter {A B} (f : A -> B) (p : A -> bool) (r : list A) : NoDup (map f r) -> NoDup (map f (filter p r)).
Proof.
  induction r as [|x r IH]; intros H; [constructor|]. cbn [map] in H. inversion H as [|? ? Hx Hr]; subst. cbn [filter]. destruct (p x); [|auto].
  cbn [map]. constructor; [|auto]. intros Hi. apply Hx. apply in_map_iff in Hi as (y & E & Hy). apply filter_In in Hy as [Hy _]. rewrite <- E. now apply in_map.
Qed.

Lemma indexes_on_statements n r : indexes_on n (statements_on n r) = indexes_on n r.
Proof.
  unfold indexes_on, statements_on. induction r as [|d r IH]; [reflexivity|]. cbn [filter].
  destruct d; cbn [ddl_table is_some_eqb].
  1: destruct (String.eqb (t_name t) n); exact IH.
  1,2: destruct (String.eqb table_name n) eqn:E; cbn [flat_map]; rewrite E; cbn [app]; [f_equal; exact IH|exact IH].
  all: try (destruct (String.eqb table_name n); exact IH); exact IH.
Qed.

Lemma new_runs t : In t (tables_in l) -> table_named (t_name t) (cat_tables cat) = None ->
  exists s, run_table (table_part (t_name t) out) None = Some (Some s) /\ table_reached l t s /\ catalogue_table s /\ t_name s = t_name t.
Proof.
  intros Ht Hn. pose proof (ms_tables _ Hms t Ht) as Hmt.
  assert (Hc : ~ In (t_name t) (created (dump cat))) by (rewrite dump_created; now apply (named_none t_name)).
  assert (Hd : In (t_name t) (created l)) by (unfold created; now apply in_map).
  pose proof (new_part Mysql l (dump cat) out (ms_created _ Hms) dump_nodup Hplan (t_name t) Hd Hc) as Hp.
  destruct (statements_on_head (t_name t) l [] t (ms_well_formed _ Hms) (fun H => H) (ms_created _ Hms) Ht eq_refl) as (q & rest & Es & Hrest).
  assert (Hfil : filter (fun d => match d with AddForeignKey _ _ _ => false | _ => true end) (statements_on (t_name t) l) = statements_on (t_name t) l).
  { apply filter_all. intros d Hdin. unfold statements_on in Hdin. apply filter_In in Hdin as [Hdin _].
    pose proof (ms_statements _ Hms d Hdin) as Hm. destruct d; try reflexivity. destruct Hm. }
  rewrite Hfil, Es in Hp. clear Hfil.
  assert (Hix : indexes_on (t_name t) rest = indexes_on (t_name t) l).
  { rewrite <- (indexes_on_statements (t_name t) l), Es. reflexivity. }
  assert (Hin : forall d, In d rest -> In d (statements_on (t_name t) l)) by (intros d Hdin; rewrite Es; now right).
  destruct (create_indexes t rest (created_table t) Hmt) as (s & E & R1 & R2 & R3 & R4 & R5).
  - apply (integrity_good); [| | |apply (mt_integrity _ _ Hmt)].
    + unfold names. cbn [created_table t_columns]. rewrite map_map. apply (mt_names _ _ Hmt).
    + pose proof (mt_keys _ _ Hmt) as K. unfold all_keys in K. rewrite map_app in K. now apply NoDup_app_l in K.
    + apply (mt_fks _ _ Hmt).
  - unfold names. cbn [created_table t_columns]. now rewrite map_map.
  - pose proof (statements_on_table (t_name t) l) as K. rewrite Es in K. now inversion K.
  - intros d Hdin. apply (ms_statements _ Hms). apply Hin in Hdin. unfold statements_on in Hdin. now apply filter_In in Hdin.
  - exact Hrest.
  - intros i. now rewrite Hix.
  - rewrite Hix. apply (mt_keys _ _ Hmt).
  - exists s. rewrite Hp. cbn [map run_table verbatim s_eff step_table]. rewrite (mt_integrity _ _ Hmt). split; [now apply exec_run_table|].
    assert (Hs : table_reached l t s /\ catalogue_table s).
    { apply new_table; auto. now rewrite R5, Hix. }
    destruct Hs. auto.
Qed.

Definition final (n : string) (o : option table) : Prop :=
  match o with
  | None => ~ In n (created l)
  | Some s => exists t, In t (tables_in l) /\ t_name t = n /\ t_name s = n /\ table_reached l t s /\ catalogue_table s
  end.

Lemma each_table n : exists o, run_table (table_part n out) (table_named n (cat_tables cat)) = Some o /\ final n o.
Proof.
  destruct (in_dec string_dec n (created l)) as [Hd|Hd].
  - unfold created in Hd. apply in_map_iff in Hd as (t & En & Ht). destruct (table_named n (cat_tables cat)) as [st|] eqn:Est.
    + destruct (named_some t_name n _ st Est) as [Hst Hn].
      destruct (kept_runs t st Ht Hst) as (s & E & Hr & Hc & Hs); [congruence|]. exists (Some s). rewrite <- En. split; [now apply exec_run_table|].
      exists t. auto.
    + subst n. destruct (new_runs t Ht Est) as (s & E & Hr & Hc & Hs). exists (Some s). split; [exact E|]. exists t. auto.
  - exists None. split; [|exact Hd]. destruct (table_named n (cat_tables cat)) as [st|] eqn:Est.
    + destruct (named_some t_name n _ st Est) as [Hst Hn].
      rewrite (obsolete_part Mysql l (dump cat) out (ms_created _ Hms) dump_nodup Hplan n); [reflexivity| |exact Hd].
      rewrite dump_created, <- Hn. now apply in_map.
    + rewrite (unknown_part Mysql l (dump cat) out (ms_created _ Hms) dump_nodup Hplan n); [reflexivity| |exact Hd].
      rewrite dump_created. now apply (named_none t_name).
Qed.

Definition result (n : string) : option table :=
  match run_table (table_part n out) (table_named n (cat_tables cat)) with Some o => o | None => None end.

Lemma result_final n : run_table (table_part n out) (table_named n (cat_tables cat)) = Some (result n) /\ final n (result n).
Proof. unfold result. destruct (each_table n) as (o & E & F). rewrite E. auto. Qed.

Theorem plan_runs : exists cat', run_all out cat = Some cat' /\ reached l cat' /\ catalogue_ok cat'.
Proof.
  destruct (view_ops_exact Mysql l (dump cat) out (ms_created _ Hms) Hplan) as (rep & Hrep & Hv).
  pose proof (trigger_ops_exact Mysql l (dump cat) out (ms_created _ Hms) Hplan) as Ht. rewrite dump_views in *. rewrite dump_triggers in Ht.
  destruct (run_desired_views _ _ _ Hrep views_distinct (cat_views cat)) as (V1 & EV1 & NV1 & DV1 & OV1); [auto|apply (co_views _ Hco)|].
  set (gone := without vw_name vw_name (views_in l) (cat_views cat)) in *.
  assert (Hgone : forall v, In v gone -> In v (cat_views cat) /\ ~ In (vw_name v) (map vw_name (views_in l))).
  { intros v Hx. unfold gone, without in Hx. apply filter_In in Hx as [Hx Hm]. apply negb_true_iff, mem_not_in in Hm. auto. }
  destruct (run_drop_views gone V1) as (V2 & EV2 & NV2 & OV2).
  { unfold gone, without. apply nodup_map_filter. apply (co_views _ Hco). }
  { intros v Hx. destruct (Hgone v Hx) as [G1 G2]. destruct (named vw_name (vw_name v) V1) as [w|] eqn:Ew.
    - apply named_some in Ew as [Ew1 <-]. now apply in_map.
    - rewrite (OV1 _ G2) in Ew. apply (named_none vw_name) in Ew. exfalso. apply Ew. now apply in_map. }
  { exact NV1. }
  destruct (run_desired_triggers _ _ _ Ht (ms_triggers _ Hms) (cat_triggers cat)) as (T1 & ET1 & NT1 & DT1 & OT1); [auto|apply (co_triggers _ Hco)|].
  destruct (run_all_split out cat result V2 T1 (co_tables _ Hco) plan_about) as (cat' & Er & Hnd & Ev & Et & Hlook).
  { intros n. apply result_final. }
  { rewrite Hv, run_views_app, EV1. exact EV2. }
  { exact ET1. }
  exists cat'. split; [exact Er|].
  assert (HV : forall n, named vw_name n V2 <> None <-> In n (map vw_name (views_in l))).
  { intros n. rewrite OV2. destruct (in_dec string_dec n (map vw_name (views_in l))) as [Hin|Hni].
    - apply in_map_iff in Hin as (v & <- & Hvin). destruct (DV1 v Hvin) as (v' & E' & _).
      destruct (mem (vw_name v) (map vw_name gone)) eqn:Em.
      + apply mem_in, in_map_iff in Em as (w & Ew & Hw). destruct (Hgone w Hw) as [_ G]. exfalso. apply G. rewrite Ew. now apply in_map.
      + rewrite E'. split; [intros _; now apply in_map|discriminate].
    - split; [|tauto]. intros H. exfalso. rewrite (OV1 _ Hni) in H. destruct (mem n (map vw_name gone)) eqn:Em; [tauto|].
      apply H. apply (named_none vw_name). intros Hx. apply mem_not_in in Em. apply Em. apply in_map_iff in Hx as (v & <- & Hvin).
      apply in_map. unfold gone, without. apply filter_In. split; [exact Hvin|]. now apply negb_true_iff, mem_not_in. }
  split; constructor.
  - intros n. pose proof (proj2 (result_final n)) as F. rewrite <- (Hlook n) in F. destruct (table_named n (cat_tables cat')) as [s|] eqn:Es.
    + destruct F as (t & Ht1 & Ht2 & _). apply named_some in Es as [Es1 Es2]. split; intros _.
      * rewrite <- Ht2. unfold created. now apply in_map.
      * rewrite <- Es2. now apply in_map.
    + apply (named_none t_name) in Es. cbn [final] in F. tauto.
  - intros t Htin. pose proof (proj2 (result_final (t_name t))) as F. rewrite <- (Hlook (t_name t)) in F. destruct (table_named (t_name t) (cat_tables cat')) as [s|] eqn:Es.
    + destruct F as (t0 & Ht1 & Ht2 & Hs & Hr & _). apply named_some in Es as [Es1 Es2]. exists s. split; [exact Es1|]. split; [exact Es2|].
      assert (t0 = t) as ->; [|exact Hr]. pose proof (ms_created _ Hms) as Hc. unfold created in Hc.
      pose proof (named_self t_name (tables_in l) t0 Hc Ht1) as A1. pose proof (named_self t_name (tables_in l) t Hc Htin) as A2. rewrite Ht2 in A1. congruence.
    + exfalso. apply F. unfold created. now apply in_map.
  - intros n. rewrite Ev, <- HV. destruct (named vw_name n V2) as [v|] eqn:En.
    + apply named_some in En as [E1 E2]. split; [discriminate|]. intros _. rewrite <- E2. now apply in_map.
    + apply (named_none vw_name) in En. tauto.
  - intros v Hvin. destruct (DV1 v Hvin) as (v' & E' & Hs). assert (E2 : named vw_name (vw_name v) V2 = Some v').
    { rewrite OV2. destruct (mem (vw_name v) (map vw_name gone)) eqn:Em; [|exact E'].
      apply mem_in, in_map_iff in Em as (w & Ew & Hw). destruct (Hgone w Hw) as [_ G]. exfalso. apply G. rewrite Ew. now apply in_map. }
    apply named_some in E2 as [E2 E3]. exists v'. rewrite Ev. auto.
  - intros n. rewrite Et. destruct (in_dec string_dec n (map tr_name (triggers_in l))) as [Hin|Hni].
    + split; [auto|]. intros _. apply in_map_iff in Hin as (t & <- & Htin). destruct (DT1 t Htin) as (t' & E' & _).
      apply named_some in E' as [E1 <-]. now apply in_map.
    + split; [|tauto]. intros Hx. exfalso. apply Hni. apply (proj2 Hcv).
      destruct (named tr_name n T1) as [t|] eqn:En; [|apply (named_none tr_name) in En; tauto].
      rewrite (OT1 n Hni) in En. apply named_some in En as [E1 <-]. now apply in_map.
  - intros t Htin. destruct (DT1 t Htin) as (t' & E' & Hm). apply named_some in E' as [E1 E2]. exists t'. rewrite Et. auto.
  - exact Hnd.
  - now rewrite Ev.
  - now rewrite Et.
  - intros s Hs. pose proof (proj2 (result_final (t_name s))) as F. rewrite <- (Hlook (t_name s)) in F.
    unfold table_named in F. rewrite (named_self t_name (cat_tables cat') s Hnd Hs) in F. destruct F as (t & _ & _ & _ & _ & F). exact F.
Qed.
End Run.
