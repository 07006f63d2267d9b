(** Running a plan on an ideal database, whatever its tables are: if every table goes where it
    should on its own, so does the database. *)
From Coq Require Import String Ascii List ZArith Bool Lia.
From Verif Require Import GoStr GoStrFacts Ast Generator SpecPlan SpecMysql SpecDatabase ProofPlan
  ProofSteps ProofTables ProofCompare ProofExact ProofObjects ProofColumns ProofSelf SpecOrder ProofOrder ProofMysql ProofConverge ProofSettle.
Import ListNotations.
Local Open Scope string_scope.
Local Open Scope list_scope.

Section Database.
Context {T : Type}.
Variables (name : T -> string) (create : table -> option T) (alter : effect -> T -> option T).
Variable replaceable : view -> string -> bool.
Hypothesis create_name : forall t x, create t = Some x -> name x = t_name t.
Hypothesis alter_keeps_name : forall e x x', alter e x = Some x' -> name x' = name x.

(** ** One table *)
Definition db_step (e : effect) (o : option T) : option (option T) :=
  match e with
  | EffVerbatim (CreateTable _ t) =>
      match o with Some _ => None | None => match create t with Some x => Some (Some x) | None => None end end
  | EffDropTable _ => match o with Some _ => Some None | None => None end
  | _ => match o with
         | Some t => match alter e t with Some t' => Some (Some t') | None => None end
         | None => None
         end
  end.
Fixpoint db_steps (out : list stmt) (o : option T) : option (option T) :=
  match out with
  | [] => Some o
  | s :: out' => match db_step (s_eff s) o with Some o' => db_steps out' o' | None => None end
  end.

(** A run of ALTER statements. *)
Fixpoint alters (out : list stmt) (x : T) : option T :=
  match out with
  | [] => Some x
  | s :: out' => match alter (s_eff s) x with Some x' => alters out' x' | None => None end
  end.

Lemma alters_app a b x : alters (a ++ b) x = match alters a x with Some x' => alters b x' | None => None end.
Proof. revert x; induction a as [|s a IH]; intros x; [reflexivity|]. cbn [app alters]. destruct (alter (s_eff s) x); auto. Qed.

Definition altering (e : effect) : Prop :=
  match e with EffVerbatim (CreateTable _ _) | EffDropTable _ => False | _ => True end.

Lemma alters_steps out : forall x x', (forall s, In s out -> altering (s_eff s)) ->
  alters out x = Some x' -> db_steps out (Some x) = Some (Some x').
Proof.
  induction out as [|s out IH]; intros x x' Ha H; cbn [alters db_steps] in *; [congruence|].
  destruct (alter (s_eff s) x) as [x1|] eqn:E; [|discriminate].
  assert (db_step (s_eff s) (Some x) = Some (Some x1)) as ->; [|apply IH; [intros y Hy; apply Ha; now right|exact H]].
  specialize (Ha s (or_introl eq_refl)). destruct (s_eff s); cbn [db_step altering] in *; try (now rewrite E); try destruct Ha.
  destruct d; try (now rewrite E). destruct Ha.
Qed.

Lemma alters_name out : forall x x', alters out x = Some x' -> name x' = name x.
Proof.
  induction out as [|s out IH]; intros x x' H; cbn [alters] in H; [congruence|].
  destruct (alter (s_eff s) x) as [x1|] eqn:E; [|discriminate]. rewrite (IH _ _ H). eauto.
Qed.

(** ** Views and triggers *)
Fixpoint views_run (o : list view_op) (l : list view) : option (list view) :=
  match o with
  | [] => Some l
  | x :: o' => match view_run replaceable x l with Some l' => views_run o' l' | None => None end
  end.
Fixpoint triggers_run (o : list trigger_op) (l : list trigger) : option (list trigger) :=
  match o with
  | [] => Some l
  | x :: o' => match trigger_run x l with Some l' => triggers_run o' l' | None => None end
  end.
Lemma views_run_app a b l : views_run (a ++ b) l = match views_run a l with Some l' => views_run b l' | None => None end.
Proof. revert l; induction a as [|x a IH]; intros l; [reflexivity|]. cbn [app views_run]. destruct (view_run _ x l); auto. Qed.
Lemma triggers_run_app a b l : triggers_run (a ++ b) l = match triggers_run a l with Some l' => triggers_run b l' | None => None end.
Proof. revert l; induction a as [|x a IH]; intros l; [reflexivity|]. cbn [app triggers_run]. destruct (trigger_run x l); auto. Qed.

(** ** One statement *)
Lemma lookup_replaced n t l x : name t = n -> named name x (replace_named name n t l) =
  match named name x l with Some y => Some (if String.eqb x n then t else y) | None => None end.
Proof.
  intros E. unfold replace_named. induction l as [|y l IH]; [reflexivity|]. cbn [map]. rewrite !named_cons.
  destruct (String.eqb_spec (name y) n) as [Ey|Ny].
  - rewrite E. destruct (String.eqb_spec n x) as [Ex|N].
    + subst x. rewrite Ey, String.eqb_refl. reflexivity.
    + destruct (String.eqb_spec (name y) x) as [E1|N1]; [congruence|]. exact IH.
  - destruct (String.eqb_spec (name y) x) as [E1|N1]; [|exact IH]. destruct (String.eqb_spec x n); [congruence|reflexivity].
Qed.
Lemma replaced_names n t l : name t = n -> map name (replace_named name n t l) = map name l.
Proof. intros E. unfold replace_named. rewrite map_map. apply map_ext. intros y. destruct (String.eqb_spec (name y) n); congruence. Qed.

Lemma on_one_table e n l o' : NoDup (map name l) -> eff_table e = Some n -> db_step e (named name n l) = Some o' ->
  exists l', table_run name create alter e n l = Some l' /\ NoDup (map name l') /\
    forall x, named name x l' = if String.eqb x n then o' else named name x l.
Proof.
  intros Hnd He Hs.
  assert (Halter : match named name n l with
                   | Some t => match alter e t with Some t' => Some (Some t') | None => None end
                   | None => None end = Some o' ->
     exists l', match named name n l with
      | None => None
      | Some t => match alter e t with Some t' => Some (replace_named name n t' l) | None => None end
      end = Some l' /\ NoDup (map name l') /\ forall x, named name x l' = if String.eqb x n then o' else named name x l).
  { intros H. destruct (named name n l) as [t|] eqn:Et; [|discriminate].
    destruct (alter e t) as [t'|] eqn:Ea; [|discriminate].
    apply (f_equal (fun o => match o with Some x => x | None => o' end)) in H. subst o'.
    assert (Hn : name t' = n) by (rewrite (alter_keeps_name _ _ _ Ea); now apply named_some in Et).
    eexists. split; [reflexivity|]. split; [now rewrite (replaced_names n t')|].
    intros x. rewrite (lookup_replaced n t' _ x Hn). destruct (String.eqb_spec x n) as [->|N]; [now rewrite Et|]. now destruct (named name x l). }
  destruct e; cbn [eff_table] in He; try discriminate; try (exact (Halter Hs)).
  - destruct d; cbn [ddl_table] in He; try discriminate; try (exact (Halter Hs)). clear Halter.
    injection He as He. cbn [db_step table_run] in *. destruct (named name n l) eqn:Et; [discriminate|].
    rewrite (proj2 (mem_false_none name n l) Et). destruct (create t) as [y|] eqn:Ec; [|discriminate]. pose proof (create_name _ _ Ec) as En.
    apply (f_equal (fun o => match o with Some x => x | None => o' end)) in Hs. subst o'.
    eexists. split; [reflexivity|]. split.
    + rewrite map_app. cbn [map]. apply nodup_snoc; [exact Hnd|]. rewrite En, He. now apply (named_none name).
    + intros x. rewrite named_app, named_cons, En, He.
      destruct (String.eqb_spec x n) as [->|N]; [now rewrite Et, String.eqb_refl|]. destruct (named name x l); [reflexivity|].
      destruct (String.eqb_spec n x); [congruence|reflexivity].
  - clear Halter. injection He as He. cbn [db_step table_run] in *. subst t. destruct (named name n l) as [t|] eqn:Et; [|discriminate].
    rewrite (proj2 (mem_true_some name n l) (ex_intro _ t Et)). injection Hs as <-.
    eexists. split; [reflexivity|]. split; [now apply nodup_remove|]. intros x. apply named_remove.
Qed.

Notation execute := (execute name create alter replaceable).
Notation execute_all := (execute_all name create alter replaceable).

Lemma execute_elsewhere e c v' tr' : eff_table e = None -> about_something e ->
  views_run (view_ops e) (db_views c) = Some v' -> triggers_run (trigger_ops e) (db_triggers c) = Some tr' ->
  execute e c = Some (mkDatabase (db_tables c) v' tr').
Proof.
  intros He Ha Hv Ht. unfold SpecDatabase.execute. rewrite He.
  assert (Hone : (exists o, view_ops e = [o] /\ trigger_ops e = []) \/ (exists o, view_ops e = [] /\ trigger_ops e = [o])).
  { destruct e as [[]| | | | | | | | | | | | | | | | | | | | | | | | | | | | | | | |]; cbn in *; try discriminate; eauto.
    exfalso. destruct Ha as [(n & E)|[(o & E)|(o & E)]]; discriminate. }
  destruct Hone as [(o & E1 & E2)|(o & E1 & E2)]; rewrite E1, E2 in *; cbn [views_run triggers_run] in Hv, Ht.
  - destruct (view_run replaceable o (db_views c)); [|discriminate]. injection Hv as <-. injection Ht as <-. reflexivity.
  - destruct (trigger_run o (db_triggers c)); [|discriminate]. injection Hv as <-. injection Ht as <-. reflexivity.
Qed.

(** ** All statements *)
Lemma execute_split out : forall c final v' tr', NoDup (map name (db_tables c)) -> (forall s, In s out -> about_something (s_eff s)) ->
  (forall n, db_steps (table_part n out) (named name n (db_tables c)) = Some (final n)) ->
  views_run (effects view_ops out) (db_views c) = Some v' -> triggers_run (effects trigger_ops out) (db_triggers c) = Some tr' ->
  exists c', execute_all out c = Some c' /\ NoDup (map name (db_tables c')) /\ db_views c' = v' /\ db_triggers c' = tr' /\
    forall n, named name n (db_tables c') = final n.
Proof.
  induction out as [|s out IH]; intros c final v' tr' Hnd Hall Hf Hv Ht.
  - exists c. cbn in *. split; [reflexivity|]. split; [exact Hnd|]. split; [congruence|]. split; [congruence|]. intros n. specialize (Hf n). congruence.
  - unfold effects in Hv, Ht. cbn [flat_map] in Hv, Ht. cbn [SpecDatabase.execute_all]. rewrite views_run_app in Hv. rewrite triggers_run_app in Ht.
    pose proof (Hall s (or_introl eq_refl)) as Hs. destruct (eff_table (s_eff s)) as [n|] eqn:En.
    + destruct (table_no_views _ _ En) as [Ev Et]. rewrite Ev in Hv. rewrite Et in Ht. cbn [views_run triggers_run] in Hv, Ht.
      pose proof (Hf n) as Hn. unfold table_part in Hn. cbn [filter] in Hn. rewrite En in Hn. cbn [is_some_eqb] in Hn. rewrite String.eqb_refl in Hn.
      cbn [db_steps] in Hn. destruct (db_step (s_eff s) (named name n (db_tables c))) as [o'|] eqn:Es; [|discriminate].
      destruct (on_one_table _ n _ o' Hnd En Es) as (l' & Er & Hnd' & Hl).
      assert (execute (s_eff s) c = Some (mkDatabase l' (db_views c) (db_triggers c))) as -> by (unfold SpecDatabase.execute; now rewrite En, Er).
      apply (IH (mkDatabase l' (db_views c) (db_triggers c)) final); auto; [intros; apply Hall; now right|].
      intros x. cbn [db_tables]. rewrite Hl. specialize (Hf x). unfold table_part in Hf. cbn [filter] in Hf. rewrite En in Hf. cbn [is_some_eqb] in Hf.
      destruct (String.eqb_spec x n) as [->|N].
      * exact Hn.
      * destruct (String.eqb_spec n x); [congruence|]. exact Hf.
    + destruct (views_run (view_ops (s_eff s)) (db_views c)) as [v1|] eqn:Ev; [|discriminate].
      destruct (triggers_run (trigger_ops (s_eff s)) (db_triggers c)) as [t1|] eqn:Et; [|discriminate].
      rewrite (execute_elsewhere _ c v1 t1 En Hs Ev Et). apply (IH (mkDatabase (db_tables c) v1 t1) final); auto.
      * intros; apply Hall; now right.
      * intros x. specialize (Hf x). unfold table_part in Hf. cbn [filter] in Hf. rewrite En in Hf. exact Hf.
Qed.

(** ** Views of a plan *)
Definition changes_replaceable (m : mode) (cur l : list view) : Prop :=
  m = Mysql \/ m = Postgres -> forall v cv, In v l -> named vw_name (vw_name v) cur = Some cv ->
    same_letters (vw_definition cv) (vw_definition v) \/ replaceable cv (vw_definition v) = true.

Lemma desired_views_run m cur l ops : contrib (desired_view m cur) l ops -> NoDup (map vw_name l) ->
  changes_replaceable m cur l -> forall L,
  (forall v, In v l -> named vw_name (vw_name v) L = named vw_name (vw_name v) cur) -> NoDup (map vw_name L) ->
  exists L', views_run ops L = Some L' /\ NoDup (map vw_name L') /\
    (forall v, In v l -> exists v', named vw_name (vw_name v) L' = Some v' /\ same_letters (vw_definition v') (vw_definition v)) /\
    (forall n, ~ In n (map vw_name l) -> named vw_name n L' = named vw_name n L).
Proof.
  induction 1 as [|v o l ops Hv _ IH]; intros Hnd Hrep L HL HnL.
  - exists L. split; [reflexivity|]. split; [exact HnL|]. split; [intros v []|auto].
  - cbn [map] in Hnd. inversion Hnd as [|? ? Hni Hnd']; subst.
    assert (Hstep : exists L1, views_run o L = Some L1 /\ NoDup (map vw_name L1) /\
      (exists v', named vw_name (vw_name v) L1 = Some v' /\ same_letters (vw_definition v') (vw_definition v)) /\
      forall n, n <> vw_name v -> named vw_name n L1 = named vw_name n L).
    { assert (Hput : NoDup (map vw_name (remove_named vw_name (vw_name v) L ++ [mkView "" (vw_name v) (vw_definition v)])) /\
        (exists v', named vw_name (vw_name v) (remove_named vw_name (vw_name v) L ++ [mkView "" (vw_name v) (vw_definition v)]) = Some v' /\
                    same_letters (vw_definition v') (vw_definition v)) /\
        forall n, n <> vw_name v -> named vw_name n (remove_named vw_name (vw_name v) L ++ [mkView "" (vw_name v) (vw_definition v)]) = named vw_name n L).
      { split; [|split].
        - rewrite map_app. cbn [map vw_name]. apply nodup_snoc; [now apply nodup_remove|]. rewrite names_remove. intros Hx. apply take_out_in in Hx. tauto.
        - exists (mkView "" (vw_name v) (vw_definition v)). split; [|reflexivity]. rewrite named_app, named_remove, String.eqb_refl, named_cons. cbn [vw_name].
          now rewrite String.eqb_refl.
        - intros n Hn. rewrite named_app, named_remove, named_cons. cbn [vw_name]. destruct (String.eqb_spec n (vw_name v)); [congruence|].
          destruct (named vw_name n L); [reflexivity|]. destruct (String.eqb_spec (vw_name v) n); [congruence|reflexivity]. }
      unfold desired_view in Hv. rewrite <- (HL v (or_introl eq_refl)) in Hv. destruct (named vw_name (vw_name v) L) as [cv|] eqn:Ec.
      - destruct Hv as [[Hs ->]|[Hs ->]].
        + exists L. split; [reflexivity|]. split; [exact HnL|]. split; [eauto|auto].
        + assert (Hr : m = Mysql \/ m = Postgres -> replaceable cv (vw_definition v) = true).
          { intros Hm. rewrite (HL v (or_introl eq_refl)) in Ec. destruct (Hrep Hm v cv (or_introl eq_refl) Ec); [contradiction|assumption]. }
          exists (remove_named vw_name (vw_name v) L ++ [mkView "" (vw_name v) (vw_definition v)]). split; [|exact Hput].
          assert (Hrepl : replaceable cv (vw_definition v) = true -> views_run [ViewReplace (vw_name v) (vw_definition v)] L =
                    Some (remove_named vw_name (vw_name v) L ++ [mkView "" (vw_name v) (vw_definition v)])).
          { intros Hr'. cbn [views_run view_run]. now rewrite Ec, Hr'. }
          assert (Hdrop : views_run [ViewDrop (vw_name v); ViewCreate (vw_name v) (vw_definition v)] L =
                    Some (remove_named vw_name (vw_name v) L ++ [mkView "" (vw_name v) (vw_definition v)])).
          { cbn [views_run view_run]. rewrite (proj2 (mem_true_some vw_name _ _) (ex_intro _ cv Ec)). rewrite names_remove.
            assert (Hx : ~ In (vw_name v) (take_out (vw_name v) (map vw_name L))) by (intros Hx; apply take_out_in in Hx; tauto).
            now rewrite (proj2 (mem_not_in _ _) Hx). }
          destruct m; auto.
      - subst o. cbn [views_run view_run]. rewrite (proj2 (mem_false_none vw_name _ _) Ec). eexists. split; [reflexivity|]. split; [|split].
        + rewrite map_app. cbn [map]. apply nodup_snoc; [exact HnL|]. now apply (named_none vw_name).
        + exists v. split; [|reflexivity]. rewrite named_app, Ec, named_cons, String.eqb_refl. reflexivity.
        + intros n Hn. rewrite named_app, named_cons. destruct (named vw_name n L); [reflexivity|]. destruct (String.eqb_spec (vw_name v) n); [congruence|reflexivity]. }
    destruct Hstep as (L1 & E1 & Hn1 & (v' & Ev' & Hv') & Ho1).
    destruct (IH Hnd') with (L := L1) as (L' & E' & Hn' & Hd' & Ho').
    { intros Hm w cw Hw. apply (Hrep Hm w cw). now right. }
    { intros w Hw. rewrite Ho1; [apply HL; now right|]. intros E. apply Hni. rewrite <- E. now apply in_map. }
    { exact Hn1. }
    exists L'. rewrite views_run_app, E1. split; [exact E'|]. split; [exact Hn'|]. split.
    + intros w [<-|Hw]; [|auto]. exists v'. rewrite Ho' by exact Hni. auto.
    + intros n Hn. cbn [map In] in Hn. rewrite Ho' by tauto. apply Ho1. intros ->. tauto.
Qed.

Lemma drop_views_run : forall d L, NoDup (map vw_name d) -> (forall v, In v d -> In (vw_name v) (map vw_name L)) -> NoDup (map vw_name L) ->
  exists L', views_run (map (fun v => ViewDrop (vw_name v)) d) L = Some L' /\ NoDup (map vw_name L') /\
    forall n, named vw_name n L' = if mem n (map vw_name d) then None else named vw_name n L.
Proof.
  induction d as [|v d IH]; intros L Hd Hin HnL.
  - exists L. auto.
  - cbn [map views_run view_run]. rewrite (proj2 (mem_in _ _) (Hin v (or_introl eq_refl))). cbn [map] in Hd. inversion Hd as [|? ? Hni Hd']; subst.
    destruct (IH (remove_named vw_name (vw_name v) L)) as (L' & E' & Hn' & Hl'); auto.
    + intros w Hw. rewrite names_remove. apply take_out_in. split; [apply Hin; now right|]. intros E. apply Hni. rewrite <- E. now apply in_map.
    + now apply nodup_remove.
    + exists L'. split; [exact E'|]. split; [exact Hn'|]. intros n. rewrite Hl', named_remove. cbn [map mem existsb].
      destruct (String.eqb_spec n (vw_name v)) as [->|N]; cbn [orb]; [now destruct (mem _ _)|reflexivity].
Qed.

(** ** Triggers of a plan *)
Definition has_triggers (m : mode) : Prop := m = Mysql \/ m = Mssql.

Lemma desired_triggers_run m cur l ops : has_triggers m -> contrib (desired_trigger m cur) l ops -> NoDup (map tr_name l) -> forall L,
  (forall v, In v l -> named tr_name (tr_name v) L = named tr_name (tr_name v) cur) -> NoDup (map tr_name L) ->
  exists L', triggers_run ops L = Some L' /\ NoDup (map tr_name L') /\
    (forall v, In v l -> exists v', named tr_name (tr_name v) L' = Some v' /\ trigger_matches v' v) /\
    (forall n, ~ In n (map tr_name l) -> named tr_name n L' = named tr_name n L).
Proof.
  intros Hm. induction 1 as [|v o l ops Hv _ IH]; intros Hnd L HL HnL.
  - exists L. split; [reflexivity|]. split; [exact HnL|]. split; [intros v []|auto].
  - cbn [map] in Hnd. inversion Hnd as [|? ? Hni Hnd']; subst.
    assert (Hrefl : trigger_matches v v).
    { unfold trigger_matches. split; [reflexivity|]. split; [reflexivity|]. split; [reflexivity|]. induction (tr_body v); constructor; [reflexivity|assumption]. }
    assert (Hstep : exists L1, triggers_run o L = Some L1 /\ NoDup (map tr_name L1) /\
      (exists v', named tr_name (tr_name v) L1 = Some v' /\ trigger_matches v' v) /\
      forall n, n <> tr_name v -> named tr_name n L1 = named tr_name n L).
    { assert (Hput : NoDup (map tr_name (remove_named tr_name (tr_name v) L ++ [v])) /\
        (exists v', named tr_name (tr_name v) (remove_named tr_name (tr_name v) L ++ [v]) = Some v' /\ trigger_matches v' v) /\
        forall n, n <> tr_name v -> named tr_name n (remove_named tr_name (tr_name v) L ++ [v]) = named tr_name n L).
      { split; [|split].
        - rewrite map_app. cbn [map]. apply nodup_snoc; [now apply nodup_remove|]. rewrite names_remove. intros Hx. apply take_out_in in Hx. tauto.
        - exists v. split; [|exact Hrefl]. rewrite named_app, named_remove, String.eqb_refl, named_cons. now rewrite String.eqb_refl.
        - intros n Hn. rewrite named_app, named_remove, named_cons. destruct (String.eqb_spec n (tr_name v)); [congruence|].
          destruct (named tr_name n L); [reflexivity|]. destruct (String.eqb_spec (tr_name v) n); [congruence|reflexivity]. }
      assert (Hv' : match named tr_name (tr_name v) cur with
        | None => o = [TriggerCreate v]
        | Some ct => (trigger_matches ct v /\ o = []) \/ (~ trigger_matches ct v /\
             o = match m with Mssql => [TriggerAlter v] | _ => [TriggerDrop (tr_name v); TriggerCreate v] end)
        end) by (destruct Hm as [-> | ->]; exact Hv). clear Hv. rename Hv' into Hv.
      rewrite <- (HL v (or_introl eq_refl)) in Hv. destruct (named tr_name (tr_name v) L) as [cv|] eqn:Ec.
      - destruct Hv as [[Hs ->]|[Hs ->]].
        + exists L. split; [reflexivity|]. split; [exact HnL|]. split; [eauto|auto].
        + exists (remove_named tr_name (tr_name v) L ++ [v]). split; [|exact Hput].
          destruct Hm as [-> | ->]; [|reflexivity]. cbn [triggers_run trigger_run].
          rewrite (proj2 (mem_true_some tr_name _ _) (ex_intro _ cv Ec)). rewrite names_remove.
          assert (Hx : ~ In (tr_name v) (take_out (tr_name v) (map tr_name L))) by (intros Hx; apply take_out_in in Hx; tauto).
          now rewrite (proj2 (mem_not_in _ _) Hx).
      - subst o. cbn [triggers_run trigger_run]. rewrite (proj2 (mem_false_none tr_name _ _) Ec). eexists. split; [reflexivity|]. split; [|split].
        + rewrite map_app. cbn [map]. apply nodup_snoc; [exact HnL|]. now apply (named_none tr_name).
        + exists v. split; [|exact Hrefl]. rewrite named_app, Ec, named_cons, String.eqb_refl. reflexivity.
        + intros n Hn. rewrite named_app, named_cons. destruct (named tr_name n L); [reflexivity|]. destruct (String.eqb_spec (tr_name v) n); [congruence|reflexivity]. }
    destruct Hstep as (L1 & E1 & Hn1 & (v' & Ev' & Hv') & Ho1).
    destruct (IH Hnd' L1) as (L' & E' & Hn' & Hd' & Ho').
    { intros w Hw. rewrite Ho1; [apply HL; now right|]. intros E. apply Hni. rewrite <- E. now apply in_map. }
    { exact Hn1. }
    exists L'. rewrite triggers_run_app, E1. split; [exact E'|]. split; [exact Hn'|]. split.
    + intros w [<-|Hw]; [|auto]. exists v'. rewrite Ho' by exact Hni. auto.
    + intros n Hn. cbn [map In] in Hn. rewrite Ho' by tauto. apply Ho1. intros ->. tauto.
Qed.

(** ** A whole plan *)
Section Plan.
Variables (m : mode) (l cur : list ddl) (out : list stmt) (db : database T) (good : table -> T -> Prop).
Hypothesis Hnd : NoDup (created l).
Hypothesis Hwf : well_formed l = true.
Hypothesis Hplan : plan m l cur = Ok out.
Hypothesis Hcur : created cur = map name (db_tables db).
Hypothesis Hdb : NoDup (map name (db_tables db)).
Hypothesis Hcv : views_in cur = db_views db.
Hypothesis Hvn : NoDup (map vw_name (db_views db)).
Hypothesis Hrep : changes_replaceable m (db_views db) (views_in l).
Hypothesis Hct : triggers_in cur = db_triggers db.
Hypothesis Htn : NoDup (map tr_name (db_triggers db)).
Hypothesis Hlt : has_triggers m -> NoDup (map tr_name (triggers_in l)).
Hypothesis Hkept : forall t s, In t (tables_in l) -> In s (db_tables db) -> name s = t_name t ->
  exists s', db_steps (table_part (t_name t) out) (Some s) = Some (Some s') /\ good t s' /\ name s' = t_name t.
Hypothesis Hnew : forall t, In t (tables_in l) -> named name (t_name t) (db_tables db) = None ->
  exists s', db_steps (table_part (t_name t) out) None = Some (Some s') /\ good t s' /\ name s' = t_name t.

Lemma cur_nodup : NoDup (created cur).
Proof. rewrite Hcur. exact Hdb. Qed.

Lemma plan_is_about : forall s, In s out -> about_something (s_eff s).
Proof.
  destruct (plan_parts m l cur out Hnd cur_nodup Hplan) as (_ & a & b & Ha & Hb & Ho).
  intros s Hs. rewrite Ho, !in_app_iff in Hs. destruct Hs as [Hs|[Hs|Hs]].
  - assert (H : Forall (fun s => about_something (s_eff s)) a); [|now rewrite Forall_forall in H; apply H].
    eapply concat_map_Forall; [|exact Ha]. intros d o _ Hd. destruct (ddl_table d) as [n|] eqn:Ed.
    + eapply Forall_impl; [|eapply local_about; eauto]. intros x Hx. left. eauto.
    + destruct d; simpl in Ed; try discriminate; simpl in Hd.
      * injection Hd as <-. destruct (find_view _ _); [destruct (String.eqb _ _); [|destruct m]|]; repeat (apply Forall_cons || apply Forall_nil); right; left; eexists; reflexivity.
      * destruct (trigger_definition m t); injection Hd as <-; [|constructor].
        destruct (find_trigger _ _); [destruct (are_same_trigger _ _); [|destruct m]|]; repeat (apply Forall_cons || apply Forall_nil); right; right; eexists; reflexivity.
  - pose proof (kind_cleanup_tables _ _ _ _ _ Hb) as Hk. rewrite Forall_forall in Hk. specialize (Hk s Hs). cbv beta in Hk.
    left. destruct (s_eff s) as [[]| | | | | | | | | | | | | | | | | | | | | | | | | | | | | | | |]; simpl in *; try discriminate; eauto.
  - pose proof (kind_obsolete_views m l (views_in cur)) as Hk. rewrite Forall_forall in Hk. specialize (Hk s Hs). cbv beta in Hk.
    right. left. destruct (s_eff s); try discriminate. eexists. reflexivity.
Qed.

Lemma desired_views_distinct : NoDup (map vw_name (views_in l)).
Proof.
  pose proof Hwf as Hw. unfold well_formed in Hw.
  assert (G : forall r before, well_formed_after before r = true ->
     NoDup (map vw_name (views_in r)) /\ forall n, In n (map vw_name (views_in r)) -> ~ In n (map vw_name (views_in before))).
  { induction r as [|d r IH]; intros before H; [split; [constructor|intros n []]|]. cbn [well_formed_after] in H. apply andb_prop in H as [Hd H].
    destruct (IH _ H) as [I1 I2].
    assert (I2' : forall n, In n (map vw_name (views_in r)) -> ~ In n (map vw_name (views_in before))).
    { intros n Hn Hx. apply (I2 n Hn). unfold views_in. rewrite flat_map_app, map_app. apply in_app_iff. now left. }
    destruct d; try (split; [exact I1|exact I2']).
    simpl in Hd. apply negb_true_iff, mem_not_in in Hd. split.
    - cbn [views_in flat_map app map]. constructor; [|exact I1]. intros Hx. apply (I2 _ Hx). unfold views_in. rewrite flat_map_app, map_app.
      apply in_app_iff. right. now left.
    - intros n [<-|Hn]; [exact Hd|now apply I2']. }
  now apply (G l []).
Qed.

Definition db_final (n : string) (o : option T) : Prop :=
  match o with
  | None => ~ In n (created l)
  | Some s => exists t, In t (tables_in l) /\ t_name t = n /\ name s = n /\ good t s
  end.

Lemma db_each_table n : exists o, db_steps (table_part n out) (named name n (db_tables db)) = Some o /\ db_final n o.
Proof.
  destruct (in_dec string_dec n (created l)) as [Hd|Hd].
  - unfold created in Hd. apply in_map_iff in Hd as (t & En & Ht). destruct (named name n (db_tables db)) as [st|] eqn:Est.
    + destruct (named_some name n _ st Est) as [Hst Hn].
      destruct (Hkept t st Ht Hst) as (s & E & Hg & Hs); [congruence|]. exists (Some s). rewrite <- En. split; [exact E|].
      exists t. auto.
    + subst n. destruct (Hnew t Ht Est) as (s & E & Hg & Hs). exists (Some s). split; [exact E|]. exists t. auto.
  - exists None. split; [|exact Hd]. destruct (named name n (db_tables db)) as [st|] eqn:Est.
    + destruct (named_some name n _ st Est) as [Hst Hn].
      rewrite (obsolete_part m l cur out Hnd cur_nodup Hplan n); [reflexivity| |exact Hd].
      rewrite Hcur, <- Hn. now apply in_map.
    + rewrite (unknown_part m l cur out Hnd cur_nodup Hplan n); [reflexivity| |exact Hd].
      rewrite Hcur. now apply (named_none name).
Qed.

Definition db_result (n : string) : option T :=
  match db_steps (table_part n out) (named name n (db_tables db)) with Some o => o | None => None end.

Lemma db_result_final n : db_steps (table_part n out) (named name n (db_tables db)) = Some (db_result n) /\ db_final n (db_result n).
Proof. unfold db_result. destruct (db_each_table n) as (o & E & F). rewrite E. auto. Qed.

Lemma triggers_settle : exists T1, triggers_run (effects trigger_ops out) (db_triggers db) = Some T1 /\ NoDup (map tr_name T1) /\
  (has_triggers m ->
    (forall v, In v (triggers_in l) -> exists v', named tr_name (tr_name v) T1 = Some v' /\ trigger_matches v' v) /\
    (forall n, ~ In n (map tr_name (triggers_in l)) -> named tr_name n T1 = named tr_name n (db_triggers db))) /\
  (~ has_triggers m -> T1 = db_triggers db).
Proof.
  pose proof (trigger_ops_exact m l cur out Hnd Hplan) as Ht. rewrite Hct in Ht.
  assert (Hcase : has_triggers m \/ ~ has_triggers m) by (unfold has_triggers; destruct m; intuition (discriminate || congruence)).
  destruct Hcase as [Hm|Hm].
  - destruct (desired_triggers_run m _ _ _ Hm Ht (Hlt Hm) (db_triggers db)) as (T1 & ET1 & NT1 & DT1 & OT1); [auto|exact Htn|].
    exists T1. split; [exact ET1|]. split; [exact NT1|]. split; [auto|tauto].
  - exists (db_triggers db). assert (effects trigger_ops out = []) as ->.
    { assert (G : forall a b, contrib (desired_trigger m (db_triggers db)) a b -> b = []); [|eapply G; exact Ht].
      induction 1 as [|x o a b Hx _ IH]; [reflexivity|]. rewrite IH, app_nil_r. unfold has_triggers in Hm. destruct m; cbn in Hx; tauto. }
    split; [reflexivity|]. split; [exact Htn|]. split; [tauto|auto].
Qed.

Theorem database_runs : exists db', execute_all out db = Some db' /\
  NoDup (map name (db_tables db')) /\ NoDup (map vw_name (db_views db')) /\ NoDup (map tr_name (db_triggers db')) /\
  (forall n, In n (map name (db_tables db')) <-> In n (created l)) /\
  (forall t, In t (tables_in l) -> exists s, In s (db_tables db') /\ name s = t_name t /\ good t s) /\
  (forall n, In n (map vw_name (db_views db')) <-> In n (map vw_name (views_in l))) /\
  (forall v, In v (views_in l) -> exists v', In v' (db_views db') /\ vw_name v' = vw_name v /\ same_letters (vw_definition v') (vw_definition v)) /\
  (has_triggers m ->
     (forall t, In t (triggers_in l) -> exists t', In t' (db_triggers db') /\ tr_name t' = tr_name t /\ trigger_matches t' t) /\
     (forall n, ~ In n (map tr_name (triggers_in l)) -> named tr_name n (db_triggers db') = named tr_name n (db_triggers db))) /\
  (~ has_triggers m -> db_triggers db' = db_triggers db).
Proof.
  destruct (view_ops_exact m l cur out Hnd Hplan) as (rep & Hrp & Hv). rewrite Hcv in Hrp, Hv.
  destruct (desired_views_run m _ _ _ Hrp desired_views_distinct Hrep (db_views db)) as (V1 & EV1 & NV1 & DV1 & OV1); [auto|exact Hvn|].
  set (gone := without vw_name vw_name (views_in l) (db_views db)) in *.
  assert (Hgone : forall v, In v gone -> In v (db_views db) /\ ~ In (vw_name v) (map vw_name (views_in l))).
  { intros v Hx. unfold gone, without in Hx. apply filter_In in Hx as [Hx Hm]. apply negb_true_iff, mem_not_in in Hm. auto. }
  destruct (drop_views_run gone V1) as (V2 & EV2 & NV2 & OV2).
  { unfold gone, without. apply nodup_map_filter. exact Hvn. }
  { intros v Hx. destruct (Hgone v Hx) as [G1 G2]. destruct (named vw_name (vw_name v) V1) as [w|] eqn:Ew.
    - apply named_some in Ew as [Ew1 <-]. now apply in_map.
    - rewrite (OV1 _ G2) in Ew. apply (named_none vw_name) in Ew. exfalso. apply Ew. now apply in_map. }
  { exact NV1. }
  destruct triggers_settle as (T1 & ET1 & NT1 & HT1 & HT2).
  destruct (execute_split out db db_result V2 T1 Hdb plan_is_about) as (db' & Er & Hnd' & Ev & Et & Hlook).
  { intros n. apply db_result_final. }
  { rewrite Hv, views_run_app, EV1. exact EV2. }
  { exact ET1. }
  exists db'. split; [exact Er|]. split; [exact Hnd'|]. rewrite Ev, Et. split; [exact NV2|]. split; [exact NT1|].
  assert (HV : forall n, named vw_name n V2 <> None <-> In n (map vw_name (views_in l))).
  { intros n. rewrite OV2. destruct (in_dec string_dec n (map vw_name (views_in l))) as [Hin|Hni].
    - apply in_map_iff in Hin as (v & <- & Hvin). destruct (DV1 v Hvin) as (v' & E' & _).
      destruct (mem (vw_name v) (map vw_name gone)) eqn:Em.
      + apply mem_in, in_map_iff in Em as (w & Ew & Hw). destruct (Hgone w Hw) as [_ G]. exfalso. apply G. rewrite Ew. now apply in_map.
      + rewrite E'. split; [intros _; now apply in_map|discriminate].
    - split; [|tauto]. intros H. exfalso. rewrite (OV1 _ Hni) in H. destruct (mem n (map vw_name gone)) eqn:Em; [tauto|].
      apply H. apply (named_none vw_name). intros Hx. apply mem_not_in in Em. apply Em. apply in_map_iff in Hx as (v & <- & Hvin).
      apply in_map. unfold gone, without. apply filter_In. split; [exact Hvin|]. now apply negb_true_iff, mem_not_in. }
  split; [|split; [|split; [|split; [|split]]]].
  - intros n. pose proof (proj2 (db_result_final n)) as F. rewrite <- (Hlook n) in F. destruct (named name n (db_tables db')) as [s|] eqn:Es.
    + destruct F as (t & Ht1 & Ht2 & _). apply named_some in Es as [Es1 Es2]. split; intros _.
      * rewrite <- Ht2. unfold created. now apply in_map.
      * rewrite <- Es2. now apply in_map.
    + apply (named_none name) in Es. cbn [db_final] in F. tauto.
  - intros t Htin. pose proof (proj2 (db_result_final (t_name t))) as F. rewrite <- (Hlook (t_name t)) in F. destruct (named name (t_name t) (db_tables db')) as [s|] eqn:Es.
    + destruct F as (t0 & Ht1 & Ht2 & Hs & Hg). apply named_some in Es as [Es1 Es2]. exists s. split; [exact Es1|]. split; [exact Es2|].
      assert (t0 = t) as ->; [|exact Hg]. pose proof Hnd as Hc. unfold created in Hc.
      pose proof (named_self t_name (tables_in l) t0 Hc Ht1) as A1. pose proof (named_self t_name (tables_in l) t Hc Htin) as A2. rewrite Ht2 in A1. congruence.
    + exfalso. apply F. unfold created. now apply in_map.
  - intros n. rewrite <- HV. destruct (named vw_name n V2) as [v|] eqn:En.
    + apply named_some in En as [E1 E2]. split; [discriminate|]. intros _. rewrite <- E2. now apply in_map.
    + apply (named_none vw_name) in En. tauto.
  - intros v Hvin. destruct (DV1 v Hvin) as (v' & E' & Hs). assert (E2 : named vw_name (vw_name v) V2 = Some v').
    { rewrite OV2. destruct (mem (vw_name v) (map vw_name gone)) eqn:Em; [|exact E'].
      apply mem_in, in_map_iff in Em as (w & Ew & Hw). destruct (Hgone w Hw) as [_ G]. exfalso. apply G. rewrite Ew. now apply in_map. }
    apply named_some in E2 as [E2 E3]. exists v'. auto.
  - intros Hm. destruct (HT1 Hm) as [DT OT]. split; [|exact OT]. intros t Htin. destruct (DT t Htin) as (t' & E' & Hmm). apply named_some in E' as [E1 E2]. eauto.
  - exact HT2.
Qed.
End Plan.
End Database.
