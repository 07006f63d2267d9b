(** The loop over the desired statements, as a sum of local plans. *)
From Coq Require Import String Ascii List ZArith Bool Lia.
From Verif Require Import GoStr GoStrFacts Ast Generator SpecPlan ProofPlan.
Import ListNotations.
Local Open Scope string_scope.
Local Open Scope list_scope.

(** What one desired statement contributes, given the tables, views and triggers of the
    current schema as they were before planning. *)
Definition local (m : mode) (tables : list table) (views : list view) (triggers : list trigger)
  (d : ddl) : res (list stmt) :=
  match d with
  | CreateTable _ t =>
      match find_table tables (t_name t) with
      | Some ct => ddls_for_create_table m ct t
      | None => Ok [verbatim d]
      end
  | CreateIndex _ n i | AddIndex _ n i =>
      match find_table tables n with
      | None => Ok [verbatim d]
      | Some ct =>
          match find_index (t_indexes ct) (i_name i) with
          | None => Ok [verbatim d]
          | Some ci => if are_same_indexes ci i then Ok []
                       else Ok [stmt_drop_index m n (i_name ci); verbatim d]
          end
      end
  | AddForeignKey _ _ _ => Ok []
  | AddPolicy _ n p =>
      match find_table tables n with
      | None => Ok [verbatim d]
      | Some ct =>
          match find_policy (t_policies ct) (p_name p) with
          | None => Ok [verbatim d]
          | Some cp => if are_same_policies cp p then Ok []
                       else Ok [stmt_drop_policy m (p_name cp) n; verbatim d]
          end
      end
  | DView v =>
      Ok match find_view views (vw_name v) with
         | None => [verbatim (DView v)]
         | Some cv =>
             if String.eqb (to_lower (vw_definition cv)) (to_lower (vw_definition v)) then []
             else match m with
                  | SQLite3 | Mssql =>
                      [stmt_drop_view m (vw_name v);
                       mkStmt ("CREATE VIEW " ++ escape_table_name m (vw_name v) ++ " AS " ++
                               vw_definition v)%string (EffCreateView (vw_name v) (vw_definition v))]
                  | _ => [mkStmt ("CREATE OR REPLACE VIEW " ++ escape_table_name m (vw_name v) ++ " AS " ++
                                  vw_definition v)%string (EffReplaceView (vw_name v) (vw_definition v))]
                  end
         end
  | DTrigger t =>
      match trigger_definition m t with
      | None => Ok []
      | Some def =>
          Ok match find_trigger triggers (tr_name t) with
             | None => [mkStmt ("CREATE " ++ def)%string (EffCreateTrigger t)]
             | Some ct =>
                 if are_same_trigger ct t then []
                 else match m with
                      | Mssql => [mkStmt ("CREATE OR ALTER " ++ def)%string (EffCreateOrAlterTrigger t)]
                      | _ => [mkStmt ("DROP TRIGGER " ++ escape_sql_name m (tr_name t))%string
                                     (EffDropTrigger (tr_name t));
                              mkStmt ("CREATE " ++ def)%string (EffCreateTrigger t)]
                      end
             end
      end
  | AddPrimaryKey _ _ _ => Err (EUnexpectedDesired d)
  end.

Definition blank (n : string) : table := mkTable n [] [] [] [].

Definition new_names (tables : list table) (l : list ddl) : list string :=
  filter (fun n => negb (mem n (map t_name tables))) (created l).

Definition same_outside (dt ct ct' : table) : Prop :=
  out c_name (column_names (t_columns dt)) (t_columns ct') = out c_name (column_names (t_columns dt)) (t_columns ct) /\
  out i_name (index_names (t_indexes dt)) (t_indexes ct') = out i_name (index_names (t_indexes dt)) (t_indexes ct) /\
  out fk_constraint (fk_names (t_fks dt)) (t_fks ct') = out fk_constraint (fk_names (t_fks dt)) (t_fks ct) /\
  out p_name (policy_names (t_policies dt)) (t_policies ct') = out p_name (policy_names (t_policies dt)) (t_policies ct).

Definition evolved (l : list ddl) (ct ct' : table) : Prop :=
  t_name ct' = t_name ct /\
  match find_table (schema l) (t_name ct) with
  | None => ct' = ct
  | Some dt => same_outside dt ct ct'
  end.

Record sim (tables : list table) (views : list view) (triggers : list trigger) (l : list ddl) (g : gstate) : Prop := {
  sim_des : g_des g = schema l;
  sim_dviews : g_des_views g = views_in l;
  sim_cviews : g_cur_views g = views;
  sim_ctrig : g_cur_triggers g = triggers;
  sim_cur : Forall2 (evolved l) (tables ++ map blank (new_names tables l)) (g_cur g);
  sim_ord : ordered l;
  sim_marks : forall n, pk_marks n l = [] }.

Lemma evolved_find l a b n : Forall2 (evolved l) a b ->
  match find_table a n, find_table b n with
  | Some x, Some y => evolved l x y
  | None, None => True
  | _, _ => False
  end.
Proof.
  unfold find_table. induction 1 as [|x y a b H _ IH]; simpl; [exact I|].
  destruct H as [Hn H']. rewrite Hn. destruct (String.eqb (t_name x) n); [split; assumption|exact IH].
Qed.

Lemma evolved_names l a b : Forall2 (evolved l) a b -> map t_name b = map t_name a.
Proof. induction 1 as [|x y a b [H _] _ IH]; simpl; [reflexivity|]. now rewrite H, IH. Qed.

Lemma evolved_update l l' f n a b :
  Forall2 (evolved l) a b ->
  (forall x y, evolved l x y -> evolved l' x y) ->
  (forall x y, evolved l x y -> t_name y = n -> evolved l' x (f y)) ->
  Forall2 (evolved l') a (update_table f n b).
Proof.
  intros H Hk Hf. induction H as [|x y a b Hxy Hab IH]; simpl; [constructor|].
  destruct (String.eqb (t_name y) n) eqn:E.
  - apply String.eqb_eq in E. constructor; [now apply Hf|]. clear IH. induction Hab; constructor; auto.
  - constructor; auto.
Qed.

Lemma evolved_keep l l' a b :
  Forall2 (evolved l) a b -> (forall x y, evolved l x y -> evolved l' x y) -> Forall2 (evolved l') a b.
Proof. intros H Hk. induction H; constructor; auto. Qed.

Lemma same_outside_refl dt ct : same_outside dt ct ct.
Proof. repeat split. Qed.

Lemma new_names_not_created tables l n : In n (map t_name (map blank (new_names tables l))) -> In n (created l).
Proof.
  rewrite map_map. simpl. rewrite map_id. unfold new_names. intros H. apply filter_In in H. tauto.
Qed.

Lemma find_blank ns n t : find_table (map blank ns) n = Some t -> t = blank n.
Proof.
  unfold find_table. induction ns as [|k ns IH]; simpl; [discriminate|].
  destruct (String.eqb k n) eqn:E; [|assumption]. intros [= <-]. apply String.eqb_eq in E. now subst.
Qed.

(** Looking a table up in the evolved current state. *)
Lemma sim_find tables views triggers l g n : sim tables views triggers l g ->
  match find_table (g_cur g) n with
  | Some ct' => (exists ct, find_table tables n = Some ct /\ evolved l ct ct') \/
                (find_table tables n = None /\ In n (created l) /\ evolved l (blank n) ct')
  | None => find_table tables n = None /\ ~ In n (created l)
  end.
Proof.
  intros H. pose proof (evolved_find _ _ _ n (sim_cur _ _ _ _ _ H)) as Hf. rewrite find_table_app in Hf.
  destruct (find_table tables n) as [ct|] eqn:Et.
  - destruct (find_table (g_cur g) n) as [ct'|]; [|contradiction]. left. eauto.
  - destruct (find_table (map blank (new_names tables l)) n) as [b|] eqn:Eb.
    + destruct (find_table (g_cur g) n) as [ct'|]; [|contradiction]. right.
      assert (b = blank n) by now apply find_blank in Eb. subst b. split; [reflexivity|]. split; [|assumption].
      apply find_table_some in Eb. destruct Eb as [Hb _]. apply new_names_not_created with tables.
      now apply (in_map t_name) in Hb.
    + destruct (find_table (g_cur g) n) as [ct'|]; [contradiction|]. split; [reflexivity|].
      apply find_table_none in Eb. intros Hc. apply Eb. rewrite map_map. simpl. rewrite map_id.
      unfold new_names. apply filter_In. split; [assumption|]. apply find_table_none in Et. apply mem_false in Et. now rewrite Et.
Qed.

Lemma find_schema_created l n : In n (created l) <-> exists dt, find_table (schema l) n = Some dt.
Proof.
  split.
  - intros H. destruct (find_table (schema l) n) eqn:E; [eauto|]. apply find_table_none in E. rewrite schema_names in E. tauto.
  - intros [dt H]. apply find_table_some in H. destruct H as [H <-]. rewrite <- schema_names. now apply in_map.
Qed.

(** *** merge *)
Lemma merge_fold {A} (nm : A -> string) l2 : forall acc,
  exists ex, fold_left (fun acc c => if contains_string (map nm acc) (nm c) then acc ++ [c] else acc) l2 acc = acc ++ ex /\
             incl ex l2.
Proof.
  induction l2 as [|c l2 IH]; intros acc; simpl.
  - exists []. rewrite app_nil_r. split; [reflexivity|]. intros x [].
  - destruct (contains_string (map nm acc) (nm c)).
    + destruct (IH (acc ++ [c])) as [ex [-> Hex]]. exists (c :: ex). rewrite <- app_assoc. split; [reflexivity|].
      intros x [->|Hx]; [now left|right; auto].
    + destruct (IH acc) as [ex [-> Hex]]. exists ex. split; [reflexivity|]. intros x Hx. right. auto.
Qed.

Lemma merge_same_outside t ct : same_outside t ct (merge_table ct t).
Proof.
  unfold same_outside, merge_table. simpl.
  destruct (merge_fold c_name (t_columns t) (t_columns ct)) as [ex [He Hi]].
  destruct (merge_fold i_name (t_indexes t) (t_indexes ct)) as [ex' [He' Hi']].
  unfold column_names, index_names in *. rewrite He, He', !out_app.
  rewrite (out_all c_name _ ex), (out_all i_name _ ex').
  - rewrite !app_nil_r. auto.
  - intros x Hx. apply in_map. auto.
  - intros x Hx. apply in_map. auto.
Qed.

(** *** evolution of the relation when the declared schema grows *)
Lemma evolved_create l s t x y :
  ordered l -> ~ In (t_name t) (created l) -> evolved l x y -> evolved (l ++ [CreateTable s t]) x y.
Proof.
  intros Ho Hn [Hxy H]. split; [assumption|]. rewrite schema_snoc_create by assumption. rewrite find_table_app.
  destruct (find_table (schema l) (t_name x)) as [dt|]; [assumption|]. subst y.
  destruct (find_table [t] (t_name x)); [apply same_outside_refl|reflexivity].
Qed.

Lemma same_outside_mono dt dt' ct ct' :
  incl (column_names (t_columns dt)) (column_names (t_columns dt')) ->
  incl (index_names (t_indexes dt)) (index_names (t_indexes dt')) ->
  incl (fk_names (t_fks dt)) (fk_names (t_fks dt')) ->
  incl (policy_names (t_policies dt)) (policy_names (t_policies dt')) ->
  same_outside dt ct ct' -> same_outside dt' ct ct'.
Proof.
  intros H1 H2 H3 H4 [E1 [E2 [E3 E4]]]. repeat split; eapply out_mono; eauto.
Qed.

Lemma find_update f n l k : (forall t, t_name (f t) = t_name t) ->
  find_table (update_table f n l) k = if String.eqb k n then option_map f (find_table l k) else find_table l k.
Proof.
  intros Hf. unfold find_table. induction l as [|t l IH]; simpl; [now destruct (String.eqb k n)|].
  destruct (String.eqb (t_name t) n) eqn:E; simpl.
  - rewrite Hf. destruct (String.eqb (t_name t) k) eqn:Ek.
    + apply String.eqb_eq in E, Ek. subst. now rewrite String.eqb_refl.
    + destruct (String.eqb k n) eqn:Ekn; [|reflexivity]. apply String.eqb_eq in E, Ekn. subst. now rewrite String.eqb_refl in Ek.
  - destruct (String.eqb (t_name t) k) eqn:Ek; [|apply IH].
    destruct (String.eqb k n) eqn:Ekn; [|reflexivity]. apply String.eqb_eq in Ek, Ekn. subst. now rewrite String.eqb_refl in E.
Qed.

Lemma evolved_grow l l' f n x y :
  schema l' = update_table f n (schema l) -> (forall t, t_name (f t) = t_name t) ->
  (forall t, same_outside t x y -> same_outside (f t) x y) ->
  evolved l x y -> evolved l' x y.
Proof.
  intros Hs Hn Hf [Hxy H]. split; [assumption|]. rewrite Hs, find_update by assumption.
  destruct (String.eqb (t_name x) n).
  - destruct (find_table (schema l) (t_name x)) as [dt|]; simpl; auto.
  - exact H.
Qed.

Lemma grow_index i t x y : same_outside t x y -> same_outside (add_index_to i t) x y.
Proof.
  apply same_outside_mono; simpl; try apply incl_refl. unfold index_names. rewrite map_app. apply incl_appl, incl_refl.
Qed.
Lemma grow_fk f t x y : same_outside t x y -> same_outside (add_fk_to f t) x y.
Proof.
  apply same_outside_mono; simpl; try apply incl_refl. unfold fk_names. rewrite map_app. apply incl_appl, incl_refl.
Qed.
Lemma grow_policy p t x y : same_outside t x y -> same_outside (add_policy_to p t) x y.
Proof.
  apply same_outside_mono; simpl; try apply incl_refl. unfold policy_names. rewrite map_app. apply incl_appl, incl_refl.
Qed.

Lemma new_names_snoc tables l d : new_names tables (l ++ [d]) =
  new_names tables l ++ match d with CreateTable _ t => if mem (t_name t) (map t_name tables) then [] else [t_name t] | _ => [] end.
Proof.
  unfold new_names. rewrite created_app, filter_app. f_equal. destruct d; try reflexivity.
  simpl. destruct (mem (t_name t) (map t_name tables)); reflexivity.
Qed.

Lemma marks_snoc l d : (forall n, pk_marks n l = []) -> (forall s n i, d <> AddPrimaryKey s n i) -> forall n, pk_marks n (l ++ [d]) = [].
Proof.
  intros H Hd n. rewrite pk_marks_app, H. destruct d; try reflexivity. now destruct (Hd statement table_name i).
Qed.

Lemma views_snoc l d : views_in (l ++ [d]) = views_in l ++ match d with DView v => [v] | _ => [] end.
Proof. rewrite views_in_app. f_equal. destruct d; reflexivity. Qed.

Lemma out_replace K i l : In (i_name i) K -> out i_name K (replace_index i l) = out i_name K l.
Proof.
  intros Hi. unfold out, replace_index. induction l as [|x l IH]; simpl; [reflexivity|].
  destruct (String.eqb (i_name x) (i_name i)) eqn:E.
  - apply String.eqb_eq in E. rewrite E. apply mem_spec in Hi. rewrite Hi. simpl. assumption.
  - rewrite IH. reflexivity.
Qed.

Lemma step_index_sim m tables views triggers l g d n i :
  sim tables views triggers l g -> NoDup (created l) ->
  (exists s, d = CreateIndex s n i \/ d = AddIndex s n i) ->
  if mem n (created l) && negb (mem (i_name i) (index_names_of n l))
  then exists g1, step_index m n i d g = (do o <-
         match find_table tables n with
         | None => Ok [verbatim d]
         | Some ct =>
             match find_index (t_indexes ct) (i_name i) with
             | None => Ok [verbatim d]
             | Some ci => if are_same_indexes ci i then Ok []
                          else Ok [stmt_drop_index m n (i_name ci); verbatim d]
             end
         end; Ok (g1, o)) /\
                  sim tables views triggers (l ++ [d]) g1
  else exists e, step_index m n i d g = Err e.
Proof.
  intros Hsim Hnl Hd.
  pose proof (sim_ord _ _ _ _ _ Hsim) as Ho.
  pose proof (sim_find _ _ _ _ _ n Hsim) as Hfind.
  assert (Hgrow : schema (l ++ [d]) = update_table (add_index_to i) n (schema l)) by (apply schema_snoc_index; eauto).
  unfold step_index.
  destruct (mem n (created l)) eqn:Em; cbn [andb].
  2:{ destruct (find_table (g_cur g) n) as [ct'|]; [|eexists; reflexivity].
      assert (Hs : find_table (g_des g) n = None).
      { rewrite (sim_des _ _ _ _ _ Hsim). apply find_table_none. rewrite schema_names. now apply mem_false. }
      rewrite Hs. destruct (find_index (t_indexes ct') (i_name i)) as [ci|]; [destruct (are_same_indexes ci i)|]; eexists; reflexivity. }
  assert (Hin : In n (created l)) by now apply mem_spec.
  destruct (proj1 (find_schema_created l n) Hin) as [dt Hdt].
  destruct (find_table (g_cur g) n) as [ct'|] eqn:Ec; [|tauto].
  rewrite (sim_des _ _ _ _ _ Hsim), Hdt, contains_string_mem.
  destruct (schema_index_names l n dt Hnl Hdt) as [Hin1 [Hin2 Hin3]]. rewrite Hin1.
  destruct (mem (i_name i) (index_names_of n l)) eqn:Ei; cbn [negb].
  { destruct (find_index (t_indexes ct') (i_name i)) as [ci|]; [destruct (are_same_indexes ci i)|]; eexists; reflexivity. }
  assert (Hcn : t_name ct' = n) by (apply find_table_some in Ec; tauto).
  assert (Hlook : find_index (t_indexes ct') (i_name i) =
                  match find_table tables n with Some ct => find_index (t_indexes ct) (i_name i) | None => None end).
  { assert (Hni : ~ In (i_name i) (index_names (t_indexes dt))) by (rewrite Hin1; now apply mem_false).
    destruct Hfind as [[ct [Hct He]]|[Hct [_ He]]]; rewrite Hct.
    - pose proof (find_table_some _ _ _ Hct) as [_ Hcn'].
      destruct He as [_ He]. rewrite Hcn', Hdt in He. destruct He as [_ [He _]].
      unfold find_index. rewrite (find_out i_name _ _ _ Hni), He, <- (find_out i_name _ _ _ Hni). reflexivity.
    - destruct He as [_ He]. simpl in He. rewrite Hdt in He. destruct He as [_ [He _]].
      unfold find_index. rewrite (find_out i_name _ _ _ Hni), He. reflexivity. }
  assert (Hframe : forall cur', Forall2 (evolved (l ++ [d])) (tables ++ map blank (new_names tables l)) cur' ->
            sim tables views triggers (l ++ [d])
              (set_des (update_table (fun t => set_indexes (t_indexes t ++ [i]) t) n (schema l)) (set_cur cur' g))).
  { intros cur' H. constructor; simpl; try apply Hsim.
    - now rewrite Hgrow.
    - rewrite views_snoc. destruct Hd as [s [-> | ->]]; rewrite app_nil_r; apply Hsim.
    - rewrite new_names_snoc. destruct Hd as [s [-> | ->]]; rewrite app_nil_r; exact H.
    - apply ordered_snoc; [assumption|]. destruct Hd as [s [-> | ->]]; assumption.
    - apply marks_snoc; [apply Hsim|]. destruct Hd as [s [-> | ->]]; discriminate. }
  assert (Hkeep : forall x y, evolved l x y -> evolved (l ++ [d]) x y).
  { intros x y. apply (evolved_grow l _ (add_index_to i) n); auto. intros t. apply grow_index. }
  assert (Hupd : forall h, (forall y, t_columns (h y) = t_columns y /\ t_fks (h y) = t_fks y /\ t_policies (h y) = t_policies y /\ t_name (h y) = t_name y /\
                     forall K, In (i_name i) K -> out i_name K (t_indexes (h y)) = out i_name K (t_indexes y)) ->
            Forall2 (evolved (l ++ [d])) (tables ++ map blank (new_names tables l)) (update_table h n (g_cur g))).
  { intros h Hh. apply (evolved_update l); [apply Hsim|apply Hkeep|].
    intros x y Hxy Hy. pose proof (Hkeep x y Hxy) as [Hk1 Hk2]. destruct (Hh y) as [E1 [E2 [E3 [E4 E5]]]].
    split; [congruence|]. rewrite Hgrow, find_update in * by reflexivity.
    rewrite <- Hk1, Hy, String.eqb_refl, Hdt in *. simpl in *.
    destruct Hk2 as [F1 [F2 [F3 F4]]]. simpl in *. repeat split; simpl; rewrite ?E1, ?E2, ?E3; auto.
    rewrite E5; [exact F2|]. unfold index_names. rewrite map_app. apply in_or_app. right. now left. }
  rewrite Hlook. destruct (find_table tables n) as [ct|].
  + destruct (find_index (t_indexes ct) (i_name i)) as [ci|].
    * destruct (are_same_indexes ci i).
      -- eexists. split; [reflexivity|]. apply Hframe. apply (evolved_keep l); [apply Hsim|apply Hkeep].
      -- eexists. split; [rewrite Hcn; reflexivity|]. apply Hframe. apply Hupd. intros y. repeat split.
         intros K HK. simpl. now apply out_replace.
    * eexists. split; [reflexivity|]. apply Hframe. apply Hupd. intros y. repeat split. intros K HK. simpl.
      rewrite out_app. rewrite (out_all i_name K [i]); [apply app_nil_r|]. now intros x [<-|[]].
  + eexists. split; [reflexivity|]. apply Hframe. apply Hupd. intros y. repeat split. intros K HK. simpl.
    rewrite out_app. rewrite (out_all i_name K [i]); [apply app_nil_r|]. now intros x [<-|[]].
Qed.

(** The effect on the state of one accepted statement. *)
Lemma step_sim m tables views triggers l g d :
  sim tables views triggers l g -> NoDup (created (l ++ [d])) ->
  if may_follow l d
  then exists g1, step m g d = (do o <- local m tables views triggers d; Ok (g1, o)) /\
                  sim tables views triggers (l ++ [d]) g1
  else exists e, step m g d = Err e.
Proof.
  intros Hsim Hnd.
  assert (Hnl : NoDup (created l)) by (exact (NoDup_created_prefix _ _ Hnd)).
  pose proof (sim_ord _ _ _ _ _ Hsim) as Ho.
  destruct d as [s t|s n i|s n i|s n i|s n f|s n p|v|t]; cbn [may_follow].
  - (* CREATE TABLE *)
    assert (Hf : ~ In (t_name t) (created l)).
    { rewrite created_app in Hnd. simpl in Hnd. apply NoDup_remove_2 in Hnd. now rewrite app_nil_r in Hnd. }
    assert (Hschema : find_table (schema l) (t_name t) = None) by (apply find_table_none; now rewrite schema_names).
    pose proof (sim_find _ _ _ _ _ (t_name t) Hsim) as Hfind. simpl. unfold step_create_table.
    destruct (find_table (g_cur g) (t_name t)) as [ct'|] eqn:Ec.
    + destruct Hfind as [[ct [Hct He]]|[_ [Hbad _]]]; [|tauto]. rewrite Hct.
      assert (ct' = ct).
      { destruct He as [_ He]. pose proof (find_table_some _ _ _ Hct) as [_ Hcn']. now rewrite Hcn', Hschema in He. }
      subst ct'. exists (set_des (g_des g ++ [t]) (set_cur (update_table (fun x => merge_table x t) (t_name t) (g_cur g)) g)).
      split; [destruct (ddls_for_create_table m ct t); reflexivity|].
      constructor; simpl; try apply Hsim.
      * rewrite (sim_des _ _ _ _ _ Hsim). now rewrite schema_snoc_create.
      * rewrite views_snoc, app_nil_r. apply Hsim.
      * rewrite new_names_snoc.
        assert (Hm : mem (t_name t) (map t_name tables) = true).
        { apply mem_spec. apply find_table_some in Hct. destruct Hct as [Hct <-]. now apply in_map. }
        rewrite Hm, app_nil_r. apply (evolved_update l); [apply Hsim| |].
        -- intros x y. now apply evolved_create.
        -- intros x y [Hxy Hev] Hy. split; [simpl; assumption|]. rewrite schema_snoc_create, find_table_app by assumption.
           rewrite <- Hxy, Hy. rewrite <- Hxy, Hy, Hschema in Hev. subst y. rewrite Hschema. unfold find_table. simpl.
           rewrite String.eqb_refl. apply merge_same_outside.
      * apply ordered_snoc; auto.
      * apply marks_snoc; [apply Hsim|discriminate].
    + destruct Hfind as [Hct _]. rewrite Hct.
      eexists. split; [reflexivity|]. constructor; simpl; try apply Hsim.
      * rewrite (sim_des _ _ _ _ _ Hsim). now rewrite schema_snoc_create.
      * rewrite views_snoc, app_nil_r. apply Hsim.
      * rewrite new_names_snoc.
        assert (Hm : mem (t_name t) (map t_name tables) = false).
        { apply mem_false. now apply find_table_none. }
        rewrite Hm, map_app, app_assoc. apply Forall2_app.
        -- apply (evolved_keep l); [apply Hsim|]. intros x y. now apply evolved_create.
        -- repeat constructor. simpl. rewrite schema_snoc_create, find_table_app by assumption. rewrite Hschema.
           unfold find_table. simpl. rewrite String.eqb_refl.
           repeat split; simpl; apply out_all; intros x Hx; now apply in_map.
      * apply ordered_snoc; auto.
      * apply marks_snoc; [apply Hsim|discriminate].
  - (* CREATE INDEX *) apply (step_index_sim m tables views triggers l g); eauto.
  - (* ALTER TABLE ADD INDEX *) apply (step_index_sim m tables views triggers l g); eauto.
  - (* ALTER TABLE ADD PRIMARY KEY *) eexists; reflexivity.
  - (* ALTER TABLE ADD FOREIGN KEY *)
    cbn [step local]. unfold step_fk. rewrite (sim_des _ _ _ _ _ Hsim).
    destruct (mem n (created l)) eqn:Em; cbn [andb].
    2:{ assert (Hs : find_table (schema l) n = None).
        { apply find_table_none. rewrite schema_names. now apply mem_false. }
        rewrite Hs. eexists; reflexivity. }
    assert (Hin : In n (created l)) by now apply mem_spec.
    destruct (proj1 (find_schema_created l n) Hin) as [dt Hdt]. rewrite Hdt.
    destruct (schema_index_names l n dt Hnl Hdt) as [_ [Hin2 _]]. rewrite contains_string_mem, Hin2.
    destruct (mem (fk_constraint f) (fk_names_of n l)); cbn [negb]; [eexists; reflexivity|].
    eexists. split; [reflexivity|]. constructor; simpl; try apply Hsim.
    + now rewrite (schema_snoc_fk l s n f Hnl).
    + rewrite views_snoc, app_nil_r. apply Hsim.
    + rewrite new_names_snoc, app_nil_r. apply (evolved_keep l); [apply Hsim|].
      intros x y. apply (evolved_grow l _ (add_fk_to f) n); auto; [now apply schema_snoc_fk|]. intros t. apply grow_fk.
    + apply ordered_snoc; auto.
    + apply marks_snoc; [apply Hsim|discriminate].
  - (* CREATE POLICY *)
    pose proof (sim_find _ _ _ _ _ n Hsim) as Hfind.
    assert (Hgrow : schema (l ++ [AddPolicy s n p]) = update_table (add_policy_to p) n (schema l)) by (now apply schema_snoc_policy).
    cbn [step local]. unfold step_policy.
    destruct (mem n (created l)) eqn:Em; cbn [andb].
    2:{ destruct (find_table (g_cur g) n) as [ct'|]; [|eexists; reflexivity].
        assert (Hs : find_table (g_des g) n = None).
        { rewrite (sim_des _ _ _ _ _ Hsim). apply find_table_none. rewrite schema_names. now apply mem_false. }
        rewrite Hs. destruct (find_policy (t_policies ct') (p_name p)) as [cp|]; [destruct (are_same_policies cp p)|]; eexists; reflexivity. }
    assert (Hin : In n (created l)) by now apply mem_spec.
    destruct (proj1 (find_schema_created l n) Hin) as [dt Hdt].
    destruct (find_table (g_cur g) n) as [ct'|] eqn:Ec; [|tauto].
    rewrite (sim_des _ _ _ _ _ Hsim), Hdt, contains_string_mem.
    destruct (schema_index_names l n dt Hnl Hdt) as [Hin1 [Hin2 Hin3]]. rewrite Hin3.
    destruct (mem (p_name p) (policy_names_of n l)) eqn:Ei; cbn [negb].
    { destruct (find_policy (t_policies ct') (p_name p)) as [cp|]; [destruct (are_same_policies cp p)|]; eexists; reflexivity. }
    assert (Hcn : t_name ct' = n) by (apply find_table_some in Ec; tauto).
    assert (Hlook : find_policy (t_policies ct') (p_name p) =
                    match find_table tables n with Some ct => find_policy (t_policies ct) (p_name p) | None => None end).
    { assert (Hni : ~ In (p_name p) (policy_names (t_policies dt))) by (rewrite Hin3; now apply mem_false).
      destruct Hfind as [[ct [Hct He]]|[Hct [_ He]]]; rewrite Hct.
      - pose proof (find_table_some _ _ _ Hct) as [_ Hcn'].
        destruct He as [_ He]. rewrite Hcn', Hdt in He. destruct He as [_ [_ [_ He]]].
        unfold find_policy. rewrite (find_out p_name _ _ _ Hni), He, <- (find_out p_name _ _ _ Hni). reflexivity.
      - destruct He as [_ He]. simpl in He. rewrite Hdt in He. destruct He as [_ [_ [_ He]]].
        unfold find_policy. rewrite (find_out p_name _ _ _ Hni), He. reflexivity. }
    assert (Hframe : forall cur', Forall2 (evolved (l ++ [AddPolicy s n p])) (tables ++ map blank (new_names tables l)) cur' ->
              sim tables views triggers (l ++ [AddPolicy s n p])
                (set_des (update_table (fun t => set_policies (t_policies t ++ [p]) t) n (schema l)) (set_cur cur' g))).
    { intros cur' H. constructor; simpl; try apply Hsim.
      - now rewrite Hgrow.
      - rewrite views_snoc, app_nil_r. apply Hsim.
      - rewrite new_names_snoc, app_nil_r. exact H.
      - apply ordered_snoc; auto.
      - apply marks_snoc; [apply Hsim|discriminate]. }
    assert (Hkeep : forall x y, evolved l x y -> evolved (l ++ [AddPolicy s n p]) x y).
    { intros x y. apply (evolved_grow l _ (add_policy_to p) n); auto. intros t. apply grow_policy. }
    assert (Hupd : Forall2 (evolved (l ++ [AddPolicy s n p])) (tables ++ map blank (new_names tables l))
                      (update_table (fun t => set_policies (t_policies t ++ [p]) t) n (g_cur g))).
    { apply (evolved_update l); [apply Hsim|apply Hkeep|].
      intros x y Hxy Hy. pose proof (Hkeep x y Hxy) as [Hk1 Hk2].
      split; [assumption|]. rewrite Hgrow, find_update in * by reflexivity.
      rewrite <- Hk1, Hy, String.eqb_refl, Hdt in *. simpl in *.
      destruct Hk2 as [F1 [F2 [F3 F4]]]. simpl in *. repeat split; simpl; auto.
      rewrite out_app, F4. rewrite (out_all p_name _ [p]); [apply app_nil_r|]. intros q [<-|[]].
      unfold policy_names. rewrite map_app. apply in_or_app. right. now left. }
    rewrite Hlook. destruct (find_table tables n) as [ct|].
    + destruct (find_policy (t_policies ct) (p_name p)) as [cp|].
      * destruct (are_same_policies cp p); (eexists; split; [rewrite ?Hcn; reflexivity|]); apply Hframe;
          (apply (evolved_keep l); [apply Hsim|apply Hkeep]).
      * eexists. split; [reflexivity|]. now apply Hframe.
    + eexists. split; [reflexivity|]. now apply Hframe.
  - (* CREATE VIEW *)
    cbn [step local]. unfold step_view.
    rewrite (sim_dviews _ _ _ _ _ Hsim), (sim_cviews _ _ _ _ _ Hsim), contains_string_mem. unfold view_names.
    destruct (mem (vw_name v) (map vw_name (views_in l))); cbn [negb]; [eexists; reflexivity|].
    eexists. split; [reflexivity|]. constructor; simpl; try apply Hsim.
    + rewrite (sim_des _ _ _ _ _ Hsim). symmetry. apply schema_snoc_neutral. eauto.
    + now rewrite views_snoc.
    + rewrite new_names_snoc, app_nil_r. apply (evolved_keep l); [apply Hsim|]. unfold evolved.
      rewrite schema_snoc_neutral by eauto. auto.
    + apply ordered_snoc; auto.
    + apply marks_snoc; [apply Hsim|discriminate].
  - (* CREATE TRIGGER *)
    cbn [step local]. unfold step_trigger. rewrite (sim_ctrig _ _ _ _ _ Hsim).
    assert (Hsim' : sim tables views triggers (l ++ [DTrigger t]) g).
    { constructor; simpl; try apply Hsim.
      + rewrite (sim_des _ _ _ _ _ Hsim). symmetry. apply schema_snoc_neutral. eauto.
      + rewrite views_snoc, app_nil_r. apply Hsim.
      + rewrite new_names_snoc, app_nil_r. apply (evolved_keep l); [apply Hsim|]. unfold evolved.
        rewrite schema_snoc_neutral by eauto. auto.
      + apply ordered_snoc; auto.
      + apply marks_snoc; [apply Hsim|discriminate]. }
    destruct (trigger_definition m t) as [def|].
    + eexists. split; [reflexivity|]. destruct Hsim'. constructor; assumption.
    + eexists. split; [reflexivity|]. exact Hsim'.
Qed.

Lemma steps_sim m tables views triggers l2 : forall l g,
  sim tables views triggers l g -> NoDup (created (l ++ l2)) ->
  if well_formed_after l l2
  then exists g', steps m g l2 = (do o <- concat_map (local m tables views triggers) l2; Ok (g', o)) /\
                  sim tables views triggers (l ++ l2) g'
  else (forall r, steps m g l2 <> Ok r) /\
       ((forall d, In d l2 -> local m tables views triggers d <> Panic /\ local m tables views triggers d <> Fatal) ->
        exists e, steps m g l2 = Err e).
Proof.
  induction l2 as [|d l2 IH]; intros l g Hs Hn; simpl.
  { exists g. rewrite app_nil_r. split; [reflexivity|assumption]. }
  rewrite (snoc_app l d l2) in Hn |- *.
  pose proof (step_sim m tables views triggers l g d Hs (NoDup_created_prefix _ _ Hn)) as Hd.
  destruct (may_follow l d) eqn:E; cbn [andb].
  - destruct Hd as [g1 [Hstep Hs1]]. specialize (IH _ _ Hs1 Hn).
    destruct (well_formed_after (l ++ [d]) l2).
    + destruct IH as [g' [Hst Hsim]]. exists g'. split; [|assumption]. rewrite Hstep.
      destruct (local m tables views triggers d); simpl; try reflexivity. rewrite Hst.
      destruct (concat_map (local m tables views triggers) l2); reflexivity.
    + destruct IH as [H1 H2]. rewrite Hstep. split.
      * intros r. destruct (local m tables views triggers d); simpl; try discriminate.
        destruct (steps m g1 l2) as [[g2 b]| | |] eqn:Es; simpl; try discriminate. now destruct (H1 (g2, b)).
      * intros H. destruct H2 as [e He]; [intros d' Hd'; apply H; now right|].
        destruct (H d (or_introl eq_refl)) as [Hp Hf].
        destruct (local m tables views triggers d) as [o|e'| |]; simpl; try congruence; [|eauto].
        rewrite He. simpl. eauto.
  - destruct Hd as [e He]. rewrite He. simpl. split; [discriminate|eauto].
Qed.

(** ** Clean-up *)
Lemma flat_map_out {A B} (nm : A -> string) K (h : A -> list B) l :
  flat_map (fun x => if contains_string K (nm x) then [] else h x) l = flat_map h (out nm K l).
Proof.
  unfold out. induction l as [|x l IH]; simpl; [reflexivity|]. rewrite contains_string_mem.
  destruct (mem (nm x) K); simpl; rewrite IH; reflexivity.
Qed.

Lemma concat_map_out {A B} (nm : A -> string) K (h : A -> res (list B)) l :
  (forall x, In (nm x) K -> h x = Ok []) -> concat_map h l = concat_map h (out nm K l).
Proof.
  intros H. unfold out. induction l as [|x l IH]; simpl; [reflexivity|].
  destruct (mem (nm x) K) eqn:E; simpl.
  - apply mem_spec in E. rewrite (H x E). simpl. rewrite <- IH. destruct (concat_map h l); reflexivity.
  - rewrite IH. reflexivity.
Qed.

Lemma concat_map_ext {A B} (f g : A -> res (list B)) l : (forall x, In x l -> f x = g x) -> concat_map f l = concat_map g l.
Proof.
  induction l as [|x l IH]; simpl; intros H; [reflexivity|]. rewrite (H x) by now left. rewrite IH by auto. reflexivity.
Qed.

Lemma flat_map_ext_in {A B} (f g : A -> list B) l : (forall x, In x l -> f x = g x) -> flat_map f l = flat_map g l.
Proof.
  induction l as [|x l IH]; simpl; intros H; [reflexivity|]. rewrite (H x) by now left. rewrite IH by auto. reflexivity.
Qed.

Lemma absent_column_same m dt ct ct' n :
  same_outside dt ct ct' -> t_name ct' = t_name ct -> ~ In n (column_names (t_columns dt)) ->
  absent_column m ct' n = absent_column m ct n.
Proof.
  intros [H _] Hn Hc. unfold absent_column. rewrite Hn. destruct m; try reflexivity. f_equal.
  set (h := fun c : column => _).
  assert (Hh : forall c, In (c_name c) (column_names (t_columns dt)) -> h c = []).
  { intros c Hi. unfold h. destruct (c_default c) as [d|]; [|reflexivity].
    destruct (String.eqb (c_name c) n) eqn:E; [|reflexivity]. apply String.eqb_eq in E. subst n. tauto. }
  assert (Hflat : forall l, flat_map h l = flat_map h (out c_name (column_names (t_columns dt)) l)).
  { intros l. unfold out. induction l as [|x l IH]; simpl; [reflexivity|].
    destruct (mem (c_name x) (column_names (t_columns dt))) eqn:E; simpl.
    - apply mem_spec in E. rewrite (Hh x E). exact IH.
    - now rewrite IH. }
  rewrite (Hflat (t_columns ct')), (Hflat (t_columns ct)), H. reflexivity.
Qed.

Lemma cleanup_kept_same m dt ct ct' :
  same_outside dt ct ct' -> t_name ct' = t_name ct -> cleanup_kept m ct' dt = cleanup_kept m ct dt.
Proof.
  intros Hs Hn. pose proof Hs as [H1 [H2 [H3 H4]]]. unfold cleanup_kept.
  assert (E2 : cleanup_indexes m ct' dt = cleanup_indexes m ct dt).
  { unfold cleanup_indexes.
    rewrite (concat_map_out i_name (index_names (t_indexes dt)) _ (t_indexes ct')).
    rewrite (concat_map_out i_name (index_names (t_indexes dt)) _ (t_indexes ct)).
    - rewrite H2. apply concat_map_ext. intros x _. unfold absent_index. now rewrite Hn.
    - intros x Hx. apply contains_string_spec in Hx. now rewrite Hx.
    - intros x Hx. apply contains_string_spec in Hx. now rewrite Hx. }
  rewrite E2. destruct (cleanup_indexes m ct dt); simpl; try reflexivity. f_equal. f_equal.
  { unfold cleanup_fks. rewrite !flat_map_out, H3. apply flat_map_ext. intros f. unfold absent_fk. now rewrite Hn. }
  f_equal. f_equal.
  { unfold cleanup_columns.
    rewrite (flat_map_out c_name (column_names (t_columns dt)) (fun c => absent_column m ct' (c_name c))).
    rewrite (flat_map_out c_name (column_names (t_columns dt)) (fun c => absent_column m ct (c_name c))).
    rewrite H1.
    assert (Hin : forall c, In c (out c_name (column_names (t_columns dt)) (t_columns ct)) -> ~ In (c_name c) (column_names (t_columns dt))).
    { intros c Hc. unfold out in Hc. apply filter_In in Hc. destruct Hc as [_ Hc]. apply negb_true_iff in Hc. now apply mem_false. }
    apply flat_map_ext_in. intros c Hc. apply (absent_column_same m dt ct ct'); auto. }
  { unfold cleanup_policies.
    rewrite (flat_map_out p_name (policy_names (t_policies dt)) (fun p => [stmt_drop_policy m (p_name p) (t_name ct')])).
    rewrite (flat_map_out p_name (policy_names (t_policies dt)) (fun p => [stmt_drop_policy m (p_name p) (t_name ct)])).
    now rewrite H4, Hn. }
Qed.

Definition same_live (des : list table) (a b : list table) : Prop :=
  forall n, find_table des n = None -> (In n (map t_name a) <-> In n (map t_name b)).

Lemma remove_table_spec n l :
  remove_table n l = if mem n (map t_name l) then Some (filter (fun t => negb (String.eqb n (t_name t))) l) else None.
Proof.
  unfold remove_table. replace (existsb (fun t => String.eqb n (t_name t)) l) with (mem n (map t_name l)); [reflexivity|].
  unfold mem. induction l as [|t l IH]; simpl; [reflexivity|]. now rewrite IH.
Qed.

Lemma in_filter_names n k l : In k (map t_name (filter (fun t => negb (String.eqb n (t_name t))) l)) <-> In k (map t_name l) /\ k <> n.
Proof.
  rewrite !in_map_iff. split.
  - intros [t [<- H]]. apply filter_In in H. destruct H as [H1 H2]. apply negb_true_iff, String.eqb_neq in H2.
    split; [eauto|]. congruence.
  - intros [[t [<- H]] Hk]. exists t. split; [reflexivity|]. apply filter_In. split; [assumption|].
    apply negb_true_iff, String.eqb_neq. congruence.
Qed.

Lemma cleanup_tables_sim m l a b : Forall2 (evolved l) a b -> forall live_a live_b,
  same_live (schema l) live_a live_b ->
  cleanup_tables m (schema l) live_b b = cleanup_tables m (schema l) live_a a.
Proof.
  induction 1 as [|x y a b [Hxy Hev] Hab IH]; intros la lb Hl; simpl; [reflexivity|].
  rewrite Hxy. destruct (find_table (schema l) (t_name x)) as [dt|] eqn:E.
  - rewrite (cleanup_kept_same m dt x y Hev Hxy). now rewrite (IH la lb Hl).
  - rewrite !remove_table_spec.
    assert (Hm : mem (t_name x) (map t_name lb) = mem (t_name x) (map t_name la)).
    { specialize (Hl _ E). destruct (mem (t_name x) (map t_name lb)) eqn:Eb; symmetry.
      - apply mem_spec, Hl, mem_spec. assumption.
      - apply mem_false. apply mem_false in Eb. tauto. }
    rewrite Hm. destruct (mem (t_name x) (map t_name la)); [|reflexivity].
    erewrite IH; [reflexivity|]. intros n Hn. rewrite !in_filter_names. rewrite (Hl n Hn). tauto.
Qed.

Lemma cleanup_kept_blank m n dt : cleanup_kept m (blank n) dt = Ok [].
Proof. reflexivity. Qed.

Lemma cleanup_tables_blanks m des ns : (forall n, In n ns -> exists dt, find_table des n = Some dt) ->
  forall l live, cleanup_tables m des live (l ++ map blank ns) = cleanup_tables m des live l.
Proof.
  intros H. induction l as [|t l IH]; intros live; simpl.
  - induction ns as [|n ns IHn]; [reflexivity|].
    destruct (H n (or_introl eq_refl)) as [dt Hdt]. cbn [map cleanup_tables]. change (t_name (blank n)) with n.
    rewrite Hdt, cleanup_kept_blank. cbn [bind].
    rewrite IHn; [reflexivity|]. intros k Hk. apply H. now right.
  - destruct (find_table des (t_name t)); rewrite ?IH; [reflexivity|].
    destruct (remove_table (t_name t) live); [now rewrite IH|reflexivity].
Qed.

Lemma cleanup_sim m tables views triggers l g : sim tables views triggers l g ->
  cleanup_tables m (g_des g) (g_cur g) (g_cur g) = cleanup_tables m (schema l) tables tables.
Proof.
  intros H. rewrite (sim_des _ _ _ _ _ H).
  rewrite (cleanup_tables_sim m l _ _ (sim_cur _ _ _ _ _ H) tables).
  - apply cleanup_tables_blanks. intros n Hn. unfold new_names in Hn. apply filter_In in Hn.
    now apply find_schema_created.
  - intros n Hn. rewrite (evolved_names _ _ _ (sim_cur _ _ _ _ _ H)), map_app, in_app_iff.
    split; [auto|]. intros [Hi|Hi]; [assumption|]. apply new_names_not_created in Hi.
    apply find_schema_created in Hi. destruct Hi as [dt Hd]. congruence.
Qed.

Lemma sim_init tables current : sim tables (views_in current) (triggers_in current) [] (init_state tables current).
Proof.
  constructor; try reflexivity.
  - simpl. rewrite app_nil_r. induction tables; constructor; auto. split; [reflexivity|]. reflexivity.
  - apply ordered_nil.
Qed.

(** ** The whole plan *)
Definition obsolete_views (m : mode) (desired : list ddl) (current : list view) : list stmt :=
  flat_map (fun v => if mem (vw_name v) (map vw_name (views_in desired)) then []
                     else [stmt_drop_view m (vw_name v)]) current.

Lemma plan_eq m desired current tables :
  NoDup (created desired) -> well_formed desired = true ->
  convert_ddls_to_tables current = Ok tables ->
  plan m desired current =
    (do a <- concat_map (local m tables (views_in current) (triggers_in current)) desired;
     do b <- cleanup_tables m (schema desired) tables tables;
     Ok (a ++ b ++ obsolete_views m desired (views_in current))).
Proof.
  intros Hn Hw Hc. unfold plan. rewrite Hc. cbn [bind]. unfold generate_ddls.
  pose proof (steps_sim m tables (views_in current) (triggers_in current) desired [] _ (sim_init tables current) Hn) as H.
  unfold well_formed in Hw. rewrite Hw in H. destruct H as [g' [Hst Hsim]]. rewrite Hst. simpl app in Hsim.
  destruct (concat_map (local m tables (views_in current) (triggers_in current)) desired) as [a| | |]; try reflexivity.
  cbn [bind]. rewrite (cleanup_sim _ _ _ _ _ _ Hsim).
  destruct (cleanup_tables m (schema desired) tables tables); try reflexivity. cbn [bind]. do 3 f_equal.
  unfold cleanup_views, obsolete_views. rewrite (sim_cviews _ _ _ _ _ Hsim), (sim_dviews _ _ _ _ _ Hsim).
  apply flat_map_ext. intros v. now rewrite contains_string_mem.
Qed.

Lemma plan_ill_formed m desired current :
  NoDup (created desired) -> well_formed desired = false -> forall r, plan m desired current <> Ok r.
Proof.
  intros Hn Hw r. unfold plan. destruct (convert_ddls_to_tables current) as [tables| | |]; try discriminate.
  cbn [bind]. unfold generate_ddls.
  pose proof (steps_sim m tables (views_in current) (triggers_in current) desired [] _ (sim_init tables current) Hn) as H.
  unfold well_formed in Hw. rewrite Hw in H. destruct H as [H _].
  destruct (steps m (init_state tables current) desired) as [[g a]| | |] eqn:E; try discriminate.
  now destruct (H (g, a)).
Qed.

Lemma plan_ok_inv m desired current r :
  NoDup (created desired) -> plan m desired current = Ok r ->
  well_formed desired = true /\
  exists tables a b, convert_ddls_to_tables current = Ok tables /\
    concat_map (local m tables (views_in current) (triggers_in current)) desired = Ok a /\
    cleanup_tables m (schema desired) tables tables = Ok b /\
    r = a ++ b ++ obsolete_views m desired (views_in current).
Proof.
  intros Hn Hp. destruct (well_formed desired) eqn:Hw.
  2:{ now destruct (plan_ill_formed m desired current Hn Hw r). }
  split; [reflexivity|].
  destruct (convert_ddls_to_tables current) as [tables| | |] eqn:Hc.
  2-4: unfold plan in Hp; rewrite Hc in Hp; discriminate.
  rewrite (plan_eq m desired current tables Hn Hw Hc) in Hp. exists tables.
  destruct (concat_map (local m tables (views_in current) (triggers_in current)) desired) as [a| | |]; try discriminate.
  simpl in Hp. destruct (cleanup_tables m (schema desired) tables tables) as [b| | |]; try discriminate.
  simpl in Hp. injection Hp as <-. exists a, b. auto.
Qed.
