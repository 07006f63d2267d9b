(** One run on an ideal PostgreSQL: foreign keys, indexes, policies and what is obsolete. *)
From Coq Require Import String Ascii List ZArith Bool Lia.
From Verif Require Import GoStr GoStrFacts Ast Generator SpecPlan ProofPlan ProofSteps ProofTables ProofCompare ProofSelf SpecColumns
  ProofColumns SpecOrder ProofOrder SpecMysql ProofMysql ProofConverge ProofSettle SpecDatabase ProofDatabase SpecPostgres SpecConvergePg
  ProofPg ProofPgDump ProofPgColumn ProofPgKept.
Import ListNotations.
Local Open Scope string_scope.
Local Open Scope list_scope.

Section Parts.
Variable castable : column -> column -> bool.
Notation run := (alters (pg_alter castable)).

(** ** CREATE INDEX and CREATE POLICY *)
Lemma indexes_on_cons n d r : indexes_on n (d :: r) = indexes_on n [d] ++ indexes_on n r.
Proof. unfold indexes_on. cbn [flat_map]. now rewrite app_nil_r. Qed.
Lemma policies_on_cons n d r : policies_on n (d :: r) = policies_on n [d] ++ policies_on n r.
Proof. unfold policies_on. cbn [flat_map]. now rewrite app_nil_r. Qed.

Definition index_fits (g : pg_tab) (i : index) : Prop :=
  index_name_ok (i_name i) /\ i_primary i = false /\ i_columns i <> [] /\ NoDup (map io_name (i_options i)) /\
  forall x, In x (index_columns i) -> In x (column_names_of g).

Lemma create_index_run q n i cur g : index_fits g i ->
  find_index (t_indexes cur) (i_name i) = named i_name (i_name i) (g_indexes g) ->
  (forall k, named i_name (i_name i) (g_indexes g) = Some k -> ~ index_matches k i -> is_public (g_name g) = true /\ ~ In (i_name k) (g_owned g)) ->
  (forall k ks, g_pk g = Some (k, ks) -> exists m, k = pkey_name m) ->
  exists il, run (standalone Postgres cur (CreateIndex q n i)) g = Some (with_idx il (g_owned g) g) /\
    (exists k, named i_name (i_name i) il = Some k /\ index_matches k i) /\
    forall x, x <> i_name i -> named i_name x il = named i_name x (g_indexes g).
Proof.
  intros (F1 & F2 & F3 & F4 & F5) Hf Hm Hpk. cbn [standalone]. rewrite Hf.
  assert (Hadd : forall L, named i_name (i_name i) L = None ->
     pg_alter castable (EffVerbatim (CreateIndex q n i)) (with_idx L (g_owned g) g) = Some (with_idx (L ++ [i]) (g_owned g) g)).
  { intros L HL. cbn [pg_alter]. unfold index_names_in, column_names_of. cbn [with_idx g_indexes g_pk g_columns]. rewrite (proj2 (mem_false_none i_name _ _) HL).
    assert (match g_pk g with Some (k, _) => String.eqb k (i_name i) | None => false end = false) as ->.
    { destruct (g_pk g) as [[k ks]|] eqn:E; [|reflexivity]. destruct (Hpk k ks eq_refl) as (m & ->). apply String.eqb_neq. intros X. symmetry in X. now apply (index_name_not_pkey (i_name i) m) in X. }
    rewrite F2. assert (Nat.eqb (length (i_columns i)) 0 = false) as -> by (destruct (i_columns i); [now destruct F3|reflexivity]).
    assert (all_in (index_columns i) (map c_name (g_columns g)) = true) as -> by (apply all_in_spec; exact F5). reflexivity. }
  assert (Hlast : forall L x, x <> i_name i -> named i_name x (L ++ [i]) = named i_name x L).
  { intros L x Hx. rewrite named_app. destruct (named i_name x L); [reflexivity|]. rewrite named_cons. destruct (String.eqb_spec (i_name i) x); [congruence|reflexivity]. }
  assert (Hhere : forall L, named i_name (i_name i) L = None -> exists k, named i_name (i_name i) (L ++ [i]) = Some k /\ index_matches k i).
  { intros L HL. exists i. rewrite named_app, HL, named_cons, String.eqb_refl. split; [reflexivity|now apply index_matches_refl]. }
  destruct (named i_name (i_name i) (g_indexes g)) as [k|] eqn:Ek.
  - destruct (are_same_indexes k i) eqn:Ea.
    + exists (g_indexes g). split; [now destruct g|]. split; [|reflexivity]. exists k. split; [exact Ek|now apply are_same_indexes_spec].
    + destruct (Hm k eq_refl) as [Hp Ho]. { rewrite <- are_same_indexes_spec. congruence. }
      apply named_some in Ek as Ek'. destruct Ek' as [Hk En]. exists (remove_named i_name (i_name i) (g_indexes g) ++ [i]).
      assert (Hnone : named i_name (i_name i) (remove_named i_name (i_name i) (g_indexes g)) = None) by (now rewrite named_remove, String.eqb_refl).
      split; [|split; [now apply Hhere|]].
      * cbn [alters stmt_drop_index s_eff verbatim]. cbn [pg_alter]. rewrite Hp. apply mem_not_in in Ho. rewrite Ho. assert (mem (i_name k) (index_names_in g) = true) as -> by (apply mem_in; now apply in_map).
        cbn [andb negb]. rewrite En. specialize (Hadd _ Hnone). cbn [pg_alter] in Hadd. rewrite Hadd. reflexivity.
      * intros x Hx. rewrite Hlast by assumption. rewrite named_remove. destruct (String.eqb_spec x (i_name i)); [congruence|reflexivity].
  - exists (g_indexes g ++ [i]). split; [|split; [now apply Hhere|intros x Hx; now apply Hlast]].
    cbn [alters verbatim s_eff]. assert (Eg : with_idx (g_indexes g) (g_owned g) g = g) by (now destruct g).
    specialize (Hadd (g_indexes g) Ek). rewrite Eg in Hadd. now rewrite Hadd.
Qed.

Lemma create_policy_run q n p cur g : find_policy (t_policies cur) (p_name p) = named p_name (p_name p) (g_policies g) ->
  exists pl, run (standalone Postgres cur (AddPolicy q n p)) g = Some (with_policies pl g) /\
    (exists p', named p_name (p_name p) pl = Some p' /\ (p' = p \/ (policy_matches p' p /\ named p_name (p_name p) (g_policies g) = Some p'))) /\
    forall x, x <> p_name p -> named p_name x pl = named p_name x (g_policies g).
Proof.
  intros Hf. cbn [standalone]. rewrite Hf.
  assert (Hadd : forall L, named p_name (p_name p) L = None ->
     pg_alter castable (EffVerbatim (AddPolicy q n p)) (with_policies L g) = Some (with_policies (L ++ [p]) g)).
  { intros L HL. cbn [pg_alter with_policies g_policies]. rewrite (proj2 (mem_false_none p_name _ _) HL). reflexivity. }
  assert (Hlast : forall L x, x <> p_name p -> named p_name x (L ++ [p]) = named p_name x L).
  { intros L x Hx. rewrite named_app. destruct (named p_name x L); [reflexivity|]. rewrite named_cons. destruct (String.eqb_spec (p_name p) x); [congruence|reflexivity]. }
  assert (Hhere : forall L, named p_name (p_name p) L = None -> named p_name (p_name p) (L ++ [p]) = Some p).
  { intros L HL. now rewrite named_app, HL, named_cons, String.eqb_refl. }
  destruct (named p_name (p_name p) (g_policies g)) as [k|] eqn:Ek.
  - destruct (are_same_policies k p) eqn:Ea.
    + exists (g_policies g). split; [now destruct g|]. split; [|reflexivity]. exists k. split; [exact Ek|]. right. split; [now apply are_same_policies_spec|reflexivity].
    + apply named_some in Ek as Ek'. destruct Ek' as [Hk En]. exists (remove_named p_name (p_name p) (g_policies g) ++ [p]).
      assert (Hnone : named p_name (p_name p) (remove_named p_name (p_name p) (g_policies g)) = None) by (now rewrite named_remove, String.eqb_refl).
      split; [|split; [exists p; split; [now apply Hhere|now left]|]].
      * cbn [alters stmt_drop_policy s_eff verbatim]. cbn [pg_alter]. assert (mem (p_name k) (map p_name (g_policies g)) = true) as -> by (apply mem_in; now apply in_map).
        rewrite En. specialize (Hadd _ Hnone). cbn [pg_alter] in Hadd. rewrite Hadd. reflexivity.
      * intros x Hx. rewrite Hlast by assumption. rewrite named_remove. destruct (String.eqb_spec x (p_name p)); [congruence|reflexivity].
  - exists (g_policies g ++ [p]). split; [|split; [exists p; split; [now apply Hhere|now left]|intros x Hx; now apply Hlast]].
    cbn [alters verbatim s_eff]. assert (Eg : with_policies (g_policies g) g = g) by (now destruct g).
    specialize (Hadd (g_policies g) Ek). rewrite Eg in Hadd. now rewrite Hadd.
Qed.

Lemma standalone_run n cur : forall r g,
  (forall d, In d r -> pg_statement d /\ ddl_table d = Some n) ->
  (forall i, In i (indexes_on n r) -> index_fits g i) ->
  NoDup (map i_name (indexes_on n r)) -> NoDup (map p_name (policies_on n r)) ->
  (forall i, In i (indexes_on n r) -> find_index (t_indexes cur) (i_name i) = named i_name (i_name i) (g_indexes g)) ->
  (forall i k, In i (indexes_on n r) -> named i_name (i_name i) (g_indexes g) = Some k -> ~ index_matches k i ->
     is_public (g_name g) = true /\ ~ In (i_name k) (g_owned g)) ->
  (forall p, In p (policies_on n r) -> find_policy (t_policies cur) (p_name p) = named p_name (p_name p) (g_policies g)) ->
  (forall k ks, g_pk g = Some (k, ks) -> exists m, k = pkey_name m) ->
  exists il pl, run (flat_map (standalone Postgres cur) r) g = Some (with_policies pl (with_idx il (g_owned g) g)) /\
    (forall i, In i (indexes_on n r) -> exists k, named i_name (i_name i) il = Some k /\ index_matches k i) /\
    (forall x, ~ In x (map i_name (indexes_on n r)) -> named i_name x il = named i_name x (g_indexes g)) /\
    (forall p, In p (policies_on n r) -> exists p', named p_name (p_name p) pl = Some p' /\
       (p' = p \/ (policy_matches p' p /\ named p_name (p_name p) (g_policies g) = Some p'))) /\
    (forall x, ~ In x (map p_name (policies_on n r)) -> named p_name x pl = named p_name x (g_policies g)).
Proof.
  induction r as [|d r IH]; intros g Hd Hfit Hni Hnp Hfi Hmi Hfp Hpk.
  - exists (g_indexes g), (g_policies g). cbn [flat_map alters]. split; [now destruct g|]. repeat split; try (intros ? []).
  - destruct (Hd d (or_introl eq_refl)) as [Hst Hdt]. rewrite indexes_on_cons in *. rewrite policies_on_cons in *.
    assert (Hskip : indexes_on n [d] = [] -> policies_on n [d] = [] -> standalone Postgres cur d = [] ->
      exists il pl, run (flat_map (standalone Postgres cur) (d :: r)) g = Some (with_policies pl (with_idx il (g_owned g) g)) /\
    (forall i, In i (indexes_on n [d] ++ indexes_on n r) -> exists k, named i_name (i_name i) il = Some k /\ index_matches k i) /\
    (forall x, ~ In x (map i_name (indexes_on n [d] ++ indexes_on n r)) -> named i_name x il = named i_name x (g_indexes g)) /\
    (forall p, In p (policies_on n [d] ++ policies_on n r) -> exists p', named p_name (p_name p) pl = Some p' /\
       (p' = p \/ (policy_matches p' p /\ named p_name (p_name p) (g_policies g) = Some p'))) /\
    (forall x, ~ In x (map p_name (policies_on n [d] ++ policies_on n r)) -> named p_name x pl = named p_name x (g_policies g))).
    { intros E1 E2 E3. rewrite E1, E2 in *. cbn [app] in *. cbn [flat_map]. rewrite E3. cbn [app]. apply IH; auto. intros x Hx. apply Hd. now right. }
    destruct d as [q t|q n' i|q n' i|q n' i|q n' f|q n' p|v|tr]; try (apply Hskip; reflexivity); try (destruct Hst; fail); cbn [ddl_table] in Hdt; injection Hdt as ->.
    + assert (E1 : indexes_on n [CreateIndex q n i] = [i]) by (cbn; now rewrite String.eqb_refl). rewrite E1 in *. cbn [app] in *.
      change (policies_on n [CreateIndex q n i]) with (@nil policy) in *. cbn [app] in *. clear Hskip.
      destruct (create_index_run q n i cur g) as (il1 & R1 & K1 & O1); [apply Hfit; now left|apply Hfi; now left|intros k; apply Hmi; now left|exact Hpk|].
      inversion Hni as [|? ? Hni1 Hni2]; subst.
      assert (Hother : forall j, In j (indexes_on n r) -> i_name j <> i_name i) by (intros j Hj E; apply Hni1; rewrite <- E; now apply in_map).
      destruct (IH (with_idx il1 (g_owned g) g)) as (il & pl & R2 & K2 & O2 & P2 & Q2).
      * intros x Hx. apply Hd. now right.
      * intros j Hj. apply Hfit. now right.
      * exact Hni2.
      * exact Hnp.
      * intros j Hj. cbn [with_idx g_indexes]. rewrite O1 by auto. apply Hfi. now right.
      * intros j k Hj. cbn [with_idx g_indexes g_name g_owned]. rewrite O1 by auto. apply Hmi. now right.
      * exact Hfp.
      * exact Hpk.
      * exists il, pl. cbn [flat_map]. rewrite alters_app, R1, R2. split; [reflexivity|]. split; [|split; [|split; [exact P2|exact Q2]]].
        -- intros j [<-|Hj]; [|now apply K2]. rewrite O2 by assumption. exact K1.
        -- cbn [map]. intros x Hx. rewrite O2 by (intros X; apply Hx; now right). cbn [with_idx g_indexes]. apply O1. intros ->. apply Hx. now left.
    + assert (E1 : policies_on n [AddPolicy q n p] = [p]) by (cbn; now rewrite String.eqb_refl). rewrite E1 in *. cbn [app] in *.
      change (indexes_on n [AddPolicy q n p]) with (@nil index) in *. cbn [app] in *. clear Hskip.
      destruct (create_policy_run q n p cur g) as (pl1 & R1 & K1 & O1); [apply Hfp; now left|].
      inversion Hnp as [|? ? Hnp1 Hnp2]; subst.
      assert (Hother : forall j, In j (policies_on n r) -> p_name j <> p_name p) by (intros j Hj E; apply Hnp1; rewrite <- E; now apply in_map).
      destruct (IH (with_policies pl1 g)) as (il & pl & R2 & K2 & O2 & P2 & Q2).
      * intros x Hx. apply Hd. now right.
      * exact Hfit.
      * exact Hni.
      * exact Hnp2.
      * exact Hfi.
      * exact Hmi.
      * intros j Hj. cbn [with_policies g_policies]. rewrite O1 by auto. apply Hfp. now right.
      * exact Hpk.
      * exists il, pl. cbn [flat_map]. rewrite alters_app, R1, R2. split; [reflexivity|]. split; [exact K2|]. split; [exact O2|]. split.
        -- intros j [<-|Hj]; [rewrite Q2 by assumption; exact K1|]. destruct (P2 j Hj) as (p' & Ep & X). exists p'. split; [exact Ep|]. destruct X as [X|[X Y]]; [now left|right].
           split; [exact X|]. cbn [with_policies g_policies] in Y. rewrite O1 in Y by auto. exact Y.
        -- cbn [map]. intros x Hx. rewrite Q2 by (intros X; apply Hx; now right). cbn [with_policies g_policies]. apply O1. intros ->. apply Hx. now left.
Qed.

Lemma policies_on_statements n r : policies_on n (statements_on n r) = policies_on n r.
Proof.
  unfold policies_on, statements_on. induction r as [|d r IH]; [reflexivity|]. cbn [filter].
  destruct d; cbn [ddl_table is_some_eqb];
    try (match goal with |- context [String.eqb ?x n] => destruct (String.eqb x n) eqn:E end; cbn [flat_map]; rewrite ?E; cbn [app]; (exact IH || (f_equal; exact IH))); exact IH.
Qed.

(** ** Objects that go *)
Lemma drops_run {A} (nm : A -> string) (mk : list A -> pg_tab) (stm : string -> stmt) (ok : string -> Prop) :
  (forall n L, In n (map nm L) -> ok n -> pg_alter castable (s_eff (stm n)) (mk L) = Some (mk (remove_named nm n L))) ->
  forall D L, NoDup D -> (forall n, In n D -> In n (map nm L) /\ ok n) ->
  run (map stm D) (mk L) = Some (mk (filter (fun x => negb (mem (nm x) D)) L)).
Proof.
  intros Hstep. induction D as [|n D IH]; intros L Hn HD.
  - cbn [map alters]. f_equal. f_equal. induction L as [|x L IL]; [reflexivity|]. cbn [filter mem existsb negb]. f_equal. apply IL. intros m [].
  - cbn [map alters]. inversion Hn as [|? ? Hn1 Hn2]; subst. destruct (HD n (or_introl eq_refl)) as [H1 H2]. rewrite (Hstep n L H1 H2). rewrite IH; [|exact Hn2|].
    + f_equal. f_equal. unfold remove_named. clear. induction L as [|x L IL]; [reflexivity|]. cbn [filter]. unfold mem in *. cbn [existsb].
      destruct (String.eqb (nm x) n); cbn [negb orb]; [exact IL|]. cbn [filter]. destruct (existsb (String.eqb (nm x)) D); cbn [negb]; [exact IL|now f_equal].
    + intros m Hm. destruct (HD m (or_intror Hm)) as [H3 H4]. split; [|exact H4]. rewrite names_remove. apply take_out_in. split; [exact H3|]. intros ->. contradiction.
Qed.

Lemma concat_map_drops {A} (f : A -> res (list stmt)) (gone : A -> bool) (nm : A -> string) (stm : string -> stmt) : forall L out,
  (forall k o, In k L -> f k = Ok o -> o = if gone k then [stm (nm k)] else []) -> concat_map f L = Ok out ->
  out = map stm (map nm (filter gone L)).
Proof.
  induction L as [|x L IH]; intros out H E; cbn [concat_map] in E; [now injection E as <-|].
  destruct (f x) as [a| | |] eqn:Ex; try discriminate. cbn [bind] in E. destruct (concat_map f L) as [b| | |] eqn:Eb; try discriminate. cbn [bind] in E. injection E as <-.
  rewrite (H x a (or_introl eq_refl) Ex), (IH b (fun k o Hk => H k o (or_intror Hk)) eq_refl). cbn [filter]. now destruct (gone x).
Qed.

Lemma flat_map_drops {A} (f : A -> list stmt) (gone : A -> bool) (nm : A -> string) (stm : string -> stmt) : forall L,
  (forall k, In k L -> f k = if gone k then [stm (nm k)] else []) -> flat_map f L = map stm (map nm (filter gone L)).
Proof.
  induction L as [|x L IH]; intros H; [reflexivity|]. cbn [flat_map filter]. rewrite (H x (or_introl eq_refl)), IH by (intros k Hk; apply H; now right). now destruct (gone x).
Qed.

Lemma named_filter {A} (nm : A -> string) (p : string -> bool) n L : named nm n (filter (fun x => p (nm x)) L) = if p n then named nm n L else None.
Proof.
  induction L as [|x L IH]; [now destruct (p n)|]. cbn [filter]. rewrite named_cons. destruct (String.eqb_spec (nm x) n) as [<-|N].
  - destruct (p (nm x)) eqn:E; [now rewrite named_cons, String.eqb_refl|]. rewrite IH. reflexivity.
  - destruct (p (nm x)); [rewrite named_cons; destruct (String.eqb_spec (nm x) n); [congruence|exact IH]|exact IH].
Qed.

(** Columns go with everything that is on them. *)
Definition touches (D cols : list string) : bool := existsb (fun n => mem n cols) D.

Lemma touches_spec D cols : touches D cols = true <-> exists n, In n D /\ In n cols.
Proof. unfold touches. rewrite existsb_exists. split; intros (n & H1 & H2); exists n; (split; [exact H1|]); now apply mem_in. Qed.

Lemma drop_columns_run (stm : string -> stmt) tbl : (forall n, s_eff (stm n) = EffDropColumn tbl n) -> forall D g,
  NoDup (index_names_in g) -> NoDup D -> (forall n, In n D -> In n (column_names_of g)) ->
  (forall k ks x, g_pk g = Some (k, ks) -> In x ks -> ~ In x D) ->
  exists g', run (map stm D) g = Some g' /\ g_name g' = g_name g /\ g_pk g' = g_pk g /\ g_policies g' = g_policies g /\
    g_columns g' = filter (fun c => negb (mem (c_name c) D)) (g_columns g) /\
    g_indexes g' = filter (fun i => negb (touches D (index_columns i))) (g_indexes g) /\
    g_fks g' = filter (fun f => negb (touches D (fk_index_columns f))) (g_fks g) /\
    (forall k, In k (g_indexes g') -> In (i_name k) (g_owned g) -> In (i_name k) (g_owned g')).
Proof.
  intros Hstm. induction D as [|n D IH]; intros g Hin HD Hc Hpk.
  - exists g. cbn [map alters]. repeat (split; [reflexivity|]).
    assert (Hall : forall A (L : list A), filter (fun _ => true) L = L) by (intros A L; induction L as [|x L IL]; [reflexivity|cbn [filter]; now rewrite IL]).
    split; [symmetry; apply Hall|]. split; [symmetry; apply Hall|]. split; [symmetry; apply Hall|auto].
  - inversion HD as [|? ? HD1 HD2]; subst. cbn [map alters]. rewrite Hstm. cbn [pg_alter]. assert (mem n (column_names_of g) = true) as -> by (apply mem_in, Hc; now left).
    set (g1 := mkPg _ _ _ _ _ _ _).
    assert (Hpk1 : g_pk g1 = g_pk g).
    { cbn [g1 g_pk]. destruct (g_pk g) as [[k ks]|] eqn:E; [|reflexivity]. assert (mem n ks = false) as ->; [|reflexivity]. apply mem_not_in. intros X. apply (Hpk k ks n eq_refl X). now left. }
    destruct (IH g1) as (g' & R & N & P & Q & C & I & F & O).
    + cbn [g1]. unfold index_names_in in *. cbn [g_indexes]. now apply nodup_map_filter.
    + exact HD2.
    + intros m Hm. unfold column_names_of. cbn [g1 g_columns]. rewrite names_remove. apply take_out_in. split; [apply Hc; now right|]. intros ->. contradiction.
    + intros k ks x E Hx. rewrite Hpk1 in E. intros X. apply (Hpk k ks x E Hx). now right.
    + exists g'. split; [exact R|]. split; [exact N|]. split; [congruence|]. split; [exact Q|].
      assert (Hff : forall A (p q : A -> bool) L, filter p (filter q L) = filter (fun x => q x && p x) L).
      { intros A p q L. induction L as [|x L IL]; [reflexivity|]. cbn [filter]. destruct (q x); cbn [andb filter]; [destruct (p x); now rewrite IL|exact IL]. }
      split; [|split; [|split]].
      * rewrite C. cbn [g1 g_columns]. unfold remove_named. rewrite Hff. apply filter_ext. intros c. unfold mem. cbn [existsb]. now rewrite negb_orb.
      * rewrite I. cbn [g1 g_indexes]. rewrite Hff. apply filter_ext. intros i. unfold touches. cbn [existsb]. now rewrite negb_orb.
      * rewrite F. cbn [g1 g_fks]. rewrite Hff. apply filter_ext. intros i. unfold touches. cbn [existsb]. now rewrite negb_orb.
      * intros k Hk Ho. apply O; [exact Hk|]. cbn [g1 g_owned]. apply filter_In. split; [exact Ho|]. apply negb_true_iff. apply not_true_iff_false. intros X.
        apply existsb_exists in X as (j & Hj & X). apply andb_true_iff in X as [X1 X2]. apply String.eqb_eq in X1.
        rewrite I in Hk. apply filter_In in Hk as [Hk _]. cbn [g1 g_indexes] in Hk. apply filter_In in Hk as [Hk Hk2].
        assert (j = k) as ->; [|rewrite X2 in Hk2; discriminate].
        pose proof (named_self i_name _ j Hin Hj) as A1. pose proof (named_self i_name _ k Hin Hk) as A2. rewrite X1 in A1. congruence.
Qed.
End Parts.
