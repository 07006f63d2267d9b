(** One run on an ideal SQL Server: every statement about a table that stays. *)
From Coq Require Import String Ascii List ZArith Bool Lia.
From Verif Require Import GoStr GoStrFacts Ast Generator SpecPlan ProofPlan ProofSteps ProofTables ProofCompare ProofSelf ProofExact SpecColumns
  ProofColumns SpecOrder ProofOrder SpecMysql ProofMysql ProofConverge ProofSettle SpecDatabase ProofDatabase SpecPostgres
  ProofPg ProofPgDump ProofPgRest ProofPgTable SpecShownMssql SpecMssql SpecConvergeMs ProofMs ProofMsShown ProofMsKept.
Import ListNotations.
Local Open Scope string_scope.
Local Open Scope list_scope.

Lemma named_last {A} (f : A -> string) x y L : f x <> y -> named f y (L ++ [x]) = named f y L.
Proof. intros N. rewrite named_app. destruct (named f y L); [reflexivity|]. rewrite named_cons. destruct (String.eqb_spec (f x) y); [congruence|reflexivity]. Qed.
Lemma named_at_last {A} (f : A -> string) x L : named f (f x) L = None -> named f (f x) (L ++ [x]) = Some x.
Proof. intros H. now rewrite named_app, H, named_cons, String.eqb_refl. Qed.

Lemma ms_fk_same_kept f : ms_fk_same (ms_fk f) f.
Proof.
  unfold ms_fk_same, fk_matches, action_matches, ms_fk, kept_action. cbn [fk_on_update fk_on_delete fk_not_for_replication fk_index_columns fk_ref_name fk_ref_columns].
  repeat split; [destruct (String.eqb_spec (fk_on_update f) "")|destruct (String.eqb_spec (fk_on_delete f) "")]; auto 8.
Qed.

Section Whole.
Variable w : ms_ways.
Hypothesis Hgiven : ms_names_given w.
Notation run := (alters (ms_alter w)).

(** ** Objects that go *)
Lemma ms_drops_run {A} (nm : A -> string) (mk : list A -> ms_tab) (stm : string -> stmt) :
  (forall n L, In n (map nm L) -> ms_alter w (s_eff (stm n)) (mk L) = Some (mk (remove_named nm n L))) ->
  forall D L, NoDup D -> (forall n, In n D -> In n (map nm L)) ->
  run (map stm D) (mk L) = Some (mk (filter (fun x => negb (mem (nm x) D)) L)).
Proof.
  intros Hstep. induction D as [|n D IH]; intros L Hn HD.
  - cbn [map alters]. f_equal. f_equal. induction L as [|x L IL]; [reflexivity|]. cbn [filter mem existsb negb]. f_equal. apply IL. intros m [].
  - cbn [map alters]. inversion Hn as [|? ? Hn1 Hn2]; subst. rewrite (Hstep n L (HD n (or_introl eq_refl))). rewrite IH; [|exact Hn2|].
    + f_equal. f_equal. unfold remove_named. clear. induction L as [|x L IL]; [reflexivity|]. cbn [filter]. unfold mem in *. cbn [existsb].
      destruct (String.eqb (nm x) n); cbn [negb orb]; [exact IL|]. cbn [filter]. destruct (existsb (String.eqb (nm x)) D); cbn [negb]; [exact IL|now f_equal].
    + intros m Hm. rewrite names_remove. apply take_out_in. split; [apply HD; now right|]. intros ->. contradiction.
Qed.

Variables (l : list ddl) (t : table) (s : ms_tab).
Hypothesis Hstm : forall d, In d l -> ms_statement d.
Hypothesis Hac : ms_accepted w t.
Hypothesis Hmt : ms_table w l t.
Hypothesis Hs : ms_sound s.
Hypothesis Hset : ms_settles w l t s.
Hypothesis Hname : m_name s = t_name t.
Let ct := ms_full s.
Let dt := full_table l t.
Notation cols_t := (map c_name (t_columns t)).

Lemma ms_dt_columns : t_columns dt = t_columns t.
Proof.
  unfold dt, full_table. cbn [t_columns]. assert (pk_marks (t_name t) l = []) as ->; [|rewrite <- (map_id (t_columns t)) at 2; apply map_ext; reflexivity].
  unfold pk_marks. apply flat_map_nil. intros d Hd. specialize (Hstm d Hd). destruct d; try reflexivity. destruct Hstm.
Qed.
Lemma ms_dt_fks : t_fks dt = t_fks t.
Proof.
  unfold dt, full_table. cbn [t_fks]. assert (fks_on (t_name t) l = []) as ->; [|apply app_nil_r].
  unfold fks_on. apply flat_map_nil. intros d Hd. specialize (Hstm d Hd). destruct d; try reflexivity. destruct Hstm.
Qed.

Lemma fk_valid_parts f : In f (t_fks t) -> fk_constraint f <> "" /\ fk_index_name f = "" /\ forall x, In x (fk_index_columns f) -> In x cols_t.
Proof.
  intros Hf. pose proof (ma_fk _ _ Hac f Hf) as H. unfold ms_fk_valid in H. rewrite !andb_true_iff, !negb_true_iff, !String.eqb_neq, String.eqb_eq, all_in_spec in H. intuition.
Qed.

(** ** Foreign keys *)
Lemma ms_fks_run g : (forall x, In x cols_t -> In x (m_names g)) -> forall rest fl0 out,
  (forall f, In f rest -> In f (t_fks t)) -> NoDup (map fk_constraint rest) ->
  (forall f, In f rest -> named fk_constraint (fk_constraint f) fl0 = named fk_constraint (fk_constraint f) (m_fks s)) ->
  concat_map (ddls_fk Mssql ct t) rest = Ok out ->
  exists fl, run out (with_m_fks fl0 g) = Some (with_m_fks fl g) /\
    (forall f, In f rest -> exists f', named fk_constraint (fk_constraint f) fl = Some f' /\ ms_fk_same f' f) /\
    (forall x, ~ In x (map fk_constraint rest) -> named fk_constraint x fl = named fk_constraint x fl0).
Proof.
  intros Hg. induction rest as [|f rest IH]; intros fl0 out Hin Hnd Hfl H; cbn [concat_map] in H.
  - injection H as <-. exists fl0. repeat split. intros f [].
  - destruct (ddls_fk Mssql ct t f) as [a| | |] eqn:Ea; try discriminate. cbn [bind] in H. destruct (concat_map _ rest) as [b| | |] eqn:Eb; try discriminate. cbn [bind] in H. injection H as <-.
    inversion Hnd as [|? ? Hn1 Hn2]; subst.
    assert (exists fl1, run a (with_m_fks fl0 g) = Some (with_m_fks fl1 g) /\ (exists f', named fk_constraint (fk_constraint f) fl1 = Some f' /\ ms_fk_same f' f) /\
        forall x, x <> fk_constraint f -> named fk_constraint x fl1 = named fk_constraint x fl0) as (fl1 & R1 & K1 & O1).
    { assert (Hf0 : In f (t_fks t)) by (apply Hin; now left). destruct (fk_valid_parts f Hf0) as (F1 & F2 & F3).
      assert (Hadd : forall L, named fk_constraint (fk_constraint f) L = None -> ms_alter w (EffAddForeignKey (t_name t) f) (with_m_fks L g) = Some (with_m_fks (L ++ [ms_fk f]) g)).
      { intros L HL. cbn [ms_alter with_m_fks m_fks]. rewrite (proj2 (mem_false_none fk_constraint _ _) HL).
        assert (ms_fk_valid (m_names (with_m_fks L g)) f = true) as ->; [|reflexivity]. pose proof (ma_fk _ _ Hac f Hf0) as V. unfold ms_fk_valid in *. rewrite !andb_true_iff, !all_in_spec in *.
        split; [apply V|]. intros x Hx. apply Hg. now apply F3. }
      assert (Hhere : forall L, named fk_constraint (fk_constraint f) L = None -> named fk_constraint (fk_constraint f) (L ++ [ms_fk f]) = Some (ms_fk f)).
      { intros L HL. exact (named_at_last fk_constraint (ms_fk f) L HL). }
      assert (Hlast : forall L x, x <> fk_constraint f -> named fk_constraint x (L ++ [ms_fk f]) = named fk_constraint x L).
      { intros L x Hx. apply named_last. cbn [ms_fk fk_constraint]. congruence. }
      unfold ddls_fk in Ea. destruct (String.eqb_spec (fk_constraint f) "") as [E|_]; [contradiction|].
      pose proof (Hfl f (or_introl eq_refl)) as Hf. change (find_fk (t_fks ct) (fk_constraint f)) with (named fk_constraint (fk_constraint f) (m_fks s)) in Ea.
      destruct (named fk_constraint (fk_constraint f) (m_fks s)) as [cf|] eqn:Ecf.
      - apply named_some in Ecf as Ecf'. destruct Ecf' as [Hcf Hcn].
        destruct (are_same_foreign_keys Mssql cf f) eqn:Es.
        + injection Ea as <-. exists fl0. split; [reflexivity|]. split; [|reflexivity]. exists cf. split; [exact Hf|]. apply (ss_fks _ _ _ _ Hset f cf); auto. now apply are_same_foreign_keys_spec.
        + apply ok_inj in Ea. subst a. exists (remove_named fk_constraint (fk_constraint f) fl0 ++ [ms_fk f]).
          assert (Hnone : named fk_constraint (fk_constraint f) (remove_named fk_constraint (fk_constraint f) fl0) = None) by (now rewrite named_remove, String.eqb_refl).
          split; [|split; [exists (ms_fk f); split; [now apply Hhere|apply ms_fk_same_kept]|]].
          * cbn [app alters stmt_drop_fk_constraint stmt_add_fk s_eff]. rewrite Hcn.
            assert (ms_alter w (EffDropForeignKey (t_name t) (fk_constraint f)) (with_m_fks fl0 g) = Some (with_m_fks (remove_named fk_constraint (fk_constraint f) fl0) g)) as ->.
            { cbn [ms_alter with_m_fks m_fks]. assert (mem (fk_constraint f) (map fk_constraint fl0) = true) as ->; [|reflexivity]. apply mem_true_some. eauto. }
            now rewrite (Hadd _ Hnone).
          * intros z Hz. rewrite Hlast by assumption. rewrite named_remove. destruct (String.eqb_spec z (fk_constraint f)); [congruence|reflexivity].
      - apply ok_inj in Ea. subst a. exists (fl0 ++ [ms_fk f]). split; [|split; [exists (ms_fk f); split; [now apply Hhere|apply ms_fk_same_kept]|intros z Hz; now apply Hlast]].
        cbn [alters stmt_add_fk s_eff]. now rewrite (Hadd _ Hf). }
    destruct (IH fl1 b) as (fl & R2 & K2 & O2); auto.
    { intros f' Hf'. apply Hin. now right. }
    { intros f' Hf'. rewrite O1; [apply Hfl; now right|]. intros E. apply Hn1. rewrite <- E. now apply in_map. }
    exists fl. split; [now rewrite alters_app, R1|]. split.
    + intros f' [<-|Hf']; [|now apply K2]. rewrite O2 by assumption. exact K1.
    + cbn [map]. intros x Hx. rewrite O2 by (intros X; apply Hx; now right). apply O1. intros ->. apply Hx. now left.
Qed.

(** ** CREATE INDEX *)
Definition ms_index_fits (g : ms_tab) (i : index) : Prop :=
  ms_secondary t i /\ (forall x, In x cols_t -> In x (m_names g)) /\ forall k, m_key g = Some k -> i_name k <> i_name i.

Lemma ms_indexed_eq g i : ms_index_fits g i -> named i_name (i_name i) (m_indexes g) = None ->
  ms_indexed i g = Some (with_m_indexes (m_indexes g ++ [ms_index i]) g).
Proof.
  intros ((S1 & S2 & S3 & S4 & S5 & S6 & S7) & Hc & Hk) Hn. unfold ms_indexed, ms_index_valid. rewrite S2. apply String.eqb_neq in S1. rewrite S1.
  assert (mem (i_name i) (map i_name (listed (m_key g) ++ m_indexes g)) = false) as ->.
  { apply (mem_false_none i_name) in Hn. apply mem_not_in in Hn. apply mem_not_in. rewrite map_app, in_app_iff. intros [X|X]; [|contradiction].
    destruct (m_key g) as [k|]; [|destruct X]. destruct X as [X|[]]. now apply (Hk k). }
  assert (Nat.eqb (length (i_columns i)) 0 = false) as -> by (destruct (i_columns i); [now destruct S4|reflexivity]).
  assert (all_in (index_columns i) (m_names g) = true) as -> by (apply all_in_spec; auto). reflexivity.
Qed.

Lemma secondary_matches i : ms_secondary t i -> index_matches (ms_index i) i.
Proof. intros (S1 & S2 & S3 & S4 & S5 & S6 & S7). now apply index_kept_matches. Qed.

Lemma nodup_app_disjoint {A} (a b : list A) : NoDup (a ++ b) -> forall x, In x a -> In x b -> False.
Proof.
  induction a as [|y a IH]; intros H x Ha Hb; [destruct Ha|]. cbn [app] in H. inversion H as [|? ? H1 H2]; subst.
  destruct Ha as [->|Ha]; [apply H1, in_or_app; now right|now apply (IH H2 x)].
Qed.

(** An index that is added by [add]. *)
Lemma ms_index_run add n i g : (forall h, ms_alter w (s_eff add) h = ms_indexed i h) ->
  ms_index_fits g i -> find_index (t_indexes ct) (i_name i) = named i_name (i_name i) (m_indexes g) ->
  exists il, run (match find_index (t_indexes ct) (i_name i) with
                  | Some k => if are_same_indexes k i then [] else [stmt_drop_index Mssql n (i_name i); add]
                  | None => [add]
                  end) g = Some (with_m_indexes il g) /\
    (exists k, named i_name (i_name i) il = Some k /\ index_matches k i) /\
    forall x, x <> i_name i -> named i_name x il = named i_name x (m_indexes g).
Proof.
  intros Hadd Hfit Hf. rewrite Hf. pose proof Hfit as (Hsec & Hc & Hkk).
  assert (Hlast : forall L x, x <> i_name i -> named i_name x (L ++ [ms_index i]) = named i_name x L).
  { intros L x Hx. apply named_last. cbn [ms_index i_name]. congruence. }
  assert (Hhere : forall L, named i_name (i_name i) L = None -> exists k, named i_name (i_name i) (L ++ [ms_index i]) = Some k /\ index_matches k i).
  { intros L HL. exists (ms_index i). split; [exact (named_at_last i_name (ms_index i) L HL)|]. now apply secondary_matches. }
  destruct (named i_name (i_name i) (m_indexes g)) as [k|] eqn:Ek.
  - destruct (are_same_indexes k i) eqn:Ea.
    + exists (m_indexes g). split; [now destruct g|]. split; [|reflexivity]. exists k. split; [exact Ek|now apply are_same_indexes_spec].
    + apply named_some in Ek as Ek'. destruct Ek' as [Hk En]. exists (remove_named i_name (i_name i) (m_indexes g) ++ [ms_index i]).
      assert (Hnone : named i_name (i_name i) (remove_named i_name (i_name i) (m_indexes g)) = None) by (now rewrite named_remove, String.eqb_refl).
      split; [|split; [now apply Hhere|]].
      * cbn [alters stmt_drop_index s_eff].
        assert (ms_alter w (EffDropIndex n (i_name i)) g = Some (with_m_indexes (remove_named i_name (i_name i) (m_indexes g)) g)) as ->.
        { cbn [ms_alter]. assert (mem (i_name i) (map i_name (m_indexes g)) = true) as ->; [|reflexivity]. apply mem_in. rewrite <- En. now apply in_map. }
        rewrite Hadd, (ms_indexed_eq (with_m_indexes (remove_named i_name (i_name i) (m_indexes g)) g) i); auto.
      * intros x Hx. rewrite Hlast by assumption. rewrite named_remove. destruct (String.eqb_spec x (i_name i)); [congruence|reflexivity].
  - exists (m_indexes g ++ [ms_index i]). split; [|split; [now apply Hhere|intros x Hx; now apply Hlast]].
    cbn [alters]. now rewrite Hadd, (ms_indexed_eq g i Hfit Ek).
Qed.

Lemma ms_create_index_run q n i g : ms_index_fits g i -> find_index (t_indexes ct) (i_name i) = named i_name (i_name i) (m_indexes g) ->
  exists il, run (standalone Mssql ct (CreateIndex q n i)) g = Some (with_m_indexes il g) /\
    (exists k, named i_name (i_name i) il = Some k /\ index_matches k i) /\
    forall x, x <> i_name i -> named i_name x il = named i_name x (m_indexes g).
Proof.
  intros Hfit Hf. destruct (ms_index_run (verbatim (CreateIndex q n i)) n i g (fun _ => eq_refl) Hfit Hf) as (il & R & H). exists il. split; [|exact H].
  rewrite <- R. cbn [standalone]. destruct (find_index (t_indexes ct) (i_name i)) as [k|] eqn:Ek; [|reflexivity].
  symmetry in Hf. apply named_some in Hf as [_ En]. now rewrite En.
Qed.

(** Indexes in the CREATE TABLE statement. *)
Lemma without_included_id i : i_included i = [] -> without_included i = i.
Proof. destruct i. cbn. now intros ->. Qed.

Lemma ms_inline_run : forall L g out,
  (forall i, In i (filter (fun i => negb (i_primary i)) L) -> ms_index_fits g i /\ i_included i = []) ->
  NoDup (map i_name (filter (fun i => negb (i_primary i)) L)) ->
  (forall i, In i (filter (fun i => negb (i_primary i)) L) -> find_index (t_indexes ct) (i_name i) = named i_name (i_name i) (m_indexes g)) ->
  concat_map (ddls_index Mssql ct t) L = Ok out ->
  exists il, run out g = Some (with_m_indexes il g) /\
    (forall i, In i (filter (fun i => negb (i_primary i)) L) -> exists k, named i_name (i_name i) il = Some k /\ index_matches k i) /\
    (forall x, ~ In x (map i_name (filter (fun i => negb (i_primary i)) L)) -> named i_name x il = named i_name x (m_indexes g)).
Proof.
  induction L as [|i L IH]; intros g out Hfit Hni Hfi Ho; cbn [concat_map filter] in *.
  - injection Ho as <-. exists (m_indexes g). cbn [alters]. split; [now destruct g|]. split; [intros i []|reflexivity].
  - destruct (ddls_index Mssql ct t i) as [a| | |] eqn:Ea; try discriminate. cbn [bind] in Ho. destruct (concat_map (ddls_index Mssql ct t) L) as [b| | |] eqn:Eb; try discriminate.
    cbn [bind] in Ho. injection Ho as <-. unfold ddls_index in Ea. destruct (i_primary i) eqn:Ep; cbn [negb] in *.
    + injection Ea as <-. cbn [app]. now apply IH.
    + cbn [map] in Hni. inversion Hni as [|? ? Hni1 Hni2]; subst. destruct (Hfit i (or_introl eq_refl)) as [Hfi0 Hinc]. unfold stmt_add_index in Ea. rewrite Ep in Ea.
      destruct (generate_add_index Mssql (t_name t) i) as [txt| | |] eqn:Et.
      2-4: (cbn [bind] in Ea; destruct (find_index (t_indexes ct) (i_name i)) as [k|] eqn:Ek; try discriminate; destruct (are_same_indexes k i) eqn:Es; try discriminate).
      all: destruct (ms_index_run (mkStmt (match generate_add_index Mssql (t_name t) i with Ok x => x | _ => "" end) (EffAddIndex (t_name t) i)) (t_name t) i g) as (il1 & R1 & K1 & O1);
        [intros h; cbn [s_eff ms_alter]; now rewrite without_included_id|exact Hfi0|apply Hfi; now left|].
      all: assert (R1' : run a g = Some (with_m_indexes il1 g)) by
        (rewrite <- R1, ?Et; cbn [bind] in Ea; try rewrite Ek, Es; destruct (find_index (t_indexes ct) (i_name i)) as [k'|]; [destruct (are_same_indexes k' i)|]; injection Ea as <-; reflexivity).
      all: clear R1; destruct (IH (with_m_indexes il1 g) b) as (il & R2 & K2 & O2); [intros j Hj; apply Hfit; now right|exact Hni2| |reflexivity|].
      all: try (intros j Hj; cbn [with_m_indexes m_indexes]; rewrite O1 by (intros E; apply Hni1; rewrite <- E; now apply in_map); apply Hfi; now right).
      all: exists il; rewrite alters_app, R1', R2; split; [reflexivity|]; split;
        [intros j [<-|Hj]; [rewrite O2 by assumption; exact K1|now apply K2]
        |cbn [map]; intros x Hx; rewrite O2 by (intros X; apply Hx; now right); cbn [with_m_indexes m_indexes]; apply O1; intros ->; apply Hx; now left].
Qed.

Lemma ms_standalone_run n : forall r g,
  (forall d, In d r -> ms_statement d /\ ddl_table d = Some n) ->
  (forall i, In i (indexes_on n r) -> ms_index_fits g i) ->
  NoDup (map i_name (indexes_on n r)) ->
  (forall i, In i (indexes_on n r) -> find_index (t_indexes ct) (i_name i) = named i_name (i_name i) (m_indexes g)) ->
  exists il, run (flat_map (standalone Mssql ct) r) g = Some (with_m_indexes il g) /\
    (forall i, In i (indexes_on n r) -> exists k, named i_name (i_name i) il = Some k /\ index_matches k i) /\
    (forall x, ~ In x (map i_name (indexes_on n r)) -> named i_name x il = named i_name x (m_indexes g)).
Proof.
  induction r as [|d r IH]; intros g Hd Hfit Hni Hfi.
  - exists (m_indexes g). cbn [flat_map alters]. split; [now destruct g|]. split; [intros i []|reflexivity].
  - destruct (Hd d (or_introl eq_refl)) as [Hst Hdt]. rewrite indexes_on_cons in *.
    assert (Hskip : indexes_on n [d] = [] -> standalone Mssql ct d = [] ->
      exists il, run (flat_map (standalone Mssql ct) (d :: r)) g = Some (with_m_indexes il g) /\
    (forall i, In i (indexes_on n [d] ++ indexes_on n r) -> exists k, named i_name (i_name i) il = Some k /\ index_matches k i) /\
    (forall x, ~ In x (map i_name (indexes_on n [d] ++ indexes_on n r)) -> named i_name x il = named i_name x (m_indexes g))).
    { intros E1 E3. rewrite E1 in *. cbn [app] in *. cbn [flat_map]. rewrite E3. cbn [app]. apply IH; auto. intros x Hx. apply Hd. now right. }
    destruct d as [q t0|q n' i|q n' i|q n' i|q n' f|q n' p|v|tr]; try (apply Hskip; reflexivity); try (destruct Hst; fail); cbn [ddl_table] in Hdt; injection Hdt as ->.
    assert (E1 : indexes_on n [CreateIndex q n i] = [i]) by (cbn; now rewrite String.eqb_refl). rewrite E1 in *. cbn [app] in *. clear Hskip.
    destruct (ms_create_index_run q n i g) as (il1 & R1 & K1 & O1); [apply Hfit; now left|apply Hfi; now left|].
    inversion Hni as [|? ? Hni1 Hni2]; subst.
    assert (Hother : forall j, In j (indexes_on n r) -> i_name j <> i_name i) by (intros j Hj E; apply Hni1; rewrite <- E; now apply in_map).
    destruct (IH (with_m_indexes il1 g)) as (il & R2 & K2 & O2).
    + intros x Hx. apply Hd. now right.
    + intros j Hj. apply Hfit. now right.
    + exact Hni2.
    + intros j Hj. cbn [with_m_indexes m_indexes]. rewrite O1 by auto. apply Hfi. now right.
    + exists il. cbn [flat_map]. rewrite alters_app, R1, R2. split; [reflexivity|]. split.
      * intros j [<-|Hj]; [|now apply K2]. rewrite O2 by assumption. exact K1.
      * cbn [map]. intros x Hx. rewrite O2 by (intros X; apply Hx; now right). cbn [with_m_indexes m_indexes]. apply O1. intros ->. apply Hx. now left.
Qed.

(** ** What the clean-up drops *)
Definition ms_gone_fks : list string := map fk_constraint (filter (fun f => negb (mem (fk_constraint f) (map fk_constraint (t_fks t)))) (m_fks s)).

Lemma contains_mem L x : contains_string L x = mem x L.
Proof.
  destruct (contains_string L x) eqn:E; symmetry; [apply mem_in; now apply contains_string_spec|apply mem_not_in; now apply contains_string_false].
Qed.

Lemma ms_cleanup_fks : cleanup_fks Mssql ct dt = map (stmt_drop_fk_constraint Mssql (m_name s)) ms_gone_fks.
Proof.
  unfold cleanup_fks, ms_gone_fks. change (t_fks ct) with (m_fks s). apply flat_map_drops. intros f Hf. rewrite ms_dt_fks. unfold fk_names. rewrite contains_mem.
  destruct (mem _ _); cbn [negb]; [reflexivity|]. unfold absent_fk. rewrite ms_dt_columns.
  assert (existsb (fun c => String.eqb (c_references c) (fk_ref_name f)) (t_columns t) = false) as ->; [|reflexivity].
  apply not_true_iff_false. intros H. apply existsb_exists in H as (c & Hc & H). apply String.eqb_eq in H. destruct (valid_parts c (ma_valid _ _ Hac c Hc)) as (_ & _ & E & _).
  apply (mo_fk _ Hs f Hf). congruence.
Qed.

Definition ms_drop_key : list stmt :=
  match m_key s, primary_key t with
  | Some k, None => [mkStmt (alter Mssql (t_name ct) ++ " DROP CONSTRAINT " ++ escape_sql_name Mssql (i_name k))%string (EffDropPrimaryConstraint (t_name ct) (i_name k))]
  | _, _ => []
  end.
Definition ms_gone_indexes : list string := map i_name (filter (fun i => negb (mem (i_name i) (map i_name (ms_indexes l t)))) (m_indexes s)).

Lemma not_backing k : In k (listed (m_key s) ++ m_indexes s) -> contains_string (fk_index_names (t_fks dt)) (i_name k) = false.
Proof.
  intros Hk. apply contains_string_false. rewrite fk_index_names_spec, ms_dt_fks. intros (f & Hf & N & X). destruct (fk_valid_parts f Hf) as (_ & E & _).
  rewrite E in X. destruct X as [X|[_ X]]; [congruence|]. apply (ss_names _ _ _ _ Hset k Hk). rewrite X. now apply in_map.
Qed.

Lemma ms_primary_cases :
  (primary_key t = None /\ filter i_primary (t_indexes t) = [] /\ forall c, In c (t_columns t) -> c_key c <> KeyPrimary) \/
  (exists i, primary_key t = Some i /\ i_name i <> "PRIMARY" /\ filter i_primary (t_indexes t) = [i] /\ forall c, In c (t_columns t) -> c_key c <> KeyPrimary) \/
  (exists c, primary_key t = Some (inline_key (c_name c)) /\ filter i_primary (t_indexes t) = [] /\ find (fun c => is_key_primary (c_key c)) (t_columns t) = Some c).
Proof.
  rewrite (primary_key_created _ _ Hac). destruct (created_key_cases w t Hac) as [(A & B & C)|[(i & A & B & C)|(x & A & B & C & D & E & F)]].
  - left. auto.
  - right. left. exists i. split; [exact A|]. split; [|auto]. assert (Hi : In i (filter i_primary (t_indexes t))) by (rewrite B; now left). apply filter_In in Hi as [Hi Pi]. apply (mt_primary _ _ _ Hmt i Hi Pi).
  - right. right. exists x. auto.
Qed.

Lemma find_no_primary : (forall c, In c (t_columns t) -> c_key c <> KeyPrimary) -> find (fun c => is_key_primary (c_key c)) (t_columns t) = None.
Proof.
  intros H. destruct (find _ _) as [c|] eqn:E; [|reflexivity]. apply find_some in E as [Hc E]. exfalso. apply (H c Hc). destruct (c_key c); try discriminate; reflexivity.
Qed.

Lemma mem_indexes n : mem n (map i_name (t_indexes t ++ indexes_on (t_name t) l)) =
  mem n (map i_name (filter i_primary (t_indexes t))) || mem n (map i_name (ms_indexes l t)).
Proof.
  apply eq_true_iff_eq. rewrite orb_true_iff, !mem_in. unfold ms_indexes. rewrite !map_app, !in_app_iff, !in_map_iff. split.
  - intros [(i & E & Hi)|H]; [|tauto]. apply primary_or_inline in Hi as [Hi|Hi]; eauto.
  - intros [(i & E & Hi)|[(i & E & Hi)|H]]; [left|left|tauto]; exists i; (split; [exact E|]); apply primary_or_inline; auto.
Qed.

Lemma ms_cleanup_indexes cix : cleanup_indexes Mssql ct dt = Ok cix ->
  cix = ms_drop_key ++ map (stmt_drop_index Mssql (m_name s)) ms_gone_indexes.
Proof.
  unfold cleanup_indexes. set (F := fun i => _). change (t_indexes ct) with (listed (m_key s) ++ m_indexes s).
  assert (Hkey : forall k, m_key s = Some k -> F k = Ok ms_drop_key).
  { intros k Ek. unfold F, ms_drop_key. rewrite Ek. rewrite (not_backing k) by (rewrite Ek; now left). rewrite orb_false_r. unfold index_names, dt, full_table. cbn [t_indexes]. rewrite contains_mem.
    fold (full_table l t). fold dt. rewrite mem_indexes. unfold absent_index. rewrite (proj1 (mo_key _ Hs k Ek)), ms_dt_columns. destruct ms_primary_cases as [(A & B & C)|[(i & A & B & C & D)|(c & A & B & C)]]; rewrite A.
    - rewrite B. cbn [map mem existsb orb]. rewrite (proj2 (mem_not_in _ _) (ss_key_name _ _ _ _ Hset k Ek)). now rewrite (find_no_primary C).
    - assert (Dp : declares_pk t (Some i)) by (rewrite <- A; apply primary_key_declared). destruct (ss_key _ _ _ _ Hset k i Ek Dp) as [_ [X|X]]; [contradiction|].
      rewrite C. cbn [map mem existsb]. now rewrite X, String.eqb_refl.
    - destruct (_ || _); [reflexivity|]. rewrite C. assert (Dp : declares_pk t (Some (inline_key (c_name c)))) by (rewrite <- A; apply primary_key_declared). destruct (ss_key _ _ _ _ Hset k _ Ek Dp) as [M _].
      apply index_matches_columns in M. unfold SpecMysql.key_columns in M. destruct (i_columns k) as [|ic r]; [discriminate|]. cbn in M. injection M as -> _. now rewrite String.eqb_refl. }
  assert (Hidx : forall out, concat_map F (m_indexes s) = Ok out -> out = map (stmt_drop_index Mssql (m_name s)) ms_gone_indexes).
  { intros out. unfold ms_gone_indexes. apply concat_map_drops. intros k o Hk. unfold F. assert (Hk' : In k (listed (m_key s) ++ m_indexes s)) by (apply in_or_app; now right).
    rewrite (not_backing k Hk'), orb_false_r, contains_mem. unfold index_names, dt, full_table. cbn [t_indexes]. fold (full_table l t). fold dt.
    assert (mem (i_name k) (map i_name (t_indexes t ++ indexes_on (t_name t) l)) = mem (i_name k) (map i_name (ms_indexes l t))) as ->.
    { destruct ms_primary_cases as [(A & B & C)|[(i & A & B & C & D)|(c & A & B & C)]]; rewrite mem_indexes; [now rewrite B| |now rewrite B]. rewrite C. cbn [map]. unfold mem at 1. cbn [existsb].
      assert (String.eqb (i_name k) (i_name i) = false) as ->; [|reflexivity]. apply String.eqb_neq. intros X.
      assert (Dp : declares_pk t (Some i)) by (rewrite <- A; apply primary_key_declared). destruct (m_key s) as [k0|] eqn:Ek0.
      - destruct (ss_key _ _ _ _ Hset k0 i Ek0 Dp) as [_ [Y|Y]]; [contradiction|]. pose proof (mo_indexes _ Hs) as N. rewrite Ek0 in N. cbn [listed app map] in N. inversion N as [|? ? N1 N2]; subst.
        apply N1. rewrite Y, <- X. now apply in_map.
      - apply (ss_new_key_name _ _ _ _ Hset i Ek0 Dp). unfold key_name. apply String.eqb_neq in B. rewrite B, <- X. now apply in_map. }
    destruct (mem _ _); cbn [negb]; [intros H; now injection H as <-|]. unfold absent_index. destruct (mo_index _ Hs k Hk) as [-> Hc]. rewrite ms_dt_columns. destruct (i_unique k); [|intros H; now injection H as <-].
    destruct (t_columns t) as [|c0 cs] eqn:Ec; [intros H; now injection H as <-|]. destruct (i_columns k) as [|ic r]; [discriminate|].
    assert (existsb (fun c => String.eqb (c_name c) (ic_column ic) && is_unique (c_key c)) (c0 :: cs) = false) as ->; [|intros H; now injection H as <-].
    apply not_true_iff_false. intros H. apply existsb_exists in H as (c & Hcc & H). rewrite <- Ec in Hcc. apply andb_true_iff in H as [_ H]. destruct (valid_parts c (ma_valid _ _ Hac c Hcc)) as (_ & _ & _ & [E|[E _]] & _); rewrite E in H; discriminate. }
  destruct (m_key s) as [k|] eqn:Ek.
  - cbn [listed app concat_map]. rewrite (Hkey k eq_refl). cbn [bind]. destruct (concat_map F (m_indexes s)) as [b| | |] eqn:Eb; try discriminate. cbn [bind]. intros H. injection H as <-. now rewrite (Hidx b eq_refl).
  - cbn [listed app]. unfold ms_drop_key. rewrite Ek. cbn [app]. apply Hidx.
Qed.

Definition ms_drop_column (c : column) : list stmt :=
  match c_default c with
  | Some d => [mkStmt (alter Mssql (t_name ct) ++ " DROP CONSTRAINT " ++ escape_sql_name Mssql (df_constraint d))%string (EffDropDefaultConstraint (t_name ct) (c_name c) (df_constraint d))]
  | None => []
  end ++ [mkStmt (alter Mssql (t_name ct) ++ " DROP COLUMN " ++ escape_sql_name Mssql (c_name c))%string (EffDropColumn (t_name ct) (c_name c))].
Definition ms_gone_columns : list column := filter (fun c => negb (mem (c_name c) cols_t)) (m_columns s).

Lemma absent_column_eq c : In c (m_columns s) -> absent_column Mssql ct (c_name c) = ms_drop_column c.
Proof.
  intros Hc. unfold absent_column, ms_drop_column. f_equal. change (t_columns ct) with (number 0 (m_columns s)).
  set (h := fun c0 : column => match c_default c0 with
    | Some d => [mkStmt (alter Mssql (t_name ct) ++ " DROP CONSTRAINT " ++ escape_sql_name Mssql (df_constraint d))%string (EffDropDefaultConstraint (t_name ct) (c_name c) (df_constraint d))]
    | None => [] end).
  change (match c_default c with Some d => _ | None => [] end) with (h c).
  rewrite <- (only_one c_name h c_name (m_columns s) c (mo_names _ Hs) Hc) by auto.
  assert (Hd : forall x, In x (m_columns s) -> forall d, c_default x = Some d -> df_constraint d <> "") by (intros x Hx d; now apply (mo_default _ Hs)). revert Hd.
  generalize 0%Z. generalize (m_columns s). clear Hc. induction l0 as [|x r IH]; intros z Hd; [reflexivity|]. cbn [number flat_map set_position c_default c_name].
  fold (set_position z x). specialize (IH (z + 1)%Z (fun y Hy => Hd y (or_intror Hy))). apply f_equal2; [|exact IH]. unfold h. destruct (c_default x) as [d|] eqn:E; [|now destruct (String.eqb _ _)].
  pose proof (Hd x (or_introl eq_refl) d E) as N. apply String.eqb_neq in N. rewrite N. cbn [negb]. rewrite andb_true_r. reflexivity.
Qed.

Lemma ms_cleanup_columns : cleanup_columns Mssql ct dt = flat_map ms_drop_column ms_gone_columns.
Proof.
  unfold cleanup_columns, ms_gone_columns. rewrite ms_dt_columns. change (t_columns ct) with (number 0 (m_columns s)).
  assert (H : forall L, (forall c, In c L -> In c (m_columns s)) -> forall z,
    flat_map (fun c => if contains_string (column_names (t_columns t)) (c_name c) then [] else absent_column Mssql ct (c_name c)) (number z L) =
    flat_map ms_drop_column (filter (fun c => negb (mem (c_name c) cols_t)) L)); [|now apply H].
  induction L as [|c L IL]; intros Hin z; [reflexivity|]. cbn [number flat_map filter]. rewrite IL by (intros x Hx; apply Hin; now right). cbn [set_position c_name].
  unfold column_names. rewrite contains_mem. destruct (mem _ _); cbn [negb flat_map]; [reflexivity|]. now rewrite absent_column_eq by (apply Hin; now left).
Qed.

Lemma ms_drop_columns_run g : (forall n, ~ In n cols_t -> in_use n g = false) -> forall D L,
  (forall c, In c D -> ~ In (c_name c) cols_t /\ c_check c = None) -> NoDup (map c_name D) ->
  (forall c, In c D -> named c_name (c_name c) L = Some c) ->
  run (flat_map ms_drop_column D) (with_m_columns L g) = Some (with_m_columns (filter (fun x => negb (mem (c_name x) (map c_name D))) L) g).
Proof.
  intros Huse. induction D as [|c D IH]; intros L HD Hn HL.
  - cbn [flat_map alters map]. f_equal. f_equal. clear. induction L as [|x L IL]; [reflexivity|]. cbn [filter mem existsb negb]. f_equal. exact IL.
  - cbn [map] in *. inversion Hn as [|? ? Hn1 Hn2]; subst. destruct (HD c (or_introl eq_refl)) as [Hc Hck]. pose proof (HL c (or_introl eq_refl)) as Ec.
    cbn [flat_map]. rewrite alters_app. assert (run (ms_drop_column c) (with_m_columns L g) = Some (with_m_columns (remove_named c_name (c_name c) L) g)) as ->.
    { unfold ms_drop_column. rewrite alters_app.
      assert (Hdrop : forall L', (exists y, named c_name (c_name c) L' = Some y /\ c_default y = None /\ c_check y = None) ->
        ms_alter w (EffDropColumn (t_name ct) (c_name c)) (with_m_columns L' g) = Some (with_m_columns (remove_named c_name (c_name c) L') g)).
      { intros L' (y & Ey & D1 & D2). cbn [ms_alter with_m_columns m_columns]. rewrite Ey, D1, D2. change (in_use (c_name c) (with_m_columns L' g)) with (in_use (c_name c) g). now rewrite (Huse _ Hc). }
      destruct (c_default c) as [d|] eqn:Ed.
      - cbn [alters s_eff]. assert (ms_alter w (EffDropDefaultConstraint (t_name ct) (c_name c) (df_constraint d)) (with_m_columns L g) = Some (put (c_name c) (set_ms_default None c) (with_m_columns L g))) as ->.
        { cbn [ms_alter]. erewrite m_on_column_some; [reflexivity|exact Ec|]. now rewrite Ed, String.eqb_refl. }
        change (put (c_name c) (set_ms_default None c) (with_m_columns L g)) with (with_m_columns (replaced (c_name c) (set_ms_default None c) L) g).
        rewrite Hdrop.
        + f_equal. f_equal. unfold remove_named, replaced. clear. induction L as [|x L IL]; [reflexivity|]. cbn [map filter]. destruct (String.eqb (c_name x) (c_name c)) eqn:E; cbn [negb].
          * change (c_name (set_ms_default None c)) with (c_name c). rewrite String.eqb_refl. exact IL.
          * rewrite E. cbn [negb]. now f_equal.
        + exists (set_ms_default None c). rewrite named_replaced, String.eqb_refl, Ec by reflexivity. auto.
      - cbn [alters s_eff]. rewrite Hdrop; [reflexivity|]. exists c. auto. }
    rewrite IH.
    + f_equal. f_equal. unfold remove_named. clear. induction L as [|x L IL]; [reflexivity|]. cbn [filter]. unfold mem in *. cbn [existsb].
      destruct (String.eqb (c_name x) (c_name c)); cbn [negb orb]; [exact IL|]. cbn [filter]. destruct (existsb (String.eqb (c_name x)) _); cbn [negb]; [exact IL|now f_equal].
    + intros x Hx. apply HD. now right.
    + exact Hn2.
    + intros x Hx. rewrite named_remove. destruct (String.eqb_spec (c_name x) (c_name c)) as [E|_]; [|apply HL; now right]. exfalso. apply Hn1. rewrite <- E. now apply in_map.
Qed.

(** ** The whole run *)
Lemma ms_on_table d : In d (statements_on (t_name t) l) -> ms_statement d /\ ddl_table d = Some (t_name t).
Proof.
  unfold statements_on. intros H. apply filter_In in H as [H1 H2]. split; [now apply Hstm|]. destruct (ddl_table d) as [x|]; [|discriminate]. apply String.eqb_eq in H2. now subst.
Qed.

Lemma matches_columns k i : index_matches k i -> index_columns k = index_columns i.
Proof. intros Hm. pose proof (index_matches_columns _ _ Hm) as A. unfold index_columns. rewrite A. destruct Hm as (_ & _ & _ & _ & Inc & _). now rewrite Inc. Qed.

Theorem ms_kept_run cols pk idx fks cix :
  ddls_columns Mssql ct t None (t_columns t) = Ok cols -> ddls_primary_key Mssql ct t = Ok pk ->
  concat_map (ddls_index Mssql ct t) (t_indexes t) = Ok idx -> concat_map (ddls_fk Mssql ct t) (t_fks t) = Ok fks ->
  cleanup_indexes Mssql ct dt = Ok cix ->
  exists g, run (cols ++ pk ++ idx ++ fks ++ flat_map (standalone Mssql ct) (statements_on (t_name t) l) ++
                 cleanup_fks Mssql ct dt ++ cix ++ cleanup_columns Mssql ct dt ++ cleanup_policies Mssql ct dt) s = Some g /\
    ms_reached l t g.
Proof.
  intros Hcols Hpk Hidx Hfks Hcix.
  destruct (ms_middle_run w Hgiven l t s Hac Hmt Hs Hset Hname cols pk Hcols Hpk) as (g & Rg & [M1 M2 M3 M4 M5 M6 M7]).
  assert (Hmid : forall x, In x cols_t -> In x (m_names g)).
  { intros x Hx. apply in_map_iff in Hx as (c & <- & Hc). destruct (M3 c Hc) as (y & Ey & _). apply named_some in Ey as [Hy <-]. unfold m_names. now apply in_map. }
  assert (Hfits : forall i, In i (ms_indexes l t) -> ms_index_fits g i).
  { intros i Hi. split; [now apply (mt_index _ _ _ Hmt)|]. split; [exact Hmid|]. intros k Hk. rewrite M5 in Hk. unfold new_key in Hk.
    destruct (m_key s) as [k0|] eqn:Ek0.
    - injection Hk as ->. intros X. apply (ss_key_name _ _ _ _ Hset k Ek0). rewrite X. now apply in_map.
    - destruct (primary_key t) as [i0|] eqn:Ep; [|discriminate]. injection Hk as <-. cbn [ms_key i_name]. intros X. symmetry in X. revert X. apply (mt_key_name _ _ _ Hmt); [|exact Hi]. rewrite <- Ep. apply primary_key_declared. }
  assert (Hfind : forall i, In i (ms_indexes l t) -> find_index (t_indexes ct) (i_name i) = named i_name (i_name i) (m_indexes s)).
  { intros i Hi. change (t_indexes ct) with (listed (m_key s) ++ m_indexes s). destruct (m_key s) as [k|] eqn:Ek; [|reflexivity]. cbn [listed app]. unfold find_index. cbn [find].
    destruct (String.eqb_spec (i_name k) (i_name i)) as [E|_]; [|reflexivity]. exfalso. apply (ss_key_name _ _ _ _ Hset k Ek). rewrite E. now apply in_map. }
  pose proof (mt_indexes _ _ _ Hmt) as Nix. unfold ms_indexes in Nix. rewrite map_app in Nix.
  (* indexes of the CREATE TABLE statement *)
  destruct (ms_inline_run (t_indexes t) g idx) as (il0 & Rn & Kn & On); fold (inline_indexes t) in *.
  { intros i Hi. split; [apply Hfits, in_or_app; now left|now apply (mt_inline _ _ _ Hmt)]. }
  { eapply NoDup_app_l. exact Nix. }
  { intros i Hi. rewrite M6. apply Hfind, in_or_app. now left. }
  { exact Hidx. }
  rewrite M6 in On. set (gi := with_m_indexes il0 g) in *. assert (Si : ms_sound gi) by (eapply ms_alters_sound; [exact Hgiven|exact M2|exact Rn]).
  (* foreign keys *)
  assert (Eg : with_m_fks (m_fks s) gi = gi) by (rewrite <- M7; now destruct g).
  destruct (ms_fks_run gi Hmid (t_fks t) (m_fks s) fks) as (fl & Rf & Kf & Of); auto.
  { apply (ma_fks _ _ Hac). }
  rewrite Eg in Rf. set (g1 := with_m_fks fl gi) in *. assert (S1 : ms_sound g1) by (eapply ms_alters_sound; [exact Hgiven|exact Si|exact Rf]).
  (* indexes *)
  set (n := t_name t) in *. set (st := statements_on n l) in *.
  assert (Ei : indexes_on n st = indexes_on n l) by apply indexes_on_statements.
  assert (Hapart : forall i, In i (indexes_on n l) -> ~ In (i_name i) (map i_name (inline_indexes t))).
  { intros i Hi X. eapply (nodup_app_disjoint _ _ Nix); [exact X|]. now apply in_map. }
  destruct (ms_standalone_run n st g1) as (il & Rs & Ks & Os).
  { apply ms_on_table. }
  { rewrite Ei. intros i Hi. apply (Hfits i), in_or_app. now right. }
  { rewrite Ei. eapply NoDup_app_r. exact Nix. }
  { rewrite Ei. intros i Hi. change (m_indexes g1) with il0. rewrite (On _ (Hapart i Hi)). apply Hfind, in_or_app. now right. }
  rewrite Ei in Ks, Os. change (m_indexes g1) with il0 in Os.
  assert (Ki : forall i, In i (ms_indexes l t) -> exists k, named i_name (i_name i) il = Some k /\ index_matches k i).
  { intros i Hi. apply in_app_iff in Hi as [Hi|Hi]; [|now apply Ks]. rewrite Os; [now apply Kn|]. intros X. apply (nodup_app_disjoint _ _ Nix (i_name i)); [now apply in_map|exact X]. }
  assert (Oi : forall x, ~ In x (map i_name (ms_indexes l t)) -> named i_name x il = named i_name x (m_indexes s)).
  { intros x Hx. unfold ms_indexes in Hx. rewrite map_app, in_app_iff in Hx. rewrite Os by tauto. apply On. tauto. }
  set (g2 := with_m_indexes il g1) in *. assert (S2 : ms_sound g2) by (eapply ms_alters_sound; [exact Hgiven|exact S1|exact Rs]).
  (* obsolete foreign keys *)
  assert (HDf : forall x, In x ms_gone_fks <-> In x (map fk_constraint (m_fks s)) /\ ~ In x (map fk_constraint (t_fks t))).
  { intros x. unfold ms_gone_fks. split.
    - intros X. apply in_map_iff in X as (f & <- & X). apply filter_In in X as [X1 X2]. apply negb_true_iff, mem_not_in in X2. split; [now apply in_map|exact X2].
    - intros [X1 X2]. apply in_map_iff in X1 as (f & <- & X1). apply in_map, filter_In. split; [exact X1|]. now apply negb_true_iff, mem_not_in. }
  assert (Rcf : run (cleanup_fks Mssql ct dt) g2 = Some (with_m_fks (filter (fun f => negb (mem (fk_constraint f) ms_gone_fks)) fl) g2)).
  { assert (E2 : g2 = with_m_fks fl g2) by reflexivity. rewrite E2 at 1. rewrite ms_cleanup_fks.
    apply (ms_drops_run fk_constraint (fun L => with_m_fks L g2)).
    - intros x L Hx. cbn [stmt_drop_fk_constraint s_eff ms_alter with_m_fks m_fks]. apply mem_in in Hx. now rewrite Hx.
    - apply nodup_filter_names, (mo_fks _ Hs).
    - intros x Hx. apply HDf in Hx as [X1 X2]. apply Of in X2. destruct (named_in fk_constraint _ _ X1) as (f & Ef). rewrite Ef in X2. apply named_some in X2 as [X2 <-]. now apply in_map. }
  set (fl' := filter (fun f => negb (mem (fk_constraint f) ms_gone_fks)) fl) in *. set (g3 := with_m_fks fl' g2) in *.
  (* obsolete key and indexes *)
  set (last := match primary_key t with Some _ => new_key w t s | None => None end).
  assert (Rk : run ms_drop_key g3 = Some (with_m_key last g3)).
  { assert (E3 : forall k, m_key g3 = k -> with_m_key k g3 = g3) by (intros k <-; now destruct g3). assert (Ek3 : m_key g3 = new_key w t s) by exact M5. unfold ms_drop_key, last.
    unfold new_key in *. destruct (m_key s) as [k|] eqn:Ek, (primary_key t) as [i|] eqn:Ep; cbn [alters]; try (now rewrite (E3 _ Ek3)).
    cbn [s_eff ms_alter]. rewrite Ek3, String.eqb_refl. reflexivity. }
  set (g4 := with_m_key last g3) in *.
  assert (HDi : forall x, In x ms_gone_indexes <-> In x (map i_name (m_indexes s)) /\ ~ In x (map i_name (ms_indexes l t))).
  { intros x. unfold ms_gone_indexes. split.
    - intros X. apply in_map_iff in X as (f & <- & X). apply filter_In in X as [X1 X2]. apply negb_true_iff, mem_not_in in X2. split; [now apply in_map|exact X2].
    - intros [X1 X2]. apply in_map_iff in X1 as (f & <- & X1). apply in_map, filter_In. split; [exact X1|]. now apply negb_true_iff, mem_not_in. }
  assert (Nis : NoDup (map i_name (m_indexes s))).
  { pose proof (mo_indexes _ Hs) as X. destruct (m_key s); cbn [listed app map] in X; [now inversion X|exact X]. }
  assert (Ri : run (map (stmt_drop_index Mssql (m_name s)) ms_gone_indexes) g4 = Some (with_m_indexes (filter (fun k => negb (mem (i_name k) ms_gone_indexes)) il) g4)).
  { assert (E4 : g4 = with_m_indexes il g4) by reflexivity. rewrite E4 at 1.
    apply (ms_drops_run i_name (fun L => with_m_indexes L g4)).
    - intros x L Hx. cbn [stmt_drop_index s_eff ms_alter with_m_indexes m_indexes]. apply mem_in in Hx. now rewrite Hx.
    - now apply nodup_filter_names.
    - intros x Hx. apply HDi in Hx as [X1 X2]. apply Oi in X2.  destruct (named_in i_name _ _ X1) as (f & Ef). rewrite Ef in X2. apply named_some in X2 as [X2 <-]. now apply in_map. }
  set (il' := filter (fun k => negb (mem (i_name k) ms_gone_indexes)) il) in *. set (g5 := with_m_indexes il' g4) in *.
  assert (S5 : ms_sound g5).
  { eapply ms_alters_sound; [exact Hgiven| |exact Ri]. eapply ms_alters_sound; [exact Hgiven| |exact Rk]. eapply ms_alters_sound; [exact Hgiven|exact S2|exact Rcf]. }
  assert (Nil : NoDup (map i_name il)). { pose proof (mo_indexes _ S2) as X. change (m_indexes g2) with il in X. destruct (m_key g2); cbn [listed app map] in X; [now inversion X|exact X]. }
  assert (Nfl : NoDup (map fk_constraint fl)) by apply (mo_fks _ S1).
  (* what stays is on desired columns *)
  assert (Left : forall k, In k il' -> In (i_name k) (map i_name (ms_indexes l t))).
  { intros k Hk. apply filter_In in Hk as [Hk Hd]. apply negb_true_iff, mem_not_in in Hd. destruct (in_dec string_dec (i_name k) (map i_name (ms_indexes l t))) as [|N]; [assumption|].
    exfalso. apply Hd, HDi. split; [|exact N]. pose proof (Oi _ N) as E. rewrite (in_named i_name _ k Nil Hk) in E.  symmetry in E. apply named_some in E as [E _]. now apply in_map. }
  assert (Leftf : forall f, In f fl' -> In (fk_constraint f) (map fk_constraint (t_fks t))).
  { intros f Hf. apply filter_In in Hf as [Hf Hd]. apply negb_true_iff, mem_not_in in Hd. destruct (in_dec string_dec (fk_constraint f) (map fk_constraint (t_fks t))) as [|N]; [assumption|].
    exfalso. apply Hd, HDf. split; [|exact N]. pose proof (Of _ N) as E. rewrite (in_named fk_constraint _ f Nfl Hf) in E. symmetry in E. apply named_some in E as [E _]. now apply in_map. }
  assert (Klast : forall i, primary_key t = Some i -> exists k, last = Some k /\ index_matches k i /\ (i_name i = "PRIMARY" \/ i_name k = i_name i)).
  { intros i Ep. unfold last, new_key. rewrite Ep. assert (Dp : declares_pk t (Some i)) by (rewrite <- Ep; apply primary_key_declared). destruct (m_key s) as [k|] eqn:Ek.
    - exists k. split; [reflexivity|]. now apply (ss_key _ _ _ _ Hset).
    - eexists. split; [reflexivity|]. split; [now apply (key_matches w l t Hac Hmt)|]. cbn [ms_key i_name]. unfold key_name. destruct (String.eqb_spec (i_name i) "PRIMARY"); auto. }
  assert (Huse : forall x, ~ In x cols_t -> in_use x g5 = false).
  { intros x Hx. unfold in_use. cbn [g5 with_m_indexes m_key m_indexes m_fks g4 with_m_key g3 with_m_fks]. rewrite !orb_false_iff. split; [split|].
    - destruct last as [k|] eqn:El; [|reflexivity]. apply mem_not_in. intros X. apply Hx. destruct (primary_key t) as [i|] eqn:Ep; [|unfold last in El; discriminate].
      destruct (Klast i eq_refl) as (k' & E' & Hm & _). assert (k' = k) as -> by congruence. destruct (ms_wanted w l t Hac Hmt i Ep) as (_ & _ & V & _ & _ & Inc & _).
      rewrite (matches_columns _ _ Hm) in X. unfold index_columns in X. rewrite Inc, app_nil_r in X. unfold ms_key_valid in V. rewrite !andb_true_iff, all_in_spec in V. now apply V.
    - apply not_true_iff_false. intros X. apply existsb_exists in X as (k & Hk & X). apply mem_in in X. apply Hx. pose proof (Left k Hk) as Y. apply in_map_iff in Y as (i & En & Hi).
      destruct (Ki i Hi) as (k' & Ek' & Hm). rewrite En in Ek'. apply filter_In in Hk as [Hk _]. rewrite (in_named i_name _ k Nil Hk) in Ek'. injection Ek' as <-.
      rewrite (matches_columns _ _ Hm) in X. now apply (mt_index _ _ _ Hmt i Hi).
    - apply not_true_iff_false. intros X. apply existsb_exists in X as (f & Hf & X). apply mem_in in X. apply Hx. pose proof (Leftf f Hf) as Y. apply in_map_iff in Y as (f0 & En & Hf0).
      destruct (Kf f0 Hf0) as (f' & Ef' & Hm). rewrite En in Ef'. apply filter_In in Hf as [Hf _]. rewrite (in_named fk_constraint _ f Nfl Hf) in Ef'. injection Ef' as <-.
      destruct Hm as (_ & E & _). rewrite E in X. now apply (fk_valid_parts f0 Hf0). }
  (* obsolete columns *)
  assert (Hgone : forall c, In c ms_gone_columns <-> In c (m_columns s) /\ ~ In (c_name c) cols_t).
  { intros c. unfold ms_gone_columns. rewrite filter_In, negb_true_iff, mem_not_in. reflexivity. }
  set (cl := filter (fun x => negb (mem (c_name x) (map c_name ms_gone_columns))) (m_columns g)).
  assert (Rcc : run (cleanup_columns Mssql ct dt) g5 = Some (with_m_columns cl g5)).
  { assert (E5 : g5 = with_m_columns (m_columns g) g5) by reflexivity. rewrite E5 at 1. rewrite ms_cleanup_columns. apply ms_drop_columns_run; [exact Huse| | |].
    - intros c Hc. apply Hgone in Hc as [H1 H2]. split; [exact H2|]. now apply (ss_dropped _ _ _ _ Hset).
    - unfold ms_gone_columns. apply nodup_filter_names, (mo_names _ Hs).
    - intros c Hc. apply Hgone in Hc as [H1 H2]. rewrite (M4 _ H2). now apply in_named; [apply (mo_names _ Hs)|]. }
  exists (with_m_columns cl g5). split.
  { rewrite app_assoc, alters_app, Rg. rewrite alters_app, Rn. rewrite alters_app, Rf. rewrite alters_app, Rs. rewrite alters_app, Rcf. rewrite (ms_cleanup_indexes cix Hcix). rewrite <- (app_assoc ms_drop_key). rewrite alters_app, Rk. rewrite alters_app, Ri. rewrite alters_app, Rcc. reflexivity. }
  assert (Gone2 : forall x, In x (map c_name ms_gone_columns) <-> In x (m_names s) /\ ~ In x cols_t).
  { intros x. split.
    - intros X. apply in_map_iff in X as (c & <- & X). apply Hgone in X as [X1 X2]. split; [unfold m_names; now apply in_map|exact X2].
    - intros [X1 X2]. unfold m_names in X1. apply in_map_iff in X1 as (c & <- & X1). apply in_map. now apply Hgone. }
  constructor; fold n; cbn [with_m_columns m_columns m_key m_indexes m_fks g5 with_m_indexes g4 with_m_key g3 with_m_fks].
  - intros c Hc. destruct (M3 c Hc) as (y & Ey & Hr). apply named_some in Ey as [Hy En]. exists y. split; [|exact Hr]. apply filter_In. split; [exact Hy|].
    apply negb_true_iff, mem_not_in. rewrite En, Gone2. intros [_ X]. apply X. now apply in_map.
  - intros y Hy. apply filter_In in Hy as [Hy Hn]. apply negb_true_iff, mem_not_in in Hn. destruct (in_dec string_dec (c_name y) cols_t) as [|N]; [assumption|].
    exfalso. apply Hn, Gone2. split; [|exact N]. pose proof (M4 _ N) as E. rewrite (in_named c_name _ y (mo_names _ M2) Hy) in E. symmetry in E. apply named_some in E as [E _]. unfold m_names. now apply in_map.
  - intros k Hk. assert (Ek : primary_key t = k) by (eapply declares_pk_fun; [apply primary_key_declared|exact Hk]). destruct k as [i|]; cbn [ms_key_reached].
    + exact (Klast i Ek).
    + change (last = None). unfold last. now rewrite Ek.
  - intros i Hi. destruct (Ki i Hi) as (k & Ek & Hm). apply named_some in Ek as [Hk En]. exists k. split; [|auto]. apply filter_In. split; [exact Hk|].
    apply negb_true_iff, mem_not_in. rewrite En, HDi. intros [_ X]. apply X. now apply in_map.
  - exact Left.
  - intros f Hf. destruct (Kf f Hf) as (f' & Ef & Hm). apply named_some in Ef as [Hf' En]. exists f'. split; [|auto]. apply filter_In. split; [exact Hf'|].
    apply negb_true_iff, mem_not_in. rewrite En, HDf. intros [_ X]. apply X. now apply in_map.
  - exact Leftf.
Qed.
End Whole.
