(** One run on an ideal PostgreSQL: every statement about a table that stays. *)
From Coq Require Import String Ascii List ZArith Bool Lia.
From Verif Require Import GoStr GoStrFacts Ast Generator SpecPlan ProofPlan ProofSteps ProofTables ProofCompare ProofSelf ProofExact SpecColumns
  ProofColumns SpecOrder ProofOrder SpecMysql ProofMysql ProofConverge ProofSettle SpecDatabase ProofDatabase SpecPostgres SpecConvergePg
  ProofPg ProofPgDump ProofPgColumn ProofPgKept ProofPgRest.
Import ListNotations.
Local Open Scope string_scope.
Local Open Scope list_scope.

(** ** Exported foreign keys *)
Definition piece (f : foreign_key) (x y : string) : foreign_key :=
  mkForeignKey (fk_constraint f) "" [x] (fk_ref_name f) [y] (if String.eqb (fk_on_delete f) "" then "NO ACTION" else fk_on_delete f)
    (if String.eqb (fk_on_update f) "" then "NO ACTION" else fk_on_update f) false.
Definition pieces (f : foreign_key) : list foreign_key :=
  flat_map (fun x => map (piece f x) (fk_ref_columns f)) (fk_index_columns f).

Lemma exported_pieces g : exported_fks g = flat_map pieces (g_fks g).
Proof. reflexivity. Qed.

Lemma in_pieces f p : In p (pieces f) -> exists x y, p = piece f x y.
Proof. unfold pieces. rewrite in_flat_map. intros (x & _ & H). apply in_map_iff in H as (y & <- & _). eauto. Qed.

Lemma find_fk_app a b n : find_fk (a ++ b) n = match find_fk a n with Some x => Some x | None => find_fk b n end.
Proof. unfold find_fk. induction a as [|x a IH]; [reflexivity|]. cbn [app find]. destruct (String.eqb _ _); [reflexivity|exact IH]. Qed.

Lemma find_exported n : forall L, (forall f, In f L -> fk_index_columns f <> [] /\ fk_ref_columns f <> []) ->
  match named fk_constraint n L with
  | None => find_fk (flat_map pieces L) n = None
  | Some f => exists x y, find_fk (flat_map pieces L) n = Some (piece f x y)
  end.
Proof.
  induction L as [|f L IH]; intros H; [reflexivity|]. cbn [flat_map]. rewrite named_cons, find_fk_app. specialize (IH (fun f Hf => H f (or_intror Hf))).
  destruct (H f (or_introl eq_refl)) as [H1 H2]. destruct (String.eqb_spec (fk_constraint f) n) as [E|N].
  - unfold pieces. destruct (fk_index_columns f) as [|x xs]; [now destruct H1|]. destruct (fk_ref_columns f) as [|y ys] eqn:Ey; [now destruct H2|].
    exists x, y. cbn [flat_map map app]. unfold find_fk. cbn [find piece fk_constraint]. rewrite E, String.eqb_refl. reflexivity.
  - assert (find_fk (pieces f) n = None) as ->; [|exact IH]. unfold find_fk. destruct (find _ (pieces f)) as [p|] eqn:E; [|reflexivity]. exfalso.
    apply find_some in E as [Hp E]. apply in_pieces in Hp as (x & y & ->). apply String.eqb_eq in E. cbn [piece fk_constraint] in E. contradiction.
Qed.

Lemma same_piece f x y d : fk_not_for_replication f = false -> are_same_foreign_keys Postgres (piece f x y) d = are_same_foreign_keys Postgres f d.
Proof.
  intros H. unfold are_same_foreign_keys, piece. cbn [fk_on_update fk_on_delete fk_not_for_replication normalize_action]. rewrite H.
  destruct (String.eqb (fk_on_update f) "") eqn:E1, (String.eqb (fk_on_delete f) "") eqn:E2; rewrite ?E1, ?E2; reflexivity.
Qed.

Lemma pg_fk_same_refl f : pg_fk_same f f.
Proof. unfold pg_fk_same, fk_matches, action_matches. repeat split; auto. Qed.

Lemma flat_map_flat_map {A B C} (f : B -> list C) (h : A -> list B) L : flat_map f (flat_map h L) = flat_map (fun a => flat_map f (h a)) L.
Proof. induction L as [|x L IH]; [reflexivity|]. cbn [flat_map]. now rewrite flat_map_app, IH. Qed.

Lemma concat_map_primary m ct t : forall L, (forall i, In i L -> i_primary i = true) -> concat_map (ddls_index m ct t) L = Ok [].
Proof. intros L H. apply concat_map_nil. intros i Hi. unfold ddls_index. now rewrite (H i Hi). Qed.

Section Whole.
Variable castable : column -> column -> bool.
Notation run := (alters (pg_alter castable)).
Variables (l : list ddl) (t : table) (s : pg_tab).
Hypothesis Hstm : forall d, In d l -> pg_statement d.
Hypothesis Hac : accepted t.
Hypothesis Hpt : pg_table l t.
Hypothesis Hs : sound s.
Hypothesis Hex : exportable s.
Hypothesis Hset : pg_settles castable l t s.
Hypothesis Hname : g_name s = t_name t.
Let ct := exported_table s.
Let dt := full_table l t.
Notation cols_t := (map c_name (t_columns t)).

Lemma dt_columns : t_columns dt = t_columns t.
Proof.
  unfold dt, full_table. cbn [t_columns]. assert (pk_marks (t_name t) l = []) as ->; [|rewrite <- (map_id (t_columns t)) at 2; apply map_ext; reflexivity].
  unfold pk_marks. apply flat_map_nil. intros d Hd. specialize (Hstm d Hd). destruct d; try reflexivity. destruct Hstm.
Qed.

(** ** Foreign keys *)
Lemma fks_run g : (forall x, In x cols_t -> In x (column_names_of g)) -> forall rest fl0 out,
  (forall f, In f rest -> In f (t_fks t)) -> NoDup (map fk_constraint rest) ->
  (forall f, In f rest -> named fk_constraint (fk_constraint f) fl0 = named fk_constraint (fk_constraint f) (g_fks s)) ->
  concat_map (ddls_fk Postgres ct t) rest = Ok out ->
  exists fl, run out (with_refs fl0 g) = Some (with_refs fl g) /\
    (forall f, In f rest -> exists f', named fk_constraint (fk_constraint f) fl = Some f' /\ pg_fk_same f' f) /\
    (forall x, ~ In x (map fk_constraint rest) -> named fk_constraint x fl = named fk_constraint x fl0).
Proof.
  intros Hg. induction rest as [|f rest IH]; intros fl0 out Hin Hnd Hfl H; cbn [concat_map] in H.
  - injection H as <-. exists fl0. repeat split. intros f [].
  - destruct (ddls_fk Postgres ct t f) as [a| | |] eqn:Ea; try discriminate. cbn [bind] in H. destruct (concat_map _ rest) as [b| | |] eqn:Eb; try discriminate. cbn [bind] in H. injection H as <-.
    inversion Hnd as [|? ? Hn1 Hn2]; subst.
    assert (exists fl1, run a (with_refs fl0 g) = Some (with_refs fl1 g) /\ (exists f', named fk_constraint (fk_constraint f) fl1 = Some f' /\ pg_fk_same f' f) /\
        forall x, x <> fk_constraint f -> named fk_constraint x fl1 = named fk_constraint x fl0) as (fl1 & R1 & K1 & O1).
    { assert (Hok : fk_ok t f) by (apply (ac_fk _ Hac); unfold created_fks; apply in_app_iff; left; apply Hin; now left).
      destruct Hok as (F1 & F2 & F3 & F4 & F5 & F6).
      assert (Hadd : forall L, named fk_constraint (fk_constraint f) L = None -> add_fk f (with_refs L g) = Some (with_refs (L ++ [f]) g)).
      { intros L HL. unfold add_fk. apply String.eqb_neq in F1. rewrite F1, F2, F3. cbn [negb andb String.eqb with_refs g_fks]. rewrite (proj2 (mem_false_none fk_constraint _ _) HL).
        assert (Nat.eqb (length (fk_index_columns f)) 0 = false) as -> by (destruct (fk_index_columns f); [now destruct F4|reflexivity]).
        assert (Nat.eqb (length (fk_ref_columns f)) 0 = false) as -> by (destruct (fk_ref_columns f); [now destruct F5|reflexivity]).
        assert (all_in (fk_index_columns f) (column_names_of (with_refs L g)) = true) as ->; [|reflexivity]. apply all_in_spec. intros x Hx. apply Hg, F6, Hx. }
      assert (Hhere : forall L, named fk_constraint (fk_constraint f) L = None -> named fk_constraint (fk_constraint f) (L ++ [f]) = Some f).
      { intros L HL. now rewrite named_app, HL, named_cons, String.eqb_refl. }
      assert (Hlast : forall L x, x <> fk_constraint f -> named fk_constraint x (L ++ [f]) = named fk_constraint x L).
      { intros L x Hx. rewrite named_app. destruct (named fk_constraint x L); [reflexivity|]. rewrite named_cons. destruct (String.eqb_spec (fk_constraint f) x); [congruence|reflexivity]. }
      unfold ddls_fk in Ea. destruct (String.eqb_spec (fk_constraint f) "") as [E|_]; [contradiction|].
      pose proof (Hfl f (or_introl eq_refl)) as Hf. pose proof (find_exported (fk_constraint f) (g_fks s)) as HF. rewrite <- exported_pieces in HF.
      assert (HF0 : forall f0, In f0 (g_fks s) -> fk_index_columns f0 <> [] /\ fk_ref_columns f0 <> []) by (intros f0 H0; destruct (so_fk _ Hs f0 H0) as (? & ? & _); auto).
      specialize (HF HF0). clear HF0. change (t_fks ct) with (exported_fks s) in Ea.
      destruct (named fk_constraint (fk_constraint f) (g_fks s)) as [cf|] eqn:Ecf.
      - destruct HF as (x & y & HF). rewrite HF in Ea. apply named_some in Ecf as Ecf'. destruct Ecf' as [Hcf Hcn]. rewrite same_piece in Ea by apply (so_fk _ Hs cf Hcf).
        destruct (are_same_foreign_keys Postgres cf f) eqn:Es.
        + injection Ea as <-. exists fl0. split; [reflexivity|]. split; [|reflexivity]. exists cf. split; [exact Hf|]. apply (sp_fks _ _ _ _ Hset f cf); auto; [apply Hin; now left|now apply are_same_foreign_keys_spec].
        + injection Ea as <-. exists (remove_named fk_constraint (fk_constraint f) fl0 ++ [f]).
          assert (Hnone : named fk_constraint (fk_constraint f) (remove_named fk_constraint (fk_constraint f) fl0) = None) by (now rewrite named_remove, String.eqb_refl).
          split; [|split; [exists f; split; [now apply Hhere|apply pg_fk_same_refl]|]].
          * cbn [app alters stmt_drop_fk_constraint stmt_add_fk s_eff pg_alter]. cbn [piece fk_constraint with_refs g_fks]. rewrite Hcn.
            assert (mem (fk_constraint f) (map fk_constraint fl0) = true) as ->. { apply mem_in. apply named_some in Hf as [Hf1 Hf2]. rewrite <- Hf2 at 1. rewrite Hcn. rewrite <- Hcn. now apply in_map. }
            change (with_refs (remove_named fk_constraint (fk_constraint f) fl0) (with_refs fl0 g)) with (with_refs (remove_named fk_constraint (fk_constraint f) fl0) g).
            now rewrite (Hadd _ Hnone).
          * intros z Hz. rewrite Hlast by assumption. rewrite named_remove. destruct (String.eqb_spec z (fk_constraint f)); [congruence|reflexivity].
      - rewrite HF in Ea. injection Ea as <-. exists (fl0 ++ [f]). split; [|split; [exists f; split; [now apply Hhere|apply pg_fk_same_refl]|intros z Hz; now apply Hlast]].
        cbn [alters stmt_add_fk s_eff pg_alter]. now rewrite (Hadd _ Hf). }
    destruct (IH fl1 b) as (fl & R2 & K2 & O2); auto.
    { intros f' Hf'. apply Hin. now right. }
    { intros f' Hf'. rewrite O1; [apply Hfl; now right|]. intros E. apply Hn1. rewrite <- E. now apply in_map. }
    exists fl. split; [now rewrite alters_app, R1|]. split.
    + intros f' [<-|Hf']; [|now apply K2]. rewrite O2 by assumption. exact K1.
    + cbn [map]. intros x Hx. rewrite O2 by (intros X; apply Hx; now right). apply O1. intros ->. apply Hx. now left.
Qed.

(** ** What the clean-up drops *)
Definition fk_goes (f : foreign_key) : bool :=
  negb (contains_string (fk_names (all_fks l t)) (fk_constraint f)) && negb (existsb (fun c => String.eqb (c_references c) (fk_ref_name f)) (t_columns t)).

Lemma fk_goes_spec f : fk_goes f = true <-> ~ In (fk_constraint f) (map fk_constraint (all_fks l t)) /\ ~ fk_tolerated t f.
Proof.
  unfold fk_goes. rewrite andb_true_iff, !negb_true_iff. unfold fk_tolerated.
  assert (A : existsb (fun c => String.eqb (c_references c) (fk_ref_name f)) (t_columns t) = true <-> exists c, In c (t_columns t) /\ c_references c = fk_ref_name f).
  { rewrite existsb_exists. split; intros (c & H1 & H2); exists c; (split; [exact H1|]); now apply String.eqb_eq. }
  rewrite <- A. rewrite not_true_iff_false. rewrite contains_string_false. reflexivity.
Qed.

Lemma cleanup_fks_eq : cleanup_fks Postgres ct dt = map (stmt_drop_fk_constraint Postgres (g_name s)) (map fk_constraint (filter fk_goes (g_fks s))).
Proof.
  unfold cleanup_fks. change (t_fks ct) with (exported_fks s). rewrite exported_pieces, flat_map_flat_map. apply flat_map_drops. intros f Hf.
  assert (Hp : forall x y, (if contains_string (fk_names (t_fks dt)) (fk_constraint (piece f x y)) then [] else absent_fk Postgres ct dt (piece f x y)) =
      if fk_goes f then [stmt_drop_fk_constraint Postgres (g_name s) (fk_constraint f)] else []).
  { intros x y. change (t_fks dt) with (all_fks l t). unfold fk_goes, absent_fk. rewrite dt_columns. cbn [piece fk_constraint fk_ref_name].
    destruct (contains_string _ _); cbn [negb andb]; [reflexivity|]. destruct (existsb _ _); reflexivity. }
  destruct (fk_goes f) eqn:Eg.
  - apply fk_goes_spec in Eg as [E1 E2]. destruct (sp_obsolete_fks _ _ _ _ Hset f Hf E1 E2) as [L1 L2].
    unfold pieces. destruct (fk_index_columns f) as [|x [|]]; try discriminate. destruct (fk_ref_columns f) as [|y [|]]; try discriminate.
    cbn [flat_map map app]. now rewrite Hp.
  - apply flat_map_nil. intros p Hpp. apply in_pieces in Hpp as (x & y & ->). apply Hp.
Qed.

Definition index_goes (k : index) : bool :=
  negb (contains_string (index_names (t_indexes dt)) (i_name k) || contains_string (fk_index_names (t_fks dt)) (i_name k)) &&
  negb (i_unique k && match i_columns k with [] => false | ic :: _ => existsb (fun c => String.eqb (c_name c) (ic_column ic) && is_unique (c_key c)) (t_columns t) end).

Lemma unique_first k : (i_unique k && match i_columns k with [] => false | ic :: _ => existsb (fun c => String.eqb (c_name c) (ic_column ic) && is_unique (c_key c)) (t_columns t) end) = true <->
  i_unique k = true /\ exists c ic rest, In c (t_columns t) /\ is_unique (c_key c) = true /\ i_columns k = ic :: rest /\ c_name c = ic_column ic.
Proof.
  rewrite andb_true_iff. split; intros [H1 H2]; (split; [exact H1|]).
  - destruct (i_columns k) as [|ic rest]; [discriminate|]. apply existsb_exists in H2 as (c & Hc & H2). apply andb_true_iff in H2 as [A B]. apply String.eqb_eq in A. eauto 8.
  - destruct H2 as (c & ic & rest & Hc & U & -> & E). apply existsb_exists. exists c. split; [exact Hc|]. rewrite E, String.eqb_refl. exact U.
Qed.

Lemma index_goes_spec k : index_name_ok (i_name k) ->
  (index_goes k = true <-> ~ In (i_name k) (map i_name (indexes_on (t_name t) l)) /\ ~ pg_tolerated l t k).
Proof.
  intros Hok. unfold index_goes, pg_tolerated. rewrite andb_true_iff, !negb_true_iff, orb_false_iff.
  assert (A : contains_string (index_names (t_indexes dt)) (i_name k) = false <-> ~ In (i_name k) (map i_name (indexes_on (t_name t) l))).
  { rewrite contains_string_false. unfold index_names, dt, full_table. cbn [t_indexes]. rewrite map_app, in_app_iff. split; [tauto|]. intros H [X|X]; [|contradiction].
    apply in_map_iff in X as (i & Ei & Hi). destruct (pt_primary _ _ Hpt i Hi) as (P & _). rewrite Ei in P. destruct Hok as [O1 O2]. destruct P as [P|[P|[]]]; [now symmetry in P|].
    rewrite <- P, pkey_ends in O1. discriminate. }
  assert (B : contains_string (fk_index_names (t_fks dt)) (i_name k) = false <-> ~ backs_fk (all_fks l t) (i_name k)).
  { rewrite contains_string_false. change (t_fks dt) with (all_fks l t). now rewrite fk_index_names_spec. }
  rewrite A, B, <- unique_first, <- not_true_iff_false. tauto.
Qed.

Lemma cleanup_indexes_eq cix : cleanup_indexes Postgres ct dt = Ok cix ->
  cix = map (stmt_drop_index Postgres (g_name s)) (map i_name (filter index_goes (g_indexes s))).
Proof.
  unfold cleanup_indexes. change (t_indexes ct) with (exported_pk s ++ exported_indexes s). rewrite (exported_indexes_eq _ Hex). intros H.
  rewrite <- (filter_all (fun i => negb (i_primary i)) (g_indexes s)) by (intros i Hi; now rewrite (so_index _ Hs i Hi)).
  assert (E : filter (fun i => negb (i_primary i)) (g_indexes s) = filter (fun i => negb (i_primary i)) (exported_pk s ++ g_indexes s)).
  { rewrite filter_app. unfold exported_pk. destruct (g_pk s) as [[? ?]|]; reflexivity. }
  rewrite E. assert (F : forall L, filter index_goes (filter (fun i => negb (i_primary i)) L) = filter (fun k => negb (i_primary k) && index_goes k) L).
  { intros L. induction L as [|x L IL]; [reflexivity|]. cbn [filter]. destruct (i_primary x); cbn [negb andb filter]; [exact IL|]. destruct (index_goes x); now rewrite IL. }
  rewrite F. revert H. apply concat_map_drops. intros k o Hk Ho. unfold index_goes. revert Ho.
  destruct (contains_string _ _ || contains_string _ _); cbn [negb andb]; [rewrite andb_false_r; congruence|].
  unfold absent_index. rewrite dt_columns. destruct (i_primary k); cbn [negb andb].
  { destruct (find _ (t_columns t)); [|congruence]. destruct (i_columns k); [discriminate|]. destruct (String.eqb _ _); [congruence|discriminate]. }
  destruct (i_unique k); cbn [negb andb]; [|intros Ho; injection Ho as <-; reflexivity].
  destruct (t_columns t) as [|c0 cs] eqn:Ec; [destruct (i_columns k); intros Ho; injection Ho as <-; reflexivity|]. destruct (i_columns k); [discriminate|].
  destruct (existsb _ _); cbn [negb]; intros Ho; injection Ho as <-; reflexivity.
Qed.

Definition drop_column (n : string) : stmt :=
  mkStmt (alter Postgres (g_name s) ++ " DROP COLUMN " ++ escape_sql_name Postgres n)%string (EffDropColumn (g_name s) n).
Definition gone_columns : list string := filter (fun n => negb (mem n cols_t)) (map c_name (g_columns s)).

Lemma gone_spec n : In n gone_columns <-> In n (map c_name (g_columns s)) /\ ~ In n cols_t.
Proof. unfold gone_columns. rewrite filter_In, negb_true_iff, mem_not_in. reflexivity. Qed.

Lemma cleanup_columns_eq : cleanup_columns Postgres ct dt = map drop_column gone_columns.
Proof.
  unfold cleanup_columns, gone_columns. rewrite dt_columns. change (t_columns ct) with (number 0 (map (exported_column s) (g_columns s))).
  rewrite (flat_map_drops _ (fun c => negb (mem (c_name c) cols_t)) c_name drop_column).
  - f_equal. generalize 0%Z. induction (g_columns s) as [|c L IL]; intros z; [reflexivity|]. cbn [map number filter set_position exported_column c_name].
    destruct (mem (c_name c) cols_t); cbn [negb map]; [apply IL|]. f_equal. apply IL.
  - intros c _. unfold column_names. destruct (contains_string cols_t (c_name c)) eqn:E.
    + apply contains_string_spec in E. apply mem_in in E. now rewrite E.
    + apply contains_string_false in E. apply mem_not_in in E. now rewrite E.
Qed.

Definition gone_policies : list string := map p_name (filter (fun p => negb (mem (p_name p) (map p_name (policies_on (t_name t) l)))) (g_policies s)).

Lemma cleanup_policies_eq : cleanup_policies Postgres ct dt = map (fun n => stmt_drop_policy Postgres n (g_name s)) gone_policies.
Proof.
  unfold cleanup_policies, gone_policies. change (t_policies ct) with (g_policies s). unfold dt, full_table. cbn [t_policies]. rewrite (ac_policies _ Hac). cbn [app].
  apply flat_map_drops. intros p _. unfold policy_names.
  destruct (contains_string (map p_name (policies_on (t_name t) l)) (p_name p)) eqn:E.
  - apply contains_string_spec in E. apply mem_in in E. now rewrite E.
  - apply contains_string_false in E. apply mem_not_in in E. now rewrite E.
Qed.

(** ** The whole run *)
Lemma on_table d : In d (statements_on (t_name t) l) -> pg_statement d /\ ddl_table d = Some (t_name t).
Proof.
  unfold statements_on. intros H. apply filter_In in H as [H1 H2]. split; [now apply Hstm|]. destruct (ddl_table d) as [x|]; [|discriminate]. apply String.eqb_eq in H2. now subst.
Qed.

Lemma columns_not_gone x : In x cols_t -> ~ In x gone_columns.
Proof. intros H X. apply gone_spec in X. tauto. Qed.

Lemma untouched cols : (forall x, In x cols -> In x cols_t) -> touches gone_columns cols = false.
Proof. intros H. apply not_true_iff_false. rewrite touches_spec. intros (x & H1 & H2). now apply (columns_not_gone x (H x H2)). Qed.

Lemma index_stays k : index_name_ok (i_name k) -> index_goes k = false -> ~ In (i_name k) (map i_name (indexes_on (t_name t) l)) -> pg_tolerated l t k.
Proof.
  intros Hok G N. unfold index_goes in G. apply andb_false_iff in G as [G|G]; apply negb_false_iff in G; [|right; now apply unique_first].
  apply orb_true_iff in G as [G|G]; apply contains_string_spec in G; [|left; now apply fk_index_names_spec]. exfalso.
  unfold index_names, dt, full_table in G. cbn [t_indexes] in G. rewrite map_app, in_app_iff in G. destruct G as [G|G]; [|contradiction].
  apply in_map_iff in G as (i & Ei & Hi). destruct (pt_primary _ _ Hpt i Hi) as (P & _). rewrite Ei in P. destruct Hok as [O1 O2]. destruct P as [P|[P|[]]]; [now symmetry in P|].
  rewrite <- P, pkey_ends in O1. discriminate.
Qed.

Lemma in_named {A} (f : A -> string) L x : NoDup (map f L) -> In x L -> named f (f x) L = Some x.
Proof. intros H1 H2. now apply named_self. Qed.

Theorem kept_run cols pk idx fks cix :
  ddls_columns Postgres ct t None (t_columns t) = Ok cols -> ddls_primary_key Postgres ct t = Ok pk ->
  concat_map (ddls_index Postgres ct t) (t_indexes t) = Ok idx -> concat_map (ddls_fk Postgres ct t) (t_fks t) = Ok fks ->
  cleanup_indexes Postgres ct dt = Ok cix ->
  exists g, run (cols ++ pk ++ idx ++ fks ++ flat_map (standalone Postgres ct) (statements_on (t_name t) l) ++
                 cleanup_fks Postgres ct dt ++ cix ++ cleanup_columns Postgres ct dt ++ cleanup_policies Postgres ct dt) s = Some g /\
    pg_reached l t g /\ exportable g.
Proof.
  intros Hcols Hpk Hidx Hfks Hcix. rewrite concat_map_primary in Hidx by apply (ac_primary _ Hac). injection Hidx as <-.
  destruct (middle_run castable l t s Hac Hpt Hs Hex Hset Hname cols pk Hcols Hpk) as (g & Rg & [M1 M2 M3 M4 M5 M6 M7 M8 M9]).
  destruct (wanted_shape l t Hac Hpt) as [_ Hshape].
  assert (Hmid : forall x, In x cols_t -> In x (column_names_of g)).
  { intros x Hx. apply in_map_iff in Hx as (c & <- & Hc). destruct (M3 c Hc) as (y & Ey & _). apply named_some in Ey as [Hy <-]. unfold column_names_of. now apply in_map. }
  assert (Hnewname : forall x, In x (map i_name (new_uniques t s (t_columns t))) ->
      ~ In x (map i_name (g_indexes s)) /\ ~ In x (map i_name (indexes_on (t_name t) l)) /\ index_name_ok x).
  { intros x Hx. apply in_map_iff in Hx as (k & <- & Hk). pose proof (new_unique_ok t s _ _ Hk) as Hok. unfold new_uniques in Hk. apply in_map_iff in Hk as (c & <- & Hc). apply filter_In in Hc as [Hc Hu].
    apply andb_true_iff in Hu as [Hu Ha]. unfold added in Ha. apply negb_true_iff, mem_not_in in Ha. destruct (sp_new_unique _ _ _ _ Hset c Hc Hu Ha). auto. }
  (* foreign keys *)
  assert (Eg : with_refs (g_fks s) g = g) by (rewrite <- M8; now destruct g).
  destruct (fks_run g Hmid (t_fks t) (g_fks s) fks) as (fl & Rf & Kf & Of); auto.
  { pose proof (ac_fks _ Hac) as X. unfold created_fks in X. rewrite map_app in X. clear -X. induction (map fk_constraint (t_fks t)) as [|a r IH]; [constructor|]. cbn [app] in X. inversion X as [|? ? X1 X2]; subst. constructor; [|auto]. intros Y. apply X1, in_app_iff. now left. }
  rewrite Eg in Rf. set (g1 := with_refs fl g) in *. assert (S1 : sound g1) by (eapply alters_sound; [exact M2|exact Rf]).
  (* indexes and policies *)
  set (n := t_name t) in *. set (st := statements_on n l) in *.
  assert (Ei : indexes_on n st = indexes_on n l) by apply indexes_on_statements. assert (Ep : policies_on n st = policies_on n l) by apply policies_on_statements.
  assert (Hni : forall x, In x (map i_name (indexes_on n l)) -> named i_name x (g_indexes g1) = named i_name x (g_indexes s)).
  { intros x Hx. cbn [g1 with_refs g_indexes]. rewrite M6, named_app. destruct (named i_name x (g_indexes s)); [reflexivity|]. apply named_none. intros X. apply Hnewname in X. tauto. }
  destruct (standalone_run castable n ct st g1) as (il & pl & Rs & Ki & Oi & Kp & Op).
  - apply on_table.
  - rewrite Ei. intros i Hi. destruct (pt_index _ _ Hpt i Hi) as (A1 & A2 & A3 & A4 & A5). unfold index_fits. auto 8.
  - rewrite Ei. apply (pt_indexes _ _ Hpt).
  - rewrite Ep. apply (pt_policies _ _ Hpt).
  - rewrite Ei. intros i Hi. rewrite Hni by (now apply in_map). change (t_indexes ct) with (exported_pk s ++ exported_indexes s). rewrite (exported_indexes_eq _ Hex).
    unfold exported_pk. destruct (g_pk s) as [[k ks]|]; [|reflexivity]. cbn [app]. unfold find_index. cbn [find i_name].
    destruct (String.eqb_spec "PRIMARY" (i_name i)) as [E|_]; [|reflexivity]. destruct (pt_index _ _ Hpt i Hi) as ((_ & A) & _). congruence.
  - rewrite Ei. intros i k Hi. rewrite Hni by (now apply in_map). intros Hk Hm. apply named_some in Hk as [Hk En]. cbn [g1 with_refs g_name g_owned].
    assert (~ In (i_name k) (map i_name (new_uniques t s (t_columns t)))). { intros X. apply Hnewname in X. rewrite En in X. destruct X as (_ & X & _). apply X. now apply in_map. }
    destruct (sp_index _ _ _ _ Hset k Hk) as [(i' & Hi' & En' & Hm')|[[X _]|[X Y]]].
    + exfalso. apply Hm. assert (i' = i) as <-; [|exact Hm']. pose proof (in_named i_name _ i (pt_indexes _ _ Hpt) Hi) as A1. pose proof (in_named i_name _ i' (pt_indexes _ _ Hpt) Hi') as A2. rewrite En', En in A2. congruence.
    + exfalso. apply X. rewrite En. now apply in_map.
    + rewrite M1, M7. split; [exact X|]. rewrite in_app_iff. tauto.
  - rewrite Ep. intros p Hp. cbn [g1 with_refs g_policies]. rewrite M9. reflexivity.
  - cbn [g1 with_refs g_pk]. rewrite M5. unfold wanted_pk. destruct (primary_key t); [|discriminate]. intros k ks E. injection E as <- <-. eauto.
  - rewrite Ei in Ki, Oi. rewrite Ep in Kp, Op. set (g2 := with_policies pl (with_idx il (g_owned g1) g1)) in *. assert (S2 : sound g2) by (eapply alters_sound; [exact S1|exact Rs]).
    (* obsolete foreign keys *)
    set (Df := map fk_constraint (filter fk_goes (g_fks s))).
    assert (HDf : forall x, In x Df -> ~ In x (map fk_constraint (all_fks l t)) /\ exists f, In f (g_fks s) /\ fk_constraint f = x /\ ~ fk_tolerated t f).
    { intros x Hx. apply in_map_iff in Hx as (f & <- & Hf). apply filter_In in Hf as [Hf Hg]. apply fk_goes_spec in Hg as [G1 G2]. eauto. }
    assert (HDfl : forall x, ~ In x (map fk_constraint (t_fks t)) -> named fk_constraint x fl = named fk_constraint x (g_fks s)) by exact Of.
    assert (Rcf : run (cleanup_fks Postgres ct dt) g2 = Some (with_refs (filter (fun f => negb (mem (fk_constraint f) Df)) fl) g2)).
    { assert (E2 : g2 = with_refs fl g2) by reflexivity. rewrite E2 at 1. rewrite cleanup_fks_eq. fold Df.
      apply (drops_run castable fk_constraint (fun L => with_refs L g2) _ (fun _ => True)).
      - intros x L Hx _. cbn [stmt_drop_fk_constraint s_eff pg_alter with_refs g_fks]. apply mem_in in Hx. now rewrite Hx.
      - apply nodup_filter_names, (so_fks _ Hs).
      - intros x Hx. split; [|exact I]. destruct (HDf x Hx) as (N & f & Hf & <- & _). assert (Hn : ~ In (fk_constraint f) (map fk_constraint (t_fks t))) by (intros X; apply N; unfold all_fks; rewrite map_app, in_app_iff; now left).
        apply HDfl in Hn. rewrite (in_named fk_constraint _ f (so_fks _ Hs) Hf) in Hn. apply named_some in Hn as [Hn _]. now apply in_map. }
    set (fl' := filter (fun f => negb (mem (fk_constraint f) Df)) fl) in *. set (g3 := with_refs fl' g2) in *.
    (* obsolete indexes *)
    set (Di := map i_name (filter index_goes (g_indexes s))).
    assert (HDi : forall k, In k (g_indexes s) -> (In (i_name k) Di <-> ~ In (i_name k) (map i_name (indexes_on n l)) /\ ~ pg_tolerated l t k)).
    { intros k Hk. pose proof (index_goes_spec k (ex_index _ Hex k Hk)) as IG. fold n in IG. rewrite <- IG. clear IG. unfold Di. split.
      - intros X. apply in_map_iff in X as (k' & En & X). apply filter_In in X as [X1 X2]. assert (k' = k) as <-; [|exact X2].
        pose proof (in_named i_name _ k (so_indexes _ Hs) Hk) as A1. pose proof (in_named i_name _ k' (so_indexes _ Hs) X1) as A2. rewrite En in A2. congruence.
      - intros X. apply in_map. apply filter_In. auto. }
    assert (HDin : forall x, In x Di -> exists k, In k (g_indexes s) /\ i_name k = x).
    { intros x Hx. apply in_map_iff in Hx as (k & <- & Hk). apply filter_In in Hk as [Hk _]. eauto. }
    assert (Rci : run cix g3 = Some (with_idx (filter (fun k => negb (mem (i_name k) Di)) il) (g_owned g1) g3)).
    { assert (E3 : g3 = with_idx il (g_owned g1) g3) by reflexivity. rewrite E3 at 1. rewrite (cleanup_indexes_eq _ Hcix). fold Di.
      apply (drops_run castable i_name (fun L => with_idx L (g_owned g1) g3) _ (fun x => is_public n = true /\ ~ In x (g_owned g1))).
      - intros x L Hx [P O]. cbn [stmt_drop_index s_eff pg_alter]. unfold index_names_in. cbn [with_idx g_indexes g_owned g_name g3 with_refs g2 with_policies g1]. rewrite M1. apply mem_in in Hx. apply mem_not_in in O.
        cbn [g1 with_refs g_owned] in O. rewrite P, Hx, O. reflexivity.
      - apply nodup_filter_names, (so_indexes _ Hs).
      - intros x Hx. destruct (HDin x Hx) as (k & Hk & <-). destruct (proj1 (HDi k Hk) Hx) as [N1 N2].
        assert (Hnn : ~ In (i_name k) (map i_name (new_uniques t s (t_columns t)))) by (intros X; apply Hnewname in X; destruct X as (X & _); apply X; now apply in_map).
        split.
        + pose proof (Oi (i_name k) N1) as E. cbn [g1 with_refs g_indexes] in E. rewrite M6, named_app, (in_named i_name _ k (so_indexes _ Hs) Hk) in E. apply named_some in E as [E _]. now apply in_map.
        + destruct (sp_index _ _ _ _ Hset k Hk) as [(i' & Hi' & En' & _)|[[_ X]|[X Y]]]; [|contradiction|].
          * exfalso. apply N1. rewrite <- En'. now apply in_map.
          * split; [exact X|]. cbn [g1 with_refs g_owned]. rewrite M7, in_app_iff. tauto. }
    set (il' := filter (fun k => negb (mem (i_name k) Di)) il) in *. set (g4 := with_idx il' (g_owned g1) g3) in *.
    assert (S4 : sound g4). { eapply alters_sound; [|exact Rci]. eapply alters_sound; [exact S2|exact Rcf]. }
    (* obsolete columns *)
    destruct (drop_columns_run castable drop_column (g_name s) (fun _ => eq_refl) gone_columns g4) as (g5 & Rcc & C1 & C2 & C3 & C4 & C5 & C6 & C7).
    { apply (so_indexes _ S4). }
    { unfold gone_columns. apply NoDup_filter, (so_names _ Hs). }
    { intros x Hx. apply gone_spec in Hx as [X1 X2]. apply (M4 x X2), X1. }
    { intros k ks x E Hx. cbn [g4 with_idx g_pk g3 with_refs g2 with_policies g1] in E. rewrite M5 in E. unfold wanted_pk in E. destruct (primary_key t) as [i|] eqn:Epk; [|discriminate].
      injection E as <- <-. apply columns_not_gone. apply (pi_known _ _ (Hshape i eq_refl)), Hx. }
    assert (S5 : sound g5) by (eapply alters_sound; [exact S4|exact Rcc]).
    (* obsolete policies *)
    set (Dp := gone_policies).
    assert (HDp : forall x, In x Dp <-> In x (map p_name (g_policies s)) /\ ~ In x (map p_name (policies_on n l))).
    { intros x. unfold Dp, gone_policies. split.
      - intros X. apply in_map_iff in X as (p & <- & X). apply filter_In in X as [X1 X2]. apply negb_true_iff, mem_not_in in X2. split; [now apply in_map|exact X2].
      - intros [X1 X2]. apply in_map_iff in X1 as (p & <- & X1). apply in_map, filter_In. split; [exact X1|]. now apply negb_true_iff, mem_not_in. }
    assert (E5 : g_policies g5 = pl) by exact C3.
    assert (Rcp : run (cleanup_policies Postgres ct dt) g5 = Some (with_policies (filter (fun p => negb (mem (p_name p) Dp)) pl) g5)).
    { assert (E6 : g5 = with_policies pl g5) by (rewrite <- E5; now destruct g5). rewrite E6 at 1. rewrite cleanup_policies_eq. fold Dp.
      apply (drops_run castable p_name (fun L => with_policies L g5) (fun x => stmt_drop_policy Postgres x (g_name s)) (fun _ => True)).
      - intros x L Hx _. cbn [stmt_drop_policy s_eff pg_alter with_policies g_policies]. apply mem_in in Hx. now rewrite Hx.
      - apply nodup_filter_names, (so_policies _ Hs).
      - intros x Hx. split; [|exact I]. apply HDp in Hx as [X1 X2]. pose proof (Op x X2) as E. cbn [g1 with_refs g_policies] in E. rewrite M9 in E.
        destruct (named p_name x pl) as [p|] eqn:E'; [apply named_some in E' as [E' <-]; now apply in_map|]. symmetry in E. apply named_none in E. tauto. }
    set (g6 := with_policies (filter (fun p => negb (mem (p_name p) Dp)) pl) g5) in *.
    assert (S6 : sound g6) by (eapply alters_sound; [exact S5|exact Rcp]).
    exists g6. split.
    { rewrite app_assoc, alters_app, Rg. cbn [app]. rewrite alters_app, Rf. rewrite alters_app, Rs. rewrite alters_app, Rcf. rewrite alters_app, Rci. rewrite cleanup_columns_eq. rewrite alters_app, Rcc. exact Rcp. }
    assert (Fn : g_name g6 = n) by (cbn [g6 with_policies g_name]; rewrite C1; exact M1).
    assert (Fc : g_columns g6 = filter (fun c => negb (mem (c_name c) gone_columns)) (g_columns g)) by exact C4.
    assert (Fp : g_pk g6 = wanted_pk t) by (cbn [g6 with_policies g_pk]; rewrite C2; exact M5).
    assert (Fi : g_indexes g6 = filter (fun i => negb (touches gone_columns (index_columns i))) il') by exact C5.
    assert (Ff : g_fks g6 = filter (fun f => negb (touches gone_columns (fk_index_columns f))) fl') by exact C6.
    assert (Fl : g_policies g6 = filter (fun p => negb (mem (p_name p) Dp)) pl) by reflexivity.
    assert (Fo : forall k, In k (g_indexes g6) -> In (i_name k) (g_owned g1) -> In (i_name k) (g_owned g6)) by exact C7.
    assert (Nil : NoDup (map i_name il)) by apply (so_indexes _ S2). assert (Nfl : NoDup (map fk_constraint fl)) by apply (so_fks _ S1). assert (Npl : NoDup (map p_name pl)) by apply (so_policies _ S2).
    assert (Keep : forall k, In k il -> ~ In (i_name k) Di -> (forall x, In x (index_columns k) -> In x cols_t) -> In k (g_indexes g6)).
    { intros k K1 K2 K3. rewrite Fi. apply filter_In. split; [apply filter_In; split; [exact K1|]|]; apply negb_true_iff; [now apply mem_not_in|now apply untouched]. }
    assert (Keepf : forall f, In f fl -> ~ In (fk_constraint f) Df -> (forall x, In x (fk_index_columns f) -> In x cols_t) -> In f (g_fks g6)).
    { intros f K1 K2 K3. rewrite Ff. apply filter_In. split; [apply filter_In; split; [exact K1|]|]; apply negb_true_iff; [now apply mem_not_in|now apply untouched]. }
    assert (Same : forall k i, index_matches k i -> index_columns k = index_columns i /\ i_unique k = i_unique i).
    { intros k i Hm. pose proof (index_matches_columns _ _ Hm) as A. unfold index_columns. rewrite A. destruct Hm as (U & _ & _ & _ & Inc & _). now rewrite U, Inc. }
    assert (OldIdx : forall k, In k il -> ~ In (i_name k) (map i_name (indexes_on n l)) -> In k (g_indexes s) \/ In k (new_uniques t s (t_columns t))).
    { intros k Hk Hn. pose proof (Oi _ Hn) as E. rewrite (in_named i_name _ k Nil Hk) in E. symmetry in E. apply named_some in E as [E _]. cbn [g1 with_refs g_indexes] in E. rewrite M6, in_app_iff in E. exact E. }
    split.
    { constructor; fold n.
      - intros c Hc. destruct (M3 c Hc) as (y & Ey & Hr). apply named_some in Ey as [Hy En]. exists y. split; [|exact Hr]. rewrite Fc. apply filter_In. split; [exact Hy|].
        apply negb_true_iff, mem_not_in. rewrite En. apply columns_not_gone. now apply in_map.
      - intros y Hy. rewrite Fc in Hy. apply filter_In in Hy as [Hy Hn]. apply negb_true_iff, mem_not_in in Hn. destruct (in_dec string_dec (c_name y) cols_t) as [|N]; [assumption|].
        exfalso. apply Hn, gone_spec. split; [|exact N]. apply (M4 _ N). now apply in_map.
      - intros k Hk. rewrite Fp. unfold wanted_pk. f_equal. eapply declares_pk_fun; [apply primary_key_declared|exact Hk].
      - intros i Hi. destruct (Ki i Hi) as (k & Ek & Hm). apply named_some in Ek as [Hk En]. exists k. split; [|auto]. apply Keep; [exact Hk| |].
        + rewrite En. intros X. destruct (HDin _ X) as (k0 & Hk0 & En0). rewrite <- En0 in X. apply (HDi k0 Hk0) in X. destruct X as [X _]. apply X. rewrite En0. now apply in_map.
        + destruct (Same k i Hm) as [-> _]. apply (pt_index _ _ Hpt i Hi).
      - intros k Hk. rewrite Fi in Hk. apply filter_In in Hk as [Hk _]. apply filter_In in Hk as [Hk Hd]. apply negb_true_iff, mem_not_in in Hd.
        destruct (in_dec string_dec (i_name k) (map i_name (indexes_on n l))) as [|N]; [now left|right]. destruct (OldIdx k Hk N) as [H0|H0].
        + destruct (index_goes k) eqn:G.
          * apply (index_goes_spec k (ex_index _ Hex k H0)) in G. exfalso. apply Hd. now apply HDi.
          * apply index_stays; [now apply (ex_index _ Hex)|exact G|exact N].
        + right. unfold new_uniques in H0. apply in_map_iff in H0 as (c & <- & Hc). apply filter_In in Hc as [Hc Hu]. apply andb_true_iff in Hu as [Hu _]. split; [reflexivity|].
          exists c, (mkIndexColumn (c_name c) None "asc"), []. repeat split; auto.
      - intros c Hc Hu. destruct (in_dec string_dec (c_name c) (map c_name (g_columns s))) as [Hin|Hin].
        + destruct (sp_unique _ _ _ _ Hset c Hc Hu Hin) as (k & Hk & Ho & Hku & Hkc).
          assert (Ho1 : In (i_name k) (g_owned g1)) by (cbn [g1 with_refs g_owned]; rewrite M7, in_app_iff; now left).
          assert (HD : ~ In (i_name k) Di). { intros X. apply (HDi k Hk) in X as [N1 N2]. apply N2. right. split; [exact Hku|]. unfold index_columns, key_columns in Hkc.
            destruct (i_columns k) as [|ic r] eqn:Eic.
            - destruct (sp_index _ _ _ _ Hset k Hk) as [(i' & Hi' & En' & _)|[[_ X]|[_ X]]]; [|contradiction|contradiction]. exfalso. apply N1. rewrite <- En'. now apply in_map.
            - cbn [map app] in Hkc. injection Hkc as E _. exists c, ic, r. auto. }
          destruct (in_dec string_dec (i_name k) (map i_name (indexes_on n l))) as [N|N].
          * destruct (sp_index _ _ _ _ Hset k Hk) as [(i' & Hi' & En' & Hm')|[[X _]|[_ X]]]; [|contradiction|contradiction].
            destruct (Ki i' Hi') as (k' & Ek' & Hm). apply named_some in Ek' as [Hk' En]. rewrite En' in En. destruct (Same k i' Hm') as [A1 A2]. destruct (Same k' i' Hm) as [B1 B2].
            assert (Hin6 : In k' (g_indexes g6)). { apply Keep; [exact Hk'|now rewrite En|]. rewrite B1, <- A1, Hkc. intros x [<-|[]]. now apply in_map. }
            exists k'. unfold unique_on. split; [exact Hin6|]. split; [apply Fo; [exact Hin6|now rewrite En]|]. split; congruence.
          * assert (Hil : In k il). { pose proof (Oi _ N) as E. cbn [g1 with_refs g_indexes] in E. rewrite M6, named_app, (in_named i_name _ k (so_indexes _ Hs) Hk) in E. now apply named_some in E as [E _]. }
            assert (Hin6 : In k (g_indexes g6)). { apply Keep; [exact Hil|exact HD|]. rewrite Hkc. intros x [<-|[]]. now apply in_map. }
            exists k. unfold unique_on. auto.
        + set (k := pg_unique n (c_name c)). assert (Hk : In k (new_uniques t s (t_columns t))).
          { unfold new_uniques. apply in_map_iff. exists c. split; [reflexivity|]. apply filter_In. split; [exact Hc|]. rewrite Hu. unfold added. cbn [andb]. now apply negb_true_iff, mem_not_in. }
          destruct (Hnewname (i_name k) (in_map i_name _ _ Hk)) as (N1 & N2 & _).
          assert (Hil : In k il). { pose proof (Oi _ N2) as E. rewrite (in_named i_name (g_indexes g1) k) in E; [now apply named_some in E as [E _]|apply (so_indexes _ S1)|]. cbn [g1 with_refs g_indexes]. rewrite M6, in_app_iff. now right. }
          assert (Hin6 : In k (g_indexes g6)). { apply Keep; [exact Hil| |]. { intros X. destruct (HDin _ X) as (k0 & Hk0 & E0). apply N1. rewrite <- E0. now apply in_map. } cbn. intros x [<-|[]]. now apply in_map. }
          exists k. unfold unique_on. split; [exact Hin6|]. split; [apply Fo; [exact Hin6|]|split; reflexivity]. cbn [g1 with_refs g_owned]. rewrite M7, in_app_iff. right. now apply in_map.
      - intros f Hf. assert (HfD : ~ In (fk_constraint f) Df) by (intros X; apply HDf in X as [X _]; apply X; now apply in_map).
        unfold all_fks in Hf. apply in_app_iff in Hf as Hf'. destruct Hf' as [Hf'|Hf'].
        + destruct (Kf f Hf') as (f' & Ef & Hs'). apply named_some in Ef as [Hf2 En]. exists f'. split; [|auto]. apply Keepf; [exact Hf2|now rewrite En|].
          destruct Hs' as (_ & -> & _). apply (ac_fk _ Hac f). unfold created_fks. apply in_app_iff. now left.
        + destruct (sp_added_fks _ _ _ _ Hset f Hf') as (cf & Hcf & En & Hs'). exists cf. split; [|auto].
          assert (Hn : ~ In (fk_constraint cf) (map fk_constraint (t_fks t))).
          { rewrite En. pose proof (pt_fks _ _ Hpt) as X. unfold all_fks in X. rewrite map_app in X. intros Y. apply (in_map fk_constraint) in Hf'. revert X Y Hf'. clear. generalize (map fk_constraint (fks_on (t_name t) l)).
            induction (map fk_constraint (t_fks t)) as [|a r IH]; intros L X Y Z; [destruct Y|]. cbn [app] in X. inversion X as [|? ? X1 X2]; subst. destruct Y as [->|Y]; [apply X1, in_app_iff; now right|]. eapply IH; eauto. }
          apply Keepf; [|now rewrite En|].
          * apply HDfl in Hn. rewrite (in_named fk_constraint _ cf (so_fks _ Hs) Hcf) in Hn. now apply named_some in Hn as [Hn _].
          * destruct Hs' as (_ & -> & _). intros x Hx. now apply (pt_fk_columns _ _ Hpt f x).
      - intros c Hc Hr. destruct (sp_references _ _ _ _ Hset c Hc Hr) as (f & Hf & E1 & E2 & Hn). exists f. split; [|auto]. apply Keepf.
        + apply HDfl in Hn. rewrite (in_named fk_constraint _ f (so_fks _ Hs) Hf) in Hn. now apply named_some in Hn as [Hn _].
        + intros X. apply HDf in X as (_ & f' & Hf' & En & Ht). apply Ht. assert (f' = f) as ->; [|exists c; auto].
          pose proof (in_named fk_constraint _ f (so_fks _ Hs) Hf) as A1. pose proof (in_named fk_constraint _ f' (so_fks _ Hs) Hf') as A2. rewrite En in A2. congruence.
        + rewrite E1. intros x [<-|[]]. now apply in_map.
      - intros f Hf. rewrite Ff in Hf. apply filter_In in Hf as [Hf _]. apply filter_In in Hf as [Hf Hd]. apply negb_true_iff, mem_not_in in Hd.
        destruct (in_dec string_dec (fk_constraint f) (map fk_constraint (all_fks l t))) as [|N]; [now left|right].
        assert (Hn : ~ In (fk_constraint f) (map fk_constraint (t_fks t))) by (intros X; apply N; unfold all_fks; rewrite map_app, in_app_iff; now left).
        apply HDfl in Hn. rewrite (in_named fk_constraint _ f Nfl Hf) in Hn. symmetry in Hn. apply named_some in Hn as [Hn _].
        destruct (fk_goes f) eqn:G; [exfalso; apply Hd; unfold Df; apply in_map, filter_In; auto|].
        unfold fk_goes in G. apply andb_false_iff in G as [G|G]; apply negb_false_iff in G; [apply contains_string_spec in G; contradiction|].
        apply existsb_exists in G as (c & Hc & G). apply String.eqb_eq in G. exists c. auto.
      - intros p Hp. destruct (Kp p Hp) as (p' & Ep' & X). apply named_some in Ep' as [Hp' En]. exists p'. split; [|split; [exact En|]].
        + rewrite Fl. apply filter_In. split; [exact Hp'|]. apply negb_true_iff, mem_not_in. rewrite En. intros Y. apply HDp in Y as [_ Y]. apply Y. now apply in_map.
        + destruct X as [->|[X Y]]; [unfold policy_same, same_letters; repeat split; auto; induction (sort_strings (p_roles p)); constructor; auto|].
          apply named_some in Y as [Y _]. cbn [g1 with_refs g_policies] in Y. rewrite M9 in Y. apply (sp_policies _ _ _ _ Hset p p'); auto.
      - intros p Hp. rewrite Fl in Hp. apply filter_In in Hp as [Hp Hd]. apply negb_true_iff, mem_not_in in Hd.
        destruct (in_dec string_dec (p_name p) (map p_name (policies_on n l))) as [|N]; [assumption|]. exfalso. apply Hd, HDp. split; [|exact N].
        pose proof (Op _ N) as E. rewrite (in_named p_name _ p Npl Hp) in E. symmetry in E. cbn [g1 with_refs g_policies] in E. rewrite M9 in E. apply named_some in E as [E _]. now apply in_map. }
    constructor.
    + intros k ks E. rewrite Fp in E. unfold wanted_pk in E. rewrite Fn. destruct (primary_key t); [|discriminate]. now injection E as <- <-.
    + intros k Hk. rewrite Fi in Hk. apply filter_In in Hk as [Hk _]. apply filter_In in Hk as [Hk _].
      destruct (in_dec string_dec (i_name k) (map i_name (indexes_on n l))) as [N|N].
      * apply in_map_iff in N as (i & <- & Hi). apply (pt_index _ _ Hpt i Hi).
      * destruct (OldIdx k Hk N) as [H0|H0]; [now apply (ex_index _ Hex)|]. now apply new_unique_ok in H0.
    + rewrite Fn, Fl. intros X. apply (pt_policy _ _ Hpt). fold n. intros Y. apply X. destruct (filter _ pl) as [|p r] eqn:E; [reflexivity|]. exfalso.
      assert (Hp : In p (filter (fun p => negb (mem (p_name p) Dp)) pl)) by (rewrite E; now left). apply filter_In in Hp as [Hp Hd]. apply negb_true_iff, mem_not_in in Hd. apply Hd, HDp. rewrite Y. split; [|intros []].
      pose proof (Op (p_name p)) as O. rewrite Y in O. specialize (O (fun F => F)). rewrite (in_named p_name _ p Npl Hp) in O. symmetry in O. cbn [g1 with_refs g_policies] in O. rewrite M9 in O. apply named_some in O as [O _]. now apply in_map.
Qed.
End Whole.
