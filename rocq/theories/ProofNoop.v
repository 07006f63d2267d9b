(** A catalogue that has a schema needs nothing more. *)
From Coq Require Import String Ascii List ZArith Bool Lia.
From Verif Require Import GoStr GoStrFacts Ast Generator SpecPlan ProofPlan ProofSteps ProofTables
  ProofCompare ProofExact ProofObjects ProofTotal ProofSelf SpecColumns ProofColumns SpecOrder ProofOrder
  SpecMysql ProofMysql SpecConverge ProofConverge ProofSettle.
Import ListNotations.
Local Open Scope string_scope.
Local Open Scope list_scope.

Section Still.
Variables (l : list ddl) (t s : table).
Hypothesis Hmt : mysql_table l t.
Hypothesis Hct : catalogue_table s.
Hypothesis Hr : table_reached l t s.
Hypothesis Hstm : forall d, In d l -> mysql_statement d.
Hypothesis Hname : t_name s = t_name t.
Let ct := numbered_table s.
Let dt := full_table l t.

Definition column_stays (cc c : column) : Prop :=
  c_name cc = c_name c /\ definition_matches cc c /\ default_matches cc c /\ c_autoinc cc = c_autoinc c /\ c_position cc = c_position c /\ c_key cc = KeyNone.

Lemma columns_stay : Forall2 column_stays (t_columns ct) (t_columns t).
Proof.
  assert (G : forall a b z, Forall2 column_reached a b -> (forall c, In c a -> c_key c = KeyNone) ->
     (forall i c, nth_error b i = Some c -> c_position c = (z + Z.of_nat i)%Z) -> Forall2 column_stays (number z a) b).
  { intros a b z H. revert z. induction H as [|x y a b Hxy _ IH]; intros z Hk Hp; cbn [number]; constructor.
    - destruct Hxy as (H1 & H2 & H3 & H4). unfold column_stays. split; [exact H1|]. split; [exact H2|]. split; [exact H3|]. split; [exact H4|]. split.
      + specialize (Hp 0 y eq_refl). cbn [set_position c_position]. lia.
      + exact (Hk x (or_introl eq_refl)).
    - apply IH; [intros c Hc; apply Hk; now right|]. intros i c Hi. specialize (Hp (S i) c Hi). lia. }
  unfold ct, numbered_table. cbn [t_columns with_columns]. apply G.
  - apply (tr_columns _ _ _ Hr).
  - intros c Hc. apply (ct_columns _ Hct c Hc).
  - intros i c Hi. rewrite (mt_numbered _ _ Hmt i c Hi). lia.
Qed.

Lemma stay_names : names ct = names t.
Proof. unfold names. induction columns_stay as [|x y a b (H & _) _ IH]; [reflexivity|]. cbn [map]. now rewrite H, IH. Qed.

Lemma stays c : In c (t_columns t) -> exists cc, find_column (t_columns ct) (c_name c) = Some cc /\ column_stays cc c.
Proof.
  pose proof (mt_names _ _ Hmt) as Hn. unfold names in Hn. unfold find_column.
  induction columns_stay as [|x y a b Hxy _ IH]; [intros []|]. cbn [find map] in *. inversion Hn as [|? ? Hy Hb]; subst.
  intros [<-|Hc].
  - exists x. rewrite (proj1 Hxy), String.eqb_refl. auto.
  - destruct (String.eqb_spec (c_name x) (c_name c)) as [E|N]; [|now apply IH]. exfalso. apply Hy. rewrite <- (proj1 Hxy), E. now apply in_map.
Qed.

Lemma stays_back cc : In cc (t_columns ct) -> exists c, find_column (t_columns t) (c_name cc) = Some c /\ column_stays cc c.
Proof.
  intros Hcc. assert (exists c, In c (t_columns t) /\ column_stays cc c) as (c & Hc & Hs).
  { revert Hcc. induction columns_stay as [|x y a b Hxy _ IH]; [intros []|]. intros [<-|H]; [exists y; split; [now left|exact Hxy]|].
    destruct (IH H) as (c & Hc & Hs). exists c. split; [now right|exact Hs]. }
  exists c. split; [|exact Hs]. destruct Hs as (-> & _). unfold find_column. apply (find_self c_name); [apply (mt_names _ _ Hmt)|exact Hc].
Qed.

Lemma key_of_declared i : In i (all_keys l t) -> exists k, find_index (t_indexes s) (i_name i) = Some k /\ In k (t_indexes s) /\ i_name k = i_name i /\ index_matches k i.
Proof.
  intros Hi. destruct (tr_keys _ _ _ Hr i Hi) as (k & Hk & En & Hm). exists k. split; [|auto].
  unfold find_index. rewrite <- En. apply (find_self i_name); [apply (ct_keys _ Hct)|exact Hk].
Qed.

Lemma columns_still : forall r prev, (forall c, In c r -> In c (t_columns t)) -> ddls_columns Mysql ct t prev r = Ok [].
Proof.
  induction r as [|c r IH]; intros prev H; [reflexivity|]. cbn [ddls_columns].
  assert (ddls_column Mysql ct t prev c = Ok []) as ->; [|rewrite IH; [reflexivity|intros; apply H; now right]].
  pose proof (H c (or_introl eq_refl)) as Hc. destruct (stays c Hc) as (cc & Ef & Hs). unfold ddls_column. rewrite Ef.
  destruct Hs as (H1 & H2 & H3 & H4 & H5 & H6).
  assert ((if c_autoinc cc then c else set_autoinc false c) = c) as ->.
  { rewrite H4. destruct (c_autoinc c) eqn:E; [reflexivity|]. destruct c; simpl in *. now subst. }
  unfold ddls_column_mysql. rewrite (proj2 (definition_spec cc c) H2), (proj2 (default_spec cc c) H3).
  assert (change_order ct t cc c = false) as -> by (unfold change_order; now rewrite H5, Z.ltb_irrefl). cbn [negb orb bind app].
  destruct (is_unique (c_key c)) eqn:Eu; [|reflexivity].
  destruct (key_of_declared (unique_index (c_name c))) as (k & Ek & _).
  { unfold all_keys. apply in_or_app. left. cbn [created_table t_indexes]. apply in_or_app. right. apply in_or_app. right.
    apply in_map_iff. exists c. split; [reflexivity|]. apply filter_In. auto. }
  cbn [unique_index i_name] in Ek. change (t_indexes ct) with (t_indexes s). rewrite Ek. now rewrite andb_false_r.
Qed.

Lemma primary_still : ddls_primary_key Mysql ct t = Ok [].
Proof.
  unfold ddls_primary_key. cbv zeta. assert (are_same_primary_keys (primary_key ct) (primary_key t) = true) as ->; [|reflexivity].
  assert (Hcp : primary_key ct = find i_primary (t_indexes s)).
  { unfold primary_key. change (t_indexes ct) with (t_indexes s). destruct (find i_primary (t_indexes s)); [reflexivity|].
    assert (filter (fun c => is_key_primary (c_key c)) (t_columns ct) = []) as ->; [|reflexivity].
    induction columns_stay as [|x y a b (_ & _ & _ & _ & _ & Hk) _ IH]; [reflexivity|]. cbn [filter]. now rewrite Hk. }
  rewrite Hcp. pose proof (declared_pk l t Hmt) as Hd. destruct (primary_key t) as [i|].
  - destruct Hd as (Hi & En & _). destruct (key_of_declared i Hi) as (k & Ek & Hk & Ekn & Hm).
    destruct (find i_primary (t_indexes s)) as [k'|] eqn:Ef.
    + apply find_some in Ef as [Hk' Hp]. assert (k' = k) as ->; [|now apply are_same_indexes_spec].
      apply (ct_primary_name _ Hct k' Hk') in Hp. pose proof (ct_keys _ Hct) as Hn.
      pose proof (named_self i_name (t_indexes s) k Hn Hk) as A1. pose proof (named_self i_name (t_indexes s) k' Hn Hk') as A2. rewrite Hp in A2. rewrite Ekn, En in A1. congruence.
    + exfalso. pose proof (find_none _ _ Ef k Hk) as Hx. cbv beta in Hx. rewrite En in Ekn. apply (ct_primary_name _ Hct k Hk) in Ekn. congruence.
  - destruct (find i_primary (t_indexes s)) as [k'|] eqn:Ef; [|reflexivity]. exfalso. apply find_some in Ef as [Hk' Hp].
    destruct (tr_other_keys _ _ _ Hr k' Hk') as [K|[K _]]; [|congruence]. apply (ct_primary_name _ Hct k' Hk') in Hp. rewrite Hp in K. tauto.
Qed.

Lemma create_table_still : ddls_for_create_table Mysql ct t = Ok [].
Proof.
  unfold ddls_for_create_table. rewrite columns_still by auto. cbn [bind].
  assert (ddls_remove_autoinc Mysql ct t = Ok []) as ->.
  { unfold ddls_remove_autoinc. apply concat_map_nil. intros cc Hcc. cbv beta zeta. destruct (stays_back cc Hcc) as (c & -> & (_ & _ & _ & Ha & _)).
    rewrite Ha, andb_negb_r. reflexivity. }
  cbn [bind]. rewrite primary_still. cbn [bind]. rewrite concat_map_nil; cbn [bind].
  2:{ intros i Hi. unfold ddls_index. destruct (i_primary i); [reflexivity|].
      destruct (key_of_declared i (inline_declared l t i Hi)) as (k & Ek & _ & _ & Hm). change (t_indexes ct) with (t_indexes s). rewrite Ek.
      now rewrite (proj2 (are_same_indexes_spec k i) Hm). }
  assert (ddls_add_autoinc Mysql ct t = Ok []) as ->.
  { unfold ddls_add_autoinc. apply concat_map_nil. intros c Hc. cbv beta zeta. destruct (stays c Hc) as (cc & -> & (_ & _ & _ & Ha & _)).
    rewrite Ha, andb_negb_r. reflexivity. }
  cbn [bind]. rewrite concat_map_nil; [reflexivity|]. intros f Hf. unfold ddls_fk.
  destruct (String.eqb_spec (fk_constraint f) "") as [E|_]; [now apply (mt_fk_names _ _ Hmt f Hf) in E|].
  destruct (tr_fks _ _ _ Hr f Hf) as (f' & Hf' & En & Hm & _). change (t_fks ct) with (t_fks s).
  assert (find_fk (t_fks s) (fk_constraint f) = Some f') as ->.
  { unfold find_fk. rewrite <- En. apply (find_self fk_constraint); [apply (ct_fks _ Hct)|exact Hf']. }
  now rewrite (proj2 (are_same_foreign_keys_spec Mysql f' f) Hm).
Qed.

Lemma declared_names y : In y (map i_name (t_indexes t)) \/ In y (map i_name (indexes_on (t_name t) l)) ->
  contains_string (index_names (t_indexes dt)) y = true.
Proof.
  intros H. apply contains_string_spec. unfold dt, full_table, index_names. cbn [t_indexes]. now rewrite map_app, in_app_iff.
Qed.

Lemma index_still k : In k (t_indexes s) ->
  (if contains_string (index_names (t_indexes dt)) (i_name k) || contains_string (fk_index_names (t_fks dt)) (i_name k) then Ok []
   else absent_index Mysql ct dt k) = Ok [].
Proof.
  intros Hk. destruct (contains_string (index_names (t_indexes dt)) (i_name k)) eqn:E1; [reflexivity|]. cbn [orb].
  destruct (contains_string (fk_index_names (t_fks dt)) (i_name k)) eqn:E2; [reflexivity|].
  assert (Hdc : t_columns dt = t_columns t) by (apply dt_columns; assumption).
  assert (Hdf : t_fks dt = t_fks t) by (apply dt_fks; assumption).
  assert (Huniq : i_primary k = false -> i_unique k = true -> (exists c ic rest, In c (t_columns t) /\ is_unique (c_key c) = true /\ i_columns k = ic :: rest /\ c_name c = ic_column ic) ->
     absent_index Mysql ct dt k = Ok []).
  { intros Hp Hu (c & ic & rest & Hc & Huc & Eic & En). unfold absent_index. rewrite Hp, Hu, Hdc, Eic. destruct (t_columns t) as [|c0 cs] eqn:Ec; [destruct Hc|].
    assert (existsb (fun c => String.eqb (c_name c) (ic_column ic) && is_unique (c_key c)) (c0 :: cs) = true) as ->; [|reflexivity].
    apply existsb_exists. exists c. split; [exact Hc|]. now rewrite En, String.eqb_refl, Huc. }
  destruct (tr_other_keys _ _ _ Hr k Hk) as [Hin|[Hp [Hb|[Hu Hx]]]].
  - apply in_map_iff in Hin as (i & En & Hi). pose proof Hi as Hi0. unfold all_keys in Hi. rewrite in_app_iff in Hi. cbn [created_table t_indexes] in Hi. rewrite !in_app_iff in Hi.
    destruct (key_of_declared i Hi0) as (k' & Ek' & Hk' & En' & Hm).
    assert (k' = k) as ->.
    { pose proof (ct_keys _ Hct) as Hn. pose proof (named_self i_name (t_indexes s) k Hn Hk) as A1. pose proof (named_self i_name (t_indexes s) k' Hn Hk') as A2. congruence. }
    destruct Hi as [[Hi|[Hi|Hi]]|Hi].
    + set (cols := filter (fun c => is_key_primary (c_key c)) (t_columns t)).
      change (filter (fun c => match c_key c with KeyPrimary => true | _ => false end) (t_columns t)) with cols in Hi.
      destruct cols as [|pc cs] eqn:Ecols; [destruct Hi|]. destruct Hi as [<-|[]]. cbn [i_name] in En.
      assert (Hp : i_primary k = true) by (apply (ct_primary_name _ Hct k Hk); now rewrite <- En).
      unfold absent_index. rewrite Hp, Hdc.
      assert (find (fun c => is_key_primary (c_key c)) (t_columns t) = Some pc) as ->.
      { clear - Ecols. subst cols. induction (t_columns t) as [|x r IH]; [discriminate|]. cbn [filter find] in *. destruct (is_key_primary (c_key x)); [congruence|auto]. }
      destruct Hm as (_ & _ & M3 & _). cbn [i_columns map] in M3. inversion M3 as [|ic ? rr ? Hic Hrr E3 E4]; subst. destruct Hic as [-> _]. cbn [ic_column].
      now rewrite String.eqb_refl.
    + exfalso. rewrite declared_names in E1; [discriminate|]. left. rewrite <- En. now apply in_map.
    + apply in_map_iff in Hi as (c & <- & Hc). apply filter_In in Hc as [Hc Hu]. destruct Hm as (M1 & M2 & M3 & _). cbn [unique_index i_unique i_primary i_columns] in *.
      apply Huniq; [exact M2|exact M1|]. inversion M3 as [|ic ? rr ? Hic Hrr E3 E4]; subst. exists c, ic, rr. destruct Hic as [-> _]. auto.
    + exfalso. rewrite declared_names in E1; [discriminate|]. right. rewrite <- En. now apply in_map.
  - exfalso. apply fk_index_names_spec in Hb. rewrite Hdf in E2. apply contains_string_false in E2. tauto.
  - now apply Huniq.
Qed.

Lemma cleanup_still : cleanup_kept Mysql ct dt = Ok [].
Proof.
  unfold cleanup_kept.
  assert (Hdc : t_columns dt = t_columns t) by (apply dt_columns; assumption).
  assert (Hdf : t_fks dt = t_fks t) by (apply dt_fks; assumption).
  assert (cleanup_indexes Mysql ct dt = Ok []) as ->.
  { unfold cleanup_indexes. apply concat_map_nil. intros k Hk. now apply index_still. }
  cbn [bind]. unfold cleanup_fks, cleanup_columns, cleanup_policies. rewrite !flat_map_nil; [reflexivity|..].
  - intros p Hp. change (t_policies ct) with (t_policies s) in Hp. rewrite (ct_policies _ Hct) in Hp. destruct Hp.
  - intros c Hc. assert (contains_string (column_names (t_columns dt)) (c_name c) = true) as ->; [|reflexivity].
    apply contains_string_spec. rewrite Hdc. change (In (c_name c) (names t)). rewrite <- stay_names. now apply in_map.
  - intros f Hf. assert (contains_string (fk_names (t_fks dt)) (fk_constraint f) = true) as ->; [|reflexivity].
    apply contains_string_spec. rewrite Hdf. now apply (tr_other_fks _ _ _ Hr).
Qed.
End Still.

Section Noop.
Variables (l : list ddl) (cat : catalogue).
Hypothesis Hms : mysql_schema l.
Hypothesis Hco : catalogue_ok cat.
Hypothesis Hre : reached l cat.

Lemma found t : In t (tables_in l) -> exists s, find_table (schema (dump cat)) (t_name t) = Some (numbered_table s) /\ In s (cat_tables cat) /\ t_name s = t_name t /\ table_reached l t s.
Proof.
  intros Ht. destruct (re_table _ _ Hre t Ht) as (s & Hs & En & Hr). exists s. split; [|auto].
  rewrite <- En. change (t_name s) with (t_name (numbered_table s)). apply find_table_unique; [|now apply in_dump_schema].
  rewrite dump_schema, map_map. apply (co_tables _ Hco).
Qed.

Lemma dump_convert : convert_ddls_to_tables (dump cat) = Ok (schema (dump cat)).
Proof.
  apply convert_readable; [rewrite dump_created; apply (co_tables _ Hco)|].
  assert (G : forall r b, (forall d, In d r -> match d with CreateTable _ _ | DView _ | DTrigger _ => True | _ => False end) -> readable_after b r = true).
  { induction r as [|d r IH]; intros b H; [reflexivity|]. cbn [readable_after]. rewrite IH by (intros; apply H; now right). rewrite andb_true_r.
    specialize (H d (or_introl eq_refl)). destruct d; try reflexivity; destruct H. }
  apply G. intros d Hd. unfold dump in Hd. rewrite !in_app_iff, !in_map_iff in Hd. destruct Hd as [(x & <- & _)|[(x & <- & _)|(x & <- & _)]]; exact I.
Qed.

Lemma on_table n : In n (created l) -> exists t, In t (tables_in l) /\ t_name t = n.
Proof. unfold created. intros H. apply in_map_iff in H as (t & E & Ht). eauto. Qed.

Lemma well_formed_on : forall r b, well_formed_after b r = true -> forall d, In d r ->
  match d with CreateIndex _ n _ | AddIndex _ n _ => In n (created b) \/ In n (created r) | _ => True end.
Proof.
  induction r as [|e r IH]; intros b H d Hd; [destruct Hd|]. cbn [well_formed_after] in H. apply andb_true_iff in H as [H1 H2]. destruct Hd as [<-|Hd].
  - destruct e; try exact I; simpl in H1; apply andb_true_iff in H1 as [H1 _]; apply mem_in in H1; now left.
  - specialize (IH _ H2 d Hd). assert (G : forall n, In n (created (b ++ [e])) \/ In n (created r) -> In n (created b) \/ In n (created (e :: r))).
    { intros n. rewrite (created_app b [e]), in_app_iff, (created_app [e] r : created (e :: r) = _), in_app_iff. tauto. }
    destruct d; try exact I; now apply G.
Qed.

Lemma local_still d : In d l -> local Mysql (schema (dump cat)) (views_in (dump cat)) (triggers_in (dump cat)) d = Ok [].
Proof.
  intros Hd. pose proof (ms_statements _ Hms d Hd) as Hm.
  assert (Hindex : forall n i, (exists q, d = CreateIndex q n i \/ d = AddIndex q n i) ->
     match find_table (schema (dump cat)) n with
      | None => Ok [verbatim d]
      | Some ct =>
          match find_index (t_indexes ct) (i_name i) with
          | None => Ok [verbatim d]
          | Some ci => if are_same_indexes ci i then Ok []
                       else Ok [stmt_drop_index Mysql n (i_name ci); verbatim d]
          end
      end = Ok []).
  { intros n i Hq. assert (Hn : In n (created l)).
    { pose proof (well_formed_on l [] (ms_well_formed _ Hms) d Hd) as H. destruct Hq as (q & [-> | ->]); destruct H as [[]|H]; exact H. }
    destruct (on_table n Hn) as (t & Ht & <-). destruct (found t Ht) as (s & -> & Hs & En & Hr). cbn [numbered_table with_columns t_indexes].
    assert (Hi : In i (all_keys l t)).
    { apply separate_declared. unfold indexes_on. apply in_flat_map. exists d. split; [exact Hd|]. destruct Hq as (q & [-> | ->]); rewrite String.eqb_refl; now left. }
    destruct (key_of_declared l t s (co_table _ Hco s Hs) Hr i Hi) as (k & Ek & _ & _ & Hx).
    change (t_indexes (numbered_table s)) with (t_indexes s). rewrite Ek. now rewrite (proj2 (are_same_indexes_spec k i) Hx). }
  destruct d as [q t|q n i|q n i|q n i|q n f|q n p|v|t]; cbn [local]; try (destruct Hm; fail).
  - assert (Ht : In t (tables_in l)) by (unfold tables_in; apply in_flat_map; exists (CreateTable q t); split; [exact Hd|now left]).
    destruct (found t Ht) as (s & -> & Hs & En & Hr). apply (create_table_still l t s); auto; [apply (ms_tables _ Hms t Ht)|apply (co_table _ Hco s Hs)].
  - apply Hindex. exists q. now left.
  - apply Hindex. exists q. now right.
  - rewrite dump_views. assert (Hv : In v (views_in l)) by (unfold views_in; apply in_flat_map; exists (DView v); split; [exact Hd|now left]).
    destruct (re_view _ _ Hre v Hv) as (v' & Hv' & En & Hs). assert (find_view (cat_views cat) (vw_name v) = Some v') as ->.
    { unfold find_view. rewrite <- En. apply (find_self vw_name); [apply (co_views _ Hco)|exact Hv']. }
    unfold same_letters in Hs. now rewrite Hs, String.eqb_refl.
  - rewrite dump_triggers. assert (Ht : In t (triggers_in l)) by (unfold triggers_in; apply in_flat_map; exists (DTrigger t); split; [exact Hd|now left]).
    destruct (re_trigger _ _ Hre t Ht) as (t' & Ht' & En & Hs). assert (find_trigger (cat_triggers cat) (tr_name t) = Some t') as ->.
    { unfold find_trigger. rewrite <- En. apply (find_self tr_name); [apply (co_triggers _ Hco)|exact Ht']. }
    rewrite (proj2 (are_same_trigger_spec t' t) Hs). now destruct (trigger_definition Mysql t).
Qed.

Lemma cleanup_tables_still live : forall r, (forall s, In s r -> In s (cat_tables cat)) -> cleanup_tables Mysql (schema l) live (map numbered_table r) = Ok [].
Proof.
  induction r as [|s r IH]; intros H; [reflexivity|]. cbn [map cleanup_tables]. pose proof (H s (or_introl eq_refl)) as Hs.
  assert (Hn : In (t_name s) (created l)) by (apply (re_tables _ _ Hre); now apply in_map).
  destruct (on_table _ Hn) as (t & Ht & En). change (t_name (numbered_table s)) with (t_name s). rewrite <- En.
  rewrite (find_schema l (t_name t)), (find_table_unique (tables_in l) t (ms_created _ Hms) Ht). cbn [option_map].
  destruct (re_table _ _ Hre t Ht) as (s' & Hs' & En' & Hr). assert (s' = s) as ->.
  { pose proof (co_tables _ Hco) as Hc. pose proof (named_self t_name _ s Hc Hs) as A1. pose proof (named_self t_name _ s' Hc Hs') as A2. congruence. }
  rewrite (cleanup_still l t s (ms_tables _ Hms t Ht) (co_table _ Hco s Hs) Hr (ms_statements _ Hms)). cbn [bind].
  rewrite IH by (intros; apply H; now right). reflexivity.
Qed.

Theorem nothing_more : plan Mysql l (dump cat) = Ok [].
Proof.
  rewrite (plan_eq Mysql l (dump cat) (schema (dump cat)) (ms_created _ Hms) (ms_well_formed _ Hms) dump_convert).
  rewrite concat_map_nil by apply local_still. cbn [bind].
  rewrite dump_schema at 2. rewrite cleanup_tables_still by auto. cbn [bind app]. f_equal. unfold obsolete_views. apply flat_map_nil.
  intros v Hv. rewrite dump_views in Hv. assert (mem (vw_name v) (map vw_name (views_in l)) = true) as ->; [|reflexivity].
  apply mem_in. apply (re_views _ _ Hre). now apply in_map.
Qed.
End Noop.

(** ** Every intermediate state *)
Lemma run_all_app a b c : run_all (a ++ b) c = match run_all a c with Some c' => run_all b c' | None => None end.
Proof. revert c. induction a as [|s a IH]; intros c; [reflexivity|]. cbn [app run_all]. destruct (run (s_eff s) c); auto. Qed.

Definition all_sound (c : catalogue) : Prop := forall t, In t (cat_tables c) -> integrity t = true.

Lemma run_sound e c c' : all_sound c -> run e c = Some c' -> all_sound c'.
Proof.
  intros H Hr.
  assert (Halter : match eff_table e with
      | None => None
      | Some n =>
          match table_named n (cat_tables c) with
          | None => None
          | Some t =>
              match alter_table e t with
              | Some t' => if integrity t'
                           then Some (mkCatalogue (replace_table n t' (cat_tables c)) (cat_views c) (cat_triggers c))
                           else None
              | None => None
              end
          end
      end = Some c' -> all_sound c').
  { clear Hr. intros Hr. destruct (eff_table e); [|discriminate]. destruct (table_named s (cat_tables c)); [|discriminate].
    destruct (alter_table e t) as [t'|]; [|discriminate]. destruct (integrity t') eqn:Ei; [|discriminate]. injection Hr as <-.
    intros x Hx. cbn [cat_tables] in Hx. unfold replace_table in Hx. apply in_map_iff in Hx as (y & <- & Hy). destruct (String.eqb _ _); auto. }
  destruct e; try (exact (Halter Hr)); cbn [run] in Hr.
  - destruct d; try (exact (Halter Hr)).
    + destruct (mem _ _); [discriminate|]. destruct (integrity (created_table t)) eqn:Ei; [|discriminate]. injection Hr as <-.
      intros x Hx. cbn [cat_tables] in Hx. apply in_app_iff in Hx as [Hx|[<-|[]]]; auto.
    + destruct (mem _ _); [discriminate|]. injection Hr as <-. exact H.
  - destruct (mem _ _); [|discriminate]. injection Hr as <-. intros x Hx. apply filter_In in Hx as [Hx _]. auto.
  - destruct (mem _ _); [|discriminate]. injection Hr as <-. exact H.
  - injection Hr as <-. exact H.
  - destruct (mem _ _); [|discriminate]. injection Hr as <-. exact H.
  - destruct (mem _ _); [discriminate|]. injection Hr as <-. exact H.
Qed.

Lemma run_all_sound out : forall c c', all_sound c -> run_all out c = Some c' -> all_sound c'.
Proof.
  induction out as [|s out IH]; intros c c' H Hr; cbn [run_all] in Hr; [now injection Hr as <-|].
  destruct (run (s_eff s) c) as [c1|] eqn:E; [|discriminate]. eapply IH; [|exact Hr]. eapply run_sound; eauto.
Qed.

Lemma sound_keyed t c : integrity t = true -> In c (t_columns t) -> c_autoinc c = true ->
  exists k rest, In k (t_indexes t) /\ key_columns k = c_name c :: rest.
Proof.
  intros H Hc Ha. unfold integrity in H. rewrite !andb_true_iff in H. destruct H as [[_ H] _]. rewrite forallb_forall in H. specialize (H c Hc).
  rewrite Ha in H. cbn [negb orb] in H. unfold keyed in H. apply existsb_exists in H as (k & Hk & H). exists k.
  destruct (key_columns k) as [|y r]; [discriminate|]. apply String.eqb_eq in H. subst y. eauto.
Qed.

Theorem converges l cat out : mysql_schema l -> catalogue_ok cat -> convertible l cat -> plan Mysql l (dump cat) = Ok out ->
  exists cat', run_all out cat = Some cat' /\ reached l cat' /\ catalogue_ok cat' /\ plan Mysql l (dump cat') = Ok [].
Proof.
  intros H1 H2 H3 H4. destruct (plan_runs l cat out H1 H2 H3 H4) as (cat' & E & Hr & Ho). exists cat'. split; [exact E|]. split; [exact Hr|]. split; [exact Ho|].
  now apply nothing_more.
Qed.

Theorem always_keyed l cat out before after : mysql_schema l -> catalogue_ok cat -> convertible l cat -> plan Mysql l (dump cat) = Ok out ->
  out = before ++ after ->
  exists c, run_all before cat = Some c /\
    forall t x, In t (cat_tables c) -> In x (t_columns t) -> c_autoinc x = true ->
      exists k rest, In k (t_indexes t) /\ key_columns k = c_name x :: rest.
Proof.
  intros H1 H2 H3 H4 ->. destruct (plan_runs l cat _ H1 H2 H3 H4) as (cat' & E & _). rewrite run_all_app in E.
  destruct (run_all before cat) as [c|] eqn:Eb; [|discriminate]. exists c. split; [reflexivity|]. intros t x Ht Hx Ha.
  eapply sound_keyed; eauto. assert (Hs : all_sound cat) by (intros y Hy; apply (ct_integrity _ (co_table _ H2 y Hy))).
  apply (run_all_sound _ _ _ Hs Eb t Ht).
Qed.
