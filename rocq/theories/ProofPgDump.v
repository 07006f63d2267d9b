(** What the export of an ideal PostgreSQL is read as. *)
From Coq Require Import String Ascii List ZArith Bool Lia.
From Verif Require Import GoStr GoStrFacts Ast Generator SpecPlan ProofPlan ProofSteps ProofTables ProofSelf SpecColumns
  ProofColumns SpecOrder ProofOrder SpecMysql ProofMysql ProofConverge ProofSettle SpecDatabase ProofDatabase SpecPostgres SpecConvergePg ProofPg.
Import ListNotations.
Local Open Scope string_scope.
Local Open Scope list_scope.

(** ** Names *)
Lemma app_same_length (a b c d : string) : (a ++ b)%string = (c ++ d)%string -> String.length b = String.length d -> a = c /\ b = d.
Proof.
  revert c. induction a as [|x a IH]; intros [|y c] H L; simpl in H.
  - auto.
  - exfalso. assert (String.length b = S (String.length (c ++ d))) by (rewrite H; reflexivity).
    assert (forall p q, String.length (p ++ q) = String.length p + String.length q) as A by (induction p; simpl; intros; [reflexivity|now rewrite IHp]).
    rewrite A in H0. lia.
  - exfalso. assert (S (String.length (a ++ b)) = String.length d) by (rewrite <- H; reflexivity).
    assert (forall p q, String.length (p ++ q) = String.length p + String.length q) as A by (induction p; simpl; intros; [reflexivity|now rewrite IHp]).
    rewrite A in H0. lia.
  - injection H as -> H. destruct (IH c H L) as [-> ->]. auto.
Qed.

Lemma app_cut (a b c : string) : (a ++ b)%string = (a ++ c)%string -> b = c.
Proof. induction a as [|x a IH]; simpl; [auto|]. intros H. injection H as H. auto. Qed.

Lemma app_assoc_str (a b c : string) : (a ++ (b ++ c))%string = ((a ++ b) ++ c)%string.
Proof. induction a as [|x a IH]; simpl; [reflexivity|now rewrite IH]. Qed.

Lemma ends_with_spec p s : ends_with p s = true <-> exists a, s = (a ++ p)%string.
Proof.
  induction s as [|x s IH]; cbn [ends_with]; rewrite orb_true_iff, String.eqb_eq.
  - split; [intros [<-|H]; [now exists ""|discriminate]|]. intros [a H]. destruct a; [now left|discriminate].
  - split.
    + intros [<-|H]; [now exists ""|]. apply IH in H as [a ->]. now exists (String x a).
    + intros [a H]. destruct a as [|y a]; [now left|]. right. injection H as -> ->. apply IH. now exists a.
Qed.

Lemma pkey_ends n : ends_with "_pkey" (pkey_name n) = true.
Proof. apply ends_with_spec. now exists (bare n). Qed.

Lemma unique_name_ok n c : index_name_ok (unique_name n c).
Proof.
  unfold unique_name. rewrite !app_assoc_str. set (x := ((bare n ++ "_") ++ c)%string). split.
  - apply not_true_iff_false. intros H. apply ends_with_spec in H as [a H]. change "_pkey" with ("_" ++ "pkey")%string in H. rewrite app_assoc_str in H.
    apply app_same_length in H as [_ H]; [discriminate|reflexivity].
  - intros H. change "PRIMARY" with ("PRI" ++ "MARY")%string in H. apply app_same_length in H as [_ H]; [discriminate|reflexivity].
Qed.

Lemma unique_name_inj n a b : unique_name n a = unique_name n b -> a = b.
Proof.
  unfold unique_name. rewrite !app_assoc_str. intros H. apply app_same_length in H as [H _]; [|reflexivity]. now apply app_cut in H.
Qed.
Lemma auto_check_inj n a b : auto_check n a = auto_check n b -> a = b.
Proof.
  unfold auto_check. rewrite !app_assoc_str. intros H. apply app_same_length in H as [H _]; [|reflexivity]. now apply app_cut in H.
Qed.
Lemma index_name_not_pkey x n : index_name_ok x -> x <> pkey_name n.
Proof. intros [H _] ->. now rewrite pkey_ends in H. Qed.

(** ** The tables *)
Definition exported_table (g : pg_tab) : table :=
  mkTable (g_name g) (number 0 (map (exported_column g) (g_columns g))) (exported_pk g ++ exported_indexes g)
    (exported_fks g) (g_policies g).

Lemma exported_indexes_eq g : exportable g -> exported_indexes g = g_indexes g.
Proof.
  intros [H1 H2 _]. unfold exported_indexes. rewrite filter_app.
  assert (filter (fun i => negb (ends_with "_pkey" (i_name i)))
     (match g_pk g with Some (k, l) => [mkIndex k "" (map (fun x => mkIndexColumn x None "asc") l) false true "" [] false "" "" []] | None => [] end) = []) as ->.
  { destruct (g_pk g) as [[k l]|] eqn:E; [|reflexivity]. cbn [filter i_name]. rewrite (H1 k l eq_refl), pkey_ends. reflexivity. }
  rewrite app_nil_r. apply filter_all. intros i Hi. now rewrite (proj1 (H2 i Hi)).
Qed.

Section Dump.
Variable db : database pg_tab.

Definition bare_table (g : pg_tab) : table := mkTable (g_name g) (number 0 (map (exported_column g) (g_columns g))) (exported_pk g) [] [].

Lemma dump_parts {A} (f : ddl -> list A) : (forall v, f (DView v) = []) -> flat_map f (pg_dump db) =
  flat_map (fun g => f (CreateTable "" (bare_table g)) ++ flat_map (fun i => f (CreateIndex "" (g_name g) i)) (exported_indexes g) ++
     flat_map (fun x => f (AddForeignKey "" (g_name g) x)) (exported_fks g) ++ flat_map (fun p => f (AddPolicy "" (exported_name (g_name g)) p)) (g_policies g)) (db_tables db).
Proof.
  intros Hv. unfold pg_dump. rewrite flat_map_app, flat_map_map, (flat_map_nil _ (db_views db)) by auto. rewrite app_nil_r.
  induction (db_tables db) as [|g l IH]; [reflexivity|]. cbn [flat_map]. rewrite flat_map_app, IH. f_equal. unfold exported_statements.
  cbn [flat_map]. rewrite !flat_map_app, !flat_map_map. reflexivity.
Qed.

Lemma pg_dump_tables : tables_in (pg_dump db) = map bare_table (db_tables db).
Proof.
  unfold tables_in. rewrite dump_parts by reflexivity. rewrite <- flat_map_single. apply flat_map_ext. intros g.
  rewrite !flat_map_nil by reflexivity. reflexivity.
Qed.
Lemma pg_dump_created : created (pg_dump db) = map g_name (db_tables db).
Proof. unfold created. now rewrite pg_dump_tables, map_map. Qed.
Lemma pg_dump_views : views_in (pg_dump db) = db_views db.
Proof.
  unfold views_in, pg_dump. rewrite flat_map_app, flat_map_map. rewrite flat_map_nil, flat_map_single, map_id; [reflexivity|].
  intros d Hd. apply in_flat_map in Hd as (g & _ & Hd). unfold exported_statements in Hd. destruct Hd as [<-|Hd]; [reflexivity|].
  rewrite !in_app_iff, !in_map_iff in Hd. destruct Hd as [(x & <- & _)|[(x & <- & _)|(x & <- & _)]]; reflexivity.
Qed.
Lemma pg_dump_triggers : triggers_in (pg_dump db) = [].
Proof.
  unfold triggers_in. rewrite dump_parts by reflexivity. apply flat_map_nil. intros g _. rewrite !flat_map_nil by reflexivity. reflexivity.
Qed.
Lemma pg_dump_marks n : pk_marks n (pg_dump db) = [].
Proof.
  unfold pk_marks. rewrite dump_parts by reflexivity. apply flat_map_nil. intros g _. rewrite !flat_map_nil by reflexivity. reflexivity.
Qed.

Lemma only_one {A B} (f : A -> string) (h : A -> list B) (key : A -> string) l g : NoDup (map f l) -> In g l ->
  (forall x, In x l -> h x <> [] -> key x = f x) ->
  flat_map (fun x => if String.eqb (key x) (f g) then h x else []) l = h g.
Proof.
  intros Hn Hg Hk. induction l as [|x l IH]; [destruct Hg|]. cbn [flat_map map] in *. inversion Hn as [|? ? Hx Hl]; subst.
  assert (Hrest : forall y, In y l -> f y <> f g -> (if String.eqb (key y) (f g) then h y else []) = []).
  { intros y Hy Hne. destruct (String.eqb_spec (key y) (f g)) as [E|]; [|reflexivity]. destruct (h y) as [|b r] eqn:Eh; [reflexivity|].
    exfalso. apply Hne. rewrite <- (Hk y); [exact E|now right|congruence]. }
  destruct Hg as [->|Hg].
  - rewrite flat_map_nil, app_nil_r.
    + destruct (String.eqb_spec (key g) (f g)) as [|N]; [reflexivity|]. destruct (h g) eqn:Eh; [reflexivity|]. exfalso. apply N. apply Hk; [now left|congruence].
    + intros y Hy. apply Hrest; [exact Hy|]. intros E. apply Hx. rewrite <- E. now apply in_map.
  - rewrite IH; auto; [|intros y Hy; apply Hk; now right]. 
    assert ((if String.eqb (key x) (f g) then h x else []) = []) as ->; [|reflexivity].
    destruct (String.eqb_spec (key x) (f g)) as [E|]; [|reflexivity]. destruct (h x) eqn:Eh; [reflexivity|]. exfalso. apply Hx.
    rewrite <- (Hk x (or_introl eq_refl)), E; [now apply in_map|congruence].
Qed.

Hypothesis Hok : database_ok db.

Lemma pg_dump_indexes g : In g (db_tables db) -> indexes_on (g_name g) (pg_dump db) = exported_indexes g.
Proof.
  intros Hg. unfold indexes_on. rewrite dump_parts by reflexivity.
  rewrite <- (only_one g_name exported_indexes g_name (db_tables db) g (do_tables _ Hok) Hg) by auto.
  apply flat_map_ext. intros x. cbn [app]. rewrite (flat_map_nil _ (exported_fks x)), (flat_map_nil _ (g_policies x)) by reflexivity. cbn [app]. rewrite app_nil_r.
  destruct (String.eqb (g_name x) (g_name g)); [rewrite flat_map_single; apply map_id|now apply flat_map_nil].
Qed.
Lemma pg_dump_fks g : In g (db_tables db) -> fks_on (g_name g) (pg_dump db) = exported_fks g.
Proof.
  intros Hg. unfold fks_on. rewrite dump_parts by reflexivity.
  rewrite <- (only_one g_name exported_fks g_name (db_tables db) g (do_tables _ Hok) Hg) by auto.
  apply flat_map_ext. intros x. cbn [app]. rewrite (flat_map_nil _ (exported_indexes x)), (flat_map_nil _ (g_policies x)) by reflexivity. cbn [app]. rewrite app_nil_r.
  destruct (String.eqb (g_name x) (g_name g)); [rewrite flat_map_single; apply map_id|now apply flat_map_nil].
Qed.
Lemma pg_dump_policies g : In g (db_tables db) -> policies_on (g_name g) (pg_dump db) = g_policies g.
Proof.
  intros Hg. unfold policies_on. rewrite dump_parts by reflexivity.
  rewrite <- (only_one g_name g_policies (fun x => exported_name (g_name x)) (db_tables db) g (do_tables _ Hok) Hg)
    by (intros x Hx; apply (ex_policies _ (do_exportable _ Hok x Hx))).
  apply flat_map_ext. intros x. cbn [app]. rewrite (flat_map_nil _ (exported_indexes x)), (flat_map_nil _ (exported_fks x)) by reflexivity. cbn [app].
  destruct (String.eqb _ (g_name g)); [rewrite flat_map_single; apply map_id|now apply flat_map_nil].
Qed.

Lemma pg_dump_full g : In g (db_tables db) -> full_table (pg_dump db) (bare_table g) = exported_table g.
Proof.
  intros Hg. unfold full_table, exported_table. cbn [bare_table t_name t_columns t_indexes t_fks t_policies app].
  rewrite pg_dump_indexes, pg_dump_fks, pg_dump_policies, pg_dump_marks by assumption. f_equal.
  rewrite <- (map_id (number _ _)) at 2. apply map_ext. reflexivity.
Qed.
Lemma pg_dump_schema : schema (pg_dump db) = map exported_table (db_tables db).
Proof.
  unfold schema. rewrite pg_dump_tables, map_map. apply map_ext_in. intros g Hg. now apply pg_dump_full.
Qed.

Lemma readable_app a b : forall r, readable_after b (a ++ r) = readable_after b a && readable_after (b ++ a) r.
Proof.
  revert b. induction a as [|d a IH]; intros b r; cbn [app readable_after]; [now rewrite app_nil_r|]. rewrite IH, <- app_assoc, andb_assoc. reflexivity.
Qed.
Lemma readable_map {A} (f : A -> ddl) : forall l b, (forall x r, In x l -> may_follow_current (b ++ r) (f x) = true) -> readable_after b (map f l) = true.
Proof.
  induction l as [|x l IH]; intros b H; [reflexivity|]. cbn [map readable_after]. rewrite <- (app_nil_r b) at 1. rewrite (H x []) by now left.
  cbn [andb]. apply IH. intros y r Hy. rewrite <- app_assoc. apply H. now right.
Qed.

Lemma pg_dump_readable : readable (pg_dump db) = true.
Proof.
  unfold readable, pg_dump. rewrite readable_app.
  assert (G : forall l b, (forall g, In g l -> exportable g) -> readable_after b (flat_map exported_statements l) = true).
  { induction l as [|g l IH]; intros b Hl; [reflexivity|]. cbn [flat_map]. rewrite readable_app, IH by (intros; apply Hl; now right). rewrite andb_true_r.
    unfold exported_statements. cbn [readable_after may_follow_current andb].
    assert (Hm : forall r, mem (g_name g) (created (b ++ [CreateTable "" (mkTable (g_name g) (number 0 (map (exported_column g) (g_columns g))) (exported_pk g) [] [])] ++ r)) = true).
    { intros r. apply mem_in. unfold created, tables_in. rewrite !flat_map_app, !map_app, !in_app_iff. right. left. now left. }
    rewrite !readable_app, !andb_true_iff. repeat split; apply readable_map; intros x r Hx; cbn [may_follow_current]; rewrite <- ?app_assoc.
    - apply Hm.
    - apply Hm.
    - rewrite (ex_policies g); [apply Hm|apply Hl; now left|]. intros X. rewrite X in Hx. destruct Hx. }
  rewrite (G _ []) by apply (do_exportable _ Hok). cbn [andb app]. now apply readable_map.
Qed.
Lemma pg_dump_convert : convert_ddls_to_tables (pg_dump db) = Ok (schema (pg_dump db)).
Proof. apply convert_readable; [rewrite pg_dump_created; apply (do_tables _ Hok)|exact pg_dump_readable]. Qed.
End Dump.
