(** The export of a database, applied to an empty one (C101). *)
From Coq Require Import String Ascii List ZArith Bool Lia.
From Verif Require Import GoStr GoStrFacts Ast Generator SchemaText SchemaParse Parser Planner Catalog CatalogMysql AdapterMysql SpecPlan SpecColumns SpecMysql SpecConverge
  SpecLayout SpecShown SpecShownMysql ProofPlan ProofSteps ProofSelf ProofUntold ProofEndToEnd ProofNoop ProofReadMyDatabase ProofReadMyExport ProofMyEndToEnd Runner SpecRunner SpecTwoRuns ProofTwoRuns ProofTwoRunsAll ProofPlannableRun SpecCopy CommandLine SpecUrl SpecCommand SpecLine ProofLine.
Import ListNotations.
Local Open Scope string_scope.
Local Open Scope list_scope.

(** ** The plan for an empty database *)
Definition fresh (m : mode) (d : ddl) : list stmt :=
  match d with
  | AddForeignKey _ _ _ | AddPrimaryKey _ _ _ => []
  | DTrigger t => match trigger_definition m t with Some def => [mkStmt ("CREATE " ++ def)%string (EffCreateTrigger t)] | None => [] end
  | _ => [verbatim d]
  end.
Lemma concat_map_pure {A B} (f : A -> res (list B)) (g : A -> list B) l : (forall x, In x l -> f x = Ok (g x)) -> concat_map f l = Ok (flat_map g l).
Proof.
  induction l as [|x l IH]; intros H; [reflexivity|]. cbn [concat_map flat_map]. rewrite (H x (or_introl eq_refl)). cbn [bind].
  rewrite IH by (intros y Y; apply H; now right). reflexivity.
Qed.
Lemma plan_fresh m l : NoDup (created l) -> well_formed l = true -> plan m l [] = Ok (flat_map (fresh m) l).
Proof.
  intros N W. rewrite (plan_eq m l [] [] N W eq_refl). rewrite (concat_map_pure _ (fresh m)).
  - cbn [bind cleanup_tables]. unfold obsolete_views. cbn [views_in flat_map]. now rewrite !app_nil_r.
  - intros d D. destruct d as [s t|s n i|s n i|s n i|s n f|s n p|v|t]; try reflexivity.
    + exfalso. exact (well_formed_no_pk l [] W _ _ _ D).
    + cbn [local fresh]. now destruct (trigger_definition m t).
Qed.

(** ** MySQL *)
Lemma run_all_checked_app a b c : run_all_checked (a ++ b) c = match run_all_checked a c with Some c' => run_all_checked b c' | None => None end.
Proof. revert c. induction a as [|s a IH]; intros c; [reflexivity|]. cbn [app run_all_checked]. destruct (run_checked (s_eff s) c); auto. Qed.

Lemma tables_run l : forall T, (forall d, In d l -> match d with CreateTable _ _ => True | _ => False end) ->
  NoDup (map t_name T ++ created l) -> (forall t, In t (tables_in l) -> integrity (created_table t) = true) ->
  refers_back (map t_name T) (tables_in l) = true ->
  run_all_checked (flat_map (fresh Mysql) l) (mkCatalogue T [] []) = Some (mkCatalogue (T ++ map created_table (tables_in l)) [] []).
Proof.
  induction l as [|d l IH]; intros T K N I R; [now rewrite app_nil_r|]. pose proof (K d (or_introl eq_refl)) as Kd. destruct d as [s t| | | | | | |]; try destruct Kd.
  cbn [flat_map fresh app run_all_checked verbatim s_eff run_checked]. cbn [tables_in flat_map app refers_back] in R, I. fold (tables_in l) in R, I. apply andb_true_iff in R as [R1 R2].
  cbn [cat_tables]. rewrite R1. cbn [SpecMysql.run cat_tables cat_views cat_triggers].
  assert (M : mem (t_name t) (map t_name T) = false).
  { apply mem_false. intros H. unfold created in N. cbn [tables_in flat_map app map] in N. apply NoDup_remove_2 in N. apply N. apply in_or_app. now left. }
  rewrite M. rewrite (I t (or_introl eq_refl)). rewrite IH.
  - f_equal. f_equal. cbn [tables_in flat_map app map]. now rewrite <- app_assoc.
  - intros x X. apply K. now right.
  - rewrite map_app, <- app_assoc. exact N.
  - intros x X. apply I. now right.
  - rewrite map_app. exact R2.
Qed.
Lemma views_run T l : forall V, (forall d, In d l -> match d with DView _ => True | _ => False end) -> NoDup (map vw_name V ++ map vw_name (views_in l)) ->
  run_all_checked (flat_map (fresh Mysql) l) (mkCatalogue T V []) = Some (mkCatalogue T (V ++ views_in l) []).
Proof.
  induction l as [|d l IH]; intros V K N; [now rewrite app_nil_r|]. pose proof (K d (or_introl eq_refl)) as Kd. destruct d as [| | | | | |v|]; try destruct Kd.
  cbn [flat_map fresh app run_all_checked verbatim s_eff run_checked SpecMysql.run cat_tables cat_views cat_triggers].
  assert (M : mem (vw_name v) (map vw_name V) = false).
  { apply mem_false. intros H. cbn [views_in flat_map app map] in N. apply NoDup_remove_2 in N. apply N. apply in_or_app. now left. }
  rewrite M. rewrite IH.
  - cbn [views_in flat_map app]. now rewrite <- app_assoc.
  - intros x X. apply K. now right.
  - rewrite map_app, <- app_assoc. exact N.
Qed.
Lemma triggers_run T V l : forall R, (forall d, In d l -> match d with DTrigger _ => True | _ => False end) -> NoDup (map tr_name R ++ map tr_name (triggers_in l)) ->
  run_all_checked (flat_map (fresh Mysql) l) (mkCatalogue T V R) = Some (mkCatalogue T V (R ++ triggers_in l)).
Proof.
  induction l as [|d l IH]; intros R K N; [now rewrite app_nil_r|]. pose proof (K d (or_introl eq_refl)) as Kd. destruct d as [| | | | | | |t]; try destruct Kd.
  cbn [flat_map fresh trigger_definition app run_all_checked s_eff run_checked SpecMysql.run cat_tables cat_views cat_triggers].
  assert (M : mem (tr_name t) (map tr_name R) = false).
  { apply mem_false. intros H. cbn [triggers_in flat_map app map] in N. apply NoDup_remove_2 in N. apply N. apply in_or_app. now left. }
  rewrite M. rewrite IH.
  - cbn [triggers_in flat_map app]. now rewrite <- app_assoc.
  - intros x X. apply K. now right.
  - rewrite map_app, <- app_assoc. exact N.
Qed.

(** Texts aside, the statements read are tables, views, triggers in this order. *)
Lemma untold_split l A B C : map without_text l = A ++ B ++ C -> exists a b c, l = a ++ b ++ c /\ map without_text a = A /\ map without_text b = B /\ map without_text c = C.
Proof.
  intros H. apply map_eq_app in H as (a & r & -> & Ea & Er). apply map_eq_app in Er as (b & c & -> & Eb & Ec). exists a, b, c. auto.
Qed.
Lemma tables_untold l : tables_in (map without_text l) = tables_in l.
Proof. induction l as [|d l IH]; [reflexivity|]. unfold tables_in in *. cbn [map flat_map]. rewrite IH. now destruct d. Qed.
Lemma views_untold l : views_in (map without_text l) = map untold_view (views_in l).
Proof. induction l as [|d l IH]; [reflexivity|]. unfold views_in in *. cbn [map flat_map]. rewrite IH, map_app. now destruct d. Qed.
Lemma triggers_untold l : triggers_in (map without_text l) = map untold_trigger (triggers_in l).
Proof. induction l as [|d l IH]; [reflexivity|]. unfold triggers_in in *. cbn [map flat_map]. rewrite IH, map_app. now destruct d. Qed.

Lemma ideal_column_bare c : c_position (my_ideal_column c) = 0%Z /\ c_key (my_ideal_column c) = KeyNone /\ c_references (my_ideal_column c) = "" /\ c_identity (my_ideal_column c) = None /\ c_sequence (my_ideal_column c) = None.
Proof. unfold my_ideal_column. destruct (SpecShownMysql.mc_type c); repeat split. Qed.
Lemma number_all (P : column -> Prop) l : forall z, (forall p c, In c l -> P (set_position p c)) -> forall c, In c (number z l) -> P c.
Proof. induction l as [|c l IH]; intros z H x X; [destruct X|]. destruct X as [<-|X]; [apply H; now left|]. apply (IH (z + 1)%Z); [|exact X]. intros p y Y. apply H. now right. Qed.
Lemma filter_none {A} (p : A -> bool) l : (forall x, In x l -> p x = false) -> filter p l = [].
Proof. induction l as [|x l IH]; intros H; [reflexivity|]. cbn [filter]. rewrite (H x (or_introl eq_refl)). apply IH. intros y Y. apply H. now right. Qed.
Lemma number_back (g : column -> column) l : forall z, (forall p c, In c l -> g (set_position p c) = c) -> map g (number z l) = l.
Proof. induction l as [|c l IH]; intros z H; [reflexivity|]. cbn [number map]. rewrite (H z c (or_introl eq_refl)). f_equal. apply IH. intros p x X. apply H. now right. Qed.
Lemma created_again x : SpecConverge.catalogue_table (my_ideal_table x) -> created_table (exported x) = my_ideal_table x.
Proof.
  intros O. pose proof (ct_primary _ O) as Q. unfold created_table, exported.
  set (t := my_ideal_table x) in *. cbn [with_columns t_name t_columns t_indexes t_fks].
  assert (K : forall p c, In c (t_columns t) -> c_key (set_position p c) = KeyNone).
  { intros p c C. subst t. cbn [my_ideal_table t_columns] in C. apply in_map_iff in C as (y & <- & _). cbn [set_position c_key]. apply ideal_column_bare. }
  rewrite (filter_none (fun c => match c_key c with KeyPrimary => true | _ => false end)).
  2:{ intros c. apply (number_all (fun c => match c_key c with KeyPrimary => true | _ => false end = false)). intros p y Y. cbv beta. now rewrite (K p y Y). }
  rewrite (filter_none (fun c => is_unique (c_key c))).
  2:{ intros c. apply (number_all (fun c => is_unique (c_key c) = false)). intros p y Y. cbv beta. now rewrite (K p y Y). }
  cbn [map app]. rewrite app_nil_r. rewrite number_back.
  - subst t. reflexivity.
  - intros p c C. pose proof (Q c C) as Qc. change (in_pk (with_columns (number 0 (t_columns t)) t)) with (in_pk t).
    subst t. cbn [my_ideal_table t_columns] in C. apply in_map_iff in C as (y & <- & _). destruct (ideal_column_bare y) as (B1 & B2 & B3 & B4 & B5).
    destruct (my_ideal_column y) as [nm ps ty un nn au ar de le sc ch ni cs co tz ke ou en re id sq]. clear Q K. cbn in *. subst.
    destruct nn as [[|]|]; try reflexivity; destruct (existsb _ (map my_ideal_key (my_keys x))); try reflexivity; now rewrite Qc.
Qed.

Lemma ideal_refers d : forall there, refers_back there (map exported d) = refers_back there (map my_ideal_table d).
Proof. induction d as [|t d IH]; intros there; [reflexivity|]. cbn [map refers_back]. f_equal. apply IH. Qed.

Section Copy.
Variables (a : my_database) (s : my_server) (text : string).
Hypothesis Hr : my_readable a = true.
Hypothesis Hc : my_consistent a = true.
Hypothesis Ho : catalogue_ok (my_ideal a).
Hypothesis Hs : my_shows a s.
Hypothesis Hd : my_dump s = Some text.
Hypothesis Hb : refers_back [] (cat_tables (my_ideal a)) = true.

Theorem copied l : map without_text l = dump (my_ideal a) -> exists out c, plan Mysql l [] = Ok out /\ run_all_checked out nothing = Some c /\ copy_of c (my_ideal a).
Proof.
  intros E. assert (W : well_formed l = true) by (rewrite <- well_formed_untold, E; now apply own_well_formed).
  assert (T : tables_in l = map exported (md_tables a)) by (rewrite <- tables_untold, E; now apply own_tables).
  assert (N : NoDup (created l)) by (unfold created; rewrite T, map_map; exact (proj1 (proj2 (proj2 (proj2 (readable_parts a Hr)))))).
  exists (flat_map (fresh Mysql) l). rewrite own_dump in E. destruct (untold_split _ _ _ _ E) as (A & B & C & -> & EA & EB & EC).
  assert (KA : forall d, In d A -> match d with CreateTable _ _ => True | _ => False end).
  { intros d D. apply (in_map without_text) in D. rewrite EA in D. apply in_map_iff in D as (t & D & _). now destruct d. }
  assert (KB : forall d, In d B -> match d with DView _ => True | _ => False end).
  { intros d D. apply (in_map without_text) in D. rewrite EB in D. apply in_map_iff in D as (t & D & _). now destruct d. }
  assert (KC : forall d, In d C -> match d with DTrigger _ => True | _ => False end).
  { intros d D. apply (in_map without_text) in D. rewrite EC in D. apply in_map_iff in D as (t & D & _). now destruct d. }
  assert (TA : tables_in A = map exported (md_tables a)).
  { rewrite <- tables_untold, EA. clear. induction (md_tables a) as [|t r IH]; [reflexivity|]. unfold tables_in in *. cbn [map flat_map app]. now rewrite IH. }
  assert (VB : map untold_view (views_in B) = map my_ideal_view (md_views a)).
  { rewrite <- views_untold, EB. clear. induction (md_views a) as [|t r IH]; [reflexivity|]. unfold views_in in *. cbn [map flat_map app]. now rewrite IH. }
  assert (RC : map untold_trigger (triggers_in C) = map my_ideal_trigger (md_triggers a)).
  { rewrite <- triggers_untold, EC. clear. induction (md_triggers a) as [|t r IH]; [reflexivity|]. unfold triggers_in in *. cbn [map flat_map app]. now rewrite IH. }
  assert (X : map created_table (tables_in A) = cat_tables (my_ideal a)).
  { rewrite TA, map_map. cbn [my_ideal cat_tables]. apply map_ext_in. intros t I. apply created_again. apply (co_table _ Ho). cbn [my_ideal cat_tables]. now apply in_map. }
  eexists. split; [now apply plan_fresh|]. rewrite !flat_map_app, !run_all_checked_app. unfold nothing. rewrite tables_run; [| exact KA | | |].
  - cbv beta iota. rewrite run_all_checked_app, views_run; [|exact KB|].
    + cbv beta iota. rewrite triggers_run; [|exact KC|].
      * split; [reflexivity|]. split; [exact X|]. cbn [app cat_views cat_triggers my_ideal]. split.
        -- revert VB. generalize (map my_ideal_view (md_views a)). generalize (views_in B). clear. induction l as [|v l IH]; intros r H; destruct r as [|w r]; try discriminate; constructor.
           ++ injection H as H _. now rewrite <- H.
           ++ apply IH. now injection H.
        -- revert RC. generalize (map my_ideal_trigger (md_triggers a)). generalize (triggers_in C). clear. induction l as [|v l IH]; intros r H; destruct r as [|w r]; try discriminate; constructor.
           ++ injection H as H _. rewrite <- H. repeat split.
           ++ apply IH. now injection H.
      * cbn [map app]. assert (map tr_name (triggers_in C) = map tr_name (map untold_trigger (triggers_in C))) as -> by (rewrite map_map; reflexivity).
        rewrite RC. exact (co_triggers _ Ho).
    + cbn [map app]. assert (map vw_name (views_in B) = map vw_name (map untold_view (views_in B))) as -> by (rewrite map_map; reflexivity).
      rewrite VB. exact (co_views _ Ho).
  - cbn [map app]. unfold created. rewrite TA, map_map. exact (proj1 (proj2 (proj2 (proj2 (readable_parts a Hr))))).
  - intros t I. apply (in_map created_table) in I. rewrite X in I. apply (ct_integrity _ (co_table _ Ho _ I)).
  - rewrite TA, ideal_refers. exact Hb.
Qed.

Lemma steps_checked (step : string -> SpecMysql.catalogue -> option SpecMysql.catalogue) out : does step (fun st => run_checked (s_eff st)) out ->
  forall c, ProofTwoRuns.steps step (map s_text out) c = run_all_checked out c.
Proof.
  intros D c. rewrite (steps_fold _ _ _ D). clear D. revert c. induction out as [|st out IH]; intros c; simpl; [reflexivity|].
  destruct (run_checked (s_eff st) c); [apply IH|reflexivity].
Qed.

Theorem copy_run step w file : answers w file text "" -> serves step w nothing ->
  (forall l out, parse_file Mysql text = Ok l -> plan Mysql l [] = Ok out -> does step (fun st => run_checked (s_eff st)) out) ->
  exists c, applied step (command w Mysql file) nothing c /\ copy_of c (my_ideal a).
Proof.
  intros A V U. destruct (my_dump_read a s text Hr Hs Hd) as (l & P & E). destruct (copied l E) as (out & c & F & R & Q).
  apply (run_reaches step w nothing Mysql file text "" (map s_text out) (fun c => copy_of c (my_ideal a)) A V).
  - unfold plan_text, generate_idempotent_ddls. rewrite P. cbn [bind]. change (parse_file Mysql "") with (Ok (@nil ddl)). cbn [bind]. now rewrite F.
  - exists c. split; [|exact Q]. now rewrite (steps_checked step out (U l out P F)).
Qed.
Theorem copy_typed step connect mc words conn file db :
  line_names Mysql mc words conn file -> found_at connect conn db ->
  answers (on_machine mc db) file text "" -> serves step (on_machine mc db) nothing ->
  (forall l out, parse_file Mysql text = Ok l -> plan Mysql l [] = Ok out -> does step (fun st => run_checked (s_eff st)) out) ->
  opens (typed connect Mysql mc words) conn /\
  exists c, applied step (doings (typed connect Mysql mc words)) nothing c /\ copy_of c (my_ideal a).
Proof. intros Hl Hf A Z U. destruct (line_runs _ _ _ _ _ _ _ Hl Hf) as [H1 H2]. split; [exact H1|]. rewrite H2. exact (copy_run step _ file A Z U). Qed.
End Copy.
