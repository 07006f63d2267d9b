(** MySQL from texts: the export of a database against itself and against a schema file. *)
From Coq Require Import String Ascii List ZArith Bool Lia.
From Verif Require Import GoStr GoStrFacts Ast Generator SchemaText SchemaParse Parser Planner Catalog CatalogMysql AdapterMysql SpecPlan SpecColumns SpecMysql SpecDatabase SpecPostgres SpecConverge
  SpecLayout SpecShown SpecShownMysql ProofOrder ProofPlan ProofSelf ProofPg ProofMysql ProofPgDump ProofNoop ProofUntold ProofEndToEnd ProofReadMyDatabase ProofReadMyExport.
Import ListNotations.
Local Open Scope string_scope.
Local Open Scope list_scope.

(** ** The export of a database is a schema *)
Section Own.
Variable d : my_database.
Hypothesis Hr : my_readable d = true.
Hypothesis Hc : my_consistent d = true.
Notation cat := (my_ideal d).

Lemma consistent_table t : In t (md_tables d) -> my_table_ok t = true /\ NoDup (map SpecShownMysql.mc_name (my_first t :: my_columns t)) /\ NoDup (map mk_name (my_keys t)) /\ NoDup (map mf_name (my_fks t)) /\
  forall k, In k (my_keys t) -> NoDup (map key_option_name (mk_options k)).
Proof.
  intros T. destruct (readable_parts d Hr) as (O & _). split; [auto|]. unfold my_consistent in Hc. apply andb_true_iff in Hc as [A _]. rewrite forallb_forall in A. specialize (A t T).
  unfold my_table_consistent in A. rewrite !andb_true_iff in A. destruct A as [[[A B] C] D]. repeat split; try (now apply distinct_spec).
  intros k K. rewrite forallb_forall in D. now apply distinct_spec, D.
Qed.
Lemma triggers_once : NoDup (map mt_name (md_triggers d)).
Proof. unfold my_consistent in Hc. apply andb_true_iff in Hc as [_ A]. now apply distinct_spec. Qed.

Definition exported (t : my_table) : table := with_columns (SpecMysql.number 0 (t_columns (my_ideal_table t))) (my_ideal_table t).
Lemma own_dump : dump cat = map (fun t => CreateTable "" (exported t)) (md_tables d) ++ map (fun v => DView (my_ideal_view v)) (md_views d) ++ map (fun t => DTrigger (my_ideal_trigger t)) (md_triggers d).
Proof. unfold dump. cbn [my_ideal cat_tables cat_views cat_triggers]. now rewrite !map_map. Qed.
Lemma flat_map_none {A B} (f : A -> list B) l : (forall x, In x l -> f x = []) -> flat_map f l = [].
Proof. induction l as [|x l IH]; [reflexivity|]. intros H. cbn [flat_map]. rewrite (H x (or_introl eq_refl)). apply IH. intros y Y. apply H. now right. Qed.
Lemma flat_map_one {A B} (f : A -> B) l : flat_map (fun x => [f x]) l = map f l.
Proof. induction l as [|x l IH]; [reflexivity|]. cbn. now rewrite IH. Qed.
Lemma own_parts {A} (f : ddl -> list A) : flat_map f (dump cat) =
  flat_map (fun t => f (CreateTable "" (exported t))) (md_tables d) ++ flat_map (fun v => f (DView (my_ideal_view v))) (md_views d) ++ flat_map (fun t => f (DTrigger (my_ideal_trigger t))) (md_triggers d).
Proof. rewrite own_dump, !flat_map_app. now rewrite !flat_map_concat_map, !map_map, <- !flat_map_concat_map. Qed.
Lemma own_tables : tables_in (dump cat) = map exported (md_tables d).
Proof. unfold tables_in. rewrite own_parts. cbv beta iota. rewrite flat_map_one, !flat_map_none by reflexivity. now rewrite app_nil_r. Qed.
Lemma own_views : views_in (dump cat) = map my_ideal_view (md_views d).
Proof. unfold views_in. rewrite own_parts. cbv beta iota. rewrite flat_map_one, !flat_map_none by reflexivity. now rewrite app_nil_r. Qed.
Lemma own_triggers : triggers_in (dump cat) = map my_ideal_trigger (md_triggers d).
Proof. unfold triggers_in. rewrite own_parts. cbv beta iota. rewrite flat_map_one, !flat_map_none by reflexivity. reflexivity. Qed.
Lemma own_created : created (dump cat) = map my_table_name (md_tables d).
Proof. unfold created. rewrite own_tables, map_map. reflexivity. Qed.
Lemma own_indexes n : indexes_on n (dump cat) = [].
Proof. unfold indexes_on. rewrite own_parts. cbv beta iota. now rewrite !flat_map_none. Qed.
Lemma own_fks n : fks_on n (dump cat) = [].
Proof. unfold fks_on. rewrite own_parts. cbv beta iota. now rewrite !flat_map_none. Qed.
Lemma own_policies n : policies_on n (dump cat) = [].
Proof. unfold policies_on. rewrite own_parts. cbv beta iota. now rewrite !flat_map_none. Qed.
Lemma own_inline {A} (f : table -> list A) t : In t (md_tables d) -> inline f (my_table_name t) (dump cat) = f (exported t).
Proof.
  intros T. destruct (readable_parts d Hr) as (_ & _ & _ & N & _). unfold inline. rewrite own_tables. rewrite flat_map_concat_map, map_map, <- flat_map_concat_map.
  apply (only_one my_table_name (fun x => f (exported x)) my_table_name (md_tables d) t N T). reflexivity.
Qed.
Lemma own_names_once t : In t (md_tables d) ->
  NoDup (index_names_of (my_table_name t) (dump cat)) /\ NoDup (fk_names_of (my_table_name t) (dump cat)) /\ NoDup (policy_names_of (my_table_name t) (dump cat)).
Proof.
  intros T. destruct (consistent_table t T) as (_ & _ & K & F & _). unfold index_names_of, fk_names_of, policy_names_of.
  rewrite own_indexes, own_fks, own_policies, !own_inline, !app_nil_r by assumption. cbn [exported with_columns my_ideal_table t_indexes t_fks t_policies]. rewrite !map_map.
  split; [exact K|]. split; [exact F|constructor].
Qed.
Lemma number_in c l : forall z, In c (SpecMysql.number z l) -> exists p x, In x l /\ c = set_position p x.
Proof.
  induction l as [|x l IH]; intros z; [easy|]. cbn [SpecMysql.number]. intros [<-|I]; [exists z, x; split; [now left|reflexivity]|].
  destruct (IH _ I) as (p & y & Y & ->). exists p, y. split; [now right|reflexivity].
Qed.
Lemma own_settled : settled Mysql (dump cat).
Proof.
  split; [rewrite own_created; exact (proj1 (proj2 (proj2 (proj2 (readable_parts d Hr)))))|].
  split; [rewrite own_triggers, map_map; exact triggers_once|].
  intros x X. rewrite own_dump in X. rewrite !in_app_iff, !in_map_iff in X. destruct X as [(t & <- & T)|[(v & <- & _)|(t & <- & _)]]; [|exact Logic.I|exact Logic.I].
  destruct (consistent_table t T) as (O & C & K & F & P). destruct (own_names_once t T) as (N1 & N2 & N3).
  cbn [settled_ddl exported with_columns t_name t_columns t_indexes t_fks my_ideal_table]. split; [|split; [exact N1|split; [exact N2|split; [exact N3|split; [|split]]]]].
  - rewrite number_names, map_map. erewrite map_ext; [exact C|]. intros c. unfold my_ideal_column. now destruct (SpecShownMysql.mc_type c).
  - intros c I _. apply number_in in I as (z & x & X & ->). apply in_map_iff in X as (y & <- & _). split; [|split].
    + unfold my_ideal_column. now destruct (SpecShownMysql.mc_type y).
    + unfold my_ideal_column. destruct (SpecShownMysql.mc_type y); discriminate.
    + intros v. unfold my_ideal_column. destruct (SpecShownMysql.mc_type y); cbn; (destruct (mc_on_update y) as [up|]; [|discriminate]); cbn; intros V; injection V as <-; discriminate.
  - intros i I. apply in_map_iff in I as (k & <- & I). specialize (P k I). unfold settled_index. cbn [my_ideal_key i_options]. rewrite map_map.
    rewrite (map_ext _ (fun o => to_lower (key_option_name o))) by (intros [w|z|s]; reflexivity). revert P. rewrite <- (map_map key_option_name to_lower).
    assert (Q : forall n, In n (map key_option_name (mk_options k)) -> In n ["USING"; "KEY_BLOCK_SIZE"; "COMMENT"]) by (intros n J; apply in_map_iff in J as ([w|z|s] & <- & _); cbn; tauto).
    intros P. induction P as [|n l N P IH]; [constructor|]. cbn [map]. constructor; [|apply IH; intros m M; apply Q; now right].
    intros J. apply in_map_iff in J as (m & E & M). apply N. pose proof (Q n (or_introl eq_refl)) as Qn. pose proof (Q m (or_intror M)) as Qm.
    cbn [In] in Qn, Qm. destruct Qn as [<-|[<-|[<-|[]]]], Qm as [<-|[<-|[<-|[]]]]; try discriminate E; exact M.
  - intros f I. apply in_map_iff in I as (g & <- & I). unfold my_table_ok in O. rewrite !andb_true_iff in O. destruct O as [[_ O] _]. rewrite forallb_forall in O. specialize (O g I).
    unfold my_fk_ok in O. rewrite !andb_true_iff in O. destruct O as [[[O _] _] _]. cbn [my_ideal_fk fk_constraint]. intros E. rewrite E in O. discriminate.
Qed.
Lemma own_well_formed : well_formed (dump cat) = true.
Proof.
  apply well_formed_from.
  - unfold readable. generalize (@nil ddl). rewrite own_dump.
    assert (Q : forall l, (forall x, In x l -> match x with CreateTable _ _ | DView _ | DTrigger _ => True | _ => False end) -> forall b, readable_after b l = true).
    { induction l as [|x l IH]; intros H b; [reflexivity|]. cbn [readable_after]. rewrite IH by (intros y Y; apply H; now right). specialize (H x (or_introl eq_refl)). now destruct x. }
    apply Q. intros x X. rewrite !in_app_iff, !in_map_iff in X. destruct X as [(t & <- & T)|[(v & <- & _)|(t & <- & _)]]; exact Logic.I.
  - intros x X. rewrite own_dump in X. rewrite !in_app_iff, !in_map_iff in X. destruct X as [(t & <- & T)|[(v & <- & _)|(t & <- & _)]]; exact Logic.I.
  - intros n N. rewrite own_created in N. apply in_map_iff in N as (t & <- & T). now apply own_names_once.
  - rewrite own_views, map_map. exact (proj2 (proj2 (proj2 (proj2 (readable_parts d Hr))))).
Qed.
End Own.

(** ** From texts *)
Section Texts.
Variables (d : my_database) (s : my_server) (current : string).
Hypothesis Hr : my_readable d = true.
Hypothesis Hs : my_shows d s.
Hypothesis Hd : my_dump s = Some current.

Lemma current_shown : current = my_export d.
Proof. rewrite (my_dump_shown d s Hr Hs) in Hd. now injection Hd. Qed.
Theorem my_dump_read : exists l, parse_file Mysql current = Ok l /\ map without_text l = dump (my_ideal d).
Proof. rewrite current_shown. now apply my_export_read. Qed.
Lemma my_plan_from_texts desired l texts : parse_file Mysql desired = Ok l ->
  (plan_text Mysql desired current = Ok texts <-> exists out, plan Mysql l (dump (my_ideal d)) = Ok out /\ texts = map s_text out).
Proof.
  intros P. destruct my_dump_read as (c & C & E). unfold plan_text, generate_idempotent_ddls. rewrite P, C. cbn [bind]. rewrite <- E. split.
  - destruct (plan Mysql l c) as [out| | |] eqn:F; try discriminate. cbn [bind]. intros X. injection X as <-. exists out. split; [|reflexivity]. now apply plan_untold.
  - intros (out & F & ->). apply (proj1 (plan_untold _ _ _ _)) in F. now rewrite F.
Qed.
Theorem my_own_export : my_consistent d = true -> plan_text Mysql current current = Ok [].
Proof.
  intros O. destruct my_dump_read as (c & C & E). apply (my_plan_from_texts _ c _ C). exists []. split; [|reflexivity]. rewrite <- E. apply plan_untold. apply plan_self.
  - apply settled_untold. rewrite E. now apply own_settled.
  - rewrite <- well_formed_untold, E. now apply own_well_formed.
Qed.
Theorem my_texts_converge desired l texts : catalogue_ok (my_ideal d) -> parse_file Mysql desired = Ok l -> mysql_schema l -> convertible l (my_ideal d) ->
  plan_text Mysql desired current = Ok texts ->
  exists out cat', texts = map s_text out /\ run_all out (my_ideal d) = Some cat' /\ reached l cat' /\ catalogue_ok cat'.
Proof.
  intros O P S C T. apply (my_plan_from_texts desired l texts P) in T as (out & F & ->).
  destruct (converges l (my_ideal d) out S O C F) as (cat' & X & Y & Z & _). now exists out, cat'.
Qed.
Theorem my_texts_settled desired l : catalogue_ok (my_ideal d) -> parse_file Mysql desired = Ok l -> mysql_schema l -> reached l (my_ideal d) ->
  plan_text Mysql desired current = Ok [].
Proof.
  intros O P S D. apply (my_plan_from_texts desired l [] P). exists []. split; [|reflexivity]. now apply nothing_more.
Qed.
End Texts.
