(** PostgreSQL from texts: the export of a database against itself and against a schema file. *)
From Coq Require Import String Ascii List ZArith Bool Lia.
From Verif Require Import GoStr GoStrFacts Ast Generator SchemaText SchemaParse Parser Planner Catalog AdapterPostgres SpecPlan SpecColumns SpecMysql SpecDatabase SpecPostgres SpecConvergePg
  SpecLayout SpecShown ProofOrder ProofPlan ProofSelf ProofPgDump ProofPgSettle ProofReadDatabase ProofReadExport ProofUntold.
Import ListNotations.
Local Open Scope string_scope.
Local Open Scope list_scope.

(** ** Statements without their texts *)
Lemma tables_untold l : tables_in (map without_text l) = tables_in l.
Proof. unfold tables_in. rewrite flat_map_concat_map, map_map, <- flat_map_concat_map. apply flat_map_ext. now intros []. Qed.
Lemma created_untold l : created (map without_text l) = created l.
Proof. unfold created. now rewrite tables_untold. Qed.
Lemma indexes_untold n l : indexes_on n (map without_text l) = indexes_on n l.
Proof. unfold indexes_on. rewrite flat_map_concat_map, map_map, <- flat_map_concat_map. apply flat_map_ext. now intros []. Qed.
Lemma fks_untold n l : fks_on n (map without_text l) = fks_on n l.
Proof. unfold fks_on. rewrite flat_map_concat_map, map_map, <- flat_map_concat_map. apply flat_map_ext. now intros []. Qed.
Lemma policies_untold n l : policies_on n (map without_text l) = policies_on n l.
Proof. unfold policies_on. rewrite flat_map_concat_map, map_map, <- flat_map_concat_map. apply flat_map_ext. now intros []. Qed.
Lemma views_untold l : map vw_name (views_in (map without_text l)) = map vw_name (views_in l).
Proof. unfold views_in. induction l as [|d l IH]; [reflexivity|]. cbn [map flat_map]. rewrite !map_app, IH. now destruct d. Qed.
Lemma triggers_untold l : map tr_name (triggers_in (map without_text l)) = map tr_name (triggers_in l).
Proof. unfold triggers_in. induction l as [|d l IH]; [reflexivity|]. cbn [map flat_map]. rewrite !map_app, IH. now destruct d. Qed.
Lemma index_names_untold n l : index_names_of n (map without_text l) = index_names_of n l.
Proof. unfold index_names_of, inline. now rewrite tables_untold, indexes_untold. Qed.
Lemma fk_names_untold n l : fk_names_of n (map without_text l) = fk_names_of n l.
Proof. unfold fk_names_of, inline. now rewrite tables_untold, fks_untold. Qed.
Lemma policy_names_untold n l : policy_names_of n (map without_text l) = policy_names_of n l.
Proof. unfold policy_names_of, inline. now rewrite tables_untold, policies_untold. Qed.
Lemma may_follow_untold b d : may_follow (map without_text b) (without_text d) = may_follow b d.
Proof. destruct d; cbn [without_text may_follow]; rewrite ?created_untold, ?index_names_untold, ?fk_names_untold, ?policy_names_untold; try reflexivity. cbn [vw_name]. now rewrite views_untold. Qed.
Lemma well_formed_untold l : well_formed (map without_text l) = well_formed l.
Proof.
  unfold well_formed. change (@nil ddl) with (map without_text []) at 1. generalize (@nil ddl). induction l as [|d l IH]; intros b; [reflexivity|]. cbn [map well_formed_after].
  rewrite may_follow_untold. f_equal. rewrite <- (IH (b ++ [d])). now rewrite map_app.
Qed.
Lemma settled_untold m l : settled m (map without_text l) -> settled m l.
Proof.
  intros (A & B & C). rewrite created_untold in A. rewrite triggers_untold in B. split; [exact A|]. split; [exact B|]. intros d D. specialize (C _ (in_map without_text _ _ D)).
  destruct d; cbn [without_text settled_ddl] in *; rewrite ?index_names_untold, ?fk_names_untold, ?policy_names_untold in C; exact C.
Qed.

(** ** When a readable list of statements is a schema *)
Lemma well_formed_from l : readable l = true -> (forall d, In d l -> match d with AddPrimaryKey _ _ _ => False | _ => True end) ->
  (forall n, In n (created l) -> NoDup (index_names_of n l) /\ NoDup (fk_names_of n l) /\ NoDup (policy_names_of n l)) ->
  NoDup (map vw_name (views_in l)) -> well_formed l = true.
Proof.
  intros R K N V. unfold well_formed, readable in *.
  assert (G : forall r b, l = b ++ r -> readable_after b r = true -> well_formed_after b r = true).
  2:{ now apply (G l []). }
  induction r as [|d r IH]; intros b E Rb; [reflexivity|]. cbn [readable_after well_formed_after] in *. apply andb_true_iff in Rb as [R1 R2].
  rewrite (IH (b ++ [d])); [|now rewrite <- app_assoc|exact R2]. rewrite andb_true_r.
  assert (In d l) as D by (rewrite E; apply in_or_app; right; now left). specialize (K d D).
  assert (C : forall n, mem n (created b) = true -> In n (created l)).
  { intros n X. apply mem_in in X. rewrite E, created_app. apply in_or_app. now left. }
  assert (P : forall (x : string) u v w, NoDup (u ++ v ++ x :: w) -> ~ In x (u ++ v)).
  { intros x u v w H I. rewrite app_assoc in H. apply NoDup_remove_2 in H. apply H. apply in_or_app. now left. }
  assert (Q : forall {A} (f : table -> list A) n t, inline f n (b ++ t) = inline f n b ++ inline f n t).
  { intros A f n t. unfold inline. now rewrite tables_in_app, flat_map_app. }
  assert (M : forall A (f : A -> string) (x : A) (u u' v w : list A), NoDup (map f ((u ++ u') ++ v ++ x :: w)) -> mem (f x) (map f (u ++ v)) = false).
  { intros A f x u u' v w H. apply not_true_iff_false. intros I. apply mem_in in I. rewrite !map_app in *. cbn [map] in H. rewrite app_assoc in H. apply NoDup_remove_2 in H. apply H.
    rewrite !in_app_iff in *. tauto. }
  destruct d as [s t|s n i|s n i|s n i|s n f|s n p|v|t]; cbn [may_follow may_follow_current] in *; try reflexivity; try discriminate; try contradiction.
  - rewrite R1. destruct (N n (C n R1)) as (H & _). apply negb_true_iff. unfold index_names_of in *. rewrite E, Q, indexes_on_app in H.
    change (indexes_on n (CreateIndex s n i :: r)) with ((if String.eqb n n then [i] else []) ++ indexes_on n r) in H. rewrite String.eqb_refl in H. cbn [app] in H. now apply M in H.
  - rewrite R1. destruct (N n (C n R1)) as (_ & H & _). apply negb_true_iff. unfold fk_names_of in *. rewrite E, Q, fks_on_app in H.
    change (fks_on n (AddForeignKey s n f :: r)) with ((if String.eqb n n then [f] else []) ++ fks_on n r) in H. rewrite String.eqb_refl in H. cbn [app] in H. now apply M in H.
  - rewrite R1. destruct (N n (C n R1)) as (_ & _ & H). apply negb_true_iff. unfold policy_names_of in *. rewrite E, Q, policies_on_app in H.
    change (policies_on n (AddPolicy s n p :: r)) with ((if String.eqb n n then [p] else []) ++ policies_on n r) in H. rewrite String.eqb_refl in H. cbn [app] in H. now apply M in H.
  - apply negb_true_iff. rewrite E in V. unfold views_in in V. rewrite flat_map_app in V. cbn [flat_map app] in V. fold (views_in b) in V. fold (views_in r) in V.
    rewrite map_app in V. cbn [map] in V. apply NoDup_remove_2 in V. apply not_true_iff_false. intros I. apply mem_in in I. apply V. apply in_or_app. now left.
Qed.

(** ** The export of a database is a schema *)
Section Own.
Variable db : database pg_tab.
Hypothesis Hok : database_ok db.
Hypothesis Hfk : forall g, In g (db_tables db) -> NoDup (map fk_constraint (exported_fks g)).
Hypothesis Hio : forall g i, In g (db_tables db) -> In i (g_indexes g) -> NoDup (map io_name (i_options i)).

Lemma dump_inline {A} (f : table -> list A) g : In g (db_tables db) -> inline f (g_name g) (pg_dump db) = f (bare_table g).
Proof.
  intros G. unfold inline. rewrite pg_dump_tables. rewrite flat_map_concat_map, map_map, <- flat_map_concat_map. cbn [bare_table t_name].
  apply (only_one g_name (fun x => f (bare_table x)) g_name (db_tables db) g (do_tables _ Hok) G). reflexivity.
Qed.
Lemma dump_index_names g : In g (db_tables db) -> index_names_of (g_name g) (pg_dump db) = map i_name (exported_pk g ++ g_indexes g).
Proof.
  intros G. unfold index_names_of. rewrite dump_inline, pg_dump_indexes by assumption. now rewrite (exported_indexes_eq g (do_exportable _ Hok g G)).
Qed.
Lemma dump_names_once g : In g (db_tables db) ->
  NoDup (index_names_of (g_name g) (pg_dump db)) /\ NoDup (fk_names_of (g_name g) (pg_dump db)) /\ NoDup (policy_names_of (g_name g) (pg_dump db)).
Proof.
  intros G. pose proof (do_sound _ Hok g G) as S. pose proof (do_exportable _ Hok g G) as X. split; [|split].
  - rewrite dump_index_names by assumption. rewrite map_app. unfold exported_pk. destruct (g_pk g) as [[k l]|]; [|apply (so_indexes _ S)]. cbn [map app]. constructor; [|apply (so_indexes _ S)].
    intros I. apply in_map_iff in I as (i & E & I). apply (ex_index _ X) in I. now apply (proj2 I).
  - unfold fk_names_of. rewrite dump_inline, pg_dump_fks by assumption. cbn [bare_table t_fks app]. now apply Hfk.
  - unfold policy_names_of. rewrite dump_inline, pg_dump_policies by assumption. cbn [bare_table t_policies app]. apply (so_policies _ S).
Qed.
Lemma number_names l : forall p, map c_name (number p l) = map c_name l.
Proof. induction l as [|c l IH]; intros p; [reflexivity|]. cbn. now rewrite IH. Qed.
Lemma dump_settled : settled Postgres (pg_dump db).
Proof.
  split; [rewrite pg_dump_created; apply (do_tables _ Hok)|]. split; [rewrite pg_dump_triggers; constructor|].
  intros d D. unfold pg_dump in D. apply in_app_or in D as [D|D].
  2:{ apply in_map_iff in D as (v & <- & _). exact I. }
  apply in_flat_map in D as (g & G & D). unfold exported_statements in D. destruct D as [<-|D].
  - cbn [settled_ddl t_name t_columns t_indexes t_fks]. destruct (dump_names_once g G) as (A & B & C). repeat split; try assumption.
    + rewrite number_names, map_map. apply (so_names _ (do_sound _ Hok g G)).
    + discriminate.
    + discriminate.
    + discriminate.
    + intros i X. unfold exported_pk in X. destruct (g_pk g) as [[k l]|]; [|contradiction]. destruct X as [<-|[]]. constructor.
    + contradiction.
  - rewrite !in_app_iff, !in_map_iff in D. destruct D as [(i & <- & X)|[(f & <- & _)|(p & <- & _)]]; try exact I.
    rewrite (exported_indexes_eq g (do_exportable _ Hok g G)) in X. cbn [settled_ddl]. split; [now apply (Hio g)|]. now apply (so_index _ (do_sound _ Hok g G)).
Qed.
Lemma dump_well_formed : well_formed (pg_dump db) = true.
Proof.
  apply well_formed_from.
  - now apply pg_dump_readable.
  - intros d D. unfold pg_dump in D. apply in_app_or in D as [D|D].
    + apply in_flat_map in D as (g & G & D). unfold exported_statements in D. destruct D as [<-|D]; [exact I|].
      rewrite !in_app_iff, !in_map_iff in D. destruct D as [(i & <- & _)|[(f & <- & _)|(p & <- & _)]]; exact I.
    + apply in_map_iff in D as (v & <- & _). exact I.
  - intros n N. rewrite pg_dump_created in N. apply in_map_iff in N as (g & <- & G). now apply dump_names_once.
  - rewrite pg_dump_views. apply (do_views _ Hok).
Qed.
End Own.

(** ** From texts *)
Section Texts.
Variable quoted : string -> bool.

Lemma plan_from_texts d desired l texts : database_readable quoted d = true -> parse_file Postgres desired = Ok l ->
  (plan_text Postgres desired (export_text quoted d) = Ok texts <-> exists out, plan Postgres l (pg_dump (ideal d)) = Ok out /\ texts = map s_text out).
Proof.
  intros R P. destruct (export_read quoted d R) as (c & C & E). unfold plan_text, generate_idempotent_ddls. rewrite P, C. cbn [bind]. rewrite <- E. split.
  - destruct (plan Postgres l c) as [out| | |] eqn:F; try discriminate. cbn [bind]. intros X. injection X as <-. exists out. split; [|reflexivity]. now apply plan_untold.
  - intros (out & F & ->). apply (proj1 (plan_untold _ _ _ _)) in F. now rewrite F.
Qed.

Lemma ideal_fks d g : In g (db_tables (ideal d)) -> database_ok (ideal d) -> NoDup (map fk_constraint (exported_fks g)).
Proof.
  intros G O. pose proof (so_fks _ (do_sound _ O g G)) as N. cbn [ideal db_tables] in G. apply in_map_iff in G as (t & <- & _). rewrite (fks_exported t). exact N.
Qed.
Lemma own_export_settled d : database_readable quoted d = true -> database_ok (ideal d) ->
  plan_text Postgres (export_text quoted d) (export_text quoted d) = Ok [].
Proof.
  intros R O. destruct (export_read quoted d R) as (c & C & E). apply (plan_from_texts d _ c _ R C). exists []. split; [|reflexivity]. rewrite <- E. apply plan_untold.
  assert (Hfk := fun g G => ideal_fks d g G O).
  assert (Hio : forall g i, In g (db_tables (ideal d)) -> In i (g_indexes g) -> NoDup (map io_name (i_options i))).
  { intros g i G J. cbn [ideal db_tables] in G. apply in_map_iff in G as (t & <- & _). cbn [ideal_table g_indexes] in J. apply in_map_iff in J as (k & <- & _). constructor. }
  apply plan_self.
  - apply settled_untold. rewrite E. now apply dump_settled.
  - rewrite <- well_formed_untold, E. now apply dump_well_formed.
Qed.

Theorem texts_converge castable replaceable d desired l texts :
  database_readable quoted d = true -> database_ok (ideal d) -> parse_file Postgres desired = Ok l -> pg_schema l ->
  pg_convertible castable replaceable l (ideal d) -> plan_text Postgres desired (export_text quoted d) = Ok texts ->
  exists out db', texts = map s_text out /\ execute_all g_name pg_create (pg_alter castable) replaceable out (ideal d) = Some db' /\
    db_reached l db' /\ database_ok db'.
Proof.
  intros R O P S C T. apply (plan_from_texts d desired l texts R P) in T as (out & F & ->).
  destruct (pg_converges castable replaceable l (ideal d) out S O C F) as (db' & X & Y & Z & _). now exists out, db'.
Qed.
Theorem texts_settled d desired l : database_readable quoted d = true -> database_ok (ideal d) -> parse_file Postgres desired = Ok l ->
  pg_schema l -> db_reached l (ideal d) -> plan_text Postgres desired (export_text quoted d) = Ok [].
Proof.
  intros R O P S D. apply (plan_from_texts d desired l [] R P). exists []. split; [|reflexivity]. exact (pg_nothing_more l (ideal d) S O D).
Qed.
End Texts.
