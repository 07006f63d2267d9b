(** Proofs for C106: a run that stopped is resumed by running again. *)
From Coq Require Import String List Bool.
From Verif Require Import GoStr Ast Generator SchemaText SchemaParse Parser Planner Catalog AdapterSqlite SpecText SpecExport SpecPlan SpecLayout SpecSqlite SpecResume
  ProofText ProofPlan ProofSteps ProofSelf ProofUntold ProofSqlite ProofSqliteRun.
Import ListNotations.
Local Open Scope string_scope.
Local Open Scope list_scope.

Lemma executed_app p : forall q a c, executes_all (p ++ q) a c -> exists b, executes_all p a b /\ executes_all q b c.
Proof.
  induction p as [|s p IH]; cbn; intros q a c H; [exists a; split; [constructor|exact H]|]. inversion H as [|? ? ? b ? S R]; subst.
  destruct (IH _ _ _ R) as (d & D & E). exists d. split; [now apply ea_cons with b|exact E].
Qed.

Lemma in_concat_map {A B} (f : A -> res (list B)) l : forall o x, concat_map f l = Ok o -> In x o -> exists a r, In a l /\ f a = Ok r /\ In x r.
Proof.
  induction l as [|a l IH]; cbn [concat_map]; intros o x E H; [injection E as <-; destruct H|].
  destruct (f a) as [r| | |] eqn:F; try discriminate. cbn [bind] in E. destruct (concat_map f l) as [r'| | |]; try discriminate. cbn [bind] in E. injection E as <-.
  apply in_app_or in H as [H|H]; [exists a, r; split; [now left|now split]|]. destruct (IH r' x eq_refl H) as (a' & r0 & P & Q & R). exists a', r0. split; [now right|now split].
Qed.

Section Resume.
Variables (file : string) (l : list ddl).
Hypothesis Hread : parse_file SQLite3 file = Ok l.
Hypothesis Hs : lite_schema l.
Notation N := (created l ++ map vw_name (views_in l)).

(** The object [o] is what the file says of the name [n]. *)
Definition right (n : string) (o : lite_object) : Prop :=
  (exists t, In t (tables_in l) /\ t_name t = n /\ o = LTable t) \/ (exists v, In v (views_in l) /\ vw_name v = n /\ o = LView (vw_definition v)).
Definition good (st : state) : Prop :=
  (forall t o, In t (tables_in l) -> st (t_name t) = Some o -> o = LTable t) /\
  (forall v o, In v (views_in l) -> st (vw_name v) = Some o -> exists d, o = LView d /\ (same_letters d (vw_definition v) \/ rereads v)).

Lemma nodup_map_eq {A B} (f : A -> B) L x y : NoDup (map f L) -> In x L -> In y L -> f x = f y -> x = y.
Proof.
  induction L as [|a L IH]; cbn; intros D X Y E; [destruct X|]. inversion D as [|? ? Ha D']; subst.
  destruct X as [->|X], Y as [->|Y]; auto; exfalso; apply Ha; [rewrite E|rewrite <- E]; now apply in_map.
Qed.

Lemma right_good st n o : right n o -> good st -> good (upd st n (Some o)).
Proof.
  intros R [GT GV]. pose proof (ls_names _ Hs) as D. split.
  - intros t p T. destruct (string_dec (t_name t) n) as [E|E].
    + rewrite E, upd_same. intros [= <-]. destruct R as [(u & U & V & ->)|(v & V & W & ->)].
      * f_equal. apply (nodup_map_eq t_name (tables_in l)); [exact (nodup_l _ _ D)|exact U|exact T|congruence].
      * exfalso. apply (nodup_apart _ _ n D); [rewrite <- E; now apply in_map|rewrite <- W; now apply in_map].
    + rewrite upd_other by exact E. now apply GT.
  - intros v p V. destruct (string_dec (vw_name v) n) as [E|E].
    + rewrite E, upd_same. intros [= <-]. destruct R as [(u & U & W & ->)|(u & U & W & ->)].
      * exfalso. apply (nodup_apart _ _ n D); [rewrite <- W; now apply in_map|rewrite <- E; now apply in_map].
      * assert (u = v) as -> by (apply (nodup_map_eq vw_name (views_in l)); [exact (nodup_r _ _ D)|exact U|exact V|congruence]). exists (vw_definition v). split; [reflexivity|]. now left.
    + rewrite upd_other by exact E. now apply GV.
Qed.
Lemma gone_good st n : good st -> good (upd st n None).
Proof.
  intros [GT GV]. split.
  - intros t p T. unfold upd. destruct (String.eqb (t_name t) n); [discriminate|now apply GT].
  - intros v p V. unfold upd. destruct (String.eqb (vw_name v) n); [discriminate|now apply GV].
Qed.

Section Catalogue.
Variables (m : list lite_row) (ds : list ddl).
Hypothesis Hok : lite_ok m.
Hypothesis Hex : export_of m ds.
Hypothesis Hc : lite_convertible l m.

Lemma cleanup_drops : forall r live out, incl r (tables_in ds) -> cleanup_tables SQLite3 (tables_in l) live r = Ok out ->
  forall s, In s out -> exists n, s_eff s = EffDropTable n.
Proof.
  induction r as [|ct r IH]; intros live out Hr E s S; cbn [cleanup_tables] in E; [injection E as <-; destruct S|].
  assert (Hr' : incl r (tables_in ds)) by (intros e X; apply Hr; now right).
  destruct (find_table (tables_in l) (t_name ct)) as [dt|] eqn:F.
  - apply find_table_some in F as [F En]. pose proof (proj1 (eo_table _ _ Hex ct) (Hr ct (or_introl eq_refl))) as Hh. rewrite <- En in Hh.
    pose proof (lc_tables _ _ Hc dt _ F Hh) as X. injection X as <-. rewrite cleanup_kept_self in E. cbn [bind] in E.
    destruct (cleanup_tables SQLite3 (tables_in l) live r) as [o| | |] eqn:K; try discriminate. cbn [bind app] in E. injection E as <-. exact (IH live o Hr' K s S).
  - destruct (remove_table (t_name ct) live) as [live'|]; [|discriminate].
    destruct (cleanup_tables SQLite3 (tables_in l) live' r) as [o| | |] eqn:K; try discriminate. cbn [bind] in E. injection E as <-.
    destruct S as [<-|S]; [now exists (t_name ct)|exact (IH live' o Hr' K s S)].
Qed.

(** Every statement that makes an object makes one of the file. *)
Lemma plan_makes out : plan SQLite3 l ds = Ok out -> forall s n o, In s out -> makes s n o -> right n o.
Proof.
  intros E s n o S M. rewrite (the_plan l Hs m ds Hex) in E.
  destruct (concat_map _ l) as [a| | |] eqn:A; try discriminate. cbn [bind] in E.
  destruct (cleanup_tables _ _ _ _) as [b| | |] eqn:B; try discriminate. cbn [bind] in E. injection E as <-.
  apply in_app_or in S as [S|S]; [|apply in_app_or in S as [S|S]].
  - destruct (in_concat_map _ _ _ _ A S) as (d & r & D & L & R). pose proof (file_only l Hs d D) as O. destruct d as [x t| | | | | |v|]; try contradiction; cbn [local] in L.
    + assert (T : In t (tables_in l)) by (apply in_tables_in; eauto). destruct (find_table (tables_in ds) (t_name t)) as [ct|] eqn:F.
      * apply find_table_some in F as [F En]. apply (eo_table _ _ Hex) in F. rewrite En in F. pose proof (lc_tables _ _ Hc t _ T F) as X. injection X as ->.
        rewrite (same_table l Hs x t D) in L. injection L as <-. destruct R.
      * injection L as <-. destruct R as [<-|[]]. inversion M; subst. left. exists t. now repeat split.
    + assert (V : In v (views_in l)) by now apply in_views_in. injection L as <-. destruct (find_view (views_in ds) (vw_name v)) as [cv|].
      * destruct (String.eqb _ _); [destruct R|]. destruct R as [<-|[<-|[]]]; inversion M; subst. right. exists v. now repeat split.
      * destruct R as [<-|[]]. inversion M; subst. right. exists v. now repeat split.
  - destruct (cleanup_drops _ _ _ (incl_refl _) B s S) as (k & K). inversion M; subst; discriminate.
  - unfold obsolete_views in S. apply in_flat_map in S as (v & _ & S). destruct (mem _ _); [destruct S|]. destruct S as [<-|[]]. inversion M.
Qed.

Lemma goes_part pre : forall post st st', goes N (pre ++ post) st st' -> (forall s n o, In s pre -> makes s n o -> right n o) -> good st ->
  exists st1, goes N pre st st1 /\ good st1.
Proof.
  induction pre as [|s pre IH]; intros post st st' G R K; [exists st; split; [now constructor|exact K]|]. cbn [app] in G. inversion G; subst.
  - match goal with H : goes N (pre ++ post) _ _ |- _ => destruct (IH post _ _ H) as (st1 & G1 & K1) end.
    + intros z k p Z. apply R. now right.
    + apply right_good; [|exact K]. eapply R; [now left|eassumption].
    + exists st1. split; [eapply go_make; eassumption|exact K1].
  - match goal with H : goes N (pre ++ post) _ _ |- _ => destruct (IH post _ _ H) as (st1 & G1 & K1) end.
    + intros z k p Z. apply R. now right.
    + now apply gone_good.
    + exists st1. split; [eapply go_remove; eassumption|exact K1].
Qed.

Lemma st0_good : good (st0 ds).
Proof.
  split.
  - intros t o T S. apply (st0_tells m ds Hok Hex) in S. now apply (lc_tables _ _ Hc).
  - intros v o V S. apply (st0_tells m ds Hok Hex) in S. now apply (lc_views _ _ Hc).
Qed.

Lemma part_ok pre post out b : plan SQLite3 l ds = Ok out -> out = pre ++ post -> executes_all pre m b -> lite_ok b /\ lite_convertible l b.
Proof.
  intros E C X. destruct (plan_goes file l Hread Hs m ds Hok Hex Hc) as (out' & st' & E' & G & _). rewrite E in E'. injection E' as <-. subst out.
  destruct (goes_part pre post _ _ G) as (st1 & G1 & [KT KV]).
  - intros s n o S. apply (plan_makes _ E). apply in_or_app. now left.
  - exact st0_good.
  - destruct (goes_end _ (file_names l Hs) pre m b _ _ G1 (inv0 l m ds Hok Hex Hc) X) as [KO T F]. split; [exact KO|]. constructor.
    + intros t o U H. apply T in H. now apply KT.
    + intros v o V H. apply T in H. now apply KV.
    + exact F.
Qed.
End Catalogue.

Lemma attempt_ok a b : lite_ok a -> lite_convertible l a -> attempt l a b -> lite_ok b /\ lite_convertible l b.
Proof.
  intros K C (current & ds & out & pre & post & D & R & P & E & X). destruct (export_read a K) as (text & ds' & D' & R' & Y).
  rewrite D in D'. injection D' as <-. rewrite R in R'. injection R' as <-. exact (part_ok a ds K Y C pre post out b P E X).
Qed.
Lemma attempts_ok a b : attempts l a b -> lite_ok a -> lite_convertible l a -> lite_ok b /\ lite_convertible l b.
Proof.
  induction 1 as [a|a b c A _ IH]; intros K C; [now split|]. destruct (attempt_ok a b K C A) as [K' C']. exact (IH K' C').
Qed.
Theorem resumed a b : lite_ok a -> lite_convertible l a -> attempts l a b ->
  exists current out, lite_dump b = Some current /\ plan_text SQLite3 file current = Ok (map s_text out) /\
    (forall pre s post c, out = pre ++ s :: post -> executes_all pre b c -> exists d, executes s c d) /\
    (forall c, executes_all out b c -> lite_ok c /\ lite_reached l c).
Proof.
  intros K C A. destruct (attempts_ok a b A K C) as [K' C']. destruct (sqlite_exported b K') as (current & D).
  destruct (sqlite_run file l b current Hread Hs K' C' D) as (ds & out & _ & _ & T & G & H). now exists current, out.
Qed.
End Resume.
