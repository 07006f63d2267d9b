(** Proofs for C104: only the last file counts. *)
From Coq Require Import String List ZArith Bool.
From Verif Require Import GoStr Ast Generator Catalog SchemaText Parser Planner AdapterSqlite SpecPlan SpecColumns SpecOrder SpecMysql SpecDatabase SpecPostgres SpecMssql
  SpecConverge SpecConvergePg SpecConvergeMs SpecSqlite SpecAgree SpecHistory ProofNoop ProofPgSettle ProofMsSettle ProofAgree ProofSqlite ProofSqliteRun.
Import ListNotations.
Local Open Scope list_scope.

(** What every step keeps and establishes holds at the end of a history. *)
Lemma history_ends {F D} (step : F -> D -> D -> Prop) (good : D -> Prop) (has : F -> D -> Prop) :
  (forall f a b, good a -> step f a b -> good b /\ has f b) ->
  forall fs f a c, good a -> history step (fs ++ [f]) a c -> good c /\ has f c.
Proof.
  intros K fs f. induction fs as [|g fs IH]; cbn; intros a c G H; inversion H as [|? ? ? b ? S R]; subst.
  - inversion R; subst. exact (K f a c G S).
  - destruct (K g a b G S) as [G' _]. exact (IH b c G' R).
Qed.

Lemma my_kept l a b : catalogue_ok a -> my_step l a b -> catalogue_ok b /\ reached l b.
Proof.
  intros K (S & V & out & P & R). destruct (converges l a out S K V P) as (b' & R' & H & O & _). rewrite R in R'. injection R' as <-. now split.
Qed.
Theorem my_last fs gs l a b a' b' : catalogue_ok a -> catalogue_ok b ->
  history my_step (fs ++ [l]) a a' -> history my_step (gs ++ [l]) b b' -> my_agree l a' b' /\ my_agree l b' a'.
Proof.
  intros KA KB HA HB. destruct (history_ends my_step catalogue_ok reached my_kept fs l a a' KA HA) as [OA RA].
  destruct (history_ends my_step catalogue_ok reached my_kept gs l b b' KB HB) as [OB RB]. split; now apply my_both.
Qed.

Lemma pg_kept castable replaceable l a b : database_ok a -> pg_step castable replaceable l a b -> database_ok b /\ db_reached l b.
Proof.
  intros K (S & V & out & P & R). destruct (pg_converges castable replaceable l a out S K V P) as (b' & R' & H & O & _). rewrite R in R'. injection R' as <-. now split.
Qed.
Theorem pg_last castable replaceable fs gs l a b a' b' : database_ok a -> database_ok b ->
  history (pg_step castable replaceable) (fs ++ [l]) a a' -> history (pg_step castable replaceable) (gs ++ [l]) b b' ->
  pg_agree l a' b' /\ pg_agree l b' a'.
Proof.
  intros KA KB HA HB. destruct (history_ends _ database_ok db_reached (pg_kept castable replaceable) fs l a a' KA HA) as [OA RA].
  destruct (history_ends _ database_ok db_reached (pg_kept castable replaceable) gs l b b' KB HB) as [OB RB]. split; now apply pg_both.
Qed.

Lemma ms_kept w replaceable l a b : ms_names_given w -> ms_database_ok a -> ms_step w replaceable l a b -> ms_database_ok b /\ ms_db_reached l b.
Proof.
  intros G K (S & V & out & P & R). destruct (ms_converges w replaceable l a out G S K V P) as (b' & R' & H & O & _). rewrite R in R'. injection R' as <-. now split.
Qed.
Theorem ms_last w replaceable fs gs l a b a' b' : ms_names_given w -> ms_database_ok a -> ms_database_ok b ->
  history (ms_step w replaceable) (fs ++ [l]) a a' -> history (ms_step w replaceable) (gs ++ [l]) b b' ->
  ms_agree l a' b' /\ ms_agree l b' a'.
Proof.
  intros G KA KB HA HB. destruct (history_ends _ ms_database_ok ms_db_reached (fun f x y => ms_kept w replaceable f x y G) fs l a a' KA HA) as [OA RA].
  destruct (history_ends _ ms_database_ok ms_db_reached (fun f x y => ms_kept w replaceable f x y G) gs l b b' KB HB) as [OB RB]. split; now apply ms_both.
Qed.

Lemma lite_kept file a b : lite_ok a -> lite_step file a b -> lite_ok b /\ (forall l, parse_file SQLite3 file = Ok l -> lite_reached l b).
Proof.
  intros K (l & current & ds & out & F & S & V & D & R & P & X). destruct (sqlite_run file l a current F S K V D) as (ds' & out' & R' & P' & _ & _ & E).
  rewrite R in R'. injection R' as <-. rewrite P in P'. injection P' as <-. destruct (E b X) as [O H]. split; [exact O|].
  intros l' F'. rewrite F in F'. now injection F' as <-.
Qed.
Lemma lite_parsed fs file a a' : history lite_step (fs ++ [file]) a a' -> exists l, parse_file SQLite3 file = Ok l.
Proof.
  revert a. induction fs as [|g fs IH]; cbn; intros a H; inversion H as [|? ? ? b ? S R]; subst; [|exact (IH b R)].
  destruct S as (l & ? & ? & ? & F & _). now exists l.
Qed.
Theorem lite_last fs gs file a b a' b' : lite_ok a -> lite_ok b ->
  history lite_step (fs ++ [file]) a a' -> history lite_step (gs ++ [file]) b b' -> lite_agree a' b'.
Proof.
  intros KA KB HA HB. destruct (lite_parsed _ _ _ _ HA) as (l & F).
  destruct (history_ends lite_step lite_ok (fun f m => forall l, parse_file SQLite3 f = Ok l -> lite_reached l m) lite_kept fs file a a' KA HA) as [OA RA].
  destruct (history_ends lite_step lite_ok (fun f m => forall l, parse_file SQLite3 f = Ok l -> lite_reached l m) lite_kept gs file b b' KB HB) as [OB RB].
  exact (lite_both l a' b' OA OB (RA l F) (RB l F)).
Qed.
