(** The run of [ProofTwoRuns] on the ideal servers of the four dialects. *)
From Coq Require Import String Ascii List ZArith Bool Lia.
From Verif Require Import GoStr GoStrFacts Ast Generator SchemaText SchemaParse Parser Planner Catalog CatalogMysql AdapterPostgres AdapterSqlite AdapterMysql AdapterMssql ExportMssql
  SpecPlan SpecLayout SpecMysql SpecDatabase SpecPostgres SpecMssql SpecShown SpecShownMysql SpecShownMssql SpecConverge SpecConvergePg SpecConvergeMs SpecSqlite
  ProofNoop ProofPgSettle ProofMsSettle ProofReadExport ProofEndToEnd ProofMyEndToEnd ProofMsEndToEnd ProofMsTexts ProofSqlite ProofSqliteRun Runner SpecRunner ProofRunner SpecTwoRuns ProofTwoRuns ProofAlike.
Import ListNotations.
Local Open Scope list_scope.

Lemma steps_fold {S} (step : string -> S -> option S) eff out : does step eff out ->
  forall s, steps step (map s_text out) s = (fix go (l : list stmt) (s : S) := match l with [] => Some s | st :: r => match eff st s with Some s' => go r s' | None => None end end) out s.
Proof.
  induction out as [|st out IH]; intros D s; [reflexivity|]. simpl. rewrite (D st (or_introl eq_refl) s).
  destruct (eff st s) as [s'|]; [|reflexivity]. apply IH. intros x I. apply D. now right.
Qed.

Lemma steps_my (step : string -> SpecMysql.catalogue -> option SpecMysql.catalogue) out : does step (fun st => SpecMysql.run (s_eff st)) out ->
  forall c, steps step (map s_text out) c = SpecMysql.run_all out c.
Proof.
  intros D c. rewrite (steps_fold _ _ _ D). clear D. revert c. induction out as [|st out IH]; intros c; simpl; [reflexivity|].
  destruct (SpecMysql.run (s_eff st) c); [apply IH|reflexivity].
Qed.

Lemma steps_db {T} (nm : T -> string) cr al rp (step : string -> database T -> option (database T)) out :
  does step (fun st => execute nm cr al rp (s_eff st)) out ->
  forall c, steps step (map s_text out) c = execute_all nm cr al rp out c.
Proof.
  intros D c. rewrite (steps_fold _ _ _ D). clear D. revert c. induction out as [|st out IH]; intros c; simpl; [reflexivity|].
  destruct (execute nm cr al rp (s_eff st) c); [apply IH|reflexivity].
Qed.


(** ** MySQL *)
Lemma my_two_runs step w file d s current desired l :
  my_readable d = true -> my_shows d s -> my_dump s = Some current -> catalogue_ok (my_ideal d) ->
  parse_file Mysql desired = Ok l -> mysql_schema l -> convertible l (my_ideal d) ->
  answers w file desired current -> serves step w (my_ideal d) ->
  (forall out, plan Mysql l (dump (my_ideal d)) = Ok out -> does step (fun st => SpecMysql.run (s_eff st)) out) ->
  refused (command w Mysql file) \/
  exists c, applied step (command w Mysql file) (my_ideal d) c /\ reached l c /\ catalogue_ok c /\
    forall w2 d2 s2 current2, catalogue_alike c (my_ideal d2) -> catalogue_ok (my_ideal d2) -> my_readable d2 = true -> my_shows d2 s2 -> my_dump s2 = Some current2 -> answers w2 file desired current2 ->
      idle (command w2 Mysql file).
Proof.
  intros R H D O P M V A Z U.
  destruct (run_decided step w (my_ideal d) (parse_ddl parse_strict_ddl) Mysql file desired current (fun c => reached l c /\ catalogue_ok c) A Z) as [(c & X & Y1 & Y2)|N]; [|right|now left].
  - intros texts G. apply (my_plan_from_texts d s current R H D desired l texts P) in G as (out & F & ->).
    destruct (converges l (my_ideal d) out M O V F) as (c & E & Y1 & Y2 & _). exists c. split; [|now split]. now rewrite (steps_my step out (U out F)).
  - exists c. split; [exact X|]. split; [exact Y1|]. split; [exact Y2|]. intros w2 d2 s2 current2 L O2 R2 H2 D2 A2.
    exact (run_idle w2 _ Mysql file desired current2 A2 (my_texts_settled d2 s2 current2 R2 H2 D2 desired l O2 P M (my_reached_alike l _ _ L Y1))).
Qed.

(** ** PostgreSQL *)
Lemma pg_two_runs quoted castable replaceable step w file d desired l :
  database_readable quoted d = true -> database_ok (ideal d) ->
  parse_file Postgres desired = Ok l -> pg_schema l -> pg_convertible castable replaceable l (ideal d) ->
  answers w file desired (dump_database (catalogue quoted d)) -> serves step w (ideal d) ->
  (forall out, plan Postgres l (pg_dump (ideal d)) = Ok out -> does step (fun st => execute g_name pg_create (pg_alter castable) replaceable (s_eff st)) out) ->
  refused (command w Postgres file) \/
  exists c, applied step (command w Postgres file) (ideal d) c /\ db_reached l c /\ database_ok c /\
    forall w2 d2, database_alike pg_alike c (ideal d2) -> database_ok (ideal d2) -> database_readable quoted d2 = true -> answers w2 file desired (dump_database (catalogue quoted d2)) ->
      idle (command w2 Postgres file).
Proof.
  intros R O P M V A Z U.
  destruct (run_decided step w (ideal d) (parse_ddl parse_strict_ddl) Postgres file desired (dump_database (catalogue quoted d)) (fun c => db_reached l c /\ database_ok c) A Z) as [(c & X & Y1 & Y2)|N]; [|right|now left].
  - intros texts G. apply (plan_from_texts quoted d desired l texts R P) in G as (out & F & ->).
    destruct (pg_converges castable replaceable l (ideal d) out M O V F) as (c & E & Y1 & Y2 & _). exists c. split; [|now split]. now rewrite (steps_db _ _ _ _ step out (U out F)).
  - exists c. split; [exact X|]. split; [exact Y1|]. split; [exact Y2|]. intros w2 d2 L O2 R2 A2.
    exact (run_idle w2 _ Postgres file desired _ A2 (texts_settled quoted d2 desired l R2 O2 P M (pg_reached_alike l _ _ L Y1))).
Qed.

(** ** SQL Server *)
Lemma ms_two_runs ways replaceable step w file d current desired l :
  ms_names_given ways -> mq_readable d = true -> ms_dump (mq_server d) current -> ms_database_ok (mq_ideal d) ->
  parse_file Mssql desired = Ok l -> ms_schema ways l -> ms_convertible ways l (mq_ideal d) ->
  answers w file desired current -> serves step w (mq_ideal d) ->
  (forall out, plan Mssql l (mq_definitions d) = Ok out -> does step (fun st => execute m_name (ms_create ways) (ms_alter ways) replaceable (s_eff st)) out) ->
  refused (command w Mssql file) \/
  exists c, applied step (command w Mssql file) (mq_ideal d) c /\ ms_db_reached l c /\ ms_database_ok c /\
    forall w2 d2 current2, database_alike ms_alike c (mq_ideal d2) -> ms_database_ok (mq_ideal d2) -> mq_readable d2 = true -> ms_dump (mq_server d2) current2 -> answers w2 file desired current2 ->
      idle (command w2 Mssql file).
Proof.
  intros W R D O P M V A Z U.
  destruct (run_decided step w (mq_ideal d) (parse_ddl parse_strict_ddl) Mssql file desired current (fun c => ms_db_reached l c /\ ms_database_ok c) A Z) as [(c & X & Y1 & Y2)|N]; [|right|now left].
  - intros texts G. apply (ms_plan_from_texts d current R D desired l texts P) in G as (out & F & ->).
    pose proof F as F'. rewrite <- ms_shown_ideal in F'.
    destruct (ms_converges ways replaceable l (mq_ideal d) out W M O V F') as (c & E & Y1 & Y2 & _). exists c. split; [|now split]. now rewrite (steps_db _ _ _ _ step out (U out F)).
  - exists c. split; [exact X|]. split; [exact Y1|]. split; [exact Y2|]. intros w2 d2 current2 L O2 R2 D2 A2.
    exact (run_idle w2 _ Mssql file desired current2 A2 (ms_texts_settled ways d2 current2 R2 D2 O2 desired l P M (ms_reached_alike l _ _ L Y1))).
Qed.

(** ** SQLite *)
Lemma lite_two_runs step w file master current desired l :
  parse_file SQLite3 desired = Ok l -> lite_schema l -> lite_ok master -> lite_convertible l master -> lite_dump master = Some current ->
  answers w file desired current -> serves step w master ->
  (forall out ds, parse_file SQLite3 current = Ok ds -> plan SQLite3 l ds = Ok out -> allows step executes out) ->
  exists c, applied step (command w SQLite3 file) master c /\ lite_reached l c /\ lite_ok c /\
    forall w2 current2, lite_dump c = Some current2 -> answers w2 file desired current2 -> idle (command w2 SQLite3 file).
Proof.
  intros P M O V D A Z U. destruct (sqlite_run desired l master current P M O V D) as (ds & out & C & F & G & E & Y).
  destruct (steps_rel step executes executes_all (fun s o a b c => ea_cons s o a b c) ea_nil) with (out := out) (s0 := master) as (c & T & X).
  - intros s o a c X. inversion X; subst. eexists. split; eassumption.
  - exact (U out ds C F).
  - exact E.
  - destruct (Y c X) as (Y2 & Y1). exists c.
    split; [exact (proj1 (run_applies step w master (parse_ddl parse_strict_ddl) SQLite3 file desired current (map s_text out) c A Z G T))|].
    split; [exact Y1|]. split; [exact Y2|]. intros w2 current2 D2 A2.
    exact (run_idle w2 _ SQLite3 file desired current2 A2 (sqlite_again desired l c current2 P M Y2 Y1 D2)).
Qed.
