(** From the words typed to the state of the database (C100). *)
From Coq Require Import String Ascii List ZArith Bool.
From Verif Require Import GoStr GoStrFacts Ast Generator SchemaText SchemaParse Parser Planner Catalog CatalogMysql AdapterPostgres AdapterSqlite AdapterMysql AdapterMssql ExportMssql
  SpecPlan SpecLayout SpecMysql SpecDatabase SpecPostgres SpecMssql SpecShown SpecShownMysql SpecShownMssql SpecConverge SpecConvergePg SpecConvergeMs SpecSqlite SpecPlannable
  Runner SpecRunner SpecTwoRuns ProofTwoRunsAll ProofPlannableRun CommandLine SpecUrl SpecCommand SpecLine ProofCommandRun.
Import ListNotations.
Local Open Scope string_scope.
Local Open Scope list_scope.

Lemma doings_did tr : doings (map Did tr) = tr.
Proof. induction tr as [|e tr IH]; simpl; [reflexivity|]. now f_equal. Qed.
Lemma opened_did tr : opened (map Did tr) = [].
Proof. induction tr as [|e tr IH]; simpl; auto. Qed.

Lemma asked l t : asks l t -> doings t = [] /\ opened t = [].
Proof. intros [[_ ->]|[_ ->]]; auto. Qed.

Lemma line_runs connect m mc l conn file db :
  line_names m mc l conn file -> found_at connect conn db ->
  opens (typed connect m mc l) conn /\ doings (typed connect m mc l) = command (on_machine mc db) m file.
Proof.
  intros [H1 H2 (P1 & P2 & P3 & P4 & P5) H4 (w & user & password & host & port & N & U & Pw & Ho & Po & So & Pr & Hp & Pg & ->)] F.
  assert (No : forall n, ~ In (Turn n) l -> (false = true <-> In (Turn n) l)) by (intros n Hn; split; [discriminate|tauto]).
  destruct (meaning connect (parse_ddl parse_strict_ddl) m mc l w user password host port file false false false
    H1 H2 N P1 P2 U Pw Ho Po H4 (No _ P3) (No _ P4) (No _ P5) So Pr Hp Pg) as (a & t & L & A & E).
  rewrite (F a L) in E. apply asked in A as [A1 A2]. unfold typed. rewrite E. unfold opens, doings, opened in *.
  rewrite !flat_map_app, A1, A2. cbn [flat_map app]. fold (doings (map Did (run (on_machine mc db) (parse_ddl parse_strict_ddl) m (mkOptions file false false false)))).
  fold (opened (map Did (run (on_machine mc db) (parse_ddl parse_strict_ddl) m (mkOptions file false false false)))).
  rewrite doings_did, opened_did. split; [|reflexivity]. exists a. split; [reflexivity|exact L].
Qed.

Lemma line_runs_file connect mc l path file db :
  line_names_file mc l path file -> connect (FileAddress path) = Some db ->
  opened (typed connect SQLite3 mc l) = [FileAddress path] /\ doings (typed connect SQLite3 mc l) = command (on_machine mc db) SQLite3 file.
Proof.
  intros [H2 (P1 & P2 & P3 & P4 & P5) H4 N] F.
  assert (No : forall n, ~ In (Turn n) l -> (false = true <-> In (Turn n) l)) by (intros n Hn; split; [discriminate|tauto]).
  pose proof (meaning_sqlite connect (parse_ddl parse_strict_ddl) mc l path file false false false
    H2 N P1 P2 H4 (No _ P3) (No _ P4) (No _ P5)) as E.
  rewrite F in E. unfold typed. rewrite E. unfold doings, opened. cbn [flat_map app].
  fold (doings (map Did (run (on_machine mc db) (parse_ddl parse_strict_ddl) SQLite3 (mkOptions file false false false)))).
  fold (opened (map Did (run (on_machine mc db) (parse_ddl parse_strict_ddl) SQLite3 (mkOptions file false false false)))).
  rewrite doings_did, opened_did. split; reflexivity.
Qed.

Lemma applied_not_refused {S} (step : string -> S -> option S) tr s0 s : applied step tr s0 s -> refused tr -> False.
Proof. intros (A & _) (_ & _ & c & B & N). rewrite A in B. injection B as <-. now apply N. Qed.

Theorem my_typed step connect mc words conn file db d s current desired l :
  line_names Mysql mc words conn file -> found_at connect conn db ->
  my_readable d = true -> my_shows d s -> my_dump s = Some current -> catalogue_ok (my_ideal d) ->
  parse_file Mysql desired = Ok l -> mysql_schema l -> convertible l (my_ideal d) -> plannable Mysql l (dump (my_ideal d)) ->
  answers (on_machine mc db) file desired current -> serves step (on_machine mc db) (my_ideal d) ->
  (forall out, plan Mysql l (dump (my_ideal d)) = Ok out -> does step (fun st => SpecMysql.run (s_eff st)) out) ->
  opens (typed connect Mysql mc words) conn /\
  exists c, applied step (doings (typed connect Mysql mc words)) (my_ideal d) c /\ reached l c /\ catalogue_ok c /\
    forall connect2 mc2 words2 db2 d2 s2 current2, line_names Mysql mc2 words2 conn file -> found_at connect2 conn db2 ->
      catalogue_alike c (my_ideal d2) -> catalogue_ok (my_ideal d2) -> my_readable d2 = true -> my_shows d2 s2 -> my_dump s2 = Some current2 ->
      answers (on_machine mc2 db2) file desired current2 ->
      opens (typed connect2 Mysql mc2 words2) conn /\ idle (doings (typed connect2 Mysql mc2 words2)).
Proof.
  intros Hl Hf R H D O P M V N A Z U. destruct (line_runs _ _ _ _ _ _ _ Hl Hf) as [H1 H2]. split; [exact H1|]. rewrite H2.
  destruct (my_run step _ file d s current desired l R H D O P M V N A Z U) as (c0 & C0 & _).
  destruct (my_two_runs step _ file d s current desired l R H D O P M V A Z U) as [X|(c & C1 & C2 & C3 & C4)].
  - destruct (applied_not_refused _ _ _ _ C0 X).
  - exists c. split; [exact C1|]. split; [exact C2|]. split; [exact C3|].
    intros connect2 mc2 words2 db2 d2 s2 current2 Hl2 Hf2 L2 O2 R2 S2 D2 A2.
    destruct (line_runs _ _ _ _ _ _ _ Hl2 Hf2) as [G1 G2]. split; [exact G1|]. rewrite G2. eauto.
Qed.

Theorem pg_typed quoted castable replaceable step connect mc words conn file db d desired l :
  line_names Postgres mc words conn file -> found_at connect conn db ->
  database_readable quoted d = true -> database_ok (ideal d) ->
  parse_file Postgres desired = Ok l -> pg_schema l -> pg_convertible castable replaceable l (ideal d) -> plannable Postgres l (pg_dump (ideal d)) ->
  answers (on_machine mc db) file desired (dump_database (SpecShown.catalogue quoted d)) -> serves step (on_machine mc db) (ideal d) ->
  (forall out, plan Postgres l (pg_dump (ideal d)) = Ok out -> does step (fun st => execute g_name pg_create (pg_alter castable) replaceable (s_eff st)) out) ->
  opens (typed connect Postgres mc words) conn /\
  exists c, applied step (doings (typed connect Postgres mc words)) (ideal d) c /\ db_reached l c /\ database_ok c /\
    forall connect2 mc2 words2 db2 d2, line_names Postgres mc2 words2 conn file -> found_at connect2 conn db2 ->
      database_alike pg_alike c (ideal d2) -> database_ok (ideal d2) -> database_readable quoted d2 = true ->
      answers (on_machine mc2 db2) file desired (dump_database (SpecShown.catalogue quoted d2)) ->
      opens (typed connect2 Postgres mc2 words2) conn /\ idle (doings (typed connect2 Postgres mc2 words2)).
Proof.
  intros Hl Hf R O P M V N A Z U. destruct (line_runs _ _ _ _ _ _ _ Hl Hf) as [H1 H2]. split; [exact H1|]. rewrite H2.
  destruct (pg_run quoted castable replaceable step _ file d desired l R O P M V N A Z U) as (c0 & C0 & _).
  destruct (pg_two_runs quoted castable replaceable step _ file d desired l R O P M V A Z U) as [X|(c & C1 & C2 & C3 & C4)].
  - destruct (applied_not_refused _ _ _ _ C0 X).
  - exists c. split; [exact C1|]. split; [exact C2|]. split; [exact C3|].
    intros connect2 mc2 words2 db2 d2 Hl2 Hf2 L2 O2 R2 A2.
    destruct (line_runs _ _ _ _ _ _ _ Hl2 Hf2) as [G1 G2]. split; [exact G1|]. rewrite G2. eauto.
Qed.

Theorem ms_typed ways replaceable step connect mc words conn file db d current desired l :
  line_names Mssql mc words conn file -> found_at connect conn db ->
  ms_names_given ways -> mq_readable d = true -> ms_dump (mq_server d) current -> ms_database_ok (mq_ideal d) ->
  parse_file Mssql desired = Ok l -> ms_schema ways l -> ms_convertible ways l (mq_ideal d) -> plannable Mssql l (mq_definitions d) ->
  answers (on_machine mc db) file desired current -> serves step (on_machine mc db) (mq_ideal d) ->
  (forall out, plan Mssql l (mq_definitions d) = Ok out -> does step (fun st => execute m_name (ms_create ways) (ms_alter ways) replaceable (s_eff st)) out) ->
  opens (typed connect Mssql mc words) conn /\
  exists c, applied step (doings (typed connect Mssql mc words)) (mq_ideal d) c /\ ms_db_reached l c /\ ms_database_ok c /\
    forall connect2 mc2 words2 db2 d2 current2, line_names Mssql mc2 words2 conn file -> found_at connect2 conn db2 ->
      database_alike ms_alike c (mq_ideal d2) -> ms_database_ok (mq_ideal d2) -> mq_readable d2 = true -> ms_dump (mq_server d2) current2 ->
      answers (on_machine mc2 db2) file desired current2 ->
      opens (typed connect2 Mssql mc2 words2) conn /\ idle (doings (typed connect2 Mssql mc2 words2)).
Proof.
  intros Hl Hf W R D O P M V N A Z U. destruct (line_runs _ _ _ _ _ _ _ Hl Hf) as [H1 H2]. split; [exact H1|]. rewrite H2.
  destruct (ms_run ways replaceable step _ file d current desired l W R D O P M V N A Z U) as (c0 & C0 & _).
  destruct (ms_two_runs ways replaceable step _ file d current desired l W R D O P M V A Z U) as [X|(c & C1 & C2 & C3 & C4)].
  - destruct (applied_not_refused _ _ _ _ C0 X).
  - exists c. split; [exact C1|]. split; [exact C2|]. split; [exact C3|].
    intros connect2 mc2 words2 db2 d2 current2 Hl2 Hf2 L2 O2 R2 D2 A2.
    destruct (line_runs _ _ _ _ _ _ _ Hl2 Hf2) as [G1 G2]. split; [exact G1|]. rewrite G2. eauto.
Qed.

Theorem lite_typed step connect mc words path file db master current desired l :
  line_names_file mc words path file -> connect (FileAddress path) = Some db ->
  parse_file SQLite3 desired = Ok l -> lite_schema l -> lite_ok master -> lite_convertible l master -> lite_dump master = Some current ->
  answers (on_machine mc db) file desired current -> serves step (on_machine mc db) master ->
  (forall out ds, parse_file SQLite3 current = Ok ds -> plan SQLite3 l ds = Ok out -> allows step executes out) ->
  opened (typed connect SQLite3 mc words) = [FileAddress path] /\
  exists c, applied step (doings (typed connect SQLite3 mc words)) master c /\ lite_reached l c /\ lite_ok c /\
    forall connect2 mc2 words2 db2 current2, line_names_file mc2 words2 path file -> connect2 (FileAddress path) = Some db2 ->
      lite_dump c = Some current2 -> answers (on_machine mc2 db2) file desired current2 ->
      opened (typed connect2 SQLite3 mc2 words2) = [FileAddress path] /\ idle (doings (typed connect2 SQLite3 mc2 words2)).
Proof.
  intros Hl Hf P M O V D A Z U. destruct (line_runs_file _ _ _ _ _ _ Hl Hf) as [H1 H2]. split; [exact H1|]. rewrite H2.
  destruct (lite_two_runs step _ file master current desired l P M O V D A Z U) as (c & C1 & C2 & C3 & C4).
  exists c. split; [exact C1|]. split; [exact C2|]. split; [exact C3|].
  intros connect2 mc2 words2 db2 current2 Hl2 Hf2 D2 A2.
  destruct (line_runs_file _ _ _ _ _ _ Hl2 Hf2) as [G1 G2]. split; [exact G1|]. rewrite G2. eauto.
Qed.
