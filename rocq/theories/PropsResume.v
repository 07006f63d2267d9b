(** Property C106: a run that stopped is resumed by running again. *)
From Coq Require Import String Ascii List ZArith Bool.
From Verif Require Import GoStr Ast Generator SchemaText SchemaParse Parser Planner Catalog AdapterSqlite SpecText SpecExport SpecPlan SpecLayout SpecSqlite SpecResume
  DemoSqlite DemoResume ProofResume.
Import ListNotations.
Local Open Scope string_scope.
Local Open Scope list_scope.

(** The full statement: after any number of runs of a file, each stopped after any of its statements, the
    next run is planned, can be executed to its end, and reaches the file.  Proved for SQLite, for files and
    catalogues in the domain of C84; missing are the other dialects. *)
Theorem C106_stopped_sqlite_run_is_resumed_partial file l a b :
  parse_file SQLite3 file = Ok l -> lite_schema l -> lite_ok a -> lite_convertible l a -> attempts l a b ->
  exists current out, lite_dump b = Some current /\ plan_text SQLite3 file current = Ok (map s_text out) /\
    (forall pre s post c, out = pre ++ s :: post -> executes_all pre b c -> exists d, executes s c d) /\
    (forall c, executes_all out b c -> lite_ok c /\ lite_reached l c).
Proof. exact (fun R S => resumed file l R S a b). Qed.
Print Assumptions C106_stopped_sqlite_run_is_resumed_partial.

(** Stopped between the two statements that replace a view: the view is missing, and the next run makes it
    with the statement of the file. *)
Example C106_example :
  parse_file SQLite3 shop_file = Ok shop_parsed /\ lite_schema shop_parsed /\ lite_ok shop /\ lite_convertible shop_parsed shop /\
  attempts shop_parsed shop shop_half /\ length shop_plan = 6 /\
  shop_again = Ok ["CREATE VIEW people AS select id, name from users"; "CREATE VIEW written AS select author from posts"; "DROP TABLE `logs`"; "DROP VIEW `old`"].
Proof.
  split; [exact shop_parses|]. split; [exact shop_schema|]. split; [exact shop_ok|]. split; [exact shop_convertible|].
  split; [exact (at_more _ _ _ _ stopped (at_none _ _))|]. split; vm_compute; reflexivity.
Qed.
