(** Properties C01-C04 and C07-C10: runs of the command. *)
From Coq Require Import String Ascii List ZArith Bool.
From Verif Require Import GoStr GoStrFacts Ast Generator SchemaText SpecText Runner SpecRunner DemoRunner
  ProofRunner ProofText.
Import ListNotations.
Local Open Scope string_scope.
Local Open Scope list_scope.

(** C01: whatever the database answers, neither mode opens, writes, commits or rolls back. *)
Theorem C01_dry_run_and_export_change_nothing w parse1 m o :
  opt_dry_run o = true \/ opt_export o = true -> db_trace (run w parse1 m o) = [].
Proof. exact (run_dry_quiet w parse1 m o). Qed.
Print Assumptions C01_dry_run_and_export_change_nothing.

Theorem C01_export_reads_no_file w parse1 m o :
  opt_export o = true -> forallb (fun e => negb (reads_file e)) (run w parse1 m o) = true.
Proof. exact (run_export_no_file w parse1 m o). Qed.
Print Assumptions C01_export_reads_no_file.

Example C01_example :
  outputs (run (demo_world true (fun _ => true) true "b;c") demo_parse Mysql dry_opts)
  = map (fun s => (s ++ nl)%string) ["-- dry run --"; "c;"; "DROP TABLE `a`;"] /\
  outputs (run (demo_world true (fun _ => true) true "b;c") demo_parse Mysql export_opts)
  = [("a;" ++ nl ++ nl ++ "b;" ++ nl)%string].
Proof. vm_compute. split; reflexivity. Qed.

(** C02: dry run and apply against the same world. *)
Theorem C02_dry_run_shows_what_apply_does w parse1 m o :
  opt_export o = false -> opt_dry_run o = false ->
  let app := run w parse1 m o in
  let dr := run w parse1 m (mkOptions (opt_file o) true (opt_export o) (opt_skip_drop o)) in
  (app = dr /\ sent app = [] /\ db_trace app = []) \/
  (exists ddls, ddls <> [] /\
     let lines := map (line_for (opt_skip_drop o)) ddls in
     outputs dr = ("-- dry run --" ++ nl)%string :: lines /\ exit_codes dr = [0%Z] /\
     ((outputs app = [] /\ db_trace app = [Begin false] /\ exit_codes app = [1%Z]) \/
      (outputs app = ("-- Apply --" ++ nl)%string :: lines /\ exit_codes app = [0%Z] /\
       sent app = selected (opt_skip_drop o) ddls) \/
      (exists l bad l' rest, lines = (l ++ [line_for (opt_skip_drop o) bad]) ++ l' /\
         outputs app = ("-- Apply --" ++ nl)%string :: l ++ [line_for (opt_skip_drop o) bad] /\
         exit_codes app = [1%Z] /\ In (Exec bad false) app /\
         exists done, sent app = done ++ [bad] /\ selected (opt_skip_drop o) ddls = sent app ++ rest))).
Proof. exact (run_dry_vs_apply w parse1 m o). Qed.
Print Assumptions C02_dry_run_shows_what_apply_does.

Example C02_example :
  outputs (run (demo_world true (fun s => negb (String.eqb s "c")) true "b;c;d") demo_parse Mysql apply_opts)
  = map (fun s => (s ++ nl)%string) ["-- Apply --"; "c;"].
Proof. reflexivity. Qed.

(** C03: the three possible traces of an apply. *)
Theorem C03_apply_in_order_in_one_transaction w parse1 m o d ddls :
  opt_dry_run o = false -> opt_export o = false ->
  planned w parse1 m o = Ok (d :: ddls) ->
  let t := run w parse1 m o in
  let want := selected (opt_skip_drop o) (d :: ddls) in
  (db_trace t = [Begin false] /\ outputs t = [] /\ exit_codes t = [1%Z]) \/
  (exists c, db_trace t = Begin true :: map (fun x => Exec x true) want ++ [Commit c] /\
     outputs t = ("-- Apply --" ++ nl)%string :: map (line_for (opt_skip_drop o)) (d :: ddls) /\
     exit_codes t = [0%Z]) \/
  (exists executed bad rest r l l',
     want = executed ++ bad :: rest /\
     db_trace t = Begin true :: map (fun x => Exec x true) executed ++ [Exec bad false; Rollback r] /\
     outputs t = ("-- Apply --" ++ nl)%string :: l ++ [line_for (opt_skip_drop o) bad] /\
     map (line_for (opt_skip_drop o)) (d :: ddls) = (l ++ [line_for (opt_skip_drop o) bad]) ++ l' /\
     exit_codes t = [1%Z]).
Proof. exact (run_trace w parse1 m o d ddls). Qed.
Print Assumptions C03_apply_in_order_in_one_transaction.

Example C03_example :
  planned (demo_world true (fun _ => true) true "b;c") demo_parse Mysql apply_opts = Ok ["c"; "DROP TABLE `a`"] /\
  db_trace (run (demo_world true (fun _ => true) true "b;c") demo_parse Mysql apply_opts)
  = [Begin true; Exec "c" true; Exec "DROP TABLE `a`" true; Commit true].
Proof. vm_compute. split; reflexivity. Qed.

(** C04: a crash after any number of events, for any statement semantics [sem]. *)
Theorem C04_all_or_nothing_at_every_crash_point (S : Type) (sem : string -> S -> S) w parse1 m o p s0 ddls :
  opt_dry_run o = false -> opt_export o = false ->
  planned w parse1 m o = Ok ddls ->
  prefix_of p (run w parse1 m o) ->
  (after_crash sem s0 p = s0 /\ ~ In (Commit true) p) \/
  (In (Commit true) p /\ after_crash sem s0 p = run_all sem (selected (opt_skip_drop o) ddls) s0).
Proof. exact (run_crash sem w parse1 m o p s0 ddls). Qed.
Print Assumptions C04_all_or_nothing_at_every_crash_point.

Theorem C04_prefix_on_autocommit (S : Type) (sem : string -> S -> S) w parse1 m o p s0 ddls :
  opt_dry_run o = false -> opt_export o = false ->
  planned w parse1 m o = Ok ddls ->
  prefix_of p (run w parse1 m o) ->
  exists k, after_crash_auto sem s0 p = run_all sem (firstn k (selected (opt_skip_drop o) ddls)) s0.
Proof. exact (run_crash_auto sem w parse1 m o p s0 ddls). Qed.
Print Assumptions C04_prefix_on_autocommit.

Example C04_example :
  let t := run (demo_world true (fun _ => true) true "b;c") demo_parse Mysql apply_opts in
  let sem := fun d (s : list string) => d :: s in
  after_crash sem [] t = ["DROP TABLE `a`"; "c"] /\
  after_crash sem [] (removelast (removelast t)) = [] /\
  after_crash_auto sem [] (firstn 10 t) = ["c"].
Proof. vm_compute. repeat split; reflexivity. Qed.

(** C07 *)
Theorem C07_empty_plan_touches_nothing w parse1 m o :
  opt_export o = false -> planned w parse1 m o = Ok [] ->
  db_trace (run w parse1 m o) = [] /\
  outputs (run w parse1 m o) = [("-- Nothing is modified --" ++ nl)%string] /\
  exit_codes (run w parse1 m o) = [0%Z].
Proof. exact (run_empty_plan w parse1 m o). Qed.
Print Assumptions C07_empty_plan_touches_nothing.

Example C07_example :
  planned (demo_world true (fun _ => true) true "a;b") demo_parse Mysql apply_opts = Ok [].
Proof. reflexivity. Qed.

(** C08 *)
Theorem C08_errors_leave_the_database_untouched w parse1 m o :
  opt_export o = false ->
  (forall ddls, planned w parse1 m o <> Ok ddls) ->
  db_trace (run w parse1 m o) = [] /\ outputs (run w parse1 m o) = [] /\
  exists c, exit_codes (run w parse1 m o) = [c] /\ c <> 0%Z.
Proof. exact (run_errors w parse1 m o). Qed.
Print Assumptions C08_errors_leave_the_database_untouched.

Example C08_example :
  planned (demo_world true (fun _ => true) true "a;bad") demo_parse Mysql apply_opts = Err (EParse "bad") /\
  exit_codes (run (demo_world true (fun _ => true) true "a;bad") demo_parse Mysql apply_opts) = [1%Z].
Proof. vm_compute. split; reflexivity. Qed.

(** C09: false as stated, because the result of [Commit] is ignored (database.go 78). *)
Theorem C09_success_without_commit_refuted :
  exists w parse1 m o,
    opt_dry_run o = false /\ opt_export o = false /\
    sent (run w parse1 m o) <> [] /\
    exit_codes (run w parse1 m o) = [0%Z] /\ ~ In (Commit true) (run w parse1 m o).
Proof.
  exists (demo_world true (fun _ => true) false "b;c"), demo_parse, Mysql, apply_opts.
  vm_compute. repeat split; try discriminate. intuition discriminate.
Qed.
Print Assumptions C09_success_without_commit_refuted.

(** What does hold: success means that every selected statement was accepted, inside one
    transaction, and that a commit was attempted.  Missing: that the commit succeeded. *)
Theorem C09_success_means_all_executed_partial w parse1 m o ddls :
  opt_dry_run o = false -> opt_export o = false ->
  planned w parse1 m o = Ok ddls -> ddls <> [] ->
  exit_codes (run w parse1 m o) = [0%Z] ->
  exists c, db_trace (run w parse1 m o) =
    Begin true :: map (fun x => Exec x true) (selected (opt_skip_drop o) ddls) ++ [Commit c].
Proof. exact (run_success w parse1 m o ddls). Qed.
Print Assumptions C09_success_means_all_executed_partial.

Example C09_example :
  exit_codes (run (demo_world true (fun _ => true) true "b;c") demo_parse Mysql skip_opts) = [0%Z] /\
  db_trace (run (demo_world true (fun _ => true) true "b;c") demo_parse Mysql skip_opts)
  = [Begin true; Exec "c" true; Commit true].
Proof. vm_compute. split; reflexivity. Qed.

(** C10: order and content of the export ... *)
Theorem C10_export_content w parse1 m o names def views triggers :
  (forall h, w_table_names w h = Some names) ->
  (forall h n, In n names -> w_dump_table w h n = Some (def n)) ->
  (forall h, w_views w h = Some views) -> (forall h, w_triggers w h = Some triggers) ->
  opt_export o = true ->
  let all := map def names ++ views ++ triggers in
  outputs (run w parse1 m o) =
    [if String.eqb (join (";" ++ nl ++ nl) all) "" then ("-- No table exists --" ++ nl)%string
     else (join (";" ++ nl ++ nl) all ++ ";" ++ nl)%string] /\
  exit_codes (run w parse1 m o) = [0%Z].
Proof. exact (run_export_output w parse1 m o names def views triggers). Qed.
Print Assumptions C10_export_content.

(** ... and what the schema-file reader finds in it. *)
Theorem C10_export_reads_back w parse1 m o names def views triggers :
  (forall h, w_table_names w h = Some names) ->
  (forall h n, In n names -> w_dump_table w h n = Some (def n)) ->
  (forall h, w_views w h = Some views) -> (forall h, w_triggers w h = Some triggers) ->
  opt_export o = true ->
  Forall plain_statement (map def names ++ views ++ triggers) ->
  exists text, outputs (run w parse1 m o) = [text] /\
    split_statements text = map def names ++ views ++ triggers.
Proof. exact (run_export_readback w parse1 m o names def views triggers). Qed.
Print Assumptions C10_export_reads_back.

Example C10_example :
  plain_statement ("CREATE TABLE `a` (" ++ nl ++ "  `id` int -- key" ++ nl ++ ")").
Proof. constructor; try reflexivity; eexists; split; reflexivity. Qed.
