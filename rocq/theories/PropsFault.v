(** Property C99: an error of the planner names a real fault. *)
From Coq Require Import String Ascii List ZArith Bool SpecFloat.
From Verif Require Import GoStr GoNum Ast Generator SpecPlan SpecFault DemoPlan ProofFault.
Import ListNotations.
Local Open Scope string_scope.
Local Open Scope list_scope.

Theorem C99_errors_name_a_fault m desired current e :
  plan m desired current = Err e -> fault m desired current e.
Proof. exact (errors_tell m desired current e). Qed.
Print Assumptions C99_errors_name_a_fault.

(** Every error of the planner, one schema for each. *)
Example C99_example :
  let blog := blog_desired "" in let old := blog_current "" in
  let t := mkTable "t" [col "a" 0 "int"; col "b" 1 "int"] [] [] [] in
  let make (t : table) := CreateTable "CREATE TABLE t (...)" t in
  let one := CreateIndex "CREATE INDEX i ON t (a)" "t" (idx "i" false ["a"]) in
  plan Mysql (blog ++ [CreateIndex "CREATE INDEX i ON ghosts (a)" "ghosts" (idx "i" false ["a"])]) old =
    Err (EInexistentTable "ghosts" "CREATE INDEX i ON ghosts (a)") /\
  plan Mysql (one :: make t :: blog) (make t :: old) = Err (ENotYetCreated "t" "CREATE INDEX i ON t (a)") /\
  plan Mysql (blog ++ [make t; one; one]) old = Err (EDoublyCreated "i" "t" "CREATE INDEX i ON t (a)") /\
  plan Mysql (blog ++ [DView (mkView "CREATE VIEW w" "w" "select 1"); DView (mkView "CREATE VIEW w AS" "w" "select 2")]) old =
    Err (EDoublyCreated "w" "" "CREATE VIEW w AS") /\
  plan Mysql (blog ++ [make t; AddPrimaryKey "ALTER TABLE t ADD PRIMARY KEY (a)" "t" (pk ["a"])]) old =
    Err (EUnexpectedDesired (AddPrimaryKey "ALTER TABLE t ADD PRIMARY KEY (a)" "t" (pk ["a"]))) /\
  plan Postgres blog (one :: old) = Err (EBeforeCreateTable "CREATE INDEX i ON t (a)") /\
  plan Postgres blog (old ++ [AddIndex "ALTER TABLE users ADD INDEX" "users" (idx "i" false ["age"])]) =
    Err (EUnexpectedCurrent (AddIndex "ALTER TABLE users ADD INDEX" "users" (idx "i" false ["age"]))) /\
  plan Postgres [make (mkTable "t" [col "a" 0 "int"; col "b" 1 "int";
      with_default (mkValue VBool "true" "" 0 (S754_zero false) true) (col "c" 2 "bool")] [] [] [])] [make t] =
    Err (EUnsupportedDefault VBool) /\
  plan Mysql [make (mkTable "t" [col "a" 0 "int"; col "b" 1 "int"; key KeyKey (col "c" 2 "int")] [] [] [])] [make t] =
    Err (EUnsupportedKey (key KeyKey (col "c" 2 "int"))) /\
  plan Mysql [make (mkTable "t" [col "a" 0 "int"; col "b" 1 "int"] [] [mkForeignKey "" "by_a" ["a"] "users" ["id"] "" "" false] [])] [make t] =
    Err (ENoForeignKeySymbol "t" "by_a") /\
  plan Mysql [make (mkTable "t" [key KeyPrimary (col "a" 0 "int"); col "b" 1 "int"] [] [] [])]
    [make (mkTable "t" [col "a" 0 "int"; col "b" 1 "int"] [pk ["b"]] [] [])] = Err (EPrimaryKeyRename "t" "a" "b").
Proof. vm_compute. repeat split. Qed.

(** From the two texts: an error that is not the parser's names a fault of the parsed schemas. *)
Theorem C99_refused_runs_name_a_fault parse m desired_sql current_sql e :
  generate_idempotent_ddls parse m desired_sql current_sql = Err e ->
  parse m desired_sql = Err e \/ parse m current_sql = Err e \/
  exists desired current, parse m desired_sql = Ok desired /\ parse m current_sql = Ok current /\
    fault m desired current e.
Proof. exact (refused_runs parse m desired_sql current_sql e). Qed.
Print Assumptions C99_refused_runs_name_a_fault.

Example C99_run_example :
  let parse (_ : mode) (s : string) : res (list ddl) :=
    if String.eqb s "file" then Ok [DView (mkView "CREATE VIEW w" "w" "select 1"); DView (mkView "CREATE VIEW w AS" "w" "select 2")]
    else if String.eqb s "" then Ok [] else Err (EParse "syntax error") in
  generate_idempotent_ddls parse Mysql "file" "" = Err (EDoublyCreated "w" "" "CREATE VIEW w AS") /\
  generate_idempotent_ddls parse Mysql "else" "" = Err (EParse "syntax error").
Proof. vm_compute. auto. Qed.
