(** What the SQL parser does with any text, and what the planner does with some. *)
From Coq Require Import String Ascii List ZArith Bool.
From Verif Require Import GoStr Ast Generator Keywords Lexer SqlAst ParserValues Parser SchemaText SchemaParse Planner
  SpecGrammar SpecLexer SpecLayout ProofParser ProofParse ProofRun.
Import ListNotations.
Local Open Scope string_scope.
Local Open Scope list_scope.

(** ** C65: the parser ends, and never goes wrong

    [Stuck] is a table index out of range or a value of the wrong kind; [Next] is a parser still
    running.  However long it may run, the result is the same. *)
Theorem C65_parser_halts m sql : exists r, (forall p, r <> Next p) /\ r <> Stuck /\
  forall n, (String.length sql + 20 <= n)%nat -> rounds n (new_parser m sql) = r.
Proof. exact (parser_halts m sql). Qed.
Print Assumptions C65_parser_halts.

(** The full statement is that no text makes it crash.  That is false; these are all the texts
    that do: a comment for MySQL that is not one, or NOT FOR REPLICATION on a column that is not
    an identity. *)
Theorem C65_crashes_only_here_partial m sql : parse_strict_ddl m sql = Panic ->
  tokens m sql = StreamPanic \/
  exists l1 l l2 v1 v2 v3 ps ty, derives (Nonterminal "column_definition_type") l ps (YType ty) /\ ct_identity ty = None /\
    tokens m sql = Tokens (l1 ++ without_comments l ++ [(KTok "NOT", v1); (KTok "FOR", v2); (KTok "REPLICATION", v3)] ++ l2).
Proof. exact (parser_crashes m sql). Qed.
Print Assumptions C65_crashes_only_here_partial.
Example C65_example : parse_strict_ddl Mssql "CREATE TABLE t (id int IDENTITY(1,1) NOT FOR REPLICATION)" <> Panic /\
  parse_strict_ddl Mssql "CREATE TABLE t (id int NOT FOR REPLICATION)" = Panic.
Proof. split; vm_compute; [discriminate|reflexivity]. Qed.

Theorem C65_replication_refuted : exists sql, plan_text Mssql sql "" = Panic /\
  sql = "CREATE TABLE t (id int NOT FOR REPLICATION)".
Proof. eexists. split; [|reflexivity]. vm_compute. reflexivity. Qed.
Print Assumptions C65_replication_refuted.

(** A check that only casts parses, and then crashes the planner. *)
Theorem C65_cast_of_nothing_refuted : exists sql, plan_text Postgres sql "" = Panic /\
  (exists st, parse_strict_ddl Postgres sql = Ok st) /\ sql = "CREATE TABLE t (a int CHECK (::text))".
Proof. eexists. split; [|split; [|reflexivity]]; [vm_compute; reflexivity|eexists; vm_compute; reflexivity]. Qed.
Print Assumptions C65_cast_of_nothing_refuted.

(** ** C66: nothing in an accepted statement is ignored

    The words of the text, with the comments of a query put back, are derived from the grammar,
    and the statement is what the grammar makes of them. *)
Theorem C66_no_word_is_skipped m sql d : parse_ddl parse_strict_ddl m sql = Ok d -> exists l l' ps st,
  tokens m sql = Tokens l /\ without_comments l' = l /\
  derives (Nonterminal "any_command") l' ps (YStmt st) /\ parse_statement m sql st = Ok d.
Proof. exact (parsed_ddl m sql d). Qed.
Print Assumptions C66_no_word_is_skipped.
Example C66_example : exists d, parse_ddl parse_strict_ddl Mysql "CREATE TABLE t (id int, KEY k (id))" = Ok d /\
  (exists st, parse_strict_ddl Mysql "ALTER TABLE t what ever !" = Ok st) /\
  exists e, parse_ddl parse_strict_ddl Mysql "ALTER TABLE t what ever !" = Err e.
Proof. eexists. split; [vm_compute; reflexivity|]. split; eexists; vm_compute; reflexivity. Qed.

(** ** C67: layout, letter case of keywords and comments do not matter *)
Theorem C67_layout_does_not_matter m a b w : says m a w -> says m b w ->
  in_ok without_text (parse_ddl parse_strict_ddl m a) = in_ok without_text (parse_ddl parse_strict_ddl m b).
Proof. exact (same_meaning m a b w). Qed.
Print Assumptions C67_layout_does_not_matter.
Example C67_example : exists w,
  says Mysql "CREATE  TABLE `t` ( a INT NOT NULL ) # of things" w /\
  says Mysql "create table t(`a` int /* always */ not null)" w /\
  exists d, parse_ddl parse_strict_ddl Mysql "create table t(`a` int /* always */ not null)" = Ok d.
Proof.
  exists [(KTok "CREATE", "create"); (KTok "TABLE", "table"); (KTok "ID", "t"); (KChar "(", ""); (KTok "ID", "a"); (KTok "INT", "int");
          (KTok "NOT", "not"); (KTok "NULL", "null"); (KChar ")", "")].
  split; [apply saysb_says; vm_compute; reflexivity|]. split; [apply saysb_says; vm_compute; reflexivity|].
  eexists. vm_compute. reflexivity.
Qed.
