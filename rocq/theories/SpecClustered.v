(** CLUSTERED on SQL Server: what a statement that adds an index says, and the rule that a table
    has one clustered index at most.  Only the syntax trees of [Ast] and the ideal table of
    [SpecMssql] are used. *)
From Coq Require Import String Ascii List ZArith Bool.
From Verif Require Import GoStr Ast Generator SpecPlan SpecColumns SpecMysql SpecDatabase SpecPostgres SpecShownMssql SpecMssql.
Import ListNotations.
Local Open Scope string_scope.
Local Open Scope list_scope.

Definition clustered_word (b : bool) : string := if b then " CLUSTERED " else " NONCLUSTERED ".

(** CREATE [UNIQUE] CLUSTERED | NONCLUSTERED INDEX ... *)
Definition creates_index (clustered unique : bool) (n text : string) : Prop :=
  exists rest, text = ("CREATE" ++ (if unique then " UNIQUE" else "") ++ clustered_word clustered ++ "INDEX [" ++ n ++ "] ON " ++ rest)%string.
(** ALTER TABLE ... ADD [CONSTRAINT ...] PRIMARY KEY CLUSTERED | NONCLUSTERED (...) *)
Definition adds_key (clustered : bool) (kind text : string) : Prop :=
  exists table rest, text = ("ALTER TABLE " ++ table ++ " " ++ kind ++ clustered_word clustered ++ "(" ++ rest)%string.

(** The clustered indexes of a table. *)
Definition clustered_indexes (g : ms_tab) : list string := map i_name (filter i_clustered (listed (m_key g) ++ m_indexes g)).
