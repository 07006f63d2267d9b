(** SQL Server from texts: a file applied to a database, and to the database that has its schema. *)
From Coq Require Import String Ascii List ZArith Bool Lia.
From Verif Require Import GoStr GoStrFacts Ast Generator SchemaText SchemaParse Parser Planner Catalog AdapterMssql ExportMssql SpecPlan SpecColumns SpecMysql SpecDatabase
  SpecShown SpecShownMssql SpecMssql SpecConvergeMs ProofMsEndToEnd ProofMsSettle.
Import ListNotations.
Local Open Scope string_scope.
Local Open Scope list_scope.

Lemma mq_numbered l : forall p, number p (map (mq_ideal_column 0) l) = mq_ideal_columns p l.
Proof. induction l as [|c l IH]; intros p; [reflexivity|]. cbn [map number mq_ideal_columns]. rewrite IH. reflexivity. Qed.
Lemma mq_listed k : listed (option_map (mq_ideal_index true) k) = map (mq_ideal_index true) (listed k).
Proof. now destruct k. Qed.
(** The definitions of the export are those of the database. *)
Lemma ms_shown_ideal d : ms_shown (mq_ideal d) = mq_definitions d.
Proof.
  unfold ms_shown, mq_ideal, mq_definitions. cbn [db_tables db_views db_triggers]. rewrite !map_map. f_equal.
  rewrite flat_map_concat_map, map_map, <- flat_map_concat_map. apply flat_map_ext. intros t.
  unfold ms_shown_statements, mq_table_definitions, ms_shown_table, mq_ideal_table, mq_tab. cbn [m_name m_columns m_key m_indexes m_fks].
  now rewrite mq_numbered, mq_listed, map_map.
Qed.

Section Texts.
Variable w : ms_ways.
Variable d : mq_database.
Variable current : string.
Hypothesis Hw : ms_names_given w.
Hypothesis Hr : mq_readable d = true.
Hypothesis Hd : ms_dump (mq_server d) current.
Hypothesis Hok : ms_database_ok (mq_ideal d).
Variables (desired : string) (l : list ddl).
Hypothesis Hl : parse_file Mssql desired = Ok l.
Hypothesis Hs : ms_schema w l.

Theorem ms_texts_converge replaceable texts :
  ms_convertible w l (mq_ideal d) -> plan_text Mssql desired current = Ok texts ->
  exists out db', texts = map s_text out /\ execute_all m_name (ms_create w) (ms_alter w) replaceable out (mq_ideal d) = Some db' /\
    ms_db_reached l db' /\ ms_database_ok db'.
Proof.
  intros Hv Hp. apply (ms_plan_from_texts d current Hr Hd desired l texts Hl) in Hp as (out & Hp & ->). rewrite <- ms_shown_ideal in Hp.
  destruct (ms_converges w replaceable l (mq_ideal d) out Hw Hs Hok Hv Hp) as (db' & A & B & C & _). exists out, db'. auto.
Qed.
Theorem ms_texts_settled : ms_db_reached l (mq_ideal d) -> plan_text Mssql desired current = Ok [].
Proof.
  intros Hre. apply (ms_plan_from_texts d current Hr Hd desired l [] Hl). exists []. split; [|reflexivity]. rewrite <- ms_shown_ideal. exact (ms_nothing_more w l (mq_ideal d) Hs Hok Hre).
Qed.
End Texts.
