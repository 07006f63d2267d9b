(** Vocabulary for a run of the command on a database whose statements have effects.  A server is a
    state and the effect of a text on it; of the functions of the model only [Runner.run], the subject,
    is named. *)
From Coq Require Import String List ZArith Bool.
From Verif Require Import GoStr Ast Generator Parser SchemaParse SpecPlan SpecMysql SpecDatabase SpecPostgres SpecMssql Runner SpecRunner.
Import ListNotations.
Local Open Scope string_scope.

(** [just_apply file]: the command line "the file [file], and nothing else asked". *)
Definition just_apply (file : string) : options := mkOptions file false false false.

(** The command (sqldef.go 22-62) with the parser it is built with. *)
Definition command (w : world) (m : mode) (file : string) : list event :=
  Runner.run w (parse_ddl parse_strict_ddl) m (just_apply file).

(** The history holds no statement sent to the database. *)
Definition untouched (h : list event) : Prop := db_trace h = [].

(** As long as nothing was sent, the catalogue answers with the same names, definitions, views and
    triggers, which joined are [current], and the file [file] has the contents [desired]. *)
Definition answers (w : world) (file desired current : string) : Prop :=
  exists names tables views triggers,
    (forall h, untouched h -> w_table_names w h = Some names /\ w_views w h = Some views /\
                              w_triggers w h = Some triggers /\ w_read_file w h file = Some desired) /\
    Forall2 (fun n t => forall h, untouched h -> w_dump_table w h n = Some t) names tables /\
    current = join (";" ++ nl ++ nl) (tables ++ views ++ triggers)%list.

Section Server.
Context {S : Type} (step : string -> S -> option S).

(** The state of the server once the events of [h] took place. *)
Definition state1 (s : S) (e : event) : S :=
  match e with Exec t true => match step t s with Some s' => s' | None => s end | _ => s end.

Definition state_after (s : S) (h : list event) : S := fold_left state1 h s.

(** Transactions open and close, and the server accepts a text exactly when it has an effect on
    the state the server is in. *)
Definition serves (w : world) (s0 : S) : Prop :=
  (forall h, w_begin w h = true) /\ (forall h, w_commit w h = true) /\
  (forall h t, w_exec w h t = true <-> exists s, step t (state_after s0 h) = Some s).

(** [does eff out]: the server does, on the text of each statement, what [eff] says of it. *)
Definition does (eff : stmt -> S -> option S) (out : list stmt) : Prop :=
  forall st, In st out -> forall s, step (s_text st) s = eff st s.

(** The same when the effect is a relation: the server takes one of the steps allowed, if any. *)
Definition allows (eff : stmt -> S -> S -> Prop) (out : list stmt) : Prop :=
  forall st, In st out -> forall s,
    (forall s', step (s_text st) s = Some s' -> eff st s s') /\
    ((exists s', eff st s s') -> exists s', step (s_text st) s = Some s').

(** The run sent all it had to send, committed it, said so and ended well; [s] is what it left. *)
Definition applied (tr : list event) (s0 s : S) : Prop :=
  exit_codes tr = [0%Z] /\ state_after s0 tr = s /\
  (sent tr = [] \/ exists k, db_trace tr = Begin true :: map (fun t => Exec t true) k ++ [Commit true])%list.

(** The run stopped before it sent anything. *)
Definition refused (tr : list event) : Prop := db_trace tr = [] /\ outputs tr = [] /\ exists c, exit_codes tr = [c] /\ c <> 0%Z.

(** The run found nothing to do. *)
Definition idle (tr : list event) : Prop :=
  db_trace tr = [] /\ outputs tr = ["-- Nothing is modified --" ++ nl] /\ exit_codes tr = [0%Z].
End Server.

(** ** Databases told apart by nothing that is printed

    An index is the same whether it is CLUSTERED or not and whether ASC was written: neither is
    printed for a key of MySQL or an index of PostgreSQL.  All else is equal. *)
Definition index_alike (a b : index) : Prop :=
  i_name a = i_name b /\ i_unique a = i_unique b /\ i_primary a = i_primary b /\ i_where a = i_where b /\
  i_included a = i_included b /\ i_options a = i_options b /\ Forall2 index_column_matches (i_columns a) (i_columns b).

Definition table_alike (a b : table) : Prop :=
  t_name a = t_name b /\ t_columns a = t_columns b /\ t_fks a = t_fks b /\ t_policies a = t_policies b /\
  Forall2 index_alike (t_indexes a) (t_indexes b).

Definition catalogue_alike (a b : catalogue) : Prop :=
  Forall2 table_alike (cat_tables a) (cat_tables b) /\ cat_views a = cat_views b /\ cat_triggers a = cat_triggers b.

Definition pg_alike (a b : pg_tab) : Prop :=
  g_name a = g_name b /\ g_columns a = g_columns b /\ g_pk a = g_pk b /\ g_owned a = g_owned b /\ g_fks a = g_fks b /\
  g_policies a = g_policies b /\ Forall2 index_alike (g_indexes a) (g_indexes b).

Definition ms_alike (a b : ms_tab) : Prop :=
  m_name a = m_name b /\ m_columns a = m_columns b /\ m_fks a = m_fks b /\ m_key a = m_key b /\ Forall2 index_alike (m_indexes a) (m_indexes b).

Definition database_alike {T} (alike : T -> T -> Prop) (a b : database T) : Prop :=
  Forall2 alike (db_tables a) (db_tables b) /\ db_views a = db_views b /\ db_triggers a = db_triggers b.
