(** Copying a SQL Server database.  Only the syntax trees of [Ast] and the ideal SQL Server of
    [SpecMssql] are used. *)
From Coq Require Import String List ZArith Bool.
From Verif Require Import GoStr Ast Generator SpecPlan SpecColumns SpecMysql SpecDatabase SpecPostgres SpecShownMssql SpecMssql SpecCopy.
Import ListNotations.
Local Open Scope string_scope.
Local Open Scope list_scope.

Definition ms_nothing : database ms_tab := mkDatabase [] [] [].

(** Equal tables in the same order, and the same views and triggers. *)
Definition ms_copy_of (a b : database ms_tab) : Prop :=
  db_tables a = db_tables b /\ Forall2 same_view (db_views a) (db_views b) /\ Forall2 same_trigger (db_triggers a) (db_triggers b).

(** So is every table of SQL Server: there is at most one identity, and it is NOT NULL and has no
    default; keys, indexes and foreign keys are on columns of the table, a primary key on
    different ones that are NOT NULL. *)
Definition is_required (c : column) : bool := match c_notnull c with Some true => true | _ => false end.
Definition ms_natural (g : ms_tab) : bool :=
  forallb (fun c => negb (has_identity c) || is_required c && match c_default c with None => true | Some _ => false end) (m_columns g) &&
  Nat.leb (length (filter has_identity (m_columns g))) 1 &&
  match m_key g with
  | Some k => distinct (SpecMysql.key_columns k) && all_in (SpecMysql.key_columns k) (m_names g) &&
              forallb (fun c => negb (mem (c_name c) (SpecMysql.key_columns k)) || is_required c) (m_columns g)
  | None => true
  end &&
  forallb (fun i => all_in (index_columns i) (m_names g)) (m_indexes g) &&
  forallb (fun f => all_in (fk_index_columns f) (m_names g)) (m_fks g).

(** The server keeps the values and conditions it shows when they are given to it again; no
    primary key is called PRIMARY, the name sqldef has for keys without a name. *)
Definition ms_kept (w : ms_ways) (g : ms_tab) : Prop :=
  (forall c d v, In c (m_columns g) -> c_default c = Some d -> df_value d = Some v -> w_value w v = v) /\
  (forall c k, In c (m_columns g) -> c_check c = Some k -> w_condition w (ck_definition k) = ck_definition k) /\
  (forall k, m_key g = Some k -> i_name k <> "PRIMARY").

(** A fill factor that is written lies between 1 and 100; the catalogue says 0 of an index that was
    given none. *)
Definition fill_valid (i : index) : bool :=
  forallb (fun o => negb (String.eqb (io_name o) "fillfactor") ||
                    match io_value o with Some v => (1 <=? v_int v)%Z && (v_int v <=? 100)%Z | None => false end) (i_options i).
Definition ms_filled (g : ms_tab) : bool := forallb fill_valid (listed (m_key g) ++ m_indexes g).

(** SQL Server refuses a foreign key to a table that does not exist, and other fill factors. *)
Definition ms_accepts (e : effect) (there : list string) : bool :=
  match e with
  | EffVerbatim (CreateTable _ t) => refers_to there t && forallb fill_valid (t_indexes t)
  | EffVerbatim (CreateIndex _ _ i) | EffAddIndex _ i | EffAddPrimaryKey _ i => fill_valid i
  | EffAddForeignKey _ f => mem (fk_ref_name f) there
  | _ => true
  end.
Definition ms_checked (w : ms_ways) (replaceable : view -> string -> bool) (e : effect) (c : database ms_tab) : option (database ms_tab) :=
  if ms_accepts e (map m_name (db_tables c)) then execute m_name (ms_create w) (ms_alter w) replaceable e c else None.
Fixpoint ms_checked_all (w : ms_ways) (replaceable : view -> string -> bool) (out : list stmt) (c : database ms_tab) : option (database ms_tab) :=
  match out with
  | [] => Some c
  | s :: out' => match ms_checked w replaceable (s_eff s) c with Some c' => ms_checked_all w replaceable out' c' | None => None end
  end.

(** Every table refers only to itself and to tables before it. *)
Fixpoint ms_refers_back (there : list string) (l : list ms_tab) : bool :=
  match l with
  | [] => true
  | g :: l' => forallb (fun f => mem (fk_ref_name f) (m_name g :: there)) (m_fks g) && ms_refers_back (there ++ [m_name g]) l'
  end.
