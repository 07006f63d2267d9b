(** Where the definitions in a plan come from: what each operation adds or sets, looked up in the
    statements of the schema file.  Only the syntax trees of [Ast] and the effects of [Generator]
    are used. *)
From Coq Require Import String Ascii List ZArith Bool.
From Verif Require Import GoStr Ast Generator SpecPlan SpecMysql SpecShown SpecShownMysql SpecWordsMysql.
Import ListNotations.
Local Open Scope string_scope.
Local Open Scope list_scope.

(** The columns, indexes and foreign keys that CREATE TABLE statements of the file give table [t]. *)
Definition columns_of (t : string) (l : list ddl) : list column := inline t_columns t l.
Definition table_indexes_of (t : string) (l : list ddl) : list index := inline t_indexes t l.
Definition table_fks_of (t : string) (l : list ddl) : list foreign_key := inline t_fks t l.

(** [c] is the column [c0], or that column without AUTO_INCREMENT. *)
Definition is_column (c c0 : column) : Prop := c = c0 \/ c = set_autoinc false c0.

(** Apart from whether it is a key. *)
Definition unkeyed (c : column) : column := set_key KeyNone c.

(** The primary key that column definitions declare. *)
Definition key_of_columns (t : table) (i : index) : Prop :=
  i_primary i = true /\ i_unique i = true /\ i_options i = [] /\
  map ic_column (i_columns i) = map c_name (filter (fun c => is_key_primary (c_key c)) (t_columns t)).

(** NOT NULL as the column definition has it; SERIAL columns of PostgreSQL are. *)
Definition declared_required (c : column) : Prop :=
  c_notnull c = Some true \/ (c_notnull c = None /\ (c_type c = "serial" \/ c_type c = "bigserial")).

(** The operation [e] is asked for by the statements [desired]; [current] are the statements the
    database is described with. *)
Definition asked_for (desired current : list ddl) (e : effect) : Prop :=
  let placed t p := match p with PosAfter y => In y (map c_name (columns_of t desired)) | _ => True end in
  let declares t n (P : column -> Prop) := exists c, In c (columns_of t desired) /\ c_name c = n /\ P c in
  match e with
  | EffVerbatim d => In d desired
  | EffCreateView n s | EffReplaceView n s => exists v, In (DView v) desired /\ vw_name v = n /\ vw_definition v = s
  | EffCreateTrigger t | EffCreateOrAlterTrigger t => In (DTrigger t) desired
  | EffAddColumn t c p => placed t p /\ declares t (c_name c) (is_column c)
  | EffChangeColumn t n c p =>
      placed t p /\ c_name c = n /\
      (declares t n (is_column c) \/
       (* AUTO_INCREMENT is taken from a column as the database has it *)
       exists c0, In c0 (columns_of t (current ++ desired)) /\ c_autoinc c0 = true /\ unkeyed c = unkeyed (set_autoinc false c0))
  | EffAddUniqueKey t n => declares t n (fun c => is_unique (c_key c) = true)
  | EffAlterType t n c => c_name c = n /\ declares t n (is_column c)
  | EffSetNotNull t n => declares t n declared_required
  | EffAddIdentity t n i s => declares t n (fun c => c_identity c = Some i /\ c_sequence c = s)
  | EffSetIdentity t n i => declares t n (fun c => c_identity c = Some i)
  | EffSetDefault t n d | EffAddDefault t n d => declares t n (fun c => c_default c = Some d)
  | EffAddCheck t n _ k _ => declares t n (fun c => c_check c = Some k)
  | EffAddPrimaryKey t i => In i (table_indexes_of t desired) \/ exists x, In x (tables_in desired) /\ t_name x = t /\ key_of_columns x i
  | EffAddIndex t i => In i (table_indexes_of t desired)
  | EffAddForeignKey t f => In f (table_fks_of t desired)
  | _ => True
  end.

(** Columns of a MySQL schema file for which there are words in SHOW CREATE TABLE. *)
Definition sayable_columns (t : string) (l : list ddl) : Prop :=
  forall c, In c (columns_of t l) -> exists mc k, sayable_column mc = true /\ c = set_position k (my_ideal_column mc).
Definition with_auto (auto : bool) (c : my_column) : my_column :=
  mkMyColumn (mc_name c) (mc_type c) (mc_null c) (mc_default c) (mc_on_update c) auto (mc_comment c).
