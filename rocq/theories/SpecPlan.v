(** Specification vocabulary for planning: what a list of parsed statements declares, when it
    is well formed, and how planned statements are counted.  Only the syntax trees of [Ast] and
    the effects of [Generator] are used, none of the planner's functions. *)
From Coq Require Import String Ascii List ZArith Bool.
From Verif Require Import GoStr Ast Generator.
Import ListNotations.
Local Open Scope string_scope.
Local Open Scope list_scope.

Definition mem (x : string) (l : list string) : bool := existsb (String.eqb x) l.

(** ** What a schema declares *)

(** The tables created, in order. *)
Definition tables_in (l : list ddl) : list table :=
  flat_map (fun d => match d with CreateTable _ t => [t] | _ => [] end) l.

Definition created (l : list ddl) : list string := map t_name (tables_in l).

(** The indexes, foreign keys, policies and primary key columns added to table [n] by
    separate statements. *)
Definition indexes_on (n : string) (l : list ddl) : list index :=
  flat_map (fun d => match d with
                     | CreateIndex _ t i | AddIndex _ t i => if String.eqb t n then [i] else []
                     | _ => [] end) l.
Definition fks_on (n : string) (l : list ddl) : list foreign_key :=
  flat_map (fun d => match d with
                     | AddForeignKey _ t f => if String.eqb t n then [f] else []
                     | _ => [] end) l.
Definition policies_on (n : string) (l : list ddl) : list policy :=
  flat_map (fun d => match d with
                     | AddPolicy _ t p => if String.eqb t n then [p] else []
                     | _ => [] end) l.
Definition pk_marks (n : string) (l : list ddl) : list string :=
  flat_map (fun d => match d with
                     | AddPrimaryKey _ t i =>
                         if String.eqb t n then map ic_column (firstn 1 (i_columns i)) else []
                     | _ => [] end) l.

Definition mark (marks : list string) (c : column) : column :=
  if mem (c_name c) marks then set_key KeyPrimary c else c.

(** A table with everything the schema says about it. *)
Definition full_table (l : list ddl) (t : table) : table :=
  mkTable (t_name t) (map (mark (pk_marks (t_name t) l)) (t_columns t))
    (t_indexes t ++ indexes_on (t_name t) l) (t_fks t ++ fks_on (t_name t) l)
    (t_policies t ++ policies_on (t_name t) l).

Definition schema (l : list ddl) : list table := map (full_table l) (tables_in l).

Definition views_in (l : list ddl) : list view :=
  flat_map (fun d => match d with DView v => [v] | _ => [] end) l.
Definition triggers_in (l : list ddl) : list trigger :=
  flat_map (fun d => match d with DTrigger t => [t] | _ => [] end) l.

(** The names the schema declares for table [n], inline or by separate statements. *)
Definition inline {A} (f : table -> list A) (n : string) (l : list ddl) : list A :=
  flat_map (fun t => if String.eqb (t_name t) n then f t else []) (tables_in l).
Definition index_names_of (n : string) (l : list ddl) : list string :=
  map i_name (inline t_indexes n l ++ indexes_on n l).
Definition fk_names_of (n : string) (l : list ddl) : list string :=
  map fk_constraint (inline t_fks n l ++ fks_on n l).
Definition policy_names_of (n : string) (l : list ddl) : list string :=
  map p_name (inline t_policies n l ++ policies_on n l).

(** ** Well-formed desired schemas *)

(** [d] may follow the statements [before]. *)
Definition may_follow (before : list ddl) (d : ddl) : bool :=
  match d with
  | CreateTable _ _ | DTrigger _ => true
  | CreateIndex _ n i | AddIndex _ n i =>
      mem n (created before) && negb (mem (i_name i) (index_names_of n before))
  | AddForeignKey _ n f =>
      mem n (created before) && negb (mem (fk_constraint f) (fk_names_of n before))
  | AddPolicy _ n p =>
      mem n (created before) && negb (mem (p_name p) (policy_names_of n before))
  | DView v => negb (mem (vw_name v) (map vw_name (views_in before)))
  | AddPrimaryKey _ _ _ => false
  end.

(** Every statement may follow those before it. *)
Fixpoint well_formed_after (before l : list ddl) : bool :=
  match l with
  | [] => true
  | d :: l' => may_follow before d && well_formed_after (before ++ [d]) l'
  end.

Definition well_formed (l : list ddl) : bool := well_formed_after [] l.

(** Current schemas: objects follow their table, no ALTER TABLE ADD INDEX, and primary keys
    name a column. *)
Definition may_follow_current (before : list ddl) (d : ddl) : bool :=
  match d with
  | CreateTable _ _ | DTrigger _ | DView _ => true
  | AddIndex _ _ _ => false
  | CreateIndex _ n _ | AddForeignKey _ n _ | AddPolicy _ n _ => mem n (created before)
  | AddPrimaryKey _ n i => mem n (created before) && negb (Nat.eqb (length (i_columns i)) 0)
  end.

Fixpoint readable_after (before l : list ddl) : bool :=
  match l with
  | [] => true
  | d :: l' => may_follow_current before d && readable_after (before ++ [d]) l'
  end.

Definition readable (l : list ddl) : bool := readable_after [] l.

(** ** Which table a statement is about *)
Definition ddl_table (d : ddl) : option string :=
  match d with
  | CreateTable _ t => Some (t_name t)
  | CreateIndex _ n _ | AddIndex _ n _ | AddPrimaryKey _ n _ | AddForeignKey _ n _
  | AddPolicy _ n _ => Some n
  | DView _ | DTrigger _ => None
  end.

Definition eff_table (e : effect) : option string :=
  match e with
  | EffVerbatim d => ddl_table d
  | EffDropView _ | EffCreateView _ _ | EffReplaceView _ _ | EffDropTrigger _
  | EffCreateTrigger _ | EffCreateOrAlterTrigger _ => None
  | EffDropTable t | EffDropPolicy _ t | EffAddColumn t _ _ | EffChangeColumn t _ _ _
  | EffDropColumn t _ | EffAddUniqueKey t _ | EffAlterType t _ _ | EffDropNotNull t _
  | EffSetNotNull t _ | EffAddIdentity t _ _ _ | EffDropIdentity t _ | EffSetIdentity t _ _
  | EffDropDefault t _ | EffSetDefault t _ _ | EffAddDefault t _ _
  | EffDropDefaultConstraint t _ _ | EffDropCheck t _ _ | EffAddCheck t _ _ _ _
  | EffDropPrimaryKey t | EffDropPrimaryConstraint t _ | EffAddPrimaryKey t _
  | EffAddIndex t _ | EffDropIndex t _ | EffNothing t | EffDropForeignKey t _
  | EffAddForeignKey t _ => Some t
  end.

Definition is_some_eqb (o : option string) (n : string) : bool :=
  match o with Some k => String.eqb k n | None => false end.

(** The part of a plan, and of a schema, that is about table [n]. *)
Definition table_part (n : string) (out : list stmt) : list stmt :=
  filter (fun s => is_some_eqb (eff_table (s_eff s)) n) out.
Definition statements_on (n : string) (l : list ddl) : list ddl :=
  filter (fun d => is_some_eqb (ddl_table d) n) l.

(** What the statements of a plan do, one kind at a time. *)
Definition effects {A} (f : effect -> list A) (out : list stmt) : list A :=
  flat_map (fun s => f (s_eff s)) out.

(** ** Relational vocabulary *)

(** [out] is what the elements of [l] contribute, in order, each as [R] says. *)
Inductive contrib {A B} (R : A -> list B -> Prop) : list A -> list B -> Prop :=
| contrib_nil : contrib R [] []
| contrib_cons x o l out : R x o -> contrib R l out -> contrib R (x :: l) (o ++ out).

(** The first element named [n]. *)
Definition named {A} (name_of : A -> string) (n : string) (l : list A) : option A :=
  find (fun x => String.eqb (name_of x) n) l.

(** The elements of [l] whose name is not among those of [l']. *)
Definition without {A B} (f : A -> string) (g : B -> string) (l' : list B) (l : list A) : list A :=
  filter (fun x => negb (mem (f x) (map g l'))) l.

(** ** What is compared, and how *)

(** Two literal values: the same text; a float of the desired schema may be a prefix of what
    the database reports. *)
Definition value_matches (cur des : option value) : Prop :=
  match cur, des with
  | None, None => True
  | Some a, Some b => v_raw a = v_raw b \/ (v_type b = VFloat /\ exists s, v_raw a = (v_raw b ++ s)%string)
  | _, _ => False
  end.

Definition index_column_matches (a b : index_column) : Prop :=
  ic_column a = ic_column b /\
  (ic_direction a = ic_direction b \/
   (ic_direction a = "" /\ ic_direction b = "asc") \/ (ic_direction a = "asc" /\ ic_direction b = "")).

(** Every option the desired index names has the same value on the current one. *)
Definition index_matches (cur des : index) : Prop :=
  i_unique cur = i_unique des /\ i_primary cur = i_primary des /\
  Forall2 index_column_matches (i_columns cur) (i_columns des) /\
  i_where cur = i_where des /\ i_included cur = i_included des /\
  forall o, In o (i_options des) ->
    exists o', named io_name (io_name o) (i_options cur) = Some o' /\
               value_matches (io_value o') (io_value o).

(** Referential actions; PostgreSQL and SQL Server know "no clause" as NO ACTION. *)
Definition action_matches (m : mode) (a b : string) : Prop :=
  a = b \/
  ((m = Postgres \/ m = Mssql) /\
   ((a = "" /\ b = "NO ACTION") \/ (a = "NO ACTION" /\ b = ""))).

Definition fk_matches (m : mode) (cur des : foreign_key) : Prop :=
  action_matches m (fk_on_update cur) (fk_on_update des) /\
  action_matches m (fk_on_delete cur) (fk_on_delete des) /\
  fk_not_for_replication cur = fk_not_for_replication des.

Definition same_letters (a b : string) : Prop := to_lower a = to_lower b.

(** Bodies are compared statement by statement, up to spaces and letter case. *)
Definition trigger_matches (cur des : trigger) : Prop :=
  tr_time cur = tr_time des /\ tr_event cur = tr_event des /\ tr_table cur = tr_table des /\
  Forall2 (fun a b => same_letters (remove_char " " a) (remove_char " " b)) (tr_body cur) (tr_body des).

Definition in_parentheses (cur des : string) : Prop := des = ("(" ++ cur ++ ")")%string.

(** The policy comparison as it is: a USING (or WITH CHECK) clause that only gained
    parentheses ends the comparison with "same". *)
Definition policy_matches (cur des : policy) : Prop :=
  same_letters (p_scope cur) (p_scope des) /\
  same_letters (p_permissive cur) (p_permissive des) /\
  ((~ same_letters (p_using cur) (p_using des) /\ in_parentheses (p_using cur) (p_using des)) \/
   (same_letters (p_using cur) (p_using des) /\
    ((~ same_letters (p_with_check cur) (p_with_check des) /\
      in_parentheses (p_with_check cur) (p_with_check des)) \/
     (same_letters (p_with_check cur) (p_with_check des) /\
      Forall2 same_letters (sort_strings (p_roles cur)) (sort_strings (p_roles des)))))).

(** ** Kinds of effects *)
Definition dropped_tables (e : effect) : list string :=
  match e with EffDropTable t => [t] | _ => [] end.
Definition dropped_columns (n : string) (e : effect) : list string :=
  match e with EffDropColumn t c => if String.eqb t n then [c] else [] | _ => [] end.
Definition added_columns (n : string) (e : effect) : list (column * col_pos) :=
  match e with EffAddColumn t c p => if String.eqb t n then [(c, p)] else [] | _ => [] end.
Definition executed_as_written (e : effect) : list ddl :=
  match e with EffVerbatim d => [d] | _ => [] end.

Inductive op (A : Type) := Drop (name : string) | Add (x : A).
Arguments Drop {A} _.
Arguments Add {A} _.

(** Index operations on table [n]; CREATE INDEX statements of the user are additions. *)
Definition index_ops (n : string) (e : effect) : list (op index) :=
  match e with
  | EffAddIndex t i => if String.eqb t n then [Add i] else []
  | EffDropIndex t i => if String.eqb t n then [Drop i] else []
  | EffVerbatim (CreateIndex _ t i) | EffVerbatim (AddIndex _ t i) =>
      if String.eqb t n then [Add i] else []
  | _ => []
  end.

Definition fk_ops (n : string) (e : effect) : list (op foreign_key) :=
  match e with
  | EffAddForeignKey t f => if String.eqb t n then [Add f] else []
  | EffDropForeignKey t f => if String.eqb t n then [Drop f] else []
  | _ => []
  end.

Definition policy_ops (n : string) (e : effect) : list (op policy) :=
  match e with
  | EffDropPolicy p t => if String.eqb t n then [Drop p] else []
  | EffVerbatim (AddPolicy _ t p) => if String.eqb t n then [Add p] else []
  | _ => []
  end.

Inductive view_op := ViewAsWritten (v : view) | ViewReplace (n def : string)
                   | ViewCreate (n def : string) | ViewDrop (n : string).
Definition view_ops (e : effect) : list view_op :=
  match e with
  | EffVerbatim (DView v) => [ViewAsWritten v]
  | EffReplaceView n d => [ViewReplace n d]
  | EffCreateView n d => [ViewCreate n d]
  | EffDropView n => [ViewDrop n]
  | _ => []
  end.

Inductive trigger_op := TriggerCreate (t : trigger) | TriggerAlter (t : trigger)
                      | TriggerDrop (n : string).
Definition trigger_ops (e : effect) : list trigger_op :=
  match e with
  | EffCreateTrigger t => [TriggerCreate t]
  | EffCreateOrAlterTrigger t => [TriggerAlter t]
  | EffDropTrigger n => [TriggerDrop n]
  | _ => []
  end.

(** ** Rules, one per kind of object of a kept table.
    [ct] is the current table, [dt] the desired one; [o] is what the element contributes. *)

(** SQL Server: the identity clause of a column both tables have differs. *)
Definition identity_differs (m : mode) (ct : table) (c : column) (cc : column) : Prop :=
  m = Mssql /\ named c_name (c_name c) (t_columns ct) = Some cc /\ c_identity cc <> c_identity c.

(** A desired column is dropped only on SQL Server, when it has to lose its identity. *)
Definition desired_column_drop (m : mode) (ct : table) (c : column) (o : list string) : Prop :=
  (exists cc, identity_differs m ct c cc /\ c_identity cc <> None /\ o = [c_name c]) \/
  ((forall cc, identity_differs m ct c cc -> c_identity cc = None) /\ o = []).

(** A column is added when it is new: without AUTO_INCREMENT, and on MySQL right after its
    predecessor in the desired table.  On SQL Server also when it has to get an identity. *)
Definition desired_column_add (m : mode) (ct : table) (pc : option string * column)
  (o : list (column * col_pos)) : Prop :=
  let '(prev, c) := pc in
  (named c_name (c_name c) (t_columns ct) = None /\
   o = [(set_autoinc false c,
         match m, prev with
         | Mysql, None => PosFirst
         | Mysql, Some p => PosAfter p
         | _, _ => PosNone
         end)]) \/
  (exists cc b, identity_differs m ct c cc /\ c_identity c <> None /\ o = [(set_autoinc b c, PosNone)]) \/
  ((exists cc, named c_name (c_name c) (t_columns ct) = Some cc) /\
   (forall cc, identity_differs m ct c cc -> c_identity c = None) /\ o = []).

(** Each column with the name of its predecessor. *)
Fixpoint with_previous (prev : option string) (l : list column) : list (option string * column) :=
  match l with
  | [] => []
  | c :: l' => (prev, c) :: with_previous (Some (c_name c)) l'
  end.

(** SQLite has no statement to drop an index. *)
Definition drop_index_op (m : mode) (n : string) : list (op index) :=
  match m with SQLite3 => [] | _ => [Drop n] end.

(** A desired index: nothing when it matches, otherwise added, after the drop of its namesake. *)
Definition desired_index (m : mode) (ct : table) (i : index) (o : list (op index)) : Prop :=
  match named i_name (i_name i) (t_indexes ct) with
  | None => o = [Add i]
  | Some ci => (index_matches ci i /\ o = []) \/
               (~ index_matches ci i /\ o = drop_index_op m (i_name i) ++ [Add i])
  end.

(** Indexes of the CREATE TABLE; primary keys are handled apart. *)
Definition desired_inline_index m ct (i : index) (o : list (op index)) : Prop :=
  if i_primary i then o = [] else desired_index m ct i o.

(** A name that some foreign key of [l] gives to its index. *)
Definition backs_fk (l : list foreign_key) (n : string) : Prop :=
  exists f, In f l /\ n <> "" /\
    (n = fk_index_name f \/ (fk_index_name f = "" /\ n = fk_constraint f)).

(** An index of the current table is dropped when the desired table neither declares it nor
    needs it for a foreign key or a UNIQUE column. *)
Definition current_index (m : mode) (dt : table) (i : index) (o : list (op index)) : Prop :=
  (o = [] /\ (In (i_name i) (map i_name (t_indexes dt)) \/ backs_fk (t_fks dt) (i_name i) \/
              i_primary i = true \/
              (i_unique i = true /\ exists c ic rest, In c (t_columns dt) /\ is_unique (c_key c) = true /\
                 i_columns i = ic :: rest /\ c_name c = ic_column ic))) \/
  (o = drop_index_op m (i_name i) /\
   ~ In (i_name i) (map i_name (t_indexes dt)) /\ ~ backs_fk (t_fks dt) (i_name i) /\
   i_primary i = false /\
   ~ (i_unique i = true /\ exists c ic rest, In c (t_columns dt) /\ is_unique (c_key c) = true /\
        i_columns i = ic :: rest /\ c_name c = ic_column ic)).

(** A foreign key declared in the desired CREATE TABLE. *)
Definition desired_fk (m : mode) (ct : table) (f : foreign_key) (o : list (op foreign_key)) : Prop :=
  match named fk_constraint (fk_constraint f) (t_fks ct) with
  | None => o = [Add f]
  | Some cf => (fk_matches m cf f /\ o = []) \/
               (~ fk_matches m cf f /\
                o = match m with SQLite3 => [] | _ => [Drop (fk_constraint f)] end ++ [Add f])
  end.

(** A foreign key of the current table is dropped when the desired table does not declare it;
    on PostgreSQL and SQL Server a column with an inline reference to the same table keeps it. *)
Definition current_fk (m : mode) (dt : table) (f : foreign_key) (o : list (op foreign_key)) : Prop :=
  let kept := In (fk_constraint f) (map fk_constraint (t_fks dt)) \/ m = SQLite3 \/
              ((m = Postgres \/ m = Mssql) /\
               exists c, In c (t_columns dt) /\ c_references c = fk_ref_name f) in
  (kept /\ o = []) \/ (~ kept /\ o = [Drop (fk_constraint f)]).

(** A policy statement on a kept table. *)
Definition desired_policy (ct : table) (p : policy) (o : list (op policy)) : Prop :=
  match named p_name (p_name p) (t_policies ct) with
  | None => o = [Add p]
  | Some cp => (policy_matches cp p /\ o = []) \/
               (~ policy_matches cp p /\ o = [Drop (p_name p); Add p])
  end.

(** A desired view. *)
Definition desired_view (m : mode) (views : list view) (v : view) (o : list view_op) : Prop :=
  match named vw_name (vw_name v) views with
  | None => o = [ViewAsWritten v]
  | Some cv =>
      (same_letters (vw_definition cv) (vw_definition v) /\ o = []) \/
      (~ same_letters (vw_definition cv) (vw_definition v) /\
       o = match m with
           | Mysql | Postgres => [ViewReplace (vw_name v) (vw_definition v)]
           | SQLite3 | Mssql => [ViewDrop (vw_name v); ViewCreate (vw_name v) (vw_definition v)]
           end)
  end.

(** A desired trigger; PostgreSQL and SQLite triggers are ignored. *)
Definition desired_trigger (m : mode) (triggers : list trigger) (t : trigger) (o : list trigger_op) : Prop :=
  match m with
  | Postgres | SQLite3 => o = []
  | _ =>
      match named tr_name (tr_name t) triggers with
      | None => o = [TriggerCreate t]
      | Some ct =>
          (trigger_matches ct t /\ o = []) \/
          (~ trigger_matches ct t /\
           o = match m with
               | Mssql => [TriggerAlter t]
               | _ => [TriggerDrop (tr_name t); TriggerCreate t]
               end)
      end
  end.

(** The desired statements that are executed as the user wrote them: those about objects the
    current schema lacks, and the new version of a changed index or policy.  ALTER TABLE ADD
    FOREIGN KEY statements and triggers never are. *)
Definition as_written (current : list ddl) (d : ddl) (o : list ddl) : Prop :=
  match d with
  | CreateTable _ t => o = if mem (t_name t) (created current) then [] else [d]
  | CreateIndex _ n i | AddIndex _ n i =>
      match named t_name n (schema current) with
      | None => o = [d]
      | Some ct =>
          match named i_name (i_name i) (t_indexes ct) with
          | None => o = [d]
          | Some ci => (index_matches ci i /\ o = []) \/ (~ index_matches ci i /\ o = [d])
          end
      end
  | AddPolicy _ n p =>
      match named t_name n (schema current) with
      | None => o = [d]
      | Some ct =>
          match named p_name (p_name p) (t_policies ct) with
          | None => o = [d]
          | Some cp => (policy_matches cp p /\ o = []) \/ (~ policy_matches cp p /\ o = [d])
          end
      end
  | DView v => o = if mem (vw_name v) (map vw_name (views_in current)) then [] else [d]
  | AddForeignKey _ _ _ | AddPrimaryKey _ _ _ | DTrigger _ => o = []
  end.

(** ** Inputs on which the planner does not crash *)
Definition sane_column (m : mode) (c : column) : Prop :=
  (forall d, c_default c = Some d -> df_value d <> None) /\
  (m = Mssql -> forall s, c_sequence c = Some s ->
     sq_start_with s <> None /\ sq_increment_by s <> None /\ c_identity c <> None).

Definition sane_index (i : index) : Prop :=
  i_columns i <> [] /\ forall o, In o (i_options i) -> io_value o <> None.

(** On PostgreSQL table names carry their schema. *)
Definition sane_table (m : mode) (t : table) : Prop :=
  (forall c, In c (t_columns t) -> sane_column m c) /\
  (forall i, In i (t_indexes t) -> sane_index i) /\
  (m = Postgres -> split_first "." (t_name t) <> None).

Definition sane_ddl (m : mode) (d : ddl) : Prop :=
  match d with
  | CreateTable _ t => sane_table m t
  | CreateIndex _ _ i | AddIndex _ _ i | AddPrimaryKey _ _ i => sane_index i
  | _ => True
  end.

(** Neither a crash nor an exit. *)
Definition returns {A} (r : res A) : Prop := match r with Panic | Fatal => False | _ => True end.

(** ** Schemas whose comparison with themselves is meaningful *)

(** MySQL: the database reports primary key columns as NOT NULL; a CHECK clause is compared by
    address. *)
Definition settled_column (m : mode) (c : column) : Prop :=
  m = Mysql ->
  c_check c = None /\ (c_key c = KeyPrimary -> c_notnull c = Some true) /\
  (forall v, c_onupdate c = Some v -> v_float v <> SpecFloat.S754_nan).

Definition settled_index (i : index) : Prop := NoDup (map io_name (i_options i)).

Definition settled_ddl (m : mode) (l : list ddl) (d : ddl) : Prop :=
  match d with
  | CreateTable _ t =>
      NoDup (map c_name (t_columns t)) /\ NoDup (index_names_of (t_name t) l) /\
      NoDup (fk_names_of (t_name t) l) /\ NoDup (policy_names_of (t_name t) l) /\
      (forall c, In c (t_columns t) -> settled_column m c) /\
      (forall i, In i (t_indexes t) -> settled_index i) /\
      (forall f, In f (t_fks t) -> fk_constraint f <> "")
  | CreateIndex _ _ i => settled_index i /\ i_primary i = false
  | AddIndex _ _ _ => False
  | _ => True
  end.

Definition settled (m : mode) (l : list ddl) : Prop :=
  NoDup (created l) /\ NoDup (map tr_name (triggers_in l)) /\ forall d, In d l -> settled_ddl m l d.
