(** An ideal SQL Server: what it keeps of a table, what each planned statement does to it and what
    its export is read as.  [None] is a statement the server rejects.  Only the syntax trees of
    [Ast] and the effects of [Generator] are used.

    The catalogue keeps tables as the system views report them: keys apart from columns, a name
    for every default, check and primary key.  Not modelled: data, references between tables,
    clashes between the names of constraints, CLUSTERED, filters and partitions of indexes,
    collations.  UNIQUE and REFERENCES in column definitions and foreign keys of several columns
    are rejected: this record does not hold them. *)
From Coq Require Import String Ascii List ZArith Bool SpecFloat.
From Verif Require Import GoStr Ast Generator SpecPlan SpecColumns SpecMysql SpecDatabase SpecPostgres SpecShown SpecShownMssql.
Import ListNotations.
Local Open Scope string_scope.
Local Open Scope list_scope.

Record ms_tab := mkMs {
  m_name : string; m_columns : list column; m_key : option index; m_indexes : list index; m_fks : list foreign_key }.
Definition with_m_columns (l : list column) (g : ms_tab) : ms_tab := mkMs (m_name g) l (m_key g) (m_indexes g) (m_fks g).
Definition with_m_key (k : option index) (g : ms_tab) : ms_tab := mkMs (m_name g) (m_columns g) k (m_indexes g) (m_fks g).
Definition with_m_indexes (l : list index) (g : ms_tab) : ms_tab := mkMs (m_name g) (m_columns g) (m_key g) l (m_fks g).
Definition with_m_fks (l : list foreign_key) (g : ms_tab) : ms_tab := mkMs (m_name g) (m_columns g) (m_key g) (m_indexes g) l.
Definition m_names (g : ms_tab) : list string := map c_name (m_columns g).

(** What a server does in its own way. *)
Record ms_ways := mkWays {
  (* the name of a default, check or primary key that was given none: kind, table, column *)
  w_name : string -> string -> string -> string;
  (* how conditions and values of defaults are kept *)
  w_condition : string -> string;
  w_value : value -> value;
  (* the names that may be written without brackets, and the values the server accepts after
     DEFAULT in the words of the planner *)
  w_bare : string -> bool;
  w_written : value -> bool }.

(** ** Column definitions *)
Definition has_identity (c : column) : bool := match c_identity c with Some _ => true | None => false end.
Definition declared_null (c : column) : bool := match c_notnull c with Some false => true | _ => false end.

(** Definitions a CREATE TABLE or ADD may have.  An identity has no default, is not NULL and has a
    seed and an increment. *)
Definition ms_valid (c : column) : bool :=
  negb (c_unsigned c) && negb (c_autoinc c) && negb (c_array c) && String.eqb (c_charset c) "" && String.eqb (c_collate c) "" &&
  negb (c_timezone c) && negb (c_check_no_inherit c) && String.eqb (c_references c) "" &&
  match c_onupdate c, c_enum c with None, [] => true | _, _ => false end &&
  match c_key c with KeyNone => true | KeyPrimary => negb (declared_null c) | _ => false end &&
  match c_default c with Some (mkDefault None _) => false | _ => true end &&
  match c_identity c, c_sequence c with
  | None, None => true
  | Some i, Some s => String.eqb (id_behavior i) "" && negb (declared_null c) &&
      match c_default c, sq_start_with s, sq_increment_by s with None, Some _, Some _ => true | _, _, _ => false end
  | _, _ => false
  end.

(** NOT NULL by its own words. *)
Definition ms_says_required (c : column) : bool :=
  match c_notnull c with Some true => true | _ => false end || is_key_primary (c_key c) || has_identity c.

Definition kept_sequence (s : sequence) : sequence :=
  mkSequence "" false "" (sq_increment_by s) None false None false (sq_start_with s) None false false "".

Definition set_ms_default (d : option default_def) (y : column) : column :=
  mkColumn (c_name y) (c_position y) (c_type y) (c_unsigned y) (c_notnull y) (c_autoinc y)
    (c_array y) d (c_length y) (c_scale y) (c_check y) (c_check_no_inherit y)
    (c_charset y) (c_collate y) (c_timezone y) (c_key y) (c_onupdate y) (c_enum y) (c_references y)
    (c_identity y) (c_sequence y).

(** ** Indexes and foreign keys *)

(** The options every index has. *)
Definition ms_option_defaults : list index_option := mq_ideal_options (mkMqOptions false 0 false false false true true).
Definition kept_options (l : list index_option) : list index_option :=
  map (fun d => match named io_name (io_name d) l with Some o => o | None => d end) ms_option_defaults.
Definition kept_index_column (c : index_column) : index_column :=
  mkIndexColumn (ic_column c) None (if String.eqb (ic_direction c) "desc" then "desc" else "asc").
Definition ms_index (i : index) : index :=
  mkIndex (i_name i) "" (map kept_index_column (i_columns i)) false (i_unique i) "" (i_included i) (i_clustered i) "" ""
    (kept_options (i_options i)).
Definition ms_key (n : string) (i : index) : index :=
  mkIndex n "primary key" (map kept_index_column (i_columns i)) true true "" [] (i_clustered i) "" "" (kept_options (i_options i)).

Definition kept_action (a : string) : string := if String.eqb a "" then "NO ACTION" else a.
Definition ms_fk (f : foreign_key) : foreign_key :=
  mkForeignKey (fk_constraint f) "" (fk_index_columns f) (fk_ref_name f) (fk_ref_columns f)
    (kept_action (fk_on_delete f)) (kept_action (fk_on_update f)) (fk_not_for_replication f).
Definition ms_fk_valid (cols : list string) (f : foreign_key) : bool :=
  negb (String.eqb (fk_constraint f) "") && String.eqb (fk_index_name f) "" && negb (String.eqb (fk_ref_name f) "") &&
  Nat.eqb (length (fk_index_columns f)) 1 && Nat.eqb (length (fk_ref_columns f)) 1 &&
  all_in (fk_index_columns f) cols.

(** Something is on the column called [n]. *)
Definition in_use (n : string) (g : ms_tab) : bool :=
  match m_key g with Some k => mem n (index_columns k) | None => false end ||
  existsb (fun i => mem n (index_columns i)) (m_indexes g) || existsb (fun f => mem n (fk_index_columns f)) (m_fks g).

(** The column called [n] is changed by [f]. *)
Definition m_on_column (n : string) (f : column -> option column) (g : ms_tab) : option ms_tab :=
  match named c_name n (m_columns g) with
  | None => None
  | Some y =>
      match f y with
      | None => None
      | Some y' => Some (with_m_columns (map (fun x => if String.eqb (c_name x) n then y' else x) (m_columns g)) g)
      end
  end.

Section Server.
Variable w : ms_ways.

(** A column definition as recorded; [dn] and [cn] name its default and its check. *)
Definition kept_ms_default (n : string) (d : default_def) : default_def := mkDefault (option_map (w_value w) (df_value d)) n.
Definition kept_check (n : string) (k : check_def) : check_def := mkCheck (w_condition w (ck_definition k)) n (ck_not_for_replication k).
Definition ms_recorded (dn cn : string) (c : column) : column :=
  mkColumn (c_name c) 0 (c_type c) false (if ms_says_required c then Some true else None) false false
    (option_map (kept_ms_default dn) (c_default c)) (c_length c) (c_scale c) (option_map (kept_check cn) (c_check c))
    false "" "" false KeyNone None [] "" (option_map (fun i => mkIdentity "" (id_not_for_replication i)) (c_identity c))
    (option_map kept_sequence (c_sequence c)).

(** The name written, or the one the server gives. *)
Definition or_given (kind tbl c n : string) : string := if String.eqb n "" then w_name w kind tbl c else n.
Definition default_name (tbl : string) (c : column) : string :=
  or_given "DF" tbl (c_name c) match c_default c with Some d => df_constraint d | None => "" end.
Definition check_constraint_name (tbl : string) (c : column) : string :=
  or_given "CK" tbl (c_name c) match c_check c with Some k => ck_constraint k | None => "" end.
Definition key_name (tbl : string) (i : index) : string :=
  if String.eqb (i_name i) "PRIMARY" then w_name w "PK" tbl "" else i_name i.

(** Columns of a primary key are columns of the table, each once. *)
Definition ms_key_valid (i : index) (cols : list string) : bool :=
  String.eqb (to_lower (i_type i)) "primary key" && negb (Nat.eqb (length (i_columns i)) 0) &&
  distinct (SpecMysql.key_columns i) && all_in (SpecMysql.key_columns i) cols.

Definition default_written (d : option default_def) : bool :=
  match d with Some (mkDefault (Some v) _) => w_written w v | _ => true end.

(** An index that CREATE TABLE or CREATE INDEX may have. *)
Definition ms_index_valid (cols : list string) (i : index) : bool :=
  negb (i_primary i) && negb (String.eqb (i_name i) "") && negb (Nat.eqb (length (i_columns i)) 0) && all_in (index_columns i) cols.
Definition without_included (i : index) : index :=
  mkIndex (i_name i) (i_type i) (i_columns i) (i_primary i) (i_unique i) (i_where i) [] (i_clustered i)
    (i_partition_name i) (i_partition_column i) (i_options i).
Definition ms_indexed (i : index) (g : ms_tab) : option ms_tab :=
  if mem (i_name i) (map i_name (listed (m_key g) ++ m_indexes g)) || negb (ms_index_valid (m_names g) i) then None
  else Some (with_m_indexes (m_indexes g ++ [ms_index i]) g).

(** One statement on a table.  Constraints are dropped by their names; the names are those of
    the column the effect mentions. *)
Definition ms_alter (e : effect) (g : ms_tab) : option ms_tab :=
  match e with
  | EffAddColumn t c _ =>                       (* constraint names are not written *)
      if mem (c_name c) (m_names g) || negb (ms_valid c) || negb (default_written (c_default c)) || (has_identity c && existsb has_identity (m_columns g)) then None
      else Some (with_m_columns (m_columns g ++ [ms_recorded (w_name w "DF" t (c_name c)) (w_name w "CK" t (c_name c)) c]) g)
  | EffDropColumn _ n =>                        (* not while something is on the column *)
      match named c_name n (m_columns g) with
      | Some y =>
          match c_default y, c_check y with
          | None, None => if in_use n g then None else Some (with_m_columns (remove_named c_name n (m_columns g)) g)
          | _, _ => None
          end
      | None => None
      end
  | EffDropDefaultConstraint _ n k =>
      m_on_column n (fun y => match c_default y with
                              | Some d => if String.eqb (df_constraint d) k then Some (set_ms_default None y) else None
                              | None => None
                              end) g
  | EffAddDefault t n d =>
      match df_value d with
      | None => None
      | Some v =>
          if w_written w v then
            m_on_column n (fun y => match c_default y, c_identity y with
                                    | None, None => Some (set_ms_default (Some (kept_ms_default (or_given "DF" t n (df_constraint d)) d)) y)
                                    | _, _ => None
                                    end) g
          else None
      end
  | EffDropCheck _ n k =>                       (* the name is written without brackets *)
      if w_bare w k then
        m_on_column n (fun y => match c_check y with
                                | Some d => if String.eqb (ck_constraint d) k then Some (set_check None false y) else None
                                | None => None
                                end) g
      else None
  | EffAddCheck _ n k d _ =>
      if w_bare w k then
        m_on_column n (fun y => match c_check y with
                                | Some _ => None
                                | None => Some (set_check (Some (kept_check k d)) false y)
                                end) g
      else None
  | EffAddPrimaryKey t i =>                     (* of columns that are NOT NULL *)
      match m_key g with
      | Some _ => None
      | None =>
          if ms_key_valid i (m_names g) && negb (mem (key_name t i) (map i_name (m_indexes g))) &&
             forallb (fun c => negb (mem (c_name c) (SpecMysql.key_columns i)) ||
                               match c_notnull c with Some true => true | _ => false end) (m_columns g)
          then Some (with_m_key (Some (ms_key (key_name t i) i)) g) else None
      end
  | EffDropPrimaryConstraint _ n =>
      match m_key g with
      | Some k => if String.eqb (i_name k) n then Some (with_m_key None g) else None
      | None => None
      end
  | EffDropIndex _ n =>
      if mem n (map i_name (m_indexes g)) then Some (with_m_indexes (remove_named i_name n (m_indexes g)) g) else None
  | EffVerbatim (CreateIndex _ _ i) => ms_indexed i g
  | EffAddIndex _ i => ms_indexed (without_included i) g     (* INCLUDE is not written *)
  | EffAddForeignKey _ f =>
      if ms_fk_valid (m_names g) f && negb (mem (fk_constraint f) (map fk_constraint (m_fks g)))
      then Some (with_m_fks (m_fks g ++ [ms_fk f]) g) else None
  | EffDropForeignKey _ n =>
      if mem n (map fk_constraint (m_fks g)) then Some (with_m_fks (remove_named fk_constraint n (m_fks g)) g) else None
  | _ => None                                   (* not SQL Server *)
  end.

(** ** CREATE TABLE *)
Definition inline_key (x : string) : index := mkIndex "PRIMARY" "primary key" [mkIndexColumn x None ""] true true "" [] true "" "" [].
Definition key_declarations (t : table) : list index :=
  map (fun c => inline_key (c_name c)) (filter (fun c => is_key_primary (c_key c)) (t_columns t)) ++ filter i_primary (t_indexes t).
Definition inline_indexes (t : table) : list index := filter (fun i => negb (i_primary i)) (t_indexes t).
Definition created_key (t : table) : option index := match key_declarations t with k :: _ => Some k | [] => None end.

Definition ms_create (t : table) : option ms_tab :=
  let n := t_name t in
  let cols := map c_name (t_columns t) in
  let need := match created_key t with Some i => SpecMysql.key_columns i | None => [] end in
  if forallb ms_valid (t_columns t) && distinct cols && Nat.leb (length (filter has_identity (t_columns t))) 1 &&
     forallb (ms_index_valid cols) (inline_indexes t) &&
     distinct (map (key_name n) (listed (created_key t)) ++ map i_name (inline_indexes t)) && match t_policies t with [] => true | _ => false end &&
     Nat.leb (length (key_declarations t)) 1 && forallb (fun i => ms_key_valid i cols) (key_declarations t) &&
     forallb (fun c => negb (mem (c_name c) need) || negb (declared_null c)) (t_columns t) &&
     distinct (map fk_constraint (t_fks t)) && forallb (ms_fk_valid cols) (t_fks t)
  then Some (mkMs n (map (require need) (map (fun c => ms_recorded (default_name n c) (check_constraint_name n c) c) (t_columns t)))
               (option_map (fun i => ms_key (key_name n i) i) (created_key t)) (map ms_index (inline_indexes t)) (map ms_fk (t_fks t)))
  else None.
End Server.

(** ** What the export of the database is read as *)
Definition ms_shown_table (g : ms_tab) : table :=
  mkTable (m_name g) (number 0 (m_columns g)) (listed (m_key g)) (m_fks g) [].
Definition ms_shown_statements (g : ms_tab) : list ddl :=
  CreateTable "" (ms_shown_table g) :: map (CreateIndex "" (m_name g)) (m_indexes g).
Definition ms_shown (c : database ms_tab) : list ddl :=
  flat_map ms_shown_statements (db_tables c) ++ map DView (db_views c) ++ map DTrigger (db_triggers c).

(** ** The database of SpecShownMssql as one that statements are executed on *)
Definition mq_tab (t : mq_table) : ms_tab :=
  mkMs (mqt_name t) (map (mq_ideal_column 0) (mqt_first t :: mqt_columns t)) (option_map (mq_ideal_index true) (mqt_key t))
    (map (mq_ideal_index false) (listed (mqt_index t))) (map mq_ideal_fk (mqt_fks t)).
Definition mq_ideal (d : mq_database) : database ms_tab :=
  mkDatabase (map mq_tab (mqd_tables d)) (map mq_ideal_view (mqd_views d)) (map mq_ideal_trigger (mqd_triggers d)).
