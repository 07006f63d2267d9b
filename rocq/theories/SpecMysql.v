(** An ideal MySQL: a catalogue of tables, views and triggers, and what each planned statement
    does to it.  Only the syntax trees of [Ast] and the effects of [Generator] are used.

    The catalogue keeps tables as SHOW CREATE TABLE prints them: keys apart from columns,
    NOT NULL on primary key columns.  Every statement either fails (a missing or duplicate
    object, or a table that breaks [integrity]) or does exactly what it says.  Not modelled:
    data, references between tables, implicit indexes of foreign keys, storage defaults such as
    the table's character set. *)
From Coq Require Import String Ascii List ZArith Bool.
From Verif Require Import GoStr Ast Generator SpecPlan SpecColumns SpecOrder.
Import ListNotations.
Local Open Scope string_scope.
Local Open Scope list_scope.

Record catalogue := mkCatalogue {
  cat_tables : list table; cat_views : list view; cat_triggers : list trigger }.

(** ** What is recorded *)

Definition set_notnull (o : option bool) (c : column) : column :=
  mkColumn (c_name c) (c_position c) (c_type c) (c_unsigned c) o (c_autoinc c) (c_array c)
    (c_default c) (c_length c) (c_scale c) (c_check c) (c_check_no_inherit c) (c_charset c)
    (c_collate c) (c_timezone c) (c_key c) (c_onupdate c) (c_enum c) (c_references c)
    (c_identity c) (c_sequence c).
Definition set_position (z : Z) (c : column) : column :=
  mkColumn (c_name c) z (c_type c) (c_unsigned c) (c_notnull c) (c_autoinc c) (c_array c)
    (c_default c) (c_length c) (c_scale c) (c_check c) (c_check_no_inherit c) (c_charset c)
    (c_collate c) (c_timezone c) (c_key c) (c_onupdate c) (c_enum c) (c_references c)
    (c_identity c) (c_sequence c).

(** A column definition as recorded from its text (compare [SpecSql.column_text]): keys are
    kept apart, a column written PRIMARY KEY is NOT NULL, the members of an ENUM are written
    only when it has no length, references and identities are not MySQL.  Positions are not
    recorded; the dump numbers the columns. *)
Definition recorded (c : column) : column :=
  mkColumn (c_name c) 0 (c_type c) (c_unsigned c)
    (match c_notnull c, c_key c with
     | Some true, _ | _, KeyPrimary => Some true
     | o, _ => o
     end)
    (c_autoinc c) (c_array c) (c_default c) (c_length c) (c_scale c) (c_check c)
    (c_check_no_inherit c) (c_charset c) (c_collate c) (c_timezone c) KeyNone (c_onupdate c)
    (match c_length c with
     | None => if String.eqb (c_type c) "enum" then c_enum c else []
     | Some _ => []
     end) "" None None.

(** ALTER TABLE ... ADD INDEX writes one option and only descending directions. *)
Definition recorded_index (i : index) : index :=
  mkIndex (i_name i) (i_type i)
    (map (fun c => mkIndexColumn (ic_column c) (ic_length c)
                     (if String.eqb (ic_direction c) "desc" then "desc" else "")) (i_columns i))
    (i_primary i) (i_unique i) "" [] false "" "" (firstn 1 (i_options i)).

(** The index made for a column declared UNIQUE. *)
Definition unique_index (n : string) : index :=
  mkIndex n "unique key" [mkIndexColumn n None ""] false true "" [] false "" "" [].

(** ** Integrity of a table *)
Definition key_columns (i : index) : list string := map ic_column (i_columns i).

Definition in_pk (t : table) (x : string) : bool :=
  existsb (fun i => i_primary i && mem x (key_columns i)) (t_indexes t).

Definition keyed (t : table) (x : string) : bool :=
  existsb (fun i => match key_columns i with y :: _ => String.eqb y x | [] => false end) (t_indexes t).

(** Keys and foreign keys are on columns of the table; there is at most one AUTO_INCREMENT
    column and it is the first column of some key. *)
Definition integrity (t : table) : bool :=
  forallb (fun i => forallb (fun x => mem x (names t)) (key_columns i)) (t_indexes t) &&
  forallb (fun f => forallb (fun x => mem x (names t)) (fk_index_columns f)) (t_fks t) &&
  forallb (fun c => negb (c_autoinc c) || keyed t (c_name c)) (t_columns t) &&
  Nat.leb (length (filter c_autoinc (t_columns t))) 1.

(** ** Changing a table *)
Definition with_columns (l : list column) (t : table) : table :=
  mkTable (t_name t) l (t_indexes t) (t_fks t) (t_policies t).
Definition with_indexes (l : list index) (t : table) : table :=
  mkTable (t_name t) (t_columns t) l (t_fks t) (t_policies t).
Definition with_fks (l : list foreign_key) (t : table) : table :=
  mkTable (t_name t) (t_columns t) (t_indexes t) l (t_policies t).

Fixpoint put_column_after (p : string) (c : column) (l : list column) : option (list column) :=
  match l with
  | [] => None
  | y :: l' =>
      if String.eqb (c_name y) p then Some (y :: c :: l')
      else match put_column_after p c l' with Some r => Some (y :: r) | None => None end
  end.
Definition put_column (c : column) (p : col_pos) (l : list column) : option (list column) :=
  match p with
  | PosNone => Some (l ++ [c])
  | PosFirst => Some (c :: l)
  | PosAfter y => put_column_after y c l
  end.

Definition remove_named {A} (f : A -> string) (n : string) (l : list A) : list A :=
  filter (fun x => negb (String.eqb (f x) n)) l.

(** A key; the columns of a primary key become NOT NULL. *)
Definition add_key (i : index) (t : table) : option table :=
  if mem (i_name i) (map i_name (t_indexes t)) then None
  else Some (mkTable (t_name t)
               (if i_primary i
                then map (fun c => if mem (c_name c) (key_columns i) then set_notnull (Some true) c else c)
                       (t_columns t)
                else t_columns t)
               (t_indexes t ++ [i]) (t_fks t) (t_policies t)).

Definition drop_key (n : string) (t : table) : option table :=
  if mem n (map i_name (t_indexes t))
  then Some (with_indexes (remove_named i_name n (t_indexes t)) t) else None.

(** The definition of a column stays NOT NULL while it is in the primary key. *)
Definition kept_notnull (t : table) (c : column) : column :=
  if in_pk t (c_name c) then set_notnull (Some true) c else c.

(** One statement on a table; [None] when MySQL rejects it. *)
Definition alter_table (e : effect) (t : table) : option table :=
  match e with
  | EffAddColumn _ c p =>
      if mem (c_name c) (names t) then None
      else match put_column (recorded c) p (t_columns t) with
           | None => None
           | Some l => if is_unique (c_key c) then add_key (unique_index (c_name c)) (with_columns l t)
                       else Some (with_columns l t)
           end
  | EffChangeColumn _ old c p =>
      if String.eqb (c_name c) old && mem old (names t)
      then let c' := kept_notnull t (recorded c) in
           match p with
           | PosNone => Some (with_columns (map (fun y => if String.eqb (c_name y) old then c' else y)
                                              (t_columns t)) t)
           | _ => match put_column c' p (remove_named c_name old (t_columns t)) with
                  | Some l => Some (with_columns l t)
                  | None => None
                  end
           end
      else None
  | EffDropColumn _ c =>
      if mem c (names t) then Some (with_columns (remove_named c_name c (t_columns t)) t) else None
  | EffAddUniqueKey _ c => add_key (unique_index c) t
  | EffAddPrimaryKey _ i | EffAddIndex _ i => add_key (recorded_index i) t
  | EffVerbatim (CreateIndex _ _ i) | EffVerbatim (AddIndex _ _ i) => add_key i t
  | EffDropPrimaryKey _ => drop_key "PRIMARY" t
  | EffDropIndex _ n => drop_key n t
  | EffAddForeignKey _ f =>
      if mem (fk_constraint f) (map fk_constraint (t_fks t)) then None
      else Some (with_fks (t_fks t ++ [f]) t)
  | EffDropForeignKey _ n =>
      if mem n (map fk_constraint (t_fks t))
      then Some (with_fks (remove_named fk_constraint n (t_fks t)) t) else None
  | _ => None
  end.

(** A table created by the user's own statement. *)
Definition created_table (t : table) : table :=
  let cols := map (fun c => mkColumn (c_name c) 0 (c_type c) (c_unsigned c)
                 (match c_notnull c, c_key c with
                  | Some true, _ | _, KeyPrimary => Some true
                  | o, _ => if in_pk t (c_name c) then Some true else o
                  end)
                 (c_autoinc c) (c_array c) (c_default c) (c_length c) (c_scale c) (c_check c)
                 (c_check_no_inherit c) (c_charset c) (c_collate c) (c_timezone c) KeyNone (c_onupdate c)
                 (c_enum c) "" None None) (t_columns t) in
  let inline_pk := filter (fun c => match c_key c with KeyPrimary => true | _ => false end) (t_columns t) in
  let pk := match inline_pk with
            | [] => []
            | _ => [mkIndex "PRIMARY" "primary key" (map (fun c => mkIndexColumn (c_name c) None "") inline_pk)
                      true true "" [] true "" "" []]
            end in
  let uniques := map (fun c => unique_index (c_name c)) (filter (fun c => is_unique (c_key c)) (t_columns t)) in
  mkTable (t_name t) cols (pk ++ t_indexes t ++ uniques) (t_fks t) [].

(** ** The whole catalogue *)
Definition table_named (n : string) (l : list table) : option table := named t_name n l.
Definition replace_table (n : string) (t : table) (l : list table) : list table :=
  map (fun x => if String.eqb (t_name x) n then t else x) l.

Definition run (e : effect) (c : catalogue) : option catalogue :=
  match e with
  | EffVerbatim (CreateTable _ t) =>
      if mem (t_name t) (map t_name (cat_tables c)) then None
      else if integrity (created_table t)
      then Some (mkCatalogue (cat_tables c ++ [created_table t]) (cat_views c) (cat_triggers c))
      else None
  | EffDropTable n =>
      if mem n (map t_name (cat_tables c))
      then Some (mkCatalogue (remove_named t_name n (cat_tables c)) (cat_views c) (cat_triggers c))
      else None
  | EffVerbatim (DView v) =>
      if mem (vw_name v) (map vw_name (cat_views c)) then None
      else Some (mkCatalogue (cat_tables c) (cat_views c ++ [v]) (cat_triggers c))
  | EffReplaceView n d =>
      Some (mkCatalogue (cat_tables c)
              (remove_named vw_name n (cat_views c) ++ [mkView "" n d]) (cat_triggers c))
  | EffDropView n =>
      if mem n (map vw_name (cat_views c))
      then Some (mkCatalogue (cat_tables c) (remove_named vw_name n (cat_views c)) (cat_triggers c))
      else None
  | EffCreateTrigger t =>
      if mem (tr_name t) (map tr_name (cat_triggers c)) then None
      else Some (mkCatalogue (cat_tables c) (cat_views c) (cat_triggers c ++ [t]))
  | EffDropTrigger n =>
      if mem n (map tr_name (cat_triggers c))
      then Some (mkCatalogue (cat_tables c) (cat_views c) (remove_named tr_name n (cat_triggers c)))
      else None
  | _ =>
      match eff_table e with
      | None => None
      | Some n =>
          match table_named n (cat_tables c) with
          | None => None
          | Some t =>
              match alter_table e t with
              | Some t' => if integrity t'
                           then Some (mkCatalogue (replace_table n t' (cat_tables c)) (cat_views c) (cat_triggers c))
                           else None
              | None => None
              end
          end
      end
  end.

(** All statements of a plan, in order. *)
Fixpoint run_all (out : list stmt) (c : catalogue) : option catalogue :=
  match out with
  | [] => Some c
  | s :: out' => match run (s_eff s) c with Some c' => run_all out' c' | None => None end
  end.

(** ** What the dump of the catalogue is read as *)
Fixpoint number (z : Z) (l : list column) : list column :=
  match l with
  | [] => []
  | c :: l' => set_position z c :: number (z + 1) l'
  end.
Definition dump (c : catalogue) : list ddl :=
  map (fun t => CreateTable "" (with_columns (number 0 (t_columns t)) t)) (cat_tables c) ++
  map DView (cat_views c) ++ map DTrigger (cat_triggers c).
