(** Specification of what is planned for the existing columns and the primary key of a kept
    table.  Only the syntax trees of [Ast] and the effects of [Generator] are used. *)
From Coq Require Import String Ascii List ZArith Bool Relation_Operators SpecFloat.
From Verif Require Import GoStr Ast Generator SpecPlan.
Import ListNotations.
Local Open Scope string_scope.
Local Open Scope list_scope.

(** [x] exactly when [P]. *)
Definition emit {A} (P : Prop) (x o : list A) : Prop := (P /\ o = x) \/ (~ P /\ o = []).

(** ** Column comparison *)

(** Alternative spellings of a type. *)
Inductive alias : mode -> string -> string -> Prop :=
| alias_bool m : alias m "bool" "boolean"
| alias_int m : alias m "int" "integer"
| alias_char m : alias m "char" "character"
| alias_varchar m : alias m "varchar" "character varying"
| alias_tinyint : alias Mysql "boolean" "tinyint".

Definition same_type (m : mode) : string -> string -> Prop := clos_refl_sym_trans string (alias m).

(** Lengths are compared when both sides give one; the scale is not compared. *)
Definition data_type_matches (m : mode) (cur des : column) : Prop :=
  same_type m (c_type cur) (c_type des) /\ c_enum cur = c_enum des /\
  (forall a b, c_length cur = Some a -> c_length des = Some b -> v_int a = v_int b) /\
  c_array cur = c_array des.

Definition same_value (a b : option value) : Prop :=
  match a, b with
  | None, None => True
  | Some x, Some y =>
      v_type x = v_type y /\ v_raw x = v_raw y /\ v_str x = v_str y /\ v_int x = v_int y /\
      SFeqb (v_float x) (v_float y) = true /\ v_bit x = v_bit y
  | _, _ => False
  end.

(** MySQL: everything of a column but AUTO_INCREMENT, UNIQUE and the default.  CHECK clauses
    never match. *)
Definition definition_matches (cur des : column) : Prop :=
  data_type_matches Mysql cur des /\ c_unsigned cur = c_unsigned des /\
  (c_notnull cur = Some true <-> (c_notnull des = Some true \/ c_key des = KeyPrimary)) /\
  c_timezone cur = c_timezone des /\ c_check cur = None /\ c_check des = None /\
  (c_charset des = "" \/ c_charset cur = c_charset des) /\
  (c_collate des = "" \/ c_collate cur = c_collate des) /\
  same_value (c_onupdate cur) (c_onupdate des).

(** The default a column has; DEFAULT NULL is none. *)
Definition real_default (d : option default_def) : option value :=
  match d with
  | Some (mkDefault (Some v) _) =>
      match v_type v with
      | VValArg => if String.eqb (v_raw v) "null" then None else Some v
      | _ => Some v
      end
  | _ => None
  end.
Definition default_matches (cur des : column) : Prop :=
  value_matches (real_default (c_default cur)) (real_default (c_default des)).

Definition check_matches (cur des : column) : Prop :=
  match c_check cur, c_check des with
  | None, None => True
  | Some a, Some b => ck_definition a = ck_definition b /\
                      ck_not_for_replication a = ck_not_for_replication b
  | _, _ => False
  end /\ c_check_no_inherit cur = c_check_no_inherit des.

(** MySQL moves a column when its position number shrinks by more than the number of columns
    the table loses. *)
Definition moves (ct t : table) (cur des : column) : Prop :=
  (c_position des < c_position cur)%Z /\
  (Z.of_nat (length (t_columns ct)) - Z.of_nat (length (t_columns t)) <
   c_position cur - c_position des)%Z.

(** PostgreSQL *)
Definition required (c : column) : Prop :=
  c_notnull c = Some true \/
  (c_notnull c = None /\ (c_type c = "serial" \/ c_type c = "bigserial")).
Definition in_primary_key (t : table) (c : column) : Prop :=
  c_key c = KeyPrimary \/
  exists i ic, In i (t_indexes t) /\ i_primary i = true /\ In ic (i_columns i) /\ ic_column ic = c_name c.

(** ** Operations on a column *)
Inductive col_op :=
| ColChange (c : column) (p : col_pos) | ColUnique
| ColType (c : column) | ColDropNotNull | ColSetNotNull
| ColAddIdentity (i : identity) (s : option sequence) | ColDropIdentity | ColSetIdentity (i : identity)
| ColDropDefault | ColSetDefault (d : default_def)
| ColAddDefault (d : default_def) | ColDropDefaultConstraint (n : string)
| ColDropCheck (n : string) | ColAddCheck (n : string) (k : check_def) (no_inherit : bool).

Definition column_ops (n : string) (e : effect) : list (string * col_op) :=
  let on t c o := if String.eqb t n then [(c, o)] else [] in
  match e with
  | EffChangeColumn t c c' p => on t c (ColChange c' p)
  | EffAddUniqueKey t c => on t c ColUnique
  | EffAlterType t c c' => on t c (ColType c')
  | EffDropNotNull t c => on t c ColDropNotNull
  | EffSetNotNull t c => on t c ColSetNotNull
  | EffAddIdentity t c i s => on t c (ColAddIdentity i s)
  | EffDropIdentity t c => on t c ColDropIdentity
  | EffSetIdentity t c i => on t c (ColSetIdentity i)
  | EffDropDefault t c => on t c ColDropDefault
  | EffSetDefault t c d => on t c (ColSetDefault d)
  | EffAddDefault t c d => on t c (ColAddDefault d)
  | EffDropDefaultConstraint t c k => on t c (ColDropDefaultConstraint k)
  | EffDropCheck t c k => on t c (ColDropCheck k)
  | EffAddCheck t c k d b => on t c (ColAddCheck k d b)
  | _ => []
  end.

(** The desired column, with AUTO_INCREMENT only if the current one has it: the attribute is
    added later, by a statement of its own. *)
Definition first_version (cur des : column) : column :=
  if c_autoinc cur then des else set_autoinc false des.

(** ** What a column of both tables contributes *)
Definition mysql_column (ct t : table) (prev : option string) (cc c : column) (o : list col_op) : Prop :=
  exists p ch uq, o = ch ++ uq /\
    ((moves ct t cc c /\ p = match prev with None => PosFirst | Some k => PosAfter k end) \/
     (~ moves ct t cc c /\ p = PosNone)) /\
    emit (~ definition_matches cc c \/ ~ default_matches cc c \/ moves ct t cc c)
         [ColChange (first_version cc c) p] ch /\
    emit (is_unique (c_key c) = true /\ is_unique (c_key cc) = false /\
          named i_name (c_name c) (t_indexes ct) = None)
         [ColUnique] uq.

Definition postgres_identity (cc c : column) : list col_op -> Prop :=
  match c_identity cc, c_identity c with
  | None, None => emit False []
  | None, Some i => emit True [ColAddIdentity i (c_sequence c)]
  | Some _, None => emit True [ColDropIdentity]
  | Some a, Some b => emit (a <> b) [ColSetIdentity b]
  end.

(** Constraint names are derived from the table and column names. *)
Definition check_name (prefix tbl c : string) : string :=
  (replace_first tbl prefix "" ++ "_" ++ c ++ "_check")%string.

Definition postgres_check (t : table) (cc c : column) : list col_op -> Prop :=
  let k := check_name "public." (t_name t) (c_name c) in
  emit (~ check_matches cc c)
    (match c_check cc with Some _ => [ColDropCheck k] | None => [] end ++
     match c_check c with Some d => [ColAddCheck k d (c_check_no_inherit c)] | None => [] end).

Definition postgres_column (ct t : table) (cc c : column) (o : list col_op) : Prop :=
  exists ty dn sn id df ck, o = ty ++ dn ++ sn ++ id ++ df ++ ck /\
    emit (~ data_type_matches Postgres cc c) [ColType (first_version cc c)] ty /\
    emit (~ in_primary_key ct cc /\ required cc /\ ~ required c) [ColDropNotNull] dn /\
    emit (~ in_primary_key ct cc /\ ~ required cc /\ required c) [ColSetNotNull] sn /\
    postgres_identity cc c id /\
    emit (~ default_matches cc c)
      (match c_default c with Some d => [ColSetDefault d] | None => [ColDropDefault] end) df /\
    postgres_check t cc c ck.

Definition mssql_column (t : table) (cc c : column) (o : list col_op) : Prop :=
  exists ck df, o = ck ++ df /\
    emit (~ check_matches cc c)
      (match c_check cc with Some d => [ColDropCheck (ck_constraint d)] | None => [] end ++
       match c_check c with
       | Some d => [ColAddCheck (if String.eqb (ck_constraint d) ""
                                 then check_name "dbo." (t_name t) (c_name c)
                                 else ck_constraint d) d false]
       | None => []
       end) ck /\
    emit (~ default_matches cc c)
      (match c_default cc with Some d => [ColDropDefaultConstraint (df_constraint d)] | None => [] end ++
       match c_default c with Some d => [ColAddDefault d] | None => [] end) df.

(** A desired column: nothing here when it is new (see [desired_column_add]); nothing at all
    on SQLite. *)
Definition desired_column (m : mode) (ct t : table) (pc : option string * column)
  (o : list (string * col_op)) : Prop :=
  let '(prev, c) := pc in
  match named c_name (c_name c) (t_columns ct) with
  | None => o = []
  | Some cc =>
      exists ops, o = map (pair (c_name c)) ops /\
        match m with
        | Mysql => mysql_column ct t prev cc c ops
        | Postgres => postgres_column ct t cc c ops
        | Mssql => mssql_column t cc c ops
        | SQLite3 => ops = []
        end
  end.

(** MySQL: a current column loses AUTO_INCREMENT... *)
Definition loses_autoinc (m : mode) (t : table) (cc : column) : list (string * col_op) -> Prop :=
  emit (m = Mysql /\ c_autoinc cc = true /\
        forall c, named c_name (c_name cc) (t_columns t) = Some c -> c_autoinc c = false)
       [(c_name cc, ColChange (set_autoinc false cc) PosNone)].

(** ... or a desired column gets it. *)
Definition gains_autoinc (m : mode) (ct : table) (c : column) : list (string * col_op) -> Prop :=
  emit (m = Mysql /\ c_autoinc c = true /\
        forall cc, named c_name (c_name c) (t_columns ct) = Some cc -> c_autoinc cc = false)
       [(c_name c, ColChange c PosNone)].

(** SQL Server: the default constraints of a dropped column go first. *)
Definition column_cleanup (m : mode) (ct : table) (n : string) : list (string * col_op) :=
  match m with
  | Mssql =>
      flat_map (fun c => match c_default c with
                         | Some d => if String.eqb (c_name c) n && negb (String.eqb (df_constraint d) "")
                                     then [(n, ColDropDefaultConstraint (df_constraint d))] else []
                         | None => []
                         end) (t_columns ct)
  | _ => []
  end.

(** ** The primary key *)
Inductive pk_op := PkDrop | PkDropConstraint (n : string) | PkAdd (i : index).

Definition pk_ops (n : string) (e : effect) : list pk_op :=
  match e with
  | EffDropPrimaryKey t => if String.eqb t n then [PkDrop] else []
  | EffDropPrimaryConstraint t k => if String.eqb t n then [PkDropConstraint k] else []
  | EffAddPrimaryKey t i => if String.eqb t n then [PkAdd i] else []
  | _ => []
  end.

(** The primary key of a table: declared as an index, else the columns marked PRIMARY KEY. *)
Definition declares_pk (t : table) (k : option index) : Prop :=
  (exists a i b, t_indexes t = a ++ i :: b /\ Forall (fun j => i_primary j = false) a /\
                 i_primary i = true /\ k = Some i) \/
  (Forall (fun j => i_primary j = false) (t_indexes t) /\
   let cols := filter (fun c => match c_key c with KeyPrimary => true | _ => false end) (t_columns t) in
   (cols = [] /\ k = None) \/
   (cols <> [] /\
    k = Some (mkIndex "PRIMARY" "primary key"
                (map (fun c => mkIndexColumn (c_name c) None "") cols) true true "" [] true "" "" []))).

Definition pk_matches (cur des : option index) : Prop :=
  match cur, des with
  | Some a, Some b => index_matches a b
  | None, None => True
  | _, _ => False
  end.

(** A changed primary key: drop the old one (MySQL, PostgreSQL), add the new one. *)
Definition pk_change (m : mode) (cur des : option index) : list pk_op -> Prop :=
  emit (~ pk_matches cur des)
    (match cur, m with Some _, (Mysql | Postgres) => [PkDrop] | _, _ => [] end ++
     match des with Some i => [PkAdd i] | None => [] end).

(** SQL Server: an obsolete primary key constraint is dropped at the end, provided no desired
    column is marked PRIMARY KEY. *)
Definition pk_cleanup (m : mode) (dt : table) (i : index) : list pk_op -> Prop :=
  emit (m = Mssql /\ i_primary i = true /\ ~ In (i_name i) (map i_name (t_indexes dt)) /\
        ~ backs_fk (t_fks dt) (i_name i) /\ forall c, In c (t_columns dt) -> c_key c <> KeyPrimary)
       [PkDropConstraint (i_name i)].
