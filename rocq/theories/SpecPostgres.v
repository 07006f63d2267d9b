(** An ideal PostgreSQL table and what each planned statement about it does.  Only the syntax
    trees of [Ast] and the effects of [Generator] are used; catalogue, views and statements on
    whole tables are those of [SpecDatabase].

    A statement either is rejected ([None]) or does exactly what its text says (compare
    [SpecSql]): clauses the planner does not print have no effect.  Where PostgreSQL would
    choose another name for an object because the first choice is taken, or would accept a
    table this record cannot hold, the statement is rejected.  Not modelled: data (a statement
    refused because of the rows in the table), references between tables, the rewriting of
    expressions (defaults, checks, policies and views read back as they were written), the 63
    byte limit on names, and names shared by constraints of different kinds or by tables and
    indexes of other tables. *)
From Coq Require Import String Ascii List ZArith Bool SpecFloat.
From Verif Require Import GoStr Ast Generator SpecPlan SpecColumns SpecMysql SpecDatabase.
Import ListNotations.
Local Open Scope string_scope.
Local Open Scope list_scope.

Record pg_tab := mkPg {
  g_name : string;                            (* schema.name *)
  g_columns : list column;
  g_pk : option (string * list string);       (* constraint name, columns *)
  g_indexes : list index;                     (* those of UNIQUE columns too, not the primary key's *)
  g_owned : list string;                      (* names of the indexes of UNIQUE columns *)
  g_fks : list foreign_key;
  g_policies : list policy }.

Definition with_cols (l : list column) (g : pg_tab) : pg_tab :=
  mkPg (g_name g) l (g_pk g) (g_indexes g) (g_owned g) (g_fks g) (g_policies g).
Definition with_pk (k : option (string * list string)) (g : pg_tab) : pg_tab :=
  mkPg (g_name g) (g_columns g) k (g_indexes g) (g_owned g) (g_fks g) (g_policies g).
Definition with_idx (l : list index) (o : list string) (g : pg_tab) : pg_tab :=
  mkPg (g_name g) (g_columns g) (g_pk g) l o (g_fks g) (g_policies g).
Definition with_refs (l : list foreign_key) (g : pg_tab) : pg_tab :=
  mkPg (g_name g) (g_columns g) (g_pk g) (g_indexes g) (g_owned g) l (g_policies g).
Definition with_policies (l : list policy) (g : pg_tab) : pg_tab :=
  mkPg (g_name g) (g_columns g) (g_pk g) (g_indexes g) (g_owned g) (g_fks g) l.

Definition column_names_of (g : pg_tab) : list string := map c_name (g_columns g).
Definition index_names_in (g : pg_tab) : list string := map i_name (g_indexes g).

(** ** Names *)

(** The name without its schema; PostgreSQL derives the names of constraints from it. *)
Definition bare (n : string) : string :=
  match split_first "." n with Some (_, t) => t | None => n end.
Definition is_public (n : string) : bool :=
  match split_first "." n with Some (s, _) => String.eqb s "public" | None => true end.
Definition pkey_name (n : string) : string := (bare n ++ "_pkey")%string.
Definition unique_name (n c : string) : string := (bare n ++ "_" ++ c ++ "_key")%string.
Definition auto_check (n c : string) : string := (bare n ++ "_" ++ c ++ "_check")%string.
Definition auto_fk (n c : string) : string := (bare n ++ "_" ++ c ++ "_fkey")%string.

(** Words that need no quotes; their letters are folded to lower case. *)
Definition word_char (a : ascii) : bool :=
  let n := nat_of_ascii a in
  (Nat.leb 97 n && Nat.leb n 122) || (Nat.leb 65 n && Nat.leb n 90) || (Nat.leb 48 n && Nat.leb n 57) ||
  Nat.eqb n 95.
Fixpoint word_chars (s : string) : bool :=
  match s with EmptyString => true | String a s' => word_char a && word_chars s' end.
Definition plain (s : string) : bool :=
  match s with
  | EmptyString => false
  | String a _ => negb (Nat.leb 48 (nat_of_ascii a) && Nat.leb (nat_of_ascii a) 57) && word_chars s
  end.

Fixpoint distinct (l : list string) : bool :=
  match l with [] => true | x :: l' => negb (mem x l') && distinct l' end.

(** ** Column types *)

(** The name the catalogue uses for a type, and whether it is a type with time zone. *)
Definition canonical (s : string) : string * bool :=
  let is x := String.eqb s x in
  if is "int" || is "int4" then ("integer", false)
  else if is "int8" then ("bigint", false)
  else if is "int2" then ("smallint", false)
  else if is "bool" then ("boolean", false)
  else if is "decimal" then ("numeric", false)
  else if is "float8" || is "float" then ("double precision", false)
  else if is "float4" then ("real", false)
  else if is "varchar" then ("character varying", false)
  else if is "char" then ("character", false)
  else if is "timestamptz" then ("timestamp", true)
  else if is "timetz" then ("time", true)
  else if is "serial4" then ("serial", false)
  else if is "serial8" then ("bigserial", false)
  else if is "serial2" then ("smallserial", false)
  else (s, false).

(** SERIAL types: an integer type, NOT NULL, and a default that reads a sequence. *)
Definition serial_base (s : string) : option string :=
  if String.eqb s "serial" then Some "integer"
  else if String.eqb s "bigserial" then Some "bigint"
  else if String.eqb s "smallserial" then Some "smallint"
  else None.
Definition base_serial (s : string) : option string :=
  if String.eqb s "integer" then Some "serial"
  else if String.eqb s "bigint" then Some "bigserial"
  else if String.eqb s "smallint" then Some "smallserial"
  else None.
Definition is_serial (s : string) : bool :=
  match serial_base s with Some _ => true | None => false end.
Definition is_integer (s : string) : bool :=
  match base_serial s with Some _ => true | None => false end.

Definition wanted_type (c : column) : string := fst (canonical (c_type c)).
Definition wanted_zone (c : column) : bool := c_timezone c || snd (canonical (c_type c)).

(** CHARACTER and BIT mean CHARACTER(1) and BIT(1). *)
Definition one : value := mkValue VInt "1" "" 1 (S754_zero false) false.
Definition wanted_length (c : column) : option value :=
  match c_length c with
  | Some v => Some v
  | None => if String.eqb (wanted_type c) "character" || String.eqb (wanted_type c) "bit"
            then Some one else None
  end.

(** ** What is recorded of a column *)

(** A definition PostgreSQL accepts. *)
Definition valid_definition (c : column) : bool :=
  let notnull_ok := match c_notnull c with Some false => false | _ => true end in
  negb (c_unsigned c) && negb (c_autoinc c) && String.eqb (c_charset c) "" &&
  match c_onupdate c with None => true | Some _ => false end &&
  match c_enum c with [] => true | _ => false end &&
  match c_key c with KeyNone | KeyPrimary | KeyUnique => true | _ => false end &&
  match c_default c with
  | Some d => match df_value d with Some _ => true | None => false end
  | None => true
  end &&
  match c_identity c with
  | Some i => is_integer (wanted_type c) && negb (c_array c) && negb (String.eqb (id_behavior i) "") &&
              negb (id_not_for_replication i) && notnull_ok &&
              match c_default c with None => true | Some _ => false end
  | None => true
  end &&
  (if is_serial (wanted_type c)
   then notnull_ok && negb (c_array c) &&
        match c_default c with None => true | Some _ => false end
   else true) &&
  match c_check c with Some k => negb (ck_not_for_replication k) | None => negb (c_check_no_inherit c) end.

Definition says_required (c : column) : bool :=
  match c_notnull c with Some true => true | _ => false end || is_key_primary (c_key c) ||
  is_serial (wanted_type c) || match c_identity c with Some _ => true | None => false end.

(** DEFAULT NULL is no default. *)
Definition kept_default (d : option default_def) : option default_def :=
  match real_default d with Some v => Some (mkDefault (Some v) "") | None => None end.

Definition kept_identity (i : identity) : identity := mkIdentity (id_behavior i) false.

(** [k] is the name of its CHECK constraint. *)
Definition pg_recorded (k : string) (c : column) : column :=
  mkColumn (c_name c) 0 (wanted_type c) false (if says_required c then Some true else None)
    false (c_array c) (kept_default (c_default c)) (wanted_length c) (c_scale c)
    (option_map (fun d => mkCheck (ck_definition d) k false) (c_check c)) (c_check_no_inherit c)
    "" (c_collate c) (wanted_zone c) KeyNone None [] "" (option_map kept_identity (c_identity c)) None.

Definition pg_unique (n c : string) : index :=
  mkIndex (unique_name n c) "" [mkIndexColumn c None "asc"] false true "" [] false "" "" [].

(** ** Changes to one column *)
Definition set_type (ty : string) (zone : bool) (d y : column) : column :=
  mkColumn (c_name y) (c_position y) ty (c_unsigned y) (c_notnull y) (c_autoinc y) (c_array d)
    (c_default y) (wanted_length d) (c_scale d) (c_check y) (c_check_no_inherit y) (c_charset y)
    "" zone (c_key y) (c_onupdate y) (c_enum y) (c_references y)
    (c_identity y) (c_sequence y).
Definition set_identity (i : option identity) (y : column) : column :=
  mkColumn (c_name y) (c_position y) (c_type y) (c_unsigned y) (c_notnull y) (c_autoinc y)
    (c_array y) (c_default y) (c_length y) (c_scale y) (c_check y) (c_check_no_inherit y)
    (c_charset y) (c_collate y) (c_timezone y) (c_key y) (c_onupdate y) (c_enum y) (c_references y)
    i (c_sequence y).
(** A serial column that gets another default is an integer column. *)
Definition set_default (d : option default_def) (y : column) : column :=
  mkColumn (c_name y) (c_position y)
    (match serial_base (c_type y) with Some b => b | None => c_type y end)
    (c_unsigned y) (c_notnull y) (c_autoinc y)
    (c_array y) d (c_length y) (c_scale y) (c_check y) (c_check_no_inherit y)
    (c_charset y) (c_collate y) (c_timezone y) (c_key y) (c_onupdate y) (c_enum y) (c_references y)
    (c_identity y) (c_sequence y).
Definition set_check (k : option check_def) (no_inherit : bool) (y : column) : column :=
  mkColumn (c_name y) (c_position y) (c_type y) (c_unsigned y) (c_notnull y) (c_autoinc y)
    (c_array y) (c_default y) (c_length y) (c_scale y) k no_inherit
    (c_charset y) (c_collate y) (c_timezone y) (c_key y) (c_onupdate y) (c_enum y) (c_references y)
    (c_identity y) (c_sequence y).

Section Postgres.
(** Which changes of type PostgreSQL makes without a USING clause. *)
Variable castable : column -> column -> bool.

(** ALTER COLUMN ... TYPE writes name, length, scale and [] of the type, nothing else. *)
Definition alter_type (d y : column) : option column :=
  if is_serial (wanted_type d) then None
  else if negb (castable y d) then None
  else let zone := snd (canonical (c_type d)) in
  if is_serial (c_type y) then
    match base_serial (wanted_type d) with
    | Some ty => if c_array d then None else Some (set_type ty zone d y)
    | None => None
    end
  else match c_identity y with
       | Some _ => if is_integer (wanted_type d) && negb (c_array d)
                   then Some (set_type (wanted_type d) zone d y) else None
       | None => Some (set_type (wanted_type d) zone d y)
       end.

(** (Serial columns are kept NOT NULL here; PostgreSQL would let it go.) *)
Definition drop_not_null (in_pk : bool) (y : column) : option column :=
  match c_identity y with
  | Some _ => None
  | None => if in_pk || is_serial (c_type y) then None else Some (set_notnull None y)
  end.

Definition add_identity (i : identity) (y : column) : option column :=
  match c_identity y, c_default y, c_notnull y with
  | None, None, Some true =>
      if is_integer (c_type y) && negb (c_array y) && negb (String.eqb (id_behavior i) "")
      then Some (set_identity (Some (kept_identity i)) y) else None
  | _, _, _ => None
  end.

Definition change_identity (i : identity) (y : column) : option column :=
  match c_identity y with
  | Some _ => if String.eqb (id_behavior i) "" then None
              else Some (set_identity (Some (kept_identity i)) y)
  | None => None
  end.

Definition change_default (d : option default_def) (y : column) : option column :=
  match c_identity y with
  | Some _ => None
  | None => Some (set_default (kept_default d) y)
  end.

Definition has_check (k : string) (y : column) : bool :=
  match c_check y with Some d => String.eqb (ck_constraint d) k | None => false end.

(** The column called [n] is changed by [f]. *)
Definition on_column (n : string) (f : column -> option column) (g : pg_tab) : option pg_tab :=
  match named c_name n (g_columns g) with
  | None => None
  | Some y =>
      match f y with
      | None => None
      | Some y' => Some (with_cols (map (fun x => if String.eqb (c_name x) n then y' else x) (g_columns g)) g)
      end
  end.

Definition in_key (g : pg_tab) (n : string) : bool :=
  match g_pk g with Some (_, l) => mem n l | None => false end.

Definition require (l : list string) (c : column) : column :=
  if mem (c_name c) l then set_notnull (Some true) c else c.

Definition index_columns (i : index) : list string := key_columns i ++ i_included i.

Definition all_in (l l' : list string) : bool := forallb (fun x => mem x l') l.

Definition add_fk (f : foreign_key) (g : pg_tab) : option pg_tab :=
  if negb (String.eqb (fk_constraint f) "") && String.eqb (fk_index_name f) "" &&
     negb (fk_not_for_replication f) && negb (mem (fk_constraint f) (map fk_constraint (g_fks g))) &&
     negb (Nat.eqb (length (fk_index_columns f)) 0) && negb (Nat.eqb (length (fk_ref_columns f)) 0) &&
     all_in (fk_index_columns f) (column_names_of g)
  then Some (with_refs (g_fks g ++ [f]) g) else None.

(** One statement on a table. *)
Definition pg_alter (e : effect) (g : pg_tab) : option pg_tab :=
  match e with
  | EffAddColumn _ c _ =>
      if mem (c_name c) (column_names_of g) || negb (valid_definition c) then None
      else
        let k := auto_check (g_name g) (c_name c) in
        if match c_check c with Some _ => existsb (has_check k) (g_columns g) | None => false end then None
        else
          let g' := with_cols (g_columns g ++ [pg_recorded k c]) g in
          if is_unique (c_key c) then
            let i := pg_unique (g_name g) (c_name c) in
            if mem (i_name i) (index_names_in g) then None
            else Some (with_idx (g_indexes g ++ [i]) (g_owned g ++ [i_name i]) g')
          else Some g'
  | EffAlterType _ n d => on_column n (alter_type d) g
  | EffDropNotNull _ n => on_column n (drop_not_null (in_key g n)) g
  | EffSetNotNull _ n => on_column n (fun y => Some (set_notnull (Some true) y)) g
  | EffAddIdentity _ n i _ => on_column n (add_identity i) g
  | EffDropIdentity _ n => on_column n (fun y => Some (set_identity None y)) g
  | EffSetIdentity _ n i => on_column n (change_identity i) g
  | EffDropDefault _ n => on_column n (change_default None) g
  | EffSetDefault _ n d => on_column n (change_default (Some d)) g
  | EffDropCheck _ _ k =>                       (* the name is written without quotes *)
      if plain k then
        match find (has_check (to_lower k)) (g_columns g) with
        | Some y => on_column (c_name y) (fun y => Some (set_check None false y)) g
        | None => None
        end
      else None
  | EffAddCheck _ n k d b =>
      if plain k && negb (existsb (has_check (to_lower k)) (g_columns g)) then
        on_column n (fun y => match c_check y with
                              | Some _ => None
                              | None => Some (set_check (Some (mkCheck (ck_definition d) (to_lower k) false)) b y)
                              end) g
      else None
  | EffDropPrimaryKey _ =>                      (* DROP CONSTRAINT name_pkey *)
      match g_pk g with
      | Some (k, _) => if String.eqb k (pkey_name (g_name g)) then Some (with_pk None g) else None
      | None => None
      end
  | EffAddPrimaryKey _ i =>
      match g_pk g with
      | Some _ => None
      | None =>
          if String.eqb (to_lower (i_type i)) "primary key" &&
             forallb (fun c => match ic_length c with None => negb (String.eqb (ic_direction c) "desc")
                               | Some _ => false end) (i_columns i) &&
             negb (Nat.eqb (length (i_columns i)) 0) && distinct (key_columns i) &&
             all_in (key_columns i) (column_names_of g) &&
             negb (mem (pkey_name (g_name g)) (index_names_in g))
          then Some (with_pk (Some (pkey_name (g_name g), key_columns i))
                       (with_cols (map (require (key_columns i)) (g_columns g)) g))
          else None
      end
  | EffDropIndex _ n =>                         (* the name is written without a schema *)
      if is_public (g_name g) && mem n (index_names_in g) && negb (mem n (g_owned g))
      then Some (with_idx (remove_named i_name n (g_indexes g)) (g_owned g) g) else None
  | EffVerbatim (CreateIndex _ _ i) =>
      if mem (i_name i) (index_names_in g) ||
         match g_pk g with Some (k, _) => String.eqb k (i_name i) | None => false end || i_primary i ||
         Nat.eqb (length (i_columns i)) 0 || negb (all_in (index_columns i) (column_names_of g))
      then None
      else Some (with_idx (g_indexes g ++ [i]) (g_owned g) g)
  | EffAddForeignKey _ f | EffVerbatim (AddForeignKey _ _ f) => add_fk f g
  | EffDropForeignKey _ n =>
      if mem n (map fk_constraint (g_fks g))
      then Some (with_refs (remove_named fk_constraint n (g_fks g)) g) else None
  | EffVerbatim (AddPolicy _ _ p) =>
      if mem (p_name p) (map p_name (g_policies g)) then None
      else Some (with_policies (g_policies g ++ [p]) g)
  | EffDropPolicy n _ =>
      if mem n (map p_name (g_policies g))
      then Some (with_policies (remove_named p_name n (g_policies g)) g) else None
  | EffDropColumn _ n =>                        (* with everything that is on the column *)
      if mem n (column_names_of g)
      then Some (mkPg (g_name g) (remove_named c_name n (g_columns g))
                   (match g_pk g with
                    | Some (k, l) => if mem n l then None else Some (k, l)
                    | None => None
                    end)
                   (filter (fun i => negb (mem n (index_columns i))) (g_indexes g))
                   (filter (fun x => negb (existsb (fun i => String.eqb (i_name i) x && mem n (index_columns i))
                                             (g_indexes g))) (g_owned g))
                   (filter (fun f => negb (mem n (fk_index_columns f))) (g_fks g)) (g_policies g))
      else None
  | _ => None                                   (* not PostgreSQL *)
  end.

(** ** CREATE TABLE *)
Definition pk_declarations (t : table) : list (string * list string) :=
  map (fun c => (pkey_name (t_name t), [c_name c])) (filter (fun c => is_key_primary (c_key c)) (t_columns t)) ++
  map (fun i => (if String.eqb (i_name i) "PRIMARY" then pkey_name (t_name t) else i_name i, key_columns i))
    (t_indexes t).

(** REFERENCES in a column definition; the referenced column is not recorded. *)
Definition column_fk (n : string) (c : column) : foreign_key :=
  mkForeignKey (auto_fk n (c_name c)) "" [c_name c] (c_references c) [""] "" "" false.

Definition created_check (n : string) (c : column) : string :=
  match c_check c with
  | Some k => if String.eqb (ck_constraint k) "" then auto_check n (c_name c) else ck_constraint k
  | None => ""
  end.

Definition pg_create (t : table) : option pg_tab :=
  let n := t_name t in
  let keys := pk_declarations t in
  let pk := match keys with k :: _ => Some k | [] => None end in
  let need := match pk with Some (_, l) => l | None => [] end in
  let uniques := map (fun c => pg_unique n (c_name c)) (filter (fun c => is_unique (c_key c)) (t_columns t)) in
  let fks := t_fks t ++ map (column_fk n) (filter (fun c => negb (String.eqb (c_references c) "")) (t_columns t)) in
  let checks := map (created_check n) (filter (fun c => match c_check c with Some _ => true | None => false end)
                                         (t_columns t)) in
  if forallb valid_definition (t_columns t) && distinct (map c_name (t_columns t)) &&
     forallb i_primary (t_indexes t) && match t_policies t with [] => true | _ => false end &&
     Nat.leb (length keys) 1 &&
     forallb (fun k => negb (Nat.eqb (length (snd k)) 0) && distinct (snd k) &&
                       all_in (snd k) (map c_name (t_columns t))) keys &&
     distinct (map fst keys ++ map i_name uniques) && distinct checks && distinct (map fk_constraint fks) &&
     forallb (fun f => negb (String.eqb (fk_constraint f) "") && String.eqb (fk_index_name f) "" &&
                       negb (fk_not_for_replication f) && negb (Nat.eqb (length (fk_index_columns f)) 0) &&
                       negb (Nat.eqb (length (fk_ref_columns f)) 0) &&
                       all_in (fk_index_columns f) (map c_name (t_columns t))) fks
  then Some (mkPg n (map (require need) (map (fun c => pg_recorded (created_check n c) c) (t_columns t)))
               pk uniques (map i_name uniques) fks [])
  else None.
End Postgres.

(** ** What the export of the database is read as *)

(** information_schema gives a length only for character and bit types; the types of arrays are
    printed in full.  Collations and the options of identity sequences are not exported. *)
Definition shows_length (c : column) : bool :=
  c_array c || mem (c_type c) ["character"; "character varying"; "bit"; "bit varying"].

Definition exported_column (g : pg_tab) (c : column) : column :=
  mkColumn (c_name c) 0 (c_type c) false (c_notnull c) false (c_array c) (c_default c)
    (if shows_length c then c_length c else None) (if c_array c then c_scale c else None)
    (option_map (fun k => mkCheck (ck_definition k) "" false) (c_check c)) (c_check_no_inherit c)
    "" "" (c_timezone c)
    (if existsb (fun i => mem (i_name i) (g_owned g) && mem (c_name c) (key_columns i)) (g_indexes g)
     then KeyUnique else KeyNone)
    None [] "" (c_identity c) None.

(** PRIMARY KEY (...) in the CREATE TABLE. *)
Definition exported_pk (g : pg_tab) : list index :=
  match g_pk g with
  | Some (_, l) => [mkIndex "PRIMARY" "primary key" (map (fun x => mkIndexColumn x None "asc") l)
                      true true "" [] false "" "" []]
  | None => []
  end.

Fixpoint ends_with (p s : string) : bool :=
  String.eqb s p || match s with EmptyString => false | String _ s' => ends_with p s' end.

(** Indexes whose names end in _pkey are taken for those of primary keys and left out; the index
    of a primary key of another name is exported as a unique index. *)
Definition exported_indexes (g : pg_tab) : list index :=
  filter (fun i => negb (ends_with "_pkey" (i_name i)))
    (g_indexes g ++
     match g_pk g with
     | Some (k, l) => [mkIndex k "" (map (fun x => mkIndexColumn x None "asc") l) false true "" [] false "" "" []]
     | None => []
     end).

(** One statement per column and referenced column. *)
Definition exported_fks (g : pg_tab) : list foreign_key :=
  let action a := if String.eqb a "" then "NO ACTION" else a in
  flat_map (fun f => flat_map (fun x => map (fun y =>
    mkForeignKey (fk_constraint f) "" [x] (fk_ref_name f) [y] (action (fk_on_delete f))
      (action (fk_on_update f)) false) (fk_ref_columns f)) (fk_index_columns f)) (g_fks g).

(** Policies are exported on the table name without its schema. *)
Definition exported_name (n : string) : string := ("public." ++ bare n)%string.

Definition exported_statements (g : pg_tab) : list ddl :=
  CreateTable "" (mkTable (g_name g) (number 0 (map (exported_column g) (g_columns g))) (exported_pk g) [] []) ::
  map (CreateIndex "" (g_name g)) (exported_indexes g) ++
  map (AddForeignKey "" (g_name g)) (exported_fks g) ++
  map (AddPolicy "" (exported_name (g_name g))) (g_policies g).

(** The views follow the tables; triggers are not exported. *)
Definition pg_dump (c : database pg_tab) : list ddl :=
  flat_map exported_statements (db_tables c) ++ map DView (db_views c).
