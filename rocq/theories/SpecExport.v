(** Notions for what the export queries return. *)
From Coq Require Import String Ascii List ZArith Bool.
From Verif Require Import GoStr GoStrFacts SchemaText SqlAst Catalog AdapterPostgres.
Import ListNotations.
Local Open Scope string_scope.

(** A text without semicolons and line breaks. *)
Definition one_line (s : string) : Prop := has_char semicolon s = false /\ has_char newline s = false.

(** A row of the column query whose texts have no semicolons and line breaks. *)
Record clean_row (c : dump_column) : Prop := {
  cl_name : one_line (dc_name c); cl_type : one_line (dc_type c); cl_default : one_line (dc_default c);
  cl_check : one_line (dc_check c); cl_identity : one_line (dc_identity c) }.

(** The schema of a table name on PostgreSQL. *)
Definition pg_schema (n : table_name) : string := if String.eqb (tn_qualifier n) "" then "public" else tn_qualifier n.

(** [t] is a table of the database and no other has its schema and name. *)
Definition the_table (db : pg_database) (t : pg_table) : Prop :=
  has_char "." (pt_schema t) = false /\
  exists a b, pd_tables db = (a ++ t :: b)%list /\
    forall t', In t' (a ++ b)%list -> ~ (pt_schema t' = pt_schema t /\ pt_name t' = pt_name t).

(** No other table of the database, in any schema, has its name. *)
Definition only_name (db : pg_database) (t : pg_table) : Prop :=
  exists a b, pd_tables db = (a ++ t :: b)%list /\ forall t', In t' (a ++ b)%list -> pt_name t' <> pt_name t.

(** Its name as [TableNames] lists it. *)
Definition full_name (t : pg_table) : string := pt_schema t ++ "." ++ pt_name t.

(** No two constraints of the database have the same name. *)
Definition distinct_constraints (db : pg_database) : Prop :=
  NoDup (map con_name (flat_map pt_constraints (pd_tables db))).

(** The constraints of one kind that contain the column. *)
Definition constraint_of (t : pg_table) (k : con_kind) (c : string) (x : pg_constraint) : Prop :=
  In x (pt_constraints t) /\ con_kind_of x = k /\ In c (con_columns x).

(** A name that neither starts nor ends with a double quote or a space. *)
Definition no_edge (s : string) : Prop :=
  forall c, first_char s = Some c \/ last_char s = Some c -> c <> " "%char /\ c <> """"%char.

(** The row [d] tells the column [c] of the table [t]. *)
Record tells (t : pg_table) (c : pg_column) (d : dump_column) : Prop := {
  tl_name : dc_name d = pc_name c;
  (* arrays and user-defined types are printed in full *)
  tl_type : dc_type d = if in_dec string_dec (pc_type c) ["ARRAY"; "USER-DEFINED"] then pc_format c else pc_type c;
  tl_length : dc_length d = match pc_max_length c with Some z => z | None => 0%Z end;
  tl_nullable : dc_nullable d = pc_nullable c;
  tl_default : dc_default d = match pc_default c with Some x => x | None => "" end;
  tl_serial : dc_autoinc d = true <-> exists x, pc_default c = Some ("nextval(" ++ x);
  tl_unique : dc_unique d = true <-> exists x, constraint_of t ConUnique (pc_name c) x;
  tl_check : (forall x, constraint_of t ConCheck (pc_name c) x -> dc_check d = con_def x) /\
             ((forall x, ~ constraint_of t ConCheck (pc_name c) x) -> dc_check d = "");
  tl_identity : dc_identity d = match pc_identity c with Some x => x | None => "" end }.

(** Of each kind at most one constraint contains the column. *)
Definition single_constraints (t : pg_table) : Prop :=
  NoDup (pt_constraints t) /\
  forall k c x y, k = ConUnique \/ k = ConCheck -> constraint_of t k c x -> constraint_of t k c y -> x = y.

(** SQL Server rows whose texts have no semicolons and line breaks. *)
Definition clean_ms_column (c : ms_column) : Prop :=
  one_line (mc_name c) /\ one_line (mc_type c) /\ one_line (mc_max_length c) /\
  (forall n v, mc_default c = Some (n, v) -> one_line n /\ one_line v) /\
  (forall i, mc_identity c = Some i -> one_line (mi_seed i) /\ one_line (mi_increment i)) /\
  (forall k, mc_check c = Some k -> one_line (mk_name k) /\ one_line (mk_definition k)).
Definition clean_ms_index (i : ms_index) : Prop :=
  one_line (mi_name i) /\ one_line (mi_type i) /\
  Forall (fun o => one_line (fst o) /\ one_line (snd o)) (mi_options i) /\
  Forall (fun c => one_line (mx_name c)) (mi_columns i).
Definition clean_ms_fk (r : ms_fk_row) : Prop :=
  one_line (mf_name r) /\ one_line (mf_column r) /\ one_line (mf_ref_table r) /\ one_line (mf_ref_column r) /\
  one_line (mf_on_update r) /\ one_line (mf_on_delete r).

(** SQLite's reserved names and the rows of [sqlite_master] that define objects. *)
Definition lite_reserved (s : string) : Prop := exists r, to_lower s = "sqlite_" ++ r.
(** The names the pattern [sqlite_%] of LIKE covers: [_] is any character and case is ignored. *)
Definition lite_hidden (s : string) : Prop := exists c r, to_lower s = "sqlite" ++ String c r.

(** ** View definitions as PostgreSQL prints them: words, separated by spaces or by line
    breaks with indentation *)
Definition word (w : string) : Prop := w <> "" /\ all_chars (fun c => negb (is_space c)) w = true.
Definition separates (g : string) : Prop :=
  all_chars (fun c => Ascii.eqb c " " || Ascii.eqb c newline) g = true /\ has_char " " g = true.
Inductive spaced : string -> list string -> Prop :=
| spaced_one w : word w -> spaced w [w]
| spaced_more w g s l : word w -> separates g -> spaced s l -> spaced (w ++ g ++ s) (w :: l).
Definition printed_view (definition : string) (words : list string) : Prop :=
  exists lead s, all_chars is_space lead = true /\ spaced s words /\ definition = lead ++ s ++ ";".

(** The name ends in [_pkey]. *)
Definition named_like_primary (i : pg_index) : Prop := exists x, pi_name i = x ++ "_pkey".
