(** An ideal SQLite as sqldef meets it: a catalogue of texts.  SQLite keeps for every table and
    view the text of the statement that created it; it rewrites the first words, so here any
    text with the same words may be kept.  Only the syntax trees of [Ast], the effects of
    [Generator], the words of a text ([SpecLayout]) and sqldef's own reading of a single
    statement are used.

    Simplified: names are compared exactly (SQLite ignores letter case), a statement is run
    without looking at the objects it refers to, and data do not exist.  Of IF NOT EXISTS, which
    SQLite does not keep, nothing is said.  ALTER TABLE is not modelled. *)
From Coq Require Import String Ascii List ZArith Bool.
From Verif Require Import GoStr Ast Generator SchemaText SchemaParse Parser Catalog SpecText SpecExport SpecPlan SpecLayout.
Import ListNotations.
Local Open Scope string_scope.
Local Open Scope list_scope.

(** ** Objects *)
Inductive lite_object := LTable (t : table) | LView (definition : string).

Definition lite_kind (o : lite_object) : string := match o with LTable _ => "table" | LView _ => "view" end.

(** The text [x] is one statement, which sqldef reads as the object [o] called [n]. *)
Definition means (x n : string) (o : lite_object) : Prop :=
  plain_statement x /\
  match o with
  | LTable t => parse_ddl parse_strict_ddl SQLite3 x = Ok (CreateTable x t) /\ t_name t = n
  | LView d => parse_ddl parse_strict_ddl SQLite3 x = Ok (DView (mkView x n d))
  end.

(** A row of [sqlite_master] that tells a table or view of the user. *)
Definition object_row (r : lite_row) : Prop :=
  (lr_type r = "table" /\ ~ lite_hidden (lr_table r)) \/ lr_type r = "view".

(** The catalogue has the object [o] under the name [n]. *)
Definition holds (master : list lite_row) (n : string) (o : lite_object) : Prop :=
  exists r x, In r master /\ object_row r /\ lr_type r = lite_kind o /\ lr_table r = n /\ lr_sql r = Some x /\ means x n o.

(** Catalogues sqldef can read: every object has a text that declares it under its name; an
    object is told by one row, before those of its indexes and triggers; every row belongs to
    an object. *)
Record lite_ok (master : list lite_row) : Prop := {
  lo_means : forall r, In r master -> object_row r ->
    lr_name r = lr_table r /\ exists x o, lr_type r = lite_kind o /\ lr_sql r = Some x /\ means x (lr_table r) o;
  lo_first : forall a r b, master = a ++ r :: b -> object_row r -> forall q, In q a -> lr_table q <> lr_table r;
  lo_owned : forall r, In r master -> exists q, In q master /\ lr_name q = lr_table r /\ lr_table q = lr_table r }.

(** ** Statements *)

(** For the statement [x] SQLite keeps the text [y]. *)
Definition keeps (x y : string) : Prop :=
  plain_statement y /\ exists w, says SQLite3 x w /\ says SQLite3 y w.

(** Rows SQLite adds by itself: indexes of keys, and the table for AUTOINCREMENT. *)
Definition own_row (n : string) (r : lite_row) : Prop :=
  lite_hidden (lr_name r) /\ ~ object_row r /\ (lr_table r = n \/ lr_table r = lr_name r).

Definition free (master : list lite_row) (n : string) : Prop := forall r, In r master -> lr_name r <> n.

Definition without_object (n : string) (master : list lite_row) : list lite_row :=
  filter (fun r => negb (String.eqb (lr_table r) n)) master.

(** [executes s a b]: SQLite accepts [s] in the catalogue [a], which becomes [b].  Nothing else
    is accepted here. *)
Inductive executes : stmt -> list lite_row -> list lite_row -> Prop :=
| ex_create_table x x' t y own a : free a (t_name t) -> keeps x y -> Forall (own_row (t_name t)) own ->
    executes (mkStmt x (EffVerbatim (CreateTable x' t))) a (a ++ mkLiteRow "table" (t_name t) (t_name t) (Some y) :: own)
| ex_create_view x v y a : free a (vw_name v) -> keeps x y ->
    executes (mkStmt x (EffVerbatim (DView v))) a (a ++ [mkLiteRow "view" (vw_name v) (vw_name v) (Some y)])
| ex_new_view x n d y a : free a n -> keeps x y ->
    executes (mkStmt x (EffCreateView n d)) a (a ++ [mkLiteRow "view" n n (Some y)])
| ex_drop_table x n a r : In r a -> lr_type r = "table" -> lr_name r = n ->
    executes (mkStmt x (EffDropTable n)) a (without_object n a)
| ex_drop_view x n a r : In r a -> lr_type r = "view" -> lr_name r = n ->
    executes (mkStmt x (EffDropView n)) a (without_object n a).

Inductive executes_all : list stmt -> list lite_row -> list lite_row -> Prop :=
| ea_nil a : executes_all [] a a
| ea_cons s out a b c : executes s a b -> executes_all out b c -> executes_all (s :: out) a c.

(** ** Schema files *)
Definition statement_ok (x : string) : Prop := plain_statement x /\ exists w, says SQLite3 x w.

Definition lite_statement (d : ddl) : Prop :=
  match d with
  | CreateTable x t => statement_ok x /\ ~ lite_hidden (t_name t)
  | DView v => statement_ok (vw_statement v) /\ ~ lite_hidden (vw_name v)
  | _ => False
  end.

(** Tables and views with different names; the columns and keys of a table have different
    names, foreign keys are named. *)
Record lite_schema (l : list ddl) : Prop := {
  ls_statements : forall d, In d l -> lite_statement d;
  ls_names : NoDup (created l ++ map vw_name (views_in l));
  ls_settled : settled SQLite3 l }.

(** ** What a run can do *)

(** The statement planned for a view that changes is read as the new view. *)
Definition rereads (v : view) : Prop :=
  let x := ("CREATE VIEW `" ++ vw_name v ++ "` AS " ++ vw_definition v)%string in
  (exists w, says SQLite3 x w) /\ means x (vw_name v) (LView (vw_definition v)).

Record lite_convertible (l : list ddl) (master : list lite_row) : Prop := {
  (* tables are created and dropped, but stay as they are *)
  lc_tables : forall t o, In t (tables_in l) -> holds master (t_name t) o -> o = LTable t;
  lc_views : forall v o, In v (views_in l) -> holds master (vw_name v) o ->
    exists d, o = LView d /\ (same_letters d (vw_definition v) \/ rereads v);
  (* nothing but a table or view of the user has the name of a table or view of the file *)
  lc_free : forall r, In r master -> In (lr_name r) (created l ++ map vw_name (views_in l)) ->
    object_row r /\ lr_table r = lr_name r }.

(** The catalogue has the tables and views of the file and no others. *)
Record lite_reached (l : list ddl) (master : list lite_row) : Prop := {
  lh_table : forall t, In t (tables_in l) -> holds master (t_name t) (LTable t);
  lh_view : forall v, In v (views_in l) -> exists d, holds master (vw_name v) (LView d) /\ same_letters d (vw_definition v);
  lh_other : forall n o, holds master n o -> In n (created l ++ map vw_name (views_in l)) }.
