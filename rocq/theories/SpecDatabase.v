(** An ideal database, for any way of storing a table: a catalogue of tables, views and triggers,
    and what each planned statement does to it.  [create] and [alter] say what the statements
    about one table do; [None] is a statement the database rejects.  Only the syntax trees of
    [Ast] and the effects of [Generator] are used.  Not modelled: data, and names shared by
    tables and views. *)
From Coq Require Import String Ascii List ZArith Bool.
From Verif Require Import GoStr Ast Generator SpecPlan SpecMysql.
Import ListNotations.
Local Open Scope string_scope.
Local Open Scope list_scope.

Record database (T : Type) := mkDatabase {
  db_tables : list T; db_views : list view; db_triggers : list trigger }.
Arguments mkDatabase {T} _ _ _.
Arguments db_tables {T} _.
Arguments db_views {T} _.
Arguments db_triggers {T} _.

Section Database.
Context {T : Type}.
Variables (name : T -> string) (create : table -> option T) (alter : effect -> T -> option T).
(* CREATE OR REPLACE VIEW may be refused, for instance when the columns of the view change. *)
Variable replaceable : view -> string -> bool.

Definition replace_named (n : string) (x : T) (l : list T) : list T :=
  map (fun y => if String.eqb (name y) n then x else y) l.

Definition view_run (o : view_op) (l : list view) : option (list view) :=
  match o with
  | ViewAsWritten v => if mem (vw_name v) (map vw_name l) then None else Some (l ++ [v])
  | ViewCreate n d => if mem n (map vw_name l) then None else Some (l ++ [mkView "" n d])
  | ViewReplace n d =>
      match named vw_name n l with
      | None => Some (l ++ [mkView "" n d])
      | Some v => if replaceable v d then Some (remove_named vw_name n l ++ [mkView "" n d]) else None
      end
  | ViewDrop n => if mem n (map vw_name l) then Some (remove_named vw_name n l) else None
  end.

Definition trigger_run (o : trigger_op) (l : list trigger) : option (list trigger) :=
  match o with
  | TriggerCreate t => if mem (tr_name t) (map tr_name l) then None else Some (l ++ [t])
  | TriggerAlter t => Some (remove_named tr_name (tr_name t) l ++ [t])
  | TriggerDrop n => if mem n (map tr_name l) then Some (remove_named tr_name n l) else None
  end.

(** One statement about the table called [n]. *)
Definition table_run (e : effect) (n : string) (l : list T) : option (list T) :=
  match e with
  | EffVerbatim (CreateTable _ t) =>
      if mem n (map name l) then None
      else match create t with Some x => Some (l ++ [x]) | None => None end
  | EffDropTable _ => if mem n (map name l) then Some (remove_named name n l) else None
  | _ =>
      match named name n l with
      | None => None
      | Some t => match alter e t with Some t' => Some (replace_named n t' l) | None => None end
      end
  end.

Definition execute (e : effect) (c : database T) : option (database T) :=
  match eff_table e, view_ops e, trigger_ops e with
  | Some n, _, _ =>
      match table_run e n (db_tables c) with
      | Some l => Some (mkDatabase l (db_views c) (db_triggers c))
      | None => None
      end
  | None, [o], _ =>
      match view_run o (db_views c) with
      | Some l => Some (mkDatabase (db_tables c) l (db_triggers c))
      | None => None
      end
  | None, _, [o] =>
      match trigger_run o (db_triggers c) with
      | Some l => Some (mkDatabase (db_tables c) (db_views c) l)
      | None => None
      end
  | None, _, _ => None
  end.

(** All statements of a plan, in order. *)
Fixpoint execute_all (out : list stmt) (c : database T) : option (database T) :=
  match out with
  | [] => Some c
  | s :: out' => match execute (s_eff s) c with Some c' => execute_all out' c' | None => None end
  end.
End Database.
