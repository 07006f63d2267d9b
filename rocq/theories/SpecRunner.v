(** Specification vocabulary for runs of the command.  Nothing here mentions the functions of
    [Runner]: only its events. *)
From Coq Require Import String Ascii List ZArith Bool.
From Verif Require Import GoStr Ast Generator SchemaText Runner.
Import ListNotations.
Local Open Scope string_scope.

(** An event that can change the database or its transaction state. *)
Definition touches_db (e : event) : bool :=
  match e with Begin _ | Exec _ _ | Commit _ | Rollback _ => true | _ => false end.

Definition db_trace (t : list event) : list event := filter touches_db t.

Definition reads_file (e : event) : bool := match e with ReadFile _ => true | _ => false end.

(** What the command writes to standard output, call by call. *)
Definition outputs (t : list event) : list string :=
  flat_map (fun e => match e with Out s => [s] | _ => [] end) t.

(** The statements sent to the database, in order. *)
Definition sent (t : list event) : list string :=
  flat_map (fun e => match e with Exec s _ => [s] | _ => [] end) t.

Definition exit_codes (t : list event) : list Z :=
  flat_map (fun e => match e with Exit c => [c] | _ => [] end) t.

Definition prefix_of {A} (p l : list A) : Prop := exists r, l = (p ++ r)%list.

(** The statements the user asked to have executed: all, or those without the letters DROP. *)
Definition selected (skip_drop : bool) (ddls : list string) : list string :=
  filter (fun d => negb (skip_drop && contains d "DROP")) ddls.

(** The text shown for one statement. *)
Definition line_for (skip_drop : bool) (d : string) : string :=
  if skip_drop && contains d "DROP" then "-- Skipped: " ++ d ++ ";" ++ nl else d ++ ";" ++ nl.

(** A database whose DDL is transactional: the committed state and, inside a transaction, the
    state the transaction sees. [sem] is what one accepted statement does. *)
Section Store.
Context {S : Type} (sem : string -> S -> S).

Definition store : Type := S * option S.

Definition on_event (s : store) (e : event) : store :=
  match e, s with
  | Begin true, (c, _) => (c, Some c)
  | Exec d true, (c, Some x) => (c, Some (sem d x))
  | Exec d true, (c, None) => (sem d c, None)
  | Commit true, (_, Some x) => (x, None)
  | Commit false, (c, _) => (c, None)
  | Rollback _, (c, _) => (c, None)
  | _, _ => s
  end.

(** The state found after a crash that happens once the events [t] have taken place: what
    was committed. *)
Definition after_crash (s0 : S) (t : list event) : S := fst (fold_left on_event t (s0, None)).

(** A database that commits every DDL statement by itself. *)
Definition on_event_auto (s : S) (e : event) : S :=
  match e with Exec d true => sem d s | _ => s end.

Definition after_crash_auto (s0 : S) (t : list event) : S := fold_left on_event_auto t s0.

Definition run_all (ddls : list string) (s : S) : S := fold_left (fun x d => sem d x) ddls s.
End Store.

(** The plan a run is about: the statements planned from the contents of the schema file and
    the exported text of the database; an error if the export or the file cannot be read. *)
Definition planned (w : world) (parse1 : mode -> string -> res ddl) (m : mode) (o : options)
  : res (list string) :=
  match snd (dump_ddls w []) with
  | None => Err (EParse "dump")
  | Some cur => match w_read_file w (fst (dump_ddls w [])) (opt_file o) with
                | None => Err (EParse "file")
                | Some des => generate_idempotent_ddls (parse_ddls parse1) m des cur
                end
  end.
