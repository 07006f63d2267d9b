(** The command's main function and its dealings with the database:
    /repo/sqldef.go 22-62 [Run], 85-94 [showDDLs] and /repo/adapter/database.go 28-79
    [DumpDDLs], [RunDDLs].

    The outside world (database, file system) is a record of answers.  Every answer may depend
    on the whole history of events, so a [world] covers databases with any state, any failure
    pattern and concurrent writers.  A run is the list of events it causes, in order. *)
From Coq Require Import String Ascii List ZArith Bool.
From Verif Require Import GoStr Ast Generator SchemaText.
Import ListNotations.
Local Open Scope string_scope.

(** sqldef.go 14-19 [Options] *)
Record options := mkOptions {
  opt_file : string; opt_dry_run : bool; opt_export : bool; opt_skip_drop : bool }.

Inductive event :=
| QTableNames | QDumpTable (t : string) | QViews | QTriggers   (* catalogue reads *)
| ReadFile (f : string)
| Begin (ok : bool) | Exec (s : string) (ok : bool) | Commit (ok : bool) | Rollback (ok : bool)
| Out (s : string)                                             (* standard output *)
| Exit (code : Z).                                             (* 0: normal return *)

Record world := mkWorld {
  w_table_names : list event -> option (list string);   (* None: the call returns an error *)
  w_dump_table : list event -> string -> option string;
  w_views : list event -> option (list string);
  w_triggers : list event -> option (list string);
  w_read_file : list event -> string -> option string;
  w_begin : list event -> bool;
  w_exec : list event -> string -> bool;
  w_commit : list event -> bool;
  w_rollback : list event -> bool }.

Section Run.
Variable w : world.

(** database.go 36-43: dump the tables one by one; stop at the first error. *)
Fixpoint dump_tables (h : list event) (names : list string) : list event * option (list string) :=
  match names with
  | [] => ([], Some [])
  | n :: r =>
      match w_dump_table w h n with
      | None => ([QDumpTable n], None)
      | Some s =>
          let '(t, o) := dump_tables (h ++ [QDumpTable n]) r in
          (QDumpTable n :: t, match o with Some l => Some (s :: l) | None => None end)
      end
  end.

(** database.go 28-58 [DumpDDLs] *)
Definition dump_ddls (h : list event) : list event * option string :=
  match w_table_names w h with
  | None => ([QTableNames], None)
  | Some names =>
      let '(t, o) := dump_tables (h ++ [QTableNames]) names in
      let t1 := QTableNames :: t in
      match o with
      | None => (t1, None)
      | Some tables =>
          match w_views w (h ++ t1) with
          | None => ((t1 ++ [QViews])%list, None)
          | Some views =>
              let t2 := (t1 ++ [QViews])%list in
              match w_triggers w (h ++ t2) with
              | None => ((t2 ++ [QTriggers])%list, None)
              | Some triggers =>
                  ((t2 ++ [QTriggers])%list,
                   Some (join (";" ++ nl ++ nl) (tables ++ views ++ triggers)))
              end
          end
      end
  end.

(** The line printed for one statement (sqldef.go 88-92, database.go 67-71). *)
Definition shown (skip_drop : bool) (d : string) : event :=
  if skip_drop && contains d "DROP" then Out ("-- Skipped: " ++ d ++ ";" ++ nl)
  else Out (d ++ ";" ++ nl).

(** sqldef.go 85-94 [showDDLs] *)
Definition show_ddls (ddls : list string) (skip_drop : bool) : list event :=
  Out ("-- dry run --" ++ nl) :: map (shown skip_drop) ddls.

(** database.go 66-77, the loop of [RunDDLs] and what follows it. *)
Fixpoint apply_loop (h : list event) (skip_drop : bool) (ddls : list string)
  : list event * bool :=
  match ddls with
  | [] => ([Commit (w_commit w h)], true)
  | d :: r =>
      let o := shown skip_drop d in
      if skip_drop && contains d "DROP" then
        let '(t, ok) := apply_loop (h ++ [o]) skip_drop r in (o :: t, ok)
      else
        let h1 := (h ++ [o])%list in
        if w_exec w h1 d then
          let '(t, ok) := apply_loop (h1 ++ [Exec d true]) skip_drop r in
          (o :: Exec d true :: t, ok)
        else ([o; Exec d false; Rollback (w_rollback w (h1 ++ [Exec d false]))], false)
  end.

(** database.go 60-79 [RunDDLs]; the flag is false when it returns an error. *)
Definition run_ddls (h : list event) (ddls : list string) (skip_drop : bool)
  : list event * bool :=
  if w_begin w h then
    let pre := [Begin true; Out ("-- Apply --" ++ nl)] in
    let '(t, ok) := apply_loop (h ++ pre) skip_drop ddls in ((pre ++ t)%list, ok)
  else ([Begin false], false).

(** sqldef.go 22-62 [Run], for any parser of statements. Exit codes: 0 normal return, 1
    [log.Fatal] or [os.Exit(1)], 2 a panic.  Text written to standard error is not modelled. *)
Definition run (parse1 : mode -> string -> res ddl) (m : mode) (o : options) : list event :=
  let '(t, dump) := dump_ddls [] in
  match dump with
  | None => t ++ [Exit 1]
  | Some cur =>
      if opt_export o then
        t ++ [Out (if String.eqb cur "" then "-- No table exists --" ++ nl else cur ++ ";" ++ nl);
              Exit 0]
      else
        let t1 := (t ++ [ReadFile (opt_file o)])%list in
        match w_read_file w t (opt_file o) with
        | None => t1 ++ [Exit 1]
        | Some des =>
            match generate_idempotent_ddls (parse_ddls parse1) m des cur with
            | Err _ => t1 ++ [Exit 1]
            | Panic => t1 ++ [Exit 2]
            | Fatal => t1 ++ [Exit 1]
            | Ok ddls =>
                match ddls with
                | [] => t1 ++ [Out ("-- Nothing is modified --" ++ nl); Exit 0]
                | _ :: _ =>
                    if opt_dry_run o then t1 ++ show_ddls ddls (opt_skip_drop o) ++ [Exit 0]
                    else let '(t2, ok) := run_ddls t1 ddls (opt_skip_drop o) in
                         t1 ++ t2 ++ [Exit (if ok then 0 else 1)]
                end
            end
        end
  end%list.
End Run.
