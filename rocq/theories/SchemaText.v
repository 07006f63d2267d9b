(** Splitting of schema text into statements: /repo/schema/parser.go 422-444 [parseDDLs],
    for any parser of single statements (279-420 [parseDDL] is a parameter here). *)
From Coq Require Import String Ascii List ZArith Bool.
From Verif Require Import GoStr Ast Generator.
Import ListNotations.
Local Open Scope string_scope.

Definition newline : ascii := ascii_of_nat 10.
Definition semicolon : ascii := ";"%char.

(** 425-426: [regexp.MustCompilePOSIX("^--.*")] with [ReplaceAllString(str, "")].  With POSIX
    flags [^] matches at every line start and [.] does not match a newline, so the text of
    every line that starts with two dashes is deleted (the newline stays). *)
Definition blank_comment_line (l : string) : string := if has_prefix l "--" then "" else l.

Definition strip_comment_lines (s : string) : string :=
  join nl (map blank_comment_line (split_char newline s)).

(** 428-436: split at every semicolon, trim, skip empty pieces. *)
Definition split_statements (s : string) : list string :=
  filter (fun x => negb (String.eqb x ""))
         (map trim_space (split_char semicolon (strip_comment_lines s))).

(** 438-443: parse the pieces in order, stop at the first error. *)
Fixpoint parse_all (parse1 : mode -> string -> res ddl) (m : mode) (l : list string)
  : res (list ddl) :=
  match l with
  | [] => Ok []
  | x :: l' => do d <- parse1 m x; do r <- parse_all parse1 m l'; Ok (d :: r)
  end.

(** 424-444 [parseDDLs] *)
Definition parse_ddls (parse1 : mode -> string -> res ddl) (m : mode) (s : string)
  : res (list ddl) :=
  parse_all parse1 m (split_statements s).
