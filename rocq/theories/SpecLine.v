(** Command lines that ask for a file to be applied, and what they open and do.  The words are those
    of [SpecCommand]; of the functions of the model only [CommandLine.main], the subject, is named. *)
From Coq Require Import String Ascii List ZArith Bool.
From Verif Require Import GoStr GoStrFacts Ast Generator Parser SchemaParse Runner AdapterPostgres CommandLine SpecUrl SpecCommand.
Import ListNotations.
Local Open Scope string_scope.

(** The line asks for neither help nor version, nor to show, to export or to skip. *)
Definition plainly (l : list item) : Prop :=
  ~ In (Turn "help") l /\ ~ In (Turn "version") l /\ ~ In (Turn "dry-run") l /\ ~ In (Turn "export") l /\
  ~ In (Turn "skip-drop") l.

(** The words [l], typed on [mc], name the database [conn] of a server and the file [file]. *)
Record line_names (m : mode) (mc : machine) (l : list item) (conn : connection) (file : string) : Prop := {
  ln_server : m <> SQLite3;
  ln_proper : Forall (proper (mc_unquote mc) m) l;
  ln_plain : plainly l;
  ln_file : says (mc_unquote mc) l "file" "-" file;
  ln_name : exists w user password host port,
    names l = [w] /\ says (mc_unquote mc) l "user" (user_default m) user /\
    meant_password (mc_unquote mc) m (mc_env mc) (read_password mc) l password /\
    says (mc_unquote mc) l "host" "127.0.0.1" host /\ says (mc_unquote mc) l "port" (port_default m) port /\
    says (mc_unquote mc) l "socket" "" "" /\ (decimal_number 0 port < 2 ^ 63)%Z /\ (m = Mysql \/ plain_host host) /\
    (m = Postgres -> mc_found mc host = false /\ plain_path w /\ plain_option (mc_env mc "PGSSLMODE") /\
       plain_option (mc_env mc "PGSSLROOTCERT") /\ has_char " " user = false /\ has_char " " password = false) /\
    conn = mkConnection user password host (show_Z (decimal_number 0 port)) w }.

(** The words name the SQLite database [path] and the file [file]. *)
Record line_names_file (mc : machine) (l : list item) (path file : string) : Prop := {
  lf_proper : Forall (proper (mc_unquote mc) SQLite3) l;
  lf_plain : plainly l;
  lf_file : says (mc_unquote mc) l "file" "-" file;
  lf_name : names l = [path] }.

(** Every address of [conn] is answered by [db]. *)
Definition found_at (connect : address -> option world) (conn : connection) (db : world) : Prop :=
  forall a, leads_to a = Some conn -> connect a = Some db.

(** The command opened one address, which leads to [conn]. *)
Definition opens (l : list act) (conn : connection) : Prop :=
  exists a, opened l = [a] /\ leads_to a = Some conn.

(** The command, with the parser it is built with, given the words [l]. *)
Definition typed (connect : address -> option world) (m : mode) (mc : machine) (l : list item) : list act :=
  main connect (parse_ddl parse_strict_ddl) m mc (flat_map spell l).
