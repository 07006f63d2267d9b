(** What a command line of the four commands says, after the help texts in /repo/README.md, and
    which server an address leads to.  Nothing here mentions the parsing of the model. *)
From Coq Require Import String Ascii List ZArith Bool.
From Verif Require Import GoStr Ast Generator Runner AdapterPostgres CommandLine SpecUrl.
Import ListNotations.
Local Open Scope string_scope.

(** ** The documented options *)

(** Options with a value: the long name and the letter, if any. *)
Definition documented (m : mode) : list (string * option ascii) :=
  match m with
  | Mysql => [("user", Some "u"%char); ("password", Some "p"%char); ("host", Some "h"%char);
              ("port", Some "P"%char); ("socket", Some "S"%char); ("file", None)]
  | Postgres => [("user", Some "U"%char); ("password", Some "W"%char); ("host", Some "h"%char);
                 ("port", Some "p"%char); ("file", Some "f"%char)]
  | Mssql => [("user", Some "U"%char); ("password", Some "P"%char); ("host", Some "h"%char);
              ("port", Some "p"%char); ("file", None)]
  | SQLite3 => [("file", Some "f"%char)]
  end.

Definition documented_switches (m : mode) : list string :=
  ["dry-run"; "export"; "skip-drop"; "help"; "version"] ++
  match m with SQLite3 => [] | _ => ["password-prompt"] end.

(** ** Ways of writing them *)

(** [--name=v], [--name v], [-cv], [-c=v], [-c v]. *)
Inductive style := LongEqual | LongApart | ShortJoined (c : ascii) | ShortEqual (c : ascii) | ShortApart (c : ascii).

Inductive item :=
| Give (name v : string) (s : style)
| Turn (name : string)
| Name (w : string).

Definition spell (i : item) : list string :=
  match i with
  | Give n v LongEqual => ["--" ++ n ++ "=" ++ v]
  | Give n v LongApart => ["--" ++ n; v]
  | Give _ v (ShortJoined c) => ["-" ++ String c v]
  | Give _ v (ShortEqual c) => ["-" ++ String c ("=" ++ v)]
  | Give _ v (ShortApart c) => ["-" ++ String c ""; v]
  | Turn n => ["--" ++ n]
  | Name w => [w]
  end.

(** A word that looks like an option. *)
Definition option_like (w : string) : Prop :=
  exists c r, c <> "-"%char /\ (w = "-" ++ String c r \/ w = "--" ++ String c r).

Section Meaning.
(** How the machine reads a quoted text. *)
Variable unquote : string -> option string.

(** The text a value stands for. *)
Definition quoted (v : string) : Prop := exists r, v = String (ascii_of_nat 34) r.
Definition stands_for (v x : string) : Prop := quoted v /\ unquote v = Some x \/ ~ quoted v /\ x = v.

(** The number a text of decimal digits denotes. *)
Fixpoint decimal_number (acc : Z) (s : string) : Z :=
  match s with
  | EmptyString => acc
  | String c s' => decimal_number (10 * acc + (Z.of_N (code c) - 48)) s'
  end.
Definition port_text (x : string) : Prop :=
  x <> "" /\ every decimal x = true /\ (decimal_number 0 x < 2 ^ 64)%Z.

Definition proper_style (m : mode) (n v : string) (s : style) : Prop :=
  match s with
  | LongEqual => In n (map fst (documented m))
  | LongApart => In n (map fst (documented m)) /\ ~ option_like v
  | ShortJoined c => In (n, Some c) (documented m) /\ v <> "" /\ ~ exists r, v = String "=" r
  | ShortEqual c => In (n, Some c) (documented m)
  | ShortApart c => In (n, Some c) (documented m) /\ ~ option_like v
  end.

Definition proper (m : mode) (i : item) : Prop :=
  match i with
  | Give n v s => proper_style m n v s /\ exists x, stands_for v x /\ (n = "port" -> port_text x)
  | Turn n => In n (documented_switches m)
  | Name w => ~ option_like w
  end.

(** ** What a list of items says *)

Definition names (l : list item) : list string :=
  flat_map (fun i => match i with Name w => [w] | _ => [] end) l.

(** [x] is the last value given for [n]; nothing is given for [n]. *)
Definition last_given (l : list item) (n x : string) : Prop :=
  exists a v s b, l = (a ++ Give n v s :: b)%list /\ stands_for v x /\ forall v' s', ~ In (Give n v' s') b.
Definition not_given (l : list item) (n : string) : Prop := forall v s, ~ In (Give n v s) l.
Definition says (l : list item) (n default x : string) : Prop :=
  last_given l n x \/ not_given l n /\ x = default.

Definition user_default (m : mode) : string :=
  match m with Mysql => "root" | Postgres => "postgres" | Mssql => "sa" | SQLite3 => "" end.
Definition port_default (m : mode) : string :=
  match m with Mysql => "3306" | Postgres => "5432" | Mssql => "1433" | SQLite3 => "" end.

(** The password: what is typed if there is a prompt, else the variable, else the option. *)
Definition variable (m : mode) : string :=
  match m with Mysql => "MYSQL_PWD" | Postgres => "PGPASSWORD" | Mssql => "MSSQL_PWD" | SQLite3 => "" end.
Definition meant_password (m : mode) (env : string -> option string) (typed : option string) (l : list item) (p : string) : Prop :=
  (In (Turn "password-prompt") l /\ typed = Some p) \/
  (~ In (Turn "password-prompt") l /\
   (env (variable m) = Some p \/ env (variable m) = None /\ says l "password" "" p)).
End Meaning.

(** ** Where an address leads *)

(** The URL of a SQL Server, as net/url and the driver read it: as for PostgreSQL, but without a
    path; the database is the parameter of that name, in which a plus sign is a space. *)
Fixpoint spaces_for_plus (s : string) : string :=
  match s with
  | EmptyString => EmptyString
  | String c s' => String (if Ascii.eqb c "+" then " "%char else c) (spaces_for_plus s')
  end.

Fixpoint fields (c : ascii) (s : string) : list string :=
  match s with
  | EmptyString => [""]
  | String a s' =>
      if Ascii.eqb a c then "" :: fields c s'
      else match fields c s' with [] => [String a ""] | f :: r => String a f :: r end
  end.

Definition parameter (n : string) (query : string) : list (option string) :=
  flat_map (fun f => let (k, v) := cut "=" f in
                     if String.eqb k n
                     then [percent_decode (spaces_for_plus match v with Some x => x | None => "" end)]
                     else []) (fields "&" query).

Definition read_sqlserver_url (url : string) : option connection :=
  if negb (every (fun c => negb (control c)) url) then None
  else
    let (url, _) := cut "#" url in
    let (url, query) := cut "?" url in
    match url with
    | String "s" (String "q" (String "l" (String "s" (String "e" (String "r" (String "v" (String "e" (String "r"
        (String ":" (String "/" (String "/" rest))))))))))) =>
        let (authority, path) := cut "/" rest in
        match path, cut_last "@" authority with
        | None, Some (info, host) =>
            let (user, password) := cut ":" info in
            let password := match password with Some p => p | None => "" end in
            if every user_char info && every host_char host then
              match cut_last ":" host, percent_decode user, percent_decode password,
                    parameter "database" match query with Some q => q | None => "" end with
              | Some (host, port), Some u, Some w, [Some d] =>
                  if every decimal port then Some (mkConnection u w host port d) else None
              | _, _, _, _ => None
              end
            else None
        | _, _ => None
        end
    | _ => None
    end.

(** The server an address leads to; the MySQL driver connects to host and port over TCP. *)
Definition leads_to (a : address) : option connection :=
  match a with
  | MysqlAddress u p net addr d =>
      if String.eqb net "tcp" then
        match cut_last ":" addr with Some (h, port) => Some (mkConnection u p h port d) | None => None end
      else None
  | UrlAddress driver url =>
      if String.eqb driver "postgres" then read_url url
      else if String.eqb driver "sqlserver" then read_sqlserver_url url
      else None
  | FileAddress _ => None
  end.

(** ** What a command does *)

(** What is done to databases and with files, and the exit codes. *)
Definition doings (l : list act) : list event := flat_map (fun a => match a with Did e => [e] | _ => [] end) l.
Definition opened (l : list act) : list address := flat_map (fun a => match a with Open x => [x] | _ => [] end) l.
Definition codes (l : list act) : list Z :=
  flat_map (fun a => match a with Leave c => [c] | Did (Exit c) => [c] | _ => [] end) l.

(** The prompt for a password, if there is one. *)
Definition asks (l : list item) (t : list act) : Prop :=
  (In (Turn "password-prompt") l /\ t = [AskPassword]) \/ (~ In (Turn "password-prompt") l /\ t = []).
