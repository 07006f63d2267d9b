(** The four commands: /repo/cmd/mysqldef/mysqldef.go, /repo/cmd/psqldef/psqldef.go,
    /repo/cmd/mssqldef/mssqldef.go and /repo/cmd/sqlite3def/sqlite3def.go ([parseOptions] and
    [main]), the connection strings of /repo/adapter/mysql/mysql.go 107-120 and
    /repo/adapter/mssql/mssql.go 475-486, and [readFile] of /repo/sqldef.go 64-83.

    The library github.com/jessevdk/go-flags v1.4.0 is not part of the repository; [parse_args]
    is its documented behaviour with [flags.None] (no help flag of its own, no double dash, no
    ignored options) for tables in which no one-letter option is a switch.  Not modelled: shell
    completion ($GO_FLAGS_COMPLETION), the texts of error messages and of the help. *)
From Coq Require Import String Ascii List ZArith Bool.
From Verif Require Import GoStr SchemaParse Ast Generator Runner AdapterPostgres.
Import ListNotations.
Local Open Scope string_scope.

(** ** The tables of options *)

(** The members of the structures [opts]. *)
Inductive member :=
| MUser | MPassword | MHost | MPort | MSocket | MPrompt | MFile | MDryRun | MExport | MSkipDrop | MHelp | MVersion.

Definition member_eqb (a b : member) : bool :=
  match a, b with
  | MUser, MUser | MPassword, MPassword | MHost, MHost | MPort, MPort | MSocket, MSocket
  | MPrompt, MPrompt | MFile, MFile | MDryRun, MDryRun | MExport, MExport | MSkipDrop, MSkipDrop
  | MHelp, MHelp | MVersion, MVersion => true
  | _, _ => false
  end.

(** The Go type of a member: [string], [uint], [bool]. *)
Inductive member_type := TString | TUint | TBool.

Record flag := mkFlag { fl_member : member; fl_short : option ascii; fl_long : string; fl_type : member_type }.

(** The switches all four commands have. *)
Definition common_switches : list flag :=
  [mkFlag MDryRun None "dry-run" TBool; mkFlag MExport None "export" TBool;
   mkFlag MSkipDrop None "skip-drop" TBool; mkFlag MHelp None "help" TBool; mkFlag MVersion None "version" TBool].

(** mysqldef.go 22-35, psqldef.go 22-34, mssqldef.go 22-34, sqlite3def.go 20-27: the tags [short]
    and [long]. *)
Definition flags_of (m : mode) : list flag :=
  match m with
  | Mysql =>
      [mkFlag MUser (Some "u"%char) "user" TString; mkFlag MPassword (Some "p"%char) "password" TString;
       mkFlag MHost (Some "h"%char) "host" TString; mkFlag MPort (Some "P"%char) "port" TUint;
       mkFlag MSocket (Some "S"%char) "socket" TString; mkFlag MPrompt None "password-prompt" TBool;
       mkFlag MFile None "file" TString]
  | Postgres =>
      [mkFlag MUser (Some "U"%char) "user" TString; mkFlag MPassword (Some "W"%char) "password" TString;
       mkFlag MHost (Some "h"%char) "host" TString; mkFlag MPort (Some "p"%char) "port" TUint;
       mkFlag MPrompt None "password-prompt" TBool; mkFlag MFile (Some "f"%char) "file" TString]
  | Mssql =>
      [mkFlag MUser (Some "U"%char) "user" TString; mkFlag MPassword (Some "P"%char) "password" TString;
       mkFlag MHost (Some "h"%char) "host" TString; mkFlag MPort (Some "p"%char) "port" TUint;
       mkFlag MPrompt None "password-prompt" TBool; mkFlag MFile None "file" TString]
  | SQLite3 => [mkFlag MFile (Some "f"%char) "file" TString]
  end ++ common_switches.

(** The tags [default] of the same lines; a member without the tag keeps Go's zero value. *)
Definition default_text (m : mode) (x : member) : string :=
  match x, m with
  | MUser, Mysql => "root" | MUser, Postgres => "postgres" | MUser, Mssql => "sa"
  | MHost, (Mysql | Postgres | Mssql) => "127.0.0.1"
  | MFile, _ => "-"
  | _, _ => ""
  end.
Definition default_port (m : mode) : Z :=
  match m with Mysql => 3306 | Postgres => 5432 | Mssql => 1433 | SQLite3 => 0 end.

(** ** go-flags *)

(** parser_private/[argumentIsOption]: a dash and then something that is not a dash, or two
    dashes and then something that is not a dash. *)
Definition argument_is_option (a : string) : bool :=
  match a with
  | String "-" (String "-" (String c _)) => negb (Ascii.eqb c "-")
  | String "-" (String c _) => negb (Ascii.eqb c "-")
  | _ => false
  end.

Definition find_long (m : mode) (name : string) : option flag :=
  find (fun f => String.eqb (fl_long f) name) (flags_of m).
Definition find_short (m : mode) (c : ascii) : option flag :=
  find (fun f => match fl_short f with Some d => Ascii.eqb d c | None => false end) (flags_of m).

(** [stripOptionPrefix], [splitOption] and [splitShortConcatArg]: the option an argument names
    and the value attached to it.  A long option is separated from its value by the first
    equals sign; the letter of a short one is followed by an equals sign and the value, or
    directly by the value. *)
Definition named_option (m : mode) (a : string) : option (flag * option string) :=
  match a with
  | String "-" (String "-" rest) =>
      match split_first "=" rest with
      | Some (name, v) => option_map (fun f => (f, Some v)) (find_long m name)
      | None => option_map (fun f => (f, None)) (find_long m rest)
      end
  | String "-" (String c rest) =>
      option_map (fun f => (f, match rest with
                               | EmptyString => None
                               | String "=" v => Some v
                               | v => Some v
                               end)) (find_short m c)
  | _ => None
  end.

(** [strconv.ParseUint(s, 10, 64)]. *)
Definition digit_of (c : ascii) : option Z :=
  let n := Z.of_N (N_of_ascii c) in if ((48 <=? n) && (n <=? 57))%Z then Some (n - 48)%Z else None.
Fixpoint uint_digits (acc : Z) (s : string) : option Z :=
  match s with
  | EmptyString => Some acc
  | String c s' => match digit_of c with
                   | Some d => if (10 * acc + d <? 2 ^ 64)%Z then uint_digits (10 * acc + d) s' else None
                   | None => None
                   end
  end.
Definition parse_uint (s : string) : option Z :=
  match s with EmptyString => None | _ => uint_digits 0 s end.

(** A value that is stored in a member. *)
Inductive value := VText (s : string) | VPort (z : Z) | VTrue.

Section Flags.
(** [strconv.Unquote] of the Go library, for texts that begin with a double quote; [None] is an
    error.  Nothing is assumed of it. *)
Variable unquote : string -> option string.

(** [unquoteIfPossible]. *)
Definition unquote_if_possible (s : string) : option string :=
  match s with
  | String c _ => if Ascii.eqb c (ascii_of_nat 34) then unquote s else Some s
  | EmptyString => Some s
  end.

(** [Option.Set] and [convert]. *)
Definition set_value (f : flag) (raw : string) : option value :=
  match unquote_if_possible raw with
  | None => None
  | Some v => match fl_type f with
              | TUint => option_map VPort (parse_uint v)
              | _ => Some (VText v)
              end
  end.

(** [Parser.ParseArgs]: the members set, in the order they are set, and the arguments left.
    [None] is any error. *)
Fixpoint parse_args (m : mode) (args : list string) : option (list (member * value) * list string) :=
  match args with
  | [] => Some ([], [])
  | a :: rest =>
      if argument_is_option a then
        match named_option m a with
        | None => None
        | Some (f, attached) =>
            match fl_type f, attached, rest with
            | TBool, None, _ =>
                option_map (fun r => ((fl_member f, VTrue) :: fst r, snd r)) (parse_args m rest)
            | TBool, Some _, _ => None
            | _, Some v, _ =>
                match set_value f v with
                | Some x => option_map (fun r => ((fl_member f, x) :: fst r, snd r)) (parse_args m rest)
                | None => None
                end
            | _, None, v :: rest' =>
                if argument_is_option v then None
                else match set_value f v with
                     | Some x => option_map (fun r => ((fl_member f, x) :: fst r, snd r)) (parse_args m rest')
                     | None => None
                     end
            | _, None, [] => None
            end
        end
      else option_map (fun r => (fst r, a :: snd r)) (parse_args m rest)
  end.
End Flags.

(** The structure [opts] after parsing: the last value of a member counts. *)
Fixpoint last_value (x : member) (l : list (member * value)) : option value :=
  match l with
  | [] => None
  | (y, v) :: r => match last_value x r with
                   | Some w => Some w
                   | None => if member_eqb y x then Some v else None
                   end
  end.
Definition opts_text (m : mode) (l : list (member * value)) (x : member) : string :=
  match last_value x l with Some (VText s) => s | _ => default_text m x end.
Definition opts_port (m : mode) (l : list (member * value)) : Z :=
  match last_value MPort l with Some (VPort z) => z | _ => default_port m end.
Definition opts_bool (l : list (member * value)) (x : member) : bool :=
  match last_value x l with Some VTrue => true | _ => false end.

(** ** The machine the command runs on *)

(** Standard input: a terminal, with what [term.ReadPassword] reads from it ([None]: an error);
    another character device, of which [ReadPassword] makes an error; or a file or pipe with
    its contents ([None]: an error).  A closed standard input, of which [Stat] gives no
    information and line 69 of sqldef.go a panic, is not modelled. *)
Inductive stdin := Terminal (typed : option string) | Device | Piped (contents : option string).

Record machine := mkMachine {
  mc_env : string -> option string;      (* os.LookupEnv *)
  mc_found : string -> bool;             (* os.Stat gives something else than "does not exist" *)
  mc_file : string -> option string;     (* ioutil.ReadFile *)
  mc_stdin : stdin;
  mc_unquote : string -> option string }.

Definition read_password (mc : machine) : option string :=
  match mc_stdin mc with Terminal t => t | _ => None end.

(** sqldef.go 64-83 [readFile]. *)
Definition read_file (mc : machine) (path : string) : option string :=
  if String.eqb path "-" then
    match mc_stdin mc with Piped c => c | _ => None end
  else mc_file mc path.

(** ** Connections *)

(** What is given to [sql.Open]: the configuration of the MySQL driver (its [FormatDSN] and the
    reading of it are the driver's), a URL for PostgreSQL and SQL Server, a file name. *)
Inductive address :=
| MysqlAddress (user passwd net addr db_name : string)
| UrlAddress (driver url : string)
| FileAddress (name : string).

(** mysql.go 107-120 [mysqlBuildDSN]. *)
Definition mysql_address (c : config) : address :=
  if String.eqb (cf_socket c) "" then
    MysqlAddress (cf_user c) (cf_password c) "tcp" (cf_host c ++ ":" ++ show_Z (cf_port c)) (cf_database c)
  else MysqlAddress (cf_user c) (cf_password c) "unix" (cf_socket c) (cf_database c).

(** [net/url]: escaping of user information ([encodeUserPassword]) and of a host ([encodeHost]),
    byte by byte. *)
Fixpoint escape (keep : ascii -> bool) (s : string) : string :=
  match s with
  | EmptyString => EmptyString
  | String c s' =>
      if keep c then String c (escape keep s')
      else let n := N_of_ascii c in
           String "%" (String (hex_digit (n / 16)) (String (hex_digit (n mod 16)) (escape keep s')))
  end.
Definition user_unescaped (c : ascii) : bool := unreserved c || has_ascii c "$&+,;=".
Definition host_unescaped (c : ascii) : bool :=
  unreserved c || has_ascii c "!$&'()*+,;=:[]<>" || Ascii.eqb c (ascii_of_nat 34).

(** [url.Userinfo.String] of [url.UserPassword]. *)
Definition userinfo (user password : string) : string :=
  if String.eqb user "" && String.eqb password "" then ""
  else escape user_unescaped user ++ ":" ++ escape user_unescaped password.

(** mssql.go 475-486 [mssqlBuildDSN], with [url.URL.String] and [url.Values.Encode]. *)
Definition mssql_url (c : config) : string :=
  "sqlserver://" ++ userinfo (cf_user c) (cf_password c) ++ "@" ++
  escape host_unescaped (cf_host c ++ ":" ++ show_Z (cf_port c)) ++ "?database=" ++ query_escape (cf_database c).

(** The [NewDatabase] of the four adapters; sqlite3.go 15-18 opens the database by its name. *)
Definition address_of (m : mode) (mc : machine) (c : config) : address :=
  match m with
  | Mysql => mysql_address c
  | Postgres => UrlAddress "postgres" (build_dsn (mc_env mc "PGSSLMODE") (mc_env mc "PGSSLROOTCERT") c)
  | Mssql => UrlAddress "sqlserver" (mssql_url c)
  | SQLite3 => FileAddress (cf_database c)
  end.

(** ** The commands *)

Inductive act :=
| ShowHelp | ShowVersion | NoDatabase | ManyDatabases (names : list string)
| AskPassword
| Open (a : address)
| Did (e : event)
| Leave (code : Z).

(** How [parseOptions] ends: the process exits, or a configuration and options are returned
    after the acts. *)
Inductive parsed := Exited (l : list act) | Returned (l : list act) (c : config) (o : options).

Definition password_variable (m : mode) : string :=
  match m with Mysql => "MYSQL_PWD" | Postgres => "PGPASSWORD" | Mssql => "MSSQL_PWD" | SQLite3 => "" end.

(** [int(opts.Port)] on a 64-bit machine. *)
Definition int_of_uint (z : Z) : Z := if (z <? 2 ^ 63)%Z then z else (z - 2 ^ 64)%Z.

(** mysqldef.go 72-94, psqldef.go 71-95, mssqldef.go 71-92: the password and the configuration;
    psqldef.go 92-94 and sqlite3def.go 67-69: [Socket] is set to [Host] if there is such a file.
    sqlite3def.go 64-66 sets no other member than [DbName]. *)
Definition password_of (m : mode) (mc : machine) (l : list (member * value)) : string :=
  match mc_env mc (password_variable m) with Some p => p | None => opts_text m l MPassword end.

Definition config_of (m : mode) (mc : machine) (l : list (member * value)) (database password : string) : config :=
  let host := opts_text m l MHost in
  match m with
  | SQLite3 => mkConfig database "" "" "" 0 ""
  | Mysql => mkConfig database (opts_text m l MUser) password host (int_of_uint (opts_port m l)) (opts_text m l MSocket)
  | Mssql => mkConfig database (opts_text m l MUser) password host (int_of_uint (opts_port m l)) ""
  | Postgres => mkConfig database (opts_text m l MUser) password host (int_of_uint (opts_port m l))
                  (if mc_found mc host then host else "")
  end.

(** mysqldef.go 21-95, psqldef.go 21-96, mssqldef.go 21-93, sqlite3def.go 19-71 [parseOptions]. *)
Definition parse_options (m : mode) (mc : machine) (args : list string) : parsed :=
  match parse_args (mc_unquote mc) m args with
  | None => Exited [Leave 1]
  | Some (l, rest) =>
      if opts_bool l MHelp then Exited [ShowHelp; Leave 0]
      else if opts_bool l MVersion then Exited [ShowVersion; Leave 0]
      else match rest with
           | [] => Exited [NoDatabase; ShowHelp; Leave 1]
           | _ :: _ :: _ => Exited [ManyDatabases rest; ShowHelp; Leave 1]
           | [database] =>
               let o := mkOptions (opts_text m l MFile) (opts_bool l MDryRun) (opts_bool l MExport) (opts_bool l MSkipDrop) in
               if opts_bool l MPrompt then
                 match read_password mc with
                 | None => Exited [AskPassword; Leave 1]
                 | Some p => Returned [AskPassword] (config_of m mc l database p) o
                 end
               else Returned [] (config_of m mc l database (password_of m mc l)) o
           end
  end.

(** The database behind an address, as [Runner] sees it, with [readFile] on this machine. *)
Definition on_machine (mc : machine) (w : world) : world :=
  mkWorld (w_table_names w) (w_dump_table w) (w_views w) (w_triggers w) (fun _ f => read_file mc f)
    (w_begin w) (w_exec w) (w_commit w) (w_rollback w).

(** mysqldef.go 97-107, psqldef.go 98-108, mssqldef.go 95-105, sqlite3def.go 73-83 [main]; the
    databases answer through [connect] ([None]: [sql.Open] returns an error). *)
Definition main (connect : address -> option world) (parse1 : mode -> string -> res ddl)
    (m : mode) (mc : machine) (args : list string) : list act :=
  match parse_options m mc args with
  | Exited l => l
  | Returned l c o =>
      l ++ Open (address_of m mc c) ::
      match connect (address_of m mc c) with
      | None => [Leave 1]
      | Some w => map Did (run (on_machine mc w) parse1 m o)
      end
  end.
