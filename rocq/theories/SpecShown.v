(** What PostgreSQL shows of a database in its catalogue, and the same database as SpecPostgres
    has it.  A [shown_database] is a description of a database; [catalogue] is what the catalogue
    relations hold of it (Catalog.v), in the words of PostgreSQL's [pg_get_constraintdef],
    [pg_get_indexdef], [pg_get_expr] and [pg_get_viewdef]; [ideal] is the database itself.
    Nothing of sqldef's exporter or parser is used; from the tokenizer only the list of keywords. *)
From Coq Require Import String Ascii List ZArith Bool SpecFloat.
From Verif Require Import GoStr GoStrFacts Ast Keywords SpecPlan Catalog SpecMysql SpecDatabase SpecPostgres.
Import ListNotations.
Local Open Scope string_scope.

(** ** Names *)
Definition name_start (c : ascii) : bool :=
  let n := nat_of_ascii c in (Nat.leb 97 n && Nat.leb n 122) || Nat.eqb n 95.
Definition name_char (c : ascii) : bool :=
  name_start c || let n := nat_of_ascii c in Nat.leb 48 n && Nat.leb n 57.
Definition is_keyword (n : string) : bool := existsb (fun k => String.eqb (fst k) n) keywords.

(** A name that can be written without quotes: small letters, digits and underscores, and no
    keyword of sqldef. *)
Definition simple_name (n : string) : bool :=
  match n with String c _ => name_start c | EmptyString => false end && all_chars name_char n &&
  negb (is_keyword n) && negb (String.eqb n "dual").

(** A name that can be written in quotes in one line. *)
Definition quotable_char (c : ascii) : bool :=
  negb (Ascii.eqb c """") && negb (Ascii.eqb c ";") && Nat.leb 32 (nat_of_ascii c).
Definition quotable (n : string) : bool := negb (String.eqb n "") && all_chars quotable_char n.
(** The export cuts blanks from the names of columns and indexes. *)
Definition no_blank_edge (n : string) : bool :=
  match first_char n with Some c => negb (Ascii.eqb c " ") | None => false end &&
  match last_char n with Some c => negb (Ascii.eqb c " ") | None => false end.

(** A text in quotes: quotes inside are written twice. *)
Fixpoint quote_twice (s : string) : string :=
  match s with
  | EmptyString => EmptyString
  | String c s' => if Ascii.eqb c "'" then String c (String c (quote_twice s')) else String c (quote_twice s')
  end.
Definition text_char (c : ascii) : bool :=
  negb (Ascii.eqb c "\") && negb (Ascii.eqb c ";") && Nat.leb 32 (nat_of_ascii c).
(** One that sqldef writes as PostgreSQL does. *)
Definition plain_text_char (c : ascii) : bool :=
  text_char c && negb (Ascii.eqb c "'") && negb (Ascii.eqb c """") && Nat.leb (nat_of_ascii c) 126.

(** ** Expressions *)
Inductive comparison := CmpEq | CmpNe | CmpLt | CmpLe | CmpGt | CmpGe.
Inductive ex :=
| EColumn (n : string)
| EField (t n : string)
| EInt (z : Z)
| EText (s : string)                       (* 's'::text *)
| EString (s : string)                     (* 's', as SQL Server shows it *)
| EAsText (n : string)                     (* (n)::text *)
| EGroup (e : ex)
| ECompare (op : comparison) (a b : ex)
| ENull (e : ex)
| ENotNull (e : ex)
| EAnd (a b : ex)
| EOr (a b : ex).

Definition ex_level (e : ex) : nat :=
  match e with ECompare _ _ _ | ENull _ | ENotNull _ => 1 | EAnd _ _ => 2 | EOr _ _ => 3 | _ => 0 end.

(** Parentheses are where they are needed; numbers are not negative. *)
Fixpoint ex_ok (e : ex) : bool :=
  match e with
  | EColumn n | EAsText n => simple_name n
  | EField t n => simple_name t && simple_name n
  | EInt z => (0 <=? z)%Z
  | EText s | EString s => all_chars plain_text_char s
  | EGroup e => ex_ok e
  | ECompare _ a b => Nat.eqb (ex_level a) 0 && Nat.eqb (ex_level b) 0 && ex_ok a && ex_ok b
  | ENull e | ENotNull e => Nat.eqb (ex_level e) 0 && ex_ok e
  | EAnd a b => Nat.leb (ex_level a) 2 && Nat.leb (ex_level b) 1 && ex_ok a && ex_ok b
  | EOr a b => Nat.leb (ex_level a) 3 && Nat.leb (ex_level b) 2 && ex_ok a && ex_ok b
  end.
Fixpoint ex_depth (e : ex) : nat :=
  match e with
  | EAsText _ => 1
  | EGroup e => S (ex_depth e)
  | ECompare _ a b | EAnd a b | EOr a b => Nat.max (ex_depth a) (ex_depth b)
  | ENull e | ENotNull e => ex_depth e
  | _ => 0
  end.

Section Shown.
(** Which names PostgreSQL writes in quotes. *)
Variable quoted : string -> bool.
Definition ident (n : string) : string := if quoted n then """" ++ n ++ """" else n.

Definition pg_operator (o : comparison) : string :=
  match o with CmpEq => "=" | CmpNe => "<>" | CmpLt => "<" | CmpLe => "<=" | CmpGt => ">" | CmpGe => ">=" end.
Fixpoint pg_text (e : ex) : string :=
  match e with
  | EColumn n => ident n
  | EField t n => ident t ++ "." ++ ident n
  | EInt z => show_Z z
  | EText s => "'" ++ s ++ "'::text"
  | EString s => "'" ++ s ++ "'"
  | EAsText n => "(" ++ ident n ++ ")::text"
  | EGroup e => "(" ++ pg_text e ++ ")"
  | ECompare o a b => pg_text a ++ " " ++ pg_operator o ++ " " ++ pg_text b
  | ENull e => pg_text e ++ " IS NULL"
  | ENotNull e => pg_text e ++ " IS NOT NULL"
  | EAnd a b => pg_text a ++ " AND " ++ pg_text b
  | EOr a b => pg_text a ++ " OR " ++ pg_text b
  end.

(** The same expression in the spelling of sqldef. *)
Definition sql_operator (o : comparison) : string := match o with CmpNe => "!=" | _ => pg_operator o end.
Fixpoint sql_text (e : ex) : string :=
  match e with
  | EColumn n => n
  | EField t n => t ++ "." ++ n
  | EInt z => show_Z z
  | EText s => "convert('" ++ s ++ "', text)"
  | EString s => "'" ++ s ++ "'"
  | EAsText n => "convert((" ++ n ++ "), text)"
  | EGroup e => "(" ++ sql_text e ++ ")"
  | ECompare o a b => sql_text a ++ " " ++ sql_operator o ++ " " ++ sql_text b
  | ENull e => sql_text e ++ " is null"
  | ENotNull e => sql_text e ++ " is not null"
  | EAnd a b => sql_text a ++ " and " ++ sql_text b
  | EOr a b => sql_text a ++ " or " ++ sql_text b
  end.

(** ** Types *)
Inductive base_type :=
| BWord (w : string)
| BDouble
| BVarying (n : option Z)
| BChar (n : Z)
| BBit (n : Z).
Inductive shown_type :=
| TBase (b : base_type)
| TUser (w : string)                       (* of an extension *)
| TArray (b : base_type)
| TSerial (w : string)
| TTimestamp (zone : bool)
| TTime (zone : bool).

Definition integer_words : list string := ["smallint"; "integer"; "bigint"].
Definition one_word_types : list string :=
  (integer_words ++ ["boolean"; "text"; "uuid"; "json"; "jsonb"; "date"; "real"; "numeric"; "money"; "point"])%list.
Definition length_ok (z : Z) : bool := (0 <? z)%Z && (z <? 2 ^ 62)%Z.
Definition base_ok (b : base_type) : bool :=
  match b with
  | BWord w => mem w one_word_types
  | BVarying (Some n) | BChar n | BBit n => length_ok n
  | _ => true
  end.
Definition type_ok (t : shown_type) : bool :=
  match t with
  | TBase b | TArray b => base_ok b
  | TUser w => mem w ["citext"]
  | TSerial w => mem w integer_words
  | _ => true
  end.

Definition base_name (b : base_type) : string :=
  match b with
  | BWord w => w | BDouble => "double precision" | BVarying _ => "character varying" | BChar _ => "character" | BBit _ => "bit"
  end.
Definition base_length (b : base_type) : option Z :=
  match b with BVarying n => n | BChar n | BBit n => Some n | _ => None end.
(** [information_schema.columns.data_type], [character_maximum_length], [format_type]. *)
Definition zone_words (zone : bool) : string := if zone then " with time zone" else " without time zone".
Definition data_type (t : shown_type) : string :=
  match t with
  | TBase b => base_name b | TUser _ => "USER-DEFINED" | TArray _ => "ARRAY" | TSerial w => w
  | TTimestamp z => "timestamp" ++ zone_words z | TTime z => "time" ++ zone_words z
  end.
Definition max_length (t : shown_type) : option Z := match t with TBase b => base_length b | _ => None end.
Definition base_format (b : base_type) : string :=
  base_name b ++ match base_length b with Some n => "(" ++ show_Z n ++ ")" | None => "" end.
Definition type_format (t : shown_type) : string :=
  match t with
  | TBase b => base_format b | TUser w => w | TArray b => base_format b ++ "[]" | TSerial w => w
  | TTimestamp z => "timestamp" ++ zone_words z | TTime z => "time" ++ zone_words z
  end.

(** ** Defaults *)
Inductive shown_default :=
| DInt (z : Z)
| DText (s ty : string)
| DBool (b : bool)
| DCurrentTimestamp
| DNow.
Definition text_types : list string := ["text"; "character varying"; "bpchar"].
Definition default_ok (d : shown_default) : bool :=
  match d with
  | DInt z => (0 <=? z)%Z && (z <? 2 ^ 62)%Z
  | DText s ty => all_chars text_char s && mem ty text_types
  | _ => true
  end.
Definition default_text (d : shown_default) : string :=
  match d with
  | DInt z => show_Z z
  | DText s ty => "'" ++ quote_twice s ++ "'::" ++ ty
  | DBool b => if b then "true" else "false"
  | DCurrentTimestamp => "CURRENT_TIMESTAMP"
  | DNow => "now()"
  end.
Definition integer_value (z : Z) : value := mkValue VInt (show_Z z) "" z (S754_zero false) false.
Definition default_value (d : shown_default) : value :=
  match d with
  | DInt z => integer_value z
  | DText s _ => mkValue VStr s s 0 (S754_zero false) false
  | DBool b => mkValue VBool (if b then "true" else "false") "" 0 (S754_zero false) false
  | DCurrentTimestamp => mkValue VValArg "current_timestamp" "" 0 (S754_zero false) false
  | DNow => mkValue VBit "now" "" 0 (S754_zero false) false
  end.

(** ** Columns *)
Record shown_check := mkShownCheck { sk_name : string; sk_expr : ex; sk_no_inherit : bool }.
Record shown_column := mkShownColumn {
  sc_name : string; sc_type : shown_type; sc_required : bool; sc_default : option shown_default;
  sc_always : option bool;                 (* identity: ALWAYS or BY DEFAULT *)
  sc_check : option shown_check }.

Definition ex_fits (e : ex) : bool := ex_ok e && Nat.ltb (ex_depth e) 190.
Definition column_ok (c : shown_column) : bool :=
  quotable (sc_name c) && no_blank_edge (sc_name c) &&
  (* identity columns are NOT NULL *)
  match sc_always c with Some _ => sc_required c | None => true end && type_ok (sc_type c) &&
  match sc_default c with Some d => default_ok d && match sc_type c with TSerial _ => false | _ => true end | None => true end &&
  match sc_check c with Some k => ex_fits (sk_expr k) | None => true end.

Definition behavior (always : bool) : string := if always then "ALWAYS" else "BY DEFAULT".
Definition catalogue_column (sequence : string) (c : shown_column) : Catalog.pg_column :=
  mkPgColumn (sc_name c)
    match sc_type c with
    | TSerial _ => Some ("nextval('" ++ sequence ++ "'::regclass)")
    | _ => option_map default_text (sc_default c)
    end
    (negb (sc_required c)) (max_length (sc_type c)) (data_type (sc_type c)) (type_format (sc_type c))
    (option_map behavior (sc_always c)).

Definition serial_name (w : string) : string :=
  if String.eqb w "smallint" then "smallserial" else if String.eqb w "bigint" then "bigserial" else "serial".
Definition ideal_column (c : shown_column) : column :=
  let typed name array length zone :=
    mkColumn (sc_name c) 0 name false (if sc_required c then Some true else None) false array
      (option_map (fun d => mkDefault (Some (default_value d)) "") (sc_default c)) (option_map integer_value length) None
      (option_map (fun k => mkCheck (sql_text (sk_expr k)) (sk_name k) false) (sc_check c))
      match sc_check c with Some k => sk_no_inherit k | None => false end
      "" "" zone KeyNone None [] "" (option_map (fun a => mkIdentity (behavior a) false) (sc_always c)) None in
  match sc_type c with
  | TBase b => typed (base_name b) false (base_length b) false
  | TUser w => typed w false None false
  | TArray b => typed (base_name b) true (base_length b) false
  | TSerial w => typed (serial_name w) false None false
  | TTimestamp z => typed "timestamp" false None z
  | TTime z => typed "time" false None z
  end.

(** ** Indexes, foreign keys, policies *)
Record shown_index := mkShownIndex {
  six_name : string; six_unique : bool; six_columns : list (string * bool) (* descending *); six_where : option ex }.
Definition index_ok (i : shown_index) : bool :=
  quotable (six_name i) && no_blank_edge (six_name i) && (quoted (six_name i) || simple_name (six_name i)) &&
  negb (Nat.eqb (List.length (six_columns i)) 0) &&
  forallb (fun c : string * bool => quotable (fst c) && (quoted (fst c) || simple_name (fst c))) (six_columns i) &&
  match six_where i with Some e => ex_fits e | None => true end.
Definition index_def (schema table : string) (i : shown_index) : string :=
  "CREATE " ++ (if six_unique i then "UNIQUE " else "") ++ "INDEX " ++ ident (six_name i) ++ " ON " ++
  schema ++ "." ++ table ++ " USING btree (" ++
  join ", " (map (fun c : string * bool => ident (fst c) ++ (if snd c then " DESC" else "")) (six_columns i)) ++ ")" ++
  match six_where i with Some e => " WHERE (" ++ pg_text e ++ ")" | None => "" end.
Definition ideal_index (i : shown_index) : index :=
  mkIndex (six_name i) "" (map (fun c : string * bool => mkIndexColumn (fst c) None (if snd c then "desc" else "asc")) (six_columns i))
    false (six_unique i) match six_where i with Some e => sql_text e | None => "" end [] false "" "" [].

Inductive action := NoAction | Restrict | Cascade | SetNull.
Definition action_words (a : action) : string :=
  match a with NoAction => "NO ACTION" | Restrict => "RESTRICT" | Cascade => "CASCADE" | SetNull => "SET NULL" end.
Record shown_fk := mkShownFk {
  sf_name : string; sf_column : string; sf_schema : string; sf_table : string; sf_ref_column : string;
  sf_update : action; sf_delete : action }.
Definition fk_ok (f : shown_fk) : bool :=
  simple_name (sf_name f) && simple_name (sf_column f) && simple_name (sf_schema f) && simple_name (sf_table f) &&
  simple_name (sf_ref_column f).
Definition ideal_fk (f : shown_fk) : foreign_key :=
  mkForeignKey (sf_name f) "" [sf_column f] (sf_table f) [sf_ref_column f] (action_words (sf_delete f))
    (action_words (sf_update f)) false.

Inductive command := ForAll | ForSelect | ForInsert | ForUpdate | ForDelete.
Definition command_word (c : command) : string :=
  match c with ForAll => "ALL" | ForSelect => "SELECT" | ForInsert => "INSERT" | ForUpdate => "UPDATE" | ForDelete => "DELETE" end.
Record shown_policy := mkShownPolicy {
  sp_name : string; sp_permissive : bool; sp_command : command; sp_roles : list string;
  sp_using : option ex; sp_check : option ex }.
Definition policy_ok (p : shown_policy) : bool :=
  simple_name (sp_name p) && negb (Nat.eqb (List.length (sp_roles p)) 0) && forallb simple_name (sp_roles p) &&
  match sp_using p with Some e => ex_fits e | None => true end &&
  match sp_check p with Some e => ex_fits e | None => true end.
Definition grouped (t : string) : string := "(" ++ t ++ ")".
Definition catalogue_policy (p : shown_policy) : pg_policy :=
  mkPgPolicy (sp_name p) (if sp_permissive p then "PERMISSIVE" else "RESTRICTIVE") ("{" ++ join "," (sp_roles p) ++ "}")
    (command_word (sp_command p)) (option_map (fun e => grouped (pg_text e)) (sp_using p))
    (option_map (fun e => grouped (pg_text e)) (sp_check p)).
Definition ideal_policy (p : shown_policy) : policy :=
  let condition o := match o with Some e => grouped (sql_text e) | None => "" end in
  mkPolicy (sp_name p) "" (if sp_permissive p then "permissive" else "restrictive") (to_lower (command_word (sp_command p)))
    (sp_roles p) (condition (sp_using p)) (condition (sp_check p)).

(** ** Tables *)
Record shown_table := mkShownTable {
  st_schema : string; st_name : string; st_columns : list shown_column;
  st_pk : option (string * list string);
  st_indexes : list shown_index;
  st_uniques : list string;                (* the indexes of UNIQUE constraints *)
  st_fks : list shown_fk; st_policies : list shown_policy }.

Definition key_index (k : string * list string) : shown_index :=
  mkShownIndex (fst k) true (map (fun c => (c, false)) (snd k)) None.
Definition constraint (name : string) (kind : con_kind) (columns : list string) (def : string) : pg_constraint :=
  mkPgConstraint name kind columns def "" "" [] "" "".
Definition catalogue_constraints (t : shown_table) : list pg_constraint  := (
  match st_pk t with Some (k, l) => [constraint k ConPrimary l ""] | None => [] end ++
  map (fun i => constraint (six_name i) ConUnique (map fst (six_columns i)) "")
    (filter (fun i => mem (six_name i) (st_uniques t)) (st_indexes t)) ++
  flat_map (fun c => match sc_check c with
                     | Some k => [constraint (sk_name k) ConCheck [sc_name c]
                                    ("CHECK (" ++ pg_text (sk_expr k) ++ ")" ++ (if sk_no_inherit k then " NO INHERIT" else ""))%string]
                     | None => []
                     end) (st_columns t) ++
  map (fun f => mkPgConstraint (sf_name f) ConForeign [sf_column f] "" (sf_schema f) (sf_table f) [sf_ref_column f]
                  (action_words (sf_update f)) (action_words (sf_delete f))) (st_fks t))%list.
Definition catalogue_table (t : shown_table) : Catalog.pg_table :=
  mkPgTable (st_schema t) (st_name t)
    (map (fun c => catalogue_column (st_name t ++ "_" ++ sc_name c ++ "_seq") c) (st_columns t))
    (catalogue_constraints t)
    (map (fun i => mkPgIndex (six_name i) (index_def (st_schema t) (st_name t) i))
       (st_indexes t ++ match st_pk t with Some k => [key_index k] | None => [] end)%list)
    (map catalogue_policy (st_policies t)).

Definition ideal_table (t : shown_table) : pg_tab :=
  mkPg (st_schema t ++ "." ++ st_name t) (map ideal_column (st_columns t)) (st_pk t) (map ideal_index (st_indexes t))
    (st_uniques t) (map ideal_fk (st_fks t)) (map ideal_policy (st_policies t)).

Definition unique_columns (t : shown_table) : list string :=
  flat_map (fun i => if mem (six_name i) (st_uniques t) then map fst (six_columns i) else []) (st_indexes t).
Definition table_ok (t : shown_table) : bool :=
  simple_name (st_schema t) && simple_name (st_name t) &&
  negb (Nat.eqb (List.length (st_columns t)) 0) && forallb column_ok (st_columns t) && distinct (map sc_name (st_columns t)) &&
  (* a column has one UNIQUE constraint at most *)
  distinct (unique_columns t) &&
  match st_pk t with
  | Some k => index_ok (key_index k)
  | None => true
  end &&
  forallb index_ok (st_indexes t) && forallb fk_ok (st_fks t) && forallb policy_ok (st_policies t).

(** ** Views: columns of one table *)

(** Runs of blanks, in texts too, are exported as one blank. *)
Fixpoint single_blanks (after : bool) (s : string) : bool :=
  match s with
  | EmptyString => true
  | String c s' => if Ascii.eqb c " " then negb after && single_blanks true s' else single_blanks false s'
  end.
Fixpoint ex_single (e : ex) : bool :=
  match e with
  | EText s | EString s => single_blanks false s
  | EGroup e | ENull e | ENotNull e => ex_single e
  | ECompare _ a b | EAnd a b | EOr a b => ex_single a && ex_single b
  | _ => true
  end.
Record shown_view := mkShownView {
  sv_schema : string; sv_view : string; sv_columns : list (string * string); sv_from : string; sv_where : option ex }.
Definition view_ok (v : shown_view) : bool :=
  simple_name (sv_schema v) && simple_name (sv_view v) && simple_name (sv_from v) &&
  negb (Nat.eqb (List.length (sv_columns v)) 0) && forallb (fun c : string * string => simple_name (fst c) && simple_name (snd c)) (sv_columns v) &&
  match sv_where v with Some e => ex_fits e && ex_single e | None => true end.
Definition catalogue_view (v : shown_view) : pg_view :=
  mkPgView (sv_schema v) (sv_view v)
    (" SELECT " ++ join ("," ++ nl ++ "    ") (map (fun c : string * string => ident (fst c) ++ "." ++ ident (snd c)) (sv_columns v)) ++
     nl ++ "   FROM " ++ ident (sv_from v) ++
     match sv_where v with Some e => nl ++ "  WHERE (" ++ pg_text e ++ ")" | None => "" end ++ ";").
Definition ideal_view (v : shown_view) : view :=
  mkView "" (sv_view v)
    ("select " ++ join ", " (map (fun c : string * string => fst c ++ "." ++ snd c) (sv_columns v)) ++ " from " ++ sv_from v ++
     match sv_where v with Some e => " where (" ++ sql_text e ++ ")" | None => "" end).

(** ** Databases *)
Record shown_database := mkShown { sd_tables : list shown_table; sd_views : list shown_view }.
Definition catalogue (d : shown_database) : pg_database :=
  mkPgDatabase (map catalogue_table (sd_tables d)) (map catalogue_view (sd_views d)).
Definition ideal (d : shown_database) : database pg_tab :=
  mkDatabase (map ideal_table (sd_tables d)) (map ideal_view (sd_views d)) [].

(** No two tables, in any schemas, have the same name, and so for views and constraints. *)
Definition database_readable (d : shown_database) : bool :=
  forallb table_ok (sd_tables d) && forallb view_ok (sd_views d) &&
  distinct (map st_name (sd_tables d)) && distinct (map sv_view (sd_views d)) &&
  distinct (map con_name (flat_map catalogue_constraints (sd_tables d))).
End Shown.
