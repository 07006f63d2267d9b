(** Model of /repo/schema/parser.go: from the parser's result (SqlAst.v) to the planner's
    statements (Ast.v).  [castBool] (14-26) prints a bool and parses it back; here it is the
    identity.  Nil dereferences are [Panic]. *)
From Coq Require Import String Ascii List ZArith Bool.
From Verif Require Import GoStr GoNum Ast Generator Lexer Formatter Numerals SqlAst.
Import ListNotations.
Local Open Scope string_scope.

(** [strings.ToUpper], ASCII range. *)
Definition upper_ascii (a : ascii) : ascii :=
  let n := N_of_ascii a in
  if (97 <=? n)%N && (n <=? 122)%N then ascii_of_N (n - 32) else a.

Fixpoint to_upper (s : string) : string :=
  match s with
  | EmptyString => EmptyString
  | String a s' => String (upper_ascii a) (to_upper s')
  end.

(** [strings.TrimLeft(s, cutset)]: drops leading characters that are in the set. *)
Fixpoint has_ascii (c : ascii) (s : string) : bool :=
  match s with
  | EmptyString => false
  | String a s' => Ascii.eqb a c || has_ascii c s'
  end.

Fixpoint trim_left_set (cutset s : string) : string :=
  match s with
  | EmptyString => EmptyString
  | String a s' => if has_ascii a cutset then trim_left_set cutset s' else s
  end.

(** 78-92: [parseLength]. *)
Definition parse_length (v : option sql_val) : res (option Z) :=
  match v with
  | None => Ok None
  | Some v =>
      match sv_type v with
      | IntVal => let (z, ok) := atoi (sv_val v) in
                  if ok then Ok (Some z) else Err (EParse "strconv.Atoi")
      | _ => Err (EParse "Expected a length to be int")
      end
  end.

(** 468-477: [detectCharset]. *)
Fixpoint detect_charset (options : list string) : string :=
  match options with
  | [] => ""
  | o :: r => if has_prefix o "charset=" then trim_left_set "charset=" o else detect_charset r
  end.

(** 446-453: [normalizeCollate], given the table options. *)
Definition normalize_collate (collate options : string) : string :=
  if String.eqb collate "binary" then detect_charset (split_char " " options) ++ "_bin" else collate.

(** 455-466: [normalizedTableName]. *)
Definition normalized_table_name (m : mode) (n : table_name) : string :=
  match m with
  | Postgres => (if String.eqb (tn_qualifier n) "" then "public" else tn_qualifier n) ++ "." ++ tn_name n
  | _ => tn_name n
  end.

(** 479-484: [parseIdentity]. *)
Definition parse_identity (o : option identity_opt) : option identity :=
  match o with
  | None => None
  | Some o => Some (mkIdentity (to_upper (io_behavior o)) (io_not_for_replication o))
  end.

(** 486-497: [parseDefaultDefinition]. *)
Definition parse_default (o : option sql_default) : option default_def :=
  match o with
  | None => None
  | Some o => match sd_value o with
              | None => None
              | Some v => Some (mkDefault (Some (parse_value v)) (sd_constraint o))
              end
  end.

(** 499-538: [parseIdentitySequence]. *)
Definition parse_int (v : option sql_val) : option Z := option_map (fun v => v_int (parse_value v)) v.
Definition is_set {A} (o : option A) : bool := match o with Some _ => true | None => false end.

Definition parse_sequence (o : option identity_opt) : option sequence :=
  match o with
  | None => None
  | Some o =>
      match io_sequence o with
      | None => None
      | Some q =>
          Some (mkSequence (ss_name q) (ss_if_not_exists q) (ss_type q)
            (parse_int (ss_increment_by q)) (parse_int (ss_min_value q)) (is_set (ss_no_min_value q))
            (parse_int (ss_max_value q)) (is_set (ss_no_max_value q)) (parse_int (ss_start_with q))
            (parse_int (ss_cache q)) (is_set (ss_cycle q)) (is_set (ss_no_cycle q)) (ss_owned_by q))
      end
  end.

(** 118: the enum constants have the same order in both packages. *)
Definition key_of (k : col_key) : key_option :=
  match k with
  | ColKeyNone => KeyNone | ColKeyPrimary => KeyPrimary | ColKeySpatialKey => KeySpatial
  | ColKeyUnique => KeyUnique | ColKeyUniqueKey => KeyUniqueKey | ColKey => KeyKey
  end.

(** [sqlparser.String] of an expression, where it does not panic. *)
Definition printed (t : option string) : res string := match t with Some t => Ok t | None => Panic end.
Definition text_of (e : expr) : string := match ex_text e with Some t => t | None => "" end.

(** 126-132: the CHECK of a column, if it can be printed (see [parse_table]).
    [sqlparser.String] of the constraint name formats it as an identifier. *)
Definition parse_check (c : option sql_check) : option check_def :=
  option_map (fun c => mkCheck (text_of (w_expr (sc_where c))) (format_id (sc_constraint c))
                               (sc_not_for_replication c)) c.
Definition check_prints (d : column_definition) : bool :=
  match ct_check (cd_type d) with
  | Some c => is_set (ex_text (w_expr (sc_where c)))
  | None => true
  end.

(** 100-135: one column. *)
Definition parse_column (options : string) (position : Z) (d : column_definition) : column :=
  let t := cd_type d in
  mkColumn (cd_name d) position (ct_type t) (ct_unsigned t) (ct_not_null t) (ct_autoincrement t)
    (ct_array t) (parse_default (ct_default t)) (option_map parse_value (ct_length t))
    (option_map parse_value (ct_scale t)) (parse_check (ct_check t)) (ct_check_no_inherit t)
    (ct_charset t) (normalize_collate (ct_collate t) options) (ct_timezone t) (key_of (ct_key_opt t))
    (option_map parse_value (ct_on_update t)) (ct_enum_values t) (ct_references t)
    (parse_identity (ct_identity t)) (parse_sequence (ct_identity t)).

Fixpoint parse_columns (options : string) (position : Z) (l : list column_definition) : list column :=
  match l with
  | [] => []
  | d :: l' => parse_column options position d :: parse_columns options (position + 1) l'
  end.

(** 138-153, 217-231: index columns. *)
Fixpoint parse_index_columns (l : list sql_index_column) : res (list index_column) :=
  match l with
  | [] => Ok []
  | c :: l' =>
      do n <- parse_length (sic_length c);
      do r <- parse_index_columns l';
      Ok (mkIndexColumn (sic_column c) n (sic_direction c) :: r)
  end.

(** 155-164, 248-257: index options. *)
Definition parse_index_option (o : sql_index_option) : index_option :=
  mkIndexOption (sio_name o) (option_map parse_value (sio_value o)).

(** 166-170, 259-263: the partition, empty strings when nil. *)
Definition partition_name (p : option sql_index_partition) : string :=
  match p with Some p => sip_name p | None => "" end.
Definition partition_column (p : option sql_index_partition) : string :=
  match p with Some p => sip_column p | None => "" end.

(** 137-183: one index of CREATE TABLE. *)
Definition parse_index_definition (d : index_definition) : res index :=
  do cols <- parse_index_columns (xd_columns d);
  let i := xd_info d in
  Ok (mkIndex (ii_name i) (ii_type i) cols (ii_primary i) (ii_unique i) "" [] (ii_clustered i)
        (partition_name (xd_partition d)) (partition_column (xd_partition d))
        (map parse_index_option (xd_options d))).

Fixpoint parse_index_definitions (l : list index_definition) : res (list index) :=
  match l with
  | [] => Ok []
  | d :: l' => do i <- parse_index_definition d; do r <- parse_index_definitions l'; Ok (i :: r)
  end.

(** 185-206, 339-367: one foreign key. *)
Definition parse_fk (d : fk_definition) : foreign_key :=
  mkForeignKey (fd_constraint d) (fd_index_name d) (fd_index_columns d) (fd_ref_name d)
    (fd_ref_columns d) (fd_on_delete d) (fd_on_update d) (fd_not_for_replication d).

(** 95-215: [parseTable]. *)
Definition parse_table (m : mode) (d : sql_ddl) : res table :=
  match dd_table_spec d with
  | None => Panic
  | Some ts =>
      if negb (forallb check_prints (ts_columns ts)) then Panic else
      do indexes <- parse_index_definitions (ts_indexes ts);
      Ok (mkTable (normalized_table_name m (dd_new_name d))
            (parse_columns (ts_options ts) 0 (ts_columns ts)) indexes (map parse_fk (ts_fks ts)) [])
  end.

(** 233-241: the condition of a partial index, without its outermost parentheses. *)
Definition parse_where (w : option where_clause) : res string :=
  match w with
  | Some w =>
      if String.eqb (w_type w) "where" then
        printed match ex_inside (w_expr w) with Some t => t | None => ex_text (w_expr w) end
      else Ok ""
  | None => Ok ""
  end.

(** 212-277: [parseIndex]. *)
Definition parse_index (d : sql_ddl) : res index :=
  match dd_index_spec d with
  | None => Err (EParse "stmt.IndexSpec was null on parseIndex")
  | Some s =>
      do cols <- parse_index_columns (dd_index_cols d);
      do w <- parse_where (xs_where s);
      Ok (mkIndex (xs_name s) "" cols false (xs_unique s) w (xs_included s)
            (xs_clustered s) (partition_name (xs_partition s)) (partition_column (xs_partition s))
            (map parse_index_option (xs_options s)))
  end.

(** 368-393: the policy; the text of a missing condition is empty. *)
Definition where_text (w : option where_clause) : res string :=
  match w with Some w => printed (ex_text (w_expr w)) | None => Ok "" end.

Definition parse_policy (p : sql_policy) : res policy :=
  do u <- where_text (sp_using p);
  do c <- where_text (sp_with_check p);
  Ok (mkPolicy (sp_name p) "" (sp_permissive p) (sp_scope p) (sp_to p) u c).

(** 409-413: the statements of a trigger. *)
Fixpoint parse_bodies (l : list (option string)) : res (list string) :=
  match l with
  | [] => Ok []
  | b :: l' => do t <- printed b; do r <- parse_bodies l'; Ok (t :: r)
  end.

(** 302-419: the result of a parse, dispatched by its action. *)
Definition parse_statement (m : mode) (text : string) (s : statement) : res ddl :=
  match s with
  | SOther => Err (EParse "unsupported type of SQL (only DDL is supported)")
  | SDdl d =>
      let tbl := normalized_table_name m (dd_table d) in
      let is a := String.eqb (dd_action d) a in
      if is "create" then do t <- parse_table m d; Ok (CreateTable text t)
      else if is "create index" then do i <- parse_index d; Ok (CreateIndex text tbl i)
      else if is "add index" then do i <- parse_index d; Ok (AddIndex text tbl i)
      else if is "add primary key" then do i <- parse_index d; Ok (AddPrimaryKey text tbl i)
      else if is "add foreign key" then
        match dd_fk d with Some k => Ok (AddForeignKey text tbl (parse_fk k)) | None => Panic end
      else if is "create policy" then
        match dd_policy d with
        | Some p => do p <- parse_policy p; Ok (AddPolicy text tbl p)
        | None => Panic
        end
      else if is "create view" then
        match dd_view d with
        | Some v => do t <- printed (sv_definition v); Ok (DView (mkView text (tn_name (sv_name v)) t))
        | None => Panic
        end
      else if is "create trigger" then
        match dd_trigger d with
        | Some t => do b <- parse_bodies (st_body t);
                    Ok (DTrigger (mkTrigger text (st_name t) (tn_name (st_table t)) (st_time t) (st_event t) b))
        | None => Panic
        end
      else Err (EParse "unsupported type of DDL action")
  end.

(** 279-420: [parseDDL], for the parser of sqlparser. *)
Definition parse_ddl (parse : mode -> string -> res statement) (m : mode) (text : string) : res ddl :=
  do s <- parse m text; parse_statement m text s.
