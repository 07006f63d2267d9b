(** The values the SQL grammar computes ([yySymType], /repo/sqlparser/parser.go 42-108), and how
    sqlparser/ast.go prints expressions and statements.

    Statements and expressions are represented by their printed text as in SqlAst.v, so the
    functions here are the [Format] methods of ast.go; [None] is a text whose printing panics.
    Values only the parser's own formatter reads (comments on columns, partitions, vindexes,
    SHOW and SET) are left out: [YNone]. *)
From Coq Require Import String Ascii List ZArith Bool.
From Verif Require Import GoStr Numerals Formatter SqlAst.
Import ListNotations.
Local Open Scope string_scope.
Local Open Scope list_scope.

(** ** Texts *)
Definition text := option string.
Definition lit (s : string) : text := Some s.
Fixpoint cat (l : list text) : text :=
  match l with
  | [] => Some ""
  | Some a :: l' => match cat l' with Some b => Some (a ++ b)%string | None => None end
  | None :: _ => None
  end.
(** The loops with a prefix (1608-1614 and others). *)
Fixpoint commas (l : list text) : text :=
  match l with
  | [] => Some ""
  | [a] => a
  | a :: l' => cat [a; lit ", "; commas l']
  end.
Definition parens (t : text) : text := cat [lit "("; t; lit ")"].

(** ** Expressions

    What the printing of the surrounding expression and the actions of the grammar look at. *)
Inductive expr_kind :=
| XInt (digits : string)   (* [SQLVal] of type IntVal *)
| XUnary                   (* [UnaryExpr] *)
| XNull                    (* [NullVal] *)
| XRand                    (* [FuncExpr] named rand *)
| XParen (inside : text)   (* [ParenExpr] *)
| XOther.
Record xp := mkXp { x_text : text; x_kind : expr_kind }.

Definition other (t : text) : xp := mkXp t XOther.
(** 2483-2501: an integer is printed as it is. *)
Definition int_expr (digits : string) : xp := mkXp (lit digits) (XInt digits).

(** What the rest of sqldef sees of an expression. *)
Definition expr_of (e : xp) : expr :=
  mkExpr (x_text e) match x_kind e with XParen i => Some i | _ => None end.
(** 2035-2040: [NewWhere(WhereStr, e)]. *)
Definition where_clause_of (e : option xp) : option where_clause :=
  option_map (fun e => mkWhere "where" (expr_of e)) e.

(** 2275-2280, 2698-2700: comparisons and binary operators. *)
Definition binary (op : string) (l r : xp) : xp :=
  other (cat [x_text l; lit (" " ++ op ++ " "); x_text r]).
Definition like_expr (op : string) (l r : xp) (escape : option xp) : xp :=
  match escape with
  | None => binary op l r
  | Some e => other (cat [x_text (binary op l r); lit " escape "; x_text e])
  end.
(** 2734-2741. *)
Definition unary (op : string) (e : xp) : xp :=
  mkXp (cat [lit op; match x_kind e with XUnary => lit " " | _ => lit "" end; x_text e]) XUnary.
(** parser.y 3003-3023: the sign of an integer literal; its text is never empty. *)
Definition negated (n : string) : string :=
  match n with String "-" r => r | _ => "-" ++ n end.
(** 2815-2828. *)
Definition func (qualifier name : string) (distinct : bool) (args : list text) : xp :=
  mkXp (cat [lit ((if String.eqb qualifier "" then "" else format_id qualifier ++ ".") ++ name ++ "(" ++
                  (if distinct then "distinct " else ""));
             commas args; lit ")"])
       (if String.eqb (to_lower name) "rand" then XRand else XOther).
(** 3116-3128. *)
Definition case_expr (e : option xp) (whens : list text) (els : option xp) : xp :=
  other (cat ([lit "case "] ++
              match e with Some e => [x_text e; lit " "] | None => [] end ++
              flat_map (fun w => [w; lit " "]) whens ++
              match els with Some e => [lit "else "; x_text e; lit " "] | None => [] end ++
              [lit "end"])).
(** parser.y 3612-3620: a tuple of one is a parenthesised expression. *)
Definition tuple_expr (l : list xp) : xp :=
  match l with
  | [e] => mkXp (parens (x_text e)) (XParen (x_text e))
  | _ => other (parens (commas (map x_text l)))
  end.
(** 3046-3059: [ConvertType]; lengths are integers. *)
Definition convert_type (name : string) (length scale : option sql_val) (operator charset : string) : text :=
  lit (name ++
       match length with
       | Some n => "(" ++ sv_val n ++ match scale with Some k => ", " ++ sv_val k | None => "" end ++ ")"
       | None => ""
       end ++
       (if String.eqb charset "" then "" else operator ++ " " ++ charset))%string.

(** ** Clauses *)
Local Open Scope string_scope.
(** 1580-1584, 1665-1670, 1701-1711, 1737-1747, 1870-1878. *)
Definition comments (l : list string) : string := fold_right (fun c r => c ++ " " ++ r) "" l.
Definition alias (name : string) : string := if String.eqb name "" then "" else " as " ++ format_id name.
Definition columns (l : list string) : string := "(" ++ join ", " (map format_id l) ++ ")".
Definition partitions (l : list string) : string :=
  match l with [] => "" | _ => " partition " ++ columns l end.
Definition format_table (t : table_name) : string :=
  if String.eqb (tn_name t) "" then ""
  else (if String.eqb (tn_qualifier t) "" then "" else format_id (tn_qualifier t) ++ ".") ++ format_id (tn_name t).
(** 2043-2048, 3201-3207, 3222-3228, 3252-3266. *)
Definition where_of (word : string) (e : option xp) : text :=
  match e with Some e => cat [lit (" " ++ word ++ " "); x_text e] | None => lit "" end.
Definition group_by (l : list xp) : text :=
  match l with [] => lit "" | _ => cat [lit " group by "; commas (map x_text l)] end.
Definition order_by (l : list text) : text :=
  match l with [] => lit "" | _ => cat [lit " order by "; commas l] end.
Definition order_text (e : xp) (direction : string) : text :=
  match x_kind e with
  | XNull | XRand => x_text e
  | _ => cat [x_text e; lit (" " ++ direction)]
  end.
(** 3330-3356: [UpdateExpr]: the column's name, its text and the expression. *)
Record update := mkUpdate { up_name : string; up_column : string; up_value : text }.
Definition updates (l : list update) : text :=
  commas (map (fun u => cat [lit (up_column u ++ " = "); up_value u]) l).
(** 492-498, 3421-3426: [Insert]. *)
Definition insert_text (action : string) (cs : list string) (ignore : string) (t : table_name)
    (parts cols : list string) (rows : text) (dup : list update) : text :=
  cat [lit (action ++ " " ++ comments cs ++ ignore ++ "into " ++ format_table t ++ partitions parts ++
            match cols with [] => "" | _ => columns cols end ++ " ");
       rows; match dup with [] => lit "" | _ => cat [lit " on duplicate key update "; updates dup] end].

(** ** Columns and sequences *)
Definition no_table : table_name := mkTableName "" "".
(** 1897-1902. *)
Definition to_view_name (t : table_name) : table_name := mkTableName (to_lower (tn_name t)) (tn_qualifier t).
Definition plain_type (name : string) : column_type :=
  mkColumnType name None false None None None false false None false None "" "" false [] ColKeyNone "" None.
Definition no_sequence : sql_sequence :=
  mkSqlSequence "" false "" None None None None None None None None None "".

(** Field updates. *)
Definition set_ct_unsigned u t :=
  mkColumnType (ct_type t) (ct_not_null t) (ct_autoincrement t) (ct_default t) (ct_on_update t) (ct_check t)
    (ct_check_no_inherit t) (ct_array t) (ct_length t) u (ct_scale t) (ct_charset t) (ct_collate t) (ct_timezone t)
    (ct_enum_values t) (ct_key_opt t) (ct_references t) (ct_identity t).
(** parser.y 903-915: what precedes the options of a column forgets them. *)
Definition declare array t :=
  mkColumnType (ct_type t) None false None None (ct_check t)
    (ct_check_no_inherit t) array (ct_length t) (ct_unsigned t) (ct_scale t) (ct_charset t) (ct_collate t) (ct_timezone t)
    (ct_enum_values t) ColKeyNone (ct_references t) None.
Definition set_ct_not_null n t :=
  mkColumnType (ct_type t) n (ct_autoincrement t) (ct_default t) (ct_on_update t) (ct_check t)
    (ct_check_no_inherit t) (ct_array t) (ct_length t) (ct_unsigned t) (ct_scale t) (ct_charset t) (ct_collate t) (ct_timezone t)
    (ct_enum_values t) (ct_key_opt t) (ct_references t) (ct_identity t).
Definition set_ct_default d t :=
  mkColumnType (ct_type t) (ct_not_null t) (ct_autoincrement t) d (ct_on_update t) (ct_check t)
    (ct_check_no_inherit t) (ct_array t) (ct_length t) (ct_unsigned t) (ct_scale t) (ct_charset t) (ct_collate t) (ct_timezone t)
    (ct_enum_values t) (ct_key_opt t) (ct_references t) (ct_identity t).
Definition set_ct_on_update v t :=
  mkColumnType (ct_type t) (ct_not_null t) (ct_autoincrement t) (ct_default t) v (ct_check t)
    (ct_check_no_inherit t) (ct_array t) (ct_length t) (ct_unsigned t) (ct_scale t) (ct_charset t) (ct_collate t) (ct_timezone t)
    (ct_enum_values t) (ct_key_opt t) (ct_references t) (ct_identity t).
Definition set_ct_autoincrement b t :=
  mkColumnType (ct_type t) (ct_not_null t) b (ct_default t) (ct_on_update t) (ct_check t)
    (ct_check_no_inherit t) (ct_array t) (ct_length t) (ct_unsigned t) (ct_scale t) (ct_charset t) (ct_collate t) (ct_timezone t)
    (ct_enum_values t) (ct_key_opt t) (ct_references t) (ct_identity t).
Definition set_ct_key k t :=
  mkColumnType (ct_type t) (ct_not_null t) (ct_autoincrement t) (ct_default t) (ct_on_update t) (ct_check t)
    (ct_check_no_inherit t) (ct_array t) (ct_length t) (ct_unsigned t) (ct_scale t) (ct_charset t) (ct_collate t) (ct_timezone t)
    (ct_enum_values t) k (ct_references t) (ct_identity t).
Definition set_ct_check c t :=
  mkColumnType (ct_type t) (ct_not_null t) (ct_autoincrement t) (ct_default t) (ct_on_update t) c
    (ct_check_no_inherit t) (ct_array t) (ct_length t) (ct_unsigned t) (ct_scale t) (ct_charset t) (ct_collate t) (ct_timezone t)
    (ct_enum_values t) (ct_key_opt t) (ct_references t) (ct_identity t).
Definition set_ct_no_inherit b t :=
  mkColumnType (ct_type t) (ct_not_null t) (ct_autoincrement t) (ct_default t) (ct_on_update t) (ct_check t)
    b (ct_array t) (ct_length t) (ct_unsigned t) (ct_scale t) (ct_charset t) (ct_collate t) (ct_timezone t)
    (ct_enum_values t) (ct_key_opt t) (ct_references t) (ct_identity t).
Definition set_ct_length n k t :=
  mkColumnType (ct_type t) (ct_not_null t) (ct_autoincrement t) (ct_default t) (ct_on_update t) (ct_check t)
    (ct_check_no_inherit t) (ct_array t) n (ct_unsigned t) k (ct_charset t) (ct_collate t) (ct_timezone t)
    (ct_enum_values t) (ct_key_opt t) (ct_references t) (ct_identity t).
Definition set_ct_charset c o t :=
  mkColumnType (ct_type t) (ct_not_null t) (ct_autoincrement t) (ct_default t) (ct_on_update t) (ct_check t)
    (ct_check_no_inherit t) (ct_array t) (ct_length t) (ct_unsigned t) (ct_scale t) c o (ct_timezone t)
    (ct_enum_values t) (ct_key_opt t) (ct_references t) (ct_identity t).
Definition set_ct_timezone z t :=
  mkColumnType (ct_type t) (ct_not_null t) (ct_autoincrement t) (ct_default t) (ct_on_update t) (ct_check t)
    (ct_check_no_inherit t) (ct_array t) (ct_length t) (ct_unsigned t) (ct_scale t) (ct_charset t) (ct_collate t) z
    (ct_enum_values t) (ct_key_opt t) (ct_references t) (ct_identity t).
Definition set_ct_enum l t :=
  mkColumnType (ct_type t) (ct_not_null t) (ct_autoincrement t) (ct_default t) (ct_on_update t) (ct_check t)
    (ct_check_no_inherit t) (ct_array t) (ct_length t) (ct_unsigned t) (ct_scale t) (ct_charset t) (ct_collate t) (ct_timezone t)
    l (ct_key_opt t) (ct_references t) (ct_identity t).
Definition set_ct_references r t :=
  mkColumnType (ct_type t) (ct_not_null t) (ct_autoincrement t) (ct_default t) (ct_on_update t) (ct_check t)
    (ct_check_no_inherit t) (ct_array t) (ct_length t) (ct_unsigned t) (ct_scale t) (ct_charset t) (ct_collate t) (ct_timezone t)
    (ct_enum_values t) (ct_key_opt t) r (ct_identity t).
Definition set_ct_identity i t :=
  mkColumnType (ct_type t) (ct_not_null t) (ct_autoincrement t) (ct_default t) (ct_on_update t) (ct_check t)
    (ct_check_no_inherit t) (ct_array t) (ct_length t) (ct_unsigned t) (ct_scale t) (ct_charset t) (ct_collate t) (ct_timezone t)
    (ct_enum_values t) (ct_key_opt t) (ct_references t) i.

Definition sq_with inc mn nmn mx nmx st ca cy ncy ow q : sql_sequence :=
  mkSqlSequence (ss_name q) (ss_if_not_exists q) (ss_type q) inc mn nmn mx nmx st ca cy ncy ow.
Definition int_val (s : string) : option sql_val := Some (mkSqlVal IntVal s).
Definition sq_increment v q := sq_with (int_val v) (ss_min_value q) (ss_no_min_value q) (ss_max_value q) (ss_no_max_value q)
  (ss_start_with q) (ss_cache q) (ss_cycle q) (ss_no_cycle q) (ss_owned_by q) q.
Definition sq_min v q := sq_with (ss_increment_by q) (int_val v) (ss_no_min_value q) (ss_max_value q) (ss_no_max_value q)
  (ss_start_with q) (ss_cache q) (ss_cycle q) (ss_no_cycle q) (ss_owned_by q) q.
Definition sq_no_min q := sq_with (ss_increment_by q) (ss_min_value q) (Some true) (ss_max_value q) (ss_no_max_value q)
  (ss_start_with q) (ss_cache q) (ss_cycle q) (ss_no_cycle q) (ss_owned_by q) q.
Definition sq_max v q := sq_with (ss_increment_by q) (ss_min_value q) (ss_no_min_value q) (int_val v) (ss_no_max_value q)
  (ss_start_with q) (ss_cache q) (ss_cycle q) (ss_no_cycle q) (ss_owned_by q) q.
Definition sq_no_max q := sq_with (ss_increment_by q) (ss_min_value q) (ss_no_min_value q) (ss_max_value q) (Some true)
  (ss_start_with q) (ss_cache q) (ss_cycle q) (ss_no_cycle q) (ss_owned_by q) q.
Definition sq_start v q := sq_with (ss_increment_by q) (ss_min_value q) (ss_no_min_value q) (ss_max_value q) (ss_no_max_value q)
  (int_val v) (ss_cache q) (ss_cycle q) (ss_no_cycle q) (ss_owned_by q) q.
Definition sq_cache v q := sq_with (ss_increment_by q) (ss_min_value q) (ss_no_min_value q) (ss_max_value q) (ss_no_max_value q)
  (ss_start_with q) (int_val v) (ss_cycle q) (ss_no_cycle q) (ss_owned_by q) q.
Definition sq_cycle q := sq_with (ss_increment_by q) (ss_min_value q) (ss_no_min_value q) (ss_max_value q) (ss_no_max_value q)
  (ss_start_with q) (ss_cache q) (Some true) (ss_no_cycle q) (ss_owned_by q) q.
Definition sq_no_cycle q := sq_with (ss_increment_by q) (ss_min_value q) (ss_no_min_value q) (ss_max_value q) (ss_no_max_value q)
  (ss_start_with q) (ss_cache q) (ss_cycle q) (Some true) (ss_owned_by q) q.
Definition sq_owned o q := sq_with (ss_increment_by q) (ss_min_value q) (ss_no_min_value q) (ss_max_value q) (ss_no_max_value q)
  (ss_start_with q) (ss_cache q) (ss_cycle q) (ss_no_cycle q) o q.

(** 2469-2480: [NewBoolSQLVal], [NewValArgWithOpt]. *)
Definition bool_val (b : bool) : sql_val := mkSqlVal ValBool (if b then "true" else "false").
Definition val_arg (name : string) (length : option sql_val) : sql_val :=
  mkSqlVal ValArg match length with Some n => name ++ "(" ++ sv_val n ++ ")" | None => name end.

Definition fk_with (on_delete on_update : string) (not_for_replication : bool) (f : fk_definition) : fk_definition :=
  mkFkDefinition (fd_constraint f) (fd_index_name f) (fd_index_columns f) (fd_ref_name f) (fd_ref_columns f)
    on_delete on_update not_for_replication.
(** parser.y 579-584: the columns of CREATE TABLE join its name. *)
Definition with_spec (t : table_spec) (s : statement) : statement :=
  match s with
  | SDdl d => SDdl (mkDDL (dd_action d) (dd_table d) (dd_new_name d) (Some t) (dd_index_spec d) (dd_index_cols d)
                      (dd_fk d) (dd_policy d) (dd_view d) (dd_trigger d))
  | SOther => SOther
  end.

(** ** The values of symbols *)
Inductive yval :=
| YNone
| YStr (s : string)                              (* bytes, strings, names *)
| YBool (b : bool)
| YStrs (l : list string)
| YText (t : text)                               (* statements, select expressions, tables, conditions *)
| YTexts (l : list text)
| YExpr (e : option xp)
| YExprs (l : list xp)
| YColName (name printed : string)
| YUpdate (u : update)
| YUpdates (l : list update)
| YInsert (cols : list string) (rows : text)
| YVal (v : option sql_val)
| YLens (length scale : option sql_val)
| YTable (t : table_name)
| YTables (l : list table_name)
| YType (t : column_type)
| YColumn (c : column_definition)
| YSeq (q : sql_sequence)
| YIndexInfo (i : index_info)
| YIndexColumn (c : sql_index_column)
| YIndexColumns (l : list sql_index_column)
| YIndexOption (o : sql_index_option)
| YIndexOptions (l : list sql_index_option)
| YIndexPartition (p : option sql_index_partition)
| YIndex (i : index_definition)
| YFk (f : fk_definition)
| YSpec (t : table_spec)
| YStmt (s : statement).

Definition as_str v := match v with YStr s => Some s | _ => None end.
Definition as_bool v := match v with YBool b => Some b | _ => None end.
Definition as_strs v := match v with YStrs l => Some l | _ => None end.
Definition as_text v := match v with YText t => Some t | _ => None end.
Definition as_texts v := match v with YTexts l => Some l | _ => None end.
(** An expression that is there. *)
Definition as_expr v := match v with YExpr (Some e) => Some e | _ => None end.
Definition as_expr_opt v := match v with YExpr e => Some e | _ => None end.
Definition as_exprs v := match v with YExprs l => Some l | _ => None end.
Definition as_col_name v := match v with YColName n t => Some (n, t) | _ => None end.
Definition as_update v := match v with YUpdate u => Some u | _ => None end.
Definition as_updates v := match v with YUpdates l => Some l | _ => None end.
Definition as_insert v := match v with YInsert c r => Some (c, r) | _ => None end.
Definition as_val v := match v with YVal o => Some o | _ => None end.
Definition as_lens v := match v with YLens n k => Some (n, k) | _ => None end.
Definition as_table v := match v with YTable t => Some t | _ => None end.
Definition as_tables v := match v with YTables l => Some l | _ => None end.
Definition as_type v := match v with YType t => Some t | _ => None end.
Definition as_column v := match v with YColumn c => Some c | _ => None end.
Definition as_seq v := match v with YSeq q => Some q | _ => None end.
Definition as_index_info v := match v with YIndexInfo i => Some i | _ => None end.
Definition as_index_column v := match v with YIndexColumn c => Some c | _ => None end.
Definition as_index_columns v := match v with YIndexColumns l => Some l | _ => None end.
Definition as_index_option v := match v with YIndexOption o => Some o | _ => None end.
Definition as_index_options v := match v with YIndexOptions l => Some l | _ => None end.
Definition as_index_partition v := match v with YIndexPartition p => Some p | _ => None end.
Definition as_index v := match v with YIndex i => Some i | _ => None end.
Definition as_fk v := match v with YFk f => Some f | _ => None end.
Definition as_spec v := match v with YSpec t => Some t | _ => None end.
(** A select, insert, update or delete statement is a statement too. *)
Definition as_stmt v := match v with YStmt s => Some s | YText _ => Some SOther | _ => None end.

(** What the action of a production does: gives [$$], returns 1 from the parser, or panics on a
    nil pointer.  [IllTyped] is for symbols with a value of another kind; it never happens
    (ProofParser). *)
Inductive reduced := Value (v : yval) | ReturnOne | NilDereference | IllTyped.

(** [$n]. *)
Definition get {A} (kind : yval -> option A) (n : nat) (args : list yval) (k : A -> reduced) : reduced :=
  match nth_error args n with
  | Some v => match kind v with Some x => k x | None => IllTyped end
  | None => IllTyped
  end.
