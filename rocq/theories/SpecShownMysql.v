(** What MySQL shows of a database in SHOW CREATE TABLE and INFORMATION_SCHEMA.VIEWS, and the
    same database as SpecMysql has it.  A [my_database] is a description of a database;
    [show_create_table] and [view_definition] are MySQL's texts, [my_ideal] is the database
    itself.  Nothing of sqldef's exporter or parser is used; from the tokenizer only the list of
    keywords. *)
From Coq Require Import String Ascii List ZArith Bool SpecFloat.
From Verif Require Import GoStr GoStrFacts Ast Keywords SpecPlan SpecMysql SpecPostgres SpecShown Catalog CatalogMysql.
Import ListNotations.
Local Open Scope string_scope.
Local Open Scope list_scope.

(** ** How texts are written *)
Inductive my_piece :=
| MBlank (s : string)
| MWord (w : string)                       (* a keyword of sqldef *)
| MBare (n : string)                       (* another word *)
| MName (n : string)                       (* a name, in backquotes *)
| MText (s : string)                       (* a text, in quotes *)
| MNum (z : Z)
| MBits (s : string)                       (* b'0101' *)
| MSign (c : ascii)                        (* punctuation *)
| MDot.

(** MySQL writes quotes twice and backslash, newline, carriage return and NUL with a backslash. *)
Fixpoint my_escaped (s : string) : string :=
  match s with
  | EmptyString => EmptyString
  | String c s' =>
      let e := my_escaped s' in
      if Ascii.eqb c "'" then String c (String c e)
      else if Ascii.eqb c "\" then String c (String c e)
      else if Ascii.eqb c "010" then String "\" (String "n" e)
      else if Ascii.eqb c "013" then String "\" (String "r" e)
      else if Ascii.eqb c "000" then String "\" (String "0" e)
      else String c e
  end.
Definition spell_piece (p : my_piece) : string :=
  match p with
  | MBlank s => s
  | MWord w => w
  | MBare n => n
  | MName n => "`" ++ n ++ "`"
  | MText s => "'" ++ my_escaped s ++ "'"
  | MNum z => show_Z z
  | MBits s => "b'" ++ s ++ "'"
  | MSign c => String c ""
  | MDot => "."
  end%string.
Definition spell (l : list my_piece) : string := fold_right (fun p r => spell_piece p ++ r)%string ""%string l.

Definition blank1 : my_piece := MBlank " ".
Definition comma_sign : my_piece := MSign ",".
(** [" word"] for each word. *)
Definition keywords_text (l : list string) : list my_piece := flat_map (fun w => [blank1; MWord w]) l.
Fixpoint separated (sep : list my_piece) (l : list (list my_piece)) : list my_piece :=
  match l with
  | [] => []
  | x :: l' => x ++ match l' with [] => [] | _ => sep ++ separated sep l' end
  end.
Definition between (l : list my_piece) : list my_piece := MSign "(" :: l ++ [MSign ")"].
Definition shown_if {A} (f : A -> list my_piece) (o : option A) : list my_piece := match o with Some x => f x | None => [] end.

(** ** Names and texts *)
Definition back_char (c : ascii) : bool :=
  negb (Ascii.eqb c "`") && negb (Ascii.eqb c ";") && Nat.leb 32 (nat_of_ascii c).
Definition my_name (n : string) : bool := negb (String.eqb n "") && all_chars back_char n.
(** The statements of the export are told apart by semicolons. *)
Definition my_text (s : string) : bool := negb (has_char ";" s).

Definition word_start (c : ascii) : bool :=
  let n := nat_of_ascii c in (Nat.leb 97 n && Nat.leb n 122) || (Nat.leb 65 n && Nat.leb n 90) || Nat.eqb n 95.
Definition word_part (c : ascii) : bool := word_start c || let n := nat_of_ascii c in Nat.leb 48 n && Nat.leb n 57.
(** A word such as InnoDB or utf8mb4, no keyword of sqldef in any letter case. *)
Definition my_word (n : string) : bool :=
  match n with String c _ => word_start c | EmptyString => false end && all_chars word_part n &&
  negb (is_keyword (to_lower n)) && negb (String.eqb (to_lower n) "dual").
Definition my_number (z : Z) : bool := (0 <=? z)%Z && (z <? 2 ^ 63)%Z.

(** ** Types *)
Inductive my_type :=
| MyInteger (w : string) (n : option Z) (unsigned : bool)
| MyReal (w : string) (n : option (Z * Z)) (unsigned : bool)
| MyDecimal (p s : Z) (unsigned : bool)
| MyTime (w : string) (n : option Z)
| MyPlain (w : string)
| MyChars (w : string) (n : Z) (charset collate : option string)
| MyBytes (w : string) (n : Z)
| MyTexts (w : string) (charset collate : option string)
| MyEnum (w : string) (first : string) (others : list string) (charset collate : option string).

Definition my_type_word (t : my_type) : string :=
  match t with
  | MyInteger w _ _ | MyReal w _ _ | MyTime w _ | MyPlain w | MyChars w _ _ _ | MyBytes w _ | MyTexts w _ _ | MyEnum w _ _ _ _ => w
  | MyDecimal _ _ _ => "decimal"
  end.
Definition integer_types : list string := ["bit"; "tinyint"; "smallint"; "mediumint"; "int"; "bigint"].
Definition plain_types : list string :=
  ["date"; "year"; "tinyblob"; "blob"; "mediumblob"; "longblob"; "json"; "geometry"; "point"; "linestring"; "polygon";
   "multipoint"; "multilinestring"; "multipolygon"; "geometrycollection"].
Definition all_opt {A} (f : A -> bool) (o : option A) : bool := match o with Some x => f x | None => true end.
Definition my_type_ok (t : my_type) : bool :=
  match t with
  | MyInteger w n _ => mem w integer_types && all_opt my_number n
  | MyReal w n _ => mem w ["double"; "float"] && all_opt (fun p => my_number (fst p) && my_number (snd p)) n
  | MyDecimal p s _ => my_number p && my_number s
  | MyTime w n => mem w ["time"; "timestamp"; "datetime"] && all_opt my_number n
  | MyPlain w => mem w plain_types
  | MyChars w n cs co => mem w ["char"; "varchar"] && my_number n && all_opt my_word cs && all_opt my_word co
  | MyBytes w n => mem w ["binary"; "varbinary"] && my_number n
  | MyTexts w cs co => mem w ["tinytext"; "text"; "mediumtext"; "longtext"] && all_opt my_word cs && all_opt my_word co
  | MyEnum w x l cs co => mem w ["enum"; "set"] && forallb my_text (x :: l) && all_opt my_word cs && all_opt my_word co
  end.

Definition one_number (n : Z) : list my_piece := between [MNum n].
Definition two_numbers (p : Z * Z) : list my_piece := between [MNum (fst p); comma_sign; MNum (snd p)].
Definition shown_unsigned (u : bool) : list my_piece := if u then [blank1; MWord "unsigned"] else [].
Definition shown_charset (cs co : option string) : list my_piece :=
  shown_if (fun c => [blank1; MWord "CHARACTER"; blank1; MWord "SET"; blank1; MBare c]) cs ++
  shown_if (fun c => [blank1; MWord "COLLATE"; blank1; MBare c]) co.
Definition shown_type (t : my_type) : list my_piece :=
  MWord (my_type_word t) ::
  match t with
  | MyInteger _ n u => shown_if one_number n ++ shown_unsigned u
  | MyReal _ n u => shown_if two_numbers n ++ shown_unsigned u
  | MyDecimal p s u => two_numbers (p, s) ++ shown_unsigned u
  | MyTime _ n => shown_if one_number n
  | MyPlain _ => []
  | MyChars _ n cs co => one_number n ++ shown_charset cs co
  | MyBytes _ n => one_number n
  | MyTexts _ cs co => shown_charset cs co
  | MyEnum _ x l cs co => between (separated [comma_sign] (map (fun s => [MText s]) (x :: l))) ++ shown_charset cs co
  end.

(** ** Columns *)
Inductive my_default :=
| MyNull
| MyText (s : string)
| MyNumber (z : Z)                         (* as MariaDB shows it; MySQL puts numbers in quotes *)
| MyNow (n : option Z)                     (* CURRENT_TIMESTAMP, CURRENT_TIMESTAMP(n) *)
| MyBits (s : string).
Record my_column := mkMyColumn {
  mc_name : string; mc_type : my_type;
  mc_null : option bool;                   (* Some true: NOT NULL; Some false: NULL, shown for timestamps *)
  mc_default : option my_default;
  mc_on_update : option (option Z);        (* ON UPDATE CURRENT_TIMESTAMP, with or without digits *)
  mc_auto : bool; mc_comment : option string }.

Definition shown_now (n : option Z) : list my_piece := MWord "CURRENT_TIMESTAMP" :: shown_if one_number n.
Definition shown_default_value (d : my_default) : list my_piece :=
  match d with
  | MyNull => [MWord "NULL"]
  | MyText s => [MText s]
  | MyNumber z => [MNum z]
  | MyNow n => shown_now n
  | MyBits s => [MBits s]
  end.
Definition is_bit (c : ascii) : bool := Ascii.eqb c "0" || Ascii.eqb c "1".
Definition my_default_ok (d : my_default) : bool :=
  match d with
  | MyNull => true
  | MyText s => my_text s
  | MyNumber z => my_number z
  | MyNow n => all_opt my_number n
  | MyBits s => all_chars is_bit s
  end.
Definition my_column_ok (c : my_column) : bool :=
  my_name (mc_name c) && my_type_ok (mc_type c) && all_opt my_default_ok (mc_default c) &&
  all_opt (all_opt my_number) (mc_on_update c) && all_opt my_text (mc_comment c).
Definition shown_column (c : my_column) : list my_piece :=
  [MName (mc_name c); blank1] ++ shown_type (mc_type c) ++
  shown_if (fun b : bool => if b then [blank1; MWord "NOT"; blank1; MWord "NULL"] else [blank1; MWord "NULL"]) (mc_null c) ++
  shown_if (fun d => [blank1; MWord "DEFAULT"; blank1] ++ shown_default_value d) (mc_default c) ++
  shown_if (fun n => [blank1; MWord "ON"; blank1; MWord "UPDATE"; blank1] ++ shown_now n) (mc_on_update c) ++
  (if mc_auto c then [blank1; MWord "AUTO_INCREMENT"] else []) ++
  shown_if (fun s => [blank1; MWord "COMMENT"; blank1; MText s]) (mc_comment c).

Definition plain_value (k : value_type) (raw : string) : value := mkValue k raw "" 0 (S754_zero false) false.
Definition now_value (n : option Z) : value :=
  plain_value VValArg match n with Some n => "current_timestamp(" ++ show_Z n ++ ")" | None => "current_timestamp" end%string.
Definition ideal_default (d : my_default) : value :=
  match d with
  | MyNull => plain_value VValArg "null"
  | MyText s => mkValue VStr s s 0 (S754_zero false) false
  | MyNumber z => integer_value z
  | MyNow n => now_value n
  | MyBits s => mkValue VBit s "" 0 (S754_zero false) (String.eqb s "1")
  end.
Definition or_empty (o : option string) : string := match o with Some s => s | None => "" end.
(** A comment is not part of the database as sqldef has it. *)
Definition my_ideal_column (c : my_column) : column :=
  let typed unsigned length scale cs co enum :=
    mkColumn (mc_name c) 0 (my_type_word (mc_type c)) unsigned (mc_null c) (mc_auto c) false
      (option_map (fun d => mkDefault (Some (ideal_default d)) "") (mc_default c))
      (option_map integer_value length) (option_map integer_value scale) None false (or_empty cs) (or_empty co) false KeyNone
      (option_map now_value (mc_on_update c)) (map (fun s => "'" ++ s ++ "'")%string enum) "" None None in
  match mc_type c with
  | MyInteger _ n u => typed u n None None None []
  | MyReal _ n u => typed u (option_map fst n) (option_map snd n) None None []
  | MyDecimal p s u => typed u (Some p) (Some s) None None []
  | MyTime _ n => typed false n None None None []
  | MyPlain _ => typed false None None None None []
  | MyChars _ n cs co => typed false (Some n) None cs co []
  | MyBytes _ n => typed false (Some n) None None None []
  | MyTexts _ cs co => typed false None None cs co []
  | MyEnum _ x l cs co => typed false None None cs co (x :: l)
  end.

(** ** Keys and foreign keys *)
Inductive my_kind := KPrimary | KUnique | KPlain | KFulltext | KSpatial.
Inductive my_key_option :=
| KUsing (w : string) | KBlockSize (z : Z) | KComment (s : string).
Record my_key_column := mkMyKeyColumn { kc_name : string; kc_length : option Z; kc_desc : bool }.
Record my_key := mkMyKey {
  mk_kind : my_kind; mk_name : string; mk_first : my_key_column; mk_others : list my_key_column; mk_options : list my_key_option }.
Definition mk_columns (k : my_key) : list my_key_column := mk_first k :: mk_others k.
Definition kind_words (k : my_kind) : list string :=
  match k with KPrimary => ["PRIMARY"] | KUnique => ["UNIQUE"] | KPlain => [] | KFulltext => ["FULLTEXT"] | KSpatial => ["SPATIAL"] end.
Definition shown_key_column (c : my_key_column) : list my_piece :=
  MName (kc_name c) :: shown_if one_number (kc_length c) ++ (if kc_desc c then [blank1; MWord "DESC"] else []).
Definition shown_key_option (o : my_key_option) : list my_piece :=
  match o with
  | KUsing w => [blank1; MWord "USING"; blank1; MBare w]
  | KBlockSize z => [blank1; MWord "KEY_BLOCK_SIZE"; MSign "="; MNum z]
  | KComment s => [blank1; MWord "COMMENT"; blank1; MText s]
  end.
Definition shown_key (k : my_key) : list my_piece :=
  flat_map (fun w => [MWord w; blank1]) (kind_words (mk_kind k)) ++ [MWord "KEY"; blank1] ++
  match mk_kind k with KPrimary => [] | _ => [MName (mk_name k); blank1] end ++
  between (separated [comma_sign] (map shown_key_column (mk_columns k))) ++
  flat_map shown_key_option (mk_options k).
Definition my_key_column_ok (c : my_key_column) : bool := my_name (kc_name c) && all_opt my_number (kc_length c).
Definition my_key_option_ok (o : my_key_option) : bool :=
  match o with KUsing w => my_word w | KBlockSize z => my_number z | KComment s => my_text s end.
Definition my_key_ok (k : my_key) : bool :=
  match mk_kind k with KPrimary => String.eqb (mk_name k) "PRIMARY" | _ => my_name (mk_name k) end &&
  forallb my_key_column_ok (mk_columns k) && forallb my_key_option_ok (mk_options k).

(** The method of a key is not part of the database as sqldef has it, only that one is named. *)
Definition ideal_key_option (o : my_key_option) : index_option :=
  match o with
  | KUsing _ => mkIndexOption "using" None
  | KBlockSize z => mkIndexOption "key_block_size" (Some (integer_value z))
  | KComment s => mkIndexOption "comment" (Some (mkValue VStr s s 0 (S754_zero false) false))
  end.
Definition my_kind_type (k : my_kind) : string :=
  match k with KPrimary => "primary key" | KUnique => "unique key" | KPlain => "key" | KFulltext => "fulltext key" | KSpatial => "spatial key" end.
(** [i_clustered] means nothing on MySQL; a KEY has it as the grammar gives it. *)
Definition my_ideal_key (k : my_key) : index :=
  mkIndex (mk_name k) (my_kind_type (mk_kind k))
    (map (fun c => mkIndexColumn (kc_name c) (kc_length c) (if kc_desc c then "desc" else "asc")) (mk_columns k))
    match mk_kind k with KPrimary => true | _ => false end match mk_kind k with KPrimary | KUnique => true | _ => false end
    "" [] match mk_kind k with KPlain => true | _ => false end "" "" (map ideal_key_option (mk_options k)).

Inductive my_action := ARestrict | ACascade | ASetNull | ANoAction.
Definition action_text (a : my_action) : list string :=
  match a with ARestrict => ["RESTRICT"] | ACascade => ["CASCADE"] | ASetNull => ["SET"; "NULL"] | ANoAction => ["NO"; "ACTION"] end.
Record my_fk := mkMyFk {
  mf_name : string; mf_column : string; mf_columns : list string; mf_table : string; mf_ref_column : string; mf_ref_columns : list string;
  mf_delete : option my_action; mf_update : option my_action }.
Definition name_list (x : string) (l : list string) : list my_piece :=
  between (separated [comma_sign; blank1] (map (fun n => [MName n]) (x :: l))).
Definition shown_fk (f : my_fk) : list my_piece :=
  [MWord "CONSTRAINT"; blank1; MName (mf_name f); blank1; MWord "FOREIGN"; blank1; MWord "KEY"; blank1] ++
  name_list (mf_column f) (mf_columns f) ++ [blank1; MWord "REFERENCES"; blank1; MName (mf_table f); blank1] ++
  name_list (mf_ref_column f) (mf_ref_columns f) ++
  shown_if (fun a => keywords_text ("ON" :: "DELETE" :: action_text a)) (mf_delete f) ++
  shown_if (fun a => keywords_text ("ON" :: "UPDATE" :: action_text a)) (mf_update f).
Definition my_fk_ok (f : my_fk) : bool :=
  my_name (mf_name f) && my_name (mf_table f) && forallb my_name (mf_column f :: mf_columns f) && forallb my_name (mf_ref_column f :: mf_ref_columns f).
Definition ideal_action (a : option my_action) : string :=
  match a with Some ARestrict => "RESTRICT" | Some ACascade => "CASCADE" | Some ASetNull => "SET NULL" | Some ANoAction => "NO ACTION" | None => "" end.
Definition my_ideal_fk (f : my_fk) : foreign_key :=
  mkForeignKey (mf_name f) "" (mf_column f :: mf_columns f) (mf_table f) (mf_ref_column f :: mf_ref_columns f)
    (ideal_action (mf_delete f)) (ideal_action (mf_update f)) false.

(** ** Tables *)
Inductive my_option_value := OWord (w : string) | ONumber (z : Z) | OText (s : string).
Record my_option := mkMyOption { mo_name : string; mo_value : my_option_value }.
Record my_table := mkMyTable {
  my_table_name : string; my_first : my_column; my_columns : list my_column; my_keys : list my_key; my_fks : list my_fk; my_options : list my_option }.
Definition option_words (n : string) : list my_piece :=
  match n with
  | "DEFAULT CHARSET" => [MWord "DEFAULT"; blank1; MWord "CHARSET"]
  | "AUTO_INCREMENT" | "COLLATE" | "COMMENT" | "KEY_BLOCK_SIZE" => [MWord n]
  | _ => [MBare n]
  end.
Definition option_names : list string :=
  ["ENGINE"; "AUTO_INCREMENT"; "DEFAULT CHARSET"; "COLLATE"; "MIN_ROWS"; "MAX_ROWS"; "AVG_ROW_LENGTH"; "PACK_KEYS"; "STATS_PERSISTENT"; "CHECKSUM";
   "DELAY_KEY_WRITE"; "ROW_FORMAT"; "KEY_BLOCK_SIZE"; "COMMENT"].
Definition shown_option (o : my_option) : list my_piece :=
  blank1 :: option_words (mo_name o) ++ [MSign "="; match mo_value o with OWord w => MBare w | ONumber z => MNum z | OText s => MText s end].
Definition my_option_ok (o : my_option) : bool :=
  mem (mo_name o) option_names && match mo_value o with OWord w => my_word w | ONumber z => my_number z | OText s => my_text s end.

Definition shown_items (t : my_table) : list (list my_piece) :=
  map shown_column (my_first t :: my_columns t) ++ map shown_key (my_keys t) ++ map shown_fk (my_fks t).
Definition line_break : my_piece := MBlank (String "010" "  ").
Definition shown_table (t : my_table) : list my_piece :=
  [MWord "CREATE"; blank1; MWord "TABLE"; blank1; MName (my_table_name t); blank1; MSign "("; line_break] ++
  separated [comma_sign; line_break] (shown_items t) ++ [MBlank (String "010" ""); MSign ")"] ++
  flat_map shown_option (my_options t).
Definition show_create_table (t : my_table) : string := spell (shown_table t).

Definition my_table_ok (t : my_table) : bool :=
  my_name (my_table_name t) && forallb my_column_ok (my_first t :: my_columns t) && forallb my_key_ok (my_keys t) &&
  forallb my_fk_ok (my_fks t) && forallb my_option_ok (my_options t).
Definition my_ideal_table (t : my_table) : table :=
  mkTable (my_table_name t) (map my_ideal_column (my_first t :: my_columns t)) (map my_ideal_key (my_keys t)) (map my_ideal_fk (my_fks t)) [].

(** ** Views: columns of one table *)
Record my_view := mkMyView { mv_name : string; mv_schema : string; mv_table : string; mv_first : string * string; mv_columns : list (string * string) }.
Definition shown_view_column (v : my_view) (c : string * string) : list my_piece :=
  [MName (mv_schema v); MDot; MName (mv_table v); MDot; MName (fst c); blank1; MWord "AS"; blank1; MName (snd c)].
Definition shown_view (v : my_view) : list my_piece :=
  [MWord "select"; blank1] ++ separated [comma_sign] (map (shown_view_column v) (mv_first v :: mv_columns v)) ++
  [blank1; MWord "from"; blank1; MName (mv_schema v); MDot; MName (mv_table v)].
Definition view_definition (v : my_view) : string := spell (shown_view v).
Definition my_view_ok (v : my_view) : bool :=
  simple_name (mv_name v) && simple_name (mv_schema v) && simple_name (mv_table v) &&
  forallb (fun c => simple_name (fst c) && simple_name (snd c)) (mv_first v :: mv_columns v).
Definition my_ideal_view (v : my_view) : view :=
  mkView "" (mv_name v)
    ("select " ++ join ", " (map (fun c => mv_schema v ++ "." ++ mv_table v ++ "." ++ fst c ++ " as " ++ snd c) (mv_first v :: mv_columns v)) ++
     " from " ++ mv_schema v ++ "." ++ mv_table v)%string.

(** ** Triggers: one INSERT of fields of the row and numbers *)
Inductive my_timing := TBefore | TAfter.
Inductive my_event := TInsert | TUpdate | TDelete.
Inductive my_row := RNew | ROld.
Inductive my_given := GField (r : my_row) (c : string) | GNumber (z : Z).
Record my_insert := mkMyInsert { mi_table : string; mi_column : string; mi_columns : list string; mi_value : my_given; mi_values : list my_given }.
Record shown_trigger := mkShownTrigger { mt_name : string; mt_timing : my_timing; mt_event : my_event; mt_table : string; mt_insert : my_insert }.
Definition timing_word (t : my_timing) : string := match t with TBefore => "BEFORE" | TAfter => "AFTER" end.
Definition event_word (e : my_event) : string := match e with TInsert => "INSERT" | TUpdate => "UPDATE" | TDelete => "DELETE" end.
Definition row_word (r : my_row) : string := match r with RNew => "NEW" | ROld => "OLD" end.
Definition shown_given (v : my_given) : list my_piece :=
  match v with GField r c => [MBare (row_word r); MDot; MBare c] | GNumber z => [MNum z] end.
(** The statement is kept as it was written: this is one way to write it. *)
Definition shown_insert (i : my_insert) : list my_piece :=
  [MWord "insert"; blank1; MWord "into"; blank1; MBare (mi_table i)] ++
  between (separated [comma_sign; blank1] (map (fun c => [MBare c]) (mi_column i :: mi_columns i))) ++
  [blank1; MWord "values"; blank1] ++
  between (separated [comma_sign; blank1] (map shown_given (mi_value i :: mi_values i))).
Definition trigger_statement (t : shown_trigger) : string := spell (shown_insert (mt_insert t)).
Definition my_given_ok (v : my_given) : bool := match v with GField _ c => simple_name c | GNumber z => my_number z end.
Definition my_trigger_ok (t : shown_trigger) : bool :=
  simple_name (mt_name t) && simple_name (mt_table t) && simple_name (mi_table (mt_insert t)) &&
  forallb simple_name (mi_column (mt_insert t) :: mi_columns (mt_insert t)) &&
  forallb my_given_ok (mi_value (mt_insert t) :: mi_values (mt_insert t)).
Definition my_ideal_trigger (t : shown_trigger) : trigger :=
  mkTrigger "" (mt_name t) (mt_table t) (to_lower (timing_word (mt_timing t))) (to_lower (event_word (mt_event t))) [trigger_statement t].

(** ** Databases *)
Record my_database := mkMyDatabase { md_tables : list my_table; md_views : list my_view; md_triggers : list shown_trigger }.
Definition my_readable (d : my_database) : bool :=
  forallb my_table_ok (md_tables d) && forallb my_view_ok (md_views d) && forallb my_trigger_ok (md_triggers d) &&
  distinct (map my_table_name (md_tables d)) && distinct (map mv_name (md_views d)).
Definition my_ideal (d : my_database) : SpecMysql.catalogue :=
  mkCatalogue (map my_ideal_table (md_tables d)) (map my_ideal_view (md_views d)) (map my_ideal_trigger (md_triggers d)).

(** What the server answers: the tables and their texts, and the views.  Views of other databases
    are listed too; [rows] has no other definition of a view of the same name. *)
Record my_shows (d : my_database) (s : my_server) : Prop := {
  sh_tables : srv_tables s = map (fun t => (my_table_name t, show_create_table t)) (md_tables d);
  sh_views : srv_views s = map mv_name (md_views d);
  sh_row : forall v, In v (md_views d) -> In (mkMyViewRow (mv_schema v) (mv_name v) (view_definition v)) (srv_view_rows s);
  sh_rows : forall v r, In v (md_views d) -> In r (srv_view_rows s) -> vr_name r = mv_name v -> vr_definition r = view_definition v;
  sh_triggers : srv_triggers s =
    map (fun t => mkMyTrigger (mt_name t) (event_word (mt_event t)) (mt_table t) (trigger_statement t) (timing_word (mt_timing t))) (md_triggers d) }.

(** What holds of every database: no two columns, keys, foreign keys of a table and no two
    triggers have one name, an option of a key is shown once. *)
Definition key_option_name (o : my_key_option) : string := match o with KUsing _ => "USING" | KBlockSize _ => "KEY_BLOCK_SIZE" | KComment _ => "COMMENT" end.
Definition my_table_consistent (t : my_table) : bool :=
  distinct (map mc_name (my_first t :: my_columns t)) && distinct (map mk_name (my_keys t)) && distinct (map mf_name (my_fks t)) &&
  forallb (fun k => distinct (map key_option_name (mk_options k))) (my_keys t).
Definition my_consistent (d : my_database) : bool := forallb my_table_consistent (md_tables d) && distinct (map mt_name (md_triggers d)).
