(** Specification of the SQL text of each planned operation: words separated by single spaces,
    as the manuals of the four databases write them.  None of the planner's functions is used.
    [None]: there is no such statement (in that dialect). *)
From Coq Require Import String Ascii List ZArith Bool.
From Verif Require Import GoStr GoNum Ast Generator.
Import ListNotations.
Local Open Scope string_scope.
Local Open Scope list_scope.

Definition sentence (words : list string) : string := join " " words.
Definition when (b : bool) (words : list string) : list string := if b then words else [].
Definition given (s : string) (words : list string) : list string := when (negb (String.eqb s "")) words.
Definition parens (s : string) : string := ("(" ++ s ++ ")")%string.

(** Names between the quotes of the dialect. *)
Definition quoted (m : mode) (n : string) : string :=
  match m with
  | Mysql | SQLite3 => ("`" ++ n ++ "`")%string
  | Postgres => (dq ++ n ++ dq)%string
  | Mssql => ("[" ++ n ++ "]")%string
  end.

(** Tables: on PostgreSQL and SQL Server a name is the part before its first dot, which is the
    schema, and the rest; without a dot the schema is the default one. *)
Definition table_ref (m : mode) (n : string) : string :=
  let full sch tbl := (quoted m sch ++ "." ++ quoted m tbl)%string in
  match m with
  | Mysql | SQLite3 => quoted m n
  | Postgres | Mssql =>
      match split_char "." n with
      | sch :: (_ :: _) as rest => full sch (join "." rest)
      | _ => full (match m with Postgres => "public" | _ => "dbo" end) n
      end
  end.

(** The name of a table without its schema. *)
Definition bare_name (n : string) : string := join "." (tl (split_char "." n)).

(** ** Columns *)

Definition default_text (v : value) : option string :=
  match v_type v with
  | VStr => Some (sentence ["DEFAULT"; ("'" ++ v_str v ++ "'")%string])
  | VInt => Some (sentence ["DEFAULT"; show_Z (v_int v)])
  | VFloat => Some (sentence ["DEFAULT"; show_f (v_float v)])
  | VBit => Some (sentence ["DEFAULT"; if v_bit v then "b'1'" else "b'0'"])
  | VValArg => Some (sentence ["DEFAULT"; v_raw v])
  | VHexNum | VHex | VBool => None
  end.

(** Type, length and scale (or the values of an enum), array marker. *)
Definition type_text (c : column) : string :=
  let arguments :=
    match c_length c, c_scale c with
    | Some l, Some s => Some [v_raw l; v_raw s]
    | Some l, None => Some [v_raw l]
    | None, _ => if String.eqb (c_type c) "enum" then Some (c_enum c) else None
    end in
  (c_type c ++ match arguments with Some l => parens (join ", " l) | None => "" end ++
   if c_array c then "[]" else "")%string.

Definition number_words (word : string) (z : option Z) : list string :=
  match z with Some n => [word; show_Z n] | None => [] end.

Definition sequence_text (s : sequence) : string :=
  trim_space (sentence
    (given (sq_name s) ["SEQUENCE NAME"; sq_name s] ++
     number_words "START WITH" (sq_start_with s) ++
     number_words "INCREMENT BY" (sq_increment_by s) ++
     number_words "MINVALUE" (sq_min_value s) ++ when (sq_no_min_value s) ["NO MINVALUE"] ++
     number_words "MAXVALUE" (sq_max_value s) ++ when (sq_no_max_value s) ["NO MAXVALUE"] ++
     number_words "CACHE" (sq_cache s) ++ when (sq_cycle s) ["CYCLE"] ++
     when (sq_no_cycle s) ["NO CYCLE"])).

(** NOT NULL for required and primary key columns, unless they are identity columns. *)
Definition null_words (c : column) : list string :=
  match c_identity c, c_notnull c, c_key c with
  | None, Some true, _ | None, _, KeyPrimary => ["NOT NULL"]
  | _, Some false, _ => ["NULL"]
  | _, _, _ => []
  end.

Definition default_words (c : column) : option (list string) :=
  match c_default c with
  | Some (mkDefault (Some v) _) => option_map (fun s => [s]) (default_text v)
  | _ => Some []
  end.

Definition check_words (c : column) : list string :=
  match c_check c with
  | Some k => ["CHECK"] ++ when (ck_not_for_replication k) ["NOT FOR REPLICATION"] ++
              [parens (ck_definition k)]
  | None => []
  end.

Definition unique_words (unique : bool) (c : column) : option (list string) :=
  match c_key c with
  | KeyNone | KeyPrimary => Some []
  | KeyUnique => Some (when unique ["UNIQUE"])
  | KeyUniqueKey => Some (when unique ["UNIQUE KEY"])
  | KeySpatial | KeyKey => None
  end.

(** GENERATED ... AS IDENTITY, or IDENTITY(start,step) on SQL Server. *)
Definition identity_words (m : mode) (c : column) : option (list string) :=
  match c_identity c, c_sequence c with
  | Some (mkIdentity (String _ _ as behavior) _), s =>
      Some (["GENERATED"; behavior; "AS IDENTITY"] ++
            match s with Some s => [parens (sequence_text s)] | None => [] end)
  | i, Some s =>
      match m, i, sq_start_with s, sq_increment_by s with
      | Mssql, Some i, Some a, Some b =>
          Some ([("IDENTITY(" ++ show_Z a ++ "," ++ show_Z b ++ ")")%string] ++
                when (id_not_for_replication i) ["NOT FOR REPLICATION"])
      | Mssql, _, _, _ => None
      | _, _, _, _ => Some []
      end
  | _, None => Some []
  end.

(** The definition of a column; UNIQUE is part of it only where it is added ([unique]). *)
Definition column_text (m : mode) (unique : bool) (c : column) : option string :=
  match default_words c, unique_words unique c, identity_words m c with
  | Some default, Some uniq, Some identity =>
      Some (sentence
        ([quoted m (c_name c); type_text c] ++
         when (c_unsigned c) ["UNSIGNED"] ++
         when (c_timezone c) ["WITH TIME ZONE"] ++
         given (c_charset c) ["CHARACTER SET"; c_charset c] ++
         given (c_collate c) ["COLLATE"; c_collate c] ++
         null_words c ++ default ++
         when (c_autoinc c) ["AUTO_INCREMENT"] ++
         match c_onupdate c with Some v => ["ON UPDATE"; v_raw v] | None => [] end ++
         check_words c ++ when (c_check_no_inherit c) ["NO INHERIT"] ++ uniq ++ identity))
  | _, _, _ => None
  end.

Definition position_words (m : mode) (p : col_pos) : list string :=
  match p with PosNone => [] | PosFirst => ["FIRST"] | PosAfter c => ["AFTER"; quoted m c] end.

(** ** Keys *)
Definition key_column (m : mode) (ic : index_column) : string :=
  sentence ([(quoted m (ic_column ic) ++
              match ic_length ic with Some n => parens (show_Z n) | None => "" end)%string] ++
            when (String.eqb (ic_direction ic) "desc") ["desc"]).

Definition key_columns (m : mode) (i : index) : string :=
  parens (join ", " (map (key_column m) (i_columns i))).

(** SQL Server lists all options, MySQL takes the first. *)
Definition mssql_option (o : index_option) : option string :=
  match io_value o with
  | Some v => Some (sentence [io_name o; "=";
      match v_type v with VBool => if String.eqb (v_raw v) "true" then "ON" else "OFF" | _ => v_raw v end])
  | None => None
  end.

Fixpoint all_some {A} (l : list (option A)) : option (list A) :=
  match l with
  | [] => Some []
  | Some x :: l' => option_map (cons x) (all_some l')
  | None :: _ => None
  end.

Definition option_words (m : mode) (l : list index_option) : option (list string) :=
  match m, l with
  | _, [] | Postgres, _ | SQLite3, _ => Some []
  | Mysql, mkIndexOption n (Some v) :: _ =>
      Some ((if String.eqb n "parser" then ["WITH parser"] else [n]) ++ [v_raw v])
  | Mysql, _ => None
  | Mssql, _ => option_map (fun l => ["WITH"; parens (join ", " l)]) (all_some (map mssql_option l))
  end.

Definition add_key (m : mode) (t : string) (i : index) : option string :=
  match option_words m (i_options i) with
  | None => None
  | Some options =>
      let clustered := if i_clustered i then "CLUSTERED" else "NONCLUSTERED" in
      Some (sentence
        match m, i_primary i with
        | Mssql, true =>
            ["ALTER TABLE"; table_ref m t; "ADD"] ++
            when (negb (String.eqb (i_name i) "PRIMARY")) ["CONSTRAINT"; quoted m (i_name i)] ++
            [i_type i; clustered; key_columns m i] ++ options
        | Mssql, false =>
            ["CREATE"] ++ when (i_unique i) ["UNIQUE"] ++
            [clustered; "INDEX"; quoted m (i_name i); "ON"; table_ref m t; key_columns m i] ++ options ++
            given (i_partition_name i)
              (["ON"; quoted m (i_partition_name i)] ++
               given (i_partition_column i) [parens (quoted m (i_partition_column i))])
        | _, primary =>
            ["ALTER TABLE"; table_ref m t; "ADD"; i_type i] ++
            when (negb primary) [quoted m (i_name i)] ++ [key_columns m i] ++ options
        end)
  end.

Definition drop_index (m : mode) (t i : string) : option string :=
  match m with
  | Mysql => Some (sentence ["ALTER TABLE"; table_ref m t; "DROP INDEX"; quoted m i])
  | Postgres => Some (sentence ["DROP INDEX"; quoted m i])
  | Mssql => Some (sentence ["DROP INDEX"; quoted m i; "ON"; table_ref m t])
  | SQLite3 => None
  end.

Definition foreign_key_words (m : mode) (f : foreign_key) : list string :=
  let names l := parens (join "," (map (quoted m) l)) in
  ["CONSTRAINT"; quoted m (fk_constraint f); "FOREIGN KEY"] ++
  given (fk_index_name f) [quoted m (fk_index_name f)] ++
  [names (fk_index_columns f); "REFERENCES"; quoted m (fk_ref_name f); names (fk_ref_columns f)] ++
  given (fk_on_delete f) ["ON DELETE"; fk_on_delete f] ++
  given (fk_on_update f) ["ON UPDATE"; fk_on_update f] ++
  when (fk_not_for_replication f) ["NOT FOR REPLICATION"].

(** ** Triggers *)
Definition trigger_words (m : mode) (t : trigger) : option (list string) :=
  match m with
  | Mysql => Some (["TRIGGER"; quoted m (tr_name t); tr_time t; tr_event t; "ON";
                    table_ref m (tr_table t); "FOR EACH ROW"; sentence (tr_body t)])
  | Mssql => Some (["TRIGGER"; quoted m (tr_name t); "ON"; table_ref m (tr_table t); tr_time t;
                    tr_event t; "AS"; sentence (tr_body t)])
  | _ => None
  end.

(** ** The text of an operation *)
Definition sql_of (m : mode) (e : effect) : option string :=
  let alter t words := Some (sentence (["ALTER TABLE"; table_ref m t] ++ words)) in
  let alter_column t c words := alter t (["ALTER COLUMN"; quoted m c] ++ words) in
  match e, m with
  | EffVerbatim d, _ => Some (ddl_statement d)
  | EffDropTable t, _ => Some (sentence ["DROP TABLE"; table_ref m t])
  | EffDropView v, _ => Some (sentence ["DROP VIEW"; table_ref m v])
  | EffCreateView v def, (SQLite3 | Mssql) => Some (sentence ["CREATE VIEW"; table_ref m v; "AS"; def])
  | EffReplaceView v def, (Mysql | Postgres) =>
      Some (sentence ["CREATE OR REPLACE VIEW"; table_ref m v; "AS"; def])
  | EffDropPolicy p t, _ => Some (sentence ["DROP POLICY"; quoted m p; "ON"; table_ref m t])
  | EffDropTrigger n, Mysql => Some (sentence ["DROP TRIGGER"; quoted m n])
  | EffCreateTrigger tr, _ => option_map (fun w => sentence ("CREATE" :: w)) (trigger_words m tr)
  | EffCreateOrAlterTrigger tr, Mssql =>
      option_map (fun w => sentence ("CREATE OR ALTER" :: w)) (trigger_words m tr)
  | EffAddColumn t c p, _ =>
      match column_text m true c with
      | Some def => alter t ([match m with Mssql => "ADD" | _ => "ADD COLUMN" end; def] ++ position_words m p)
      | None => None
      end
  | EffChangeColumn t old c p, Mysql =>
      match column_text m false c with
      | Some def => alter t (["CHANGE COLUMN"; quoted m old; def] ++ position_words m p)
      | None => None
      end
  | EffDropColumn t c, _ => alter t ["DROP COLUMN"; quoted m c]
  | EffAddUniqueKey t c, Mysql => alter t ["ADD UNIQUE KEY"; (quoted m c ++ parens (quoted m c))%string]
  | EffAlterType t c ty, Postgres => alter_column t c ["TYPE"; type_text ty]
  | EffDropNotNull t c, Postgres => alter_column t c ["DROP NOT NULL"]
  | EffSetNotNull t c, Postgres => alter_column t c ["SET NOT NULL"]
  | EffAddIdentity t c i s, Postgres =>
      alter_column t c (["ADD GENERATED"; id_behavior i; "AS IDENTITY"] ++
                        match s with Some s => [parens (sequence_text s)] | None => [] end)
  | EffDropIdentity t c, Postgres => alter_column t c ["DROP IDENTITY IF EXISTS"]
  | EffSetIdentity t c i, Postgres => alter_column t c ["SET GENERATED"; id_behavior i]
  | EffDropDefault t c, Postgres => alter_column t c ["DROP DEFAULT"]
  | EffSetDefault t c (mkDefault (Some v) _), Postgres =>
      match default_text v with Some d => alter_column t c ["SET"; d] | None => None end
  | EffAddDefault t c (mkDefault (Some v) n), Mssql =>
      match default_text v with
      | Some d => alter t (["ADD"] ++ given n ["CONSTRAINT"; quoted m n] ++ [d; "FOR"; quoted m c])
      | None => None
      end
  | EffDropDefaultConstraint t _ n, Mssql => alter t ["DROP CONSTRAINT"; quoted m n]
  | EffDropCheck t _ n, (Postgres | Mssql) => alter t ["DROP CONSTRAINT"; n]
  | EffAddCheck t _ n k b, (Postgres | Mssql) =>
      alter t (["ADD CONSTRAINT"; n; "CHECK"] ++
               when (match m with Mssql => ck_not_for_replication k | _ => false end) ["NOT FOR REPLICATION"] ++
               [parens (ck_definition k)] ++ when b ["NO INHERIT"])
  | EffDropPrimaryKey t, Mysql => alter t ["DROP PRIMARY KEY"]
  | EffDropPrimaryKey t, Postgres =>
      alter t ["DROP CONSTRAINT"; quoted m (bare_name t ++ "_pkey")%string]
  | EffDropPrimaryConstraint t n, Mssql => alter t ["DROP CONSTRAINT"; quoted m n]
  | EffAddPrimaryKey t i, _ => if i_primary i then add_key m t i else None
  | EffAddIndex t i, _ => if i_primary i then None else add_key m t i
  | EffDropIndex t i, _ => drop_index m t i
  | EffNothing _, SQLite3 => Some ""
  | EffDropForeignKey t f, Mysql => alter t ["DROP FOREIGN KEY"; quoted m f]
  | EffDropForeignKey t f, (Postgres | Mssql) => alter t ["DROP CONSTRAINT"; quoted m f]
  | EffAddForeignKey t f, _ => alter t ("ADD" :: foreign_key_words m f)
  | _, _ => None
  end.

(** Operations that remove something from the schema. *)
Definition removes (e : effect) : bool :=
  match e with
  | EffDropTable _ | EffDropView _ | EffDropPolicy _ _ | EffDropTrigger _ | EffDropColumn _ _
  | EffDropNotNull _ _ | EffDropIdentity _ _ | EffDropDefault _ _ | EffDropDefaultConstraint _ _ _
  | EffDropCheck _ _ _ | EffDropPrimaryKey _ | EffDropPrimaryConstraint _ _ | EffDropIndex _ _
  | EffDropForeignKey _ _ => true
  | _ => false
  end.
