(** Vocabulary for --skip-drop: the planned operations of a run, and the user's own strings
    inside an operation. *)
From Coq Require Import String Ascii List ZArith Bool.
From Verif Require Import GoStr GoNum Ast Generator SchemaText Runner.
Import ListNotations.
Local Open Scope string_scope.
Local Open Scope list_scope.

(** The operations a run plans, from the exported text and the schema file. *)
Definition planned_operations (w : world) (parse1 : mode -> string -> res ddl) (m : mode) (o : options)
  : res (list stmt) :=
  match snd (dump_ddls w []) with
  | None => Err (EParse "dump")
  | Some cur => match w_read_file w (fst (dump_ddls w [])) (opt_file o) with
                | None => Err (EParse "file")
                | Some des =>
                    do desired <- parse_ddls parse1 m des;
                    do current <- parse_ddls parse1 m cur;
                    plan m desired current
                end
  end.

(** The names, types, literals and clauses that the schemas supply to an operation. *)
Definition value_strings (v : option value) : list string :=
  match v with Some v => [v_raw v; v_str v] | None => [] end.

Definition column_strings (c : column) : list string :=
  [c_name c; c_type c; c_charset c; c_collate c] ++ c_enum c ++
  value_strings (c_length c) ++ value_strings (c_scale c) ++ value_strings (c_onupdate c) ++
  match c_default c with Some d => df_constraint d :: value_strings (df_value d) | None => [] end ++
  match c_check c with Some k => [ck_definition k] | None => [] end ++
  match c_identity c with Some i => [id_behavior i] | None => [] end ++
  match c_sequence c with Some s => [sq_name s] | None => [] end.

Definition index_strings (i : index) : list string :=
  [i_name i; i_type i; i_partition_name i; i_partition_column i] ++
  map ic_column (i_columns i) ++
  flat_map (fun o => io_name o :: value_strings (io_value o)) (i_options i).

Definition foreign_key_strings (f : foreign_key) : list string :=
  [fk_constraint f; fk_index_name f; fk_ref_name f; fk_on_delete f; fk_on_update f] ++
  fk_index_columns f ++ fk_ref_columns f.

Definition trigger_strings (t : trigger) : list string :=
  [tr_name t; tr_table t; tr_time t; tr_event t] ++ tr_body t.

Definition position_strings (p : col_pos) : list string :=
  match p with PosAfter c => [c] | _ => [] end.

(** For a statement of the schema file that is executed as written: its text. *)
Definition operation_strings (e : effect) : list string :=
  match e with
  | EffVerbatim d => [ddl_statement d]
  | EffCreateView v def | EffReplaceView v def => [v; def]
  | EffCreateTrigger tr | EffCreateOrAlterTrigger tr => trigger_strings tr
  | EffAddColumn t c p => t :: column_strings c ++ position_strings p
  | EffChangeColumn t old c p => t :: old :: column_strings c ++ position_strings p
  | EffAddUniqueKey t c | EffSetNotNull t c => [t; c]
  | EffAlterType t c ty => t :: c :: column_strings ty
  | EffAddIdentity t c i s => t :: c :: id_behavior i :: match s with Some s => [sq_name s] | None => [] end
  | EffSetIdentity t c i => [t; c; id_behavior i]
  | EffSetDefault t c d | EffAddDefault t c d => t :: c :: df_constraint d :: value_strings (df_value d)
  | EffAddCheck t c n k _ => [t; c; n; ck_definition k]
  | EffAddPrimaryKey t i | EffAddIndex t i => t :: index_strings i
  | EffAddForeignKey t f => t :: foreign_key_strings f
  | _ => []
  end.
