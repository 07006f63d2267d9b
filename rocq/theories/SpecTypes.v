(** Vocabulary for C34 and C35: the type a column declares. *)
From Coq Require Import String Ascii List ZArith Bool.
From Verif Require Import GoStr Ast Generator SpecPlan SpecColumns SpecSql.
Import ListNotations.
Local Open Scope string_scope.
Local Open Scope list_scope.

(** The whole declared type: name, length and scale (or the values of an enum), time zone,
    array marker. *)
Definition full_type (c : column) : string :=
  let arguments :=
    match c_length c, c_scale c with
    | Some l, Some s => Some [v_raw l; v_raw s]
    | Some l, None => Some [v_raw l]
    | None, _ => if String.eqb (c_type c) "enum" then Some (c_enum c) else None
    end in
  (sentence ([c_type c ++ match arguments with Some l => parens (join ", " l) | None => "" end]%string ++
             when (c_timezone c) ["WITH TIME ZONE"]) ++
   (if c_array c then "[]" else ""))%string.

(** The same column, its type possibly spelled by another alias. *)
Definition set_type (ty : string) (c : column) : column :=
  mkColumn (c_name c) (c_position c) ty (c_unsigned c) (c_notnull c) (c_autoinc c)
    (c_array c) (c_default c) (c_length c) (c_scale c) (c_check c) (c_check_no_inherit c)
    (c_charset c) (c_collate c) (c_timezone c) (c_key c) (c_onupdate c) (c_enum c) (c_references c)
    (c_identity c) (c_sequence c).
Definition respelled (m : mode) (cc c : column) : Prop :=
  exists ty, c = set_type ty cc /\ same_type m (c_type cc) ty.

(** A column that would not be changed if it were spelled alike. *)
Definition steady (m : mode) (c : column) : Prop :=
  default_matches c c /\ (m = Mysql -> definition_matches c c).
