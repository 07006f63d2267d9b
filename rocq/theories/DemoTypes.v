(** Schemas used by the examples of PropsTypes.v. *)
From Coq Require Import String Ascii List ZArith Bool.
From Verif Require Import GoStr GoNum Ast Generator SpecPlan DemoPlan.
Import ListNotations.
Local Open Scope string_scope.
Local Open Scope list_scope.

Definition spelled (ty : string) : list ddl :=
  [CreateTable "CREATE TABLE t (...)" (mkTable "public.t" [with_default (int_value 1 "1") (col "a" 0 ty); col "b" 1 "text"] [] [] [])].

Definition the_columns (l : list ddl) : table := nth_created 0 l.

Definition zoned (c : column) : column :=
  mkColumn (c_name c) (c_position c) (c_type c) (c_unsigned c) (c_notnull c) (c_autoinc c)
    (c_array c) (c_default c) (c_length c) (c_scale c) (c_check c) (c_check_no_inherit c)
    (c_charset c) (c_collate c) true (c_key c) (c_onupdate c) (c_enum c) (c_references c)
    (c_identity c) (c_sequence c).

Definition one_column (c : column) : list ddl := [CreateTable "CREATE TABLE t (...)" (mkTable "public.t" [c] [] [] [])].

Definition with_scale (l s : Z) (c : column) : column :=
  let c := with_length l (show_Z l) c in
  mkColumn (c_name c) (c_position c) (c_type c) (c_unsigned c) (c_notnull c) (c_autoinc c)
    (c_array c) (c_default c) (c_length c) (Some (int_value s (show_Z s))) (c_check c) (c_check_no_inherit c)
    (c_charset c) (c_collate c) (c_timezone c) (c_key c) (c_onupdate c) (c_enum c) (c_references c)
    (c_identity c) (c_sequence c).
