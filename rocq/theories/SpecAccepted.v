(** Files that say the same statements in the same order, each in its own layout, quoting and
    letter case of keywords. *)
From Coq Require Import String Ascii List ZArith Bool.
From Verif Require Import GoStr Ast Generator SchemaText SpecLayout SpecWordsMysql.
Import ListNotations.
Local Open Scope string_scope.
Local Open Scope list_scope.

Definition same_file (m : mode) (a b : string) : Prop := Forall2 (same_words m) (split_statements a) (split_statements b).
