(** Layouts of schema files: which texts list which statements. *)
From Coq Require Import String Ascii List ZArith Bool.
From Verif Require Import GoStr GoStrFacts SchemaText.
Import ListNotations.
Local Open Scope string_scope.

(** A gap between statements: white space and comment lines.  The first index says whether the
    gap starts at the beginning of a line, the second whether it ends there. *)
Inductive gap : bool -> string -> bool -> Prop :=
| gap_nil b : gap b "" b
| gap_space b a s e : is_space a = true -> a <> newline -> gap false s e -> gap b (String a s) e
| gap_newline b s e : gap true s e -> gap b (String newline s) e
| gap_comment c s e : has_char newline c = false -> gap true s e ->
    gap true ("--" ++ c ++ String newline s) e.

(** A single statement as written: not empty, not surrounded by white space, no semicolon, and
    no line starting with two dashes. *)
Record plain_statement (s : string) : Prop := {
  ps_first : exists a, first_char s = Some a /\ is_space a = false;
  ps_last : exists a, last_char s = Some a /\ is_space a = false;
  ps_semicolon : has_char semicolon s = false;
  ps_dashes : has_prefix s "--" = false;
  ps_dash_lines : contains s (String newline "--") = false }.

(** [schema_text b t l]: the text [t], which starts at the beginning of a line iff [b], lists
    the statements [l]. *)
Inductive schema_text : bool -> string -> list string -> Prop :=
| st_end b g e : gap b g e -> schema_text b g []
| st_end_comment b g c : gap b g true -> has_char newline c = false ->
    schema_text b (g ++ "--" ++ c) []
| st_last b g e s g' e' : gap b g e -> plain_statement s -> gap false g' e' ->
    schema_text b (g ++ s ++ g') [s]
| st_last_comment b g e s g' c : gap b g e -> plain_statement s -> gap false g' true ->
    has_char newline c = false -> schema_text b (g ++ s ++ g' ++ "--" ++ c) [s]
| st_empty b g e t l : gap b g e -> schema_text false t l -> schema_text b (g ++ ";" ++ t) l
| st_cons b g e s g' e' t l : gap b g e -> plain_statement s -> gap false g' e' ->
    schema_text false t l -> schema_text b (g ++ s ++ g' ++ ";" ++ t) (s :: l).
