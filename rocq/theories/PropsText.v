(** Properties C11 and C12: splitting of schema text. *)
From Coq Require Import String Ascii List ZArith Bool.
From Verif Require Import GoStr GoStrFacts Ast Generator SchemaText SpecText ProofText.
Import ListNotations.
Local Open Scope string_scope.

(** C11 *)
Theorem C11_text_is_split_faithfully t l : schema_text true t l -> split_statements t = l.
Proof. exact (schema_text_split t l). Qed.
Print Assumptions C11_text_is_split_faithfully.

Example C11_example :
  schema_text true ("-- first; comment" ++ nl ++ "CREATE TABLE a (x int);" ++ nl ++ "-- second" ++ nl ++ " CREATE VIEW v" ++ nl)
    ["CREATE TABLE a (x int)"; "CREATE VIEW v"].
Proof.
  apply (st_cons true ("-- first; comment" ++ nl) true "CREATE TABLE a (x int)" "" false
                 (nl ++ "-- second" ++ nl ++ " CREATE VIEW v" ++ nl)).
  - apply (gap_comment " first; comment" ""); [reflexivity|constructor].
  - constructor; try reflexivity; eexists; split; reflexivity.
  - constructor.
  - apply (st_last false (nl ++ "-- second" ++ nl ++ " ") false "CREATE VIEW v" nl true).
    + apply gap_newline, (gap_comment " second" " "); [reflexivity|]. apply gap_space; [reflexivity|discriminate|constructor].
    + constructor; try reflexivity; eexists; split; reflexivity.
    + apply gap_newline, gap_nil.
Qed.

(** The statements are parsed in order and the first error is reported. *)
Theorem C11_statements_parsed_in_order parse1 m t l :
  schema_text true t l ->
  (forall ds, Forall2 (fun x d => parse1 m x = Ok d) l ds -> parse_ddls parse1 m t = Ok ds) /\
  (forall a x b e ds, l = (a ++ x :: b)%list -> Forall2 (fun x d => parse1 m x = Ok d) a ds ->
     parse1 m x = Err e -> parse_ddls parse1 m t = Err e).
Proof. exact (schema_text_parse parse1 m t l). Qed.
Print Assumptions C11_statements_parsed_in_order.

(** C12: false; the splitter does not know string literals. *)
Theorem C12_semicolon_in_literal_refuted :
  exists s, s = "CREATE TABLE a (x varchar(9) DEFAULT 'p;q')" /\
    split_statements (s ++ ";") = ["CREATE TABLE a (x varchar(9) DEFAULT 'p"; "q')"].
Proof. eexists; split; [reflexivity|]. reflexivity. Qed.
Print Assumptions C12_semicolon_in_literal_refuted.

Theorem C12_dashes_in_literal_refuted :
  exists s, s = "CREATE TABLE a (x text DEFAULT 'p" ++ nl ++ "--q')" /\
    split_statements (s ++ ";") <> [s].
Proof. eexists; split; [reflexivity|]. vm_compute. discriminate. Qed.
Print Assumptions C12_dashes_in_literal_refuted.
