(** The planner from text to text: /repo/schema/generator.go 58-76 [GenerateIdempotentDDLs] on
    the parser of schema/parser.go (279-444) and sqlparser (ast.go 67-76). *)
From Coq Require Import String List.
From Verif Require Import Ast Generator SchemaText SchemaParse Parser.

Definition parse_file : mode -> string -> res (list ddl) := parse_ddls (parse_ddl parse_strict_ddl).
Definition plan_text : mode -> string -> string -> res (list string) := generate_idempotent_ddls parse_file.
