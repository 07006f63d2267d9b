(** Notions for what sqldef writes and reads back. *)
From Coq Require Import String Ascii List ZArith Bool.
From Verif Require Import GoStr Ast Keywords Lexer SpecLexer.
Import ListNotations.
Local Open Scope string_scope.

(** No token is a lexical error. *)
Definition no_errors (l : list (kind * string)) : Prop := forall v, ~ In (lex_error, v) l.

(** Two texts have the same kinds of tokens, or both make the tokenizer panic. *)
Definition same_kinds (x y : stream) : Prop :=
  match x, y with
  | Tokens l, Tokens l' => map fst l = map fst l'
  | StreamPanic, StreamPanic | StreamFuel, StreamFuel => True
  | _, _ => False
  end.

(** The character that ends a quoted name. *)
Definition closing (m : mode) : ascii := match m with Postgres => c_dq | Mssql => "]" | _ => "`" end%char.
Definition occurs (c : ascii) (s : string) : Prop := In c (list_ascii_of_string s).

(** A comment for MySQL only that has nothing after its version number. *)
Definition bare_comment (x : string) : Prop :=
  exists d, all_of digit d /\ String.length d <= 5 /\ x = "/*!" ++ d ++ "*/".

(** A name that can be written without quotes: a word or a variable that is not a keyword. *)
Inductive plain_name : string -> Prop :=
| pl_word c w : letter c -> all_of word_char w -> (forall k, ~ In (to_lower (String c w), k) keywords) ->
    plain_name (String c w)
| pl_variable w : all_of variable_char w -> (forall k, ~ In (to_lower ("@@" ++ w), k) keywords) ->
    plain_name ("@@" ++ w).
