(** Model of how the SQL formatter of sqlparser writes names and string values. *)
From Coq Require Import String Ascii List ZArith Bool.
From Verif Require Import GoStr Ast Keywords Lexer.
Import ListNotations.
Local Open Scope string_scope.

(** sqlparser/dependency/sqltypes/value.go 321-335: [encodeBytesSQL], reached from
    [SQLVal.Format] (sqlparser/ast.go 2483-2486) through [EncodeSQL] (215-224): VarBinary is
    a quoted type. *)
Fixpoint encode_chars (v : string) : string :=
  match v with
  | EmptyString => EmptyString
  | String c v' =>
      match sql_encode c with
      | None => String c (encode_chars v')
      | Some e => String "\" (String e (encode_chars v'))
      end
  end.
Definition encode_bytes_sql (v : string) : string := "'" ++ encode_chars v ++ "'".

(** sqlparser/ast.go 3605-3612: the name between backticks. *)
Fixpoint backticked (v : string) : string :=
  match v with
  | EmptyString => EmptyString
  | String c v' => if Ascii.eqb c "`" then String c (String "`" (backticked v')) else String c (backticked v')
  end.

(** sqlparser/ast.go 3591-3597: the loop, [first] is [i == 0]; [true] means [mustEscape].
    The loop goes over runes; the model is for names of ASCII characters, where runes are
    bytes. *)
Fixpoint must_escape (sysvar first : bool) (s : string) : bool :=
  match s with
  | EmptyString => false
  | String c r =>
      if negb (is_letter c) && (negb sysvar || negb (is_carat c)) && (first || negb (is_digit c)) then true
      else must_escape sysvar false r
  end.

(** sqlparser/ast.go 3585-3613: [formatID]; its callers (3451, 3529) pass the name and its
    lower case form. *)
Definition format_id (name : string) : string :=
  if must_escape (has_prefix name "@@") true name then "`" ++ backticked name ++ "`"
  else match find_keyword keywords (to_lower name) with
       | Some _ => "`" ++ backticked name ++ "`"
       | None => name
       end.
