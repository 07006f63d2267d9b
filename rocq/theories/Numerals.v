(** Model of [strconv.Atoi] and [strconv.ParseFloat] on the texts the tokenizer produces, and
    of [parseValue] and [parseLength], schema/parser.go 28-92. *)
From Coq Require Import String Ascii List ZArith Bool SpecFloat.
From Verif Require Import GoStr GoNum Ast Lexer.
Import ListNotations.
Local Open Scope string_scope.
Local Open Scope Z_scope.

Definition digit_value (c : ascii) : Z := Z.of_N (N_of_ascii c) - 48.

(** The value of decimal digits, after [acc]; [None]: not all are digits. *)
Fixpoint digits_value (acc : Z) (s : string) : option Z :=
  match s with
  | EmptyString => Some acc
  | String c r => if is_digit c then digits_value (10 * acc + digit_value c) r else None
  end.

Definition int_min : Z := - 2 ^ 63.
Definition int_max : Z := 2 ^ 63 - 1.

Definition split_sign (s : string) : bool * string :=
  match s with
  | String c r => if Ascii.eqb c "-" then (true, r) else if Ascii.eqb c "+" then (false, r) else (false, s)
  | EmptyString => (false, s)
  end.

(** [strconv.Atoi] on a 64 bit system: the value and whether there is no error.  A syntax
    error gives 0, a range error the nearest value. *)
Definition atoi (s : string) : Z * bool :=
  let (neg, d) := split_sign s in
  if String.eqb d "" then (0, false)
  else match digits_value 0 d with
       | None => (0, false)
       | Some n =>
           let z := if neg then - n else n in
           if z <? int_min then (int_min, false) else if int_max <? z then (int_max, false) else (z, true)
       end.

(** The float64 nearest to [n / d], ties to even ([n >= 0], [d > 0]); infinite if too large. *)
Definition nearest (neg : bool) (n d : Z) : float64 :=
  match n with
  | Z0 => S754_zero neg
  | _ => let '(m, e, l) := SFdiv_core_binary 53 1024 n 0 d 0 in binary_round_aux 53 1024 neg m e l
  end.

(** The nearest float64 to [n * 10^k]. *)
Definition scaled (neg : bool) (n k : Z) : float64 :=
  if 0 <=? k then nearest neg (n * 10 ^ k) 1 else nearest neg n (10 ^ (- k)).

(** [strconv.ParseFloat(s, 64)] without its error: digits, at most one point, an optional
    exponent.  A syntax error gives 0, a range error an infinity.  The texts Go accepts
    besides (hexadecimal, underscores, [inf], [nan]) are never FLOAT tokens.  Go stops adding
    digits to an exponent that has reached 10000; the model does not. *)
Definition parse_float (s : string) : float64 :=
  let (neg, s) := split_sign s in
  let (w, s) := span is_digit s in
  let (f, s) := if at_char "." s then span is_digit (next s) else ("", s) in
  if String.eqb (w ++ f) "" then f_zero
  else
    match digits_value 0 (w ++ f) with
    | None => f_zero
    | Some n =>
        let k := - Z.of_nat (String.length f) in
        if String.eqb s "" then scaled neg n k
        else if at_class (one_of ["e"; "E"]%char) s then
          let (eneg, x) := split_sign (next s) in
          if String.eqb x "" then f_zero
          else match digits_value 0 x with
               | None => f_zero
               | Some e => scaled neg n (k + (if eneg then - e else e))
               end
        else f_zero
    end.

(** sqlparser/ast.go 2409-2432: the kinds of literals, and [SQLVal]. *)
Inductive val_type := StrVal | IntVal | FloatVal | HexNum | HexVal | ValArg | BitVal | ValBool.
Record sql_val := mkSqlVal { sv_type : val_type; sv_val : string }.

(** schema/parser.go 28-76: [parseValue] of a value that is not nil. *)
Definition parse_value (v : sql_val) : value :=
  let raw := sv_val v in
  match sv_type v with
  | StrVal => mkValue VStr raw raw 0 f_zero false
  | IntVal => mkValue VInt raw "" (fst (atoi raw)) f_zero false
  | FloatVal => mkValue VFloat raw "" 0 (parse_float raw) false
  | HexNum => mkValue VHexNum raw "" 0 f_zero false
  | HexVal => mkValue VHex raw "" 0 f_zero false
  | ValArg => mkValue VValArg raw "" 0 f_zero false
  | BitVal => mkValue VBit raw "" 0 f_zero (String.eqb raw "1")
  | ValBool => mkValue VBool raw "" 0 f_zero false
  end.
