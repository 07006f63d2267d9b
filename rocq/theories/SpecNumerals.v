(** What numerals denote. *)
From Coq Require Import String Ascii List ZArith Bool.
From Verif Require Import GoStr SpecLexer.
Import ListNotations.
Local Open Scope string_scope.
Local Open Scope Z_scope.

(** The number written by decimal digits. *)
Definition amount (s : string) : Z :=
  fold_left (fun a c => 10 * a + (Z.of_N (N_of_ascii c) - Z.of_N (N_of_ascii "0"))) (list_ascii_of_string s) 0.

Definition sign (neg : bool) : string := if neg then "-" else "".

(** [integer_literal s z]: the numeral [s] denotes the integer [z]. *)
Inductive integer_literal : string -> Z -> Prop :=
| il_plain w : digits w -> w <> "" -> integer_literal w (amount w)
| il_negative w : digits w -> w <> "" -> integer_literal ("-" ++ w) (- amount w).

(** [power x e]: the exponent part [x] means a factor of 10^[e]. *)
Inductive power : string -> Z -> Prop :=
| pw_none : power "" 0
| pw_plain c w : among "eE" c -> digits w -> w <> "" -> power (String c w) (amount w)
| pw_plus c w : among "eE" c -> digits w -> w <> "" -> power (String c ("+" ++ w)) (amount w)
| pw_minus c w : among "eE" c -> digits w -> w <> "" -> power (String c ("-" ++ w)) (- amount w).

(** [decimal_literal s neg n k]: the numeral [s] denotes [n * 10^k], with the sign [neg]. *)
Inductive decimal_literal : string -> bool -> Z -> Z -> Prop :=
| dl_whole neg w x e : digits w -> w <> "" -> power x e ->
    decimal_literal (sign neg ++ w ++ x) neg (amount w) e
| dl_fraction neg w f x e : digits w -> digits f -> w ++ f <> "" -> power x e ->
    decimal_literal (sign neg ++ w ++ "." ++ f ++ x) neg (amount (w ++ f)) (e - Z.of_nat (String.length f)).

(** [n * 10^k] is [a] millionths. *)
Definition millionths (n k a : Z) : Prop :=
  0 <= k /\ n * 10 ^ k * 1000000 = a \/ k < 0 /\ n * 1000000 = a * 10 ^ (- k).
