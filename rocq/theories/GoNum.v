(** Numbers as sqldef handles them: [%d] and [%f] formatting, [strconv.Atoi] and
    [strconv.ParseFloat] on the numerals the tokenizer produces.

    float64 is modelled by [SpecFloat.spec_float] of the standard library with precision 53
    and maximal exponent 1024. Nothing here uses Coq's primitive floats. *)
From Coq Require Import String Ascii List ZArith Bool SpecFloat.
From Verif Require Import GoStr.
Import ListNotations.
Local Open Scope string_scope.
Local Open Scope Z_scope.

Definition float64 := spec_float.
Definition f_zero : float64 := S754_zero false.

(** Round the non-negative rational [n / d] ([d > 0]) to an integer, ties to even. *)
Definition round_half_even (n d : Z) : Z :=
  let q := n / d in
  let r := n mod d in
  match (2 * r) ?= d with
  | Lt => q
  | Gt => q + 1
  | Eq => if Z.even q then q else q + 1
  end.

(** A non-negative integer on exactly [k] decimal digits (the low ones). *)
Fixpoint pad_digits (k : nat) (z : Z) : string :=
  match k with
  | O => EmptyString
  | S k' => pad_digits k' (z / 10) ++ show_Z (z mod 10)
  end.

(** [fmt.Sprintf("%f", x)]: sign, integer part, point, six decimals, correctly rounded. *)
Definition show_f (x : float64) : string :=
  match x with
  | S754_zero s => (if s then "-" else "") ++ "0.000000"
  | S754_infinity s => (if s then "-Inf" else "+Inf")
  | S754_nan => "NaN"
  | S754_finite s m e =>
      let n := Zpos m * 1000000 in
      let r := if 0 <=? e then n * 2 ^ e else round_half_even n (2 ^ (- e)) in
      (if s then "-" else "") ++ show_Z (r / 1000000) ++ "." ++ pad_digits 6 (r mod 1000000)
  end.
