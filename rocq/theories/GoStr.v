(** Models of the few functions of Go's [strings] and [fmt] packages that sqldef calls.

    Simplification (stated once, for the whole development): a Go string is a sequence of
    bytes, modelled by Coq's [string] (a list of 8-bit characters).  [strings.ToLower] and
    [strings.TrimSpace] are modelled on the ASCII range only; for bytes >= 128 they are the
    identity here (Go folds Unicode letters and trims Unicode spaces). *)
From Coq Require Import String Ascii List ZArith Bool DecimalString Decimal.
Import ListNotations.
Local Open Scope string_scope.

(** The newline and the other control characters used below. *)
Definition nl : string := String (ascii_of_nat 10) EmptyString.
Definition dq : string := String (ascii_of_nat 34) EmptyString.

(** [strings.HasPrefix(s, p)] *)
Fixpoint has_prefix (s p : string) : bool :=
  match p, s with
  | EmptyString, _ => true
  | String a p', String b s' => if Ascii.eqb a b then has_prefix s' p' else false
  | String _ _, EmptyString => false
  end.

(** [strings.Contains(s, sub)] *)
Fixpoint contains (s sub : string) : bool :=
  has_prefix s sub ||
  match s with
  | EmptyString => false
  | String _ s' => contains s' sub
  end.

(** [strings.Join(l, sep)] *)
Fixpoint join (sep : string) (l : list string) : string :=
  match l with
  | [] => EmptyString
  | [x] => x
  | x :: l' => x ++ sep ++ join sep l'
  end.

(** [strings.Split(s, c)] for a separator of one character. *)
Fixpoint split_char (c : ascii) (s : string) : list string :=
  match s with
  | EmptyString => [EmptyString]
  | String a s' =>
      if Ascii.eqb a c then EmptyString :: split_char c s'
      else match split_char c s' with
           | [] => [String a EmptyString]
           | x :: l => String a x :: l
           end
  end.

(** [strings.SplitN(s, c, 2)] for a separator of one character: either one element (no
    separator) or the parts before and after the first separator. *)
Fixpoint split_first (c : ascii) (s : string) : option (string * string) :=
  match s with
  | EmptyString => None
  | String a s' =>
      if Ascii.eqb a c then Some (EmptyString, s')
      else match split_first c s' with
           | Some (x, y) => Some (String a x, y)
           | None => None
           end
  end.

(** Drop the first [length p] characters. *)
Fixpoint drop_len (s p : string) : string :=
  match p, s with
  | EmptyString, _ => s
  | String _ p', String _ s' => drop_len s' p'
  | String _ _, EmptyString => EmptyString
  end.

(** [strings.Replace(s, old, new, 1)] for a non-empty [old]. *)
Fixpoint replace_first (s old new : string) : string :=
  if has_prefix s old then new ++ drop_len s old
  else match s with
       | EmptyString => EmptyString
       | String a s' => String a (replace_first s' old new)
       end.

(** [strings.Replace(s, c, "", -1)] for one character. *)
Fixpoint remove_char (c : ascii) (s : string) : string :=
  match s with
  | EmptyString => EmptyString
  | String a s' => if Ascii.eqb a c then remove_char c s' else String a (remove_char c s')
  end.

(** [strings.ToLower], ASCII range. *)
Definition lower_ascii (a : ascii) : ascii :=
  let n := N_of_ascii a in
  if (65 <=? n)%N && (n <=? 90)%N then ascii_of_N (n + 32) else a.

Fixpoint to_lower (s : string) : string :=
  match s with
  | EmptyString => EmptyString
  | String a s' => String (lower_ascii a) (to_lower s')
  end.

(** [strings.TrimSuffix(s, " ")] *)
Fixpoint trim_suffix_space (s : string) : string :=
  match s with
  | EmptyString => EmptyString
  | String a EmptyString => if Ascii.eqb a " "%char then EmptyString else s
  | String a s' => String a (trim_suffix_space s')
  end.

(** White space in the ASCII range: tab, LF, VT, FF, CR, space ([unicode.IsSpace]). *)
Definition is_space (a : ascii) : bool :=
  let n := N_of_ascii a in
  ((9 <=? n)%N && (n <=? 13)%N) || (n =? 32)%N.

Fixpoint trim_left (s : string) : string :=
  match s with
  | EmptyString => EmptyString
  | String a s' => if is_space a then trim_left s' else s
  end.

(** [strings.TrimRight] for white space. *)
Fixpoint trim_right (s : string) : string :=
  match s with
  | EmptyString => EmptyString
  | String a s' =>
      match trim_right s' with
      | EmptyString => if is_space a then EmptyString else String a EmptyString
      | t => String a t
      end
  end.

(** [strings.TrimSpace] *)
Definition trim_space (s : string) : string := trim_left (trim_right s).

(** [fmt.Sprintf("%d", z)] *)
Definition show_Z (z : Z) : string := NilZero.string_of_int (Z.to_int z).

(** [s[0:n]] for [n <= len(s)]; shorter strings are returned whole. *)
Fixpoint take (n : nat) (s : string) : string :=
  match n, s with
  | O, _ => EmptyString
  | S _, EmptyString => EmptyString
  | S n', String a s' => String a (take n' s')
  end.

(** Sorting of strings by byte order ([sort.Slice] with [<=] on strings). Go's algorithm is
    not modelled; any sorted permutation of a list of strings is the same list. *)
Fixpoint insert_sorted (x : string) (l : list string) : list string :=
  match l with
  | [] => [x]
  | y :: l' => match String.compare x y with
               | Gt => y :: insert_sorted x l'
               | _ => x :: l
               end
  end.

Fixpoint sort_strings (l : list string) : list string :=
  match l with
  | [] => []
  | x :: l' => insert_sorted x (sort_strings l')
  end.

(** Membership test by name, generator.go 1547-1554 [containsString]. *)
Fixpoint contains_string (l : list string) (s : string) : bool :=
  match l with
  | [] => false
  | x :: l' => if String.eqb x s then true else contains_string l' s
  end.

(** Equality of string lists (used for [reflect.DeepEqual] and element-wise loops). *)
Fixpoint strings_eqb (a b : list string) : bool :=
  match a, b with
  | [], [] => true
  | x :: a', y :: b' => String.eqb x y && strings_eqb a' b'
  | _, _ => false
  end.
