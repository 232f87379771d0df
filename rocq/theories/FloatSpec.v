(** Specification vocabulary about doubles as real numbers (definitions of Flocq). *)
From Coq Require Import ZArith Reals SpecFloat.
From Flocq Require Import Core BinarySingleNaN.
Local Open Scope R_scope.

(** Neither infinite nor NaN. *)
Definition finite_double (x : spec_float) : bool :=
  match x with S754_zero _ | S754_finite _ _ _ => true | _ => false end.

(** The real number a finite double stands for. *)
Definition double_value (x : spec_float) : R := SF2R radix2 x.

(** The double nearest to a real number, ties to even. *)
Definition nearest_double (x : R) : R := round radix2 (FLT_exp (-1074) 53) ZnearestE x.

(** Block averages over the reals: [k] edges in a block of [b * b] cells.  Counting in
    double precision stops at 2^53. *)
Definition mean (k b : N) : R := IZR (Z.of_N (N.min k (2 ^ 53))) / IZR (Z.of_N (b * b)).

(** The smallest threshold, 10^-18. *)
Definition min_threshold : R := nearest_double (1 / IZR (10 ^ 18)).

(** The threshold [approximate] works with: at most 1, and 10^-18 when the argument is not
    positive; none for NaN. *)
Definition threshold_real (t : spec_float) : option R :=
  match t with
  | S754_nan => None
  | S754_infinity false => Some 1
  | S754_infinity true => Some min_threshold
  | S754_zero _ => Some min_threshold
  | S754_finite true _ _ => Some min_threshold
  | S754_finite false _ _ => Some (Rmin 1 (double_value t))
  end.
