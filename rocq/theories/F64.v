(** IEEE-754 binary64 and binary32, through the executable specification in Coq's
    standard library (SpecFloat: round to nearest, ties to even; one NaN). *)
From Coq Require Import ZArith.
From Coq Require Export SpecFloat.
From Verif Require Import Base.

Notation f64 := spec_float (only parsing).

(** Rust [f64] operators [+ - * /]. *)
Definition f64_add : f64 -> f64 -> f64 := SFadd 53 1024.
Definition f64_sub : f64 -> f64 -> f64 := SFsub 53 1024.
Definition f64_mul : f64 -> f64 -> f64 := SFmul 53 1024.
Definition f64_div : f64 -> f64 -> f64 := SFdiv 53 1024.

(** Rust [f64] comparisons ([PartialOrd], [PartialEq]); false on NaN. *)
Definition f64_ge (a b : f64) : bool := SFleb b a.
Definition f64_gt (a b : f64) : bool := SFltb b a.
Definition f64_le (a b : f64) : bool := SFleb a b.
Definition f64_lt (a b : f64) : bool := SFltb a b.
Definition f64_eq (a b : f64) : bool := SFeqb a b.

(** Rust [x as f64] for an unsigned integer: correctly rounded. *)
Definition f64_of_N (n : N) : f64 := binary_normalize 53 1024 (Z.of_N n) 0 false.

(** Being a binary64 datum (canonical mantissa and exponent in range). *)
Definition is_f64 (x : f64) : bool := valid_binary 53 1024 x.

(** Literals 0.0, 1.0, 64.0, 0.00001.  A decimal literal denotes the double nearest to
    it, which is the rounded quotient of two exactly representable integers. *)
Definition f64_zero : f64 := S754_zero false.
Definition f64_one : f64 := f64_of_N 1.
Definition f64_64 : f64 := f64_of_N 64.
Definition f64_1em5 : f64 := f64_div (f64_of_N 1) (f64_of_N 100000).

(** f64::MAX and f64::MIN of the Rust standard library. *)
Definition f64_max : f64 := S754_finite false 9007199254740991 971.
Definition f64_min : f64 := S754_finite true 9007199254740991 971.
(** f32::MAX and f32::MIN. *)
Definition f32_max : spec_float := S754_finite false 16777215 104.
Definition f32_min : spec_float := S754_finite true 16777215 104.

(** [x as i128] for a float: truncation toward zero, saturating, NaN to 0. *)
Definition i128_max : Z := (2 ^ 127 - 1)%Z.
Definition i128_min : Z := (- 2 ^ 127)%Z.
Definition float_trunc (x : spec_float) : Z :=
  match x with
  | S754_finite s m e =>
    let a := match e with
             | Z0 => Zpos m
             | Zpos e' => (Zpos m * 2 ^ Zpos e')%Z
             | Zneg e' => (Zpos m / 2 ^ Zpos e')%Z
             end in
    if s then (- a)%Z else a
  | _ => 0%Z
  end.
Definition float_as_i128 (x : spec_float) : Z :=
  match x with
  | S754_nan => 0%Z
  | S754_zero _ => 0%Z
  | S754_infinity s => if s then i128_min else i128_max
  | S754_finite _ _ _ => Z.max i128_min (Z.min i128_max (float_trunc x))
  end.
