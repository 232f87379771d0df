(** Model of graphrox-rs/src/util/mod.rs: constants, clamps, the [Numeric] trait and its
    implementations, and the number formatting of the Rust standard library they use. *)
From Coq Require Import ZArith Ascii String.
From Verif Require Import Base F64.

(** ** Constants, util/mod.rs:1-11. *)
Definition COMPRESSION_BLOCK_DIMENSION : N := 8.
(** util/mod.rs:2-4. 10u64.pow(18) as f64 is exact. *)
Definition GRAPH_APPROXIMATION_MIN_THRESHOLD : f64 :=
  f64_div f64_one (f64_of_N (10 ^ 18)).

(** util/mod.rs:13-22, clamp_threshold. *)
Definition clamp_threshold (threshold : f64) : f64 :=
  if f64_gt threshold f64_one then f64_one
  else if f64_le threshold f64_zero then GRAPH_APPROXIMATION_MIN_THRESHOLD
  else threshold.

(** util/mod.rs:24-33, clamp_compression_level. *)
Definition clamp_compression_level (level : N) : N :=
  if 64 <? level then 64 else if level =? 0 then 1 else level.

(** ** Decimal text of integers ([to_string] of the standard library). *)

(** The character of a digit 0..9. *)
Definition digit_char (d : N) : ascii := ascii_of_N (48 + d).

(** Decimal digits, most significant first; the fuel bounds the number of digits. *)
Fixpoint digits_loop (fuel : nat) (n : N) (acc : text) : text :=
  match fuel with
  | O => acc
  | S fuel' =>
    if n <? 10 then digit_char n :: acc
    else digits_loop fuel' (n / 10) (digit_char (n mod 10) :: acc)
  end.

(** u8..u128::to_string. *)
Definition N_text (n : N) : text := digits_loop (S (N.to_nat (N.log2 n))) n [].

(** i8..i128::to_string. *)
Definition Z_text (z : Z) : text :=
  if (z <? 0)%Z then "-"%char :: N_text (Z.abs_N z) else N_text (Z.abs_N z).

(** ** Text of floats with an explicit precision ([format!("{:.d}", x)]): exact decimal
    expansion rounded half to even, sign kept on negative zero, NaN without sign. *)

(** The nearest integer to num/den, ties to even. *)
Definition round_half_even (num den : N) : N :=
  let q := num / den in
  let r := num mod den in
  if 2 * r <? den then q
  else if den <? 2 * r then q + 1
  else if N.even q then q else q + 1.

(** The integer nearest to m * 2^e * 10^d. *)
Definition scaled_round (m : positive) (e : Z) (d : N) : N :=
  match e with
  | Z0 => Npos m * 10 ^ d
  | Zpos e' => Npos m * 2 ^ Npos e' * 10 ^ d
  | Zneg e' => round_half_even (Npos m * 10 ^ d) (2 ^ Npos e')
  end.

(** Zero padding on the left to at least [w] characters. *)
Definition pad_zeros (w : N) (t : text) : text :=
  replicate (N.to_nat w - length t) "0"%char ++ t.

(** [q / 10^d] with [d] decimals. *)
Definition fixed_text (q d : N) : text :=
  N_text (q / 10 ^ d) ++
  (if d =? 0 then [] else "."%char :: pad_zeros d (N_text (q mod 10 ^ d))).

Definition float_text (d : N) (x : spec_float) : text :=
  match x with
  | S754_nan => txt "NaN"
  | S754_infinity s => (if s then txt "-" else []) ++ txt "inf"
  | S754_zero s => (if s then txt "-" else []) ++ fixed_text 0 d
  | S754_finite s m e => (if s then txt "-" else []) ++ fixed_text (scaled_round m e d) d
  end.

(** [{: >width$}]: right alignment with spaces. *)
Definition pad_left (width : N) (t : text) : text :=
  replicate (N.to_nat width - length t) " "%char ++ t.

(** ** The Numeric trait, util/mod.rs:35-44, together with the PartialOrd, PartialEq and
    Display behaviour the matrix code uses.  [num_text d] is the text produced with
    precision [d] (integers ignore the precision). *)
Record numeric (T : Type) : Type := Numeric {
  num_max : T;
  num_min : T;
  num_zero : T;
  num_one : T;
  num_has_decimal : bool;
  num_add_one : platform -> T -> outcome T;
  num_digits : T -> N;
  num_gt : T -> T -> bool;
  num_lt : T -> T -> bool;
  num_eq : T -> T -> bool;
  num_text : N -> T -> text;
}.
Arguments num_max {T}.
Arguments num_min {T}.
Arguments num_zero {T}.
Arguments num_one {T}.
Arguments num_has_decimal {T}.
Arguments num_add_one {T}.
Arguments num_digits {T}.
Arguments num_gt {T}.
Arguments num_lt {T}.
Arguments num_eq {T}.
Arguments num_text {T}.

(** Unsigned integers of [bits] bits: util/mod.rs:46-229 (u8, u16, u32, u64, u128, whose
    implementations are identical up to the type). *)
Definition uint_numeric (bits : N) : numeric N := {|
  num_max := 2 ^ bits - 1;
  num_min := 0;
  num_zero := 0;
  num_one := 1;
  num_has_decimal := false;
  num_add_one := fun p x =>
    if x + 1 <? 2 ^ bits then Ret (x + 1)
    else if overflow_checks p then Panic else Ret ((x + 1) mod 2 ^ bits);
  num_digits := fun x => N.of_nat (length (N_text x));
  num_gt := fun a b => b <? a;
  num_lt := fun a b => a <? b;
  num_eq := N.eqb;
  num_text := fun _ x => N_text x;
|}.
Definition u8_numeric := uint_numeric 8.
Definition u64_numeric := uint_numeric 64.

(** Signed integers of [bits] bits: util/mod.rs:231-414 (i8, i16, i32, i64; identical up to the
    type) and i128, whose has_decimal (util/mod.rs:400-403) returns true. *)
Definition sint_numeric (bits : Z) (has_decimal : bool) : numeric Z := {|
  num_max := (2 ^ (bits - 1) - 1)%Z;
  num_min := (- 2 ^ (bits - 1))%Z;
  num_zero := 0%Z;
  num_one := 1%Z;
  num_has_decimal := has_decimal;
  num_add_one := fun p x =>
    if (x + 1 <? 2 ^ (bits - 1))%Z then Ret (x + 1)%Z
    else if overflow_checks p then Panic else Ret (x + 1 - 2 ^ bits)%Z;
  num_digits := fun x => N.of_nat (length (Z_text x));
  num_gt := fun a b => (b <? a)%Z;
  num_lt := fun a b => (a <? b)%Z;
  num_eq := Z.eqb;
  num_text := fun _ x => Z_text x;
|}.
Definition i64_numeric := sint_numeric 64 false.
Definition i128_numeric := sint_numeric 128 true.

(** f64: util/mod.rs:453-488.  add_one is [self + 1.0] (never panics). *)
Definition f64_numeric : numeric spec_float := {|
  num_max := f64_max;
  num_min := f64_min;
  num_zero := f64_zero;
  num_one := f64_one;
  num_has_decimal := true;
  num_add_one := fun _ x => Ret (f64_add x f64_one);
  num_digits := fun x => N.of_nat (length (Z_text (float_as_i128 x)));
  num_gt := f64_gt;
  num_lt := f64_lt;
  num_eq := f64_eq;
  num_text := float_text;
|}.

(** f32: util/mod.rs:416-451. *)
Definition f32_numeric : numeric spec_float := {|
  num_max := f32_max;
  num_min := f32_min;
  num_zero := f64_zero;
  num_one := binary_normalize 24 128 1 0 false;
  num_has_decimal := true;
  num_add_one := fun _ x => Ret (SFadd 24 128 x (binary_normalize 24 128 1 0 false));
  num_digits := fun x => N.of_nat (length (Z_text (float_as_i128 x)));
  num_gt := f64_gt;
  num_lt := f64_lt;
  num_eq := f64_eq;
  num_text := float_text;
|}.
