(** Specification vocabulary for printed matrices.  Nothing here refers to the model of the
    code. *)
From Coq Require Import ZArith Ascii String SpecFloat.
From Verif Require Import Base Spec.

(** ** Decimal numbers *)

Definition is_digit (a : ascii) : bool := (48 <=? N_of_ascii a) && (N_of_ascii a <=? 57).

(** The number a text of digits stands for. *)
Definition digits_value (t : text) : N :=
  fold_left (fun n a => 10 * n + (N_of_ascii a - 48)) t 0.

(** [t] is the usual decimal text of [n]: digits, no leading zero. *)
Definition decimal (t : text) (n : N) : Prop :=
  forallb is_digit t = true /\ digits_value t = n /\ t <> [] /\ (head t = Some "0"%char -> n = 0 /\ length t = 1%nat).

(** The same with a minus sign on negative numbers. *)
Definition signed_decimal (t : text) (z : Z) : Prop :=
  exists t', decimal t' (Z.abs_N z) /\ t = (if (z <? 0)%Z then ["-"%char] else []) ++ t'.

(** An integer written with [d] decimals. *)
Definition integer_text (d : N) (z : Z) (t : text) : Prop :=
  exists t', signed_decimal t' z /\
    t = t' ++ (if d =? 0 then [] else "."%char :: replicate (N.to_nat d) "0"%char).

(** [q] is the integer nearest to m * 2^e * 10^d, an even one if two are equally near. *)
Definition nearest_scaled (m : positive) (e : Z) (d q : N) : Prop :=
  let den := (2 ^ Z.max 0 (- e))%Z in
  let num := (Zpos m * 2 ^ Z.max 0 e * 10 ^ Z.of_N d)%Z in
  let dist := (2 * Z.abs (Z.of_N q * den - num))%Z in
  (dist <= den)%Z /\ (dist = den -> N.even q = true).

(** A number [q / 10^d] written with [d] decimals. *)
Definition fixed_point (d q : N) (t : text) : Prop :=
  exists ip fp, decimal ip (q / 10 ^ d) /\ forallb is_digit fp = true /\
    N.of_nat (length fp) = d /\ digits_value fp = q mod 10 ^ d /\
    t = ip ++ (if d =? 0 then [] else "."%char :: fp).

(** A binary float written with [d] decimals, correctly rounded. *)
Definition rounded_text (d : N) (x : spec_float) (t : text) : Prop :=
  match x with
  | S754_nan => t = txt "NaN"
  | S754_infinity s => t = if s then txt "-inf" else txt "inf"
  | S754_zero s => exists t', fixed_point d 0 t' /\ t = (if s then ["-"%char] else []) ++ t'
  | S754_finite s m e => exists q t', nearest_scaled m e d q /\ fixed_point d q t' /\
      t = (if s then ["-"%char] else []) ++ t'
  end.

(** A float of absolute value below [b] (infinities and NaN included). *)
Definition below (b : Z) (x : spec_float) : Prop :=
  match x with
  | S754_finite _ m e => (Zpos m * 2 ^ Z.max 0 e < b * 2 ^ Z.max 0 (- e))%Z
  | _ => True
  end.

(** ** Matrices *)

(** [s] lays out an n by n matrix: rows separated by CR LF, every row "[ ", the cells
    separated by ", ", " ]"; every cell is as wide as every other and contains, right
    aligned, a text that [shows] accepts for its column and row. *)
Definition shows_matrix (n : N) (shows : N -> N -> text -> Prop) (s : text) : Prop :=
  exists (w : nat) (cell : N -> N -> text),
    s = matrix_text n cell /\
    forall c r, c < n -> r < n -> length (cell c r) = w /\
      exists k t, cell c r = replicate k " "%char ++ t /\ shows c r t.

(** The result of printing an n by n matrix with [d] decimals: either a text laid out as
    above, or CapacityOverflow, and that only if the memory or address space is too small
    for cells of 42 + d characters. *)
Definition prints (p : platform) (n d : N) (shows : N -> N -> text -> Prop)
    (out : outcome (result text)) : Prop :=
  exists r, out = Ret r /\
  match r with
  | Ok s => shows_matrix n shows s
  | Err e => (exists msg, e = CapacityOverflow msg) /\ n <> 0 /\
     ~ ((44 + d) * (n * n) + 4 * n <= usize_max p /\
        forall k, k <= (44 + d) * (n * n) + 4 * n -> can_alloc p k = true)
  end.

(** The integer part of a float as an i128: rounded toward zero and cut to the range of the
    type; 0 for NaN. *)
Definition integer_part (x : spec_float) (z : Z) : Prop :=
  match x with
  | S754_nan | S754_zero _ => z = 0%Z
  | S754_infinity s => z = if s then (- 2 ^ 127)%Z else (2 ^ 127 - 1)%Z
  | S754_finite s m e => exists q,
      (q * 2 ^ Z.max 0 (- e) <= Zpos m * 2 ^ Z.max 0 e < (q + 1) * 2 ^ Z.max 0 (- e))%Z /\
      z = Z.max (- 2 ^ 127) (Z.min (2 ^ 127 - 1) (if s then - q else q))
  end.

(** The longest text of an integer part of the values (NaN not counted) has [w] characters;
    39 or 40 if there are none. *)
Definition widest_integer_part (items : list (spec_float * N * N)) (w : N) : Prop :=
  (forall v c r z t, (v, c, r) ∈ items -> v <> S754_nan -> integer_part v z -> signed_decimal t z ->
     N.of_nat (length t) <= w) /\
  ((exists v c r z t, (v, c, r) ∈ items /\ v <> S754_nan /\ integer_part v z /\ signed_decimal t z /\
      N.of_nat (length t) = w) \/
   (forall v c r, (v, c, r) ∈ items -> v = S754_nan) /\ 39 <= w <= 40).

(** The result of printing an n by n matrix of floats with [d] decimals: CapacityOverflow if
    the text does not fit, a panic if the text of a value runs past the end or is wider than
    the formatting machinery allows, and otherwise a text. *)
Definition prints_floats (p : platform) (n d : N) (items : list (spec_float * N * N))
    (shows : N -> N -> text -> Prop) (out : outcome (result text)) : Prop :=
  exists w, widest_integer_part items w /\
  let cell := w + 1 + d in
  let size := (cell + 2) * (n * n) + 4 * n in
  let fits := size <= usize_max p /\ can_alloc p (size - 2) = true in
  let panics := exists v c r t, (v, c, r) ∈ items /\ rounded_text d v t /\
    (65535 < cell \/
     (n - 1 - r) * (4 + n * (cell + 2)) + (n - 1 - c) * (cell + 2) + cell + 2 < N.of_nat (length t)) in
  (~ fits -> exists msg, out = Ret (Err (CapacityOverflow msg))) /\
  (fits -> panics -> out = Panic) /\
  (fits -> ~ panics -> exists s, out = Ret (Ok s) /\
     (shows_matrix n shows s <->
      (forall v c r t, (v, c, r) ∈ items -> rounded_text d v t -> N.of_nat (length t) <= cell) /\
      (d = 0 -> forall c r, c < n -> r < n -> exists v, (v, c, r) ∈ items))).
