(** Property C104: the numeric types a matrix can hold (util/mod.rs:34-488). *)
From Coq Require Import ZArith Reals Lra SpecFloat Ascii String.
From Flocq Require Import Core BinarySingleNaN.
From Verif Require Import Base HashIter F64 Numeric Sq FloatSpec TextSpec NumTextProofs
  FloatTextProofs SqShowProofs SqExactProofs PropCounting.
Local Open Scope N_scope.
Local Arguments N.mul : simpl never.
Local Arguments N.add : simpl never.
Local Arguments N.pow : simpl never.
Local Arguments Z.pow : simpl never.

(** [d] is the number of decimal digits of [n]. *)
Definition digit_count (n d : N) : Prop := 1 <= d /\ n < 10 ^ d /\ (d = 1 \/ 10 ^ (d - 1) <= n).

Lemma digit_count_text n : digit_count n (N.of_nat (length (N_text n))).
Proof.
  destruct (N_text_spec n) as (_ & H & Hor). pose proof (N_text_length n).
  split; [lia|]. split; [done|]. destruct Hor as [->|?]; [left; lia|by right].
Qed.

(** Unsigned integers: MAX and MIN are the bounds of the type, the comparisons are those of
    numbers, and integral_digit_count counts decimal digits. *)
Theorem C104_unsigned bits x : 1 <= bits -> x < 2 ^ bits ->
  let num := uint_numeric bits in
  (num_min num <= x <= num_max num) /\ num_max num < 2 ^ bits /\
  num_zero num = 0 /\ num_one num = 1 /\ num_has_decimal num = false /\
  (forall y, (num_gt num x y = true <-> y < x) /\ (num_lt num x y = true <-> x < y) /\
             (num_eq num x y = true <-> x = y)) /\
  digit_count x (num_digits num x) /\
  (forall d, "."%char ∉ num_text num d x).
Proof.
  intros Hb Hx num. simpl.
  split_and!; [lia|lia|lia|done|done|done| |apply digit_count_text|].
  - intros y. rewrite !N.ltb_lt, N.eqb_eq. done.
  - intros _. rewrite <-Z_text_of_N. apply Z_text_no_point.
Qed.
Print Assumptions C104_unsigned.

(** Signed integers: likewise; a minus sign counts as a digit.  has_decimal is false except for
    i128, where it is true although no value has a decimal point. *)
Theorem C104_signed bits dec x : (2 <= bits)%Z -> (- 2 ^ (bits - 1) <= x < 2 ^ (bits - 1))%Z ->
  let num := sint_numeric bits dec in
  (num_min num <= x <= num_max num)%Z /\ (- 2 ^ (bits - 1) <= num_min num)%Z /\
  (num_max num < 2 ^ (bits - 1))%Z /\
  num_zero num = 0%Z /\ num_one num = 1%Z /\
  (forall y, (num_gt num x y = true <-> (y < x)%Z) /\ (num_lt num x y = true <-> (x < y)%Z) /\
             (num_eq num x y = true <-> x = y)) /\
  (exists d, digit_count (Z.abs_N x) d /\ num_digits num x = d + if (x <? 0)%Z then 1 else 0) /\
  (forall d, "."%char ∉ num_text num d x) /\
  num_has_decimal i64_numeric = false /\ num_has_decimal i128_numeric = true.
Proof.
  intros Hb Hx num. simpl.
  split_and!; [lia|lia|lia|lia|done|done| | | |done|done].
  - intros y. rewrite !Z.ltb_lt, Z.eqb_eq. done.
  - exists (N.of_nat (length (N_text (Z.abs_N x)))). split; [apply digit_count_text|].
    unfold Z_text. destruct (x <? 0)%Z; simpl; lia.
  - intros _. apply Z_text_no_point.
Qed.
Print Assumptions C104_signed.

(** f32 and f64. *)
Definition float_type (num : numeric spec_float) (prec emax : Z) : Prop :=
  (num = f64_numeric /\ prec = 53 /\ emax = 1024)%Z \/ (num = f32_numeric /\ prec = 24 /\ emax = 128)%Z.

Theorem C104_floats num prec emax : float_type num prec emax ->
  let is x := valid_binary prec emax x = true /\ finite_double x = true in
  is (num_max num) /\ is (num_min num) /\ is (num_zero num) /\ is (num_one num) /\
  double_value (num_zero num) = 0%R /\ double_value (num_one num) = 1%R /\
  num_has_decimal num = true /\
  (forall x, is x -> (double_value (num_min num) <= double_value x <= double_value (num_max num))%R) /\
  (forall x y, is x -> is y ->
     (num_gt num x y = true <-> (double_value y < double_value x)%R) /\
     (num_lt num x y = true <-> (double_value x < double_value y)%R) /\
     (num_eq num x y = true <-> double_value x = double_value y)) /\
  (forall x, num_gt num x S754_nan = false /\ num_lt num x S754_nan = false /\ num_eq num x S754_nan = false /\
     num_gt num S754_nan x = false /\ num_lt num S754_nan x = false /\ num_eq num S754_nan x = false) /\
  (forall x, is x -> num_gt num (S754_infinity false) x = true /\ num_lt num (S754_infinity true) x = true) /\
  (forall x z, integer_part x z ->
     exists d, digit_count (Z.abs_N z) d /\ num_digits num x = d + if (z <? 0)%Z then 1 else 0) /\
  (forall x d, is x -> ("."%char ∈ num_text num d x <-> d <> 0)).
Proof.
  intros Hnum is.
  assert (num_gt num = f64_gt /\ num_lt num = f64_lt /\ num_eq num = f64_eq /\
    num_digits num = (fun x => N.of_nat (length (Z_text (float_as_i128 x)))) /\
    num_has_decimal num = true /\ num_zero num = f64_zero /\ num_text num = float_text /\
    num_max num = S754_finite false (2 ^ Z.to_pos prec - 1) (emax - prec) /\
    num_min num = S754_finite true (2 ^ Z.to_pos prec - 1) (emax - prec) /\
    num_one num = S754_finite false (2 ^ (Z.to_pos prec - 1)) (1 - prec) /\
    (2 <= prec < emax)%Z /\ valid_binary prec emax (num_max num) = true /\
    valid_binary prec emax (num_one num) = true)
    as (-> & -> & -> & -> & -> & -> & -> & Emax & Emin & Eone & Hpe & Vmax & Vone).
  { destruct Hnum as [(-> & -> & ->)|(-> & -> & ->)]; split_and!; vm_compute; done. }
  assert (forall s m e, double_value (S754_finite s m e) = (IZR (cond_Zopp s (Zpos m)) * bpow radix2 e)%R) as Hval
    by done.
  assert (double_value (num_max num) = bpow radix2 emax - bpow radix2 (emax - prec))%R as Dmax.
  { rewrite Emax, Hval. simpl cond_Zopp.
    replace (Zpos (2 ^ Z.to_pos prec - 1)) with (2 ^ prec - 1)%Z
      by (rewrite Pos2Z.inj_sub by (apply Pos.pow_gt_1; lia); rewrite Pos2Z.inj_pow, Z2Pos.id by lia; done).
    rewrite minus_IZR. change (2 ^ prec)%Z with (radix2 ^ prec)%Z. rewrite IZR_Zpower by lia.
    rewrite Rmult_minus_distr_r, <-bpow_plus. replace (prec + (emax - prec))%Z with emax by lia. ring. }
  assert (double_value (num_min num) = - double_value (num_max num))%R as Dmin.
  { rewrite Emin, Emax, !Hval. unfold cond_Zopp. rewrite opp_IZR. ring. }
  assert (Prec_gt_0 prec) as Hprec by (unfold Prec_gt_0; lia).
  split_and!.
  - split; [done|by rewrite Emax].
  - split; [|by rewrite Emin]. rewrite Emin. rewrite Emax in Vmax. exact Vmax.
  - done.
  - split; [done|by rewrite Eone].
  - done.
  - rewrite Eone, Hval. simpl cond_Zopp. rewrite Pos2Z.inj_pow.
    replace (Zpos (Z.to_pos prec - 1)) with (prec - 1)%Z by (rewrite Pos2Z.inj_sub by lia; lia).
    change (2 ^ (prec - 1))%Z with (radix2 ^ (prec - 1))%Z. rewrite IZR_Zpower by lia. rewrite <-bpow_plus.
    by replace (prec - 1 + (1 - prec))%Z with 0%Z by lia.
  - done.
  - intros x [Hv Hf]. destruct (has_value_intro _ _ x Hv Hf) as (b & _ & _ & <-).
    pose proof (abs_B2R_le_emax_minus_prec prec emax Hprec b) as Hb. rewrite Dmin, Dmax.
    apply Rabs_le_inv in Hb. lra.
  - intros x y [Vx Fx] [Vy Fy].
    destruct (has_value_intro _ _ x Vx Fx) as (bx & <- & Hx & <-).
    destruct (has_value_intro _ _ y Vy Fy) as (bb & <- & Hy & <-).
    pose proof (Bltb_correct prec emax bx bb Hx Hy) as L1.
    pose proof (Bltb_correct prec emax bb bx Hy Hx) as L2.
    pose proof (Beqb_correct prec emax bx bb Hx Hy) as L3.
    unfold f64_gt, f64_lt, f64_eq. change (SFltb (B2SF bx) (B2SF bb)) with (Bltb bx bb).
    change (SFltb (B2SF bb) (B2SF bx)) with (Bltb bb bx).
    change (SFeqb (B2SF bx) (B2SF bb)) with (Beqb bx bb). rewrite L1, L2, L3.
    split_and!.
    + destruct (Rlt_bool_spec (B2R bb) (B2R bx)); split; intros; try done; lra.
    + destruct (Rlt_bool_spec (B2R bx) (B2R bb)); split; intros; try done; lra.
    + destruct (Req_bool_spec (B2R bx) (B2R bb)); done.
  - intros x. by destruct x as [[]|[]| |[]].
  - intros x [_ Hf]. by destruct x as [[]|[]| |[]].
  - intros x z Hz. apply integer_part_spec in Hz as ->. set (z := float_as_i128 x).
    exists (N.of_nat (length (N_text (Z.abs_N z)))). split; [apply digit_count_text|].
    unfold Z_text. destruct (z <? 0)%Z; simpl; lia.
  - intros x d [_ Hf].
    assert (forall q, "."%char ∈ fixed_text q d <-> d <> 0) as Hfix.
    { intros q. unfold fixed_text. rewrite elem_of_app.
      pose proof (Z_text_no_point (Z.of_N (q / 10 ^ d))) as Hno. rewrite Z_text_of_N in Hno.
      destruct (N.eqb_spec d 0) as [->|Hd]; [rewrite elem_of_nil; naive_solver|].
      split; [done|]. intros _. right. left. }
    assert (forall (s : bool) t, "."%char ∈ (if s then txt "-" else []) ++ t <-> "."%char ∈ t) as Hsign.
    { intros s t. rewrite elem_of_app. destruct s; simpl.
      - rewrite elem_of_cons, elem_of_nil. split; [by intros [[[=]|[]]|?]|by right].
      - rewrite elem_of_nil. naive_solver. }
    destruct x as [s|s| |s m e]; try done; simpl; by rewrite Hsign, Hfix.
Qed.
Print Assumptions C104_floats.

Example C104_case :
  num_digits u8_numeric 255 = 3 /\ num_digits i64_numeric (-10)%Z = 3 /\
  num_max i64_numeric = 9223372036854775807%Z /\ num_min u8_numeric = 0 /\
  float_type f64_numeric 53 1024 /\ float_type f32_numeric 24 128 /\
  num_digits f64_numeric (f64_of_N 1000) = 4 /\ num_digits f64_numeric f64_max = 39 /\
  num_digits f64_numeric f64_min = 40 /\ num_digits f64_numeric S754_nan = 1 /\
  valid_binary 24 128 f32_max = true.
Proof. split_and!; try (vm_compute; done); [by left|by right]. Qed.
