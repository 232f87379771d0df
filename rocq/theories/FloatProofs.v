(** Rounding facts about the values [approximate] and [compress] compute: block counts,
    block averages, thresholds. *)
From Coq Require Import ZArith Reals Lia Lra SpecFloat.
From Flocq Require Import Core Relative BinarySingleNaN.
From Verif Require Import F64 FloatBridge.
Local Open Scope R_scope.

Local Instance prec_gt_0 : Prec_gt_0 53 := eq_refl _.
Local Instance prec_lt_emax : Prec_lt_emax 53 1024 := eq_refl _.
Local Instance fexp_valid : Valid_exp (SpecFloat.fexp 53 1024).
Proof. apply (FLT_exp_valid (3 - 1024 - 53) 53). Qed.

Definition ulp1 : R := / IZR (2 ^ 53).

Lemma bpow_m53 : bpow radix2 (-53) = ulp1.
Proof. reflexivity. Qed.

Lemma ulp1_lt : 0 < ulp1 < / 1000000.
Proof.
  unfold ulp1. split; [apply Rinv_0_lt_compat; apply IZR_lt; reflexivity|].
  apply Rinv_lt_contravar; [|apply IZR_lt; reflexivity]. 
  apply Rmult_lt_0_compat; apply IZR_lt; reflexivity.
Qed.

(** ** Rounding *)

Lemma rnd_le a b : a <= b -> rnd a <= rnd b.
Proof. apply round_le; typeclasses eauto. Qed.

Lemma rnd_id a : f64_format a -> rnd a = a.
Proof. apply round_generic. typeclasses eauto. Qed.

Lemma rnd_format a : f64_format (rnd a).
Proof. apply generic_format_round; typeclasses eauto. Qed.

Lemma format_bpow e : (-1074 <= e)%Z -> f64_format (bpow radix2 e).
Proof. intros He. apply (generic_format_FLT_bpow radix2 (-1074) 53). exact He. Qed.

(** Integers up to 2^53, scaled by a power of two, are doubles. *)
Lemma format_scaled m e : (Z.abs m <= 2 ^ 53)%Z -> (-1074 <= e)%Z ->
  f64_format (IZR m * bpow radix2 e).
Proof.
  intros Hm He. destruct (Z.eq_dec (Z.abs m) (2 ^ 53)) as [Heq|Hne].
  - assert (IZR m * bpow radix2 e = bpow radix2 (e + 53) \/
            IZR m * bpow radix2 e = - bpow radix2 (e + 53)) as [->| ->].
    { rewrite bpow_plus. change (bpow radix2 53) with (IZR (2 ^ 53)).
      destruct (Z.abs_spec m) as [[_ H]|[_ H]].
      - left. replace m with (2 ^ 53)%Z by lia. ring.
      - right. replace m with (- 2 ^ 53)%Z by lia. rewrite opp_IZR. ring. }
    + apply format_bpow. lia.
    + apply generic_format_opp, format_bpow. lia.
  - apply (generic_format_FLT radix2 (-1074) 53). exists (Float radix2 m e); simpl; [reflexivity| |exact He].
    change (Zpower_pos 2 53) with (2 ^ 53)%Z. lia.
Qed.

Lemma format_int m : (Z.abs m <= 2 ^ 53)%Z -> f64_format (IZR m).
Proof.
  intros Hm. replace (IZR m) with (IZR m * bpow radix2 0) by (simpl; ring).
  apply format_scaled; lia.
Qed.

Lemma format_1 : f64_format 1.
Proof. apply (format_int 1). lia. Qed.
Lemma format_0 : f64_format 0.
Proof. apply (format_int 0). lia. Qed.

Lemma rnd_le_1 x : x <= 1 -> rnd x <= 1.
Proof. intros H. apply rnd_le in H. now rewrite (rnd_id 1 format_1) in H. Qed.

Lemma rnd_ge_1 x : 1 <= x -> 1 <= rnd x.
Proof. intros H. apply rnd_le in H. now rewrite (rnd_id 1 format_1) in H. Qed.

Lemma rnd_small x : Rabs x <= bpow radix2 1000 -> Rabs (rnd x) < bpow radix2 1024.
Proof.
  intros H. apply Rle_lt_trans with (bpow radix2 1000); [|apply bpow_lt; lia].
  apply abs_round_le_generic; [typeclasses eauto..| |exact H].
  apply format_bpow. lia.
Qed.

Lemma big_bound x : Rabs x <= IZR (2 ^ 100) -> Rabs x <= bpow radix2 1000.
Proof.
  intros H. apply Rle_trans with (1 := H). change (IZR (2 ^ 100)) with (bpow radix2 100).
  apply bpow_le. lia.
Qed.

Lemma rnd_ok x : Rabs x <= IZR (2 ^ 100) -> Rabs (rnd x) < bpow radix2 1024.
Proof. intros H. now apply rnd_small, big_bound. Qed.

Lemma rnd_rel x : / IZR (2 ^ 100) <= Rabs x -> Rabs (rnd x - x) <= ulp1 * Rabs x.
Proof.
  intros H. pose proof (relative_error_N_FLT radix2 (-1074) 53 (eq_refl _) (fun x => negb (Z.even x)) x) as He.
  replace ulp1 with (/ 2 * bpow radix2 (- 53 + 1)).
  - apply He. apply Rle_trans with (2 := H).
    change (/ IZR (2 ^ 100)) with (bpow radix2 (-100)). apply bpow_le. lia.
  - rewrite bpow_plus, bpow_m53. change (bpow radix2 1) with 2. lra.
Qed.

(** Signed form. *)
Lemma rnd_err x : / IZR (2 ^ 100) <= x ->
  exists d, Rabs d <= ulp1 /\ rnd x = x * (1 + d).
Proof.
  intros H. assert (0 < x) as Hx.
  { apply Rlt_le_trans with (2 := H). apply Rinv_0_lt_compat, IZR_lt. reflexivity. }
  pose proof (rnd_rel x) as Hr. rewrite (Rabs_pos_eq x) in Hr by lra. specialize (Hr H).
  exists ((rnd x - x) / x). split; [|field; lra].
  unfold Rdiv. rewrite Rabs_mult, Rabs_inv, (Rabs_pos_eq x) by lra.
  apply Rmult_le_reg_r with x; [exact Hx|]. rewrite Rmult_assoc, Rinv_l, Rmult_1_r by lra. exact Hr.
Qed.

Lemma fval_valid_intro x : is_f64 x = true ->
  match x with S754_zero _ | S754_finite _ _ _ => true | _ => false end = true ->
  forall r, SF2R radix2 x = r -> fval x r.
Proof. intros Hv Hx r <-. apply valid_fval; [exact Hv|]. now destruct x. Qed.

(** ** Integers as doubles *)

Lemma fval_N n : (n < 2 ^ 64)%N -> fval (f64_of_N n) (rnd (IZR (Z.of_N n))).
Proof.
  intros Hn. apply fval_of_N, rnd_ok. rewrite <- abs_IZR. apply IZR_le. lia.
Qed.

Lemma fval_N_exact n : (n <= 2 ^ 53)%N -> fval (f64_of_N n) (IZR (Z.of_N n)).
Proof.
  intros Hn. rewrite <- (rnd_id (IZR (Z.of_N n))).
  - apply fval_N. lia.
  - apply format_int. lia.
Qed.

Lemma fval_one : fval f64_one 1.
Proof. apply (fval_N_exact 1). lia. Qed.

(** ** Counting by repeated addition of one *)

Lemma add_one_exact n : (1 <= n < 2 ^ 53)%N -> f64_add (f64_of_N n) f64_one = f64_of_N (n + 1).
Proof.
  intros Hn. apply fval_inj with (IZR (Z.of_N (n + 1))).
  - replace (IZR (Z.of_N (n + 1))) with (rnd (IZR (Z.of_N n) + 1)).
    + apply fval_add; [apply fval_N_exact; lia|apply fval_one|].
      apply rnd_ok. rewrite <- plus_IZR, <- abs_IZR. apply IZR_le. lia.
    + rewrite <- plus_IZR. replace (Z.of_N n + 1)%Z with (Z.of_N (n + 1)) by lia.
      apply rnd_id, format_int. lia.
  - apply fval_N_exact. lia.
  - apply not_0_IZR. lia.
Qed.

Lemma add_one_saturated : f64_add (f64_of_N (2 ^ 53)) f64_one = f64_of_N (2 ^ 53).
Proof. vm_compute. reflexivity. Qed.

Lemma count_value k :
  Nat.iter k (fun x => f64_add x f64_one) f64_one = f64_of_N (N.min (N.of_nat (S k)) (2 ^ 53)).
Proof.
  induction k as [|k IH]; [reflexivity|].
  change (Nat.iter (S k) (fun x => f64_add x f64_one) f64_one)
    with (f64_add (Nat.iter k (fun x => f64_add x f64_one) f64_one) f64_one).
  rewrite IH. destruct (N.lt_ge_cases (N.of_nat (S k)) (2 ^ 53)) as [H|H].
  - rewrite !N.min_l by lia. rewrite add_one_exact by lia. f_equal. lia.
  - rewrite !N.min_r by lia. apply add_one_saturated.
Qed.

(** ** Block averages *)

Lemma rnd_one_plus : rnd (1 + ulp1) = 1.
Proof.
  (* 1 + 2^-53 lies half way between 1 and 1 + 2^-52; the even mantissa is that of 1 *)
  assert (fval (f64_div f64_one f64_one) 1) as H1.
  { replace 1 with (rnd (1 / 1)).
    - apply fval_div; [apply fval_one..|lra|]. apply rnd_ok.
      replace (1 / 1) with 1 by field. rewrite Rabs_pos_eq by lra.
      apply IZR_le. lia.
    - replace (1 / 1) with 1 by field. apply rnd_id, format_1. }
  assert (fval (S754_finite false 4503599627370496 (-105)) ulp1) as Hu.
  { apply fval_valid_intro; [reflexivity..|].
    unfold SF2R, F2R. simpl. unfold ulp1. simpl. lra. }
  assert (fval (f64_add f64_one (S754_finite false 4503599627370496 (-105))) (rnd (1 + ulp1))) as Ha.
  { apply fval_add; [apply fval_one|exact Hu|]. apply rnd_ok. pose proof ulp1_lt.
    rewrite Rabs_pos_eq by lra. apply Rle_trans with 2; [lra|]. apply IZR_le. lia. }
  replace (f64_add f64_one (S754_finite false 4503599627370496 (-105))) with f64_one in Ha
    by (vm_compute; reflexivity).
  apply (fval_fun _ _ _ Ha fval_one).
Qed.

(** The value stored for a block with [k] edges, [s] cells: [m] = min(k, 2^53). *)
Definition average (m s : N) : spec_float :=
  f64_mul (f64_of_N m) (f64_div f64_one (f64_of_N s)).

Section Average.
  Context (m s : N) (Hm : (1 <= m <= 2 ^ 53)%N) (Hms : (m <= s)%N) (Hs : (s < 2 ^ 64)%N).

  Let M := IZR (Z.of_N m).
  Let S := IZR (Z.of_N s).
  Let S' := rnd S.
  Let q := rnd (1 / S').

  Local Lemma HM : 1 <= M <= IZR (2 ^ 53).
  Proof. unfold M. split; apply IZR_le; lia. Qed.
  Local Lemma HS : 1 <= S <= IZR (2 ^ 64).
  Proof. unfold S. split; apply IZR_le; lia. Qed.
  Local Lemma HMS : M <= S.
  Proof. apply IZR_le. lia. Qed.

  Local Lemma HS' : 1 <= S' <= IZR (2 ^ 64) /\ M <= S'.
  Proof.
    unfold S'. pose proof HS. split; [split|].
    - apply rnd_ge_1. lra.
    - rewrite <- (rnd_id (IZR (2 ^ 64))); [apply rnd_le; lra|].
      change (IZR (2 ^ 64)) with (bpow radix2 64). apply format_bpow. lia.
    - rewrite <- (rnd_id M); [apply rnd_le, HMS|]. apply format_int. lia.
  Qed.

  Local Lemma small_inv x : 1 <= x -> / x <= 1.
  Proof. intros H. rewrite <- Rinv_1. apply Rinv_le; lra. Qed.

  Local Lemma big_inv x : 0 < x <= IZR (2 ^ 64) -> / IZR (2 ^ 100) <= / x.
  Proof.
    intros [H1 H2]. apply Rinv_le; [lra|]. apply Rle_trans with (1 := H2). apply IZR_le. lia.
  Qed.

  Local Lemma quotient_facts : exists d, Rabs d <= ulp1 /\ q = / S' * (1 + d).
  Proof.
    unfold q. pose proof HS' as [H _]. replace (1 / S') with (/ S') by (field; lra).
    apply rnd_err. apply big_inv. lra.
  Qed.

  Local Lemma Hq : 0 < q <= 1.
  Proof.
    destruct quotient_facts as (d & Hd & Hq). pose proof HS' as [H _]. pose proof ulp1_lt as Hu.
    apply Rabs_le_inv in Hd. split.
    - rewrite Hq. apply Rmult_lt_0_compat; [apply Rinv_0_lt_compat|]; lra.
    - unfold q. apply rnd_le_1.
      replace (1 / S') with (/ S') by (field; lra). apply small_inv. lra.
  Qed.

  Local Lemma Hq_low : / IZR (2 ^ 100) <= M * q.
  Proof.
    destruct quotient_facts as (d & Hd & Hq). pose proof HS' as [H _]. pose proof ulp1_lt as Hu.
    apply Rabs_le_inv in Hd. pose proof HM.
    apply Rle_trans with (1 * (/ IZR (2 ^ 64) * (1 / 2))).
    - rewrite Rmult_1_l.
      replace (/ IZR (2 ^ 64) * (1 / 2)) with (/ IZR (2 ^ 65)).
      + apply Rinv_le; apply IZR_le || apply IZR_lt; lia.
      + change (2 ^ 65)%Z with (2 ^ 64 * 2)%Z. rewrite mult_IZR. field. apply not_0_IZR. lia.
    - assert (/ IZR (2 ^ 64) <= / S') by (apply Rinv_le; lra).
      assert (0 < / IZR (2 ^ 64)) by (apply Rinv_0_lt_compat, IZR_lt; lia).
      apply Rmult_le_compat; [lra| |lra|].
      + apply Rmult_le_pos; lra.
      + rewrite Hq. apply Rmult_le_compat; lra.
  Qed.

  Local Lemma HMq : M * q <= 1 + ulp1.
  Proof.
    destruct quotient_facts as (d & Hd & Hq). pose proof HS' as [H HMS']. pose proof ulp1_lt as Hu.
    pose proof HM. apply Rabs_le_inv in Hd. rewrite Hq.
    apply Rle_trans with (S' * (/ S' * (1 + d))).
    - apply Rmult_le_compat_r; [|exact HMS']. apply Rmult_le_pos; [|lra].
      left. apply Rinv_0_lt_compat. lra.
    - rewrite <- Rmult_assoc, Rinv_r by lra. lra.
  Qed.

  Lemma average_fval : fval (average m s) (rnd (M * q)).
  Proof.
    unfold average. pose proof HM. pose proof HS'. pose proof Hq. pose proof HMq. pose proof ulp1_lt.
    apply fval_mul; [apply fval_N_exact; lia| |].
    - apply fval_div; [apply fval_one|apply fval_N; exact Hs| |].
      + fold S. fold S'. lra.
      + fold S. fold S'. apply rnd_ok. replace (1 / S') with (/ S') by (field; lra).
        rewrite Rabs_pos_eq by (left; apply Rinv_0_lt_compat; lra).
        apply Rle_trans with 1; [apply small_inv; lra|]. apply IZR_le. lia.
    - apply rnd_ok. rewrite Rabs_pos_eq by (apply Rmult_le_pos; lra).
      apply Rle_trans with 2; [lra|]. apply IZR_le. lia.
  Qed.

  Lemma average_le_1 : rnd (M * q) <= 1.
  Proof. rewrite <- rnd_one_plus. apply rnd_le, HMq. Qed.

  Lemma average_pos : 0 < rnd (M * q).
  Proof.
    destruct (rnd_err (M * q) Hq_low) as (d & Hd & ->). apply Rabs_le_inv in Hd.
    pose proof ulp1_lt. pose proof HM. pose proof Hq.
    apply Rmult_lt_0_compat; [apply Rmult_lt_0_compat|]; lra.
  Qed.

  (** Three roundings, each with relative error at most 2^-53. *)
  Lemma average_error : Rabs (rnd (M * q) - M / S) <= 4 * ulp1 * (M / S).
  Proof.
    destruct (rnd_err (M * q) Hq_low) as (d1 & Hd1 & ->).
    destruct quotient_facts as (d2 & Hd2 & Hq). pose proof HS as HS0.
    destruct (rnd_err S) as (d3 & Hd3 & HS3).
    { apply Rle_trans with 1; [|lra]. apply small_inv. apply IZR_le. lia. }
    fold S' in HS3. rewrite Hq, HS3. pose proof ulp1_lt as [Hu Hu'].
    apply Rabs_le_inv in Hd1, Hd2, Hd3. pose proof HM.
    replace (M * (/ (S * (1 + d3)) * (1 + d2)) * (1 + d1) - M / S)
      with (((1 + d2) * (1 + d1) / (1 + d3) - 1) * (M / S)) by (field; lra).
    assert (0 <= M / S) as Hms0.
    { apply Rmult_le_pos; [lra|]. left. apply Rinv_0_lt_compat. lra. }
    rewrite Rabs_mult, (Rabs_pos_eq (M / S)) by exact Hms0.
    apply Rmult_le_compat_r; [exact Hms0|].
    replace ((1 + d2) * (1 + d1) / (1 + d3) - 1) with ((d1 + d2 - d3 + d1 * d2) / (1 + d3)) by (field; lra).
    assert (Rabs (d1 * d2) <= / 1000000 * ulp1) as H12.
    { rewrite Rabs_mult. apply Rmult_le_compat; try apply Rabs_pos; apply Rabs_le; lra. }
    apply Rabs_le_inv in H12.
    unfold Rdiv. rewrite Rabs_mult, Rabs_inv, (Rabs_pos_eq (1 + d3)) by lra.
    apply Rmult_le_reg_r with (1 + d3); [lra|]. rewrite Rmult_assoc, Rinv_l, Rmult_1_r by lra.
    apply Rle_trans with (4 * ulp1 * (1 - / 1000000)).
    - apply Rabs_le. lra.
    - apply Rmult_le_compat_l; lra.
  Qed.
End Average.

(** When the number of cells is a power of two the average is exact. *)
Lemma average_exact (m : N) (e : Z) : (1 <= m <= 2 ^ 53)%N -> (0 <= e < 64)%Z ->
  fval (average m (Z.to_N (2 ^ e))) (IZR (Z.of_N m) / IZR (2 ^ e)).
Proof.
  intros Hm He. assert (1 <= 2 ^ e)%Z as Hpow by (pose proof (Z.pow_pos_nonneg 2 e); lia).
  assert (2 ^ e < 2 ^ 64)%Z as Hpow' by (apply Z.pow_lt_mono_r; lia).
  assert (IZR (2 ^ e) = bpow radix2 e) as Hb.
  { change 2%Z with (radix_val radix2). apply IZR_Zpower. lia. }
  assert (0 < bpow radix2 e) as Hpos by apply bpow_gt_0.
  assert (fval (f64_of_N (Z.to_N (2 ^ e))) (bpow radix2 e)) as H2.
  { rewrite <- (rnd_id (bpow radix2 e)) by (apply format_bpow; lia). rewrite <- Hb.
    replace (2 ^ e)%Z with (Z.of_N (Z.to_N (2 ^ e))) at 2 by lia. apply fval_N. lia. }
  assert (1 / bpow radix2 e = bpow radix2 (- e)) as Hinv by (rewrite bpow_opp; field; lra).
  assert (fval (f64_div f64_one (f64_of_N (Z.to_N (2 ^ e)))) (bpow radix2 (- e))) as Hq.
  { rewrite <- (rnd_id (bpow radix2 (- e))) by (apply format_bpow; lia). rewrite <- Hinv.
    apply fval_div; [apply fval_one|exact H2|lra|]. rewrite Hinv. apply rnd_small.
    rewrite Rabs_pos_eq by apply bpow_ge_0. apply bpow_le. lia. }
  unfold average. replace (IZR (Z.of_N m) / IZR (2 ^ e)) with (rnd (IZR (Z.of_N m) * bpow radix2 (- e))).
  - apply fval_mul; [apply fval_N_exact; lia|exact Hq|].
    apply rnd_small. rewrite Rabs_pos_eq.
    + apply Rle_trans with (bpow radix2 53 * bpow radix2 0).
      * apply Rmult_le_compat; [apply IZR_le; lia|apply bpow_ge_0| |apply bpow_le; lia].
        change (bpow radix2 53) with (IZR (2 ^ 53)). apply IZR_le. lia.
      * rewrite <- bpow_plus. apply bpow_le. lia.
    + apply Rmult_le_pos; [apply IZR_le; lia|apply bpow_ge_0].
  - rewrite rnd_id by (apply format_scaled; lia). rewrite Hb, <- Hinv. field. lra.
Qed.

(** ** Thresholds of compress *)

Definition level_threshold (l : N) : spec_float :=
  f64_sub (f64_div (f64_of_N l) f64_64) f64_1em5.

Lemma threshold_fval l : (1 <= l <= 64)%N ->
  exists t, fval (level_threshold l) t /\
    IZR (Z.of_N l) / 64 - / 50000 <= t <= IZR (Z.of_N l) / 64 - / 200000.
Proof.
  intros Hl. pose proof ulp1_lt as Hu.
  assert (fval f64_1em5 (rnd (1 / 100000))) as Hc.
  { apply fval_div; [apply fval_one|apply (fval_N_exact 100000); lia|lra|].
    apply rnd_ok. rewrite Rabs_pos_eq by lra. apply Rle_trans with 1; [lra|]. apply IZR_le. lia. }
  destruct (rnd_err (1 / 100000)) as (d & Hd & Hcv).
  { apply Rle_trans with (/ IZR 1000000); [|lra]. apply Rinv_le; apply IZR_lt || apply IZR_le; lia. }
  rewrite Hcv in Hc. apply Rabs_le_inv in Hd.
  assert (1 <= IZR (Z.of_N l) <= 64) as HL by (split; apply IZR_le; lia).
  assert (fval (f64_div (f64_of_N l) f64_64) (IZR (Z.of_N l) / 64)) as Hdiv.
  { assert (f64_format (IZR (Z.of_N l) / 64)) as Hf.
    { replace (IZR (Z.of_N l) / 64) with (IZR (Z.of_N l) * bpow radix2 (-6))
        by (change (bpow radix2 (-6)) with (/ 64); field).
      apply format_scaled; lia. }
    rewrite <- (rnd_id (IZR (Z.of_N l) / 64)) by exact Hf.
    apply fval_div; [apply fval_N_exact; lia|apply (fval_N_exact 64); lia|lra|].
    apply rnd_ok. rewrite Rabs_pos_eq by lra. apply Rle_trans with 1; [lra|]. apply IZR_le. lia. }
  set (x := IZR (Z.of_N l) / 64 - 1 / 100000 * (1 + d)).
  assert (Rabs (1 / 100000 * d) <= / 100000 * / 1000000) as Hsm.
  { rewrite Rabs_mult, (Rabs_pos_eq (1 / 100000)) by lra. apply Rmult_le_compat; try lra.
    - apply Rabs_pos.
    - apply Rabs_le. lra. }
  apply Rabs_le_inv in Hsm.
  assert (IZR (Z.of_N l) / 64 - / 60000 <= x <= IZR (Z.of_N l) / 64 - / 150000) as Hx by (unfold x; lra).
  assert (0 < x <= 1) as Hx01 by lra.
  destruct (rnd_err x) as (d' & Hd' & Hxv).
  { apply Rle_trans with (/ IZR 1000); [|lra]. apply Rinv_le; apply IZR_lt || apply IZR_le; lia. }
  exists (rnd x). split.
  - apply fval_sub; [exact Hdiv|exact Hc|]. apply rnd_ok. fold x. rewrite Rabs_pos_eq by lra.
    apply Rle_trans with 1; [lra|]. apply IZR_le. lia.
  - apply Rabs_le_inv in Hd'. rewrite Hxv.
    assert (Rabs (x * d') <= / 1000000000).
    { rewrite Rabs_mult, (Rabs_pos_eq x) by lra. apply Rle_trans with (1 * ulp1).
      - apply Rmult_le_compat; try lra; [apply Rabs_pos|apply Rabs_le; lra].
      - rewrite Rmult_1_l. unfold ulp1. apply Rinv_le; apply IZR_lt || apply IZR_le; lia. }
    apply Rabs_le_inv in H. lra.
Qed.

Lemma average_threshold m s l : (1 <= m)%N -> (m <= s <= 64)%N -> (1 <= l <= 64)%N ->
  f64_ge (average m s) (level_threshold l) = (l * s <=? 64 * m)%N.
Proof.
  intros Hm Hs Hl. destruct (threshold_fval l Hl) as (t & Ht & Htb).
  assert (1 <= m <= 2 ^ 53)%N as Hm' by lia. assert (m <= s)%N as Hms by lia.
  assert (s < 2 ^ 64)%N as Hs' by lia.
  rewrite (fval_ge _ _ _ _ (average_fval m s Hm' Hms Hs') Ht).
  pose proof (average_error m s Hm' Hms Hs') as He.
  set (v := rnd _) in *. set (M := IZR (Z.of_N m)) in *. set (S := IZR (Z.of_N s)) in *.
  set (L := IZR (Z.of_N l)) in *.
  assert (1 <= M) by (apply IZR_le; lia). assert (M <= S) by (apply IZR_le; lia).
  assert (S <= 64) by (apply IZR_le; lia). assert (1 <= L <= 64) by (split; apply IZR_le; lia).
  assert (0 <= M / S <= 1) as Hr.
  { split.
    - apply Rmult_le_pos; [lra|]. left. apply Rinv_0_lt_compat. lra.
    - apply Rmult_le_reg_r with S; [lra|]. unfold Rdiv. rewrite Rmult_assoc, Rinv_l; lra. }
  assert (Rabs (v - M / S) <= / 1000000) as Hv.
  { apply Rle_trans with (1 := He). apply Rle_trans with (4 * ulp1 * 1).
    - apply Rmult_le_compat_l; [|lra]. pose proof ulp1_lt. lra.
    - rewrite Rmult_1_r. apply Rle_trans with (4 * / IZR (4 * 1000000)).
      + apply Rmult_le_compat_l; [lra|]. unfold ulp1. apply Rinv_le; apply IZR_lt || apply IZR_le; lia.
      + rewrite mult_IZR. lra. }
  apply Rabs_le_inv in Hv.
  destruct (N.leb_spec (l * s) (64 * m)) as [Hc|Hc].
  - apply Rle_bool_true.
    assert (L * S <= 64 * M) as HR.
    { unfold L, S, M. rewrite <- !mult_IZR. apply IZR_le. lia. }
    assert (L / 64 <= M / S).
    { apply Rmult_le_reg_r with (64 * S); [lra|].
      replace (M / S * (64 * S)) with (64 * M) by (field; lra). lra. }
    lra.
  - apply Rle_bool_false.
    assert (64 * M + 1 <= L * S) as HR.
    { unfold L, S, M. rewrite <- !mult_IZR, <- plus_IZR. apply IZR_le. lia. }
    assert (M / S + / 4096 <= L / 64).
    { apply Rmult_le_reg_r with (64 * S); [lra|].
      replace ((M / S + / 4096) * (64 * S)) with (64 * M + S / 64) by (field; lra). lra. }
    lra.
Qed.
