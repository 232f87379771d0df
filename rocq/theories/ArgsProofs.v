(** Lemmas about arguments: comparing doubles with integers, the remainder of doubles. *)
From Coq Require Import ZArith Reals Lia Lra SpecFloat.
From Flocq Require Import Core BinarySingleNaN.
From Verif Require Import Base F64 FloatSpec FloatBridge FloatProofs Py PyArgs.
Local Open Scope R_scope.

Lemma bpow_neg_inv k : bpow radix2 (Zneg k) = / IZR (2 ^ Zpos k).
Proof.
  change (Zneg k) with (- Zpos k)%Z. rewrite bpow_opp, <- (IZR_Zpower radix2 (Zpos k)) by lia.
  reflexivity.
Qed.

Lemma float_vs_int_finite x z : finite_double x = true ->
  float_vs_int x z = Some (Rcompare (double_value x) (IZR z)).
Proof.
  destruct x as [s|s| |s m e]; intros H; try discriminate; unfold float_vs_int, double_value, SF2R.
  - f_equal. symmetry. apply Rcompare_IZR.
  - f_equal. unfold F2R. simpl Fnum. simpl Fexp.
    replace (cond_Zopp s (Zpos m)) with (if s then Zneg m else Zpos m) by now destruct s.
    set (n := if s then Zneg m else Zpos m). destruct e as [|k|k].
    + simpl. rewrite Rmult_1_r, Rcompare_IZR. f_equal. rewrite Z.mul_1_r. reflexivity.
    + rewrite <- (IZR_Zpower radix2 (Zpos k)) by lia. rewrite <- mult_IZR, Rcompare_IZR. reflexivity.
    + rewrite bpow_neg_inv. assert (0 < IZR (2 ^ Zpos k)) as Hk by (apply IZR_lt; lia).
      rewrite <- (Rcompare_mult_r (IZR (2 ^ Zpos k))) by exact Hk.
      rewrite Rmult_assoc, Rinv_l, Rmult_1_r by lra. rewrite <- mult_IZR, Rcompare_IZR. reflexivity.
Qed.

(** The remainder of exact scaled integers. *)
Lemma mod_below_scaled a b d : (0 < b)%Z -> (0 < d)%Z -> (0 <= a)%Z ->
  ((a mod b <? d)%Z = true <-> exists k, IZR k * IZR b <= IZR a < IZR k * IZR b + IZR d).
Proof.
  intros Hb Hd Ha. rewrite Z.ltb_lt. split.
  - intros H. exists (a / b)%Z. pose proof (Z.div_mod a b ltac:(lia)) as E.
    pose proof (Z.mod_pos_bound a b Hb). rewrite <- mult_IZR, <- plus_IZR.
    split; [apply IZR_le|apply IZR_lt]; lia.
  - intros (k & H1 & H2). rewrite <- mult_IZR in H1, H2. rewrite <- plus_IZR in H2.
    apply le_IZR in H1. apply lt_IZR in H2.
    replace a with ((a - k * b) + k * b)%Z by lia. rewrite Z.mod_add by lia.
    pose proof (Z.mod_le (a - k * b) b ltac:(lia) Hb). lia.
Qed.

Lemma float_mod_spec m e y : fval y (double_value y) -> 0 < double_value y ->
  (float_mod_below_1 m e y = true <->
   exists k, IZR k * double_value y <= double_value (S754_finite false m e) < IZR k * double_value y + 1).
Proof.
  intros _ Hy. destruct y as [s|s| |[|] m' e']; unfold double_value in Hy; simpl in Hy; try lra.
  { exfalso. revert Hy. apply Rle_not_lt. now apply F2R_le_0. }
  unfold float_mod_below_1. set (k := Z.min (Z.min e e') 0).
  assert (forall n j, (k <= j)%Z -> F2R (Float radix2 n j) = IZR (n * 2 ^ (j - k)) * bpow radix2 k) as Hs.
  { intros n j Hj. unfold F2R. simpl. rewrite mult_IZR, Rmult_assoc. f_equal.
    change (2 ^ (j - k))%Z with (Zpower radix2 (j - k)). rewrite IZR_Zpower, <- bpow_plus by lia. f_equal. lia. }
  assert (1 = IZR (2 ^ (- k)) * bpow radix2 k) as H1.
  { change (2 ^ (- k))%Z with (Zpower radix2 (- k)). rewrite IZR_Zpower, <- bpow_plus by lia.
    now replace (- k + k)%Z with 0%Z by lia. }
  pose proof (bpow_gt_0 radix2 k) as Hk.
  assert (forall j, (k <= j)%Z -> (0 < 2 ^ (j - k))%Z) as Hp by (intros; apply Z.pow_pos_nonneg; lia).
  rewrite mod_below_scaled.
  - unfold double_value. simpl SF2R. rewrite !Hs by lia. simpl cond_Zopp.
    split; intros (q & Hq); exists q.
    + rewrite H1. rewrite <- Rmult_assoc, <- Rmult_plus_distr_r.
      split; [apply Rmult_le_compat_r|apply Rmult_lt_compat_r]; lra.
    + rewrite H1 in Hq. rewrite <- Rmult_assoc, <- Rmult_plus_distr_r in Hq.
      split; [apply Rmult_le_reg_r with (bpow radix2 k)|apply Rmult_lt_reg_r with (bpow radix2 k)]; lra.
  - pose proof (Hp e' ltac:(lia)). lia.
  - pose proof (Z.pow_pos_nonneg 2 (- k)). lia.
  - pose proof (Hp e ltac:(lia)). lia.
Qed.

(** Integers as doubles. *)
Local Instance prec_gt_0 : Prec_gt_0 53 := eq_refl _.
Local Instance prec_lt_emax : Prec_lt_emax 53 1024 := eq_refl _.

Lemma int_to_double_cases z :
  (Rabs (rnd (IZR z)) < bpow radix2 1024 ->
   exists b : binary_float 53 1024, int_to_double z = Some (B2SF b) /\ is_finite b = true /\ B2R b = rnd (IZR z)) /\
  (bpow radix2 1024 <= Rabs (rnd (IZR z)) -> int_to_double z = None).
Proof.
  unfold int_to_double. rewrite normalize_equiv.
  pose proof (binary_normalize_correct 53 1024 _ _ mode_NE z 0 false) as H.
  simpl in H. replace (F2R {| Fnum := z; Fexp := 0 |}) with (IZR z) in H
    by (unfold F2R; simpl; ring).
  set (b := BinarySingleNaN.binary_normalize _ _ _ _ _ _ _ _) in *. split; intros Hlt.
  - rewrite Rlt_bool_true in H by exact Hlt. destruct H as (HR & HF & _).
    exists b. split; [|auto]. destruct b; try discriminate; reflexivity.
  - rewrite Rlt_bool_false in H by exact Hlt. rewrite H. reflexivity.
Qed.
