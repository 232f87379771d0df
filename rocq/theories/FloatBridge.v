(** The executable floating-point operations of the model, related to real arithmetic
    through Flocq. *)
From Coq Require Import ZArith Reals Lia Lra SpecFloat.
From Flocq Require Import Core BinarySingleNaN.
From Verif Require Import F64.
Local Open Scope R_scope.

Local Instance prec_gt_0 : Prec_gt_0 53 := eq_refl _.
Local Instance prec_lt_emax : Prec_lt_emax 53 1024 := eq_refl _.

(** Rounding to nearest, ties to even, in binary64. *)
Definition f64_format : R -> Prop := generic_format radix2 (SpecFloat.fexp 53 1024).
Definition rnd : R -> R := round radix2 (SpecFloat.fexp 53 1024) ZnearestE.

(** [x] is a finite binary64 number of value [r]. *)
Definition fval (x : spec_float) (r : R) : Prop :=
  exists b : binary_float 53 1024, B2SF b = x /\ is_finite b = true /\ B2R b = r.

Lemma round_aux_equiv sx mx ex lx :
  SpecFloat.binary_round_aux 53 1024 sx mx ex lx
  = BinarySingleNaN.binary_round_aux 53 1024 mode_NE sx mx ex lx.
Proof.
  unfold SpecFloat.binary_round_aux, BinarySingleNaN.binary_round_aux.
  set (mrse' := shr_fexp _ _ _ _ _). case mrse'. intros mrs' e'. simpl.
  replace (round_nearest_even (shr_m mrs') (loc_of_shr_record mrs'))
    with (choice_mode mode_NE sx (shr_m mrs') (loc_of_shr_record mrs')); [reflexivity|].
  case (loc_of_shr_record mrs'); [reflexivity|intros c].
  case c; [|reflexivity..]. simpl. unfold Round.cond_incr. now case Z.even.
Qed.

Lemma round_equiv s m e :
  SpecFloat.binary_round 53 1024 s m e = BinarySingleNaN.binary_round 53 1024 mode_NE s m e.
Proof.
  unfold SpecFloat.binary_round, BinarySingleNaN.binary_round, shl_align_fexp.
  set (mez := shl_align _ _ _). case mez as [mz ez]. apply round_aux_equiv.
Qed.

Lemma normalize_equiv m e szero :
  SpecFloat.binary_normalize 53 1024 m e szero
  = B2SF (BinarySingleNaN.binary_normalize 53 1024 _ _ mode_NE m e szero).
Proof.
  case m as [|p|p]; simpl; [reflexivity|rewrite B2SF_SF2B; apply round_equiv..].
Qed.

Lemma mul_equiv (x y : binary_float 53 1024) :
  f64_mul (B2SF x) (B2SF y) = B2SF (Bmult mode_NE x y).
Proof.
  case x as [sx|sx| |sx mx ex Bx]; case y as [sy|sy| |sy my ey By]; try reflexivity.
  unfold f64_mul. simpl. rewrite B2SF_SF2B. apply round_aux_equiv.
Qed.

Lemma div_equiv (x y : binary_float 53 1024) :
  f64_div (B2SF x) (B2SF y) = B2SF (Bdiv mode_NE x y).
Proof.
  case x as [sx|sx| |sx mx ex Bx]; case y as [sy|sy| |sy my ey By]; try reflexivity.
  unfold f64_div. simpl. rewrite B2SF_SF2B.
  set (melz := SFdiv_core_binary _ _ _ _ _ _). case melz as [[mz ez] lz]. apply round_aux_equiv.
Qed.

Lemma add_equiv (x y : binary_float 53 1024) :
  f64_add (B2SF x) (B2SF y) = B2SF (Bplus mode_NE x y).
Proof.
  case x as [sx|sx| |sx mx ex Bx]; case y as [sy|sy| |sy my ey By];
    try reflexivity; try (unfold f64_add; simpl; case Bool.eqb; reflexivity).
  unfold f64_add. apply normalize_equiv.
Qed.

Lemma sub_equiv (x y : binary_float 53 1024) :
  f64_sub (B2SF x) (B2SF y) = B2SF (Bminus mode_NE x y).
Proof.
  case x as [sx|sx| |sx mx ex Bx]; case y as [sy|sy| |sy my ey By];
    try reflexivity; try (unfold f64_sub; simpl; case Bool.eqb; reflexivity).
  unfold f64_sub. simpl. unfold Zminus. rewrite <-cond_Zopp_negb. apply normalize_equiv.
Qed.

(** ** Operations on finite values *)

Lemma fval_mul x y a b : fval x a -> fval y b -> Rabs (rnd (a * b)) < bpow radix2 1024 ->
  fval (f64_mul x y) (rnd (a * b)).
Proof.
  intros (bx & <- & Fx & <-) (bb & <- & Fy & <-) Hlt.
  pose proof (Bmult_correct 53 1024 _ _ mode_NE bx bb) as H. rewrite Rlt_bool_true in H by exact Hlt.
  destruct H as (HR & HF & _). exists (Bmult mode_NE bx bb).
  rewrite mul_equiv, HF, Fx, Fy. auto.
Qed.

Lemma fval_div x y a b : fval x a -> fval y b -> b <> 0 -> Rabs (rnd (a / b)) < bpow radix2 1024 ->
  fval (f64_div x y) (rnd (a / b)).
Proof.
  intros (bx & <- & Fx & <-) (bb & <- & Fy & <-) Hb Hlt.
  pose proof (Bdiv_correct 53 1024 _ _ mode_NE bx bb Hb) as H. rewrite Rlt_bool_true in H by exact Hlt.
  destruct H as (HR & HF & _). exists (Bdiv mode_NE bx bb).
  rewrite div_equiv, HF, Fx. auto.
Qed.

Lemma fval_add x y a b : fval x a -> fval y b -> Rabs (rnd (a + b)) < bpow radix2 1024 ->
  fval (f64_add x y) (rnd (a + b)).
Proof.
  intros (bx & <- & Fx & <-) (bb & <- & Fy & <-) Hlt.
  pose proof (Bplus_correct 53 1024 _ _ mode_NE bx bb Fx Fy) as H.
  rewrite Rlt_bool_true in H by exact Hlt. destruct H as (HR & HF & _).
  exists (Bplus mode_NE bx bb). rewrite add_equiv, HF. auto.
Qed.

Lemma fval_sub x y a b : fval x a -> fval y b -> Rabs (rnd (a - b)) < bpow radix2 1024 ->
  fval (f64_sub x y) (rnd (a - b)).
Proof.
  intros (bx & <- & Fx & <-) (bb & <- & Fy & <-) Hlt.
  pose proof (Bminus_correct 53 1024 _ _ mode_NE bx bb Fx Fy) as H.
  rewrite Rlt_bool_true in H by exact Hlt. destruct H as (HR & HF & _).
  exists (Bminus mode_NE bx bb). rewrite sub_equiv, HF. auto.
Qed.

Lemma fval_of_N n : Rabs (rnd (IZR (Z.of_N n))) < bpow radix2 1024 ->
  fval (f64_of_N n) (rnd (IZR (Z.of_N n))).
Proof.
  intros Hlt. unfold f64_of_N. rewrite normalize_equiv.
  pose proof (binary_normalize_correct 53 1024 _ _ mode_NE (Z.of_N n) 0 false) as H.
  simpl in H. replace (F2R {| Fnum := Z.of_N n; Fexp := 0 |}) with (IZR (Z.of_N n)) in H
    by (unfold F2R; simpl; ring).
  rewrite Rlt_bool_true in H by exact Hlt. destruct H as (HR & HF & _). eexists. split; [reflexivity|].
  rewrite HF. auto.
Qed.

Lemma fval_le x y a b : fval x a -> fval y b -> f64_le x y = Rle_bool a b.
Proof.
  intros (bx & <- & Fx & <-) (bb & <- & Fy & <-). exact (Bleb_correct 53 1024 bx bb Fx Fy).
Qed.

Lemma fval_ge x y a b : fval x a -> fval y b -> f64_ge x y = Rle_bool b a.
Proof. intros Hx Hy. exact (fval_le _ _ _ _ Hy Hx). Qed.

Lemma fval_lt x y a b : fval x a -> fval y b -> f64_lt x y = Rlt_bool a b.
Proof.
  intros (bx & <- & Fx & <-) (bb & <- & Fy & <-). exact (Bltb_correct 53 1024 bx bb Fx Fy).
Qed.

Lemma fval_gt x y a b : fval x a -> fval y b -> f64_gt x y = Rlt_bool b a.
Proof. intros Hx Hy. exact (fval_lt _ _ _ _ Hy Hx). Qed.

Lemma fval_eq x y a b : fval x a -> fval y b -> f64_eq x y = Req_bool a b.
Proof.
  intros (bx & <- & Fx & <-) (bb & <- & Fy & <-). exact (Beqb_correct 53 1024 bx bb Fx Fy).
Qed.

(** A finite nonzero value has one representation. *)
Lemma fval_inj x y r : fval x r -> fval y r -> r <> 0 -> x = y.
Proof.
  intros (bx & <- & Fx & Hx) (bb & <- & Fy & Hy) Hr. f_equal. apply B2R_inj.
  - apply is_finite_strict_B2R. congruence.
  - apply is_finite_strict_B2R. congruence.
  - congruence.
Qed.

Lemma fval_format x r : fval x r -> f64_format r.
Proof. intros (bx & _ & _ & <-). apply generic_format_B2R. Qed.

Lemma fval_fun x a b : fval x a -> fval x b -> a = b.
Proof.
  intros (bx & <- & Fx & Hx) (bb & Hbb & Fy & Hy). apply B2SF_inj in Hbb. congruence.
Qed.

Lemma fval_valid x r : fval x r -> is_f64 x = true.
Proof. intros (bx & <- & _). apply valid_binary_B2SF. Qed.

(** A valid datum that is neither infinite nor NaN is a finite value. *)
Lemma valid_fval x : is_f64 x = true ->
  match x with S754_zero _ | S754_finite _ _ _ => True | _ => False end ->
  fval x (SF2R radix2 x).
Proof.
  intros Hv Hx. exists (SF2B x Hv). rewrite B2SF_SF2B, is_finite_SF2B, B2R_SF2B.
  split; [reflexivity|]. split; [|reflexivity]. now destruct x.
Qed.
