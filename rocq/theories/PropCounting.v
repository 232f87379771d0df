(** Property C99: counting with increment_entry in every numeric type. *)
From Coq Require Import ZArith Reals Lra SpecFloat.
From Flocq Require Import Core BinarySingleNaN.
From Verif Require Import Base HashIter F64 Numeric Adj Sq Standard Compressed Spec MatSpec FloatSpec Api
  HashIterProofs AdjProofs SqProofs MatrixProofs BitsProofs PropCommon PropMatrix.
Local Open Scope N_scope.

Local Arguments N.mul : simpl never.
Local Arguments N.add : simpl never.
Local Arguments N.pow : simpl never.
Local Arguments Z.pow : simpl never.

(** ** Lemmas: repeated increments *)

(** [k] more increments of a cell. *)
Definition incremented {T} (p : platform) (num : numeric T) (m : sq T) (c r : N) (k : nat) : outcome (sq T) :=
  ofold (mstep p num) (replicate k (MInc c r)) m.

Lemma mrun_incremented {T} p (num : numeric T) ops m c r k : mrun p num ops = Ret m ->
  mrun p num (ops ++ replicate k (MInc c r)) = incremented p num m c r k.
Proof. intros H. unfold mrun in *. by rewrite ofold_app, H. Qed.

Lemma incremented_S {T} p (num : numeric T) m c r k :
  incremented p num m c r (S k) =
  obind (incremented p num m c r k) (fun m' => sq_increment_entry p num m' c r).
Proof.
  unfold incremented.
  replace (replicate (S k) (MInc c r)) with (replicate k (MInc (T := T) c r) ++ [MInc c r])
    by (rewrite <- replicate_cons_app; done).
  rewrite ofold_app. destruct (ofold _ _ m) as [m'| |]; [|done|done]. simpl.
  by destruct (sq_increment_entry p num m' c r).
Qed.

(** Incrementing: the new value of the cell, and the other cells. *)
Lemma increment_get {T} p (num : numeric T) m c r : c < u64_max -> r < u64_max ->
  match match sq_val m c r with None => Ret (num_one num) | Some e => num_add_one num p e end with
  | Ret e' => exists m', sq_increment_entry p num m c r = Ret m' /\ sq_val m' c r = Some e' /\
      forall c' r', (c', r') <> (c, r) -> sq_val m' c' r' = sq_val m c' r'
  | Panic => sq_increment_entry p num m c r = Panic
  | OutOfFuel => sq_increment_entry p num m c r = OutOfFuel
  end.
Proof.
  intros Hc Hr. rewrite sq_increment_unfold.
  assert (both_valid c r = true) as -> by by apply both_valid_lt.
  assert (forall e, exists m', Ret (sq_put m e c r) = Ret m' /\ sq_val m' c r = Some e /\
    forall c' r', (c', r') <> (c, r) -> sq_val m' c' r' = sq_val m c' r') as Hput.
  { intros e. eexists. split; [done|]. split; [by rewrite sq_val_put, decide_True|].
    intros c' r' H. rewrite sq_val_put, decide_False; [done|]. intros [-> ->]. done. }
  destruct (sq_val m c r) as [e|]; [|apply Hput].
  destruct (num_add_one num p e) as [e'| |]; simpl; [apply Hput|done|done].
Qed.

(** ** C99: integers *)

(** Unsigned integers. *)
Theorem C99_unsigned bits p ops m c r k : 1 <= bits -> c < u64_max -> r < u64_max ->
  let num := uint_numeric bits in let v := sq_get_entry num m c r in
  mrun p num ops = Ret m -> v < 2 ^ bits ->
  if (v + N.of_nat k <? 2 ^ bits) || negb (overflow_checks p)
  then exists m', mrun p num (ops ++ replicate k (MInc c r)) = Ret m' /\
    sq_get_entry num m' c r = (v + N.of_nat k) mod 2 ^ bits /\
    forall c' r', (c', r') <> (c, r) -> sq_get_entry num m' c' r' = sq_get_entry num m c' r'
  else mrun p num (ops ++ replicate k (MInc c r)) = Panic.
Proof.
  intros Hbits Hc Hr num v Hrun Hv. rewrite (mrun_incremented p num ops m) by done. clear Hrun.
  assert (2 ^ 1 <= 2 ^ bits) as Hpow by (apply N.pow_le_mono_r; lia). change (2 ^ 1) with 2 in Hpow.
  induction k as [|k IH].
  { replace (v + N.of_nat 0) with v by lia. rewrite (proj2 (N.ltb_lt _ _) Hv). simpl.
    exists m. split_and!; [done| |done]. by rewrite N.mod_small. }
  rewrite incremented_S.
  destruct ((v + N.of_nat k <? 2 ^ bits) || negb (overflow_checks p)) eqn:Ek.
  2: { apply orb_false_iff in Ek as [E1 E2]. apply N.ltb_ge in E1.
       rewrite (proj2 (N.ltb_ge _ _)), E2 by lia. simpl. by rewrite IH. }
  destruct IH as (m1 & -> & Hg & Ho). simpl obind.
  pose proof (increment_get p num m1 c r Hc Hr) as Hi. rewrite sq_get_val in Hg.
  set (w := (v + N.of_nat k) mod 2 ^ bits) in *.
  assert (w < 2 ^ bits) as Hw by (apply N.mod_lt; lia).
  assert (match sq_val m1 c r with None => Ret (num_one num) | Some e => num_add_one num p e end =
    num_add_one num p w) as Eadd.
  { destruct (sq_val m1 c r); simpl in Hg; [by rewrite Hg|]. rewrite <- Hg. simpl.
    by rewrite (proj2 (N.ltb_lt _ _)) by lia. }
  rewrite Eadd in Hi.
  assert ((v + N.of_nat (S k)) mod 2 ^ bits = (w + 1) mod 2 ^ bits) as ->.
  { unfold w. rewrite N.add_mod_idemp_l by lia. f_equal. lia. }
  assert (forall m', sq_val m' c r = Some ((w + 1) mod 2 ^ bits) ->
    (forall c' r', (c', r') <> (c, r) -> sq_val m' c' r' = sq_val m1 c' r') ->
    sq_get_entry num m' c r = (w + 1) mod 2 ^ bits /\
    forall c' r', (c', r') <> (c, r) -> sq_get_entry num m' c' r' = sq_get_entry num m c' r') as Hend.
  { intros m' H1 H2. split; [by rewrite sq_get_val, H1|]. intros c' r' Hne.
    rewrite <- Ho by done. by rewrite !sq_get_val, H2. }
  simpl num_add_one in Hi. destruct (N.ltb_spec (w + 1) (2 ^ bits)) as [Hlt|Hge].
  - destruct Hi as (m' & -> & H1 & H2). rewrite <- (N.mod_small (w + 1) (2 ^ bits)) in H1 by done.
    assert ((v + N.of_nat (S k) <? 2 ^ bits) || negb (overflow_checks p) = true) as ->.
    { apply orb_true_iff in Ek as [E|E]; [|by rewrite E, orb_true_r].
      apply N.ltb_lt in E. unfold w in Hlt. rewrite N.mod_small in Hlt by done.
      apply orb_true_iff. left. apply N.ltb_lt. lia. }
    exists m'. destruct (Hend m' H1 H2). done.
  - destruct (overflow_checks p) eqn:Eo.
    + rewrite orb_false_r in *. apply N.ltb_lt in Ek. unfold w in Hge. rewrite N.mod_small in Hge by done.
      rewrite (proj2 (N.ltb_ge _ _)) by lia. exact Hi.
    + rewrite orb_true_r. destruct Hi as (m' & -> & H1 & H2). exists m'. destruct (Hend m' H1 H2). done.
Qed.
Print Assumptions C99_unsigned.

(** The integer of [bits] bits with two's complement. *)
Definition wrapped (bits z : Z) : Z := ((z + 2 ^ (bits - 1)) mod 2 ^ bits - 2 ^ (bits - 1))%Z.

(** Signed integers. *)
Theorem C99_signed bits dec p ops m c r k : (2 <= bits)%Z -> c < u64_max -> r < u64_max ->
  let num := sint_numeric bits dec in let v := sq_get_entry num m c r in let top := (2 ^ (bits - 1))%Z in
  mrun p num ops = Ret m -> (- top <= v < top)%Z ->
  if (v + Z.of_nat k <? top)%Z || negb (overflow_checks p)
  then exists m', mrun p num (ops ++ replicate k (MInc c r)) = Ret m' /\
    sq_get_entry num m' c r = wrapped bits (v + Z.of_nat k) /\
    forall c' r', (c', r') <> (c, r) -> sq_get_entry num m' c' r' = sq_get_entry num m c' r'
  else mrun p num (ops ++ replicate k (MInc c r)) = Panic.
Proof.
  intros Hbits Hc Hr num v top Hrun Hv. rewrite (mrun_incremented p num ops m) by done. clear Hrun.
  assert (2 ^ bits = 2 * top)%Z as Hpow.
  { unfold top. rewrite <- Z.pow_succ_r by lia. f_equal. lia. }
  assert (2 <= top)%Z as Htop.
  { unfold top. change 2%Z with (2 ^ 1)%Z at 1. apply Z.pow_le_mono_r; lia. }
  assert (forall z, (- top <= z < top)%Z -> wrapped bits z = z) as Hsmall.
  { intros z Hz. unfold wrapped. fold top. rewrite Hpow, Z.mod_small; lia. }
  assert (forall z, (- top <= wrapped bits z < top)%Z) as Hrange.
  { intros z. unfold wrapped. fold top. rewrite Hpow.
    pose proof (Z.mod_pos_bound (z + top) (2 * top)). lia. }
  assert (forall z, wrapped bits (z + 1) = wrapped bits (wrapped bits z + 1)) as Hwrap.
  { intros z. unfold wrapped. fold top. f_equal.
    replace ((z + top) mod 2 ^ bits - top + 1 + top)%Z with ((z + top) mod 2 ^ bits + 1)%Z by lia.
    rewrite Zplus_mod_idemp_l. f_equal. lia. }
  induction k as [|k IH].
  { replace (v + Z.of_nat 0)%Z with v by lia. rewrite (proj2 (Z.ltb_lt _ _)) by lia. simpl.
    exists m. split_and!; [done| |done]. by rewrite Hsmall. }
  rewrite incremented_S.
  destruct ((v + Z.of_nat k <? top)%Z || negb (overflow_checks p)) eqn:Ek.
  2: { apply orb_false_iff in Ek as [E1 E2]. apply Z.ltb_ge in E1.
       rewrite (proj2 (Z.ltb_ge _ _)), E2 by lia. simpl. by rewrite IH. }
  destruct IH as (m1 & -> & Hg & Ho). simpl obind.
  pose proof (increment_get p num m1 c r Hc Hr) as Hi. rewrite sq_get_val in Hg.
  set (w := wrapped bits (v + Z.of_nat k)) in *.
  pose proof (Hrange (v + Z.of_nat k)%Z) as Hw. fold w in Hw.
  assert (match sq_val m1 c r with None => Ret (num_one num) | Some e => num_add_one num p e end =
    num_add_one num p w) as Eadd.
  { destruct (sq_val m1 c r); simpl in Hg; [by rewrite Hg|]. rewrite <- Hg. simpl. fold top.
    by rewrite (proj2 (Z.ltb_lt _ _)) by lia. }
  rewrite Eadd in Hi.
  assert (wrapped bits (v + Z.of_nat (S k)) = wrapped bits (w + 1)) as ->.
  { unfold w. rewrite <- Hwrap. f_equal. lia. }
  assert (forall m', sq_val m' c r = Some (wrapped bits (w + 1)) ->
    (forall c' r', (c', r') <> (c, r) -> sq_val m' c' r' = sq_val m1 c' r') ->
    sq_get_entry num m' c r = wrapped bits (w + 1) /\
    forall c' r', (c', r') <> (c, r) -> sq_get_entry num m' c' r' = sq_get_entry num m c' r') as Hend.
  { intros m' H1 H2. split; [by rewrite sq_get_val, H1|]. intros c' r' Hne.
    rewrite <- Ho by done. by rewrite !sq_get_val, H2. }
  simpl num_add_one in Hi. fold top in Hi. destruct (Z.ltb_spec (w + 1) top) as [Hlt|Hge].
  - destruct Hi as (m' & -> & H1 & H2). rewrite <- (Hsmall (w + 1)%Z) in H1 by lia.
    assert ((v + Z.of_nat (S k) <? top)%Z || negb (overflow_checks p) = true) as ->.
    { apply orb_true_iff in Ek as [E|E]; [|by rewrite E, orb_true_r].
      apply Z.ltb_lt in E. unfold w in Hlt. rewrite Hsmall in Hlt by lia.
      apply orb_true_iff. left. apply Z.ltb_lt. lia. }
    exists m'. destruct (Hend m' H1 H2). done.
  - destruct (overflow_checks p) eqn:Eo.
    + rewrite orb_false_r in *. apply Z.ltb_lt in Ek. unfold w in Hge. rewrite Hsmall in Hge by lia.
      rewrite (proj2 (Z.ltb_ge _ _)) by lia. exact Hi.
    + rewrite orb_true_r. destruct Hi as (m' & -> & H1 & H2).
      assert (w + 1 - 2 ^ bits = wrapped bits (w + 1))%Z as E.
      { assert (w + 1 = top)%Z as -> by lia. unfold wrapped. fold top. rewrite Hpow.
        replace (top + top)%Z with (1 * (2 * top))%Z by lia. rewrite Z.mod_mul by lia. lia. }
      rewrite E in H1. exists m'. destruct (Hend m' H1 H2). done.
Qed.
Print Assumptions C99_signed.

(** ** Lemmas: floating point numbers of any precision *)

Definition one_of (prec emax : Z) : spec_float := binary_normalize prec emax 1 0 false.
Definition int_of (prec emax : Z) (n : N) : spec_float := binary_normalize prec emax (Z.of_N n) 0 false.

(** The number nearest to a real number, ties to even, with [prec] bits. *)
Definition nearest (prec emax : Z) (x : R) : R := round radix2 (FLT_exp (3 - emax - prec) prec) ZnearestE x.

Lemma round_aux_gen prec emax sx mx ex lx :
  SpecFloat.binary_round_aux prec emax sx mx ex lx
  = BinarySingleNaN.binary_round_aux prec emax mode_NE sx mx ex lx.
Proof.
  unfold SpecFloat.binary_round_aux, BinarySingleNaN.binary_round_aux.
  set (mrse' := shr_fexp _ _ _ _ _). case mrse'. intros mrs' e'. simpl.
  replace (round_nearest_even (shr_m mrs') (loc_of_shr_record mrs'))
    with (choice_mode mode_NE sx (shr_m mrs') (loc_of_shr_record mrs')); [reflexivity|].
  case (loc_of_shr_record mrs'); [reflexivity|intros c].
  case c; [|reflexivity..]. simpl. unfold Round.cond_incr. now case Z.even.
Qed.

Lemma normalize_gen prec emax (Hp : Prec_gt_0 prec) (He : Prec_lt_emax prec emax) m e szero :
  SpecFloat.binary_normalize prec emax m e szero
  = B2SF (BinarySingleNaN.binary_normalize prec emax Hp He mode_NE m e szero).
Proof.
  case m as [|q|q]; simpl; [reflexivity|rewrite B2SF_SF2B..];
    (unfold SpecFloat.binary_round, BinarySingleNaN.binary_round, shl_align_fexp;
     set (mez := shl_align _ _ _); case mez as [mz ez]; apply round_aux_gen).
Qed.

Lemma add_gen prec emax (Hp : Prec_gt_0 prec) (He : Prec_lt_emax prec emax) (x y : binary_float prec emax) :
  SFadd prec emax (B2SF x) (B2SF y) = B2SF (Bplus mode_NE x y).
Proof.
  case x as [sx|sx| |sx mx ex Bx]; case y as [sy|sy| |sy my ey By];
    try reflexivity; try (simpl; case Bool.eqb; reflexivity).
  apply normalize_gen.
Qed.

(** [x] is a finite number of value [v]. *)
Definition has_value (prec emax : Z) (x : spec_float) (v : R) : Prop :=
  exists b : binary_float prec emax, B2SF b = x /\ is_finite b = true /\ B2R b = v.

Lemma has_value_intro prec emax x : valid_binary prec emax x = true -> finite_double x = true ->
  has_value prec emax x (double_value x).
Proof.
  intros Hv Hx. exists (SF2B x Hv). rewrite B2SF_SF2B, is_finite_SF2B, B2R_SF2B.
  split; [reflexivity|]. split; [|reflexivity]. now destruct x.
Qed.

Lemma has_value_elim prec emax x v : has_value prec emax x v ->
  valid_binary prec emax x = true /\ finite_double x = true /\ double_value x = v.
Proof.
  intros (b & <- & Hf & <-). split; [apply valid_binary_B2SF|]. split; [by destruct b|].
  unfold double_value. by destruct b.
Qed.

Section Precision.
  Context (prec emax : Z) (Hp : Prec_gt_0 prec) (He : Prec_lt_emax prec emax)
    (Hprec : (2 <= prec)%Z) (Hemax : (102 <= emax)%Z).

  Local Lemma format_power e : (0 <= e)%Z -> generic_format radix2 (FLT_exp (3 - emax - prec) prec) (bpow radix2 e).
  Proof. intros H. apply generic_format_FLT_bpow; [exact Hp|]. lia. Qed.

  Local Lemma bounded x : (Rabs x <= bpow radix2 101)%R -> (Rabs (nearest prec emax x) < bpow radix2 emax)%R.
  Proof.
    intros H. apply Rle_lt_trans with (bpow radix2 101); [|apply bpow_lt; lia].
    apply abs_round_le_generic; [apply FLT_exp_valid; exact Hp|typeclasses eauto| |exact H].
    apply format_power. lia.
  Qed.

  Local Lemma value_add x y a b : has_value prec emax x a -> has_value prec emax y b ->
    (Rabs (a + b) <= bpow radix2 101)%R -> has_value prec emax (SFadd prec emax x y) (nearest prec emax (a + b)).
  Proof.
    intros (bx & <- & Fx & <-) (bb & <- & Fy & <-) Hle.
    pose proof (Bplus_correct prec emax _ _ mode_NE bx bb Fx Fy) as H.
    rewrite Rlt_bool_true in H by exact (bounded _ Hle). destruct H as (HR & HF & _).
    exists (Bplus mode_NE bx bb). rewrite (add_gen prec emax Hp He), HF. split; [done|]. split; [done|]. exact HR.
  Qed.

  Local Lemma value_normalize z : (Rabs (IZR z) <= bpow radix2 101)%R ->
    has_value prec emax (binary_normalize prec emax z 0 false) (nearest prec emax (IZR z)).
  Proof.
    intros Hle. rewrite (normalize_gen prec emax Hp He).
    pose proof (binary_normalize_correct prec emax _ _ mode_NE z 0 false) as H.
    simpl in H. replace (F2R {| Fnum := z; Fexp := 0 |}) with (IZR z) in H by (unfold F2R; simpl; ring).
    rewrite Rlt_bool_true in H by exact (bounded _ Hle). destruct H as (HR & HF & _).
    eexists. split; [reflexivity|]. split; [exact HF|exact HR].
  Qed.

  Local Lemma nearest_int z : (0 <= z <= 2 ^ prec)%Z -> nearest prec emax (IZR z) = IZR z.
  Proof.
    intros Hz. apply round_generic; [typeclasses eauto|].
    destruct (Z.eq_dec z (2 ^ prec)%Z) as [->|Hne].
    - rewrite (IZR_Zpower radix2) by lia. apply format_power. lia.
    - apply generic_format_FLT. exists (Float radix2 z 0); simpl; [unfold F2R; simpl; ring| |lia].
      change (Zpower radix2 prec) with (2 ^ prec)%Z. lia.
  Qed.

  Local Lemma value_int n : (Z.of_N n <= 2 ^ prec)%Z -> (prec <= 100)%Z ->
    has_value prec emax (int_of prec emax n) (IZR (Z.of_N n)).
  Proof.
    intros Hn Hp100. rewrite <- (nearest_int (Z.of_N n)) by lia. apply value_normalize.
    rewrite <- abs_IZR. change (bpow radix2 101) with (IZR (2 ^ 101)). apply IZR_le.
    assert (2 ^ prec <= 2 ^ 101)%Z by (apply Z.pow_le_mono_r; lia). lia.
  Qed.

  Local Lemma value_one : has_value prec emax (one_of prec emax) 1%R.
  Proof.
    assert (nearest prec emax (IZR 1) = IZR 1) as E.
    { apply nearest_int. assert (2 ^ 1 <= 2 ^ prec)%Z by (apply Z.pow_le_mono_r; lia). lia. }
    rewrite <- E. apply value_normalize. rewrite <- abs_IZR.
    change (bpow radix2 101) with (IZR (2 ^ 101)). apply IZR_le. done.
  Qed.

  Local Lemma succ_bounded x : valid_binary prec emax x = true -> (prec <= 90)%Z ->
    (Rabs (nearest prec emax (double_value x + 1)) < bpow radix2 emax)%R.
  Proof.
    intros Hv Hp90. set (b := SF2B x Hv).
    assert (B2R b = double_value x) as <- by (unfold b; by rewrite B2R_SF2B).
    assert (generic_format radix2 (FLT_exp (3 - emax - prec) prec) (B2R b)) as Hgen
      by apply generic_format_B2R.
    pose proof (abs_B2R_lt_emax prec emax b) as Hlt. set (v := B2R b) in *. clearbody v. clear b Hv.
    destruct (Rle_or_lt v (-1)) as [Hneg|Hpos].
    { apply Rle_lt_trans with (Rabs v); [|done].
      apply abs_round_le_generic; [apply FLT_exp_valid; exact Hp|typeclasses eauto| |].
      - by apply generic_format_abs.
      - rewrite !Rabs_left1 by lra. lra. }
    destruct (Rle_or_lt v (bpow radix2 100)) as [Hsmall|Hbig].
    { apply bounded. change (bpow radix2 101) with (IZR (2 * 2 ^ 100)). rewrite mult_IZR.
      change (bpow radix2 100) with (IZR (2 ^ 100)) in Hsmall.
      assert (1 <= IZR (2 ^ 100))%R by (apply IZR_le; done). apply Rabs_le. lra. }
    assert (0 < v)%R as Hv0 by (apply Rlt_trans with (bpow radix2 100); [apply bpow_gt_0|done]).
    assert (0 <= nearest prec emax (v + 1))%R.
    { apply round_ge_generic; [apply FLT_exp_valid; exact Hp|typeclasses eauto|apply generic_format_0|lra]. }
    rewrite Rabs_pos_eq by done. rewrite Rabs_pos_eq in Hlt by lra.
    apply Rle_lt_trans with v; [|done].
    apply round_N_le_midp; [apply FLT_exp_valid; exact Hp|done|].
    rewrite succ_eq_pos by lra.
    assert (bpow radix2 2 <= ulp radix2 (FLT_exp (3 - emax - prec) prec) v)%R as Hulp.
    { rewrite ulp_neq_0 by lra. unfold cexp. apply bpow_le.
      assert (101 <= mag radix2 v)%Z by (apply mag_ge_bpow; rewrite Rabs_pos_eq by lra; change (101 - 1)%Z with 100%Z; apply Rlt_le, Hbig).
      unfold FLT_exp. lia. }
    change (bpow radix2 2) with 4%R in Hulp. lra.
  Qed.

  (** One addition. *)
  Local Lemma step_value x : valid_binary prec emax x = true -> finite_double x = true -> (prec <= 90)%Z ->
    let y := SFadd prec emax x (one_of prec emax) in
    valid_binary prec emax y = true /\ finite_double y = true /\
    double_value y = nearest prec emax (double_value x + 1).
  Proof.
    intros Hv Hf Hp90 y. apply has_value_elim.
    destruct (has_value_intro prec emax x Hv Hf) as (bx & Ex & Fx & Vx).
    destruct value_one as (b1 & E1 & F1 & V1).
    pose proof (Bplus_correct prec emax _ _ mode_NE bx b1 Fx F1) as H. rewrite Vx, V1 in H.
    rewrite Rlt_bool_true in H by exact (succ_bounded x Hv Hp90). destruct H as (HR & HF & _).
    exists (Bplus mode_NE bx b1). unfold y. rewrite HF, <- (add_gen prec emax Hp He), Ex, E1.
    split; [done|]. split; [done|]. exact HR.
  Qed.

  Local Lemma value_inj x y v : has_value prec emax x v -> has_value prec emax y v -> (v <> 0)%R -> x = y.
  Proof.
    intros (bx & <- & Fx & Hx) (bb & <- & Fy & Hy) Hr. f_equal. apply B2R_inj.
    - apply is_finite_strict_B2R. congruence.
    - apply is_finite_strict_B2R. congruence.
    - congruence.
  Qed.

  Local Lemma int_succ n : (1 <= Z.of_N n < 2 ^ prec)%Z -> (prec <= 100)%Z ->
    SFadd prec emax (int_of prec emax n) (one_of prec emax) = int_of prec emax (n + 1).
  Proof.
    intros Hn Hp100. apply value_inj with (IZR (Z.of_N (n + 1))).
    - replace (IZR (Z.of_N (n + 1))) with (nearest prec emax (IZR (Z.of_N n) + 1)).
      + apply value_add; [apply value_int; lia|apply value_one|].
        rewrite <- plus_IZR, <- abs_IZR. change (bpow radix2 101) with (IZR (2 ^ 101)). apply IZR_le.
        assert (2 ^ prec <= 2 ^ 101)%Z by (apply Z.pow_le_mono_r; lia). lia.
      + rewrite <- plus_IZR. replace (Z.of_N n + 1)%Z with (Z.of_N (n + 1)) by lia. apply nearest_int. lia.
    - apply value_int; lia.
    - apply not_0_IZR. lia.
  Qed.
End Precision.

(** ** C99: floating point numbers *)

(** One increment of any finite entry: the number nearest to its value and one, in double and in
    single precision. *)
Theorem C99_float_step prec emax (num : numeric spec_float) p m c r :
  (num, prec, emax) ∈ [(f64_numeric, 53%Z, 1024%Z); (f32_numeric, 24%Z, 128%Z)] ->
  c < u64_max -> r < u64_max -> let x := sq_get_entry num m c r in
  valid_binary prec emax x = true -> finite_double x = true ->
  exists m', sq_increment_entry p num m c r = Ret m' /\
    let y := sq_get_entry num m' c r in
    valid_binary prec emax y = true /\ finite_double y = true /\
    double_value y = nearest prec emax (double_value x + 1) /\
    forall c' r', (c', r') <> (c, r) -> sq_get_entry num m' c' r' = sq_get_entry num m c' r'.
Proof.
  intros Hnum Hc Hr x Hv Hf.
  assert (Prec_gt_0 prec /\ Prec_lt_emax prec emax /\ (2 <= prec <= 90)%Z /\ (102 <= emax)%Z /\
    num_one num = one_of prec emax /\ num_zero num = S754_zero false /\
    forall e, num_add_one num p e = Ret (SFadd prec emax e (one_of prec emax)))
    as (Hp & He & [H2 H90] & H102 & Hone & Hzero & Hadd).
  { rewrite !elem_of_cons in Hnum. destruct Hnum as [[= -> -> ->]|[[= -> -> ->]|[]%elem_of_nil]];
      (split; [reflexivity|]; split; [reflexivity|]; split; [lia|]; split; [lia|]; done). }
  pose proof (increment_get p num m c r Hc Hr) as Hi.
  pose proof (step_value prec emax Hp He H2 H102 x Hv Hf H90) as Hs. simpl in Hs.
  unfold x in Hs |- *. rewrite sq_get_val in Hs |- *.
  assert (exists y, (match sq_val m c r with None => Ret (num_one num) | Some e => num_add_one num p e end) = Ret y /\
    valid_binary prec emax y = true /\ finite_double y = true /\
    double_value y = nearest prec emax (double_value (default (num_zero num) (sq_val m c r)) + 1)) as (y & Ey & Hy).
  { destruct (sq_val m c r) as [e|]; simpl in Hs |- *.
    - rewrite Hadd. eexists. split; [done|]. exact Hs.
    - eexists. split; [done|]. rewrite Hone, Hzero in *.
      assert (SFadd prec emax (S754_zero false) (one_of prec emax) = one_of prec emax) as E.
      { destruct (value_one prec emax Hp He H2 H102) as (b & <- & Hfb & Hvb).
        destruct b as [s| | |s mm ee Hb]; try done. simpl in Hvb. lra. }
      rewrite E in Hs. exact Hs. }
  rewrite Ey in Hi. destruct Hi as (m' & Hm' & H1 & H3). exists m'. split; [done|]. simpl.
  rewrite sq_get_val, H1. simpl. destruct Hy as (Y1 & Y2 & Y3). split_and!; try done.
  intros c' r' Hne. by rewrite !sq_get_val, H3.
Qed.
Print Assumptions C99_float_step.

(** Infinities and NaN stay as they are. *)
Theorem C99_float_special (num : numeric spec_float) p m c r :
  num ∈ [f64_numeric; f32_numeric] -> c < u64_max -> r < u64_max ->
  finite_double (sq_get_entry num m c r) = false ->
  exists m', sq_increment_entry p num m c r = Ret m' /\
    forall c' r', sq_get_entry num m' c' r' = sq_get_entry num m c' r'.
Proof.
  intros Hnum Hc Hr Hf. pose proof (increment_get p num m c r Hc Hr) as Hi.
  rewrite sq_get_val in Hf.
  assert (finite_double (num_zero num) = true /\
    forall x, finite_double x = false -> num_add_one num p x = Ret x) as [Hz Hadd].
  { rewrite !elem_of_cons in Hnum. destruct Hnum as [->|[->|[]%elem_of_nil]];
      (split; [done|]; intros [[]|[]| |[] mx ex] Hx; done). }
  destruct (sq_val m c r) as [x|] eqn:Ex; simpl in Hf; [|congruence].
  rewrite Hadd in Hi by done. destruct Hi as (m' & -> & H1 & H2). exists m'. split; [done|].
  intros c' r'. rewrite !sq_get_val. destruct (decide ((c', r') = (c, r))) as [[= -> ->]|Hne].
  - by rewrite H1, Ex.
  - by rewrite H2.
Qed.
Print Assumptions C99_float_special.

(** Counting from nothing in single precision is exact up to 2^24, where it stops. *)
Theorem C99_single p ops c r k m : mrun p f32_numeric ops = Ret m -> c < u64_max -> r < u64_max ->
  f64_eq (sq_get_entry f32_numeric m c r) f64_zero = true ->
  exists m', mrun p f32_numeric (ops ++ replicate (S k) (MInc c r)) = Ret m' /\
    sq_get_entry f32_numeric m' c r = binary_normalize 24 128 (Z.of_N (N.min (N.of_nat (S k)) (2 ^ 24))) 0 false /\
    forall c' r', (c', r') <> (c, r) -> sq_get_entry f32_numeric m' c' r' = sq_get_entry f32_numeric m c' r'.
Proof.
  intros Hrun Hc Hr Hz. rewrite (mrun_incremented p f32_numeric ops m) by done. clear Hrun.
  assert (exists m', incremented p f32_numeric m c r (S k) = Ret m' /\
    sq_val m' c r = Some (int_of 24 128 (N.min (N.of_nat (S k)) (2 ^ 24))) /\
    forall c' r', (c', r') <> (c, r) -> sq_val m' c' r' = sq_val m c' r') as (m' & Hm & Hv & Ho).
  { induction k as [|k IH]; rewrite incremented_S.
    - change (incremented p f32_numeric m c r 0) with (@Ret (sq spec_float) m). simpl obind.
      pose proof (increment_get p f32_numeric m c r Hc Hr) as Hi. rewrite sq_get_val in Hz.
      assert ((match sq_val m c r with None => Ret (num_one f32_numeric) | Some e => num_add_one f32_numeric p e end) =
        Ret (int_of 24 128 1)) as E.
      { destruct (sq_val m c r) as [e|]; [|done]. simpl in Hz.
        destruct e as [[]|[]| |[] me ee]; done. }
      rewrite E in Hi. exact Hi.
    - destruct IH as (m1 & -> & Hv & Ho). simpl obind.
      pose proof (increment_get p f32_numeric m1 c r Hc Hr) as Hi. rewrite Hv in Hi.
      assert (num_add_one f32_numeric p (int_of 24 128 (N.min (N.of_nat (S k)) (2 ^ 24))) =
        Ret (int_of 24 128 (N.min (N.of_nat (S (S k))) (2 ^ 24)))) as E.
      { change (Ret (SFadd 24 128 (int_of 24 128 (N.min (N.of_nat (S k)) (2 ^ 24))) (one_of 24 128)) =
          Ret (int_of 24 128 (N.min (N.of_nat (S (S k))) (2 ^ 24)))). f_equal.
        destruct (N.lt_ge_cases (N.of_nat (S k)) (2 ^ 24)) as [H|H].
        - rewrite !N.min_l by lia. rewrite int_succ; [|reflexivity|reflexivity|lia|lia| |lia].
          + f_equal. lia.
          + change (2 ^ 24)%Z with (Z.of_N (2 ^ 24)). lia.
        - rewrite !N.min_r by lia. by vm_compute. }
      rewrite E in Hi. destruct Hi as (m' & Hm & H1 & H2). exists m'. split; [done|]. split; [done|].
      intros c' r' Hne. rewrite H2 by done. by apply Ho. }
  exists m'. split; [done|]. split; [by rewrite sq_get_val, Hv|].
  intros c' r' Hne. by rewrite !sq_get_val, Ho.
Qed.
Print Assumptions C99_single.

(** Non-vacuity: 200 and 100 more in a u8, 127 and one more in an i8, in both kinds of builds; in
    single precision 2^24 is not left. *)
Definition counted {T} (p : platform) (num : numeric T) (v : T) (k : nat) : option T :=
  match mrun p num (MSet v 1 0 :: replicate k (MInc 1 0)) with
  | Ret m => Some (sq_get_entry num m 1 0) | _ => None end.

Example C99_case :
  counted plat64 u8_numeric 200 55 = Some 255 /\ counted plat64 u8_numeric 200 100 = None /\
  counted plat64r u8_numeric 200 100 = Some 44 /\
  counted plat64 (sint_numeric 8 false) 127%Z 1 = None /\
  counted plat64r (sint_numeric 8 false) 127%Z 1 = Some (-128)%Z /\
  counted plat64 f32_numeric (S754_zero false) 3 = Some (int_of 24 128 3) /\
  counted plat64 f32_numeric (int_of 24 128 (2 ^ 24)) 5 = Some (int_of 24 128 (2 ^ 24)) /\
  counted plat64 f32_numeric (int_of 24 128 (2 ^ 24 + 2)) 1 = Some (int_of 24 128 (2 ^ 24 + 4)) /\
  counted plat64 f64_numeric (f64_of_N (2 ^ 24)) 5 = Some (f64_of_N (2 ^ 24 + 5)).
Proof. split_and!; by vm_compute. Qed.
