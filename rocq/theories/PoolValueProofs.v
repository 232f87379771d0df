(** Values of the pooled matrix and of thresholds, as real numbers. *)
From Coq Require Import ZArith Reals Lia Lra SpecFloat.
From Flocq Require Import Core BinarySingleNaN.
From Verif Require Import Base HashIter F64 FloatBridge FloatProofs Numeric Adj Sq Standard Spec
  Api FloatSpec AdjProofs SqProofs GraphProofs PoolProofs ApproxProofs.

(** ** Cells of the pooled matrix *)

Lemma clamp_block_minmax n b : n <> 0 -> clamp_block n b = N.max 1 (N.min b n).
Proof. intros Hn. unfold clamp_block. destruct (N.ltb_spec b 1), (N.ltb_spec n b); lia. Qed.

Lemma blocks_ceil n b : b <> 0 -> blocks_per_row n b = (n + b - 1) / b.
Proof.
  intros Hb. unfold blocks_per_row. pose proof (N.div_mod n b Hb) as Hd.
  pose proof (N.mod_lt n b Hb) as Hlt.
  destruct (N.eqb_spec (n mod b) 0) as [E|E].
  - apply (N.div_unique _ _ _ (b - 1)); [lia|]. rewrite N.add_0_r. rewrite E in Hd.
    generalize dependent (n / b). intros. nia.
  - apply (N.div_unique _ _ _ (n mod b - 1)); [lia|]. rewrite N.mul_add_distr_l.
    generalize dependent (n mod b). generalize dependent (n / b). intros. nia.
Qed.

Lemma occ_val_eq k : (0 < k)%nat -> occ_val k = Some (f64_of_N (N.min (N.of_nat k) (2 ^ 53))).
Proof. intros Hk. destruct k as [|k]; [lia|]. unfold occ_val. by rewrite count_value. Qed.

Lemma pool_cell g b square m c r : pool_of g b square m ->
  sq_get_entry f64_numeric m c r =
    if decide (block_count g b c r = 0%nat) then f64_zero
    else average (N.min (N.of_nat (block_count g b c r)) (2 ^ 53)) square.
Proof.
  intros Hof. rewrite sq_get_val, (po_val _ _ _ _ Hof). case_decide as E.
  - by rewrite E.
  - rewrite occ_val_eq by lia. done.
Qed.

Lemma pool_stored g b square m c r : pool_of g b square m ->
  is_Some (sq_val m c r) <-> block_count g b c r <> 0%nat.
Proof.
  intros Hof. rewrite (po_val _ _ _ _ Hof), fmap_is_Some.
  destruct (block_count g b c r) as [|k]; simpl; split; try done.
  by intros [? ?].
Qed.

Lemma pool_ret p o g b0 m : graph_inv g -> vertex_count g <> 0 ->
  N.max 1 (N.min b0 (vertex_count g)) < 2 ^ 32 ->
  find_avg_pool_matrix p o g b0 = Ret m ->
  pool_of g (N.max 1 (N.min b0 (vertex_count g)))
    (N.max 1 (N.min b0 (vertex_count g)) * N.max 1 (N.min b0 (vertex_count g))) m.
Proof.
  intros Hi Hn Hb Hret. destruct (find_avg_pool_ret p o g b0 m Hi Hn Hret) as (sq' & Hsq & Hof).
  rewrite (clamp_block_minmax _ _ Hn) in Hsq, Hof. rewrite u64_mul_small in Hsq by done.
  by injection Hsq as <-.
Qed.

(** ** Bounds of one cell *)

Local Open Scope R_scope.

Lemma square_u64 b : (1 <= b < 2 ^ 32)%N -> (1 <= b * b < 2 ^ 64)%N.
Proof. change (2 ^ 32)%N with 4294967296%N. change (2 ^ 64)%N with 18446744073709551616%N. nia. Qed.

Lemma fval_facts x r : fval x r -> is_f64 x = true /\ finite_double x = true /\ double_value x = r.
Proof.
  intros (bx & <- & Hf & <-). split; [apply valid_binary_B2SF|]. split.
  - by destruct bx.
  - apply SF2R_B2SF.
Qed.

Lemma fval_zero : fval f64_zero 0.
Proof. by apply (valid_fval f64_zero). Qed.

(** The value of a cell with [k] edges, [b * b] cells. *)
Definition cell_value (k b : N) : spec_float :=
  if (k =? 0)%N then f64_zero else average (N.min k (2 ^ 53)) (b * b).

Lemma mean_range k b : (1 <= b)%N -> (k <= b * b)%N -> 0 <= mean k b <= 1.
Proof.
  intros Hb Hk. assert (1 <= b * b)%N by nia.
  assert (0 < IZR (Z.of_N (b * b))) by (apply IZR_lt; lia).
  unfold mean. split.
  - apply Rmult_le_pos; [apply IZR_le; lia|]. left. by apply Rinv_0_lt_compat.
  - apply Rmult_le_reg_r with (IZR (Z.of_N (b * b))); [done|].
    unfold Rdiv. rewrite Rmult_assoc, Rinv_l, Rmult_1_r, Rmult_1_l by lra. apply IZR_le. lia.
Qed.

Lemma cell_value_facts k b : (1 <= b < 2 ^ 32)%N -> (k <= b * b)%N ->
  exists r, fval (cell_value k b) r /\ 0 <= r <= 1 /\ (r = 0 <-> k = 0%N) /\
    Rabs (r - mean k b) <= 4 * ulp1 * mean k b.
Proof.
  intros Hb Hk. pose proof (square_u64 b Hb) as Hs. unfold cell_value.
  destruct (N.eqb_spec k 0) as [->|Hk0].
  - exists 0. split; [apply fval_zero|]. split; [lra|]. split; [done|].
    unfold mean. rewrite N.min_l by lia. simpl. unfold Rdiv. rewrite Rmult_0_l, Rmult_0_r.
    rewrite Rminus_0_r, Rabs_R0. lra.
  - assert (1 <= N.min k (2 ^ 53) <= 2 ^ 53)%N as Hm by lia.
    assert (N.min k (2 ^ 53) <= b * b)%N as Hms by lia.
    eexists. split; [exact (average_fval _ _ Hm Hms (proj2 Hs))|]. split; [|split].
    + pose proof (average_pos _ _ Hm Hms (proj2 Hs)). pose proof (average_le_1 _ _ Hm Hms (proj2 Hs)). lra.
    + pose proof (average_pos _ _ Hm Hms (proj2 Hs)). split; [lra|done].
    + exact (average_error _ _ Hm Hms (proj2 Hs)).
Qed.

Lemma cell_value_exact k j : (j < 32)%N -> (k <= 2 ^ j * 2 ^ j)%N ->
  fval (cell_value k (2 ^ j)) (mean k (2 ^ j)).
Proof.
  intros Hj Hk. unfold cell_value. destruct (N.eqb_spec k 0) as [->|Hk0].
  - unfold mean. rewrite N.min_l by lia. simpl. unfold Rdiv. rewrite Rmult_0_l. apply fval_zero.
  - assert (2 ^ j * 2 ^ j = Z.to_N (2 ^ Z.of_N (2 * j)))%N as Heq.
    { replace 2%Z with (Z.of_N 2) by done. rewrite <- N2Z.inj_pow, N2Z.id, <- N.pow_add_r.
      f_equal. lia. }
    unfold mean. rewrite Heq. rewrite Z2N.id by (apply Z.pow_nonneg; lia).
    apply average_exact; lia.
Qed.

(** ** Thresholds *)

Lemma min_threshold_quotient :
  GRAPH_APPROXIMATION_MIN_THRESHOLD = f64_div f64_one (f64_of_N (10 ^ 18)).
Proof. reflexivity. Qed.

Lemma value_1e18 : rnd (IZR (Z.of_N (10 ^ 18))) = IZR (10 ^ 18).
Proof.
  change (Z.of_N (10 ^ 18)) with (10 ^ 18)%Z. apply rnd_id.
  replace (IZR (10 ^ 18)) with (IZR 3814697265625 * bpow radix2 18).
  - apply format_scaled; lia.
  - change (bpow radix2 18) with (IZR (2 ^ 18)). rewrite <- mult_IZR. reflexivity.
Qed.

Lemma min_threshold_facts : fval GRAPH_APPROXIMATION_MIN_THRESHOLD min_threshold /\
  0 < min_threshold <= 1.
Proof.
  assert (1 <= IZR (10 ^ 18)) as H1 by (apply IZR_le; lia).
  assert (0 < 1 / IZR (10 ^ 18) <= 1) as H2.
  { unfold Rdiv. rewrite Rmult_1_l. split; [apply Rinv_0_lt_compat; lra|].
    rewrite <- Rinv_1. apply Rinv_le; lra. }
  change min_threshold with (rnd (1 / IZR (10 ^ 18))). split.
  - rewrite min_threshold_quotient. rewrite <- value_1e18.
    apply fval_div; [apply fval_one|apply fval_N; done| |]; rewrite value_1e18.
    + lra.
    + apply rnd_ok. rewrite Rabs_pos_eq by lra. apply Rle_trans with 1; [lra|]. apply IZR_le. lia.
  - split; [|apply rnd_le_1; lra]. destruct (rnd_err (1 / IZR (10 ^ 18))) as (d & Hd & ->).
    + unfold Rdiv. rewrite Rmult_1_l. apply Rinv_le; [lra|]. apply IZR_le. lia.
    + apply Rabs_le_inv in Hd. pose proof ulp1_lt. apply Rmult_lt_0_compat; lra.
Qed.

Local Opaque min_threshold GRAPH_APPROXIMATION_MIN_THRESHOLD.

Lemma some_inj {A} (x y : A) : Some x = Some y -> x = y.
Proof. congruence. Qed.

Lemma threshold_real_pos t r : threshold_real t = Some r -> 0 < r <= 1.
Proof.
  pose proof min_threshold_facts as [_ Hm].
  destruct t as [s|s| |s m e]; cbn [threshold_real]; [|destruct s| |destruct s]; intros Hr;
    [apply some_inj in Hr; subst r; lra..|done|apply some_inj in Hr; subst r; lra|].
  apply some_inj in Hr. subst r. split; [|apply Rmin_l]. apply Rmin_glb_lt; [lra|].
  apply F2R_gt_0. simpl. lia.
Qed.

Lemma clamp_threshold_nan : clamp_threshold S754_nan = S754_nan.
Proof. done. Qed.

Lemma clamp_threshold_eq t : clamp_threshold t =
  if f64_gt t f64_one then f64_one
  else if f64_le t f64_zero then GRAPH_APPROXIMATION_MIN_THRESHOLD else t.
Proof. reflexivity. Qed.

Lemma clamp_threshold_fval t r : is_f64 t = true -> threshold_real t = Some r ->
  fval (clamp_threshold t) r.
Proof.
  intros Hv Hr. pose proof min_threshold_facts as [Hmin _]. rewrite clamp_threshold_eq.
  destruct t as [s|s| |s m e]; cbn [threshold_real] in Hr.
  - apply some_inj in Hr. subst r.
    assert (f64_gt (S754_zero s) f64_one = false) as -> by (destruct s; reflexivity).
    assert (f64_le (S754_zero s) f64_zero = true) as -> by (destruct s; reflexivity). exact Hmin.
  - destruct s; apply some_inj in Hr; subst r.
    + assert (f64_gt (S754_infinity true) f64_one = false) as -> by reflexivity.
      assert (f64_le (S754_infinity true) f64_zero = true) as -> by reflexivity. exact Hmin.
    + assert (f64_gt (S754_infinity false) f64_one = true) as -> by reflexivity. exact fval_one.
  - discriminate.
  - assert (fval (S754_finite s m e) (double_value (S754_finite s m e))) as Ht by by apply valid_fval.
    rewrite (fval_gt _ _ _ _ Ht fval_one), (fval_le _ _ _ _ Ht fval_zero).
    destruct s; apply some_inj in Hr; subst r.
    + assert (double_value (S754_finite true m e) < 0) as Hneg by (apply F2R_lt_0; simpl; lia).
      rewrite Rlt_bool_false, Rle_bool_true by lra. exact Hmin.
    + assert (0 < double_value (S754_finite false m e)) as Hpos by (apply F2R_gt_0; simpl; lia).
      destruct (Rlt_bool_spec 1 (double_value (S754_finite false m e))) as [Hlt|Hge].
      * rewrite Rmin_left by lra. exact fval_one.
      * rewrite Rle_bool_false by lra. rewrite Rmin_right by lra. exact Ht.
Qed.

(** The comparison made by approximate, over the reals. *)
Lemma cell_ge_threshold v rv t : fval v rv -> is_f64 t = true ->
  f64_ge v (clamp_threshold t) = true <->
  exists r, threshold_real t = Some r /\ r <= rv.
Proof.
  intros Hv Ht. destruct (threshold_real t) as [r|] eqn:Er.
  - rewrite (fval_ge _ _ _ _ Hv (clamp_threshold_fval t r Ht Er)). split.
    + intros H. exists r. split; [done|]. by destruct (Rle_bool_spec r rv).
    + intros (r' & [= <-] & Hle). by apply Rle_bool_true.
  - split; [|intros (? & ? & ?); discriminate].
    assert (t = S754_nan) as ->.
    { destruct t as [s|[]| |[] m e]; cbn [threshold_real] in Er; congruence. }
    rewrite clamp_threshold_nan. destruct v as [[]|[]| |[]]; discriminate.
Qed.


(** Blocks of at most 10^18 cells: every stored average reaches the smallest threshold. *)
Lemma cell_value_min k b : (1 <= b <= 10 ^ 9)%N -> (1 <= k <= b * b)%N ->
  exists r, fval (cell_value k b) r /\ min_threshold <= r.
Proof.
  intros Hb Hk. assert (1 <= b < 2 ^ 32)%N as Hb' by lia. pose proof (square_u64 b Hb') as Hs.
  unfold cell_value. destruct (N.eqb_spec k 0) as [->|Hk0]; [lia|].
  assert (1 <= N.min k (2 ^ 53) <= 2 ^ 53)%N as Hm by lia.
  assert (N.min k (2 ^ 53) <= b * b)%N as Hms by lia.
  eexists. split; [exact (average_fval _ _ Hm Hms (proj2 Hs))|].
  set (q := rnd (1 / rnd (IZR (Z.of_N (b * b))))).
  change min_threshold with (rnd (1 / IZR (10 ^ 18))). rewrite <- value_1e18.
  assert (1 <= rnd (IZR (Z.of_N (b * b)))) as Hge by (apply rnd_ge_1, IZR_le; lia).
  assert (rnd (IZR (Z.of_N (b * b))) <= rnd (IZR (Z.of_N (10 ^ 18)))) as Hle.
  { apply rnd_le, IZR_le. assert (b * b <= 10 ^ 9 * 10 ^ 9)%N by (apply N.mul_le_mono; lia). lia. }
  assert (rnd (1 / rnd (IZR (Z.of_N (10 ^ 18)))) <= q) as Hq.
  { apply rnd_le. unfold Rdiv. rewrite !Rmult_1_l. apply Rinv_le; lra. }
  apply Rle_trans with (1 := Hq). apply Rle_trans with (rnd q).
  { rewrite (rnd_id q) by apply rnd_format. lra. }
  apply rnd_le.
  rewrite <- (Rmult_1_l q) at 1. apply Rmult_le_compat_r.
  - apply Rle_trans with (rnd 0); [rewrite (rnd_id 0 format_0); lra|]. apply rnd_le.
    unfold Rdiv. rewrite Rmult_1_l. left. apply Rinv_0_lt_compat. lra.
  - apply IZR_le. lia.
Qed.

Lemma threshold_real_some t : t <> S754_nan -> exists r, threshold_real t = Some r.
Proof. destruct t as [s|[]| |[] m e]; cbn [threshold_real]; intros Ht; try congruence; eauto. Qed.

Lemma f64_le_nan t1 t2 : f64_le t1 t2 = true -> t1 <> S754_nan /\ t2 <> S754_nan.
Proof.
  intros H. split; intros ->; [|destruct t1 as [[]|[]| |[]]]; discriminate.
Qed.

Lemma threshold_real_big t r : threshold_real t = Some r -> f64_le t f64_zero = true \/
  (t = S754_infinity false /\ r = 1) \/
  exists m e, t = S754_finite false m e /\ r = Rmin 1 (double_value t).
Proof.
  destruct t as [s|[]| |[] m e]; cbn [threshold_real]; intros Hr.
  - left. destruct s; reflexivity.
  - left. reflexivity.
  - right. left. split; [reflexivity|]. apply some_inj in Hr. symmetry. exact Hr.
  - discriminate Hr.
  - left. reflexivity.
  - right. right. exists m, e. split; [reflexivity|]. apply some_inj in Hr. symmetry. exact Hr.
Qed.

Lemma threshold_real_low t r : threshold_real t = Some r -> f64_le t f64_zero = true ->
  r = min_threshold.
Proof.
  destruct t as [s|[]| |[] m e]; cbn [threshold_real]; intros Hr Hle.
  - apply some_inj in Hr. symmetry. exact Hr.
  - apply some_inj in Hr. symmetry. exact Hr.
  - discriminate Hle.
  - discriminate Hr.
  - apply some_inj in Hr. symmetry. exact Hr.
  - discriminate Hle.
Qed.

(** Thresholds are ordered as the numbers given, except below 10^-18. *)
Lemma threshold_real_mono t1 t2 : is_f64 t1 = true -> is_f64 t2 = true -> f64_le t1 t2 = true ->
  exists r1 r2, threshold_real t1 = Some r1 /\ threshold_real t2 = Some r2 /\
    (r1 <= r2 \/ r1 = min_threshold /\ f64_le t1 f64_zero = true /\ f64_gt t2 f64_zero = true).
Proof.
  intros H1 H2 Hle. pose proof (f64_le_nan _ _ Hle) as [Hn1 Hn2].
  destruct (threshold_real_some t1 Hn1) as [r1 E1]. destruct (threshold_real_some t2 Hn2) as [r2 E2].
  exists r1, r2. split; [exact E1|]. split; [exact E2|].
  pose proof (threshold_real_pos _ _ E1) as Hp1. pose proof (threshold_real_pos _ _ E2) as Hp2.
  destruct (threshold_real_big _ _ E2) as [Hz2|[[-> ->]|(m2 & e2 & -> & ->)]].
  - destruct (threshold_real_big _ _ E1) as [Hz1|[[-> ->]|(m1 & e1 & -> & ->)]].
    + left. rewrite (threshold_real_low _ _ E1 Hz1), (threshold_real_low _ _ E2 Hz2). lra.
    + destruct t2 as [[]|[]| |[]]; discriminate Hle || discriminate Hz2.
    + destruct t2 as [[]|[]| |[]]; discriminate Hle || discriminate Hz2.
  - left. lra.
  - destruct (threshold_real_big _ _ E1) as [Hz1|[[-> ->]|(m1 & e1 & -> & ->)]].
    + right. split; [exact (threshold_real_low t1 _ E1 Hz1)|]. split; [exact Hz1|]. reflexivity.
    + discriminate Hle.
    + left. assert (double_value (S754_finite false m1 e1) <= double_value (S754_finite false m2 e2)) as HR.
      { assert (fval (S754_finite false m1 e1) (double_value (S754_finite false m1 e1))) as Hv1
          by by apply valid_fval.
        assert (fval (S754_finite false m2 e2) (double_value (S754_finite false m2 e2))) as Hv2
          by by apply valid_fval.
        rewrite (fval_le _ _ _ _ Hv1 Hv2) in Hle. destruct (Rle_bool_spec
          (double_value (S754_finite false m1 e1)) (double_value (S754_finite false m2 e2)));
          [done|discriminate]. }
      apply Rle_min_compat_l. exact HR.
Qed.

(** ** approximate *)

Lemma cell_value_0 b : cell_value 0 b = f64_zero.
Proof. reflexivity. Qed.

Lemma cell_value_occ k b : k <> 0%nat ->
  exists e, occ_val k = Some e /\ f64_mul e (pool_multiplier (b * b)) = cell_value (N.of_nat k) b.
Proof.
  intros Hk. eexists. split; [apply occ_val_eq; lia|]. unfold cell_value.
  destruct (N.eqb_spec (N.of_nat k) 0) as [?|_]; [lia|]. reflexivity.
Qed.

Lemma survives_cell g b t c r : survives g b (b * b) t c r =
  if decide (block_count g b c r = 0%nat) then false
  else f64_ge (cell_value (N.of_nat (block_count g b c r)) b) t.
Proof.
  unfold survives. case_decide as E.
  - rewrite E. reflexivity.
  - destruct (cell_value_occ _ b E) as (e & -> & ->). reflexivity.
Qed.

Lemma survives_real g b t c r : (1 <= b < 2 ^ 32)%N -> is_f64 t = true ->
  survives g b (b * b) (clamp_threshold t) c r = true <->
  exists thr, threshold_real t = Some thr /\
    thr <= double_value (cell_value (N.of_nat (block_count g b c r)) b).
Proof.
  intros Hb Ht. rewrite survives_cell.
  assert (N.of_nat (block_count g b c r) <= b * b)%N as Hk by (apply block_count_bound; lia).
  destruct (cell_value_facts _ b Hb Hk) as (rv & Hrv & _).
  pose proof (fval_facts _ _ Hrv) as (_ & _ & Hval). rewrite Hval. case_decide as E.
  - split; [discriminate|]. intros (thr & Hthr & Hle). apply threshold_real_pos in Hthr.
    rewrite E in Hrv. rewrite cell_value_0 in Hrv.
    pose proof (fval_fun _ _ _ Hrv fval_zero). lra.
  - apply cell_ge_threshold; assumption.
Qed.

Lemma approx_real p o1 o2 g b0 t : graph_inv g -> (1 < b0)%N -> (1 < vertex_count g)%N ->
  (N.min b0 (vertex_count g) < 2 ^ 32)%N -> is_f64 t = true ->
  exists g', approximate p o1 o2 g b0 t = Ret g' /\
    is_undirected g' = is_undirected g /\
    vertex_count g' =
      ((vertex_count g + N.min b0 (vertex_count g) - 1) / N.min b0 (vertex_count g))%N /\
    forall c r, does_edge_exist g' c r = true <->
      exists thr, threshold_real t = Some thr /\
        thr <= double_value (cell_value
          (N.of_nat (block_count g (N.min b0 (vertex_count g)) c r)) (N.min b0 (vertex_count g))).
Proof.
  intros Hi Hb Hn Hlt Ht. pose proof (approximate_eq p o1 o2 g b0 t Hi Hb Hn) as H.
  cbv zeta in H. rewrite u64_mul_small in H by done. destruct H as (g' & Hg' & Hof).
  exists g'. split; [exact Hg'|]. split; [exact (ao_und _ _ _ _ _ Hof)|]. split.
  - rewrite (ao_n _ _ _ _ _ Hof). apply blocks_ceil. lia.
  - intros c r. rewrite exists_has, (ao_has _ _ _ _ _ Hof). apply survives_real; [lia|done].
Qed.
