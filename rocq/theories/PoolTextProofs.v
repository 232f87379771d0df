(** Texts of pooled matrices. *)
From Coq Require Import ZArith Reals Lia Lra Ascii String SpecFloat.
From Flocq Require Import Core BinarySingleNaN.
From Verif Require Import Base HashIter F64 Numeric Adj Sq Standard Spec TextSpec Api FloatSpec
  AdjProofs SqProofs GraphProofs PoolProofs ApproxProofs TextProofs SqTextProofs NumTextProofs
  SqShowProofs FloatTextProofs FloatBridge FloatProofs PoolValueProofs.
Local Open Scope R_scope.

Lemma finite_abs s m e : Rabs (F2R (Float radix2 (cond_Zopp s (Zpos m)) e)) = IZR (Zpos m) * bpow radix2 e.
Proof.
  rewrite <- F2R_Zabs. rewrite abs_cond_Zopp. reflexivity.
Qed.

Lemma fval_below x r k : (0 <= k)%Z -> fval x r -> Rabs r < IZR (2 ^ k) -> below (2 ^ k) x.
Proof.
  intros Hk Hx Hr. pose proof (fval_facts _ _ Hx) as (_ & Hfin & Hv).
  destruct x as [s|s| |s m e]; try done. cbn [below]. rewrite <- Hv in Hr.
  unfold double_value, SF2R in Hr. rewrite finite_abs in Hr. apply lt_IZR. rewrite !mult_IZR.
  destruct (Z.le_gt_cases 0 e) as [He|He].
  - replace (Z.max 0 e) with e by lia. replace (Z.max 0 (- e)) with 0%Z by lia.
    rewrite Z.pow_0_r, Rmult_1_r. rewrite (IZR_Zpower radix2) by lia. exact Hr.
  - replace (Z.max 0 e) with 0%Z by lia. replace (Z.max 0 (- e)) with (- e)%Z by lia.
    rewrite Z.pow_0_r, Rmult_1_r. 
    replace (IZR (2 ^ (- e))) with (bpow radix2 (- e)) by (symmetry; apply (IZR_Zpower radix2); lia).
    apply Rmult_lt_reg_r with (bpow radix2 e); [apply bpow_gt_0|].
    rewrite Rmult_assoc, <- bpow_plus. replace (- e + e)%Z with 0%Z by lia. simpl bpow.
    rewrite Rmult_1_r. exact Hr.
Qed.

Lemma average_any j s : (1 <= j <= 2 ^ 53)%N -> (s < 2 ^ 64)%N ->
  is_f64 (average j s) = true /\ below (2 ^ 127) (average j s).
Proof.
  intros Hj Hs. pose proof (fval_N_exact j (proj2 Hj)) as Fj. unfold average.
  assert (1 <= IZR (Z.of_N j) <= IZR (2 ^ 53)) as Hj1.
  { split; apply IZR_le; lia. }
  destruct (N.eq_dec s 0) as [->|Hs0].
  - assert (f64_div f64_one (f64_of_N 0) = S754_infinity false) as -> by reflexivity.
    pose proof (fval_facts _ _ Fj) as (_ & Hfin & Hv).
    destruct (f64_of_N j) as [sj|sj| |sj m e]; done.
  - assert (1 <= IZR (Z.of_N s) <= IZR (2 ^ 64)) as Hs1.
    { split; apply IZR_le; lia. }
    assert (IZR (2 ^ 53) <= IZR (2 ^ 100)) as L53 by (apply IZR_le; lia).
    assert (IZR (2 ^ 64) <= IZR (2 ^ 100)) as L64 by (apply IZR_le; lia).
    pose proof (fval_N s Hs) as Fs. pose proof (rnd_ge_1 _ (proj1 Hs1)) as Hrs.
    set (q := rnd (IZR (Z.of_N s))) in *.
    assert (0 < 1 / q <= 1) as Hq.
    { unfold Rdiv. rewrite Rmult_1_l. split; [apply Rinv_0_lt_compat; lra|].
      rewrite <- Rinv_1. apply Rinv_le; lra. }
    assert (fval (f64_div f64_one (f64_of_N s)) (rnd (1 / q))) as Fd.
    { apply fval_div; [apply fval_one|exact Fs|lra|]. apply rnd_ok. rewrite Rabs_pos_eq by lra.
      assert (1 <= IZR (2 ^ 100)) by (apply IZR_le; lia). lra. }
    assert (0 <= rnd (1 / q) <= 1) as Hd.
    { split; [|apply rnd_le_1; lra]. rewrite <- (rnd_id 0 format_0). apply rnd_le. lra. }
    assert (0 <= IZR (Z.of_N j) * rnd (1 / q) <= IZR (2 ^ 53)) as Hprod.
    { split; [apply Rmult_le_pos; lra|]. rewrite <- (Rmult_1_r (IZR (2 ^ 53))).
      apply Rmult_le_compat; lra. }
    assert (fval (f64_mul (f64_of_N j) (f64_div f64_one (f64_of_N s)))
      (rnd (IZR (Z.of_N j) * rnd (1 / q)))) as F.
    { apply fval_mul; [exact Fj|exact Fd|]. apply rnd_ok. rewrite Rabs_pos_eq by lra. lra. }
    split; [exact (fval_valid _ _ F)|]. apply (fval_below _ _ 127 ltac:(lia) F).
    assert (0 <= rnd (IZR (Z.of_N j) * rnd (1 / q)) <= IZR (2 ^ 53)) as Hrnd.
    { split.
      - rewrite <- (rnd_id 0 format_0). apply rnd_le. lra.
      - rewrite <- (rnd_id (IZR (2 ^ 53))); [apply rnd_le; lra|]. apply format_int. lia. }
    rewrite Rabs_pos_eq by lra. assert (IZR (2 ^ 53) < IZR (2 ^ 127)) by (apply IZR_lt; lia). lra.
Qed.

Local Open Scope N_scope.
Local Arguments N.mul : simpl never.
Local Arguments N.add : simpl never.
Local Arguments N.pow : simpl never.

Lemma pool_inv p o g b m : graph_inv g -> find_avg_pool_matrix p o g b = Ret m -> sq_inv m.
Proof.
  intros Hi Hm. destruct (N.eq_dec (vertex_count g) 0) as [Hn|Hn].
  - unfold find_avg_pool_matrix in Hm. rewrite Hn in Hm. simpl in Hm. injection Hm as <-.
    apply sq_inv_new.
  - destruct (find_avg_pool_ret p o g b m Hi Hn Hm) as (square & _ & Hof). apply Hof.
Qed.

(** Values of pooled matrices for any block dimension. *)
Lemma pool_any p o g b m c r v : graph_inv g -> find_avg_pool_matrix p o g b = Ret m ->
  sq_val m c r = Some v -> is_f64 v = true /\ below (2 ^ 127) v.
Proof.
  intros Hi Hm Hv. destruct (N.eq_dec (vertex_count g) 0) as [Hn|Hn].
  - unfold find_avg_pool_matrix in Hm. rewrite Hn in Hm. simpl in Hm. injection Hm as <-. done.
  - destruct (find_avg_pool_ret p o g b m Hi Hn Hm) as (square & Hsq & Hof).
    rewrite (po_val _ _ _ _ Hof) in Hv.
    destruct (block_count g _ c r) as [|k] eqn:Ek; [done|].
    rewrite occ_val_eq in Hv by lia.
    assert (1 <= N.min (N.of_nat (S k)) (2 ^ 53) <= 2 ^ 53) as Hk by lia. revert Hv Hk.
    generalize (N.min (N.of_nat (S k)) (2 ^ 53)). intros j Hv Hj. injection Hv as <-.
    apply (average_any j square Hj).
    change (2 ^ 64) with two64. unfold u64_mul in Hsq.
    destruct (N.ltb_spec (clamp_block (vertex_count g) b * clamp_block (vertex_count g) b) two64);
      [by injection Hsq as <-|].
    destruct (overflow_checks p); [done|]. injection Hsq as <-. by apply N.mod_lt.
Qed.

(** For block dimensions below 2^32 they are averages: above 0, at most 1. *)
Lemma pool_unit p o g b m c r v : graph_inv g ->
  N.max 1 (N.min b (vertex_count g)) < 2 ^ 32 -> find_avg_pool_matrix p o g b = Ret m ->
  sq_val m c r = Some v ->
  is_f64 v = true /\ f64_lt f64_zero v = true /\ f64_le v f64_one = true.
Proof.
  intros Hi Hb Hm Hv. destruct (N.eq_dec (vertex_count g) 0) as [Hn|Hn].
  - unfold find_avg_pool_matrix in Hm. rewrite Hn in Hm. simpl in Hm. injection Hm as <-. done.
  - pose proof (pool_ret p o g b m Hi Hn Hb Hm) as Hof.
    set (b' := N.max 1 (N.min b (vertex_count g))) in *.
    assert (v = cell_value (N.of_nat (block_count g b' c r)) b' /\ block_count g b' c r <> 0%nat) as [-> Hk].
    { rewrite (po_val _ _ _ _ Hof) in Hv. unfold cell_value.
      destruct (block_count g b' c r) as [|k] eqn:Ek; [done|].
      rewrite occ_val_eq in Hv by lia.
      destruct (N.eqb_spec (N.of_nat (S k)) 0); [lia|]. revert Hv.
      generalize (N.min (N.of_nat (S k)) (2 ^ 53)). intros j Hv. injection Hv as <-. done. }
    assert (1 <= b' < 2 ^ 32) as Hb1 by (unfold b' in *; lia).
    destruct (cell_value_facts (N.of_nat (block_count g b' c r)) b' Hb1) as (x & Hx & H01 & H0 & _).
    { apply block_count_bound. lia. }
    split; [exact (fval_valid _ _ Hx)|].
    rewrite (fval_lt _ _ _ _ fval_zero Hx), (fval_le _ _ _ _ Hx fval_one).
    split; [apply Rlt_bool_true|apply Rle_bool_true; lra].
    destruct (Rtotal_order 0 x) as [?|[E|?]]; [done| |lra].
    symmetry in E. apply H0 in E. lia.
Qed.

Lemma pool_prints p o o' g b m d : wf_platform p -> graph_inv g ->
  N.max 1 (N.min b (vertex_count g)) < 2 ^ 32 -> find_avg_pool_matrix p o g b = Ret m ->
  1 <= d -> d + 44 <= 65535 ->
  prints p (sq_dim m) d (fun c r => rounded_text d (sq_get_entry f64_numeric m c r))
    (sq_to_string_with_precision p f64_numeric o' m d).
Proof.
  intros Hp Hi Hb Hm Hd1 Hd2.
  apply (float_prints f64_numeric 53 1024 f64_type); [apply Hp|done|lia|by eapply pool_inv| |].
  - intros c r v Hv. by destruct (pool_unit p o g b m c r v Hi Hb Hm Hv).
  - intros c r v Hv Nv. destruct (pool_unit p o g b m c r v Hi Hb Hm Hv) as (V1 & V2 & V3).
    exists c, r, v. split_and!; [done|done|].
    pose proof (Z_text_length (float_as_i128 v)).
    destruct (unit_text d v V1) as [_ Hl]; [|done|].
    + unfold f64_le, SFleb. unfold f64_lt, SFltb in V2. by destruct (SFcompare _ _) as [[]|].
    + assert (v <> S754_zero true) as Hz by (by intros ->). specialize (Hl Hz). lia.
Qed.

Lemma pool_safe p o o' g b m d : wf_platform p -> graph_inv g ->
  find_avg_pool_matrix p o g b = Ret m -> d + 44 <= 65535 ->
  exists r, sq_to_string_with_precision p f64_numeric o' m d = Ret r /\
    match r with Ok _ => True | Err e => exists msg, e = CapacityOverflow msg end.
Proof.
  intros Hp Hi Hm Hd.
  apply (float_safe f64_numeric 53 1024 f64_type); [apply Hp|done|by eapply pool_inv| |].
  - intros c r v Hv. by destruct (pool_any p o g b m c r v Hi Hm Hv).
  - intros c r v Hv Nv. destruct (pool_any p o g b m c r v Hi Hm Hv) as [V1 V2].
    exists c, r, v. split_and!; [done|done|]. pose proof (float_text_room d v V2). lia.
Qed.
