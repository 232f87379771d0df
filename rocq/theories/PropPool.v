(** Properties C34-C41 and C48: average pooling and approximation. *)
From Coq Require Import ZArith Reals Lra SpecFloat.
From Verif Require Import Base HashIter F64 Numeric Adj Sq Standard Compressed Spec MatSpec Api
  FloatSpec HashIterProofs AdjProofs SqProofs GraphProofs PoolProofs ApproxProofs FloatBridge
  FloatProofs PoolValueProofs MatrixProofs BitsProofs GraphMoreProofs PropCommon.
Local Open Scope N_scope.

(** ** C34: which cells the pooled matrix has. *)
Theorem C34_pool_dimensions_and_cells p o g b m : wf_platform p -> reach p g ->
  find_avg_pool_matrix p o g b = Ret m ->
  let n := vertex_count g in
  let b' := N.max 1 (N.min b n) in
  (n = 0 -> sq_dimension m = 0 /\ sq_entry_count m = 0) /\
  (n <> 0 ->
     sq_dimension m = (n + b' - 1) / b' /\
     (forall o' c r, (exists e, (e, c, r) ∈ sq_items o' m) <->
        exists u v, does_edge_exist g u v = true /\ u / b' = c /\ v / b' = r) /\
     exists k, has_card (fun '(c, r) =>
        exists u v, does_edge_exist g u v = true /\ u / b' = c /\ v / b' = r) k /\
        sq_entry_count m = k mod 2 ^ 64).
Proof.
  intros Hp Hr Hm n b'. apply reach_inv in Hr; [|done]. split.
  - intros Hn. unfold find_avg_pool_matrix in Hm. fold n in Hm. rewrite Hn in Hm. by injection Hm as <-.
  - intros Hn. destruct (find_avg_pool_ret p o g b m Hr Hn Hm) as (square & Hsq & Hof).
    fold n in Hof. rewrite (clamp_block_minmax n b Hn) in Hof. fold b' in Hof.
    assert (forall c r, is_Some (sq_val m c r) <->
      exists u v, does_edge_exist g u v = true /\ u / b' = c /\ v / b' = r) as Hcell.
    { intros c r. rewrite (pool_stored _ _ _ _ _ _ Hof). setoid_rewrite exists_has.
      rewrite <- block_count_pos. lia. }
    split; [|split].
    + unfold sq_dimension. rewrite (po_dim _ _ _ _ Hof). apply blocks_ceil. lia.
    + intros o' c r. rewrite <- Hcell. setoid_rewrite elem_of_sq_items; [done|apply Hof].
    + exists (N.of_nat (length (sq_keys m))). split.
      * exists (sq_keys m). split; [apply NoDup_sq_keys|]. split; [|done].
        intros [c r]. rewrite elem_of_sq_keys. apply Hcell.
      * apply (si_cnt _ (po_inv _ _ _ _ Hof)).
Qed.
Print Assumptions C34_pool_dimensions_and_cells.

(** The pooled matrix does not depend on the order in which the table is visited. *)
Theorem C34_pool_order_free p o1 o2 g b m1 m2 : wf_platform p -> reach p g ->
  find_avg_pool_matrix p o1 g b = Ret m1 -> find_avg_pool_matrix p o2 g b = Ret m2 ->
  sq_dimension m1 = sq_dimension m2 /\ sq_entry_count m1 = sq_entry_count m2 /\
  forall c r, sq_get_entry f64_numeric m1 c r = sq_get_entry f64_numeric m2 c r.
Proof.
  intros Hp Hr H1 H2. apply reach_inv in Hr; [|done].
  destruct (N.eq_dec (vertex_count g) 0) as [Hn|Hn].
  - unfold find_avg_pool_matrix in H1, H2. rewrite Hn in H1, H2. simpl in H1, H2.
    injection H1 as <-. by injection H2 as <-.
  - destruct (find_avg_pool_ret p o1 g b m1 Hr Hn H1) as (s1 & Hs1 & Hof1).
    destruct (find_avg_pool_ret p o2 g b m2 Hr Hn H2) as (s2 & Hs2 & Hof2).
    rewrite Hs1 in Hs2. injection Hs2 as <-.
    assert (forall c r, sq_val m1 c r = sq_val m2 c r) as Hv.
    { intros c r. by rewrite (po_val _ _ _ _ Hof1), (po_val _ _ _ _ Hof2). }
    split; [|split].
    + unfold sq_dimension. by rewrite (po_dim _ _ _ _ Hof1), (po_dim _ _ _ _ Hof2).
    + unfold sq_entry_count. rewrite (si_cnt _ (po_inv _ _ _ _ Hof1)), (si_cnt _ (po_inv _ _ _ _ Hof2)).
      do 2 f_equal. apply Permutation_length, NoDup_Permutation; [apply NoDup_sq_keys..|].
      intros [c r]. by rewrite !elem_of_sq_keys, Hv.
    + intros c r. by rewrite !sq_get_val, Hv.
Qed.
Print Assumptions C34_pool_order_free.

Example C34_case : exists m, find_avg_pool_matrix plat64 plain_order sample_und 4 = Ret m /\
  sq_dimension m = 3 /\ sq_entry_count m = 4 /\
  sq_get_entry f64_numeric m 0 0 = f64_div (f64_of_N 1) (f64_of_N 8) /\
  sq_get_entry f64_numeric m 2 2 = f64_zero.
Proof. apply ret_ex. vm_compute. repeat split. Qed.

(** ** C35: the values stored are block averages. *)
Theorem C35_pool_entries p o g b m c r k : wf_platform p -> reach p g ->
  let b' := N.max 1 (N.min b (vertex_count g)) in
  b' < 2 ^ 32 -> find_avg_pool_matrix p o g b = Ret m -> block_has g b' c r k ->
  let v := sq_get_entry f64_numeric m c r in
  is_f64 v = true /\ finite_double v = true /\
  (0 <= double_value v <= 1)%R /\
  (double_value v = 0%R <-> k = 0) /\
  (Rabs (double_value v - mean k b') <= / IZR (2 ^ 51) * mean k b')%R /\
  (forall j, b' = 2 ^ j -> double_value v = mean k b').
Proof.
  intros Hp Hr b' Hb Hm Hk v. apply reach_inv in Hr; [|done].
  pose proof (block_has_eq _ _ _ _ _ Hk) as Hcount.
  assert (1 <= b' < 2 ^ 32) as Hb1 by (unfold b'; lia).
  assert (k <= b' * b') as Hkb.
  { rewrite <- (N2Nat.id k), <- Hcount. apply block_count_bound. lia. }
  assert (v = cell_value k b') as Hv.
  { unfold v. destruct (N.eq_dec (vertex_count g) 0) as [Hn|Hn].
    - assert (k = 0) as ->.
      { apply N2Nat.inj. rewrite <- Hcount. change (N.to_nat 0) with 0%nat.
        apply Nat.le_0_r, Nat.nlt_ge. rewrite block_count_pos. intros (x & y & Hh & _).
        apply (has_bound g x y Hr) in Hh. lia. }
      unfold find_avg_pool_matrix in Hm. rewrite Hn in Hm. simpl in Hm. injection Hm as <-.
      rewrite cell_value_0. reflexivity.
    - pose proof (pool_ret p o g b m Hr Hn Hb Hm) as Hof. fold b' in Hof.
      rewrite (pool_cell _ _ _ _ _ _ Hof), Hcount. unfold cell_value.
      destruct (N.eqb_spec k 0) as [->|Hk0].
      + reflexivity.
      + rewrite decide_False by lia. by rewrite N2Nat.id. }
  rewrite Hv. destruct (cell_value_facts k b' Hb1 Hkb) as (x & Hx & H01 & H0 & He).
  pose proof (fval_facts _ _ Hx) as (Hvalid & Hfin & ->).
  split; [exact Hvalid|]. split; [exact Hfin|]. split; [exact H01|]. split; [exact H0|]. split.
  - replace (/ IZR (2 ^ 51))%R with (4 * ulp1)%R; [exact He|].
    unfold ulp1. change (2 ^ 53)%Z with (2 ^ 51 * 4)%Z. rewrite mult_IZR. field.
    apply not_0_IZR. lia.
  - intros j Hj. apply (fval_fun _ _ _ Hx). rewrite Hj in *. apply cell_value_exact; [|exact Hkb].
    destruct (N.lt_ge_cases j 32) as [|Hge]; [done|].
    pose proof (N.pow_le_mono_r 2 32 j ltac:(lia) Hge). lia.
Qed.
Print Assumptions C35_pool_entries.

(** A graph on three vertices, block dimension 2: the averages are 1/4, 1/2, ... *)
Example C35_case : reach plat64 sample_dir /\
  exists m, find_avg_pool_matrix plat64 plain_order sample_dir 2 = Ret m /\
    sq_get_entry f64_numeric m 2 0 = f64_div (f64_of_N 1) (f64_of_N 2) /\
    sq_get_entry f64_numeric m 2 2 = f64_div (f64_of_N 1) (f64_of_N 4).
Proof. split; [apply sample_dir_reach|]. apply ret_ex. vm_compute. repeat split. Qed.

(** ** C36 is false of the code for block dimensions of 2^32 and more: their square does
    not fit a u64 (standard.rs:469), so the call panics, or without overflow checks
    divides by zero and stores infinity. *)
Definition wide_graph : graph := add_edge new_directed (2 ^ 32) 0.
Lemma wide_graph_reach p : reach p wide_graph.
Proof. apply r_add_edge; [apply r_new_directed|done|done]. Qed.

Theorem C36_every_block_dimension_refuted :
  (exists p g b, wf_platform p /\ reach p g /\ is_u64 b /\
     find_avg_pool_matrix p plain_order g b = Panic /\
     approximate p plain_order plain_order g b f64_one = Panic) /\
  (exists p g b m, wf_platform p /\ reach p g /\ is_u64 b /\
     find_avg_pool_matrix p plain_order g b = Ret m /\
     sq_get_entry f64_numeric m 1 0 = S754_infinity false).
Proof.
  split.
  - exists plat64, wide_graph, (2 ^ 32). split; [apply plat64_wf|].
    split; [apply wide_graph_reach|]. split; [done|]. split; by vm_compute.
  - exists plat64r, wide_graph, (2 ^ 32). destruct (find_avg_pool_matrix plat64r plain_order wide_graph
      (2 ^ 32)) as [m| |] eqn:E; [|by vm_compute in E..].
    exists m. split; [apply plat64r_wf|]. split; [apply wide_graph_reach|]. split; [done|].
    split; [done|]. by vm_compute in E; injection E as <-.
Qed.
Print Assumptions C36_every_block_dimension_refuted.

(** Below 2^32 (after clamping to the number of vertices) both calls always return, on
    every platform and build profile, and every entry lies in [0, 1].  Missing from C36:
    clamped block dimensions from 2^32 on. *)
Theorem C36_every_block_dimension_partial p o1 o2 g b t : wf_platform p -> reach p g ->
  N.max 1 (N.min b (vertex_count g)) < 2 ^ 32 -> is_f64 t = true ->
  (exists g', approximate p o1 o2 g b t = Ret g') /\
  exists m, find_avg_pool_matrix p o1 g b = Ret m /\
    forall c r, let v := sq_get_entry f64_numeric m c r in
      is_f64 v = true /\ finite_double v = true /\ (0 <= double_value v <= 1)%R.
Proof.
  intros Hp Hr Hb Ht. pose proof Hr as Hi. apply reach_inv in Hi; [|done]. split.
  - destruct (N.le_gt_cases b 1) as [Hb1|Hb1].
    { eexists. apply approximate_copy. by left. }
    destruct (N.le_gt_cases (vertex_count g) 1) as [Hn|Hn].
    { eexists. apply approximate_copy. by right. }
    destruct (approx_real p o1 o2 g b t Hi Hb1 Hn) as (g' & Hg' & _); [lia|done|eauto].
  - assert (exists m, find_avg_pool_matrix p o1 g b = Ret m) as [m Hm].
    { destruct (N.eq_dec (vertex_count g) 0) as [Hn|Hn].
      - unfold find_avg_pool_matrix. rewrite Hn. simpl. eauto.
      - apply find_avg_pool_total; [done|]. by rewrite clamp_block_minmax. }
    exists m. split; [done|]. intros c r.
    destruct (C35_pool_entries p o1 g b m c r _ Hp Hr Hb Hm (block_has_count g _ c r))
      as (? & ? & ? & _). done.
Qed.
Print Assumptions C36_every_block_dimension_partial.

Example C36_case : N.max 1 (N.min (2 ^ 64 - 1) (vertex_count sample_und)) < 2 ^ 32.
Proof. by vm_compute. Qed.

(** ** C37: approximate compares each block average with the clamped threshold. *)
Theorem C37_approximate_threshold p o1 o2 o3 g b t : wf_platform p -> reach p g ->
  2 <= b -> 2 <= vertex_count g -> is_f64 t = true ->
  let b' := N.min b (vertex_count g) in
  b' < 2 ^ 32 ->
  exists g' m, approximate p o1 o2 g b t = Ret g' /\
    find_avg_pool_matrix p o3 g b = Ret m /\
    is_undirected g' = is_undirected g /\
    vertex_count g' = (vertex_count g + b' - 1) / b' /\
    (forall c r, does_edge_exist g' c r = true <->
       exists thr, threshold_real t = Some thr /\
         (thr <= double_value (sq_get_entry f64_numeric m c r))%R) /\
    (forall j c r k, b' = 2 ^ j -> block_has g b' c r k ->
       does_edge_exist g' c r = true <->
       exists thr, threshold_real t = Some thr /\ (thr <= mean k b')%R).
Proof.
  intros Hp Hr Hb Hn Ht b' Hb'. pose proof Hr as Hi. apply reach_inv in Hi; [|done].
  assert (N.max 1 (N.min b (vertex_count g)) = b') as Hbb by (unfold b'; lia).
  destruct (approx_real p o1 o2 g b t Hi) as (g' & Hg' & Hu & Hv & Hedge); [lia|lia|done|done|].
  fold b' in Hv, Hedge.
  destruct (find_avg_pool_total p o3 g b Hi) as [m Hm].
  { rewrite clamp_block_minmax by lia. by rewrite Hbb. }
  assert (forall c r k, block_has g b' c r k ->
    sq_get_entry f64_numeric m c r = cell_value k b') as Hcell.
  { intros c r k Hk. pose proof (pool_ret p o3 g b m Hi ltac:(lia) ltac:(by rewrite Hbb) Hm) as Hof.
    rewrite Hbb in Hof. rewrite (pool_cell _ _ _ _ _ _ Hof), (block_has_eq _ _ _ _ _ Hk).
    unfold cell_value. destruct (N.eqb_spec k 0) as [->|Hk0]; [reflexivity|].
    rewrite decide_False by lia. by rewrite N2Nat.id. }
  exists g', m. split; [done|]. split; [done|]. split; [done|]. split; [done|].
  assert (forall c r, does_edge_exist g' c r = true <->
       exists thr, threshold_real t = Some thr /\
         (thr <= double_value (sq_get_entry f64_numeric m c r))%R) as Hall.
  { intros c r. rewrite Hedge, (Hcell c r _ (block_has_count g b' c r)). reflexivity. }
  split; [exact Hall|].
  intros j c r k Hj Hk. rewrite Hall.
  destruct (C35_pool_entries p o3 g b m c r k Hp Hr) as (_ & _ & _ & _ & _ & Hex).
  - by rewrite Hbb.
  - done.
  - by rewrite Hbb.
  - rewrite Hbb in Hex. rewrite (Hex j Hj). reflexivity.
Qed.
Print Assumptions C37_approximate_threshold.

Example C37_case : exists g', approximate plat64 plain_order plain_order sample_dir 2
    (f64_div (f64_of_N 1) (f64_of_N 2)) = Ret g' /\
  vertex_count g' = 5 /\ does_edge_exist g' 2 0 = true /\ does_edge_exist g' 2 2 = false.
Proof. apply ret_ex. vm_compute. repeat split. Qed.

(** ** C38 is false of the code: 49 times the double nearest to 1/49 is less than 1, so a
    full 7x7 block does not reach the threshold 1.0. *)
Definition full7 : graph :=
  run false ((fun i => OpAddEdge (i / 7) (i mod 7)) <$> range 49).
Lemma full7_reach p : reach p full7.
Proof. apply reach_runb. by vm_compute. Qed.

Theorem C38_full_block_survives_refuted : exists p g b t g',
  wf_platform p /\ reach p g /\ 2 <= b <= vertex_count g /\ is_f64 t = true /\
  (forall u v, u < b -> v < b -> does_edge_exist g u v = true) /\
  approximate p plain_order plain_order g b t = Ret g' /\ does_edge_exist g' 0 0 = false.
Proof.
  exists plat64, full7, 7, f64_one.
  assert (exists g', approximate plat64 plain_order plain_order full7 7 f64_one = Ret g' /\
    does_edge_exist g' 0 0 = false) as (g' & Hg' & Hno).
  { apply ret_ex. vm_compute. reflexivity. }
  assert (vertex_count full7 = 7) as Hn by by vm_compute.
  assert (forallb (fun i => does_edge_exist full7 (i / 7) (i mod 7)) (range 49) = true) as H
    by by vm_compute.
  exists g'. split; [apply plat64_wf|]. split; [apply full7_reach|]. split; [lia|].
  split; [reflexivity|]. split; [|split; [exact Hg'|exact Hno]].
  clear Hg' Hno g' Hn. intros u v Hu Hv.
  rewrite forallb_forall in H. specialize (H (7 * u + v)).
  rewrite <- (N.div_unique (7 * u + v) 7 u v), <- (N.mod_unique (7 * u + v) 7 u v) in H by lia.
  apply H, elem_of_list_In, elem_of_range. lia.
Qed.
Print Assumptions C38_full_block_survives_refuted.

(** A full block survives every threshold up to 1 - 2^-51, and every threshold when the
    block dimension is a power of two up to 2^26.  Missing from C38: thresholds above
    1 - 2^-51 for other block dimensions (the witness above is one) and blocks of more
    than 2^53 cells. *)
Theorem C38_full_block_survives_partial p o1 o2 g b t c r g' : wf_platform p -> reach p g ->
  2 <= b <= vertex_count g -> b * b <= 2 ^ 53 -> is_f64 t = true -> t <> S754_nan ->
  (forall u v, u / b = c -> v / b = r -> does_edge_exist g u v = true) ->
  approximate p o1 o2 g b t = Ret g' ->
  (exists j, b = 2 ^ j) \/
    (exists thr, threshold_real t = Some thr /\ (thr <= 1 - / IZR (2 ^ 51))%R) ->
  does_edge_exist g' c r = true.
Proof.
  intros Hp Hr Hb Hbb Ht Hnan Hfull Hg' Hcase.
  destruct (C37_approximate_threshold p o1 o2 plain_order g b t Hp Hr) as
    (g'' & m & Hg'' & Hm & _ & _ & Hall & Hpow); [lia|lia|done|nia|].
  rewrite Hg' in Hg''. injection Hg'' as <-.
  replace (N.min b (vertex_count g)) with b in * by lia.
  assert (block_has g b c r (b * b)) as Hk.
  { exists ((fun i => (c * b + i / b, r * b + i mod b)) <$> range (b * b)). split_and!.
    - apply NoDup_fmap_2_strong; [|apply NoDup_range].
      intros x y Hx Hy. apply elem_of_range in Hx, Hy.
      intros [H1 H2]%pair_equal_spec. apply N.add_cancel_l in H1, H2.
      rewrite (N.div_mod x b), (N.div_mod y b) by lia. by rewrite H1, H2.
    - intros [u v]. rewrite elem_of_list_fmap. split.
      + intros (i & [-> ->]%pair_equal_spec & Hi). apply elem_of_range in Hi.
        assert (i / b < b) by (apply N.div_lt_upper_bound; lia).
        assert (i mod b < b) by (apply N.mod_lt; lia).
        assert ((c * b + i / b) / b = c) as Hc.
        { symmetry. apply (N.div_unique _ _ _ (i / b)); lia. }
        assert ((r * b + i mod b) / b = r) as Hr'.
        { symmetry. apply (N.div_unique _ _ _ (i mod b)); lia. }
        split_and!; [by apply Hfull|done..].
      + intros (_ & Hu & Hv). exists (b * (u mod b) + v mod b).
        pose proof (N.mod_lt u b ltac:(lia)) as Hmu. pose proof (N.mod_lt v b ltac:(lia)) as Hmv.
        split.
        * apply pair_equal_spec. split.
          -- rewrite <- (N.div_unique (b * (u mod b) + v mod b) b (u mod b) (v mod b)) by lia.
             rewrite (N.div_mod u b) at 1 by lia. rewrite Hu. lia.
          -- rewrite <- (N.mod_unique (b * (u mod b) + v mod b) b (u mod b) (v mod b)) by lia.
             rewrite (N.div_mod v b) at 1 by lia. rewrite Hv. lia.
        * apply elem_of_range. nia.
    - rewrite fmap_length, length_range. lia. }
  assert (mean (b * b) b = 1%R) as Hmean.
  { unfold mean. rewrite N.min_l by done. unfold Rdiv. apply Rinv_r. apply not_0_IZR. nia. }
  destruct Hcase as [[j Hj]|(thr & Hthr & Hle)].
  - apply (Hpow j c r _ Hj Hk). destruct (threshold_real_some t Hnan) as [thr Hthr].
    exists thr. split; [done|]. rewrite Hmean. apply (threshold_real_pos _ _ Hthr).
  - apply Hall. exists thr. split; [done|].
    destruct (C35_pool_entries p plain_order g b m c r (b * b) Hp Hr) as (_ & _ & _ & _ & He & _);
      replace (N.max 1 (N.min b (vertex_count g))) with b in * by lia; [nia|done|done|].
    rewrite Hmean, Rmult_1_r in He. apply Flocq.Core.Raux.Rabs_le_inv in He. lra.
Qed.
Print Assumptions C38_full_block_survives_partial.

Definition full4 : graph := run true ((fun i => OpAddEdge (4 + i / 4) (i mod 4)) <$> range 16).
Example C38_case : reach plat64 full4 /\
  exists g', approximate plat64 plain_order plain_order full4 4 f64_one = Ret g' /\
    vertex_count g' = 2 /\ does_edge_exist g' 1 0 = true /\ does_edge_exist g' 0 0 = false.
Proof. split; [by apply reach_runb; vm_compute|]. apply ret_ex. vm_compute. repeat split. Qed.

(** ** C39 is false of the code below 10^-18: only arguments that are zero or negative are
    raised (util/mod.rs:16), so smaller positive thresholds are used as they are.  With
    blocks of 2^62 cells this can be observed. *)
Definition sparse_graph : graph := add_edge new_directed (2 ^ 31) 0.
Lemma sparse_graph_reach p : reach p sparse_graph.
Proof. apply r_add_edge; [apply r_new_directed|done|done]. Qed.
Definition two_m62 : spec_float := f64_div f64_one (f64_of_N (2 ^ 62)).
Definition ten_m18 : spec_float := f64_div f64_one (f64_of_N (10 ^ 18)).

Theorem C39_threshold_clamping_refuted : exists p g b t g1 g2,
  wf_platform p /\ reach p g /\ is_u64 b /\ is_f64 t = true /\ f64_lt t ten_m18 = true /\
  approximate p plain_order plain_order g b t = Ret g1 /\
  approximate p plain_order plain_order g b ten_m18 = Ret g2 /\
  does_edge_exist g1 1 0 = true /\ does_edge_exist g2 1 0 = false.
Proof.
  exists plat64, sparse_graph, (2 ^ 31), two_m62.
  assert (exists g', approximate plat64 plain_order plain_order sparse_graph (2 ^ 31) two_m62 = Ret g' /\
    does_edge_exist g' 1 0 = true) as (g1 & Hg1 & H1).
  { apply ret_ex. vm_compute. reflexivity. }
  assert (exists g', approximate plat64 plain_order plain_order sparse_graph (2 ^ 31) ten_m18 = Ret g' /\
    does_edge_exist g' 1 0 = false) as (g2 & Hg2 & H2).
  { apply ret_ex. vm_compute. reflexivity. }
  exists g1, g2. split; [apply plat64_wf|]. split; [apply sparse_graph_reach|].
  split; [reflexivity|]. split; [reflexivity|]. split; [reflexivity|].
  split; [exact Hg1|]. split; [exact Hg2|]. split; [exact H1|exact H2].
Qed.
Print Assumptions C39_threshold_clamping_refuted.

(** Thresholds above 1.0 act as 1.0 and thresholds that are zero or negative act as 10^-18,
    for every block dimension; with block dimensions up to 10^9 every threshold below
    10^-18 does.  Missing from C39: positive thresholds below 10^-18 together with larger
    block dimensions, and NaN (see C41). *)
Theorem C39_threshold_clamping_partial p o1 o2 g b t : wf_platform p -> reach p g ->
  is_f64 t = true ->
  (f64_gt t f64_one = true ->
     approximate p o1 o2 g b t = approximate p o1 o2 g b f64_one) /\
  (f64_le t f64_zero = true ->
     approximate p o1 o2 g b t = approximate p o1 o2 g b ten_m18) /\
  (f64_lt t ten_m18 = true -> N.min b (vertex_count g) <= 10 ^ 9 -> forall g1 g2,
     approximate p o1 o2 g b t = Ret g1 -> approximate p o1 o2 g b ten_m18 = Ret g2 ->
     is_undirected g1 = is_undirected g2 /\ vertex_count g1 = vertex_count g2 /\
     forall c r, does_edge_exist g1 c r = does_edge_exist g2 c r).
Proof.
  intros Hp Hr Ht. apply reach_inv in Hr; [|done]. split; [|split].
  - intros Hgt. unfold approximate. rewrite (clamp_threshold_eq t), Hgt. reflexivity.
  - intros Hle. unfold approximate. rewrite (clamp_threshold_eq t), Hle.
    destruct (f64_gt t f64_one) eqn:Egt; [|reflexivity].
    exfalso. destruct t as [[]|[]| |[] m e]; discriminate Hle || discriminate Egt.
  - intros Hlt Hb9 g1 g2 Hg1 Hg2.
    destruct (N.le_gt_cases b 1) as [Hb1|Hb1].
    { rewrite approximate_copy in Hg1, Hg2 by (by left). injection Hg1 as <-. by injection Hg2 as <-. }
    destruct (N.le_gt_cases (vertex_count g) 1) as [Hn|Hn].
    { rewrite approximate_copy in Hg1, Hg2 by (by right). injection Hg1 as <-. by injection Hg2 as <-. }
    assert (N.min b (vertex_count g) < 2 ^ 32) as Hb32 by lia.
    destruct (approx_real p o1 o2 g b t Hr Hb1 Hn Hb32 Ht) as (g1' & Hg1' & Hu1 & Hv1 & He1).
    destruct (approx_real p o1 o2 g b ten_m18 Hr Hb1 Hn Hb32 eq_refl) as (g2' & Hg2' & Hu2 & Hv2 & He2).
    rewrite Hg1 in Hg1'. injection Hg1' as <-. rewrite Hg2 in Hg2'. injection Hg2' as <-.
    split; [congruence|]. split; [congruence|]. intros c r.
    apply Bool.eq_iff_eq_true. rewrite He1, He2. clear He1 He2.
    assert (N.of_nat (block_count g (N.min b (vertex_count g)) c r) <=
      N.min b (vertex_count g) * N.min b (vertex_count g)) as Hk by (apply block_count_bound; lia).
    set (k := N.of_nat _) in *. set (b' := N.min b (vertex_count g)) in *.
    assert (forall t', is_f64 t' = true -> f64_le t' ten_m18 = true ->
      (exists thr, threshold_real t' = Some thr /\ (thr <= double_value (cell_value k b'))%R) <-> k <> 0) as Hany.
    { intros t' Ht' Hle'. split.
      - intros (thr & Hthr & Hle2) Hk0. rewrite Hk0, cell_value_0 in Hle2.
        apply threshold_real_pos in Hthr. pose proof (fval_facts _ _ fval_zero) as (_ & _ & Hz).
        rewrite Hz in Hle2. lra.
      - intros Hk0. destruct (cell_value_min k b') as (x & Hx & Hminx); [lia|lia|].
        pose proof (fval_facts _ _ Hx) as (_ & _ & ->).
        destruct (threshold_real_mono t' ten_m18 Ht' eq_refl Hle') as (r1 & r2 & Hr1 & Hr2 & Hor).
        exists r1. split; [exact Hr1|].
        assert (r2 = min_threshold) as Hr2m.
        { pose proof (clamp_threshold_fval ten_m18 r2 eq_refl Hr2) as Hf.
          apply (fval_fun _ _ _ Hf). replace (clamp_threshold ten_m18) with
            GRAPH_APPROXIMATION_MIN_THRESHOLD by reflexivity. apply min_threshold_facts. }
        rewrite Hr2m in Hor. destruct Hor as [Hor|[Hor _]]; lra. }
    rewrite !Hany; [reflexivity|reflexivity|reflexivity|exact Ht|].
    revert Hlt. unfold f64_lt, f64_le, SFltb, SFleb. by destruct (SFcompare t ten_m18) as [[]|].
Qed.
Print Assumptions C39_threshold_clamping_partial.

Example C39_case : f64_lt two_m62 ten_m18 = true /\ is_f64 two_m62 = true /\
  N.min 3 (vertex_count sample_dir) <= 10 ^ 9.
Proof. by vm_compute. Qed.

(** ** C40: copies. *)
Theorem C40_approximate_copies p o1 o2 g b t : wf_platform p -> reach p g ->
  b <= 1 \/ vertex_count g <= 1 ->
  exists g', approximate p o1 o2 g b t = Ret g' /\ same_graph g' g.
Proof.
  intros Hp Hr H. exists g. split; [by apply approximate_copy|]. by split_and!.
Qed.
Print Assumptions C40_approximate_copies.

Example C40_case : reach plat64 sample_dir /\ vertex_count sample_dir = 9.
Proof. split; [apply sample_dir_reach|by vm_compute]. Qed.

(** ** C41 is false of the code below 10^-18: 0.0 is raised to 10^-18, smaller positive
    thresholds are not, so the smaller threshold keeps fewer edges. *)
Theorem C41_monotone_refuted : exists p g b t1 t2 g1 g2,
  wf_platform p /\ reach p g /\ is_u64 b /\ is_f64 t1 = true /\ is_f64 t2 = true /\
  f64_le t1 t2 = true /\
  approximate p plain_order plain_order g b t1 = Ret g1 /\
  approximate p plain_order plain_order g b t2 = Ret g2 /\
  does_edge_exist g2 1 0 = true /\ does_edge_exist g1 1 0 = false.
Proof.
  exists plat64, sparse_graph, (2 ^ 31), f64_zero, two_m62.
  assert (exists g', approximate plat64 plain_order plain_order sparse_graph (2 ^ 31) f64_zero = Ret g' /\
    does_edge_exist g' 1 0 = false) as (g1 & Hg1 & H1).
  { apply ret_ex. vm_compute. reflexivity. }
  assert (exists g', approximate plat64 plain_order plain_order sparse_graph (2 ^ 31) two_m62 = Ret g' /\
    does_edge_exist g' 1 0 = true) as (g2 & Hg2 & H2).
  { apply ret_ex. vm_compute. reflexivity. }
  exists g1, g2. split; [apply plat64_wf|]. split; [apply sparse_graph_reach|].
  split; [reflexivity|]. split; [reflexivity|]. split; [reflexivity|]. split; [reflexivity|].
  split; [exact Hg1|]. split; [exact Hg2|]. split; [exact H2|exact H1].
Qed.
Print Assumptions C41_monotone_refuted.

(** Monotone for positive thresholds, and for all thresholds when the block dimension is at
    most 10^9 (or the larger threshold is at least 10^-18); NaN keeps nothing.  Missing
    from C41: block dimensions above 10^9 together with a zero or negative smaller
    threshold. *)
Theorem C41_monotone_partial p o1 o2 o3 o4 g b t1 t2 g1 g2 : wf_platform p -> reach p g ->
  N.min b (vertex_count g) < 2 ^ 32 -> is_f64 t1 = true -> is_f64 t2 = true ->
  approximate p o1 o2 g b t1 = Ret g1 -> approximate p o3 o4 g b t2 = Ret g2 ->
  (f64_le t1 t2 = true ->
   N.min b (vertex_count g) <= 10 ^ 9 \/ f64_gt t1 f64_zero = true \/ f64_ge t2 ten_m18 = true ->
   forall c r, does_edge_exist g2 c r = true -> does_edge_exist g1 c r = true) /\
  (2 <= b -> 2 <= vertex_count g -> t2 = S754_nan ->
   forall c r, does_edge_exist g2 c r = false).
Proof.
  intros Hp Hr Hb32 Ht1 Ht2 Hg1 Hg2. apply reach_inv in Hr; [|done].
  destruct (N.le_gt_cases b 1) as [Hb1|Hb1].
  { rewrite approximate_copy in Hg1, Hg2 by (by left). injection Hg1 as <-. injection Hg2 as <-.
    split; [done|lia]. }
  destruct (N.le_gt_cases (vertex_count g) 1) as [Hn|Hn].
  { rewrite approximate_copy in Hg1, Hg2 by (by right). injection Hg1 as <-. injection Hg2 as <-.
    split; [done|lia]. }
  destruct (approx_real p o1 o2 g b t1 Hr Hb1 Hn Hb32 Ht1) as (g1' & Hg1' & _ & _ & He1).
  destruct (approx_real p o3 o4 g b t2 Hr Hb1 Hn Hb32 Ht2) as (g2' & Hg2' & _ & _ & He2).
  rewrite Hg1 in Hg1'. injection Hg1' as <-. rewrite Hg2 in Hg2'. injection Hg2' as <-.
  clear Hg1 Hg2. split.
  - intros Hle Hcase c r. rewrite He1, He2. clear He1 He2.
    assert (N.of_nat (block_count g (N.min b (vertex_count g)) c r) <=
      N.min b (vertex_count g) * N.min b (vertex_count g)) as Hk by (apply block_count_bound; lia).
    set (k := N.of_nat _) in *. set (b' := N.min b (vertex_count g)) in *.
    intros (thr2 & Hthr2 & Hle2).
    destruct (threshold_real_mono t1 t2 Ht1 Ht2 Hle) as (r1 & r2 & Hr1 & Hr2 & Hor).
    rewrite Hthr2 in Hr2. apply some_inj in Hr2. subst r2. exists r1. split; [exact Hr1|].
    destruct Hor as [Hor|(-> & Hz & Hpos)]; [lra|].
    destruct Hcase as [Hb9|[Hgt|Hge]].
    + assert (k <> 0) as Hk0.
      { intros Hk0. rewrite Hk0, cell_value_0 in Hle2. apply threshold_real_pos in Hthr2.
        pose proof (fval_facts _ _ fval_zero) as (_ & _ & Hzv). rewrite Hzv in Hle2. lra. }
      destruct (cell_value_min k b') as (x & Hx & Hminx); [lia|lia|].
      pose proof (fval_facts _ _ Hx) as (_ & _ & ->). exact Hminx.
    + exfalso. destruct t1 as [[]|[]| |[] m e]; discriminate Hz || discriminate Hgt.
    + assert (min_threshold <= thr2)%R; [|lra].
      destruct (threshold_real_big _ _ Hthr2) as [Hz2|[[-> ->]|(m2 & e2 & -> & ->)]].
      * exfalso. destruct t2 as [[]|[]| |[] m e]; discriminate Hz2 || discriminate Hpos.
      * apply min_threshold_facts.
      * assert (fval (S754_finite false m2 e2) (double_value (S754_finite false m2 e2))) as Hv2
          by (apply valid_fval; [exact Ht2|exact I]).
        assert (ten_m18 = GRAPH_APPROXIMATION_MIN_THRESHOLD) as Hten by reflexivity.
        rewrite Hten in Hge. clear Hten.
        rewrite (fval_ge _ _ _ _ Hv2 (proj1 min_threshold_facts)) in Hge.
        apply Rmin_glb; [apply min_threshold_facts|].
        destruct (Flocq.Core.Raux.Rle_bool_spec min_threshold
          (double_value (S754_finite false m2 e2))); [assumption|discriminate].
  - intros _ _ Hnan c r. destruct (does_edge_exist g2 c r) eqn:E; [|reflexivity].
    apply He2 in E as (thr & Hthr & _). subst t2. discriminate Hthr.
Qed.
Print Assumptions C41_monotone_partial.

Example C41_case : f64_le two_m62 f64_one = true /\ f64_gt two_m62 f64_zero = true /\
  f64_ge f64_one ten_m18 = true /\
  exists g1, approximate plat64 plain_order plain_order sample_dir 2 S754_nan = Ret g1 /\
    edge_count g1 = 0.
Proof. split; [reflexivity|]. split; [reflexivity|]. split; [reflexivity|].
  apply ret_ex. vm_compute. reflexivity. Qed.

(** ** C48: counting with doubles.  The cell may be empty or hold a zero of either sign. *)
Theorem C48_counting p ops c r k m : mrun p f64_numeric ops = Ret m -> c < u64_max -> r < u64_max ->
  f64_eq (sq_get_entry f64_numeric m c r) f64_zero = true ->
  exists m', mrun p f64_numeric (ops ++ replicate k (MInc c r)) = Ret m' /\
    f64_eq (sq_get_entry f64_numeric m' c r) (f64_of_N (N.min (N.of_nat k) (2 ^ 53))) = true /\
    (0 < k -> sq_get_entry f64_numeric m' c r = f64_of_N (N.min (N.of_nat k) (2 ^ 53)))%nat.
Proof.
  intros Hrun Hc Hr Hz.
  assert (both_valid c r = true) as Hb by by apply both_valid_lt.
  assert (forall k, exists m', ofold (mstep p f64_numeric) (replicate k (MInc c r)) m = Ret m' /\
    (sq_val m' c r = match k with O => sq_val m c r | S _ => occ_val k end)) as Hk.
  { clear k. intros k. induction k as [|k IH]; [by exists m|].
    destruct IH as (m' & Hm' & Hv).
    replace (replicate (S k) (MInc c r)) with (replicate k (MInc (T := spec_float) c r) ++ [MInc c r]).
    2:{ rewrite <- replicate_cons_app. done. }
    rewrite ofold_app, Hm'. simpl. rewrite sq_increment_unfold, Hb, Hv.
    destruct k as [|k]; simpl.
    - rewrite sq_get_val in Hz. destruct (sq_val m c r) as [e|] eqn:He; simpl in *.
      + eexists. split; [done|]. rewrite sq_val_put, decide_True by done.
        by destruct e as [[]|[]| |[] me ee].
      + eexists. split; [done|]. by rewrite sq_val_put, decide_True.
    - eexists. split; [done|]. by rewrite sq_val_put, decide_True. }
  destruct (Hk k) as (m' & Hm' & Hv). exists m'. split.
  { unfold mrun in *. rewrite ofold_app, Hrun. simpl. exact Hm'. }
  destruct k as [|k].
  - split; [|lia]. rewrite sq_get_val, Hv. rewrite sq_get_val in Hz. exact Hz.
  - assert (sq_get_entry f64_numeric m' c r = f64_of_N (N.min (N.of_nat (S k)) (2 ^ 53))) as ->.
    { rewrite sq_get_val, Hv. by rewrite occ_val_eq by lia. }
    split; [|done].
    assert (N.min (N.of_nat (S k)) (2 ^ 53) < 2 ^ 64) as Hlt by lia.
    pose proof (fval_N _ Hlt) as Hf. rewrite (fval_eq _ _ _ _ Hf Hf).
    by apply Flocq.Core.Raux.Req_bool_true.
Qed.
Print Assumptions C48_counting.

Example C48_case : exists m, mrun plat64 f64_numeric [MInc 3 1; MInc 3 1; MInc 3 1] = Ret m /\
  sq_get_entry f64_numeric m 3 1 = f64_of_N 3.
Proof. apply ret_ex. vm_compute. reflexivity. Qed.
