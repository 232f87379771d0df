(** Further properties of average pooling and approximation: exact values and panics (C35,
    C36), monotonicity in the graph (C67) and the extreme thresholds (C69). *)
From Coq Require Import ZArith Reals Lra SpecFloat.
From Verif Require Import Base HashIter F64 Numeric Adj Sq Standard Compressed Spec MatSpec Api
  FloatSpec HashIterProofs AdjProofs SqProofs GraphProofs PoolProofs ApproxProofs FloatBridge
  FloatProofs PoolValueProofs MatrixProofs BitsProofs GraphMoreProofs CodecMoreProofs PropCommon PropPool PropMore.
Local Open Scope N_scope.

(** ** Lemmas *)

Lemma rnd_nearest x : rnd x = nearest_double x.
Proof. reflexivity. Qed.

(** The average whatever the divisor. *)
Lemma average_any m s : 1 <= m <= 2 ^ 53 -> 1 <= s < 2 ^ 64 ->
  fval (average m s) (rnd (IZR (Z.of_N m) * rnd (1 / rnd (IZR (Z.of_N s))))).
Proof.
  intros Hm Hs.
  assert (1 <= rnd (IZR (Z.of_N s)))%R as H1 by (apply rnd_ge_1, IZR_le; lia).
  assert (0 < / rnd (IZR (Z.of_N s)) <= 1)%R as H2.
  { split; [apply Rinv_0_lt_compat; lra|]. rewrite <- Rinv_1. apply Rinv_le_contravar; lra. }
  assert (1 / rnd (IZR (Z.of_N s)) = / rnd (IZR (Z.of_N s)))%R as Heq by (field; lra).
  assert (0 <= rnd (1 / rnd (IZR (Z.of_N s))) <= 1)%R as H3.
  { rewrite Heq. split; [|apply rnd_le_1; lra].
    replace 0%R with (rnd 0) by apply Flocq.Core.Generic_fmt.round_0, _. apply rnd_le. lra. }
  assert (1 <= IZR (Z.of_N m) <= IZR (2 ^ 53))%R as HM by (split; apply IZR_le; lia).
  unfold average. apply fval_mul; [apply fval_N_exact; lia| |].
  - apply fval_div; [apply fval_one|apply fval_N; lia|lra|].
    rewrite Heq. apply rnd_ok. rewrite Rabs_pos_eq by lra.
    apply Rle_trans with 1%R; [lra|apply IZR_le; lia].
  - apply rnd_ok. rewrite Rabs_pos_eq by (apply Rmult_le_pos; lra).
    apply Rle_trans with (IZR (2 ^ 53) * 1)%R; [apply Rmult_le_compat; lra|].
    rewrite Rmult_1_r. apply IZR_le. lia.
Qed.

Definition exact_average (k s : N) : R :=
  nearest_double (IZR (Z.of_N (N.min k (2 ^ 53))) * nearest_double (1 / nearest_double (IZR (Z.of_N s)))).

Lemma cell_value_nearest k b : 1 <= b < 2 ^ 32 ->
  fval (cell_value k b) (exact_average k (b * b)).
Proof.
  intros Hb. unfold cell_value, exact_average. destruct (N.eqb_spec k 0) as [->|Hk].
  - replace (IZR (Z.of_N (N.min 0 (2 ^ 53)))) with 0%R by reflexivity. rewrite Rmult_0_l.
    unfold nearest_double at 1. rewrite Flocq.Core.Generic_fmt.round_0 by apply _. apply fval_zero.
  - rewrite <- !rnd_nearest. apply average_any; [lia|]. pose proof (square_u64 b Hb). lia.
Qed.

Lemma exact_average_mono k k' s : 1 <= s -> k <= k' -> (exact_average k s <= exact_average k' s)%R.
Proof.
  intros Hs Hk. unfold exact_average. rewrite <- !rnd_nearest. apply rnd_le.
  apply Rmult_le_compat_r; [|apply IZR_le; lia].
  assert (1 <= rnd (IZR (Z.of_N s)))%R as H1 by (apply rnd_ge_1, IZR_le; lia).
  replace 0%R with (rnd 0) by apply Flocq.Core.Generic_fmt.round_0, _. apply rnd_le.
  unfold Rdiv. rewrite Rmult_1_l. left. apply Rinv_0_lt_compat.
  apply Rlt_le_trans with (2 := H1). lra.
Qed.

Lemma clamp_square p g b : vertex_count g <> 0 ->
  let b' := clamp_block (vertex_count g) b in
  u64_mul p b' b' = if (2 ^ 32 <=? N.min b (vertex_count g)) && overflow_checks p then Panic
                    else Ret ((b' * b') mod two64).
Proof.
  intros Hn b'. unfold b'. rewrite clamp_block_minmax by done. unfold u64_mul, two64.
  set (x := N.max 1 (N.min b (vertex_count g))).
  destruct (N.leb_spec (2 ^ 32) (N.min b (vertex_count g))) as [H|H].
  - assert (2 ^ 32 <= x) by (unfold x; lia).
    destruct (N.ltb_spec (x * x) 18446744073709551616); [nia|].
    by destruct (overflow_checks p).
  - assert (x < 2 ^ 32) by (unfold x; lia).
    destruct (N.ltb_spec (x * x) 18446744073709551616); [|nia]. cbn [andb].
    by rewrite N.mod_small.
Qed.

(** The cells of a block. *)
Definition block_cells (b c r : N) : list (N * N) :=
  (fun i => (c * b + i / b, r * b + i mod b)) <$> range (b * b).

Lemma elem_of_block_cells b c r u v : b <> 0 ->
  (u, v) ∈ block_cells b c r <-> u / b = c /\ v / b = r.
Proof.
  intros Hb. unfold block_cells. rewrite elem_of_list_fmap. split.
  - intros (i & [-> ->]%pair_equal_spec & Hi). apply elem_of_range in Hi.
    assert (i / b < b) by (apply N.div_lt_upper_bound; lia).
    assert (i mod b < b) by (apply N.mod_lt; lia).
    split; symmetry; [apply (N.div_unique _ _ _ (i / b))|apply (N.div_unique _ _ _ (i mod b))]; lia.
  - intros [Hu Hv]. exists (b * (u mod b) + v mod b).
    pose proof (N.mod_lt u b ltac:(lia)) as Hmu. pose proof (N.mod_lt v b ltac:(lia)) as Hmv.
    split; [|apply elem_of_range; nia]. apply pair_equal_spec. split.
    + rewrite <- (N.div_unique (b * (u mod b) + v mod b) b (u mod b) (v mod b)) by lia.
      rewrite (N.div_mod u b) at 1 by lia. rewrite Hu. lia.
    + rewrite <- (N.mod_unique (b * (u mod b) + v mod b) b (u mod b) (v mod b)) by lia.
      rewrite (N.div_mod v b) at 1 by lia. rewrite Hv. lia.
Qed.

Lemma NoDup_block_cells b c r : b <> 0 -> NoDup (block_cells b c r).
Proof.
  intros Hb. apply NoDup_fmap_2_strong; [|apply NoDup_range].
  intros x y Hx Hy. intros [H1 H2]%pair_equal_spec. apply N.add_cancel_l in H1, H2.
  rewrite (N.div_mod x b), (N.div_mod y b) by lia. by rewrite H1, H2.
Qed.

Lemma length_block_cells b c r : N.of_nat (length (block_cells b c r)) = b * b.
Proof. unfold block_cells. rewrite fmap_length, length_range. lia. Qed.

Lemma block_full_count g b c r : b <> 0 ->
  (forall u v, u / b = c -> v / b = r -> does_edge_exist g u v = true) ->
  b * b <= N.of_nat (block_count g b c r).
Proof.
  intros Hb Hfull. rewrite <- (length_block_cells b c r).
  assert (length (block_cells b c r) <= block_count g b c r)%nat; [|lia].
  apply submseteq_length, NoDup_submseteq; [by apply NoDup_block_cells|].
  intros [u v] [Hu Hv]%elem_of_block_cells; [|done]. apply elem_of_block_edges.
  split; [|done]. apply exists_has. by apply Hfull.
Qed.

Lemma block_full g b c r u v : b <> 0 -> N.of_nat (block_count g b c r) = b * b ->
  u / b = c -> v / b = r -> (u, v) ∈ block_edges g b c r.
Proof.
  intros Hb Hfull Hu Hv.
  assert (block_edges g b c r ≡ₚ block_cells b c r) as ->.
  { apply submseteq_Permutation_length_eq.
    - pose proof (length_block_cells b c r). unfold block_count in Hfull. lia.
    - apply NoDup_submseteq; [apply NoDup_block_edges|]. intros [x y] Hin.
      apply elem_of_block_edges in Hin as (_ & ? & ?). by apply elem_of_block_cells. }
  by apply elem_of_block_cells.
Qed.

(** ** C35: the exact value of every cell, for block dimensions that are not powers of two
    as well. *)
Theorem C35_exact_value p o g b m c r k : wf_platform p -> reach p g ->
  let b' := N.max 1 (N.min b (vertex_count g)) in
  b' < 2 ^ 32 -> find_avg_pool_matrix p o g b = Ret m -> block_has g b' c r k ->
  double_value (sq_get_entry f64_numeric m c r) =
    nearest_double (IZR (Z.of_N (N.min k (2 ^ 53))) *
      nearest_double (1 / nearest_double (IZR (Z.of_N (b' * b')))))%R.
Proof.
  intros Hp Hr b' Hb Hm Hk. apply reach_inv in Hr; [|done].
  pose proof (block_has_eq _ _ _ _ _ Hk) as Hcount.
  assert (1 <= b' < 2 ^ 32) as Hb1 by (unfold b'; lia).
  assert (sq_get_entry f64_numeric m c r = cell_value k b') as ->.
  { destruct (N.eq_dec (vertex_count g) 0) as [Hn|Hn].
    - assert (k = 0) as ->.
      { apply N2Nat.inj. rewrite <- Hcount. change (N.to_nat 0) with 0%nat.
        apply Nat.le_0_r, Nat.nlt_ge. rewrite block_count_pos. intros (x & y & Hh & _).
        apply (has_bound g x y Hr) in Hh. lia. }
      unfold find_avg_pool_matrix in Hm. rewrite Hn in Hm. simpl in Hm. injection Hm as <-.
      rewrite cell_value_0. reflexivity.
    - pose proof (pool_ret p o g b m Hr Hn Hb Hm) as Hof. fold b' in Hof.
      rewrite (pool_cell _ _ _ _ _ _ Hof), Hcount. unfold cell_value.
      destruct (N.eqb_spec k 0) as [->|Hk0]; [reflexivity|].
      rewrite decide_False by lia. by rewrite N2Nat.id. }
  apply (fval_facts _ _ (cell_value_nearest k b' Hb1)).
Qed.
Print Assumptions C35_exact_value.

Example C35_exact_case : reach plat64 full7 /\ vertex_count full7 = 7 /\
  exists m, find_avg_pool_matrix plat64 plain_order full7 7 = Ret m /\
    f64_lt (sq_get_entry f64_numeric m 0 0) f64_one = true.
Proof.
  split; [apply full7_reach|]. split; [by vm_compute|]. apply ret_ex. by vm_compute.
Qed.

(** ** C36: when exactly the calls panic; they never run forever. *)
Theorem C36_panics_exactly p o1 o2 g b t : wf_platform p -> reach p g ->
  let wide := overflow_checks p = true /\ 2 ^ 32 <= N.min b (vertex_count g) in
  (find_avg_pool_matrix p o1 g b = Panic <-> wide) /\
  (approximate p o1 o2 g b t = Panic <-> wide) /\
  (~ wide -> (exists m, find_avg_pool_matrix p o1 g b = Ret m) /\
             (exists g', approximate p o1 o2 g b t = Ret g')).
Proof.
  intros Hp Hr wide. apply reach_inv in Hr; [|done].
  assert ((find_avg_pool_matrix p o1 g b = Panic /\ wide) \/
          (exists m, find_avg_pool_matrix p o1 g b = Ret m) /\ ~ wide) as Hpool.
  { destruct (N.eq_dec (vertex_count g) 0) as [Hn|Hn].
    - right. split; [|unfold wide; rewrite Hn, N.min_0_r; lia].
      unfold find_avg_pool_matrix. rewrite Hn. simpl. eauto.
    - destruct (find_avg_pool_spec p o1 g b Hr Hn) as [E _]. cbv zeta in E.
      rewrite (clamp_square p g b Hn) in E. unfold wide.
      destruct (N.leb_spec (2 ^ 32) (N.min b (vertex_count g))) as [H|H], (overflow_checks p) eqn:Ho;
        cbn [andb obind] in E; rewrite E.
      + by left.
      + right. split; [eauto|]. intros [? ?]. done.
      + right. split; [eauto|]. lia.
      + right. split; [eauto|]. lia. }
  assert ((approximate p o1 o2 g b t = Panic /\ wide) \/
          (exists g', approximate p o1 o2 g b t = Ret g') /\ ~ wide) as Happ.
  { destruct (decide (b <= 1 \/ vertex_count g <= 1)) as [Hc|Hc].
    - right. rewrite approximate_copy by done. split; [eauto|]. unfold wide. lia.
    - pose proof (approximate_eq p o1 o2 g b t Hr ltac:(lia) ltac:(lia)) as H. cbv zeta in H.
      pose proof (clamp_square p g b ltac:(lia)) as Hsq. cbv zeta in Hsq.
      rewrite clamp_block_minmax in Hsq by lia.
      replace (N.max 1 (N.min b (vertex_count g))) with (N.min b (vertex_count g)) in Hsq by lia.
      rewrite Hsq in H. unfold wide.
      destruct (N.leb_spec (2 ^ 32) (N.min b (vertex_count g))) as [Hw|Hw], (overflow_checks p) eqn:Ho;
        cbn [andb] in H.
      + by left.
      + right. destruct H as (g' & Hg' & _). split; [eauto|]. intros [? ?]. done.
      + right. destruct H as (g' & Hg' & _). split; [eauto|]. lia.
      + right. destruct H as (g' & Hg' & _). split; [eauto|]. lia. }
  split; [|split].
  - destruct Hpool as [[-> ?]|[[m ->] ?]]; [done|]. split; [discriminate|done].
  - destruct Happ as [[-> ?]|[[m ->] ?]]; [done|]. split; [discriminate|done].
  - intros Hw. destruct Hpool as [[_ ?]|[? _]]; [done|]. destruct Happ as [[_ ?]|[? _]]; done.
Qed.
Print Assumptions C36_panics_exactly.

(** Without overflow checks the number of cells is taken modulo 2^64: the entries of wide
    blocks are k / (b^2 mod 2^64), infinity when 2^64 divides b^2. *)
Theorem C36_wide_blocks p o g b m c r k : wf_platform p -> reach p g ->
  let b' := N.min b (vertex_count g) in
  2 ^ 32 <= b' -> find_avg_pool_matrix p o g b = Ret m -> block_has g b' c r k -> k <> 0 ->
  let v := sq_get_entry f64_numeric m c r in
  overflow_checks p = false /\
  ((b' * b') mod 2 ^ 64 = 0 -> v = S754_infinity false) /\
  ((b' * b') mod 2 ^ 64 <> 0 -> finite_double v = true /\
     double_value v = nearest_double (IZR (Z.of_N (N.min k (2 ^ 53))) *
      nearest_double (1 / nearest_double (IZR (Z.of_N ((b' * b') mod 2 ^ 64)))))%R).
Proof.
  intros Hp Hr b' Hb Hm Hk Hk0 v. apply reach_inv in Hr; [|done].
  assert (vertex_count g <> 0) as Hn by (unfold b' in Hb; lia).
  destruct (find_avg_pool_ret p o g b m Hr Hn Hm) as (s & Hs & Hof).
  pose proof (clamp_square p g b Hn) as Hsq. cbv zeta in Hsq. rewrite Hsq in Hs.
  fold b' in Hs. rewrite (proj2 (N.leb_le _ _) Hb) in Hs. cbn [andb] in Hs.
  rewrite (clamp_block_minmax _ _ Hn) in Hs, Hof. fold b' in Hs, Hof.
  replace (N.max 1 b') with b' in Hs, Hof by lia.
  destruct (overflow_checks p); [discriminate|]. injection Hs as <-.
  change two64 with (2 ^ 64) in Hof. split; [done|].
  assert (v = average (N.min k (2 ^ 53)) ((b' * b') mod 2 ^ 64)) as ->.
  { unfold v. rewrite sq_get_val, (po_val _ _ _ _ Hof), (block_has_eq _ _ _ _ _ Hk).
    rewrite occ_val_eq by lia. rewrite N2Nat.id. reflexivity. }
  assert (1 <= N.min k (2 ^ 53) <= 2 ^ 53) as Hmk by lia.
  split.
  - intros ->. unfold average. change (f64_div f64_one (f64_of_N 0)) with (S754_infinity false).
    assert (fval (f64_of_N (N.min k (2 ^ 53))) (IZR (Z.of_N (N.min k (2 ^ 53))))) as Hf
      by (apply fval_N_exact; lia).
    assert (0 < IZR (Z.of_N (N.min k (2 ^ 53))))%R as Hpos by (apply IZR_lt; lia).
    pose proof (fval_facts _ _ Hf) as (_ & Hfin & Hval).
    destruct (f64_of_N (N.min k (2 ^ 53))) as [sg|sg| |[] mm ee]; try discriminate Hfin; try reflexivity.
    + assert (double_value (S754_zero sg) = 0)%R as Hz by reflexivity.
      rewrite Hz in Hval. rewrite <- Hval in Hpos. lra.
    + assert (double_value (S754_finite true mm ee) < 0)%R as Hneg
        by (by apply Flocq.Core.Float_prop.F2R_lt_0).
      rewrite Hval in Hneg. exfalso. apply (Rlt_irrefl 0). by apply Rlt_trans with (1 := Hpos).
  - intros Hnz. assert (1 <= (b' * b') mod 2 ^ 64 < 2 ^ 64) as Hr64.
    { pose proof (N.mod_lt (b' * b') (2 ^ 64) ltac:(done)) as Hlt. split; [|exact Hlt].
      revert Hnz. generalize ((b' * b') mod 2 ^ 64). clear. lia. }
    pose proof (fval_facts _ _ (average_any _ _ Hmk Hr64)) as (_ & Hfin & Hval). by split.
Qed.
Print Assumptions C36_wide_blocks.

Example C36_wide_case : block_has wide_graph (2 ^ 32) 1 0 1 /\ vertex_count wide_graph = 2 ^ 32 + 1.
Proof.
  split; [|by vm_compute]. pose proof (block_has_count wide_graph (2 ^ 32) 1 0) as H.
  replace (N.of_nat (block_count wide_graph (2 ^ 32) 1 0)) with 1 in H by by vm_compute. exact H.
Qed.

(** ** C67: more edges never lead to fewer edges after approximation. *)
Theorem C67_approximate_monotone p o1 o2 o3 o4 g g' b t a a' : wf_platform p ->
  reach p g -> reach p g' -> vertex_count g = vertex_count g' -> is_f64 t = true ->
  (forall u v, does_edge_exist g u v = true -> does_edge_exist g' u v = true) ->
  N.min b (vertex_count g) < 2 ^ 32 ->
  approximate p o1 o2 g b t = Ret a -> approximate p o3 o4 g' b t = Ret a' ->
  forall c r, does_edge_exist a c r = true -> does_edge_exist a' c r = true.
Proof.
  intros Hp Hr Hr' Hn Ht Hsub Hb Ha Ha' c r. apply reach_inv in Hr; [|done]. apply reach_inv in Hr'; [|done].
  destruct (decide (b <= 1 \/ vertex_count g <= 1)) as [Hc|Hc].
  - rewrite approximate_copy in Ha, Ha' by (rewrite <- ?Hn; done).
    injection Ha as <-. injection Ha' as <-. apply Hsub.
  - destruct (approx_real p o1 o2 g b t Hr ltac:(lia) ltac:(lia) Hb Ht) as (x & Hx & _ & _ & He).
    destruct (approx_real p o3 o4 g' b t Hr' ltac:(lia) ltac:(lia) ltac:(by rewrite <- Hn) Ht)
      as (x' & Hx' & _ & _ & He').
    rewrite Ha in Hx. injection Hx as <-. rewrite Ha' in Hx'. injection Hx' as <-.
    rewrite He, He', <- Hn. intros (thr & Hthr & Hle). exists thr. split; [done|].
    set (b' := N.min b (vertex_count g)) in *. assert (1 <= b' < 2 ^ 32) as Hb' by (unfold b'; lia).
    pose proof (fval_facts _ _ (cell_value_nearest (N.of_nat (block_count g b' c r)) b' Hb'))
      as (_ & _ & Hv). rewrite Hv in Hle.
    pose proof (fval_facts _ _ (cell_value_nearest (N.of_nat (block_count g' b' c r)) b' Hb'))
      as (_ & _ & Hv'). rewrite Hv'.
    apply Rle_trans with (1 := Hle). apply exact_average_mono; [nia|].
    assert (block_count g b' c r <= block_count g' b' c r)%nat; [|lia].
    apply block_count_le. intros u v. rewrite <- !exists_has. apply Hsub.
Qed.
Print Assumptions C67_approximate_monotone.

Example C67_approximate_case :
  vertex_count (add_edge sample_dir 3 6) = vertex_count sample_dir /\
  (exists a, approximate plat64 plain_order plain_order sample_dir 3 (f64_div f64_one (f64_of_N 9)) = Ret a /\
     edge_count a = 3) /\
  (exists a, approximate plat64 plain_order plain_order (add_edge sample_dir 3 6) 3
     (f64_div f64_one (f64_of_N 9)) = Ret a /\ edge_count a = 4).
Proof. split; [by vm_compute|]. split; apply ret_ex; by vm_compute. Qed.

(** ** C69: the extreme thresholds.  Up to blocks of 10^9, thresholds that are zero or
    negative keep exactly the blocks with an edge; with a power of two up to 2^26,
    thresholds of 1.0 and more keep exactly the full blocks. *)
Theorem C69_extreme_thresholds p o1 o2 g b t a : wf_platform p -> reach p g ->
  2 <= b -> 2 <= vertex_count g -> is_f64 t = true ->
  let b' := N.min b (vertex_count g) in
  approximate p o1 o2 g b t = Ret a ->
  (f64_le t f64_zero = true -> b' <= 10 ^ 9 ->
     forall c r, does_edge_exist a c r = true <->
       exists u v, does_edge_exist g u v = true /\ u / b' = c /\ v / b' = r) /\
  (f64_ge t f64_one = true -> forall j, b' = 2 ^ j -> j <= 26 ->
     forall c r, does_edge_exist a c r = true <->
       forall u v, u / b' = c -> v / b' = r -> does_edge_exist g u v = true).
Proof.
  intros Hp Hr Hb Hn Ht b' Ha. pose proof Hr as Hi. apply reach_inv in Hi; [|done].
  assert (b' < 2 ^ 32 -> forall c r, does_edge_exist a c r = true <->
    exists thr, threshold_real t = Some thr /\
      (thr <= double_value (cell_value (N.of_nat (block_count g b' c r)) b'))%R) as Hall.
  { intros Hb'. destruct (approx_real p o1 o2 g b t Hi ltac:(lia) ltac:(lia) Hb' Ht)
      as (x & Hx & _ & _ & He). rewrite Ha in Hx. injection Hx as <-. exact He. }
  assert (2 <= b') as Hb2 by (unfold b'; lia).
  split.
  - intros Hle H9 c r. rewrite (Hall ltac:(lia)).
    assert (threshold_real t = Some min_threshold) as Hthr.
    { destruct t as [[]|[]| |[] mm ee]; try discriminate Hle; reflexivity. }
    assert (N.of_nat (block_count g b' c r) <= b' * b') as Hk by (apply block_count_bound; lia).
    setoid_rewrite exists_has. rewrite <- block_count_pos. split.
    + intros (thr & Hthr' & Hge). rewrite Hthr in Hthr'. apply some_inj in Hthr'. subst thr.
      destruct (block_count g b' c r) as [|k]; [|lia]. exfalso.
      change (N.of_nat 0) with 0 in Hge. rewrite cell_value_0 in Hge.
      pose proof (fval_facts _ _ fval_zero) as (_ & _ & Hz). rewrite Hz in Hge.
      apply threshold_real_pos in Hthr. lra.
    + intros Hpos. exists min_threshold. split; [done|].
      destruct (cell_value_min (N.of_nat (block_count g b' c r)) b') as (x & Hx & Hmin); [lia|lia|].
      pose proof (fval_facts _ _ Hx) as (_ & _ & ->). exact Hmin.
  - intros Hge j Hj Hj26 c r.
    assert (b' <= 2 ^ 26) as H26 by (rewrite Hj; apply N.pow_le_mono_r; lia).
    assert (b' * b' <= 2 ^ 53) as H53.
    { change (2 ^ 53) with 9007199254740992. change (2 ^ 26) with 67108864 in H26. nia. }
    rewrite (Hall ltac:(lia)).
    assert (threshold_real t = Some 1%R) as Hthr.
    { destruct t as [[]|[]| |[] mm ee]; try discriminate Hge; [reflexivity|].
      simpl. f_equal. apply Rmin_left.
      assert (fval (S754_finite false mm ee) (double_value (S754_finite false mm ee))) as Hv
        by (apply valid_fval; [exact Ht|exact I]).
      rewrite (fval_ge _ _ _ _ Hv fval_one) in Hge.
      destruct (Flocq.Core.Raux.Rle_bool_spec 1 (double_value (S754_finite false mm ee)));
        [assumption|discriminate]. }
    assert (N.of_nat (block_count g b' c r) <= b' * b') as Hk by (apply block_count_bound; lia).
    assert (double_value (cell_value (N.of_nat (block_count g b' c r)) b') =
      mean (N.of_nat (block_count g b' c r)) b') as Hval.
    { rewrite Hj in Hk |- *. apply (fval_facts _ _ (cell_value_exact _ j ltac:(lia) Hk)). }
    assert ((exists thr, threshold_real t = Some thr /\
      (thr <= double_value (cell_value (N.of_nat (block_count g b' c r)) b'))%R) <->
      N.of_nat (block_count g b' c r) = b' * b') as ->.
    { assert (0 < IZR (Z.of_N (b' * b')))%R as Hpos by (apply IZR_lt; nia).
      rewrite Hval. unfold mean. rewrite N.min_l by lia. split.
      - intros (thr & Hthr' & Hle). rewrite Hthr in Hthr'. apply some_inj in Hthr'. subst thr.
        apply (Rmult_le_compat_r _ _ _ (Rlt_le _ _ Hpos)) in Hle. unfold Rdiv in Hle.
        rewrite Rmult_assoc, Rinv_l, Rmult_1_r, Rmult_1_l in Hle by lra. apply le_IZR in Hle. lia.
      - intros ->. exists 1%R. split; [done|]. unfold Rdiv. rewrite Rinv_r by lra. lra. }
    split.
    + intros Hfull u v Hu Hv. apply exists_has.
      apply (elem_of_block_edges g b' c r u v), block_full; [lia|done|done|done].
    + intros Hfull. apply N.le_antisymm; [done|]. apply block_full_count; [lia|done].
Qed.
Print Assumptions C69_extreme_thresholds.

Example C69_case : f64_le f64_zero f64_zero = true /\ f64_ge f64_one f64_one = true /\
  (exists a, approximate plat64 plain_order plain_order full4 4 f64_one = Ret a /\ edge_count a = 2) /\
  (exists a, approximate plat64 plain_order plain_order sample_dir 4 f64_zero = Ret a /\ edge_count a = 3) /\
  (exists a, approximate plat64 plain_order plain_order sample_dir 4 f64_one = Ret a /\ edge_count a = 0).
Proof. split; [done|]. split; [done|]. split_and!; apply ret_ex; by vm_compute. Qed.

(** ** C37, C38 *)

(** The rule of approximate in terms of the number of edges of a block alone, for every block
    dimension below 2^32. *)
Theorem C37_exact_rule p o1 o2 g b t g' : wf_platform p -> reach p g ->
  2 <= b -> 2 <= vertex_count g -> is_f64 t = true ->
  let b' := N.min b (vertex_count g) in
  b' < 2 ^ 32 -> approximate p o1 o2 g b t = Ret g' ->
  forall c r k, block_has g b' c r k ->
  does_edge_exist g' c r = true <->
  exists thr, threshold_real t = Some thr /\
    (thr <= nearest_double (IZR (Z.of_N (N.min k (2 ^ 53))) *
      nearest_double (1 / nearest_double (IZR (Z.of_N (b' * b'))))))%R.
Proof.
  intros Hp Hr Hb Hn Ht b' Hb' Ha c r k Hk.
  destruct (C37_approximate_threshold p o1 o2 plain_order g b t Hp Hr Hb Hn Ht Hb')
    as (g'' & m & Ha' & Hm & _ & _ & Hall & _).
  rewrite Ha in Ha'. injection Ha' as <-.
  assert (N.max 1 (N.min b (vertex_count g)) = b') as E by (unfold b'; lia).
  pose proof (C35_exact_value p plain_order g b m c r k Hp Hr) as Hv. cbv zeta in Hv.
  rewrite E in Hv. by rewrite Hall, (Hv Hb' Hm Hk).
Qed.
Print Assumptions C37_exact_rule.

(** ** C39, C41 *)

(** The rounded average of a block with [k] edges. *)
Definition block_average (k b : N) : R :=
  nearest_double (IZR (Z.of_N (N.min k (2 ^ 53))) *
    nearest_double (1 / nearest_double (IZR (Z.of_N (b * b))))).

Lemma inclusion_exact p o1 o2 o3 o4 g b t1 t2 g1 g2 r1 r2 : wf_platform p -> reach p g ->
  2 <= b -> 2 <= vertex_count g -> N.min b (vertex_count g) < 2 ^ 32 ->
  is_f64 t1 = true -> is_f64 t2 = true ->
  approximate p o1 o2 g b t1 = Ret g1 -> approximate p o3 o4 g b t2 = Ret g2 ->
  threshold_real t1 = Some r1 -> threshold_real t2 = Some r2 ->
  (forall c r, does_edge_exist g2 c r = true -> does_edge_exist g1 c r = true) <->
  ~ exists c r k, block_has g (N.min b (vertex_count g)) c r k /\
      (r2 <= block_average k (N.min b (vertex_count g)) < r1)%R.
Proof.
  intros Hp Hr Hb Hn Hb32 Ht1 Ht2 Hg1 Hg2 Hr1 Hr2.
  pose proof (C37_exact_rule p o1 o2 g b t1 g1 Hp Hr Hb Hn Ht1 Hb32 Hg1) as H1.
  pose proof (C37_exact_rule p o3 o4 g b t2 g2 Hp Hr Hb Hn Ht2 Hb32 Hg2) as H2.
  fold (block_average) in H1, H2. split.
  - intros Hinc (c & r & k & Hk & Hle & Hlt).
    assert (does_edge_exist g2 c r = true) as E.
    { apply (H2 c r k Hk). by exists r2. }
    apply Hinc, (H1 c r k Hk) in E as (thr & Ethr & Hthr). rewrite Hr1 in Ethr.
    apply some_inj in Ethr. subst thr. unfold block_average in Hlt. lra.
  - intros Hno c r E.
    pose proof (block_has_count g (N.min b (vertex_count g)) c r) as Hk.
    apply (H1 c r _ Hk). exists r1. split; [done|].
    apply (H2 c r _ Hk) in E as (thr & Ethr & Hthr). rewrite Hr2 in Ethr.
    apply some_inj in Ethr. subst thr. apply Rnot_lt_le. intros Hlt. apply Hno.
    exists c, r, (N.of_nat (block_count g (N.min b (vertex_count g)) c r)). split; [done|].
    unfold block_average. lra.
Qed.

(** A positive threshold below 10^-18 is used as it is. *)
Lemma tiny_threshold t : is_f64 t = true -> f64_gt t f64_zero = true ->
  f64_lt t ten_m18 = true ->
  threshold_real t = Some (double_value t) /\ (double_value t < min_threshold)%R.
Proof.
  intros Ht Hpos Hlt.
  assert (ten_m18 = GRAPH_APPROXIMATION_MIN_THRESHOLD) as Hten by reflexivity.
  rewrite Hten in Hlt. clear Hten.
  destruct t as [[]|[]| |[] m e]; try discriminate Hpos.
  { exfalso. revert Hlt. by vm_compute. }
  assert (fval (S754_finite false m e) (double_value (S754_finite false m e))) as Hv
    by (apply valid_fval; [exact Ht|exact I]).
  rewrite (fval_lt _ _ _ _ Hv (proj1 min_threshold_facts)) in Hlt.
  assert (double_value (S754_finite false m e) < min_threshold)%R as H.
  { by destruct (Flocq.Core.Raux.Rlt_bool_spec (double_value (S754_finite false m e)) min_threshold). }
  split; [|exact H]. cbn [threshold_real]. f_equal. apply Rmin_right.
  pose proof min_threshold_facts as [_ Hm]. lra.
Qed.

Lemma threshold_below_min t r : is_f64 t = true -> f64_gt t f64_zero = true ->
  threshold_real t = Some r -> (r < min_threshold)%R -> f64_lt t ten_m18 = true.
Proof.
  intros Ht Hpos Hr Hlt. pose proof min_threshold_facts as [Hf Hm].
  destruct t as [[]|[]| |[] m e]; try discriminate Hpos; cbn [threshold_real] in Hr;
    apply some_inj in Hr; subst r.
  - lra.
  - assert (fval (S754_finite false m e) (double_value (S754_finite false m e))) as Hv
      by (apply valid_fval; [exact Ht|exact I]).
    assert (ten_m18 = GRAPH_APPROXIMATION_MIN_THRESHOLD) as Hten by reflexivity.
    rewrite Hten. clear Hten. rewrite (fval_lt _ _ _ _ Hv Hf).
    apply Flocq.Core.Raux.Rlt_bool_true. revert Hlt. unfold Rmin.
    destruct (Rle_dec 1 (double_value (S754_finite false m e))); lra.
Qed.

Lemma threshold_nonpos t : f64_le t f64_zero = true -> threshold_real t = Some min_threshold.
Proof. destruct t as [[]|[]| |[] m e]; intros H; try discriminate H; reflexivity. Qed.

(** A threshold below 10^-18 gives the edges that 10^-18 gives, unless it is positive and
    the average of some block lies between the two. *)
Theorem C39_exact p o1 o2 o3 o4 g b t g1 g2 : wf_platform p -> reach p g ->
  2 <= b -> 2 <= vertex_count g -> is_f64 t = true -> f64_lt t ten_m18 = true ->
  let b' := N.min b (vertex_count g) in
  b' < 2 ^ 32 ->
  approximate p o1 o2 g b t = Ret g1 -> approximate p o3 o4 g b ten_m18 = Ret g2 ->
  (forall c r, does_edge_exist g1 c r = does_edge_exist g2 c r) <->
  ~ (f64_gt t f64_zero = true /\
     exists c r k, block_has g b' c r k /\
       (double_value t <= block_average k b' < min_threshold)%R).
Proof.
  intros Hp Hr Hb Hn Ht Hlt b' Hb32 Hg1 Hg2.
  assert (is_f64 ten_m18 = true) as Hten by reflexivity.
  assert (threshold_real ten_m18 = Some min_threshold) as Eten.
  { pose proof min_threshold_facts as [Hf Hm]. pose proof (fval_facts _ _ Hf) as (_ & _ & Hv).
    assert (ten_m18 = GRAPH_APPROXIMATION_MIN_THRESHOLD) as E by reflexivity. rewrite E. clear E.
    transitivity (Some (Rmin 1 (double_value GRAPH_APPROXIMATION_MIN_THRESHOLD))); [reflexivity|].
    rewrite Hv. f_equal. apply Rmin_right. lra. }
  destruct (f64_le t f64_zero) eqn:Ez.
  { pose proof (threshold_nonpos t Ez) as Et.
    pose proof (inclusion_exact p o1 o2 o3 o4 g b t ten_m18 g1 g2 _ _ Hp Hr Hb Hn Hb32 Ht Hten
      Hg1 Hg2 Et Eten) as H12.
    pose proof (inclusion_exact p o3 o4 o1 o2 g b ten_m18 t g2 g1 _ _ Hp Hr Hb Hn Hb32 Hten Ht
      Hg2 Hg1 Eten Et) as H21.
    assert (forall P : Prop, P -> (P <-> True)) as HT by tauto. split.
    - intros _ [Hpos _]. destruct t as [[]|[]| |[] m e]; discriminate Ez || discriminate Hpos.
    - intros _ c r. apply Bool.eq_iff_eq_true. split.
      + apply H21. intros (? & ? & ? & _ & ?). lra.
      + apply H12. intros (? & ? & ? & _ & ?). lra. }
  assert (f64_gt t f64_zero = true) as Hpos.
  { destruct t as [[]|[]| |[] m e]; try discriminate Ez; try reflexivity.
    exfalso. revert Hlt. by vm_compute. }
  destruct (tiny_threshold t Ht Hpos Hlt) as [Et Hm]. clear Hlt.
  pose proof (inclusion_exact p o1 o2 o3 o4 g b t ten_m18 g1 g2 _ _ Hp Hr Hb Hn Hb32 Ht Hten
    Hg1 Hg2 Et Eten) as H12.
  pose proof (inclusion_exact p o3 o4 o1 o2 g b ten_m18 t g2 g1 _ _ Hp Hr Hb Hn Hb32 Hten Ht
    Hg2 Hg1 Eten Et) as H21.
  split.
  - intros Heq [_ H]. revert H. apply H21. intros c r. rewrite Heq. exact (fun H => H).
  - intros Hno c r. apply Bool.eq_iff_eq_true. split.
    + apply H21. intros H. apply Hno. split; [exact Hpos|exact H].
    + apply H12. intros (? & ? & ? & _ & ?). lra.
Qed.
Print Assumptions C39_exact.

(** A larger threshold keeps a subset of the edges, unless the smaller one is not positive,
    the larger one is positive and below 10^-18, and the average of some block lies between
    the larger one and 10^-18. *)
Theorem C41_exact p o1 o2 o3 o4 g b t1 t2 g1 g2 : wf_platform p -> reach p g ->
  2 <= b -> 2 <= vertex_count g -> is_f64 t1 = true -> is_f64 t2 = true ->
  f64_le t1 t2 = true ->
  let b' := N.min b (vertex_count g) in
  b' < 2 ^ 32 ->
  approximate p o1 o2 g b t1 = Ret g1 -> approximate p o3 o4 g b t2 = Ret g2 ->
  (forall c r, does_edge_exist g2 c r = true -> does_edge_exist g1 c r = true) <->
  ~ (f64_le t1 f64_zero = true /\ f64_gt t2 f64_zero = true /\ f64_lt t2 ten_m18 = true /\
     exists c r k, block_has g b' c r k /\
       (double_value t2 <= block_average k b' < min_threshold)%R).
Proof.
  intros Hp Hr Hb Hn Ht1 Ht2 Hle b' Hb32 Hg1 Hg2.
  destruct (threshold_real_mono t1 t2 Ht1 Ht2 Hle) as (r1 & r2 & Hr1 & Hr2 & Hor).
  rewrite (inclusion_exact p o1 o2 o3 o4 g b t1 t2 g1 g2 r1 r2) by assumption.
  change (N.min b (vertex_count g)) with b'.
  split; intros Hno.
  - intros (Hz & Hpos & Hlt & c & r & k & Hk & Hrange). apply Hno. exists c, r, k.
    split; [exact Hk|]. rewrite (threshold_nonpos t1 Hz) in Hr1. apply some_inj in Hr1. subst r1.
    destruct (tiny_threshold t2 Ht2 Hpos Hlt) as [Et _]. rewrite Et in Hr2.
    apply some_inj in Hr2. subst r2. exact Hrange.
  - intros (c & r & k & Hk & Hrange). apply Hno.
    destruct Hor as [Hor|(-> & Hz & Hpos)]; [lra|].
    assert (f64_lt t2 ten_m18 = true) as Hlt
      by (eapply threshold_below_min; [exact Ht2|exact Hpos|exact Hr2|lra]).
    destruct (tiny_threshold t2 Ht2 Hpos Hlt) as [Et _]. rewrite Et in Hr2.
    apply some_inj in Hr2. subst r2. split; [exact Hz|]. split; [exact Hpos|]. split; [exact Hlt|].
    exists c, r, k. split; [exact Hk|exact Hrange].
Qed.
Print Assumptions C41_exact.

(** Both outcomes occur. *)
Example C41_exact_case : f64_le f64_zero two_m62 = true /\ f64_gt two_m62 f64_zero = true /\
  f64_lt two_m62 ten_m18 = true /\
  (exists a, approximate plat64 plain_order plain_order sparse_graph (2 ^ 31) f64_zero = Ret a /\
    does_edge_exist a 1 0 = false) /\
  (exists a, approximate plat64 plain_order plain_order sparse_graph (2 ^ 31) two_m62 = Ret a /\
    does_edge_exist a 1 0 = true) /\
  (exists a, approximate plat64 plain_order plain_order sample_dir 2 f64_zero = Ret a /\
    does_edge_exist a 2 0 = true) /\
  (exists a, approximate plat64 plain_order plain_order sample_dir 2 two_m62 = Ret a /\
    does_edge_exist a 2 0 = true).
Proof. split_and!; [done..| | | |]; apply ret_ex; by vm_compute. Qed.

(** A full block survives exactly when the threshold is at most the rounded average. *)
Theorem C38_exact p o1 o2 g b t c r g' : wf_platform p -> reach p g ->
  2 <= b <= vertex_count g -> b < 2 ^ 32 -> is_f64 t = true ->
  (forall u v, u / b = c -> v / b = r -> does_edge_exist g u v = true) ->
  approximate p o1 o2 g b t = Ret g' ->
  does_edge_exist g' c r = true <->
  exists thr, threshold_real t = Some thr /\
    (thr <= nearest_double (IZR (Z.of_N (N.min (b * b) (2 ^ 53))) *
      nearest_double (1 / nearest_double (IZR (Z.of_N (b * b))))))%R.
Proof.
  intros Hp Hr Hb Hb32 Ht Hfull Ha.
  assert (N.min b (vertex_count g) = b) as E by lia.
  assert (block_has g b c r (b * b)) as Hk.
  { assert (N.of_nat (block_count g b c r) = b * b) as <-; [|apply block_has_count].
    apply N.le_antisymm; [apply block_count_bound; lia|]. apply block_full_count; [lia|done]. }
  pose proof (C37_exact_rule p o1 o2 g b t g' Hp Hr) as H. cbv zeta in H. rewrite E in H.
  apply H; [lia|lia|done|done|done|done].
Qed.
Print Assumptions C38_exact.

(** The full block of [full7] is dropped with threshold 1 and kept with threshold 0. *)
Example C38_exact_case : (7 <= vertex_count full7) /\
  forallb (fun i => does_edge_exist full7 (i / 7) (i mod 7)) (range 49) = true /\
  (exists a, approximate plat64 plain_order plain_order full7 7 f64_one = Ret a /\
    does_edge_exist a 0 0 = false) /\
  (exists a, approximate plat64 plain_order plain_order full7 7 f64_zero = Ret a /\
    does_edge_exist a 0 0 = true).
Proof. split_and!; [by vm_compute..|apply ret_ex; by vm_compute|apply ret_ex; by vm_compute]. Qed.
