(** Properties C88 to C90: compression and approximation agree on which blocks count, average
    pooling keeps the number of edges, and decoded objects are no larger than their files. *)
From Coq Require Import ZArith Reals Lra Lia Ascii String.
From Flocq Require Import Core.
From Verif Require Import Base HashIter F64 Numeric Adj Sq Standard Compressed Spec MatSpec FloatSpec Api
  FloatBridge AdjProofs SqProofs GraphProofs BitsProofs CompressProofs BytesProofs GraphCodecProofs
  CGraphCodecProofs PoolProofs ApproxProofs CodecMoreProofs FloatProofs PoolValueProofs PropCommon PropGraph
  PropMatrix PropCompress PropCodec PropPool PropPoolMore PropExact PropSize PropCount.
Local Arguments N.mul : simpl never.
Local Arguments N.add : simpl never.
Local Arguments N.pow : simpl never.

(** ** C88 *)

(** Every block size, fill count and level: the comparison of doubles decides the inequality of
    the integers, but for a full block of 49 cells and level 64. *)
Definition mark_check (b k l : N) : bool :=
  Bool.eqb (f64_le (cell_value l 8) (cell_value k b))
    ((l * (b * b) <=? 64 * k) && negb ((b =? 7) && (k =? 49) && (l =? 64))).

Lemma mark_table :
  forallb (fun b => forallb (fun k => forallb (fun l => mark_check (b + 1) k l) (range 65))
    (range ((b + 1) * (b + 1) + 1))) (range 8) = true.
Proof. by vm_compute. Qed.

Lemma mark_rule b k l : 1 <= b <= 8 -> k <= b * b -> 1 <= l <= 64 ->
  (IZR (Z.of_N l) / 64 <= double_value (cell_value k b))%R <->
  l * (b * b) <= 64 * k /\ ~ (b = 7 /\ k = 49 /\ l = 64).
Proof.
  intros Hb Hk Hl. pose proof mark_table as H.
  rewrite forallb_forall in H. specialize (H (b - 1)). rewrite <- elem_of_list_In, elem_of_range in H.
  specialize (H ltac:(lia)). replace (b - 1 + 1) with b in H by lia.
  rewrite forallb_forall in H. specialize (H k). rewrite <- elem_of_list_In, elem_of_range in H.
  specialize (H ltac:(lia)).
  rewrite forallb_forall in H. specialize (H l). rewrite <- elem_of_list_In, elem_of_range in H.
  specialize (H ltac:(lia)). unfold mark_check in H. apply Bool.eqb_prop in H.
  assert (fval (cell_value l 8) (IZR (Z.of_N l) / 64)) as Hl'.
  { pose proof (cell_value_exact l 3 ltac:(lia) ltac:(change (2 ^ 3 * 2 ^ 3) with 64; lia)) as Hx.
    unfold mean in Hx. rewrite N.min_l in Hx by lia. exact Hx. }
  destruct (cell_value_facts k b ltac:(lia) Hk) as (x & Hx & _).
  pose proof (fval_facts _ _ Hx) as (_ & _ & ->).
  rewrite (fval_le _ _ _ _ Hl' Hx) in H.
  transitivity (Rle_bool (IZR (Z.of_N l) / 64) x = true).
  { split; [apply Rle_bool_true|]. intros E. by destruct (Rle_bool_spec (IZR (Z.of_N l) / 64) x). }
  rewrite H, andb_true_iff, negb_true_iff, N.leb_le.
  rewrite <- not_true_iff_false, !andb_true_iff, !N.eqb_eq. tauto.
Qed.

(** A level as a threshold. *)
Lemma level_threshold t l : 1 <= l <= 64 -> double_value t = (IZR (Z.of_N l) / 64)%R ->
  threshold_real t = Some (IZR (Z.of_N l) / 64)%R.
Proof.
  intros Hl Ht. assert (1 <= IZR (Z.of_N l) <= 64)%R as Hr by (split; apply IZR_le; lia).
  assert (0 < double_value t <= 1)%R as H01 by lra.
  destruct t as [s|s| |s m e]; [exfalso; unfold double_value in H01; simpl in H01; lra..|].
  destruct s.
  - exfalso. assert (double_value (S754_finite true m e) <= 0)%R by (apply F2R_le_0; simpl; lia). lra.
  - cbn [threshold_real]. f_equal. rewrite <- Ht. apply Rmin_right. lra.
Qed.

Lemma marked_kept p o1 o2 o3 o4 g l t cg a c r : wf_platform p -> reach p g ->
  2 <= vertex_count g -> 1 <= l <= 64 -> is_f64 t = true -> double_value t = (IZR (Z.of_N l) / 64)%R ->
  compress p o1 o2 g l = Ret cg -> approximate p o3 o4 g 8 t = Ret a ->
  let k := N.of_nat (block_count g 8 c r) in
  let b := N.min 8 (vertex_count g) in
  (get_compressed_matrix_entry cg c r <> 0 <-> l * (b * b) <= 64 * k) /\
  (does_edge_exist a c r = true <-> l * (b * b) <= 64 * k /\ ~ (b = 7 /\ k = 49 /\ l = 64)).
Proof.
  intros Hp Hr Hn Hl Ht Htv Hc Ha k b. apply reach_inv in Hr; [|done]. split.
  - destruct (compress_spec p o1 o2 g l Hr) as (cg' & Hc' & Hco).
    rewrite Hc in Hc'. injection Hc' as <-.
    unfold get_compressed_matrix_entry. rewrite sq_get_val, (co_val _ _ _ Hco).
    unfold kept. fold b k.
    replace (clamp_compression_level l) with l by (unfold clamp_compression_level;
      destruct (N.ltb_spec 64 l), (N.eqb_spec l 0); lia).
    destruct (Nat.ltb_spec 0 (block_count g 8 c r)) as [H0|H0]; cbn [andb].
    + destruct (N.leb_spec (l * (b * b)) (64 * k)) as [H1|H1]; simpl; [|split; [done|lia]].
      split; [done|]. intros _. by apply block_word_nonzero.
    + simpl. split; [done|]. assert (k = 0) as -> by lia. nia.
  - destruct (approx_real p o3 o4 g 8 t Hr ltac:(lia) ltac:(lia) ltac:(lia) Ht) as (a' & Ha' & _ & _ & He).
    rewrite Ha in Ha'. injection Ha' as <-. rewrite He. rewrite (level_threshold t l Hl Htv).
    rewrite block_count_min by (done || lia). fold k b.
    rewrite <- mark_rule; [|lia| |done].
    + split; [intros (thr & [= <-] & H); exact H|eauto].
    + unfold k, b. rewrite <- block_count_min by (done || lia). apply block_count_bound. lia.
Qed.

(** C88 is false of the code: with 7 vertices and every edge the average of the only block is
    rounded below 1, so level 64 keeps it and threshold 64/64 does not. *)
Theorem C88_refuted : exists p g cg a, wf_platform p /\ reach p g /\ 2 <= vertex_count g /\
  compress p plain_order plain_order g 64 = Ret cg /\
  approximate p plain_order plain_order g 8 f64_one = Ret a /\ double_value f64_one = (64 / 64)%R /\
  get_compressed_matrix_entry cg 0 0 <> 0 /\ does_edge_exist a 0 0 = false.
Proof.
  exists plat64, full7.
  assert (exists cg, compress plat64 plain_order plain_order full7 64 = Ret cg /\
    (get_compressed_matrix_entry cg 0 0 =? 0) = false) as (cg & Hc & H1).
  { apply ret_ex. vm_compute. reflexivity. }
  assert (exists a, approximate plat64 plain_order plain_order full7 8 f64_one = Ret a /\
    does_edge_exist a 0 0 = false) as (a & Ha & H2).
  { apply ret_ex. vm_compute. reflexivity. }
  exists cg, a. split; [apply plat64_wf|]. split; [apply full7_reach|].
  split; [by vm_compute|]. split; [exact Hc|]. split; [exact Ha|]. split; [|split; [|exact H2]].
  - pose proof (fval_facts _ _ fval_one) as (_ & _ & ->). lra.
  - by apply N.eqb_neq.
Qed.
Print Assumptions C88_refuted.

(** From 8 vertices on level l and threshold l/64 select the same blocks.  Missing from C88:
    smaller graphs, see C88_exact. *)
Theorem C88_partial p o1 o2 o3 o4 g l t cg a : wf_platform p -> reach p g ->
  8 <= vertex_count g -> 1 <= l <= 64 -> is_f64 t = true -> double_value t = (IZR (Z.of_N l) / 64)%R ->
  compress p o1 o2 g l = Ret cg -> approximate p o3 o4 g 8 t = Ret a ->
  forall c r, does_edge_exist a c r = true <-> get_compressed_matrix_entry cg c r <> 0.
Proof.
  intros Hp Hr Hn Hl Ht Htv Hc Ha c r.
  destruct (marked_kept p o1 o2 o3 o4 g l t cg a c r Hp Hr ltac:(lia) Hl Ht Htv Hc Ha) as [-> ->].
  replace (N.min 8 (vertex_count g)) with 8 by lia. split; [tauto|]. intros H. split; [done|]. lia.
Qed.
Print Assumptions C88_partial.

(** The graph with 7 vertices and all 49 edges at level 64 is the only exception. *)
Theorem C88_exact p o1 o2 o3 o4 g l t cg a : wf_platform p -> reach p g ->
  2 <= vertex_count g -> 1 <= l <= 64 -> is_f64 t = true -> double_value t = (IZR (Z.of_N l) / 64)%R ->
  compress p o1 o2 g l = Ret cg -> approximate p o3 o4 g 8 t = Ret a ->
  (forall c r, does_edge_exist a c r = true <-> get_compressed_matrix_entry cg c r <> 0) <->
  ~ (vertex_count g = 7 /\ l = 64 /\ forall u v, u < 7 -> v < 7 -> does_edge_exist g u v = true).
Proof.
  intros Hp Hr Hn Hl Ht Htv Hc Ha.
  pose proof (fun c r => marked_kept p o1 o2 o3 o4 g l t cg a c r Hp Hr Hn Hl Ht Htv Hc Ha) as H.
  cbv zeta in H. pose proof Hr as Hi. apply reach_inv in Hi; [|done]. split.
  - intros Hall (H7 & -> & Hfull). destruct (H 0 0) as [Hk Hm].
    assert (block_has g 8 0 0 49) as Hcard.
    { exists ((fun i => (i / 7, i mod 7)) <$> range 49). split_and!.
      - apply NoDup_fmap_2_strong; [|apply NoDup_range].
        intros x y _ _ [= E1 E2]. rewrite (N.div_mod x 7), (N.div_mod y 7) by done. congruence.
      - intros [u v]. rewrite elem_of_list_fmap. split.
        + intros (i & [= -> ->] & Hin). apply elem_of_range in Hin.
          assert (i / 7 < 7) by (apply N.div_lt_upper_bound; lia).
          assert (i mod 7 < 7) by (by apply N.mod_lt).
          split; [by apply Hfull|]. split; apply N.div_small; lia.
        + intros (He & Hu & Hv). apply exists_has in He. apply (has_bound g u v Hi) in He as [Hu' Hv'].
          rewrite H7 in Hu', Hv'. exists (7 * u + v). split.
          * f_equal; [apply (N.div_unique _ _ _ v)|apply (N.mod_unique _ _ u)]; lia.
          * apply elem_of_range. lia.
      - rewrite fmap_length. by vm_compute. }
    apply block_has_eq in Hcard. rewrite Hcard, H7 in Hk, Hm.
    change (N.of_nat (N.to_nat 49)) with 49 in Hk, Hm. change (N.min 8 7) with 7 in Hk, Hm.
    rewrite <- (Hall 0 0), Hm in Hk. destruct Hk as [_ Hk].
    destruct (Hk ltac:(lia)) as [_ Hno]. by apply Hno.
  - intros Hno c r. destruct (H c r) as [-> ->]. split; [tauto|]. intros Hle. split; [done|].
    intros (H7 & H49 & ->). apply Hno. assert (vertex_count g = 7) as Hn7 by lia.
    split; [done|]. split; [done|]. intros u v Hu Hv.
    pose proof (block_has_count g 8 c r) as (L & Hnd & HL & Hlen). rewrite H49 in Hlen.
    assert (forall e, e ∈ L -> e ∈ ((fun i => (i / 7, i mod 7)) <$> range 49)) as Hsub.
    { intros [u' v'] Hin. apply HL in Hin as (He & _). apply exists_has in He.
      apply (has_bound g u' v' Hi) in He as [Hu' Hv']. apply elem_of_list_fmap.
      exists (7 * u' + v'). split; [|apply elem_of_range; lia].
      f_equal; [apply (N.div_unique _ _ _ v')|apply (N.mod_unique _ _ u')]; lia. }
    assert ((u, v) ∈ L) as Hin; [|by apply HL in Hin as [? _]].
    assert (L ≡ₚ ((fun i => (i / 7, i mod 7)) <$> range 49)) as ->.
    { apply submseteq_Permutation_length_eq.
      - rewrite fmap_length. change (length (range 49)) with 49%nat. lia.
      - by apply NoDup_submseteq. }
    apply elem_of_list_fmap. exists (7 * u + v). split; [|apply elem_of_range; lia].
    f_equal; [apply (N.div_unique _ _ _ v)|apply (N.mod_unique _ _ u)]; lia.
Qed.
Print Assumptions C88_exact.

Example C88_case :
  match compress plat64 plain_order plain_order sample_dir 4,
        approximate plat64 plain_order plain_order sample_dir 8 (f64_div (f64_of_N 4) f64_64) with
  | Ret cg, Ret a => edge_count a = 1 /\ does_edge_exist a 0 0 = true /\
      (get_compressed_matrix_entry cg 0 0 =? 0) = false /\ get_compressed_matrix_entry cg 1 0 = 0
  | _, _ => False
  end.
Proof. vm_compute. split_and!; reflexivity. Qed.

(** ** C89 *)

(** The sum of the values of the entries. *)
Definition total_value (l : list (spec_float * N * N)) : R :=
  fold_right (fun '(e, _, _) s => (double_value e + s)%R) 0%R l.

(** Grouping a list by a key. *)
Lemma group_length {A K} `{EqDecision K} (f : A -> K) (l : list A) (keys : list K) : NoDup keys ->
  length (filter (fun x => f x ∈ keys) l) =
  sum_list ((fun k => length (filter (fun x => f x = k) l)) <$> keys).
Proof.
  intros Hnd. induction Hnd as [|k keys Hk Hnd IH].
  - induction l as [|x l IHl]; [done|]. rewrite filter_cons, decide_False; [done|]. apply not_elem_of_nil.
  - rewrite fmap_cons. simpl. rewrite <- IH. clear IH.
    induction l as [|x l IHl]; [done|]. rewrite !filter_cons.
    destruct (decide (f x ∈ k :: keys)) as [H|H], (decide (f x = k)) as [E|E],
      (decide (f x ∈ keys)) as [H'|H']; simpl; rewrite elem_of_cons in H; try lia;
      exfalso; subst; tauto.
Qed.

Lemma total_bound (l : list (spec_float * N * N)) (count : N -> N -> nat) (q d : R) :
  (0 < q)%R ->
  (forall e c r, (e, c, r) ∈ l ->
     (Rabs (double_value e * q - INR (count c r)) <= d * INR (count c r))%R) ->
  let n := INR (sum_list ((fun '(_, c, r) => count c r) <$> l)) in
  (Rabs (total_value l * q - n) <= d * n)%R.
Proof.
  intros Hq. induction l as [|[[e c] r] l IH]; intros Hall.
  - simpl. rewrite Rmult_0_l, Rminus_0_r, Rabs_R0. lra.
  - rewrite fmap_cons. simpl. fold (total_value l). rewrite plus_INR.
    cbv zeta in IH. specialize (IH ltac:(intros; apply Hall; by right)).
    specialize (Hall e c r ltac:(by left)).
    set (n := INR (sum_list _)) in *.
    replace ((double_value e + total_value l) * q - (INR (count c r) + n))%R with
      ((double_value e * q - INR (count c r)) + (total_value l * q - n))%R by ring.
    pose proof (Rabs_triang (double_value e * q - INR (count c r)) (total_value l * q - n)). lra.
Qed.

(** C89: the entries of a pooled matrix add up to the number of edges divided by the size of a
    block, but for relative rounding errors of at most 2^-51; exactly when the block dimension
    is a power of two. *)
Theorem C89_total p o o' g b m k : wf_platform p -> reach p g ->
  let b' := N.max 1 (N.min b (vertex_count g)) in
  b' * b' <= 2 ^ 53 -> find_avg_pool_matrix p o g b = Ret m ->
  has_card (fun '(u, v) => does_edge_exist g u v = true) k ->
  let size := IZR (Z.of_N (b' * b')) in
  let edges := IZR (Z.of_N k) in
  (Rabs (total_value (sq_items o' m) * size - edges) <= / IZR (2 ^ 51) * edges)%R /\
  (forall j, b' = 2 ^ j -> (total_value (sq_items o' m) * size = edges)%R).
Proof.
  intros Hp Hr b' Hb Hm Hk size edges. pose proof Hr as Hi. apply reach_inv in Hi; [|done].
  assert (0 < size)%R as Hsize by (apply IZR_lt; nia).
  assert (forall c r, IZR (Z.of_N (N.of_nat (block_count g b' c r))) = INR (block_count g b' c r)) as HINR.
  { intros c r. by rewrite nat_N_Z, <- INR_IZR_INZ. }
  assert (forall c r, (mean (N.of_nat (block_count g b' c r)) b' * size = INR (block_count g b' c r))%R)
    as Hmean.
  { intros c r. unfold mean. pose proof (block_count_bound g b' c r ltac:(lia)).
    rewrite N.min_l by lia. rewrite HINR. fold size. field. lra. }
  assert (NoDup ((fun '(e, c, r) => (c, r)) <$> sq_items o' m : list (N * N)) /\
    (forall e c r, (e, c, r) ∈ sq_items o' m -> sq_get_entry f64_numeric m c r = e) /\
    INR (sum_list ((fun '(_, c, r) => block_count g b' c r) <$> sq_items o' m)) = edges)
    as (Hnd & Hval & Hsum).
  { destruct (N.eq_dec (vertex_count g) 0) as [Hn|Hn].
    - assert (k = 0) as Hk0.
      { eapply has_card_unique; [exact Hk|]. exists []. split_and!; [constructor| |done].
        intros [u v]. split; [by intros ?%elem_of_nil|]. intros He. apply exists_has in He.
        apply (has_bound g u v Hi) in He. lia. }
      unfold find_avg_pool_matrix in Hm. rewrite Hn in Hm. simpl in Hm. injection Hm as <-.
      assert (sq_items o' (sq_new : sq spec_float) = []) as E.
      { destruct (sq_items o' (sq_new : sq spec_float)) as [|[[e c] r] l] eqn:El; [done|].
        assert ((e, c, r) ∈ sq_items o' (sq_new : sq spec_float)) as Hin by (rewrite El; by left).
        apply elem_of_sq_items in Hin; [done|]. apply sq_inv_new. }
      rewrite E. split; [constructor|]. split; [by intros ??? ?%elem_of_nil|].
      unfold edges. by rewrite Hk0.
    - assert (b' < 2 ^ 32) as Hb32 by nia.
      pose proof (pool_ret p o g b m Hi Hn Hb32 Hm) as Hof. fold b' in Hof.
      pose proof (po_inv _ _ _ _ Hof) as Hinv.
      assert (NoDup ((fun '(e, c, r) => (c, r)) <$> sq_items o' m : list (N * N))) as Hnd
        by by apply NoDup_sq_items_keys.
      split; [exact Hnd|]. split.
      { intros e c r He. apply elem_of_sq_items in He; [|done]. by rewrite sq_get_val, He. }
      pose proof (group_length (fun '(u, v) => (u / b', v / b')) (adj_list (g_adj g)) _ Hnd) as Hg.
      rewrite <- list_fmap_compose in Hg.
      assert (length (adj_list (g_adj g)) = N.to_nat k) as Hlen.
      { pose proof (has_card_unique _ _ _ Hk (has_card_edges g)). lia. }
      assert (sum_list ((fun '(_, c, r) => block_count g b' c r) <$> sq_items o' m) = N.to_nat k) as ->.
      { rewrite <- Hlen. transitivity (length (filter (fun x : N * N => (let '(u, v) := x in (u / b', v / b'))
          ∈ ((fun '(e, c, r) => (c, r)) <$> sq_items o' m : list (N * N))) (adj_list (g_adj g)))).
        - rewrite Hg. f_equal. apply list_fmap_ext. intros _ [[e c] r] _. simpl.
          unfold block_count, block_edges. f_equal. apply list_filter_iff. intros [u v]. naive_solver.
        - apply filter_all. intros [u v] Hin. apply elem_of_adj_list in Hin.
          assert (0 < block_count g b' (u / b') (v / b'))%nat as Hpos
            by (apply block_count_pos; eauto).
          apply elem_of_list_fmap.
          pose proof (pool_stored _ _ _ _ (u / b') (v / b') Hof) as Hst.
          destruct (proj2 Hst ltac:(lia)) as [e He]. exists (e, u / b', v / b'). split; [done|].
          by apply elem_of_sq_items. }
      rewrite INR_IZR_INZ. unfold edges. by rewrite N_nat_Z. }
  assert (forall e c r, (e, c, r) ∈ sq_items o' m ->
    (Rabs (double_value e - mean (N.of_nat (block_count g b' c r)) b') <=
       / IZR (2 ^ 51) * mean (N.of_nat (block_count g b' c r)) b')%R /\
    (forall j, b' = 2 ^ j -> double_value e = mean (N.of_nat (block_count g b' c r)) b')) as Hone.
  { intros e c r Hin. rewrite <- (Hval e c r Hin).
    destruct (C35_pool_entries p o g b m c r _ Hp Hr ltac:(fold b'; nia) Hm (block_has_count g b' c r))
      as (_ & _ & _ & _ & He & Hex). split; [exact He|exact Hex]. }
  split.
  - rewrite <- Hsum. apply total_bound; [done|]. intros e c r Hin.
    destruct (Hone e c r Hin) as [He _]. rewrite <- Hmean.
    rewrite <- Rmult_minus_distr_r, Rabs_mult, (Rabs_pos_eq size) by lra.
    rewrite <- Rmult_assoc. apply Rmult_le_compat_r; [lra|exact He].
  - intros j Hj. apply Rminus_diag_uniq.
    assert (Rabs (total_value (sq_items o' m) * size - edges) <= 0 * edges)%R as H0.
    { rewrite <- Hsum. apply total_bound; [done|]. intros e c r Hin.
      destruct (Hone e c r Hin) as [_ He]. rewrite (He j Hj), Hmean.
      rewrite Rminus_diag_eq, Rabs_R0 by done. lra. }
    rewrite Rmult_0_l in H0. destruct (Req_dec (total_value (sq_items o' m) * size - edges) 0) as [|Hne]; [done|].
    apply Rabs_pos_lt in Hne. lra.
Qed.
Print Assumptions C89_total.

Example C89_case :
  match find_avg_pool_matrix plat64 plain_order sample_dir 2 with
  | Ret m => edge_count sample_dir = 4 /\
      (fun '(e, c, r) => e) <$> sq_items reversed_order m =
        f64_div (f64_of_N 1) <$> [f64_of_N 4; f64_of_N 2; f64_of_N 4]
  | _ => False
  end.
Proof. vm_compute. split_and!; reflexivity. Qed.

(** ** C90 *)

Lemma popcount_total_le l : popcount_total l <= 64 * N.of_nat (length l).
Proof.
  induction l as [|[[w c] r] l IH]; [done|]. simpl. unfold popcount at 1.
  pose proof (filter_length (fun i => N.testbit w i = true) (range 64)) as H.
  change (length (range 64)) with 64%nat in H. lia.
Qed.

(** A Graph file takes 16 bytes for every edge of the graph read from it. *)
Theorem C90_graph p bytes g k : wf_platform p -> is_slice p bytes ->
  graph_try_from p bytes = Ret (Ok g) ->
  has_card (fun '(u, v) => does_edge_exist g u v = true) k ->
  N.of_nat (length bytes) = 26 + 16 * k /\ edge_count g = k.
Proof.
  intros Hp Hs Hok Hk. destruct (C18_graph_decoding p bytes Hp Hs) as (res & Hres & Hm).
  rewrite Hok in Hres. injection Hres as <-.
  destruct Hm as (und & n & l & -> & Hv & Hu & Hn & He & Hh).
  assert (k = N.of_nat (length l)) as ->.
  { eapply has_card_unique; [exact Hk|]. eapply has_card_ext; [|apply Hv]. intros [u v]. by rewrite Hh. }
  split; [|done]. rewrite length_graph_file. lia.
Qed.
Print Assumptions C90_graph.

Lemma last_word_elem l c r : last_word l c r <> 0 -> (last_word l c r, c, r) ∈ l.
Proof.
  induction l as [|[[w c'] r'] l IH] using rev_ind; [done|].
  unfold last_word in *. rewrite fold_left_app. simpl. rewrite elem_of_app, elem_of_list_singleton.
  destruct (N.eqb_spec c c') as [->|], (N.eqb_spec r r') as [->|]; simpl; auto.
Qed.

(** A CompressedGraph file takes 24 bytes for at most 64 edges, whatever its edge count says, and
    for every block that is stored. *)
Theorem C90_cgraph p bytes cg k blocks : wf_platform p -> is_slice p bytes ->
  cgraph_try_from p bytes = Ret (Ok cg) ->
  has_card (fun '(u, v) => c_does_edge_exist cg u v = true) k ->
  has_card (fun '(c, r) => get_compressed_matrix_entry cg c r <> 0) blocks ->
  exists records, N.of_nat (length bytes) = 42 + 24 * records /\
    blocks <= records /\ blocks <= k <= c_edge_count cg /\ c_edge_count cg <= 64 * records.
Proof.
  intros Hp Hs Hok Hk Hb. destruct (C32_cgraph_decoding p bytes Hp Hs) as (res & Hres & Hm).
  rewrite Hok in Hres. injection Hres as <-.
  destruct Hm as (und & n & level & l & -> & Hv & Hu & Hn & Hl & Hec & He & Hh).
  exists (N.of_nat (length l)). split; [rewrite length_cgraph_file; lia|].
  assert (creach p cg) as Hcr by by eapply cr_try_from.
  apply creach_inv in Hcr as Hi; [|done]. split; [|split; [split|]].
  - destruct Hb as (L & Hnd & HL & <-).
    assert (length L <= length ((fun '(_, c, r) => (c, r)) <$> l : list (N * N)))%nat as Hle.
    { apply submseteq_length, NoDup_submseteq; [done|]. intros [c r] Hin. apply HL in Hin.
      rewrite He in Hin. apply last_word_elem in Hin. apply elem_of_list_fmap.
      exists (last_word l c r, c, r). done. }
    rewrite fmap_length in Hle. lia.
  - rewrite (has_card_unique _ _ _ Hk (c_has_card plain_order cg Hi)).
    rewrite (has_card_unique _ _ _ Hb (stored_card plain_order cg Hi)).
    apply length_le_ones. intros w c r Hin. apply elem_of_sq_items in Hin; [|apply Hi].
    by apply (ci_word _ Hi) in Hin as [? _].
  - destruct (C26_files_exact p und n level l cg k Hp Hv Hs Hok Hk) as (_ & H & _). exact H.
  - rewrite Hec. apply popcount_total_le.
Qed.
Print Assumptions C90_cgraph.

Example C90_case :
  match cgraph_try_from plat64 (cgraph_file false 1 2 66 8 1 [(3, 0, 0); (u64_max, 0, 0)]) with
  | Ret (Ok cg) => c_edge_count cg = 66 /\ get_compressed_matrix_entry cg 0 0 = u64_max
  | _ => False
  end /\
  match graph_try_from plat64 (graph_file true 3 2 [(0, 2); (2, 0)]) with
  | Ret (Ok g) => edge_count g = 2 | _ => False end.
Proof. vm_compute. split_and!; reflexivity. Qed.
