(** Properties C22-C29 and C49: compression, decompression and the builder. *)
From Coq Require Import Ascii String.
From Verif Require Import Base HashIter F64 Numeric Adj Sq Standard Compressed Spec Api
  HashIterProofs AdjProofs SqProofs GraphProofs PoolProofs BitsProofs CompressProofs BytesProofs
  GraphCodecProofs CGraphCodecProofs ApproxProofs CodecMoreProofs PropCommon.

Local Arguments N.mul : simpl never.
Local Arguments N.add : simpl never.

(** ** C23: the exact retention rule.  Compression always returns. *)
Theorem C23_retention p o1 o2 g l : wf_platform p -> reach p g ->
  exists cg, compress p o1 o2 g l = Ret cg /\
  let b := N.min 8 (vertex_count g) in
  forall u v k, block_has g 8 (u / 8) (v / 8) k ->
  (c_does_edge_exist cg u v = true <->
   does_edge_exist g u v = true /\ N.max 1 (N.min l 64) * (b * b) <= 64 * k).
Proof.
  intros Hp Hr. apply reach_inv in Hr; [|done].
  destruct (compress_spec p o1 o2 g l Hr) as (cg & Hc & Hco). exists cg. split; [done|].
  intros b u v k Hk. rewrite (compress_exists g l cg) by done. rewrite andb_true_iff.
  split; (intros [He H]; split; [done|]); by eapply kept_rule.
Qed.
Print Assumptions C23_retention.

Example C23_case : edge_count sample_dir = 4 /\
  (exists cg, compress plat64 plain_order plain_order sample_dir 4 = Ret cg /\ c_edge_count cg = 4) /\
  (exists cg, compress plat64 plain_order plain_order sample_dir 5 = Ret cg /\ c_edge_count cg = 0).
Proof. split; [by vm_compute|]. split; apply ret_ex; by vm_compute. Qed.

(** ** C22 is false of the code for graphs with fewer than 8 vertices: there the level is
    scaled down with the block. *)
Theorem C22_level_is_edge_count_refuted : exists p g l cg u v k,
  wf_platform p /\ reach p g /\ 1 <= l <= 64 /\
  compress p plain_order plain_order g l = Ret cg /\ block_has g 8 (u / 8) (v / 8) k /\ k < l /\
  c_does_edge_exist cg u v = true.
Proof.
  set (g := add_edge new_directed 1 0).
  assert (exists cg, compress plat64 plain_order plain_order g 2 = Ret cg /\
    c_does_edge_exist cg 1 0 = true) as (cg & H1 & H2).
  { apply ret_ex. by vm_compute. }
  exists plat64, g, 2, cg, 1, 0, 1. split_and!; [apply plat64_wf| |done|done|done| |done|done].
  - apply r_add_edge; [apply r_new_directed|done|done].
  - pose proof (block_has_count g 8 0 0) as H.
    replace (N.of_nat (block_count g 8 0 0)) with 1 in H by by vm_compute. exact H.
Qed.
Print Assumptions C22_level_is_edge_count_refuted.

(** From 8 vertices on the level is the number of edges required.  Missing from C22: graphs
    with fewer than 8 vertices (see C23 for them). *)
Theorem C22_level_is_edge_count_partial p o1 o2 g l cg u v k : wf_platform p -> reach p g ->
  8 <= vertex_count g -> compress p o1 o2 g l = Ret cg -> block_has g 8 (u / 8) (v / 8) k ->
  (c_does_edge_exist cg u v = true <->
   does_edge_exist g u v = true /\ N.max 1 (N.min l 64) <= k).
Proof.
  intros Hp Hr Hn Hc Hk. destruct (C23_retention p o1 o2 g l Hp Hr) as (cg' & Hc' & H).
  rewrite Hc in Hc'. injection Hc' as <-. cbv zeta in H. rewrite (H u v k Hk).
  replace (N.min 8 (vertex_count g)) with 8 by lia.
  split; (intros [He Hle]; split; [done|]); lia.
Qed.
Print Assumptions C22_level_is_edge_count_partial.

Example C22_case : reach plat64 sample_dir /\ vertex_count sample_dir = 9 /\
  block_has sample_dir 8 (4 / 8) (1 / 8) 4.
Proof.
  split; [apply sample_dir_reach|]. split; [by vm_compute|].
  pose proof (block_has_count sample_dir 8 0 0) as H.
  replace (N.of_nat (block_count sample_dir 8 0 0)) with 4 in H by by vm_compute. exact H.
Qed.

(** ** C24 *)
Theorem C24_level_1_lossless p o1 o2 o3 g l : wf_platform p -> reach p g -> l <= 1 ->
  exists cg g', compress p o1 o2 g l = Ret cg /\ decompress p o3 cg = Ret g' /\
    c_is_undirected cg = is_undirected g /\ c_vertex_count cg = vertex_count g /\
    (forall u v, c_does_edge_exist cg u v = does_edge_exist g u v) /\
    (forall k, has_card (fun '(u, v) => does_edge_exist g u v = true) k -> k < two64 ->
       c_edge_count cg = edge_count g) /\
    same_graph g' g.
Proof.
  intros Hp Hr Hl. apply reach_inv in Hr; [|done].
  destruct (compress_spec p o1 o2 g l Hr) as (cg & Hc & Hco).
  destruct (decompress_spec p o3 cg (co_inv _ _ _ Hco)) as (g' & Hd & Hdo).
  { apply (co_inv _ _ _ Hco). }
  assert (forall u v, c_does_edge_exist cg u v = does_edge_exist g u v) as Hall.
  { intros u v. rewrite (compress_exists g l cg) by done.
    destruct (does_edge_exist g u v) eqn:E; [|done]. cbn [andb].
    apply (kept_rule g l u v _ (block_has_count g 8 _ _) E).
    assert (0 < block_count g 8 (u / 8) (v / 8))%nat as Hpos.
    { apply block_count_pos. exists u, v. split_and!; [by apply exists_has|done|done]. }
    replace (N.max 1 (N.min l 64)) with 1 by lia. rewrite N.mul_1_l.
    assert (N.min 8 (vertex_count g) * N.min 8 (vertex_count g) <= 8 * 8); [|lia].
    apply N.mul_le_mono; lia. }
  exists cg, g'. split_and!; [done|done|apply Hco|apply Hco|done| |].
  - intros k Hk Hk64. rewrite (edge_count_card g k), N.mod_small by done.
    unfold c_edge_count. rewrite (co_ec _ _ _ Hco k).
    + unfold u64_max, two64 in *. lia.
    + eapply has_card_ext; [|exact Hk]. intros [u v]. by rewrite Hall.
  - apply same_graph_intro; [apply Hdo|done| | |].
    + rewrite (do_und _ _ Hdo). apply Hco.
    + rewrite (do_n _ _ Hdo). apply Hco.
    + intros u v. rewrite <- !exists_has.
      rewrite (decompress_exists cg g' Hdo), Hall; [done|].
      intros Hu u' v'. by apply (compress_sym g l).
Qed.
Print Assumptions C24_level_1_lossless.

Example C24_case : exists cg, compress plat64 plain_order plain_order sample_und 1 = Ret cg /\
  c_edge_count cg = 7 /\ edge_count sample_und = 7.
Proof. apply ret_ex. by vm_compute. Qed.

(** ** C25 *)
Theorem C25_decompress p o1 o2 o3 g l : wf_platform p -> reach p g ->
  exists cg g', compress p o1 o2 g l = Ret cg /\ decompress p o3 cg = Ret g' /\
    is_undirected g' = is_undirected g /\ vertex_count g' = vertex_count g /\
    (forall u v, does_edge_exist g' u v = c_does_edge_exist cg u v) /\
    (forall k, has_card (fun '(u, v) => c_does_edge_exist cg u v = true) k -> k < two64 ->
       edge_count g' = k).
Proof.
  intros Hp Hr. apply reach_inv in Hr; [|done].
  destruct (compress_spec p o1 o2 g l Hr) as (cg & Hc & Hco).
  destruct (decompress_spec p o3 cg (co_inv _ _ _ Hco)) as (g' & Hd & Hdo).
  { apply (co_inv _ _ _ Hco). }
  assert (forall u v, does_edge_exist g' u v = c_does_edge_exist cg u v) as Hall.
  { apply decompress_exists; [done|]. intros Hu u v. by apply (compress_sym g l). }
  exists cg, g'. split_and!; [done|done| | |done|].
  - unfold is_undirected. rewrite (do_und _ _ Hdo). apply Hco.
  - rewrite (do_n _ _ Hdo). apply Hco.
  - intros k Hk Hk64. rewrite (edge_count_card g' k), N.mod_small; [done|done|apply Hdo|].
    eapply has_card_ext; [|exact Hk]. intros [u v]. by rewrite Hall.
Qed.
Print Assumptions C25_decompress.

(** Any compressed graph of the safe API decompresses; undirected ones are closed under
    mirroring on the way. *)
Theorem C25_decompress_any p o cg : wf_platform p -> creach p cg ->
  exists g, decompress p o cg = Ret g /\
    is_undirected g = c_is_undirected cg /\ vertex_count g = c_vertex_count cg /\
    (forall u v, does_edge_exist g u v = true <-> c_does_edge_exist cg u v = true \/
       (c_is_undirected cg = true /\ c_does_edge_exist cg v u = true)).
Proof.
  intros Hp Hr. apply creach_inv in Hr; [|done].
  destruct (decompress_spec p o cg Hr (ci_n _ Hr)) as (g & Hd & Hdo).
  exists g. split_and!; [done|apply Hdo|apply Hdo|].
  intros u v. by rewrite exists_has, (do_has _ _ Hdo), !c_exists_has.
Qed.
Print Assumptions C25_decompress_any.

Example C25_case : exists cg, compress plat64 plain_order plain_order sample_und 7 = Ret cg /\
  c_edge_count cg = 7 /\
  exists g', decompress plat64 reversed_order cg = Ret g' /\ edge_count g' = 7 /\ vertex_count g' = 9.
Proof.
  assert (exists cg, compress plat64 plain_order plain_order sample_und 7 = Ret cg /\
    c_edge_count cg = 7 /\ match decompress plat64 reversed_order cg with
      Ret g' => edge_count g' = 7 /\ vertex_count g' = 9 | _ => False end) as (cg & H1 & H2 & H3).
  { apply ret_ex. by vm_compute. }
  exists cg. split_and!; [exact H1|exact H2|by apply ret_ex].
Qed.

(** ** C26 is false of the code for files that repeat a block. *)
Theorem C26_edge_count_refuted : exists p cg k, wf_platform p /\ creach p cg /\
  has_card (fun '(u, v) => c_does_edge_exist cg u v = true) k /\ c_edge_count cg <> k.
Proof.
  set (bytes := cgraph_file false 1 2 2 8 1 [(1, 0, 0); (1, 0, 0)]).
  assert (is_slice plat64 bytes) as Hs by (split; [by apply cgraph_file_bytes|by vm_compute]).
  assert (exists cg, cgraph_try_from plat64 bytes = Ret (Ok cg) /\ c_edge_count cg = 2 /\
    ones_total (sq_items plain_order (cg_mat cg)) = 1) as (cg & H1 & H2 & H3).
  { apply ret_ok_ex. by vm_compute. }
  assert (creach plat64 cg) as Hr by by eapply cr_try_from.
  exists plat64, cg, 1. split_and!; [apply plat64_wf|done| |by rewrite H2].
  rewrite <- H3. apply c_has_card. eapply creach_inv; [apply plat64_wf|done].
Qed.
Print Assumptions C26_edge_count_refuted.

(** True of every compressed graph made by compress (up to saturation at u64::MAX), and of
    every file that mentions each block at most once.  Missing from C26: files with
    repeated blocks. *)
Theorem C26_edge_count_partial p cg k : wf_platform p ->
  has_card (fun '(u, v) => c_does_edge_exist cg u v = true) k ->
  (forall o1 o2 g l, reach p g -> compress p o1 o2 g l = Ret cg ->
     c_edge_count cg = N.min k u64_max) /\
  (forall und n level l, valid_cgraph_file n level l -> distinct_blocks l ->
     let bytes := cgraph_file und (blocks_of n) (N.of_nat (length l)) (popcount_total l) n level l in
     is_slice p bytes -> cgraph_try_from p bytes = Ret (Ok cg) -> c_edge_count cg = k).
Proof.
  intros Hp Hk. split.
  - intros o1 o2 g l Hr Hc. apply reach_inv in Hr; [|done].
    destruct (compress_spec p o1 o2 g l Hr) as (cg' & Hc' & Hco).
    rewrite Hc in Hc'. injection Hc' as <-. by apply Hco.
  - intros und n level l Hv Hd bytes Hs Hok.
    assert (good_cfile n level l) as Hg by by apply good_cfile_valid.
    unfold bytes in *. rewrite (cfile_of_valid und n level l Hv) in *.
    rewrite (cgraph_try_from_good p und n level l Hp Hs Hg) in Hok. injection Hok as <-.
    destruct (cdecoded_facts und n level l Hg) as (Hi & _ & _ & _ & He).
    unfold c_edge_count. rewrite He. eapply has_card_unique; [|exact Hk].
    rewrite <- (ones_total_perm _ _ (cdecoded_items und n level l plain_order Hg Hd)).
    by apply c_has_card.
Qed.
Print Assumptions C26_edge_count_partial.

Example C26_case : exists cg,
  cgraph_try_from plat64 (cgraph_file true 2 2 3 9 5 [(3, 0, 0); (1, 1, 1)]) = Ret (Ok cg) /\
  c_edge_count cg = 3 /\ popcount_total [(3, 0, 0); (1, 1, 1)] = 3 /\ blocks_of 9 = 2.
Proof. apply ret_ok_ex. by vm_compute. Qed.

(** ** C27 is false of the code for files: an undirected file may contain a word without
    its mirror. *)
Theorem C27_symmetric_refuted : exists p cg u v, wf_platform p /\ creach p cg /\
  c_is_undirected cg = true /\ c_does_edge_exist cg u v = true /\ c_does_edge_exist cg v u = false.
Proof.
  set (bytes := cgraph_file true 1 1 1 8 1 [(2, 0, 0)]).
  assert (is_slice plat64 bytes) as Hs by (split; [by apply cgraph_file_bytes|by vm_compute]).
  assert (exists cg, cgraph_try_from plat64 bytes = Ret (Ok cg) /\ c_is_undirected cg = true /\
    c_does_edge_exist cg 1 0 = true /\ c_does_edge_exist cg 0 1 = false) as (cg & H1 & H2).
  { apply ret_ok_ex. by vm_compute. }
  exists plat64, cg, 1, 0. split; [apply plat64_wf|]. split; [by eapply cr_try_from|done].
Qed.
Print Assumptions C27_symmetric_refuted.

(** True of every graph made by compress.  Missing from C27: graphs read from bytes. *)
Theorem C27_symmetric_partial p o1 o2 g l cg u v : wf_platform p -> reach p g ->
  compress p o1 o2 g l = Ret cg -> c_is_undirected cg = true ->
  c_does_edge_exist cg u v = c_does_edge_exist cg v u.
Proof.
  intros Hp Hr Hc Hu. apply reach_inv in Hr; [|done].
  destruct (compress_spec p o1 o2 g l Hr) as (cg' & Hc' & Hco).
  rewrite Hc in Hc'. injection Hc' as <-. by apply (compress_sym g l).
Qed.
Print Assumptions C27_symmetric_partial.

Example C27_case : exists cg, compress plat64 plain_order plain_order sample_und 2 = Ret cg /\
  c_is_undirected cg = true /\ c_does_edge_exist cg 4 1 = true.
Proof. apply ret_ex. by vm_compute. Qed.

(** ** C28 *)
Theorem C28_levels p o1 o2 o3 o4 g l1 l2 cg1 cg2 : wf_platform p -> reach p g -> l1 <= l2 ->
  compress p o1 o2 g l1 = Ret cg1 -> compress p o3 o4 g l2 = Ret cg2 ->
  (forall u v, c_does_edge_exist cg2 u v = true -> c_does_edge_exist cg1 u v = true) /\
  (forall u v, c_does_edge_exist cg1 u v = true -> does_edge_exist g u v = true) /\
  c_is_undirected cg1 = is_undirected g /\ c_vertex_count cg1 = vertex_count g /\
  compression_level cg1 = N.max 1 (N.min l1 64).
Proof.
  intros Hp Hr Hl Hc1 Hc2. apply reach_inv in Hr; [|done].
  destruct (compress_spec p o1 o2 g l1 Hr) as (cg1' & Hc1' & Hco1).
  rewrite Hc1 in Hc1'. injection Hc1' as <-.
  destruct (compress_spec p o3 o4 g l2 Hr) as (cg2' & Hc2' & Hco2).
  rewrite Hc2 in Hc2'. injection Hc2' as <-.
  split_and!.
  - intros u v. rewrite (compress_exists g l1 cg1), (compress_exists g l2 cg2) by done.
    rewrite !andb_true_iff. intros [He Hk]. split; [done|].
    apply (kept_rule g _ u v _ (block_has_count g 8 _ _) He) in Hk.
    apply (kept_rule g _ u v _ (block_has_count g 8 _ _) He).
    etransitivity; [|exact Hk]. apply N.mul_le_mono_r. lia.
  - intros u v. rewrite (compress_exists g l1 cg1) by done. rewrite andb_true_iff. tauto.
  - apply Hco1.
  - apply Hco1.
  - rewrite <- clamp_level_eq. apply Hco1.
Qed.
Print Assumptions C28_levels.

Example C28_case : exists cg, compress plat64 plain_order plain_order sample_dir 200 = Ret cg /\
  compression_level cg = 64 /\ c_edge_count cg = 0 /\ c_vertex_count cg = 9.
Proof. apply ret_ex. by vm_compute. Qed.

(** ** C29: bits and edges, whatever the compressed graph. *)
Theorem C29_entry_bits cg c r i j : i < 8 -> j < 8 ->
  N.testbit (get_compressed_matrix_entry cg c r) (8 * j + i) =
  c_does_edge_exist cg (8 * c + i) (8 * r + j).
Proof.
  intros Hi Hj. rewrite c_exists_bit, !block_div by done.
  assert ((8 * c + i) mod 8 = i) as -> by (symmetry; apply (N.mod_unique _ _ c); lia).
  assert ((8 * r + j) mod 8 = j) as -> by (symmetry; apply (N.mod_unique _ _ r); lia).
  done.
Qed.
Print Assumptions C29_entry_bits.

(** Entries are 64-bit words, so the edges determine them. *)
Theorem C29_entries_determined p cg cg' : wf_platform p ->
  (creach p cg \/ exists und n level calls, is_u64 n /\
     (forall e c r h, (e, c, r, h) ∈ calls -> is_u64 e) /\ cg = build und n level calls) ->
  (creach p cg' \/ exists und n level calls, is_u64 n /\
     (forall e c r h, (e, c, r, h) ∈ calls -> is_u64 e) /\ cg' = build und n level calls) ->
  (forall u v, c_does_edge_exist cg u v = c_does_edge_exist cg' u v) <->
  (forall c r, get_compressed_matrix_entry cg c r = get_compressed_matrix_entry cg' c r).
Proof.
  intros Hp H H'.
  assert (forall cg, (creach p cg \/ exists und n level calls, is_u64 n /\
     (forall e c r h, (e, c, r, h) ∈ calls -> is_u64 e) /\ cg = build und n level calls) ->
     forall c r i, 64 <= i -> N.testbit (get_compressed_matrix_entry cg c r) i = false) as Hsmall.
  { clear H H'. intros c0 [Hr|(und & n & level & calls & Hn & He & ->)] c r i Hi.
    - apply creach_inv in Hr; [|done]. apply entry_small; [apply Hr|done].
    - apply entry_small; [|done]. by apply build_spec. }
  split.
  - intros He c r. apply N.bits_inj. intros t.
    destruct (N.lt_ge_cases t 64) as [Ht|Ht]; [|by rewrite !Hsmall].
    assert (t / 8 < 8) by (apply N.div_lt_upper_bound; lia).
    pose proof (N.mod_lt t 8). rewrite (N.div_mod t 8) by done.
    rewrite !C29_entry_bits by lia. apply He.
  - intros He u v. by rewrite !c_exists_bit, He.
Qed.
Print Assumptions C29_entries_determined.

Example C29_case : get_compressed_matrix_entry (build false 20 1 [(0x8001, 2, 1, None)]) 2 1 = 0x8001 /\
  c_does_edge_exist (build false 20 1 [(0x8001, 2, 1, None)]) 23 9 = true.
Proof. by vm_compute. Qed.

(** ** C49: the builder. *)
Theorem C49_builder und n level calls : is_u64 n ->
  (forall e c r h, (e, c, r, h) ∈ calls -> is_u64 e) ->
  let cg := build und n level calls in
  c_is_undirected cg = und /\ c_vertex_count cg = n /\
  compression_level cg = N.max 1 (N.min level 64) /\
  c_edge_count cg = N.min (weight_total calls) u64_max /\
  sq_dimension (cg_mat cg) = built_dim n calls /\
  (forall c r, get_compressed_matrix_entry cg c r = last_stored calls c r) /\
  (forall u v, c_does_edge_exist cg u v =
     N.testbit (last_stored calls (u / 8) (v / 8)) (8 * (v mod 8) + u mod 8)).
Proof.
  intros Hn He cg.
  destruct (build_spec und n level calls Hn He) as (_ & Hu & Hv & Hl & Hc & Hd & Hg & _).
  split_and!; [done|done| |done|done|done|].
  - rewrite <- clamp_level_eq. exact Hl.
  - intros u v. by rewrite c_exists_bit, Hg.
Qed.
Print Assumptions C49_builder.

(** With distinct valid positions, non-zero words and no explicit weights the entries are
    the ones given and the edge count is the number of edges. *)
Theorem C49_builder_distinct und n level entries c r w : is_u64 n ->
  distinct_blocks entries ->
  (forall w c r, (w, c, r) ∈ entries -> 0 < w < two64 /\ c < u64_max /\ r < u64_max) ->
  let cg := build und n level ((fun '(w, c, r) => (w, c, r, None)) <$> entries) in
  ((w, c, r) ∈ entries -> get_compressed_matrix_entry cg c r = w) /\
  ((forall w, (w, c, r) ∉ entries) -> get_compressed_matrix_entry cg c r = 0) /\
  c_edge_count cg = N.min (popcount_total entries) u64_max /\
  has_card (fun '(u, v) => c_does_edge_exist cg u v = true) (popcount_total entries).
Proof.
  intros Hn Hd He cg.
  destruct (build_spec und n level ((fun '(w, c, r) => (w, c, r, None)) <$> entries) Hn)
    as (Hi & _ & _ & _ & Hc & _ & Hg & Hw).
  { intros e c' r' h Hin. apply elem_of_list_fmap in Hin as ([[w' c''] r''] & [= -> -> -> ->] & Hin).
    apply He in Hin. apply Hin. }
  fold cg in Hi, Hc, Hg, Hw.
  assert (forall w c r, (w, c, r) ∈ entries -> w <> 0) as Hnz.
  { intros w' c' r' Hin. apply He in Hin. lia. }
  assert (forall w c r, w <> 0 -> get_compressed_matrix_entry cg c r = w <-> (w, c, r) ∈ entries) as Hin.
  { intros w' c' r' Hw'. rewrite Hg, last_stored_word by done. by apply last_word_distinct. }
  split_and!.
  - intros Hwin. apply Hin; [by eapply Hnz|done].
  - intros Hno. destruct (N.eq_dec (get_compressed_matrix_entry cg c r) 0) as [|Hne]; [done|].
    exfalso. by eapply Hno, Hin.
  - unfold c_edge_count. by rewrite Hc, weight_total_entries.
  - rewrite <- (popcount_total_perm (sq_items plain_order (cg_mat cg))); [by apply card_words|].
    apply NoDup_Permutation; [by apply NoDup_sq_items|by eapply NoDup_fmap_1|].
    intros [[w' c'] r']. rewrite elem_of_sq_items by done.
    destruct (N.eq_dec w' 0) as [->|Hne].
    + split; [intros Hv; by apply Hw in Hv as [? _]|]. intros Hv. by apply Hnz in Hv.
    + rewrite <- Hin, c_get_entry_val by done. split; [by intros ->|].
      destruct (sq_val (cg_mat cg) c' r'); simpl; congruence.
Qed.
Print Assumptions C49_builder_distinct.

Example C49_case :
  c_edge_count (build true 5 0 [(7, 0, 0, None); (1, 0, 0, Some 9); (0, 0, 0, None)]) = 12 /\
  get_compressed_matrix_entry (build true 5 0 [(7, 0, 0, None); (1, 0, 0, Some 9); (0, 0, 0, None)]) 0 0 = 1 /\
  c_vertex_count (build true 5 0 []) = 5 /\ compression_level (build true 5 0 []) = 1 /\
  built_dim 5 [] = 1.
Proof. by vm_compute. Qed.
