(** Properties C64-C69: what the operations on whole graphs depend on, and how they relate
    to each other. *)
From Coq Require Import Ascii String.
From Verif Require Import Base HashIter F64 Numeric Adj Sq Standard Compressed Spec MatSpec Api
  HashIterProofs AdjProofs SqProofs GraphProofs GraphMoreProofs PoolProofs BitsProofs
  CompressProofs BytesProofs GraphCodecProofs CGraphCodecProofs ApproxProofs CodecMoreProofs
  TextProofs PropCommon PropGraph PropCodec PropCompress.
Local Open Scope N_scope.

Local Arguments N.mul : simpl never.
Local Arguments N.add : simpl never.

(** Same flag, vertex count and edges. *)
Definition same_edges (g g' : graph) : Prop :=
  is_undirected g = is_undirected g' /\ vertex_count g = vertex_count g' /\
  forall u v, does_edge_exist g u v = does_edge_exist g' u v.

(** Two calls that both return, with related values, or both panic. *)
Definition same_outcome {A} (R : A -> A -> Prop) (x y : outcome A) : Prop :=
  match x, y with
  | Ret a, Ret b => R a b
  | Panic, Panic => True
  | _, _ => False
  end.

(** Two results that are both values, related, or both errors. *)
Definition same_result {A} (R : A -> A -> Prop) (x y : result A) : Prop :=
  match x, y with
  | Ok a, Ok b => R a b
  | Err _, Err _ => True
  | _, _ => False
  end.

(** Matrices that no observer can tell apart, up to the order of iteration. *)
Definition same_matrix {T} (num : numeric T) (m m' : sq T) : Prop :=
  sq_dimension m = sq_dimension m' /\ sq_entry_count m = sq_entry_count m' /\
  (forall c r, sq_get_entry num m c r = sq_get_entry num m' c r) /\
  forall o o', Permutation (sq_items o m) (sq_items o' m').

(** ** Lemmas *)

Lemma same_edges_has g g' : same_edges g g' -> forall u v, has g u v <-> has g' u v.
Proof. intros (_ & _ & H) u v. by rewrite <- !exists_has, H. Qed.

Lemma block_count_ext g g' b c r : (forall u v, has g u v <-> has g' u v) ->
  block_count g b c r = block_count g' b c r.
Proof.
  intros H. unfold block_count. apply Permutation_length, NoDup_Permutation;
    [apply NoDup_block_edges..|]. intros [u v]. by rewrite !elem_of_block_edges, H.
Qed.

Lemma block_count_le g g' b c r : (forall u v, has g u v -> has g' u v) ->
  (block_count g b c r <= block_count g' b c r)%nat.
Proof.
  intros H. unfold block_count. apply submseteq_length, NoDup_submseteq; [apply NoDup_block_edges|].
  intros [u v]. rewrite !elem_of_block_edges. naive_solver.
Qed.

Lemma kept_ext g g' l c r : same_edges g g' -> kept g l c r = kept g' l c r.
Proof.
  intros Hs. unfold kept. rewrite (block_count_ext g g') by (by apply same_edges_has).
  by rewrite (proj1 (proj2 Hs)).
Qed.

(** Compressed graphs with the same flag, vertex count, level and edges. *)
Lemma same_cgraph_intro cg cg' :
  (forall c r w, sq_val (cg_mat cg) c r = Some w -> w <> 0 /\ w < two64) ->
  (forall c r w, sq_val (cg_mat cg') c r = Some w -> w <> 0 /\ w < two64) ->
  cg_und cg = cg_und cg' -> cg_vertex_count cg = cg_vertex_count cg' ->
  cg_edge_count cg = cg_edge_count cg' -> cg_level cg = cg_level cg' ->
  (forall u v, c_does_edge_exist cg u v = c_does_edge_exist cg' u v) -> same_cgraph cg cg'.
Proof.
  intros Hw Hw' Hu Hn He Hl Hall. split_and!; [done..| |done].
  intros c r. apply N.bits_inj. intros t.
  destruct (N.lt_ge_cases t 64) as [Ht|Ht]; [|by rewrite !entry_small].
  rewrite (N.div_mod t 8) by done.
  assert (t / 8 < 8) by (apply N.div_lt_upper_bound; lia).
  pose proof (N.mod_lt t 8 ltac:(done)).
  by rewrite !C29_entry_bits.
Qed.

Lemma c_edges_card cg : cg_inv cg ->
  exists k, has_card (fun '(u, v) => c_does_edge_exist cg u v = true) k.
Proof. intros Hi. eexists. by apply (c_has_card plain_order). Qed.

Lemma compress_ext p o1 o2 o3 o4 g g' l : graph_inv g -> graph_inv g' -> same_edges g g' ->
  same_outcome same_cgraph (compress p o1 o2 g l) (compress p o3 o4 g' l).
Proof.
  intros Hi Hi' Hs.
  destruct (compress_spec p o1 o2 g l Hi) as (cg & -> & Hc).
  destruct (compress_spec p o3 o4 g' l Hi') as (cg' & -> & Hc').
  assert (forall u v, c_does_edge_exist cg u v = c_does_edge_exist cg' u v) as Hall.
  { intros u v. rewrite (compress_exists g l cg), (compress_exists g' l cg') by done.
    rewrite (kept_ext g g') by done. f_equal. apply Hs. }
  simpl. apply same_cgraph_intro; [apply Hc|apply Hc'|..|done].
  - rewrite (co_und _ _ _ Hc), (co_und _ _ _ Hc'). apply Hs.
  - rewrite (co_n _ _ _ Hc), (co_n _ _ _ Hc'). apply Hs.
  - destruct (c_edges_card cg (co_inv _ _ _ Hc)) as [k Hk].
    rewrite (co_ec _ _ _ Hc k Hk). symmetry. apply (co_ec _ _ _ Hc').
    eapply has_card_ext; [|exact Hk]. intros [u v]. by rewrite Hall.
  - by rewrite (co_level _ _ _ Hc), (co_level _ _ _ Hc').
Qed.

Lemma decompress_ext p o1 o2 cg cg' : cg_inv cg -> cg_inv cg' ->
  cg_und cg = cg_und cg' -> cg_vertex_count cg = cg_vertex_count cg' ->
  (forall u v, c_does_edge_exist cg u v = c_does_edge_exist cg' u v) ->
  same_outcome same_graph (decompress p o1 cg) (decompress p o2 cg').
Proof.
  intros Hi Hi' Hu Hn He.
  destruct (decompress_spec p o1 cg Hi (ci_n _ Hi)) as (g & -> & Hg).
  destruct (decompress_spec p o2 cg' Hi' (ci_n _ Hi')) as (g' & -> & Hg').
  simpl. apply same_graph_intro; [apply Hg|apply Hg'|..].
  - by rewrite (do_und _ _ Hg), (do_und _ _ Hg').
  - by rewrite (do_n _ _ Hg), (do_n _ _ Hg').
  - intros u v. by rewrite (do_has _ _ Hg), (do_has _ _ Hg'), <- !c_exists_has, !He, Hu.
Qed.

Lemma pool_same g g' b square m m' : graph_inv g -> graph_inv g' -> same_edges g g' ->
  pool_of g b square m -> pool_of g' b square m' -> same_matrix f64_numeric m m'.
Proof.
  intros Hi Hi' Hs Hm Hm'.
  assert (forall c r, sq_val m c r = sq_val m' c r) as Hv.
  { intros c r. rewrite (po_val _ _ _ _ Hm), (po_val _ _ _ _ Hm').
    by rewrite (block_count_ext g g') by (by apply same_edges_has). }
  split; [|split; [|split]].
  - unfold sq_dimension. rewrite (po_dim _ _ _ _ Hm), (po_dim _ _ _ _ Hm').
    by rewrite (proj1 (proj2 Hs)).
  - unfold sq_entry_count. rewrite (si_cnt _ (po_inv _ _ _ _ Hm)), (si_cnt _ (po_inv _ _ _ _ Hm')).
    do 2 f_equal. apply Permutation_length, NoDup_Permutation; [apply NoDup_sq_keys..|].
    intros [c r]. by rewrite !elem_of_sq_keys, Hv.
  - intros c r. by rewrite !sq_get_val, Hv.
  - intros o o'. apply NoDup_Permutation; [by apply NoDup_sq_items, Hm|by apply NoDup_sq_items, Hm'|].
    intros [[e c] r]. rewrite !elem_of_sq_items by (apply Hm || apply Hm'). by rewrite Hv.
Qed.

Lemma same_matrix_refl {T} (num : numeric T) m : sq_inv m -> same_matrix num m m.
Proof.
  intros Hi. split_and!; [done..|]. intros o o'.
  apply NoDup_Permutation; [by apply NoDup_sq_items..|].
  intros [[e c] r]. by rewrite !elem_of_sq_items.
Qed.

Lemma pool_ext p o1 o2 g g' b : graph_inv g -> graph_inv g' -> same_edges g g' ->
  same_outcome (same_matrix f64_numeric) (find_avg_pool_matrix p o1 g b)
    (find_avg_pool_matrix p o2 g' b).
Proof.
  intros Hi Hi' Hs. destruct (N.eq_dec (vertex_count g) 0) as [Hn|Hn].
  - unfold find_avg_pool_matrix. rewrite <- (proj1 (proj2 Hs)), Hn. simpl.
    apply same_matrix_refl, sq_inv_new.
  - assert (vertex_count g' <> 0) as Hn' by (by rewrite <- (proj1 (proj2 Hs))).
    destruct (find_avg_pool_spec p o1 g b Hi Hn) as [E _].
    destruct (find_avg_pool_spec p o2 g' b Hi' Hn') as [E' _].
    pose proof (find_avg_pool_ret p o1 g b) as Hret.
    pose proof (find_avg_pool_ret p o2 g' b) as Hret'. simpl in Hret, Hret'.
    rewrite <- (proj1 (proj2 Hs)) in E', Hret'.
    unfold u64_mul in E, E', Hret, Hret'.
    set (cb := clamp_block (vertex_count g) b) in *.
    destruct (cb * cb <? two64); [|destruct (overflow_checks p)]; cbn [obind] in E, E';
      rewrite E, E'; simpl; try done.
    + destruct (Hret _ Hi Hn E) as (s & [= <-] & Hof).
      destruct (Hret' _ Hi' ltac:(done) E') as (s' & [= <-] & Hof').
      by apply (pool_same g g' cb _ _ _ Hi Hi' Hs Hof).
    + destruct (Hret _ Hi Hn E) as (s & [= <-] & Hof).
      destruct (Hret' _ Hi' ltac:(done) E') as (s' & [= <-] & Hof').
      by apply (pool_same g g' cb _ _ _ Hi Hi' Hs Hof).
Qed.

Lemma approximate_ext p o1 o2 o3 o4 g g' b t : graph_inv g -> graph_inv g' -> same_edges g g' ->
  same_outcome same_graph (approximate p o1 o2 g b t) (approximate p o3 o4 g' b t).
Proof.
  intros Hi Hi' Hs. destruct (decide (b <= 1 \/ vertex_count g <= 1)) as [Hc|Hc].
  - rewrite !approximate_copy by (try rewrite <- (proj1 (proj2 Hs)); done).
    simpl. apply same_graph_intro; [done|done|apply Hs|apply Hs|]. by apply same_edges_has.
  - pose proof (approximate_eq p o1 o2 g b t Hi ltac:(lia) ltac:(lia)) as H.
    pose proof (approximate_eq p o3 o4 g' b t Hi' ltac:(lia)) as H'.
    rewrite <- (proj1 (proj2 Hs)) in H'. specialize (H' ltac:(lia)). simpl in H, H'.
    destruct (u64_mul p _ _) as [sq| |]; [|by rewrite H, H'|done].
    destruct H as (a & -> & Ha), H' as (a' & -> & Ha'). simpl.
    apply same_graph_intro; [apply Ha|apply Ha'|..].
    + rewrite (ao_und _ _ _ _ _ Ha), (ao_und _ _ _ _ _ Ha'). apply Hs.
    + rewrite (ao_n _ _ _ _ _ Ha), (ao_n _ _ _ _ _ Ha'). by rewrite (proj1 (proj2 Hs)).
    + intros u v. rewrite (ao_has _ _ _ _ _ Ha), (ao_has _ _ _ _ _ Ha'). unfold survives.
      by rewrite (block_count_ext g g') by (by apply same_edges_has).
Qed.

Lemma step_ext g g' op : graph_inv g -> graph_inv g' -> same_edges g g' ->
  same_graph (step g op) (step g' op).
Proof.
  intros Hi Hi' Hs.
  set (s := SGraph (g_und g) (vertex_count g) (list_to_set (adj_list (g_adj g)))).
  assert (refines g s) as Hr.
  { constructor; [done..|]. intros u v. simpl. by rewrite elem_of_list_to_set, elem_of_adj_list. }
  assert (refines g' s) as Hr'.
  { constructor; [done|symmetry; apply Hs|symmetry; apply Hs|]. intros u v.
    rewrite <- (same_edges_has g g' Hs). apply Hr. }
  apply (refines_step _ _ op) in Hr, Hr'.
  apply same_graph_intro; [apply Hr|apply Hr'|..].
  - by rewrite (rf_und _ _ Hr), (rf_und _ _ Hr').
  - by rewrite (rf_n _ _ Hr), (rf_n _ _ Hr').
  - intros u v. by rewrite (rf_E _ _ Hr), (rf_E _ _ Hr').
Qed.

(** ** C64: two graphs with the same flag, vertex count and edges behave alike in every
    call, whatever their histories and whatever order their hash tables happen to have. *)
Theorem C64_graph_congruence p g g' : wf_platform p -> reach p g -> reach p g' ->
  same_edges g g' ->
  edge_count g = edge_count g' /\
  (forall op, same_graph (step g op) (step g' op)) /\
  (forall o o' v,
     get_vertex_out_degree o g v = get_vertex_out_degree o' g' v /\
     get_vertex_in_degree o g v = get_vertex_in_degree o' g' v /\
     Permutation (get_vertex_out_edges o g v) (get_vertex_out_edges o' g' v) /\
     Permutation (get_vertex_in_edges o g v) (get_vertex_in_edges o' g' v)) /\
  (forall o o' n items items', hiter_run n (graph_into_iter o g) = Some items ->
     hiter_run n (graph_into_iter o' g') = Some items' -> Permutation items items') /\
  same_result eq (matrix_string p g) (matrix_string p g') /\
  (forall o1 o2 o3 o4 l,
     same_outcome same_cgraph (compress p o1 o2 g l) (compress p o3 o4 g' l)) /\
  (forall o1 o2 b, same_outcome (same_matrix f64_numeric)
     (find_avg_pool_matrix p o1 g b) (find_avg_pool_matrix p o2 g' b)) /\
  (forall o1 o2 o3 o4 b t,
     same_outcome same_graph (approximate p o1 o2 g b t) (approximate p o3 o4 g' b t)).
Proof.
  intros Hp Hr Hr' Hs. pose proof Hr as Hi. pose proof Hr' as Hi'.
  apply reach_inv in Hi; [|done]. apply reach_inv in Hi'; [|done].
  split; [|split; [|split; [|split; [|split; [|split; [|split]]]]]].
  - assert (same_graph g g') as H; [|apply H].
    apply same_graph_intro; [done|done|apply Hs|apply Hs|by apply same_edges_has].
  - intros op. by apply step_ext.
  - intros o o' v.
    destruct (C07_edge_lists_and_degrees p g o v Hp Hr) as (N1 & E1 & D1 & N2 & E2 & D2).
    destruct (C07_edge_lists_and_degrees p g' o' v Hp Hr') as (N1' & E1' & D1' & N2' & E2' & D2').
    assert (Permutation (get_vertex_out_edges o g v) (get_vertex_out_edges o' g' v)) as P1.
    { apply NoDup_Permutation; [done|done|]. intros w. rewrite E1, E1'.
      by rewrite (proj2 (proj2 Hs)). }
    assert (Permutation (get_vertex_in_edges o g v) (get_vertex_in_edges o' g' v)) as P2.
    { apply NoDup_Permutation; [done|done|]. intros w. rewrite E2, E2'.
      by rewrite (proj2 (proj2 Hs)). }
    rewrite D1, D1', D2, D2', P1, P2. done.
  - intros o o' n items items' Hit Hit'.
    destruct (C06_iteration p g o Hp Hr) as (l & Hl & Hnd & Hin & _).
    destruct (C06_iteration p g' o' Hp Hr') as (l' & Hl' & Hnd' & Hin' & _).
    assert (forall f k (it : hiter N) x, hiter_run f it = Some x ->
      hiter_run (f + k) it = Some x) as Hmono.
    { clear. induction f as [|f IH]; intros k it x; [done|]. cbn [hiter_run plus].
      destruct (hiter_next it) as [[y|] it']; [|done].
      destruct (hiter_run f it') as [rest|] eqn:E; [|done]. intros H.
      by rewrite (IH k it' rest E). }
    apply (Hmono _ (S (length l))) in Hit. rewrite Hl in Hit by lia. injection Hit as <-.
    apply (Hmono _ (S (length l'))) in Hit'. rewrite Hl' in Hit' by lia. injection Hit' as <-.
    apply NoDup_Permutation; [done|done|]. intros [u v]. rewrite Hin, Hin'.
    by rewrite (proj2 (proj2 Hs)).
  - destruct (C12_matrix_string_layout p g Hp Hr) as (H1 & _ & H0 & H2).
    destruct (C12_matrix_string_layout p g' Hp Hr') as (H1' & _ & H0' & H2').
    rewrite <- (proj1 (proj2 Hs)) in H0', H1', H2'.
    destruct (N.eq_dec (vertex_count g) 0) as [Hn|Hn].
    { by rewrite H0, H0'. }
    specialize (H2 Hn). specialize (H2' Hn).
    destruct (matrix_string p g) as [s|e] eqn:E, (matrix_string p g') as [s'|e'] eqn:E'; simpl.
    + destruct (H1 s eq_refl) as [-> _], (H1' s' eq_refl) as [-> _].
      apply matrix_text_ext. intros c r _ _. by rewrite (proj2 (proj2 Hs)).
    + destruct (proj2 H2' (proj1 H2 (ex_intro _ s eq_refl))) as [? ?]. done.
    + destruct (proj2 H2 (proj1 H2' (ex_intro _ s' eq_refl))) as [? ?]. done.
    + done.
  - intros. by apply compress_ext.
  - intros. by apply pool_ext.
  - intros. by apply approximate_ext.
Qed.
Print Assumptions C64_graph_congruence.

(** The files written for such graphs differ at most in the order of their records. *)
Theorem C64_graph_files p o o' g g' k : wf_platform p -> reach p g -> reach p g' ->
  same_edges g g' -> has_card (fun '(u, v) => does_edge_exist g u v = true) k -> k < two64 ->
  same_result (fun bytes bytes' => exists l l', Permutation l l' /\
      bytes = graph_file (is_undirected g) (vertex_count g) k l /\
      bytes' = graph_file (is_undirected g) (vertex_count g) k l')
    (graph_to_bytes p o g) (graph_to_bytes p o' g').
Proof.
  intros Hp Hr Hr' Hs Hk Hk64.
  pose proof (C17_graph_layout p o g k Hp Hr Hk Hk64) as H.
  pose proof (C17_graph_layout p o' g' k Hp Hr') as H'. specialize (H').
  assert (has_card (fun '(u, v) => does_edge_exist g' u v = true) k) as Hk'.
  { eapply has_card_ext; [|exact Hk]. intros [u v]. by rewrite (proj2 (proj2 Hs)). }
  specialize (H' Hk' Hk64).
  destruct ((26 + 16 * k <=? usize_max p) && can_alloc p (26 + 16 * k)).
  - destruct H as (bytes & l & -> & Hf & Hnd & Hl & _).
    destruct H' as (bytes' & l' & -> & Hf' & Hnd' & Hl' & _). simpl. exists l, l'. split_and!.
    + apply NoDup_Permutation; [done|done|]. intros [u v]. rewrite Hl, Hl'.
      by rewrite (proj2 (proj2 Hs)).
    + done.
    + rewrite Hf'. by rewrite (proj1 Hs), (proj1 (proj2 Hs)).
  - destruct H as [msg ->], H' as [msg' ->]. done.
Qed.
Print Assumptions C64_graph_files.

(** Compressed graphs with the same flag, vertex count, counts and edges behave alike. *)
Theorem C64_cgraph_congruence p cg cg' : wf_platform p -> creach p cg -> creach p cg' ->
  c_is_undirected cg = c_is_undirected cg' -> c_vertex_count cg = c_vertex_count cg' ->
  (forall u v, c_does_edge_exist cg u v = c_does_edge_exist cg' u v) ->
  (forall c r, get_compressed_matrix_entry cg c r = get_compressed_matrix_entry cg' c r) /\
  (forall o o', same_outcome same_graph (decompress p o cg) (decompress p o' cg')) /\
  (forall o o' k, has_card (fun '(c, r) => get_compressed_matrix_entry cg c r <> 0) k ->
     k < two64 -> c_edge_count cg = c_edge_count cg' -> compression_level cg = compression_level cg' ->
     same_result (fun bytes bytes' => exists l l', Permutation l l' /\
         bytes = cgraph_file (c_is_undirected cg) (blocks_of (c_vertex_count cg)) k
           (c_edge_count cg) (c_vertex_count cg) (compression_level cg) l /\
         bytes' = cgraph_file (c_is_undirected cg) (blocks_of (c_vertex_count cg)) k
           (c_edge_count cg) (c_vertex_count cg) (compression_level cg) l')
       (cgraph_to_bytes p o cg) (cgraph_to_bytes p o' cg')).
Proof.
  intros Hp Hr Hr' Hu Hn He.
  assert (forall c r, get_compressed_matrix_entry cg c r = get_compressed_matrix_entry cg' c r) as Hw.
  { apply (C29_entries_determined p cg cg' Hp); [by left|by left|done]. }
  split; [done|]. split.
  - intros o o'. apply decompress_ext; [by apply (creach_inv p)|by apply (creach_inv p)|done..].
  - intros o o' k Hk Hk64 Hec Hlev.
    pose proof (C31_cgraph_layout p o cg k Hp Hr Hk Hk64) as H.
    assert (has_card (fun '(c, r) => get_compressed_matrix_entry cg' c r <> 0) k) as Hk'.
    { eapply has_card_ext; [|exact Hk]. intros [c r]. by rewrite Hw. }
    pose proof (C31_cgraph_layout p o' cg' k Hp Hr' Hk' Hk64) as H'.
    destruct ((42 + 24 * k <=? usize_max p) && can_alloc p (42 + 24 * k)).
    + destruct H as (bytes & l & -> & Hf & Hnd & Hl & _).
      destruct H' as (bytes' & l' & -> & Hf' & Hnd' & Hl' & _). simpl. exists l, l'. split_and!.
      * apply NoDup_Permutation; [by eapply NoDup_fmap_1|by eapply NoDup_fmap_1|].
        intros [[w c] r]. by rewrite Hl, Hl', Hw.
      * done.
      * by rewrite Hf', Hu, Hn, Hec, Hlev.
    + destruct H as [msg ->], H' as [msg' ->]. done.
Qed.
Print Assumptions C64_cgraph_congruence.

(** Two histories that end in the same graph. *)
Definition other_ops : list gop :=
  [OpAddVertex 8 None; OpAddEdge 4 4; OpAddEdge 4 1; OpAddEdge 1 2; OpAddEdge 7 6; OpAddEdge 4 0;
   OpDeleteEdge 7 6].
Definition other_dir : graph := run false other_ops.
Lemma other_dir_reach p : reach p other_dir.
Proof. by apply reach_runb. Qed.
Lemma other_dir_same : same_edges sample_dir other_dir.
Proof.
  split; [done|]. split; [by vm_compute|]. intros u v.
  destruct (N.lt_ge_cases u 9) as [Hu|Hu]; [destruct (N.lt_ge_cases v 9) as [Hv|Hv]|].
  - assert (forallb (fun u => forallb (fun v => Bool.eqb (does_edge_exist sample_dir u v)
      (does_edge_exist other_dir u v)) (range 9)) (range 9) = true) as H by by vm_compute.
    rewrite forallb_forall in H. specialize (H u).
    rewrite forallb_forall in H. apply Bool.eqb_true_iff, H;
      by apply elem_of_list_In, elem_of_range.
  - assert (forall g, graph_inv g -> vertex_count g = 9 -> does_edge_exist g u v = false) as H.
    { intros g Hi Hn. apply exists_has_false. intros Hh. apply has_bound in Hh; [lia|done]. }
    rewrite !H; [done| |by vm_compute| |by vm_compute];
      (apply (reach_inv plat64); [apply plat64_wf|]).
    + apply other_dir_reach.
    + apply sample_dir_reach.
  - assert (forall g, graph_inv g -> vertex_count g = 9 -> does_edge_exist g u v = false) as H.
    { intros g Hi Hn. apply exists_has_false. intros Hh. apply has_bound in Hh; [lia|done]. }
    rewrite !H; [done| |by vm_compute| |by vm_compute];
      (apply (reach_inv plat64); [apply plat64_wf|]).
    + apply other_dir_reach.
    + apply sample_dir_reach.
Qed.

Example C64_case : same_edges sample_dir other_dir /\ reach plat64 other_dir /\
  graph_to_bytes plat64 plain_order sample_dir <> graph_to_bytes plat64 reversed_order other_dir /\
  get_vertex_out_edges plain_order sample_dir 4 <> get_vertex_out_edges reversed_order other_dir 4.
Proof.
  split; [apply other_dir_same|]. split; [apply other_dir_reach|]. split; by vm_compute.
Qed.

(** ** C65: the order of the records in a Graph file does not matter. *)
Theorem C65_graph_record_order p und n l l' : wf_platform p -> n < two64 ->
  Forall (fun '(u, v) => u < two64 /\ v < two64) l -> Permutation l l' ->
  let bytes := graph_file und n (N.of_nat (length l)) l in
  let bytes' := graph_file und n (N.of_nat (length l')) l' in
  is_slice p bytes -> is_slice p bytes' ->
  same_outcome (same_result same_graph) (graph_try_from p bytes) (graph_try_from p bytes').
Proof.
  intros Hp Hn Hl Hperm bytes bytes' Hs Hs'.
  assert (Forall (fun '(u, v) => u < two64 /\ v < two64) l') as Hl' by by rewrite <- Hperm.
  assert (forall l1 l2, Permutation l1 l2 -> Forall (fun '(u, v) => u < two64 /\ v < two64) l1 ->
    is_slice p (graph_file und n (N.of_nat (length l1)) l1) ->
    forall und0 n0 l0, graph_file und n (N.of_nat (length l1)) l1 =
      graph_file und0 n0 (N.of_nat (length l0)) l0 -> valid_graph_file und0 n0 l0 ->
    und0 = und /\ n0 = n /\ l0 = l1 /\ valid_graph_file und n l2) as Hinv.
  { intros l1 l2 H12 Hl1 Hs1 und0 n0 l0 Heq Hv. assert (Hs0 := Hs1). rewrite Heq in Hs0.
    apply graph_file_inj in Heq as (-> & -> & _ & ->); [|done|apply Hv|
      by eapply good_file_len|by eapply good_file_len|done|].
    2:{ apply good_file_valid in Hv. eapply bound_u64; apply Hv. }
    split_and!; [done..|]. destruct Hv as [Hv1 Hv2 Hv3]. constructor; [done| |].
    - intros u v. rewrite <- H12. apply Hv2.
    - rewrite <- (Permutation_length H12). eapply has_card_ext; [|exact Hv3]. intros e.
      unfold described. by rewrite H12. }
  destruct (C18_graph_decoding p bytes Hp Hs) as (res & -> & Hm).
  destruct (C18_graph_decoding p bytes' Hp Hs') as (res' & -> & Hm').
  destruct res as [g|e], res' as [g'|e']; simpl.
  - destruct Hm as (und0 & n0 & l0 & Hf & Hv & Hu & Hvc & Hec & He).
    destruct Hm' as (und1 & n1 & l1 & Hf' & Hv' & Hu' & Hvc' & Hec' & He').
    destruct (Hinv l l' Hperm Hl Hs _ _ _ Hf Hv) as (-> & -> & -> & _).
    destruct (Hinv l' l (Permutation_sym Hperm) Hl' Hs' _ _ _ Hf' Hv') as (-> & -> & -> & _).
    split_and!; [congruence|congruence| |].
    + by rewrite Hec, Hec', Hperm.
    + intros u v. apply eq_true_iff_eq. rewrite He, He'. unfold described. by rewrite Hperm.
  - destruct Hm as (und0 & n0 & l0 & Hf & Hv & _).
    destruct (Hinv l l' Hperm Hl Hs _ _ _ Hf Hv) as (-> & -> & -> & Hv').
    by apply (proj2 Hm' und n l').
  - destruct Hm' as (und0 & n0 & l0 & Hf & Hv & _).
    destruct (Hinv l' l (Permutation_sym Hperm) Hl' Hs' _ _ _ Hf Hv) as (-> & -> & -> & Hv').
    by apply (proj2 Hm und n l).
  - done.
Qed.
Print Assumptions C65_graph_record_order.

(** For CompressedGraph files the same is false of the code: a file may give the same block
    twice, and the later word wins. *)
Theorem C65_cgraph_record_order_refuted : exists p n level l l' cg cg',
  wf_platform p /\ Permutation l l' /\ valid_cgraph_file n level l /\
  cgraph_try_from p (cgraph_file false (blocks_of n) (N.of_nat (length l)) (popcount_total l)
    n level l) = Ret (Ok cg) /\
  cgraph_try_from p (cgraph_file false (blocks_of n) (N.of_nat (length l')) (popcount_total l')
    n level l') = Ret (Ok cg') /\
  c_does_edge_exist cg 0 0 = true /\ c_does_edge_exist cg' 0 0 = false.
Proof.
  set (l := [(2, 0, 0); (1, 0, 0)]). set (l' := [(1, 0, 0); (2, 0, 0)]).
  assert (exists cg, cgraph_try_from plat64 (cgraph_file false (blocks_of 2) (N.of_nat (length l))
    (popcount_total l) 2 1 l) = Ret (Ok cg) /\ c_does_edge_exist cg 0 0 = true)
    as (cg & H & He) by (apply ret_ok_ex; by vm_compute).
  assert (exists cg, cgraph_try_from plat64 (cgraph_file false (blocks_of 2) (N.of_nat (length l'))
    (popcount_total l') 2 1 l') = Ret (Ok cg) /\ c_does_edge_exist cg 0 0 = false)
    as (cg' & H' & He') by (apply ret_ok_ex; by vm_compute).
  exists plat64, 2, 1, l, l', cg, cg'.
  split; [apply plat64_wf|]. split; [by apply perm_swap|]. split; [|done].
  constructor.
  - done.
  - done.
  - intros w c r. unfold l. rewrite !elem_of_cons, elem_of_nil.
    intros [[= -> -> ->]|[[= -> -> ->]|[]]]; done.
  - intros w c r. unfold l. rewrite !elem_of_cons, elem_of_nil.
    intros [[= -> -> ->]|[[= -> -> ->]|[]]]; done.
  - intros w c r i. unfold l. rewrite !elem_of_cons, elem_of_nil.
    intros [[= -> -> ->]|[[= -> -> ->]|[]]] Hi Hb.
    + destruct (N.eq_dec i 1) as [->|Hne]; [by vm_compute|].
      change (N.testbit (2 ^ 1) i = true) in Hb. rewrite N.pow2_bits_false in Hb by congruence. done.
    + destruct (N.eq_dec i 0) as [->|Hne]; [by vm_compute|].
      change (N.testbit (2 ^ 0) i = true) in Hb. rewrite N.pow2_bits_false in Hb by congruence. done.
  - by vm_compute.
Qed.
Print Assumptions C65_cgraph_record_order_refuted.

(** When every block is given once the order does not matter.  Missing from C65: files
    that repeat a block. *)
Theorem C65_cgraph_record_order_partial p und n level l l' : wf_platform p ->
  valid_cgraph_file n level l -> distinct_blocks l -> Permutation l l' ->
  let file l := cgraph_file und (blocks_of n) (N.of_nat (length l)) (popcount_total l) n level l in
  is_slice p (file l) -> is_slice p (file l') ->
  exists cg cg', cgraph_try_from p (file l) = Ret (Ok cg) /\
    cgraph_try_from p (file l') = Ret (Ok cg') /\ same_cgraph cg cg'.
Proof.
  intros Hp Hv Hd Hperm file Hs Hs'.
  assert (popcount_total l = popcount_total l') as Hpop.
  { unfold popcount_total. clear -Hperm. induction Hperm as [|[[w c] r] l l' H IH|[[w c] r] [[w' c'] r'] l|l1 l2 l3 H1 IH1 H2 IH2]; simpl; [done|lia|lia|congruence]. }
  assert (valid_cgraph_file n level l') as Hv'.
  { destruct Hv as [H1 H2 H3 H4 H5 H6]. constructor; [done|done|..].
    - intros w c r. rewrite <- Hperm. apply H3.
    - intros w c r. rewrite <- Hperm. apply H4.
    - intros w c r i. rewrite <- Hperm. apply H5.
    - by rewrite <- Hpop. }
  assert (distinct_blocks l') as Hd' by (unfold distinct_blocks; by rewrite <- Hperm).
  destruct (C32_valid_files_accepted p und n level l Hp Hv Hs) as (cg & Hok & Hu & Hn & Hl & He & Hw).
  destruct (C32_valid_files_accepted p und n level l' Hp Hv' Hs') as (cg' & Hok' & Hu' & Hn' & Hl' & He' & Hw').
  exists cg, cg'. split; [done|]. split; [done|].
  assert (forall c r, get_compressed_matrix_entry cg c r = get_compressed_matrix_entry cg' c r) as Hww.
  { intros c r. rewrite Hw, Hw'.
    assert (forall l, valid_cgraph_file n level l -> forall w c r, (w, c, r) ∈ l -> w <> 0) as Hnz.
    { intros l0 Hv0 w0 c0 r0 Hin. apply (vc_words _ _ _ Hv0) in Hin. lia. }
    assert (forall w, w <> 0 -> last_word l c r = w <-> last_word l' c r = w) as Hiff.
    { intros w Hw0. rewrite (last_word_distinct l c r w Hd Hw0 (Hnz l Hv)).
      rewrite (last_word_distinct l' c r w Hd' Hw0 (Hnz l' Hv')). by rewrite Hperm. }
    destruct (N.eq_dec (last_word l c r) 0) as [E|E].
    - destruct (N.eq_dec (last_word l' c r) 0) as [E'|E']; [congruence|].
      by apply (Hiff _ E').
    - symmetry. by apply (Hiff _ E). }
  split_and!; [congruence|congruence|congruence|congruence|done|].
  intros u v. by rewrite !c_exists_bit, Hww.
Qed.
Print Assumptions C65_cgraph_record_order_partial.

Example C65_case :
  valid_cgraph_file 9 3 [(2, 0, 0); (1, 1, 0)] /\ distinct_blocks [(2, 0, 0); (1, 1, 0)] /\
  (exists cg, cgraph_try_from plat64 (cgraph_file false 2 2 2 9 3 [(1, 1, 0); (2, 0, 0)]) = Ret (Ok cg) /\
     c_does_edge_exist cg 8 0 = true) /\
  (exists g, graph_try_from plat64 (graph_file true 3 2 [(2, 0); (0, 2)]) = Ret (Ok g) /\
     does_edge_exist g 2 0 = true).
Proof.
  split; [|split; [|split]].
  - constructor; [done|done|..|done].
    + intros w c r. rewrite !elem_of_cons, elem_of_nil.
      intros [[= -> -> ->]|[[= -> -> ->]|[]]]; done.
    + intros w c r. rewrite !elem_of_cons, elem_of_nil.
      intros [[= -> -> ->]|[[= -> -> ->]|[]]]; done.
    + intros w c r i. rewrite !elem_of_cons, elem_of_nil.
      intros [[= -> -> ->]|[[= -> -> ->]|[]]] Hi Hb.
      * destruct (N.eq_dec i 1) as [->|Hne]; [by vm_compute|].
        change (N.testbit (2 ^ 1) i = true) in Hb. rewrite N.pow2_bits_false in Hb by congruence. done.
      * destruct (N.eq_dec i 0) as [->|Hne]; [by vm_compute|].
        change (N.testbit (2 ^ 0) i = true) in Hb. rewrite N.pow2_bits_false in Hb by congruence. done.
  - apply (bool_decide_unpack _). by vm_compute.
  - apply ret_ok_ex. by vm_compute.
  - apply ret_ok_ex. by vm_compute.
Qed.

(** ** C66: compressing what was decompressed. *)
Lemma kept_mono g l l' c r : l' <= l -> kept g l c r = true -> kept g l' c r = true.
Proof.
  intros Hl. unfold kept. rewrite !andb_true_iff, !N.leb_le, !clamp_level_eq. intros [? H].
  split; [done|]. etransitivity; [|exact H]. apply N.mul_le_mono_r. lia.
Qed.

Theorem C66_recompression p o1 o2 o3 o4 o5 g l l' : wf_platform p -> reach p g ->
  exists cg g' cg', compress p o1 o2 g l = Ret cg /\ decompress p o3 cg = Ret g' /\
    compress p o4 o5 g' l' = Ret cg' /\
    (forall o6 o7, exists best, compress p o6 o7 g (N.max l l') = Ret best /\
       c_edge_count cg' = c_edge_count best /\
       forall u v, c_does_edge_exist cg' u v = c_does_edge_exist best u v) /\
    (l' <= l -> c_is_undirected cg' = c_is_undirected cg /\ c_vertex_count cg' = c_vertex_count cg /\
       c_edge_count cg' = c_edge_count cg /\
       forall u v, c_does_edge_exist cg' u v = c_does_edge_exist cg u v) /\
    (l' = l -> same_cgraph cg' cg).
Proof.
  intros Hp Hr. apply reach_inv in Hr; [|done].
  destruct (compress_spec p o1 o2 g l Hr) as (cg & Hc & Hco).
  destruct (decompress_spec p o3 cg (co_inv _ _ _ Hco)) as (g' & Hd & Hdo); [apply (co_inv _ _ _ Hco)|].
  destruct (compress_spec p o4 o5 g' l' (do_inv _ _ Hdo)) as (cg' & Hc' & Hco').
  assert (forall u v, does_edge_exist g' u v = c_does_edge_exist cg u v) as Hg'.
  { apply decompress_exists; [done|]. intros Hu u v. by apply (compress_sym g l). }
  assert (vertex_count g' = vertex_count g) as Hn by (rewrite (do_n _ _ Hdo); apply Hco).
  assert (forall c r, kept g' l' c r = kept g l c r && kept g l' c r) as Hkept.
  { intros c r. destruct (kept g l c r) eqn:E; cbn [andb].
    - unfold kept. rewrite Hn. assert (block_count g' 8 c r = block_count g 8 c r) as ->; [|done].
      unfold block_count. apply Permutation_length, NoDup_Permutation; [apply NoDup_block_edges..|].
      intros [u v]. rewrite !elem_of_block_edges, <- !exists_has, Hg'.
      rewrite (compress_exists g l cg) by done. split.
      + intros ([? ?]%andb_true_iff & ? & ?). done.
      + intros (He & <- & <-). by rewrite He, E.
    - apply not_true_is_false. intros H. apply kept_count, block_count_pos in H as (u & v & Hh & <- & <-).
      apply exists_has in Hh. rewrite Hg', (compress_exists g l cg), E, andb_false_r in Hh by done. done. }
  assert (forall u v, c_does_edge_exist cg' u v =
    does_edge_exist g u v && (kept g l (u / 8) (v / 8) && kept g l' (u / 8) (v / 8))) as Hall.
  { intros u v. rewrite (compress_exists g' l' cg'), Hkept, Hg', (compress_exists g l cg) by done.
    by destruct (does_edge_exist g u v), (kept g l _ _), (kept g l' _ _). }
  assert (forall x y lx ly (gx gy : graph), compress_of gx lx x -> compress_of gy ly y ->
    (forall u v, c_does_edge_exist x u v = c_does_edge_exist y u v) ->
    c_edge_count x = c_edge_count y) as Hcount.
  { intros x y lx ly gx gy Hx Hy Hxy. destruct (c_edges_card x (co_inv _ _ _ Hx)) as [k Hk].
    unfold c_edge_count. rewrite (co_ec _ _ _ Hx k Hk). symmetry. apply (co_ec _ _ _ Hy).
    eapply has_card_ext; [|exact Hk]. intros [u v]. by rewrite Hxy. }
  assert (l' <= l -> forall u v, c_does_edge_exist cg' u v = c_does_edge_exist cg u v) as Hle.
  { intros Hl u v. rewrite Hall, (compress_exists g l cg) by done. f_equal.
    destruct (kept g l _ _) eqn:E; [|done]. by rewrite (kept_mono g l l'). }
  exists cg, g', cg'. split; [done|]. split; [done|]. split; [done|]. split; [|split].
  - intros o6 o7. destruct (compress_spec p o6 o7 g (N.max l l') Hr) as (best & Hb & Hbo).
    exists best. assert (forall u v, c_does_edge_exist cg' u v = c_does_edge_exist best u v) as Hbe.
    { intros u v. rewrite Hall, (compress_exists g _ best) by done. f_equal.
      destruct (N.max_spec l l') as [[? ->]|[? ->]].
      - destruct (kept g l' _ _) eqn:E; [|by rewrite andb_false_r].
        rewrite (kept_mono g l' l); [done|lia|done].
      - destruct (kept g l _ _) eqn:E; [|done]. rewrite (kept_mono g l l'); [done|lia|done]. }
    split; [done|]. split; [|done]. by apply (Hcount _ _ _ _ _ _ Hco' Hbo).
  - intros Hl. split_and!.
    + unfold c_is_undirected. rewrite (co_und _ _ _ Hco'). apply Hdo.
    + unfold c_vertex_count. rewrite (co_n _ _ _ Hco'). apply Hdo.
    + apply (Hcount _ _ _ _ _ _ Hco' Hco). by apply Hle.
    + by apply Hle.
  - intros ->. apply same_cgraph_intro; [apply Hco'|apply Hco|..].
    + rewrite (co_und _ _ _ Hco'). apply Hdo.
    + rewrite (co_n _ _ _ Hco'). apply Hdo.
    + apply (Hcount _ _ _ _ _ _ Hco' Hco). by apply Hle.
    + by rewrite (co_level _ _ _ Hco), (co_level _ _ _ Hco').
    + by apply Hle.
Qed.
Print Assumptions C66_recompression.

Example C66_case :
  obind (compress plat64 plain_order plain_order sample_dir 4) (fun cg =>
  obind (decompress plat64 plain_order cg) (fun g' =>
  obind (compress plat64 plain_order plain_order g' 2) (fun cg2 =>
  obind (compress plat64 plain_order plain_order g' 5) (fun cg5 =>
  Ret (c_edge_count cg, c_edge_count cg2, c_edge_count cg5))))) = Ret (4, 4, 0).
Proof. by vm_compute. Qed.

(** ** C67: more edges never lead to fewer edges after compression. *)
Theorem C67_compress_monotone p o1 o2 o3 o4 g g' l cg cg' : wf_platform p ->
  reach p g -> reach p g' -> vertex_count g = vertex_count g' ->
  (forall u v, does_edge_exist g u v = true -> does_edge_exist g' u v = true) ->
  compress p o1 o2 g l = Ret cg -> compress p o3 o4 g' l = Ret cg' ->
  c_edge_count cg <= c_edge_count cg' /\
  forall u v, c_does_edge_exist cg u v = true -> c_does_edge_exist cg' u v = true.
Proof.
  intros Hp Hr Hr' Hn Hsub Hc Hc'. apply reach_inv in Hr; [|done]. apply reach_inv in Hr'; [|done].
  destruct (compress_spec p o1 o2 g l Hr) as (x & Hx & Hco). rewrite Hc in Hx. injection Hx as <-.
  destruct (compress_spec p o3 o4 g' l Hr') as (x & Hx & Hco'). rewrite Hc' in Hx. injection Hx as <-.
  assert (forall u v, c_does_edge_exist cg u v = true -> c_does_edge_exist cg' u v = true) as Hall.
  { intros u v. rewrite (compress_exists g l cg), (compress_exists g' l cg') by done.
    rewrite !andb_true_iff. intros [He Hk]. split; [by apply Hsub|].
    revert Hk. unfold kept. rewrite !andb_true_iff, !N.leb_le, !Nat.ltb_lt, Hn.
    pose proof (block_count_le g g' 8 (u / 8) (v / 8)) as Hle.
    feed specialize Hle. { intros a b. rewrite <- !exists_has. apply Hsub. }
    intros [? ?]. split; lia. }
  split; [|done].
  destruct (c_edges_card cg (co_inv _ _ _ Hco)) as [k Hk].
  destruct (c_edges_card cg' (co_inv _ _ _ Hco')) as [k' Hk'].
  unfold c_edge_count. rewrite (co_ec _ _ _ Hco k Hk), (co_ec _ _ _ Hco' k' Hk').
  assert (k <= k'); [|lia].
  apply (has_card_le _ _ _ _ Hk Hk'). intros [u v]. apply Hall.
Qed.
Print Assumptions C67_compress_monotone.

Example C67_case : vertex_count (add_edge sample_dir 3 3) = vertex_count sample_dir /\
  (exists cg, compress plat64 plain_order plain_order sample_dir 5 = Ret cg /\ c_edge_count cg = 0) /\
  (exists cg, compress plat64 plain_order plain_order (add_edge sample_dir 3 3) 5 = Ret cg /\
     c_edge_count cg = 5).
Proof. split; [by vm_compute|]. split; apply ret_ex; by vm_compute. Qed.

(** ** C68: the operations treat columns and rows alike.  [g'] is [g] with every edge
    reversed. *)
Definition transposed (g g' : graph) : Prop :=
  is_undirected g = is_undirected g' /\ vertex_count g = vertex_count g' /\
  forall u v, does_edge_exist g' u v = does_edge_exist g v u.

Lemma block_count_transposed g g' b c r : transposed g g' ->
  block_count g' b c r = block_count g b r c.
Proof.
  intros (_ & _ & H). unfold block_count.
  rewrite <- (fmap_length (fun '(u, v) => (v, u)) (block_edges g b r c)).
  apply Permutation_length, NoDup_Permutation.
  - apply NoDup_block_edges.
  - apply NoDup_fmap_2; [|apply NoDup_block_edges]. intros [? ?] [? ?]. congruence.
  - intros [u v]. rewrite elem_of_list_fmap, elem_of_block_edges, <- exists_has, H. split.
    + intros (Hh & ? & ?). exists (v, u). split; [done|]. apply elem_of_block_edges.
      by rewrite <- exists_has.
    + intros ([u' v'] & [= -> ->] & Hin). apply elem_of_block_edges in Hin as (Hh & ? & ?).
      by rewrite exists_has.
Qed.

Theorem C68_transposition p g g' : wf_platform p -> reach p g -> reach p g' -> transposed g g' ->
  (forall o1 o2 o3 o4 l, same_outcome (fun cg cg' =>
       c_is_undirected cg = c_is_undirected cg' /\ c_vertex_count cg = c_vertex_count cg' /\
       c_edge_count cg = c_edge_count cg' /\ compression_level cg = compression_level cg' /\
       forall u v, c_does_edge_exist cg' u v = c_does_edge_exist cg v u)
     (compress p o1 o2 g l) (compress p o3 o4 g' l)) /\
  (forall o1 o2 b, same_outcome (fun m m' =>
       sq_dimension m = sq_dimension m' /\ sq_entry_count m = sq_entry_count m' /\
       forall c r, sq_get_entry f64_numeric m' c r = sq_get_entry f64_numeric m r c)
     (find_avg_pool_matrix p o1 g b) (find_avg_pool_matrix p o2 g' b)) /\
  (forall o1 o2 o3 o4 b t, same_outcome transposed
     (approximate p o1 o2 g b t) (approximate p o3 o4 g' b t)) /\
  (forall o o' v, get_vertex_out_degree o g v = get_vertex_in_degree o' g' v /\
     get_vertex_in_degree o g v = get_vertex_out_degree o' g' v).
Proof.
  intros Hp Hr Hr' Ht. pose proof Hr as Hi. pose proof Hr' as Hi'.
  apply reach_inv in Hi; [|done]. apply reach_inv in Hi'; [|done].
  assert (vertex_count g' = vertex_count g) as Hn by (symmetry; apply Ht).
  split; [|split; [|split]].
  - intros o1 o2 o3 o4 l.
    destruct (compress_spec p o1 o2 g l Hi) as (cg & -> & Hc).
    destruct (compress_spec p o3 o4 g' l Hi') as (cg' & -> & Hc').
    assert (forall u v, c_does_edge_exist cg' u v = c_does_edge_exist cg v u) as Hall.
    { intros u v. rewrite (compress_exists g l cg), (compress_exists g' l cg') by done.
      unfold kept. rewrite (block_count_transposed g g'), Hn by done. f_equal. apply Ht. }
    simpl. split_and!; [| | | |done].
    + unfold c_is_undirected. rewrite (co_und _ _ _ Hc), (co_und _ _ _ Hc'). apply Ht.
    + unfold c_vertex_count. by rewrite (co_n _ _ _ Hc), (co_n _ _ _ Hc').
    + unfold c_edge_count. destruct (c_edges_card cg (co_inv _ _ _ Hc)) as [k Hk].
      rewrite (co_ec _ _ _ Hc k Hk). symmetry. apply (co_ec _ _ _ Hc').
      destruct Hk as (lst & Hnd & Hin & <-). exists ((fun '(u, v) => (v, u)) <$> lst). split_and!.
      * apply NoDup_fmap_2; [|done]. intros [? ?] [? ?]. congruence.
      * intros [u v]. rewrite elem_of_list_fmap, Hall. split.
        -- intros ([u' v'] & [= -> ->] & H). by apply Hin in H.
        -- intros H. exists (v, u). split; [done|]. by apply Hin.
      * by rewrite fmap_length.
    + unfold compression_level. by rewrite (co_level _ _ _ Hc), (co_level _ _ _ Hc').
  - intros o1 o2 b. destruct (N.eq_dec (vertex_count g) 0) as [H0|H0].
    { unfold find_avg_pool_matrix. rewrite Hn, H0. simpl. done. }
    assert (vertex_count g' <> 0) as H0' by (by rewrite Hn).
    destruct (find_avg_pool_spec p o1 g b Hi H0) as [E _].
    destruct (find_avg_pool_spec p o2 g' b Hi' H0') as [E' _].
    pose proof (find_avg_pool_ret p o1 g b) as Hret.
    pose proof (find_avg_pool_ret p o2 g' b) as Hret'. simpl in Hret, Hret'.
    rewrite Hn in E', Hret'.
    set (cb := clamp_block (vertex_count g) b) in *.
    assert (forall m m' s, pool_of g cb s m -> pool_of g' cb s m' ->
       sq_dimension m = sq_dimension m' /\ sq_entry_count m = sq_entry_count m' /\
       forall c r, sq_get_entry f64_numeric m' c r = sq_get_entry f64_numeric m r c) as Hpool.
    { intros m m' s Hm Hm'. assert (forall c r, sq_val m' c r = sq_val m r c) as Hv.
      { intros c r. rewrite (po_val _ _ _ _ Hm), (po_val _ _ _ _ Hm').
        by rewrite (block_count_transposed g g'). }
      split_and!.
      - unfold sq_dimension. by rewrite (po_dim _ _ _ _ Hm), (po_dim _ _ _ _ Hm'), Hn.
      - unfold sq_entry_count. rewrite (si_cnt _ (po_inv _ _ _ _ Hm)), (si_cnt _ (po_inv _ _ _ _ Hm')).
        do 2 f_equal. rewrite <- (fmap_length (fun '(c, r) => (r, c)) (sq_keys m)).
        apply Permutation_length, NoDup_Permutation.
        + apply NoDup_fmap_2; [|apply NoDup_sq_keys]. intros [? ?] [? ?]. congruence.
        + apply NoDup_sq_keys.
        + intros [c r]. rewrite elem_of_list_fmap, elem_of_sq_keys, Hv. split.
          * intros ([c' r'] & [= -> ->] & H). by apply elem_of_sq_keys in H.
          * intros H. exists (r, c). split; [done|]. by apply elem_of_sq_keys.
      - intros c r. by rewrite !sq_get_val, Hv. }
    destruct (u64_mul p cb cb) as [s| |] eqn:Em; cbn [obind] in E, E'; rewrite E, E'; [|done|].
    + destruct (Hret _ Hi H0 E) as (s1 & [= <-] & Hof).
      destruct (Hret' _ Hi' ltac:(done) E') as (s2 & [= <-] & Hof').
      by apply (Hpool _ _ s).
    + unfold u64_mul in Em. destruct (_ <? _); [done|]. by destruct (overflow_checks p).
  - intros o1 o2 o3 o4 b t. destruct (decide (b <= 1 \/ vertex_count g <= 1)) as [Hcp|Hcp].
    { rewrite !approximate_copy by (rewrite ?Hn; done). done. }
    pose proof (approximate_eq p o1 o2 g b t Hi ltac:(lia) ltac:(lia)) as H.
    pose proof (approximate_eq p o3 o4 g' b t Hi' ltac:(lia) ltac:(lia)) as H'.
    rewrite Hn in H'. simpl in H, H'.
    destruct (u64_mul p _ _) as [s| |]; [|by rewrite H, H'|done].
    destruct H as (a & -> & Ha), H' as (a' & -> & Ha'). simpl. split_and!.
    + unfold is_undirected. rewrite (ao_und _ _ _ _ _ Ha), (ao_und _ _ _ _ _ Ha'). apply Ht.
    + by rewrite (ao_n _ _ _ _ _ Ha), (ao_n _ _ _ _ _ Ha'), Hn.
    + intros u v. apply eq_true_iff_eq. rewrite !exists_has.
      rewrite (ao_has _ _ _ _ _ Ha), (ao_has _ _ _ _ _ Ha'). unfold survives.
      by rewrite (block_count_transposed g g').
  - intros o o' v.
    destruct (C07_edge_lists_and_degrees p g o v Hp Hr) as (N1 & E1 & D1 & N2 & E2 & D2).
    destruct (C07_edge_lists_and_degrees p g' o' v Hp Hr') as (N1' & E1' & D1' & N2' & E2' & D2').
    rewrite D1, D2, D1', D2'. split; f_equal; apply Permutation_length, NoDup_Permutation;
      try done; intros w.
    + by rewrite E1, E2', (proj2 (proj2 Ht)).
    + by rewrite E2, E1', (proj2 (proj2 Ht)).
Qed.
Print Assumptions C68_transposition.

Example C68_case :
  let g := add_edge (add_edge new_directed 1 0) 2 0 in
  let g' := add_edge (add_edge new_directed 0 1) 0 2 in
  transposed g g' /\ does_edge_exist g 0 1 = false.
Proof.
  cbv zeta. split; [|by vm_compute]. split; [done|]. split; [done|]. intros u v.
  apply eq_true_iff_eq. rewrite !exists_has, !has_add_edge. simpl.
  pose proof (not_has_new false u v). pose proof (not_has_new false v u). simpl in *.
  naive_solver.
Qed.
