(** Property C95: what pooling, approximating and compressing a graph do when its vertices are
    numbered differently. *)
From Coq Require Import Ascii String.
From Verif Require Import Base HashIter F64 Numeric Adj Sq Standard Compressed Spec MatSpec Api
  HashIterProofs AdjProofs SqProofs GraphProofs GraphMoreProofs PoolProofs BitsProofs
  CompressProofs CGraphCodecProofs ApproxProofs CodecMoreProofs PoolValueProofs
  PropCommon PropGraph PropCodec PropCompress PropMore PropPipeline.
Local Open Scope N_scope.

Local Arguments N.mul : simpl never.
Local Arguments N.add : simpl never.

(** [g'] is [g] with vertex [u] called [f u]; [f'] undoes [f]. *)
Definition renamed (f f' : N -> N) (g g' : graph) : Prop :=
  (forall u, f' (f u) = u) /\ (forall u, f (f' u) = u) /\
  is_undirected g' = is_undirected g /\ vertex_count g' = vertex_count g /\
  forall u v, does_edge_exist g' (f u) (f v) = does_edge_exist g u v.

(** [f] keeps together the vertices of each block of [b], and takes block [c] to block [F c]. *)
Definition moves_blocks (f F : N -> N) (b : N) : Prop :=
  (forall u, f u / b = F (u / b)) /\ forall c c', F c = F c' -> c = c'.

(** ** Lemmas *)

Lemma moves_onto f f' F b : b <> 0 -> (forall u, f (f' u) = u) -> moves_blocks f F b ->
  forall c, exists c0, F c0 = c.
Proof.
  intros Hb Hff [HF _] c. exists (f' (c * b) / b). rewrite <- HF, Hff. by apply N.div_mul.
Qed.

Lemma renamed_card f f' g g' k : renamed f f' g g' ->
  has_card (fun '(u, v) => does_edge_exist g u v = true) k ->
  has_card (fun '(u, v) => does_edge_exist g' u v = true) k.
Proof.
  intros (H1 & H2 & _ & _ & He). apply (has_card_map _ _ (fun x => (f x.1, f x.2))).
  - intros [u v] H. simpl. by rewrite He.
  - intros [u v] H. exists (f' u, f' v). simpl. rewrite !H2. split; [|done].
    by rewrite <- He, !H2.
  - intros [u v] [u' v'] _ _ [= E E']. rewrite <- (H1 u), <- (H1 v), E, E', !H1. done.
Qed.

Lemma renamed_block f f' F g g' b c r k : renamed f f' g g' -> moves_blocks f F b ->
  block_has g b c r k -> block_has g' b (F c) (F r) k.
Proof.
  intros (H1 & H2 & _ & _ & He) [HF Hinj]. apply (has_card_map _ _ (fun x => (f x.1, f x.2))).
  - intros [u v] (H & <- & <-). simpl. by rewrite He, !HF.
  - intros [u v] (H & Hu & Hv). exists (f' u, f' v). simpl. rewrite !H2. split; [|done].
    rewrite <- He, !H2. split_and!; [done|apply Hinj|apply Hinj]; by rewrite <- HF, H2.
  - intros [u v] [u' v'] _ _ [= E E']. rewrite <- (H1 u), <- (H1 v), E, E', !H1. done.
Qed.

Lemma renamed_count f f' F g g' b c r : renamed f f' g g' -> moves_blocks f F b ->
  block_count g' b (F c) (F r) = block_count g b c r.
Proof.
  intros Hr Hm. pose proof (renamed_block f f' F g g' b c r _ Hr Hm (block_has_count g b c r)) as H.
  apply block_has_eq in H. rewrite H. apply Nat2N.id.
Qed.

(** Two sets of cells that correspond through [F] have equally many members. *)
Lemma card_moved (P Q : N -> N -> Prop) (F : N -> N) k :
  (forall c c', F c = F c' -> c = c') -> (forall c, exists c0, F c0 = c) ->
  (forall c r, Q (F c) (F r) <-> P c r) ->
  has_card (fun '(c, r) => P c r) k -> has_card (fun '(c, r) => Q c r) k.
Proof.
  intros Hinj Hon Hpq. apply (has_card_map _ _ (fun x => (F x.1, F x.2))).
  - intros [c r] H. by apply Hpq.
  - intros [c r] H. destruct (Hon c) as [c0 <-], (Hon r) as [r0 <-]. exists (c0, r0).
    split; [by apply Hpq|done].
  - intros [c r] [c' r'] _ _ [= E E']. f_equal; by apply Hinj.
Qed.

Lemma sq_count_moved (m m' : sq spec_float) F : sq_inv m -> sq_inv m' ->
  (forall c c', F c = F c' -> c = c') -> (forall c, exists c0, F c0 = c) ->
  (forall c r, sq_val m' (F c) (F r) = sq_val m c r) -> sq_entry_count m = sq_entry_count m'.
Proof.
  intros Hi Hi' Hinj Hon Hv. unfold sq_entry_count. rewrite (si_cnt _ Hi), (si_cnt _ Hi').
  f_equal.
  assert (forall n : sq spec_float, has_card (fun '(c, r) => is_Some (sq_val n c r))
    (N.of_nat (length (sq_keys n)))) as Hk.
  { intros n. exists (sq_keys n). split_and!; [apply NoDup_sq_keys| |done].
    intros [c r]. apply elem_of_sq_keys. }
  eapply has_card_unique; [|apply Hk].
  apply (card_moved (fun c r => is_Some (sq_val m c r)) _ F); [done|done| |apply Hk].
  intros c r. by rewrite Hv.
Qed.

Lemma pool_moved p o o' g g' f f' F b : graph_inv g -> graph_inv g' ->
  renamed f f' g g' -> moves_blocks f F (N.max 1 (N.min b (vertex_count g))) ->
  same_outcome (fun m m' => sq_inv m /\ sq_inv m' /\ sq_dimension m = sq_dimension m' /\
      sq_entry_count m = sq_entry_count m' /\ forall c r, sq_val m' (F c) (F r) = sq_val m c r)
    (find_avg_pool_matrix p o g b) (find_avg_pool_matrix p o' g' b).
Proof.
  intros Hr Hr' Hf Hm.
  pose proof Hf as (Hf1 & Hf2 & Hu & Hvc & He).
  destruct (N.eq_dec (vertex_count g) 0) as [Hn|Hn].
  - unfold find_avg_pool_matrix. rewrite Hvc, Hn. simpl.
    split_and!; [apply sq_inv_new..|done|done|]. intros c r. by rewrite !sq_val_new.
  - assert (vertex_count g' <> 0) as Hn' by (by rewrite Hvc).
    destruct (find_avg_pool_spec p o g b Hr Hn) as [E _].
    destruct (find_avg_pool_spec p o' g' b Hr' Hn') as [E' _].
    pose proof (find_avg_pool_ret p o g b) as Hret.
    pose proof (find_avg_pool_ret p o' g' b) as Hret'. simpl in Hret, Hret'.
    rewrite Hvc in E', Hret'. rewrite <- (clamp_block_minmax _ _ Hn) in Hm.
    set (cb := clamp_block (vertex_count g) b) in *.
    assert (cb <> 0) as Hcb.
    { unfold cb. rewrite (clamp_block_minmax _ _ Hn). lia. }
    assert (forall square m m', pool_of g cb square m -> pool_of g' cb square m' ->
      sq_inv m /\ sq_inv m' /\ sq_dimension m = sq_dimension m' /\
      sq_entry_count m = sq_entry_count m' /\ forall c r, sq_val m' (F c) (F r) = sq_val m c r) as Hsame.
    { intros square m m' Hof Hof'.
      assert (forall c r, sq_val m' (F c) (F r) = sq_val m c r) as Hv.
      { intros c r. rewrite (po_val _ _ _ _ Hof), (po_val _ _ _ _ Hof').
        by rewrite (renamed_count f f' F g g') by done. }
      split_and!; [apply Hof|apply Hof'|..].
      - unfold sq_dimension. by rewrite (po_dim _ _ _ _ Hof), (po_dim _ _ _ _ Hof'), Hvc.
      - apply (sq_count_moved m m' F); [apply Hof|apply Hof'|apply Hm| |done].
        by apply (moves_onto f f' F cb).
      - done. }
    unfold u64_mul in E, E', Hret, Hret'.
    destruct (cb * cb <? two64); [|destruct (overflow_checks p)]; cbn [obind] in E, E';
      rewrite E, E'; simpl; try done.
    + destruct (Hret _ Hr Hn E) as (s & [= <-] & Hof).
      destruct (Hret' _ Hr' ltac:(done) E') as (s' & [= <-] & Hof').
      exact (Hsame _ _ _ Hof Hof').
    + destruct (Hret _ Hr Hn E) as (s & [= <-] & Hof).
      destruct (Hret' _ Hr' ltac:(done) E') as (s' & [= <-] & Hof').
      exact (Hsame _ _ _ Hof Hof').
Qed.

(** A new graph of [n] vertices to which edges are added. *)
Definition new_sized (und : bool) (n : N) (edges : list (N * N)) : graph :=
  run und ((if n =? 0 then [] else [OpAddVertex (n - 1) None]) ++ (uncurry OpAddEdge <$> edges)).

Lemma new_sized_spec und n edges : is_u64 n -> (forall u v, (u, v) ∈ edges -> u < n /\ v < n) ->
  let g := new_sized und n edges in
  graph_inv g /\ g_und g = und /\ vertex_count g = n /\
  forall u v, has g u v <-> (u, v) ∈ edges \/ (und = true /\ (v, u) ∈ edges).
Proof.
  intros Hn Hl. unfold new_sized, run. rewrite fold_left_app.
  set (g0 := fold_left step (if n =? 0 then [] else _) _).
  assert (graph_inv g0 /\ g_und g0 = und /\ vertex_count g0 = n /\ forall u v, ~ has g0 u v)
    as (H1 & H2 & H3 & H4).
  { assert (graph_inv (if und then new_undirected else new_directed)) as Hi
      by (destruct und; apply graph_inv_new).
    assert (forall u v, ~ has (if und then new_undirected else new_directed) u v) as Hh
      by (destruct und; intros u v (s & Hs & _); simpl in Hs; by rewrite lookup_empty in Hs).
    unfold g0. destruct (N.eqb_spec n 0) as [->|Hn0]; simpl.
    - split_and!; [exact Hi|by destruct und|by destruct und|exact Hh].
    - rewrite add_vertex_none. split_and!.
      + by apply graph_inv_grow.
      + rewrite und_grow. by destruct und.
      + rewrite vc_grow by done. unfold valid_id. unfold is_u64, two64, u64_max in *.
        destruct (N.ltb_spec (n - 1) 18446744073709551615); [|lia].
        replace (vertex_count _) with 0 by (by destruct und). lia.
      + intros u v. rewrite has_grow. apply Hh. }
  assert (forall g, fold_left step (uncurry OpAddEdge <$> edges) g =
    fold_left (fun g '(u, v) => add_edge g u v) edges g) as ->.
  { clear. induction edges as [|[u v] l IH]; intros g; [done|]. apply IH. }
  split_and!.
  - by apply graph_inv_fold_add_edge.
  - by rewrite und_fold_add_edge.
  - apply N.le_antisymm.
    + apply vc_fold_add_edge; [lia|done].
    + rewrite <- H3. apply vc_fold_add_edge_mono.
  - intros u v. rewrite has_fold_add_edge, H2. split.
    + intros [H|[_ H]]; [by apply H4 in H|done].
    + intros H. right. split; [|done]. unfold both_valid.
      assert (u < n /\ v < n) as [Hu Hv]
        by (destruct H as [H|[_ H]]; apply Hl in H as [? ?]; done).
      unfold is_u64, two64, u64_max in *. apply andb_true_iff. rewrite !N.ltb_lt. lia.
Qed.

Lemma new_sized_reach p und n edges : is_u64 n -> (forall u v, (u, v) ∈ edges -> u < n /\ v < n) ->
  reach p (new_sized und n edges).
Proof.
  intros Hn Hl. unfold new_sized. unfold is_u64 in *. apply reach_run, Forall_app. split.
  - destruct (n =? 0); constructor; [|constructor]. split; [unfold is_u64; lia|constructor].
  - apply Forall_forall. intros op ([u v] & -> & H)%elem_of_list_fmap. apply Hl in H.
    simpl. unfold is_u64. lia.
Qed.

(** ** C95 *)

(** Every renaming of the vertices of a graph can be carried out: list the edges, in whatever
    order, and add them under their new names to a new graph with as many vertices. *)
Theorem C95_renaming p o g f f' : wf_platform p -> reach p g ->
  (forall u, f' (f u) = u) -> (forall u, f (f' u) = u) ->
  (forall u, u < vertex_count g -> f u < vertex_count g) ->
  let g' := new_sized (is_undirected g) (vertex_count g)
    ((fun x => (f x.1, f x.2)) <$> graph_items o g) in
  reach p g' /\ renamed f f' g g'.
Proof.
  intros Hp Hr Hf1 Hf2 Hn g'. apply reach_inv in Hr; [|done].
  assert (forall u v, (u, v) ∈ ((fun x => (f x.1, f x.2)) <$> graph_items o g) <->
    has g (f' u) (f' v)) as Hin.
  { intros u v. rewrite elem_of_list_fmap. unfold graph_items. split.
    - intros ([a b] & [= -> ->] & H). rewrite !Hf1. by apply elem_of_adj_items in H; [|apply Hr].
    - intros H. exists (f' u, f' v). simpl. rewrite !Hf2. split; [done|].
      apply elem_of_adj_items; [apply Hr|done]. }
  assert (forall u v, (u, v) ∈ ((fun x => (f x.1, f x.2)) <$> graph_items o g) ->
    u < vertex_count g /\ v < vertex_count g) as Hb.
  { intros u v H. apply Hin, has_bound in H as [Hu Hv]; [|done].
    apply Hn in Hu, Hv. by rewrite !Hf2 in Hu, Hv. }
  pose proof (vc_u64 g Hr) as Hu64.
  destruct (new_sized_spec (is_undirected g) (vertex_count g) _ Hu64 Hb) as (Hi' & H1 & H2 & H3).
  split; [by apply new_sized_reach|]. split_and!; [done..|].
  intros u v. apply eq_true_iff_eq. rewrite !exists_has. unfold g'. rewrite H3, !Hin, !Hf1.
  split; [|by left]. intros [H|[Hu H]]; [done|]. by apply Hr.
Qed.
Print Assumptions C95_renaming.

(** Renaming never changes the edge count. *)
Theorem C95_edge_count p g g' f f' : wf_platform p -> reach p g -> reach p g' ->
  renamed f f' g g' -> edge_count g' = edge_count g.
Proof.
  intros Hp Hr Hr' Hf. apply reach_inv in Hr, Hr'; [|done..].
  pose proof (has_card_edges g) as Hk. pose proof (renamed_card f f' g g' _ Hf Hk) as Hk'.
  by rewrite (edge_count_card g _ Hr Hk), (edge_count_card g' _ Hr' Hk').
Qed.
Print Assumptions C95_edge_count.

(** If a renaming keeps the blocks of the pooling together, the entries of the pooling matrix
    move with the blocks: vertices may change places inside their blocks, and blocks with each
    other. *)
Theorem C95_pool p o o' g g' f f' F b : wf_platform p -> reach p g -> reach p g' ->
  renamed f f' g g' -> moves_blocks f F (N.max 1 (N.min b (vertex_count g))) ->
  same_outcome (fun m m' => sq_dimension m = sq_dimension m' /\ sq_entry_count m = sq_entry_count m' /\
      forall c r, sq_get_entry f64_numeric m' (F c) (F r) = sq_get_entry f64_numeric m c r)
    (find_avg_pool_matrix p o g b) (find_avg_pool_matrix p o' g' b).
Proof.
  intros Hp Hr Hr' Hf Hm. apply reach_inv in Hr, Hr'; [|done..].
  pose proof (pool_moved p o o' g g' f f' F b Hr Hr' Hf Hm) as H.
  destruct (find_avg_pool_matrix p o g b) as [m| |], (find_avg_pool_matrix p o' g' b) as [m'| |];
    simpl in *; try done.
  destruct H as (_ & _ & H1 & H2 & H3). split_and!; [done..|].
  intros c r. by rewrite !sq_get_val, H3.
Qed.
Print Assumptions C95_pool.

(** The approximation is renamed by the map of the blocks. *)
Theorem C95_approximate p o1 o2 o3 o4 g g' f f' F b t : wf_platform p -> reach p g -> reach p g' ->
  renamed f f' g g' -> moves_blocks f F (N.max 1 (N.min b (vertex_count g))) ->
  same_outcome (fun a a' => is_undirected a' = is_undirected a /\ vertex_count a' = vertex_count a /\
      edge_count a' = edge_count a /\
      forall c r, does_edge_exist a' (F c) (F r) = does_edge_exist a c r)
    (approximate p o1 o2 g b t) (approximate p o3 o4 g' b t).
Proof.
  intros Hp Hr Hr' Hf Hm. apply reach_inv in Hr, Hr'; [|done..].
  pose proof Hf as (Hf1 & Hf2 & Hu & Hvc & He).
  set (cb := N.max 1 (N.min b (vertex_count g))) in *.
  assert (forall a a', graph_inv a -> graph_inv a' ->
    (forall c r, does_edge_exist a' (F c) (F r) = does_edge_exist a c r) ->
    edge_count a' = edge_count a) as Hec.
  { intros a a' Ha Ha' Hall. pose proof (has_card_edges a) as Hk.
    rewrite (edge_count_card a _ Ha Hk). apply (edge_count_card a' _ Ha').
    apply (card_moved (fun c r => does_edge_exist a c r = true) _ F); [apply Hm| | |done].
    - apply (moves_onto f f' F cb); [lia|done|done].
    - intros c r. by rewrite Hall. }
  destruct (decide (b <= 1 \/ vertex_count g <= 1)) as [Hc|Hc].
  - rewrite !approximate_copy by (try rewrite Hvc; done). simpl.
    assert (forall u, F u = f u) as HF.
    { intros u. destruct Hm as [Hm _]. specialize (Hm u).
      replace cb with 1 in Hm by lia. by rewrite !N.div_1_r in Hm. }
    assert (forall c r, does_edge_exist g' (F c) (F r) = does_edge_exist g c r) as Hall
      by (intros c r; by rewrite !HF).
    split_and!; [done..|by apply Hec|done].
  - pose proof (approximate_eq p o1 o2 g b t Hr ltac:(lia) ltac:(lia)) as H.
    pose proof (approximate_eq p o3 o4 g' b t Hr' ltac:(lia)) as H'.
    rewrite Hvc in H'. specialize (H' ltac:(lia)). simpl in H, H'.
    replace (N.min b (vertex_count g)) with cb in H, H' by lia.
    destruct (u64_mul p _ _) as [sq| |]; [|by rewrite H, H'|done].
    destruct H as (a & -> & Ha), H' as (a' & -> & Ha'). simpl.
    assert (forall c r, does_edge_exist a' (F c) (F r) = does_edge_exist a c r) as Hall.
    { intros c r. apply eq_true_iff_eq. rewrite !exists_has.
      rewrite (ao_has _ _ _ _ _ Ha), (ao_has _ _ _ _ _ Ha'). unfold survives.
      by rewrite (renamed_count f f' F g g'). }
    split_and!; [| |apply Hec; [apply Ha|apply Ha'|done]|done].
    + unfold is_undirected in *. by rewrite (ao_und _ _ _ _ _ Ha), (ao_und _ _ _ _ _ Ha').
    + by rewrite (ao_n _ _ _ _ _ Ha), (ao_n _ _ _ _ _ Ha'), Hvc.
Qed.
Print Assumptions C95_approximate.

(** Vertices that only change places inside their blocks leave the pooling matrix and the
    approximation as they were. *)
Theorem C95_within p o1 o2 o3 o4 g g' f f' b t : wf_platform p -> reach p g -> reach p g' ->
  renamed f f' g g' ->
  (forall u, f u / N.max 1 (N.min b (vertex_count g)) = u / N.max 1 (N.min b (vertex_count g))) ->
  same_outcome (same_matrix f64_numeric) (find_avg_pool_matrix p o1 g b) (find_avg_pool_matrix p o3 g' b) /\
  same_outcome same_graph (approximate p o1 o2 g b t) (approximate p o3 o4 g' b t).
Proof.
  intros Hp Hr Hr' Hf Hm.
  assert (moves_blocks f (fun c => c) (N.max 1 (N.min b (vertex_count g)))) as HF by done.
  split.
  - apply reach_inv in Hr, Hr'; [|done..].
    pose proof (pool_moved p o1 o3 g g' f f' _ b Hr Hr' Hf HF) as H.
    destruct (find_avg_pool_matrix p o1 g b) as [m| |], (find_avg_pool_matrix p o3 g' b) as [m'| |];
      simpl in *; try done.
    destruct H as (Hi & Hi' & H1 & H2 & H3). split_and!; [done|done| |].
    + intros c r. by rewrite !sq_get_val, H3.
    + intros o o'. apply NoDup_Permutation; [by apply NoDup_sq_items..|].
      intros [[e c] r]. rewrite !elem_of_sq_items by done. by rewrite H3.
  - pose proof (C95_approximate p o1 o2 o3 o4 g g' f f' _ b t Hp Hr Hr' Hf HF) as H.
    apply reach_inv in Hr, Hr'; [|done..].
    destruct (approximate p o1 o2 g b t) as [a| |] eqn:Ea, (approximate p o3 o4 g' b t) as [a'| |] eqn:Ea';
      simpl in *; try done.
    destruct H as (H1 & H2 & H3 & H4).
    apply same_graph_intro; [exact (approximate_inv _ _ _ _ _ _ _ Hr Ea)|
      exact (approximate_inv _ _ _ _ _ _ _ Hr' Ea')|done|done|].
    intros u v. by rewrite <- !exists_has, H4.
Qed.
Print Assumptions C95_within.

(** Compression renames as well if the renaming keeps blocks of eight together, and stores as
    many blocks. *)
Theorem C95_compress p o1 o2 o3 o4 g g' f f' F l : wf_platform p -> reach p g -> reach p g' ->
  renamed f f' g g' -> moves_blocks f F 8 ->
  exists cg cg', compress p o1 o2 g l = Ret cg /\ compress p o3 o4 g' l = Ret cg' /\
    c_is_undirected cg' = c_is_undirected cg /\ c_vertex_count cg' = c_vertex_count cg /\
    c_edge_count cg' = c_edge_count cg /\ compression_level cg' = compression_level cg /\
    (forall u v, c_does_edge_exist cg' (f u) (f v) = c_does_edge_exist cg u v) /\
    (forall c r, get_compressed_matrix_entry cg' (F c) (F r) = 0 <->
                 get_compressed_matrix_entry cg c r = 0) /\
    forall k, has_card (fun '(c, r) => get_compressed_matrix_entry cg c r <> 0) k ->
              has_card (fun '(c, r) => get_compressed_matrix_entry cg' c r <> 0) k.
Proof.
  intros Hp Hr Hr' Hf Hm. apply reach_inv in Hr, Hr'; [|done..].
  pose proof Hf as (Hf1 & Hf2 & Hu & Hvc & He).
  destruct (compress_spec p o1 o2 g l Hr) as (cg & E & Hc).
  destruct (compress_spec p o3 o4 g' l Hr') as (cg' & E' & Hc').
  exists cg, cg'. split; [done|]. split; [done|].
  assert (forall c r, kept g' l (F c) (F r) = kept g l c r) as Hk.
  { intros c r. unfold kept. by rewrite (renamed_count f f' F g g'), Hvc. }
  assert (forall u v, c_does_edge_exist cg' (f u) (f v) = c_does_edge_exist cg u v) as Hall.
  { intros u v. rewrite (compress_exists g l cg), (compress_exists g' l cg') by done.
    destruct Hm as [Hm _]. by rewrite !Hm, Hk, He. }
  assert (forall c r, get_compressed_matrix_entry cg' (F c) (F r) = 0 <->
    get_compressed_matrix_entry cg c r = 0) as Hz.
  { assert (forall h ch c r, compress_of h l ch ->
      get_compressed_matrix_entry ch c r = 0 <-> kept h l c r = false) as Hz.
    { intros h ch c r Hh. unfold get_compressed_matrix_entry. rewrite sq_get_val.
      pose proof (co_val _ _ _ Hh c r) as Hv. rewrite Hv. destruct (kept h l c r); [|done].
      simpl. pose proof (ci_word _ (co_inv _ _ _ Hh) _ _ _ Hv) as [? _]. done. }
    intros c r. by rewrite (Hz g' cg'), (Hz g cg), Hk. }
  split_and!.
  - unfold c_is_undirected, is_undirected in *. by rewrite (co_und _ _ _ Hc), (co_und _ _ _ Hc').
  - unfold c_vertex_count. by rewrite (co_n _ _ _ Hc), (co_n _ _ _ Hc').
  - unfold c_edge_count. destruct (c_edges_card cg (co_inv _ _ _ Hc)) as [k Hkc].
    rewrite (co_ec _ _ _ Hc k Hkc). apply (co_ec _ _ _ Hc').
    revert Hkc. apply (card_moved (fun u v => c_does_edge_exist cg u v = true)
      (fun u v => c_does_edge_exist cg' u v = true) f).
    + intros c c' Hcc. by rewrite <- (Hf1 c), Hcc.
    + intros c. by exists (f' c).
    + intros u v. by rewrite Hall.
  - unfold compression_level. by rewrite (co_level _ _ _ Hc), (co_level _ _ _ Hc').
  - done.
  - done.
  - intros k. apply (card_moved (fun c r => get_compressed_matrix_entry cg c r <> 0)
      (fun c r => get_compressed_matrix_entry cg' c r <> 0) F); [apply Hm| |].
    + by apply (moves_onto f f' F 8).
    + intros c r. by rewrite Hz.
Qed.
Print Assumptions C95_compress.

(** Vertices 0 and 1 change places, and the blocks 0-7 and 8-15 do. *)
Definition swap01 (u : N) : N := if u =? 0 then 1 else if u =? 1 then 0 else u.
Definition swap_blocks (u : N) : N := if u <? 8 then u + 8 else if u <? 16 then u - 8 else u.
Definition two_blocks : graph :=
  run false [OpAddVertex 15 None; OpAddEdge 0 2; OpAddEdge 3 4; OpAddEdge 9 1; OpAddEdge 10 12].

Example C95_premises :
  (forall u, swap01 (swap01 u) = u) /\ (forall u, swap_blocks (swap_blocks u) = u) /\
  (forall u, u < 16 -> swap01 u < 16 /\ swap_blocks u < 16) /\
  (forall u, swap01 u / 8 = u / 8) /\ moves_blocks swap_blocks swap01 8.
Proof.
  assert (forall u, swap01 (swap01 u) = u) as H1.
  { intros u. unfold swap01. destruct (N.eqb_spec u 0) as [->|]; [done|].
    destruct (N.eqb_spec u 1) as [->|]; [done|].
    destruct (N.eqb_spec u 0), (N.eqb_spec u 1); lia. }
  split; [done|]. split_and!.
  - intros u. unfold swap_blocks. destruct (N.ltb_spec u 8).
    + destruct (N.ltb_spec (u + 8) 8), (N.ltb_spec (u + 8) 16); lia.
    + destruct (N.ltb_spec u 16).
      * destruct (N.ltb_spec (u - 8) 8); lia.
      * destruct (N.ltb_spec u 8), (N.ltb_spec u 16); lia.
  - intros u Hu. unfold swap01, swap_blocks.
    destruct (N.eqb_spec u 0), (N.eqb_spec u 1), (N.ltb_spec u 8), (N.ltb_spec u 16); lia.
  - intros u. unfold swap01. destruct (N.eqb_spec u 0) as [->|]; [done|].
    by destruct (N.eqb_spec u 1) as [->|].
  - split.
    + intros u. unfold swap01, swap_blocks. destruct (N.ltb_spec u 8).
      * rewrite (N.div_small u 8) by done. simpl. symmetry.
        apply (N.div_unique (u + 8) 8 1 u); lia.
      * destruct (N.ltb_spec u 16).
        -- replace (u / 8) with 1 by (apply (N.div_unique u 8 1 (u - 8)); lia). simpl.
           apply N.div_small. lia.
        -- assert (2 <= u / 8) by (apply N.div_le_lower_bound; lia).
           destruct (N.eqb_spec (u / 8) 0), (N.eqb_spec (u / 8) 1); lia.
    + intros c c' H. by rewrite <- (H1 c), H.
Qed.

(** With the renamed graph of C95_renaming. *)
Example C95_case : reach plat64 two_blocks /\ vertex_count two_blocks = 16 /\
  let g' := new_sized false 16 ((fun x => (swap_blocks x.1, swap_blocks x.2)) <$>
    graph_items plain_order two_blocks) in
  does_edge_exist two_blocks 9 1 = true /\ does_edge_exist g' 1 9 = true /\
  does_edge_exist g' 9 1 = false /\
  (exists m, find_avg_pool_matrix plat64 plain_order two_blocks 8 = Ret m /\
    map (fun '(c, r) => sq_get_entry f64_numeric m c r) [(0, 0); (0, 1); (1, 0); (1, 1)] =
      [f64_div (f64_of_N 2) (f64_of_N 64); f64_zero; f64_div (f64_of_N 1) (f64_of_N 64);
        f64_div (f64_of_N 1) (f64_of_N 64)]).
Proof.
  split; [by apply reach_runb|]. split; [done|]. intros g'. split_and!; [done..|].
  apply ret_ex. by vm_compute.
Qed.

(** A renaming that takes vertices from one block to another can change what compression
    keeps: here two edges of one block end up in two. *)
Definition swap_far (u : N) : N := if u =? 4 then 13 else if u =? 13 then 4 else u.

Theorem C95_other_renamings :
  ~ (forall p o g g' f f' l cg cg', wf_platform p -> reach p g -> reach p g' -> renamed f f' g g' ->
       compress p o o g l = Ret cg -> compress p o o g' l = Ret cg' ->
       c_edge_count cg' = c_edge_count cg).
Proof.
  intros H.
  assert (forall u, swap_far (swap_far u) = u) as Hs.
  { intros u. unfold swap_far. destruct (N.eqb_spec u 4) as [->|]; [done|].
    destruct (N.eqb_spec u 13) as [->|]; [done|].
    destruct (N.eqb_spec u 4), (N.eqb_spec u 13); lia. }
  assert (forall u, u < vertex_count two_blocks -> swap_far u < vertex_count two_blocks) as Hb.
  { change (vertex_count two_blocks) with 16. intros u Hu. unfold swap_far.
    destruct (N.eqb_spec u 4), (N.eqb_spec u 13); lia. }
  destruct (C95_renaming plat64 plain_order two_blocks swap_far swap_far plat64_wf
    ltac:(by apply reach_runb) Hs Hs Hb) as [Hr Hn].
  assert (exists cg, compress plat64 plain_order plain_order two_blocks 2 = Ret cg /\
    c_edge_count cg = 2) as (cg & E & Hc) by (apply ret_ex; by vm_compute).
  assert (exists cg, compress plat64 plain_order plain_order (new_sized (is_undirected two_blocks)
      (vertex_count two_blocks)
      ((fun x => (swap_far x.1, swap_far x.2)) <$> graph_items plain_order two_blocks)) 2 = Ret cg /\
    c_edge_count cg = 0) as (cg' & E' & Hc') by (apply ret_ex; by vm_compute).
  specialize (H plat64 plain_order two_blocks _ swap_far swap_far 2 cg cg' plat64_wf
    ltac:(by apply reach_runb) Hr Hn E E').
  rewrite Hc, Hc' in H. discriminate H.
Qed.
Print Assumptions C95_other_renamings.
