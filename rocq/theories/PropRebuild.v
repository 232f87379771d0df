(** Property C96: graphs and matrices can be rebuilt from what they list. *)
From Coq Require Import Ascii String.
From Verif Require Import Base HashIter F64 Numeric Adj Sq Standard Compressed Spec MatSpec Api
  HashIterProofs AdjProofs SqProofs MatrixProofs GraphProofs GraphMoreProofs PoolProofs BitsProofs
  CompressProofs CGraphCodecProofs ApproxProofs CodecMoreProofs
  PropCommon PropGraph PropMatrix PropCodec PropCompress PropMore PropRelabel.
Local Open Scope N_scope.

Local Arguments N.mul : simpl never.
Local Arguments N.add : simpl never.

(** ** Lemmas *)

(** A vertex at a time, with the list [f v] of its targets. *)
Definition add_stars (f : N -> list N) (vs : list N) (g : graph) : graph :=
  fold_left step ((fun v => OpAddVertex v (Some (f v))) <$> vs) g.

Lemma und_add_vertex g v ts : g_und (add_vertex g v ts) = g_und g.
Proof.
  destruct ts as [[|t ts]|].
  - by rewrite add_vertex_nil, und_grow.
  - rewrite add_vertex_cons. generalize (t :: ts). clear. intros ts. revert g.
    induction ts as [|t ts IH]; intros g; [done|]. simpl. by rewrite IH, und_add_edge.
  - by rewrite add_vertex_none, und_grow.
Qed.

Lemma add_stars_spec f vs n g : graph_inv g -> n <= u64_max -> vertex_count g <= n ->
  (forall v, v ∈ vs -> v < n /\ forall t, t ∈ f v -> t < n) ->
  graph_inv (add_stars f vs g) /\ g_und (add_stars f vs g) = g_und g /\
  vertex_count (add_stars f vs g) <= n /\ vertex_count g <= vertex_count (add_stars f vs g) /\
  (forall v, v ∈ vs -> v < vertex_count (add_stars f vs g)) /\
  forall a b, has (add_stars f vs g) a b <->
    has g a b \/ (a ∈ vs /\ b ∈ f a) \/ (g_und g = true /\ b ∈ vs /\ a ∈ f b).
Proof.
  intros Hi Hn. revert g Hi. induction vs as [|v vs IH]; intros g Hi Hg Hvs; cbn [add_stars].
  { unfold add_stars. simpl. split_and!; [done|done|done|done| |].
    - intros v Hv. by apply elem_of_nil in Hv.
    - intros a b. rewrite !elem_of_nil. naive_solver. }
  destruct (Hvs v ltac:(left)) as [Hv Hf].
  change (add_stars f (v :: vs) g) with (add_stars f vs (add_vertex g v (Some (f v)))).
  assert (vertex_count (add_vertex g v (Some (f v))) <= n) as Hle.
  { destruct (f v) as [|t ts] eqn:E.
    - rewrite vc_add_vertex_nil by done. destruct (valid_id v); lia.
    - rewrite <- E in *. apply vc_add_vertex_le; [by rewrite E|]. split; [done|].
      intros _ t' Ht' _. split; [done|by apply Hf]. }
  assert (valid_id v = true) as Hval by (unfold valid_id; apply N.ltb_lt; lia).
  assert (v < vertex_count (add_vertex g v (Some (f v)))) as Hlt.
  { apply vc_add_vertex_some; [done|done|]. destruct (f v) as [|t ts] eqn:E; [by right|].
    left. exists t. split; [left|]. unfold valid_id. apply N.ltb_lt.
    specialize (Hf t ltac:(left)). lia. }
  assert (vertex_count g <= vertex_count (add_vertex g v (Some (f v)))) as Hmono.
  { destruct (f v) as [|t ts] eqn:E.
    - rewrite vc_add_vertex_nil by done. destruct (valid_id v); lia.
    - rewrite <- E in *. apply (vc_add_vertex_le g v (f v)); [by rewrite E|lia]. }
  destruct (IH (add_vertex g v (Some (f v)))) as (H1 & H2 & H3 & H4 & H5 & H6);
    [by apply graph_inv_add_vertex|done|intros w Hw; apply Hvs; by right|].
  split_and!; [done| |done|lia| |].
  - by rewrite H2, und_add_vertex.
  - intros w [->|Hw]%elem_of_cons; [lia|by apply H5].
  - intros a b. rewrite H6, has_add_vertex, und_add_vertex, !elem_of_cons. cbn [default].
    assert (forall t, t ∈ f v -> valid_id t = true) as Hft.
    { intros t Ht. unfold valid_id. apply N.ltb_lt. specialize (Hf t Ht). lia. }
    split.
    + intros [[H|(_ & _ & [[-> H]|(Hu & -> & H)])]|[H|H]]; naive_solver.
    + intros [H|[([->|Ha] & H)|(Hu & [->|Hb] & H)]]; [by left; left| |by right; left| |].
      * left. right. split_and!; [done|by apply Hft|by left].
      * left. right. split_and!; [by apply Hft|done|by right].
      * right. by right.
Qed.

(** ** C96 *)

(** A graph can be rebuilt from any list of its edges, in any order, with repetitions, and
    with one direction of each edge if the graph is undirected. *)
Theorem C96_from_edges p g edges : wf_platform p -> reach p g ->
  (forall u v, (u, v) ∈ edges -> does_edge_exist g u v = true) ->
  (forall u v, does_edge_exist g u v = true ->
     (u, v) ∈ edges \/ (is_undirected g = true /\ (v, u) ∈ edges)) ->
  same_graph (new_sized (is_undirected g) (vertex_count g) edges) g.
Proof.
  intros Hp Hr H1 H2. apply reach_inv in Hr; [|done].
  destruct (new_sized_spec (is_undirected g) (vertex_count g) edges (vc_u64 g Hr)) as (Hi & Hu & Hn & He).
  { intros u v H. by apply H1, exists_has, has_bound in H. }
  apply same_graph_intro; [done|done|done|done|].
  intros u v. rewrite He, <- exists_has. split; [|apply H2].
  intros [H|[Hd H]]; [by apply H1|]. apply exists_has. apply (gi_sym g Hr); [done|].
  by apply exists_has, H1.
Qed.
Print Assumptions C96_from_edges.

(** In particular from what the iterator gives. *)
Theorem C96_from_iterator p o g : wf_platform p -> reach p g ->
  same_graph (new_sized (is_undirected g) (vertex_count g) (graph_items o g)) g.
Proof.
  intros Hp Hr. apply (C96_from_edges p); [done|done|..];
    apply reach_inv in Hr; try done; intros u v; unfold graph_items;
    rewrite elem_of_adj_items by apply Hr; rewrite exists_has; [done|by left].
Qed.
Print Assumptions C96_from_iterator.

(** It can be rebuilt a vertex at a time from the lists of outgoing edges, the vertices in
    any order.  No vertex is lost: one without edges is added with an empty list. *)
Theorem C96_from_out_edges p o g vs : wf_platform p -> reach p g ->
  (forall v, v ∈ vs <-> v < vertex_count g) ->
  same_graph (run (is_undirected g)
    ((fun v => OpAddVertex v (Some (get_vertex_out_edges o g v))) <$> vs)) g.
Proof.
  intros Hp Hr Hvs. apply reach_inv in Hr; [|done].
  pose proof (vc_u64 g Hr) as Hn.
  assert (graph_inv (if is_undirected g then new_undirected else new_directed)) as Hi0
    by (destruct (is_undirected g); apply graph_inv_new).
  assert (forall u v, ~ has (if is_undirected g then new_undirected else new_directed) u v) as Hh
    by (destruct (is_undirected g); intros u v (s & Hs & _); simpl in Hs; by rewrite lookup_empty in Hs).
  destruct (add_stars_spec (get_vertex_out_edges o g) vs (vertex_count g)
    (if is_undirected g then new_undirected else new_directed)) as (H1 & H2 & H3 & _ & H5 & H6);
    [done|unfold two64, u64_max in *; lia|destruct (is_undirected g); apply N.le_0_l| |].
  { intros v Hv. apply Hvs in Hv. split; [done|]. intros t Ht.
    apply out_edges_spec in Ht; [|done]. apply has_bound in Ht as [? ?]; done. }
  change (run (is_undirected g) _) with (add_stars (get_vertex_out_edges o g) vs
    (if is_undirected g then new_undirected else new_directed)).
  apply same_graph_intro; [done|done|rewrite H2; unfold is_undirected; by destruct (g_und g)| |].
  - apply N.le_antisymm; [done|]. destruct (N.eq_dec (vertex_count g) 0); [lia|].
    pose proof (H5 (vertex_count g - 1) ltac:(apply Hvs; lia)). lia.
  - intros u v. rewrite H6.
    destruct (out_edges_spec o g u Hr) as (_ & Hou & _).
    destruct (out_edges_spec o g v Hr) as (_ & Hov & _). rewrite Hou, Hov. split.
    + intros [H|[[_ H]|(Hu & _ & H)]]; [by apply Hh in H|done|].
      apply (gi_sym g Hr); [|done]. unfold is_undirected in Hu. by destruct (g_und g).
    + intros H. right. left. split; [|done]. apply Hvs.
      apply has_bound in H as [? ?]; done.
Qed.
Print Assumptions C96_from_out_edges.

(** The lists of incoming edges, taken for outgoing ones, give the graph with all edges
    turned round; an undirected graph stays as it is. *)
Theorem C96_transposed p o g vs : wf_platform p -> reach p g ->
  (forall v, v ∈ vs <-> v < vertex_count g) ->
  let g' := run (is_undirected g)
    ((fun v => OpAddVertex v (Some (get_vertex_in_edges o g v))) <$> vs) in
  is_undirected g' = is_undirected g /\ vertex_count g' = vertex_count g /\
  edge_count g' = edge_count g /\
  (forall u v, does_edge_exist g' u v = does_edge_exist g v u) /\
  (is_undirected g = true -> same_graph g' g).
Proof.
  intros Hp Hr Hvs g'. apply reach_inv in Hr; [|done].
  pose proof (vc_u64 g Hr) as Hn.
  assert (graph_inv (if is_undirected g then new_undirected else new_directed)) as Hi0
    by (destruct (is_undirected g); apply graph_inv_new).
  assert (forall u v, ~ has (if is_undirected g then new_undirected else new_directed) u v) as Hh
    by (destruct (is_undirected g); intros u v (s & Hs & _); simpl in Hs; by rewrite lookup_empty in Hs).
  destruct (add_stars_spec (get_vertex_in_edges o g) vs (vertex_count g)
    (if is_undirected g then new_undirected else new_directed)) as (H1 & H2 & H3 & _ & H5 & H6);
    [done|unfold two64, u64_max in *; lia|destruct (is_undirected g); apply N.le_0_l| |].
  { intros v Hv. apply Hvs in Hv. split; [done|]. intros t Ht.
    apply in_edges_spec in Ht; [|done]. apply has_bound in Ht as [? ?]; done. }
  change (add_stars (get_vertex_in_edges o g) vs
    (if is_undirected g then new_undirected else new_directed)) with g' in *.
  assert (is_undirected g' = is_undirected g) as Hund.
  { unfold is_undirected at 1. rewrite H2. by destruct (is_undirected g). }
  assert (vertex_count g' = vertex_count g) as Hvc.
  { apply N.le_antisymm; [done|]. destruct (N.eq_dec (vertex_count g) 0); [lia|].
    pose proof (H5 (vertex_count g - 1) ltac:(apply Hvs; lia)). lia. }
  assert (forall u v, does_edge_exist g' u v = does_edge_exist g v u) as Hall.
  { intros u v. apply eq_true_iff_eq. rewrite !exists_has, H6.
    destruct (in_edges_spec o g u Hr) as (_ & Hou & _).
    destruct (in_edges_spec o g v Hr) as (_ & Hov & _). rewrite Hou, Hov. split.
    - intros [H|[[_ H]|(Hu & _ & H)]]; [by apply Hh in H|done|].
      apply (gi_sym g Hr); [|done]. unfold is_undirected in Hu. by destruct (g_und g).
    - intros H. right. left. split; [|done]. apply Hvs.
      apply has_bound in H as [? ?]; done. }
  assert (edge_count g' = edge_count g) as Hec.
  { pose proof (has_card_edges g) as Hk. rewrite (edge_count_card g _ Hr Hk).
    apply (edge_count_card g' _ H1). revert Hk.
    apply (PropPipeline.has_card_map _ _ (fun x => (x.2, x.1))).
    - intros [u v] H. simpl. by rewrite Hall.
    - intros [u v] H. exists (v, u). by rewrite <- Hall.
    - intros [u v] [u' v'] _ _ [= -> ->]. done. }
  split_and!; [done..|].
  intros Hu. split_and!; [done..|]. intros u v. rewrite Hall.
  apply eq_true_iff_eq. rewrite !exists_has. split; by apply (gi_sym g Hr).
Qed.
Print Assumptions C96_transposed.

(** A matrix can be rebuilt from its entries, in any order, on a matrix of the same dimension,
    if none of them is zero. *)
Theorem C96_matrix T (num : numeric T) p ops (m : sq T) o items : wf_platform p ->
  mrun p num ops = Ret m -> Permutation items (sq_items o m) ->
  (forall e c r, (e, c, r) ∈ items -> num_eq num e (num_zero num) = false) ->
  exists m', mrun p num ((fun '(e, c, r) => MSet e c r) <$> items) = Ret m' /\
    same_matrix num (sq_set_minimum_dimension m' (sq_dimension m)) m.
Proof.
  intros Hp Hm Hperm Hnz. apply mrun_inv in Hm as Hi.
  set (f := fun (acc : sq T) '(e, c, r) => sq_set_entry num acc e c r).
  assert (forall acc, ofold (mstep p num) ((fun '(e, c, r) => MSet e c r) <$> items) acc =
    Ret (fold_left f items acc)) as Hfold.
  { clear. induction items as [|[[e c] r] items IH]; intros acc; [done|]. apply IH. }
  eexists. split; [apply Hfold|].
  assert (forall e c r, (e, c, r) ∈ items <-> sq_val m c r = Some e) as Hin.
  { intros e c r. rewrite Hperm. by apply elem_of_sq_items. }
  assert (forall e c r, (e, c, r) ∈ items -> c < sq_dim m /\ r < sq_dim m) as Hb.
  { intros e c r H. apply (si_bound m Hi). exists e. by apply Hin. }
  pose proof (si_dim m Hi) as Hd.
  assert (forall l acc, sq_inv acc -> (forall x, x ∈ l -> x ∈ items) -> sq_dim acc <= sq_dim m ->
    (forall c r e, sq_val acc c r = Some e -> sq_val m c r = Some e) ->
    sq_inv (fold_left f l acc) /\ sq_dim (fold_left f l acc) <= sq_dim m /\
    (forall c r e, sq_val (fold_left f l acc) c r = Some e -> sq_val m c r = Some e) /\
    (forall c r, is_Some (sq_val acc c r) -> is_Some (sq_val (fold_left f l acc) c r)) /\
    forall e c r, (e, c, r) ∈ l -> is_Some (sq_val (fold_left f l acc) c r)) as Hgen.
  { induction l as [|[[e c] r] l IH]; intros acc Ha Hl Hda Hva.
    { simpl. split_and!; [done..|]. intros e c r H. by apply elem_of_nil in H. }
    simpl. pose proof (Hl (e, c, r) ltac:(left)) as Hecr.
    assert (both_valid c r = true) as Hbv.
    { apply Hb in Hecr. unfold both_valid, two64, u64_max in *. apply andb_true_iff.
      rewrite !N.ltb_lt. lia. }
    assert (forall c' r', sq_val (sq_set_entry num acc e c r) c' r' =
      if bool_decide (c' = c /\ r' = r) then Some e else sq_val acc c' r') as Hset.
    { intros c' r'. by rewrite sq_val_set, Hbv, (Hnz e c r Hecr). }
    destruct (IH (sq_set_entry num acc e c r)) as (H1 & H2 & H3 & H4 & H5).
    - by apply sq_inv_set.
    - intros x Hx. apply Hl. by right.
    - rewrite sq_dim_set, Hbv. unfold dim_join. apply Hb in Hecr. lia.
    - intros c' r' e'. rewrite Hset. case_bool_decide as Hc; [|apply Hva].
      destruct Hc as [-> ->]. intros [= <-]. by apply Hin.
    - split_and!; [done..| |].
      + intros c' r' H. apply H4. rewrite Hset. by case_bool_decide.
      + intros e' c' r' [[= -> -> ->]|H]%elem_of_cons; [|by eapply H5].
        apply H4. rewrite Hset. rewrite bool_decide_true by done. done. }
  destruct (Hgen items sq_new) as (H1 & H2 & H3 & _ & H5);
    [apply sq_inv_new|done|simpl; lia|intros c r e; by rewrite sq_val_new|].
  assert (forall c r, sq_val (fold_left f items sq_new) c r = sq_val m c r) as Hval.
  { intros c r. destruct (sq_val m c r) as [e|] eqn:E.
    - destruct (H5 e c r) as [e' E']; [by apply Hin|].
      pose proof (H3 _ _ _ E') as E2. congruence.
    - destruct (sq_val (fold_left f items sq_new) c r) eqn:E'; [|done]. apply H3 in E'. congruence. }
  set (m1 := fold_left f items sq_new) in *. clearbody m1.
  set (m2 := sq_set_minimum_dimension m1 (sq_dimension m)).
  assert (sq_inv m2 /\ sq_dim m2 = sq_dim m /\ forall c r, sq_val m2 c r = sq_val m c r) as (J1 & J2 & J3).
  { unfold m2, sq_set_minimum_dimension, sq_dimension.
    destruct (N.ltb_spec (sq_dim m1) (sq_dim m)); [|split_and!; [done|lia|done]].
    split_and!; [by apply sq_inv_dim|done|]. intros c r. apply Hval. }
  split_and!; [done| | |].
  - unfold sq_entry_count. rewrite (si_cnt _ J1), (si_cnt _ Hi). do 2 f_equal.
    apply Permutation_length, NoDup_Permutation; [apply NoDup_sq_keys..|].
    intros [c r]. by rewrite !elem_of_sq_keys, J3.
  - intros c r. by rewrite !sq_get_val, J3.
  - intros o1 o2. apply NoDup_Permutation; [by apply NoDup_sq_items..|].
    intros [[e c] r]. rewrite !elem_of_sq_items by done. by rewrite J3.
Qed.
Print Assumptions C96_matrix.

(** A compressed graph can be rebuilt with the builder from its words, in any order.  Only the
    edge count can differ, when the one that was stored was not the number of edges. *)
Theorem C96_compressed p cg words k : wf_platform p -> creach p cg -> distinct_blocks words ->
  (forall w c r, (w, c, r) ∈ words <-> get_compressed_matrix_entry cg c r = w /\ w <> 0) ->
  has_card (fun '(u, v) => c_does_edge_exist cg u v = true) k ->
  let cg' := build (c_is_undirected cg) (c_vertex_count cg) (compression_level cg)
    ((fun '(w, c, r) => (w, c, r, None)) <$> words) in
  c_edge_count cg' = N.min k u64_max /\
  sq_dimension (cg_mat cg') = sq_dimension (cg_mat cg) /\
  (forall c r, get_compressed_matrix_entry cg' c r = get_compressed_matrix_entry cg c r) /\
  (c_edge_count cg = N.min k u64_max -> same_cgraph cg' cg).
Proof.
  intros Hp Hr Hd Hw Hk cg'. apply creach_inv in Hr as Hi; [|done].
  set (calls := (fun '(w, c, r) => (w, c, r, None)) <$> words) in *.
  assert (forall w c r, (w, c, r) ∈ words -> c < sq_dim (cg_mat cg) /\ r < sq_dim (cg_mat cg)) as Hb.
  { intros w c r [<- Hne]%Hw. apply (si_bound _ (ci_sq _ Hi)).
    unfold get_compressed_matrix_entry in Hne. rewrite sq_get_val in Hne.
    by destruct (sq_val (cg_mat cg) c r). }
  assert (sq_dim (cg_mat cg) < u64_max) as Hdim.
  { rewrite (ci_dim _ Hi), <- blocks_of_dim. unfold blocks_of. pose proof (ci_n _ Hi).
    unfold two64, u64_max in *.
    assert ((cg_vertex_count cg + 7) / 8 < 18446744073709551615); [|lia].
    apply N.div_lt_upper_bound; lia. }
  assert (forall w c r, (w, c, r) ∈ words -> 0 < w < two64 /\ c < u64_max /\ r < u64_max) as Hrange.
  { intros w c r H. pose proof (Hb w c r H). apply Hw in H as [<- Hne].
    unfold get_compressed_matrix_entry in *. rewrite sq_get_val in *.
    destruct (sq_val (cg_mat cg) c r) eqn:E; [|done]. apply (ci_word _ Hi) in E. simpl. lia. }
  assert (forall e c r h, (e, c, r, h) ∈ calls -> is_u64 e) as Hu64.
  { intros e c r h ([[w c'] r'] & [= -> -> -> ->] & H)%elem_of_list_fmap. by apply Hrange in H as [[_ ?] _]. }
  destruct (C49_builder (c_is_undirected cg) (c_vertex_count cg) (compression_level cg) calls (ci_n _ Hi) Hu64)
    as (B1 & B2 & B3 & B4 & B5 & _ & _). fold cg' in B1, B2, B3, B4, B5.
  assert (forall c r, get_compressed_matrix_entry cg' c r = get_compressed_matrix_entry cg c r) as Hent.
  { intros c r.
    destruct (C49_builder_distinct (c_is_undirected cg) (c_vertex_count cg) (compression_level cg) words c r
      (get_compressed_matrix_entry cg c r) (ci_n _ Hi) Hd Hrange) as (D1 & D2 & _).
    fold calls in D1, D2. fold cg' in D1, D2.
    destruct (N.eq_dec (get_compressed_matrix_entry cg c r) 0) as [E|E].
    - rewrite E. apply D2. intros w [<- Hne]%Hw. done.
    - apply D1, Hw. done. }
  assert (forall u v, c_does_edge_exist cg' u v = c_does_edge_exist cg u v) as Hedge.
  { intros u v. rewrite !c_exists_bit. by rewrite Hent. }
  assert (c_edge_count cg' = N.min k u64_max) as Hec.
  { destruct (C49_builder_distinct (c_is_undirected cg) (c_vertex_count cg) (compression_level cg) words 0 0 0
      (ci_n _ Hi) Hd Hrange) as (_ & _ & D3 & D4). fold calls in D3, D4. fold cg' in D3, D4.
    rewrite D3. f_equal. eapply has_card_unique; [exact D4|].
    eapply has_card_ext; [|exact Hk]. intros [u v]. by rewrite Hedge. }
  split_and!; [done| |done|].
  - rewrite B5. unfold built_dim, sq_dimension. rewrite (ci_dim _ Hi), <- blocks_of_dim.
    change (c_vertex_count cg) with (cg_vertex_count cg).
    assert (forall w c r, (w, c, r) ∈ words -> c < blocks_of (cg_vertex_count cg) /\
      r < blocks_of (cg_vertex_count cg)) as Hb'.
    { intros w c r H. rewrite blocks_of_dim, <- (ci_dim _ Hi). by eapply Hb. }
    unfold calls. generalize (blocks_of (cg_vertex_count cg)) as d, Hb'. clear.
    induction words as [|[[w c] r] l IH]; intros d Hb; [done|].
    rewrite fmap_cons. cbn [fold_left]. pose proof (Hb w c r ltac:(left)).
    replace (if valid_id c && valid_id r then N.max d (N.max (c + 1) (r + 1)) else d) with d
      by (destruct (valid_id c && valid_id r); lia).
    apply IH. intros w' c' r' H'. eapply Hb. by right.
  - intros E. split_and!; [done|done|by rewrite E| |done|done].
    rewrite B3. pose proof (ci_level _ Hi). unfold compression_level in *. lia.
Qed.
Print Assumptions C96_compressed.

Example C96_case :
  same_graph (run false ((fun v => OpAddVertex v (Some (get_vertex_out_edges plain_order sample_dir v))) <$> range (vertex_count sample_dir))) sample_dir /\
  vertex_count sample_dir <> 0 /\ edge_count sample_dir = 4.
Proof.
  split; [|split; done]. apply (C96_from_out_edges plat64 plain_order sample_dir); [apply plat64_wf|apply sample_dir_reach|].
  intros v. apply elem_of_range.
Qed.

(** The edge counts of the compressed graph of C26_edge_count_refuted and of the rebuilt one. *)
Example C96_counts : exists cg,
  cgraph_try_from plat64 (cgraph_file false 1 2 2 8 1 [(1, 0, 0); (1, 0, 0)]) = Ret (Ok cg) /\
  c_edge_count cg = 2 /\ sq_items plain_order (cg_mat cg) = [(1, 0, 0)] /\
  c_edge_count (build false 8 1 [(1, 0, 0, None)]) = 1.
Proof. apply ret_ok_ex. by vm_compute. Qed.

(** A zero that is stored is not listed back: incrementing -1 leaves a zero in the matrix. *)
Example C96_stored_zero : exists m, mrun plat64 i64_numeric [MSet (-1)%Z 0 0; MInc 0 0] = Ret m /\
  sq_items plain_order m = [(0%Z, 0, 0)] /\ sq_entry_count m = 1 /\
  exists m', mrun plat64 i64_numeric [MSet 0%Z 0 0] = Ret m' /\ sq_entry_count m' = 0.
Proof. apply ret_ex. vm_compute. repeat split. eexists. repeat split. Qed.

