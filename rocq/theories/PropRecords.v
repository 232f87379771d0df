(** Property C106: the order of the records in files and of the lists of the C interface. *)
From Coq Require Import ZArith Ascii String.
From Verif Require Import Base HashIter F64 Numeric Adj Sq Standard Compressed Spec MatSpec Api CApi CSpec
  HashIterProofs AdjProofs SqProofs GraphProofs CompressProofs GraphCodecProofs CGraphCodecProofs
  CodecMoreProofs ApproxProofs CApiProofs CHeapProofs PropCommon PropGraph PropMatrix PropCodec PropC PropIter.
Local Arguments N.mul : simpl never.
Local Arguments N.add : simpl never.
Local Arguments N.pow : simpl never.

(** The edges of a graph source by source, in the order of get_vertex_out_edges. *)
Definition edges_from (o : hash_order) (g : graph) (sources : list N) : list (N * N) :=
  sources ≫= (fun u => (u,.) <$> get_vertex_out_edges o g u).

(** [sources] is an order of the vertices with outgoing edges, the one the iterator follows. *)
Definition source_order (o : hash_order) (g : graph) (sources : list N) : Prop :=
  NoDup sources /\ (forall u, u ∈ sources <-> exists v, does_edge_exist g u v = true) /\
  forall n, next_calls n (graph_into_iter o g) = first_calls n (edges_from o g sources).

Lemma graph_items_order p o g : wf_platform p -> reach p g ->
  exists sources, source_order o g sources /\ graph_items o g = edges_from o g sources.
Proof.
  intros Hp Hr. apply reach_inv in Hr; [|done].
  destruct (adj_items_cols o (g_adj g) (gi_adj _ Hr)) as (cols & Hnd & Hin & Heq).
  exists cols. split; [|exact Heq]. split_and!; [done| |].
  - intros u. rewrite Hin. apply exist_proper. intros v. symmetry. apply exists_has.
  - intros n. rewrite next_calls_items. f_equal. exact Heq.
Qed.

(** ** C106 *)

(** The records of a graph's file are the edges in the order in which the iterator gives them. *)
Theorem C106_graph_file p o g bytes : wf_platform p -> reach p g -> graph_to_bytes p o g = Ok bytes ->
  exists sources, source_order o g sources /\
    bytes = graph_file (is_undirected g) (vertex_count g) (edge_count g) (edges_from o g sources).
Proof.
  intros Hp Hr Hb. destruct (graph_items_order p o g Hp Hr) as (sources & Hs & Heq).
  exists sources. split; [done|]. apply graph_to_bytes_file in Hb. rewrite <- Heq. exact Hb.
Qed.
Print Assumptions C106_graph_file.

(** The records of a compressed graph's file come column by column. *)
Theorem C106_compressed_file p o cg bytes : wf_platform p -> creach p cg ->
  cgraph_to_bytes p o cg = Ok bytes ->
  exists cols (rows : N -> list N) count,
    NoDup cols /\ (forall c, NoDup (rows c) /\ (c ∈ cols <-> rows c <> [])) /\
    (forall c r, r ∈ rows c <-> get_compressed_matrix_entry cg c r <> 0) /\
    let records : list (N * N * N) := cols ≫= (fun c : N =>
      (fun r : N => (get_compressed_matrix_entry cg c r, c, r)) <$> rows c) in
    count = N.of_nat (length records) mod 2 ^ 64 /\
    bytes = cgraph_file (c_is_undirected cg) (blocks_of (c_vertex_count cg)) count
      (c_edge_count cg) (c_vertex_count cg) (compression_level cg) records.
Proof.
  intros Hp Hr Hb. apply creach_inv in Hr; [|done].
  destruct (sq_items_cols u64_numeric o (cg_mat cg) (ci_sq _ Hr)) as (cols & rows & Hnd & Hc & Hin & Heq).
  exists cols, rows, (sq_cnt (cg_mat cg)). split_and!; [done|done| |].
  - intros c r. rewrite Hin, c_get_entry_val. split.
    + intros [w Hw]. rewrite Hw. simpl. by apply (ci_word _ Hr _ _ _ Hw).
    + destruct (sq_val (cg_mat cg) c r) as [w|]; [by exists w|done].
  - intros records. unfold records. fold (sq_get_entry u64_numeric (cg_mat cg)).
    change (get_compressed_matrix_entry cg) with (sq_get_entry u64_numeric (cg_mat cg)).
    rewrite <- Heq. split.
    + rewrite length_sq_items by apply Hr. apply (si_cnt _ (ci_sq _ Hr)).
    + apply cgraph_to_bytes_file in Hb. rewrite Hb.
      rewrite (ci_dim _ Hr), <- blocks_of_dim. done.
Qed.
Print Assumptions C106_compressed_file.

(** The edge list of the C interface has the order of the iterator; the list of the outgoing edges
    of a vertex is the part of it that belongs to the vertex. *)
Theorem C106_c_lists p e h a n g : wf_platform p -> wf_alloc_fn (ce_alloc e) -> a <> null ->
  size_param h n -> reach p g -> h !! a = Some (OGraph g) ->
  let o := ce_order1 e in
  exists sources, source_order o g sources /\
    let edges := edges_from o g sources in
    hands_out_list (wrote_size n (N.of_nat (length edges)) h) OEdges edges (cexec e (CEdgeList a n) h) /\
    forall u, let part := (filter (fun uv => uv.1 = u) edges).*2 in
      hands_out_list (wrote_size n (N.of_nat (length part)) h) OVertices part (cexec e (COutEdges a u n) h).
Proof.
  intros Hp Hal Ha Hn Hr Hg o. destruct (graph_items_order p o g Hp Hr) as (sources & Hs & Heq).
  exists sources. split; [done|]. intros edges.
  assert (forall k, wrote_size n k h !! a = Some (OGraph g)) as Hg'.
  { intros k. by apply wrote_size_ne. }
  assert (forall k, put_size n k h = Done tt (wrote_size n k h)) as P1.
  { intros k. by apply put_size_ok. }
  assert (forall k, put_size n k (wrote_size n 0 h) = Done tt (wrote_size n k h)) as P2.
  { intros k. rewrite put_size_ok by by apply size_param_write. by rewrite wrote_size_twice. }
  split.
  - cbn [cexec]. unfold gphrx_get_edge_list, edges. rewrite <- Heq.
    unfold cmap. unfold cbind at 1. unfold cbind at 1. rewrite P1, (on_graph_live _ _ _ _ _ Ha (Hg' 0)).
    unfold cbind. rewrite P2. by apply slice_hands.
  - intros u part. assert (part = get_vertex_out_edges o g u) as ->.
    { unfold part, edges, edges_from. destruct Hs as (Hnd & Hin & _).
      assert (forall l, NoDup l -> (filter (fun uv : N * N => uv.1 = u)
          (l ≫= (fun u => (u,.) <$> get_vertex_out_edges o g u))).*2 =
        if bool_decide (u ∈ l) then get_vertex_out_edges o g u else []) as Hl.
      { clear. intros l. induction l as [|w l IH]; intros Hnd; [done|].
        apply NoDup_cons in Hnd as [Hw Hnd].
        change ((w :: l) ≫= (fun u => (u,.) <$> get_vertex_out_edges o g u)) with
          (((w,.) <$> get_vertex_out_edges o g w) ++
           (l ≫= (fun u => (u,.) <$> get_vertex_out_edges o g u))).
        rewrite filter_app, fmap_app, (IH Hnd). clear IH.
        assert ((filter (fun uv : N * N => uv.1 = u) ((w,.) <$> get_vertex_out_edges o g w)).*2 =
          if bool_decide (w = u) then get_vertex_out_edges o g w else []) as ->.
        { generalize (get_vertex_out_edges o g w). intros vs. case_bool_decide as E.
          - induction vs as [|v vs IH]; [done|]. cbn [fmap list_fmap]. rewrite filter_cons_True by done.
            cbn [fmap list_fmap snd]. f_equal. exact IH.
          - induction vs as [|v vs IH]; [done|]. cbn [fmap list_fmap]. rewrite filter_cons_False by done.
            exact IH. }
        case_bool_decide as E; subst.
        - rewrite (bool_decide_false (u ∈ l)), (bool_decide_true (u ∈ u :: l)), app_nil_r by (done || left). done.
        - simpl. rewrite (bool_decide_ext (u ∈ w :: l) (u ∈ l)); [done|].
          rewrite elem_of_cons. naive_solver. }
      rewrite Hl by done. case_bool_decide as E; [done|].
      destruct (get_vertex_out_edges o g u) as [|v vs] eqn:Ev; [done|]. destruct E. apply Hin. exists v.
      destruct (C07_edge_lists_and_degrees p g o u Hp Hr) as (_ & H & _). apply H. rewrite Ev. left. }
    cbn [cexec]. unfold gphrx_get_vertex_out_edges_list.
    unfold cmap. unfold cbind at 1. unfold cbind at 1. rewrite P1, (on_graph_live _ _ _ _ _ Ha (Hg' 0)).
    unfold cbind. rewrite P2. by apply slice_hands.
Qed.
Print Assumptions C106_c_lists.

(** Files and lists of one graph in two orders. *)
Example C106_case :
  (forall o, o = plain_order \/ o = reversed_order -> exists bytes,
     graph_to_bytes plat64 o sample_dir = Ok bytes /\ length bytes = 90%nat) /\
  graph_to_bytes plat64 plain_order sample_dir <> graph_to_bytes plat64 reversed_order sample_dir /\
  match compress plat64 plain_order plain_order sample_dir 1 with
  | Ret cg => match cgraph_to_bytes plat64 plain_order cg with Ok _ => True | Err _ => False end
  | _ => False
  end.
Proof.
  split; [|split].
  - intros o [-> | ->]; eexists; vm_compute; split; reflexivity.
  - vm_compute. discriminate.
  - vm_compute. done.
Qed.
