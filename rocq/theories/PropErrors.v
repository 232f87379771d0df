(** Properties C70 and C71: what the errors say. *)
From Coq Require Import ZArith Ascii String SpecFloat.
From Verif Require Import Base HashIter F64 Numeric Adj Sq Standard Compressed Error Spec MatSpec
  TextSpec ErrSpec Api AdjProofs SqProofs GraphProofs CompressProofs ApproxProofs TextProofs
  SqTextProofs NumTextProofs SqShowProofs FloatTextProofs SqExactProofs MatrixProofs
  CGraphCodecProofs CodecMoreProofs ErrProofs PropCommon PropGraph PropText.
Local Arguments N.mul : simpl never.
Local Arguments N.add : simpl never.
Local Arguments N.pow : simpl never.

(** ** C70: a decoder reports the first defect of the bytes, and nothing else. *)
Theorem C70_graph_decoding p bytes : wf_platform p -> is_slice p bytes ->
  exists res, graph_try_from p bytes = Ret res /\ reported (graph_defects p bytes) res.
Proof. apply graph_reported. Qed.
Print Assumptions C70_graph_decoding.

Theorem C70_cgraph_decoding p bytes : wf_platform p -> is_slice p bytes ->
  exists res, cgraph_try_from p bytes = Ret res /\ reported (cgraph_defects p bytes) res.
Proof. apply cgraph_reported. Qed.
Print Assumptions C70_cgraph_decoding.

(** A report is never ambiguous. *)
Theorem C70_one_report defects res res' : reports defects res -> reports defects res' -> res = res'.
Proof. apply reports_unique. Qed.
Print Assumptions C70_one_report.

(** Every message of the decoders, except the one for 2^64 or more edges in a compressed
    graph. *)
Definition graph_messages : list (list N * string) :=
  [([], "Slice is too short to contain Graph header"%string);
   (be64 0 ++ be64 0 ++ be64 0 ++ [2; 1], "Incorrect magic number"%string);
   ([0x7a; 0xe7; 0x1f; 0xfd; 0; 0; 0; 2] ++ be64 0 ++ be64 1 ++ [2; 1], "Unrecognized Graph version"%string);
   ([0x7a; 0xe7; 0x1f; 0xfd; 0; 0; 0; 1] ++ be64 0 ++ be64 1 ++ [2; 1], "Invalid graph direction flag"%string);
   ([0x7a; 0xe7; 0x1f; 0xfd; 0; 0; 0; 1] ++ be64 0 ++ be64 1 ++ [1; 1], "Weighted graphs are not supported"%string);
   (graph_file true 0 1 [], "Graph with zero dimension cannot contain edges"%string);
   (graph_file true 1 (2 ^ 60) [], "Graph byte size overflowed"%string);
   (graph_file true 1 1 [], "Slice is too short to contain all expected graph edges"%string);
   (graph_file true 1 1 [(1, 0); (1, 0)], "Slice is too long represent the expected graph edges"%string);
   (graph_file true 1 1 [(1, 0)], "Graph edge exceeds matrix dimension"%string);
   (graph_file true 2 1 [(1, 0)], "Graph edge count does not match header"%string)].

Definition cgraph_messages : list (list N * string) :=
  let hd v := [0x71; 0xff; 0x7a; 0xed; 0; 0; 0; v] in
  let body := be64 5 ++ be64 1 ++ be64 0 ++ be64 1 in
  [([], "Slice is too short to contain CompressedGraph header"%string);
   (be64 0 ++ body ++ [2; 0], "Incorrect magic number"%string);
   (hd 1 ++ body ++ [2; 0], "Outdated CompressedGraph version"%string);
   (hd 3 ++ body ++ [2; 0], "Unrecognized CompressedGraph version"%string);
   (hd 2 ++ body ++ [2; 0], "Invalid compressed graph direction flag"%string);
   (hd 2 ++ body ++ [1; 0], "Invalid compression level"%string);
   (hd 2 ++ body ++ [1; 65], "Invalid compression level"%string);
   (hd 2 ++ body ++ [1; 64], "CompressedGraph matrix dimension does not match vertex count"%string);
   (cgraph_file true 1 (2 ^ 60) 0 8 1 [], "CompressedGraph byte size overflowed"%string);
   (cgraph_file true 1 1 0 8 1 [], "Slice is too short to contain all expected graph edges"%string);
   (cgraph_file true 1 0 0 8 1 [(0, 1, 1)], "Slice is too long represent the expected graph edges"%string);
   (cgraph_file true 1 1 0 8 1 [(0, 1, 1)], "CompressedGraph entry cannot be zero"%string);
   (cgraph_file true 1 1 0 7 1 [(128, 1, 0)], "CompressedGraph entry exceeds matrix dimension"%string);
   (cgraph_file true 1 1 0 7 1 [(128, 0, 0)],
    "CompressedGraph entry contains edge outside vertex count"%string);
   (cgraph_file true 1 2 0 7 1 [(1, 0, 0); (0, 0, 0)], "CompressedGraph entry cannot be zero"%string);
   (cgraph_file true 1 1 0 8 1 [(128, 0, 0)], "CompressedGraph edge count does not match header"%string)].

Example C70_case :
  Forall (fun '(bytes, msg) => graph_try_from plat64 bytes = Ret (Err (InvalidFormat msg))) graph_messages /\
  Forall (fun '(bytes, msg) => cgraph_try_from plat64 bytes = Ret (Err (InvalidFormat msg))) cgraph_messages.
Proof. split; repeat (constructor; [by vm_compute|]); constructor. Qed.

(** ** C71: writing fails for want of memory or address space only, and says which. *)
Theorem C71_graph_bytes p o g k : wf_platform p -> reach p g ->
  has_card (fun '(u, v) => does_edge_exist g u v = true) k -> k < two64 ->
  overflow_reported (file_defects p (26 + 16 * k) "Graph byte size overflowed"
    "Unable to allocate graph bytes") (graph_to_bytes p o g).
Proof.
  intros Hp Hr Hk Hk64. apply reach_inv in Hr; [|done].
  assert (edge_count g = k) as <- by (rewrite (edge_count_card g k), N.mod_small; done).
  by apply graph_to_bytes_reported.
Qed.
Print Assumptions C71_graph_bytes.

Theorem C71_cgraph_bytes p o cg k : wf_platform p -> creach p cg ->
  has_card (fun '(c, r) => get_compressed_matrix_entry cg c r <> 0) k -> k < two64 ->
  overflow_reported (file_defects p (42 + 24 * k) "CompressedGraph byte size overflowed"
    "Unable to allocate compressed graph bytes") (cgraph_to_bytes p o cg).
Proof.
  intros Hp Hr Hk Hk64. pose proof (creach_inv p cg Hp Hr) as Hi.
  rewrite <- (cnt_card cg k (ci_sq _ Hi) (fun c r w H => proj1 (ci_word _ Hi c r w H)) Hk Hk64).
  by apply cgraph_to_bytes_reported.
Qed.
Print Assumptions C71_cgraph_bytes.

Theorem C71_graph_text p g : wf_platform p -> reach p g ->
  overflow_reported (text_defects p (vertex_count g) 1) (matrix_string p g).
Proof. intros _ _. apply adj_string_reported. Qed.
Print Assumptions C71_graph_text.

(** Square matrices.  The width of the cells depends on the values only; printing floats and
    i128 with many decimals may panic, but not for want of memory. *)
Theorem C71_matrix_text p0 o d :
  (forall bits ops m, 1 <= bits <= 128 -> unsigned_ops bits ops ->
     mrun p0 (uint_numeric bits) ops = Ret m ->
     exists w, forall p, wf_platform p -> d + 44 <= usize_max p ->
       text_reported p (sq_dim m) w (sq_to_string_with_precision p (uint_numeric bits) o m d)) /\
  (forall bits ops m, (2 <= bits <= 128)%Z -> signed_ops bits ops ->
     mrun p0 (sint_numeric bits false) ops = Ret m ->
     exists w, forall p, wf_platform p -> d + 44 <= usize_max p ->
       text_reported p (sq_dim m) w (sq_to_string_with_precision p (sint_numeric bits false) o m d)) /\
  (forall ops m, signed_ops 128 ops -> mrun p0 i128_numeric ops = Ret m -> d + 44 <= 65535 ->
     exists w, forall p, wf_platform p ->
       text_reported p (sq_dim m) w (sq_to_string_with_precision p i128_numeric o m d)) /\
  (forall o' ops m, mrun p0 f64_numeric ops = Ret m ->
     (forall v c r, (v, c, r) ∈ sq_items o' m -> is_f64 v = true) ->
     exists w, forall p, wf_platform p -> d + 44 <= usize_max p ->
       text_reported p (sq_dim m) w (sq_to_string_with_precision p f64_numeric o m d)) /\
  (forall o' ops m, mrun p0 f32_numeric ops = Ret m ->
     (forall v c r, (v, c, r) ∈ sq_items o' m -> valid_binary 24 128 v = true) ->
     exists w, forall p, wf_platform p -> d + 44 <= usize_max p ->
       text_reported p (sq_dim m) w (sq_to_string_with_precision p f32_numeric o m d)).
Proof.
  split_and!.
  - intros bits ops m Hb Hops Hm. assert (sq_inv m) as Hinv by by eapply mrun_inv.
    apply (int_reported _ Z.of_N (uint_type bits ltac:(lia))); [done|done|].
    eapply unsigned_values; [|done..]. lia.
  - intros bits ops m Hb Hops Hm. assert (sq_inv m) as Hinv by by eapply mrun_inv.
    apply (int_reported _ (fun z => z) (sint_type bits false ltac:(lia))); [done|done|].
    eapply signed_values; [|done..]. lia.
  - intros ops m Hops Hm Hd. assert (sq_inv m) as Hinv by by eapply mrun_inv.
    apply i128_reported; [done|done|]. by eapply (signed_values p0 128 true).
  - intros o' ops m Hm Hval. assert (sq_inv m) as Hinv by by eapply mrun_inv.
    apply (float_reported f64_numeric 53 1024 f64_type); [by vm_compute|by vm_compute|done|].
    intros c r v Hv. apply (elem_of_sq_items o') in Hv; [|done]. by eapply Hval.
  - intros o' ops m Hm Hval. assert (sq_inv m) as Hinv by by eapply mrun_inv.
    apply (float_reported f32_numeric 24 128 f32_type); [by vm_compute|by vm_compute|done|].
    intros c r v Hv. apply (elem_of_sq_items o') in Hv; [|done]. by eapply Hval.
Qed.
Print Assumptions C71_matrix_text.

(** An adjacency matrix that is not symmetric; and how an error is shown. *)
Theorem C71_asymmetric o m : adj_reach m ->
  ~ (forall c r, adj_get_entry m c r = adj_get_entry m r c) ->
  undirected_from o m =
    Err (InvalidFormat "The adjacency matrix does not represent an undirected graph").
Proof.
  intros Hm Hns. destruct (C09_from_matrix o m Hm) as (_ & H & _). destruct (H Hns) as [msg E].
  revert E. unfold undirected_from. by destruct (forallb _ _).
Qed.
Print Assumptions C71_asymmetric.

Theorem C71_display msg :
  let shown e := error_display e = String.append "GraphRoxError: " msg /\ error_into_inner e = msg in
  shown (InvalidFormat msg) /\ shown (InvalidInput msg) /\ shown (CapacityOverflow msg).
Proof. done. Qed.
Print Assumptions C71_display.

Definition no_memory : platform := Platform (2 ^ 64 - 1) true (fun n => n <=? 30).
Example C71_case :
  graph_to_bytes no_memory plain_order sample_dir =
    Err (CapacityOverflow "Unable to allocate graph bytes") /\
  cgraph_to_bytes no_memory plain_order (build true 9 70 []) =
    Err (CapacityOverflow "Unable to allocate compressed graph bytes") /\
  matrix_string no_memory sample_dir = Err (CapacityOverflow "Unable to allocate matrix string") /\
  matrix_string plat16 (add_vertex new_directed 70000 None) =
    Err (CapacityOverflow "Matrix dimension does not fit in platform usize") /\
  matrix_string plat16 (add_vertex new_directed 7000 None) =
    Err (CapacityOverflow "Matrix string size overflowed") /\
  (exists m, mrun plat64 u64_numeric [MSet 7 6999 0] = Ret m /\
     sq_to_string_with_precision plat16 u64_numeric plain_order m 0 =
       Ret (Err (CapacityOverflow "Matrix string size overflowed"))) /\
  (exists m, mrun plat64 u64_numeric [MSet 7 69999 0] = Ret m /\
     sq_to_string_with_precision plat16 u64_numeric plain_order m 0 =
       Ret (Err (CapacityOverflow "Matrix dimension does not fit in platform usize"))) /\
  (exists m, mrun plat64 u64_numeric [MSet 7 69 0] = Ret m /\
     sq_to_string_with_precision no_memory u64_numeric plain_order m 0 =
       Ret (Err (CapacityOverflow "Unable to allocate matrix string"))) /\
  undirected_from plain_order (adj_set_entry adj_new 1 0 2) =
    Err (InvalidFormat "The adjacency matrix does not represent an undirected graph") /\
  error_display (InvalidInput "x") = "GraphRoxError: x"%string.
Proof. split_and!; first [apply ret_ex; by vm_compute|by vm_compute]. Qed.
