(** Properties C50-C53, C56 and C57: the C interface. *)
From Coq Require Import ZArith Ascii String.
From Verif Require Import Base HashIter F64 Numeric Adj Sq Standard Compressed Spec MatSpec TextSpec
  Api CApi CSpec AdjProofs SqProofs GraphProofs CompressProofs GraphCodecProofs CGraphCodecProofs
  ApproxProofs CApiProofs CHeapProofs PoolTextProofs PropCommon PropGraph PropMatrix PropCodec
  PropText.
Local Arguments N.mul : simpl never.
Local Arguments N.add : simpl never.
Local Arguments N.pow : simpl never.

(** A bump allocator, for the examples. *)
Definition bump_alloc (h : cheap) : addr := fold_right N.max 15 (fst <$> map_to_list h) + 1.
Definition env64 : cenv := CEnv plat64 bump_alloc plain_order reversed_order.

Lemma bump_alloc_wf : wf_alloc_fn bump_alloc.
Proof.
  intros h. unfold bump_alloc, null. split; [lia|].
  destruct (h !! _) as [x|] eqn:E; [|done]. exfalso.
  apply elem_of_map_to_list in E. apply (elem_of_list_fmap_1 fst) in E. simpl in E.
  revert E. generalize (map_to_list h). intros l E.
  assert (forall a, a ∈ l.*1 -> a <= fold_right N.max 15 l.*1) as Htop.
  { clear E. induction (l.*1) as [|b k IH]; intros a Ha; [by apply elem_of_nil in Ha|].
    simpl. apply elem_of_cons in Ha as [->|Ha]; [lia|]. specialize (IH a Ha). lia. }
  apply Htop in E. lia.
Qed.

(** The value of a call that returns. *)
Definition value_of {A} (x : cresult A) : option A := match x with Done a _ => Some a | _ => None end.

Lemma done_ex {A} (x : cresult A) (P : A -> cheap -> Prop) :
  match x with Done v h => P v h | _ => False end -> exists v h, x = Done v h /\ P v h.
Proof. destruct x; [eauto|done..]. Qed.

(** ** C50 *)
Theorem C50_null_handles e c h : handle_of c = Some null -> size_param h (size_cell c) ->
  cexec e c h = Done (neutral c) (wrote_size (size_cell c) 0 h).
Proof. apply null_calls. Qed.
Print Assumptions C50_null_handles.

Example C50_null_case :
  cexec env64 (CCompress null 3) ∅ = Done (VPtr null) ∅ /\
  exists v h, cexec env64 (CEdgeList null 4) {[4 := OSizeCell 9]} = Done v h /\
    v = VPtr null /\ h !! 4 = Some (OSizeCell 0).
Proof. split; [done|]. apply done_ex. by vm_compute. Qed.

Lemma error_param_write h error n : error_param h error ->
  error_param (wrote_error error n h) error.
Proof.
  unfold wrote_error. destruct (N.eqb_spec error null); [by left|].
  right. exists n. apply lookup_insert.
Qed.

Lemma wrote_error_twice h error n k :
  wrote_error error n (wrote_error error k h) = wrote_error error n h.
Proof. unfold wrote_error. destruct (error =? null); [done|]. apply insert_insert. Qed.

Lemma put_error_ok h error n : error_param h error ->
  put_error error n h = Done tt (wrote_error error n h).
Proof. apply put_error_cell. Qed.

Lemma box_hands e x h : wf_alloc_fn (ce_alloc e) ->
  hands_out h x (cmap VPtr (box_new e x) h).
Proof. intros Hal. destruct (Hal h). exists (ce_alloc e h). done. Qed.

Lemma read_after_error h error n buffer size l :
  error_param h error -> h !! buffer = Some (OInputBytes l) \/ h !! buffer = Some (OBytes l) ->
  size <= N.of_nat (length l) ->
  read_bytes buffer size (wrote_error error n h) =
    Done (take (N.to_nat size) l) (wrote_error error n h).
Proof.
  intros He Hl Hs. unfold read_bytes.
  assert (wrote_error error n h !! buffer = h !! buffer) as ->.
  { unfold wrote_error. destruct (N.eqb_spec error null); [done|].
    destruct He as [?|[k He]]; [done|]. apply lookup_insert_ne. intros ->. destruct Hl; congruence. }
  destruct Hl as [-> | ->]; (destruct (N.leb_spec size (N.of_nat (length l))); [done|lia]).
Qed.

(** Both decoders: what they return, the error number and the heap, for every buffer. *)
Theorem C50_from_bytes e h buffer size error bytes :
  wf_platform (ce_platform e) -> wf_alloc_fn (ce_alloc e) -> error_param h error ->
  bytes_param h buffer size bytes -> is_slice (ce_platform e) bytes ->
  (exists r, graph_try_from (ce_platform e) bytes = Ret r /\
   match r with
   | Ok g => hands_out (wrote_error error 0 h) (OGraph g) (cexec e (CFromBytes buffer size error) h)
   | Err _ => cexec e (CFromBytes buffer size error) h = Done (VPtr null) (wrote_error error 1 h)
   end) /\
  (exists r, cgraph_try_from (ce_platform e) bytes = Ret r /\
   match r with
   | Ok g => hands_out (wrote_error error 0 h) (OCompressed g)
               (cexec e (CCompressedFromBytes buffer size error) h)
   | Err _ => cexec e (CCompressedFromBytes buffer size error) h =
       Done (VPtr null) (wrote_error error 1 h)
   end).
Proof.
  intros Hp Hal He Hb Hs.
  assert ((buffer =? null) && negb (size =? 0) = false /\
    (if size =? 0 then cret [] else read_bytes buffer size) (wrote_error error 0 h) =
      Done bytes (wrote_error error 0 h)) as [Hg Hread].
  { destruct Hb as [[-> ->]|(Hn & Hbn & l & Hl & Hle & ->)].
    - split; [apply andb_false_r|done].
    - destruct (N.eqb_spec size 0); [done|]. destruct (N.eqb_spec buffer null); [done|].
      split; [done|]. by apply read_after_error. }
  pose proof (error_param_write h error 0 He) as He'. split.
  - destruct (C18_graph_decoding _ bytes Hp Hs) as (r & Hr & _). exists r. split; [done|].
    cbn [cexec]. unfold gphrx_from_bytes, cmap, cbind. rewrite put_error_ok by done.
    rewrite Hg, Hread. unfold crust. rewrite Hr. destruct r as [g|err].
    + apply (box_hands e (OGraph g) _ Hal).
    + rewrite put_error_ok by done. by rewrite wrote_error_twice.
  - destruct (C32_cgraph_decoding _ bytes Hp Hs) as (r & Hr & _). exists r. split; [done|].
    cbn [cexec]. unfold gphrx_compressed_graph_from_bytes, cmap, cbind. rewrite put_error_ok by done.
    rewrite Hg, Hread. unfold crust. rewrite Hr. destruct r as [g|err].
    + apply (box_hands e (OCompressed g) _ Hal).
    + rewrite put_error_ok by done. by rewrite wrote_error_twice.
Qed.
Print Assumptions C50_from_bytes.

(** A null buffer with a length. *)
Theorem C50_from_null e h size error : error_param h error -> size <> 0 ->
  cexec e (CFromBytes null size error) h = Done (VPtr null) (wrote_error error 1 h) /\
  cexec e (CCompressedFromBytes null size error) h = Done (VPtr null) (wrote_error error 1 h).
Proof.
  intros He Hs. cbn [cexec].
  unfold gphrx_from_bytes, gphrx_compressed_graph_from_bytes, cmap, cbind.
  rewrite put_error_ok by done. destruct (N.eqb_spec size 0); [done|]. cbn [negb andb].
  change (null =? null) with true. cbn [andb].
  rewrite put_error_ok by by apply error_param_write. by rewrite wrote_error_twice.
Qed.
Print Assumptions C50_from_null.

Definition file_heap : cheap :=
  <[4 := OErrorCell 7]> {[5 := OInputBytes (graph_file false 3 1 [(0, 2)])]}.

Example C50_from_bytes_case :
  (exists v h, cexec env64 (CFromBytes 5 42 4) file_heap = Done v h /\
     v = VPtr 16 /\ h !! 4 = Some (OErrorCell 0) /\
     value_of (cexec env64 (CDoesEdgeExist 16 0 2) h) = Some (VNum 1)) /\
  (exists v h, cexec env64 (CFromBytes 5 41 4) file_heap = Done v h /\
     v = VPtr null /\ h !! 4 = Some (OErrorCell 1) /\ h !! 16 = None) /\
  (exists v h, cexec env64 (CCompressedFromBytes 5 42 null) file_heap = Done v h /\
     v = VPtr null /\ h !! 4 = Some (OErrorCell 7)).
Proof. split_and!; apply done_ex; vm_compute; repeat split. Qed.

(** ** C51 *)

(** One call changes nothing but its output parameters, the graph it mutates, the object it
    frees and the object it hands out, whose address was free. *)
Theorem C51_frame e c h v h' : wf_alloc_fn (ce_alloc e) -> cexec e c h = Done v h' ->
  (forall a x, h !! a = Some x -> a ∉ [size_cell c; error_cell c; frees c; mutates c] ->
     h' !! a = Some x) /\
  (forall a, h !! a = None -> h' !! a <> None -> v = VPtr a /\ a <> null) /\
  (forall a, h !! a <> None -> h' !! a = None -> a = frees c).
Proof.
  intros Hal H. destruct (call_effects e c h v h' Hal H) as [H1 H2 H3]. split_and!; [|done|done].
  intros a x Ha. rewrite !not_elem_of_cons. intros (? & ? & ? & ? & _).
  apply H1; [done| |done]. by intros [-> | [-> | ->]].
Qed.
Print Assumptions C51_frame.

(** Whole programs: an object survives, unchanged, every sequence of events none of which
    is about it. *)
Theorem C51_programs evs h vs h' a x :
  (forall e c, ECall e c ∈ evs -> wf_alloc_fn (ce_alloc e)) -> crun evs h = Done vs h' ->
  h !! a = Some x -> (forall ev, ev ∈ evs -> a ∉ touches ev) -> h' !! a = Some x.
Proof.
  intros Hal. apply run_frame. apply Forall_forall. intros ev Hev. destruct ev; [|done..].
  simpl. by eapply Hal.
Qed.
Print Assumptions C51_programs.

(** Duplicates are new objects equal to the original; whatever happens to one of the two
    afterwards, the other is as it was. *)
Theorem C51_duplicates e a x c h : wf_alloc_fn (ce_alloc e) -> a <> null -> h !! a = Some x ->
  (exists g, x = OGraph g /\ c = CDuplicate a) \/
  (exists g, x = OCompressed g /\ c = CCompressedDuplicate a) \/
  (exists m, x = OMatrix m /\ c = CMatrixDuplicate a) ->
  exists d h1, cexec e c h = Done (VPtr d) h1 /\ d <> a /\ h1 !! a = Some x /\ h1 !! d = Some x /\
  forall evs vs h2, (forall e c, ECall e c ∈ evs -> wf_alloc_fn (ce_alloc e)) ->
    crun evs h1 = Done vs h2 ->
    ((forall ev, ev ∈ evs -> d ∉ touches ev) -> h2 !! d = Some x) /\
    ((forall ev, ev ∈ evs -> a ∉ touches ev) -> h2 !! a = Some x).
Proof.
  intros Hal Ha Hx Hc. destruct (Hal h) as [Hn Hf].
  assert (cexec e c h = Done (VPtr (ce_alloc e h)) (<[ce_alloc e h := x]> h)) as Hex.
  { destruct (N.eqb_spec a null) as [?|E]; [done|]. apply N.eqb_neq in E.
    destruct Hc as [(g & -> & ->)|[(g & -> & ->)|(m & -> & ->)]]; cbn [cexec];
      unfold gphrx_duplicate, gphrx_compressed_graph_duplicate, gphrx_matrix_duplicate, cmap,
        on_graph, on_compressed, on_matrix, cbind, graph_ref, compressed_graph_ref, matrix_ref;
      by rewrite E, Hx. }
  exists (ce_alloc e h), (<[ce_alloc e h := x]> h).
  assert (ce_alloc e h <> a) as Hda by (intros E; rewrite <- E in Hx; congruence).
  assert (<[ce_alloc e h := x]> h !! a = Some x) as H1 by by rewrite lookup_insert_ne.
  assert (<[ce_alloc e h := x]> h !! ce_alloc e h = Some x) as H2 by apply lookup_insert.
  split_and!; [done..|]. intros evs vs h2 Hevs Hrun.
  split; intros Ht; eapply C51_programs; eauto.
Qed.
Print Assumptions C51_duplicates.

(** What calls through a handle observe is determined by the object behind it: the same
    result (a number, or the same new object), the same effect on the object. *)
Theorem C51_observations e c a h1 h2 : wf_alloc_fn (ce_alloc e) -> handle_of c = Some a ->
  size_cell c = null -> match c with CAddVertex _ _ ids _ => ids = null | _ => True end ->
  h1 !! a = h2 !! a ->
  match cexec e c h1, cexec e c h2 with
  | Done v h1', Done v' h2' =>
      new_object h1 h1' v = new_object h2 h2' v' /\
      match v, v' with VPtr b, VPtr b' => b = null <-> b' = null | _, _ => v = v' end /\
      h1' !! a = h2' !! a
  | Abort, Abort | UB, UB => True
  | _, _ => False
  end.
Proof. intros Hal Hh Hs Hids Hsame. exact (calls_local e c a h1 h2 Hal Hh Hs Hids Hsame). Qed.
Print Assumptions C51_observations.

(** Duplicate, compress and pool a graph, then change and free it: the others stay. *)
Example C51_case :
  exists vs h, crun [ECall env64 (CNew true); ECall env64 (CAddEdge 16 0 1); ECall env64 (CDuplicate 16);
          ECall env64 (CCompress 16 1); ECall env64 (CFindAvgPool 16 2);
          ECall env64 (CAddEdge 16 0 0); ECall env64 (CFreeGraph 16)] ∅ = Done vs h /\
    vs = [VPtr 16; VUnit; VPtr 17; VPtr 18; VPtr 19; VUnit; VUnit] /\
    value_of (cexec env64 (CEdgeCount 17) h) = Some (VNum 2) /\
    value_of (cexec env64 (CCompressedEdgeCount 18) h) = Some (VNum 2) /\
    value_of (cexec env64 (CMatrixGetEntry 19 0 0) h) = Some (VDouble (f64_div f64_one (f64_of_N 2))) /\
    value_of (cexec env64 (CEdgeCount 16) h) = None.
Proof. apply done_ex. vm_compute. repeat split. Qed.

(** ** C52 *)

Lemma wrote_size_ne h cell n a x : size_param h cell -> h !! a = Some x ->
  (forall k, x <> OSizeCell k) -> wrote_size cell n h !! a = Some x.
Proof.
  intros Hc Ha Hx. unfold wrote_size. destruct (N.eqb_spec cell null); [done|].
  destruct Hc as [?|[k Hk]]; [done|]. rewrite lookup_insert_ne; [done|].
  intros ->. rewrite Hk in Ha. injection Ha as <-. by destruct (Hx k).
Qed.

Lemma size_param_write h cell n : size_param h cell -> size_param (wrote_size cell n h) cell.
Proof.
  unfold wrote_size. destruct (N.eqb_spec cell null); [by left|].
  right. exists n. apply lookup_insert.
Qed.

Lemma wrote_size_twice h cell n k : wrote_size cell n (wrote_size cell k h) = wrote_size cell n h.
Proof. unfold wrote_size. destruct (cell =? null); [done|]. apply insert_insert. Qed.

Lemma put_size_ok h cell n : size_param h cell -> put_size cell n h = Done tt (wrote_size cell n h).
Proof. apply put_size_cell. Qed.

Lemma on_graph_live {A} a (z : A) f h g : a <> null -> h !! a = Some (OGraph g) ->
  on_graph a z f h = f g h.
Proof.
  intros Ha Hg. unfold on_graph, cbind, graph_ref. apply N.eqb_neq in Ha. by rewrite Ha, Hg.
Qed.
Lemma on_compressed_live {A} a (z : A) f h g : a <> null -> h !! a = Some (OCompressed g) ->
  on_compressed a z f h = f g h.
Proof.
  intros Ha Hg. unfold on_compressed, cbind, compressed_graph_ref. apply N.eqb_neq in Ha.
  by rewrite Ha, Hg.
Qed.
Lemma on_matrix_live {A} a (z : A) f h m : a <> null -> h !! a = Some (OMatrix m) ->
  on_matrix a z f h = f m h.
Proof.
  intros Ha Hg. unfold on_matrix, cbind, matrix_ref. apply N.eqb_neq in Ha. by rewrite Ha, Hg.
Qed.

(** Queries about a graph. *)
Theorem C52_graph_queries e h a g : a <> null -> h !! a = Some (OGraph g) ->
  cexec e (CIsUndirected a) h = Done (VNum (if is_undirected g then 1 else 0)) h /\
  cexec e (CVertexCount a) h = Done (VNum (vertex_count g)) h /\
  cexec e (CEdgeCount a) h = Done (VNum (edge_count g)) h /\
  (forall u v, cexec e (CDoesEdgeExist a u v) h =
     Done (VNum (if does_edge_exist g u v then 1 else 0)) h) /\
  (forall v, cexec e (CInDegree a v) h = Done (VNum (get_vertex_in_degree (ce_order1 e) g v)) h) /\
  (forall v, cexec e (COutDegree a v) h = Done (VNum (get_vertex_out_degree (ce_order1 e) g v)) h).
Proof.
  intros Ha Hg. cbn [cexec]. unfold gphrx_is_undirected, gphrx_vertex_count, gphrx_edge_count,
    gphrx_does_edge_exist, gphrx_get_vertex_in_degree, gphrx_get_vertex_out_degree, cmap, cbind.
  split_and!; intros; by rewrite (on_graph_live _ _ _ _ _ Ha Hg).
Qed.
Print Assumptions C52_graph_queries.

(** Changes: the graph behind the handle is replaced by the changed one, nothing else
    happens. *)
Theorem C52_graph_changes e h a g : a <> null -> h !! a = Some (OGraph g) ->
  (forall u v, cexec e (CAddEdge a u v) h = Done VUnit (<[a := OGraph (add_edge g u v)]> h)) /\
  (forall u v, cexec e (CDeleteEdge a u v) h = Done VUnit (<[a := OGraph (delete_edge g u v)]> h)) /\
  (forall v ids, cexec e (CAddVertex a v ids 0) h = Done VUnit (<[a := OGraph (add_vertex g v None)]> h)) /\
  (forall v ids n l, n <> 0 -> ids <> null ->
     h !! ids = Some (OInputIds l) \/ h !! ids = Some (OVertices l) -> n <= N.of_nat (length l) ->
     cexec e (CAddVertex a v ids n) h =
       Done VUnit (<[a := OGraph (add_vertex g v (Some (take (N.to_nat n) l)))]> h)) /\
  (forall v n, n <> 0 -> cexec e (CAddVertex a v null n) h = Done VUnit h).
Proof.
  intros Ha Hg. cbn [cexec]. unfold gphrx_add_edge, gphrx_delete_edge, gphrx_add_vertex,
    v_unit, cmap, cbind.
  split_and!; intros; rewrite (on_graph_live _ _ _ _ _ Ha Hg).
  - done.
  - done.
  - by rewrite andb_false_r.
  - apply N.eqb_neq in H. apply N.eqb_neq in H0. rewrite H, H0. cbn [negb andb].
    unfold read_ids. apply N.leb_le in H2. destruct H1 as [-> | ->]; by rewrite H2.
  - apply N.eqb_neq in H. by rewrite H.
Qed.
Print Assumptions C52_graph_changes.

(** Functions that make a graph, compressed graph or matrix. *)
Theorem C52_makers e h : wf_alloc_fn (ce_alloc e) ->
  let p := ce_platform e in
  hands_out h (OGraph new_undirected) (cexec e (CNew true) h) /\
  hands_out h (OGraph new_directed) (cexec e (CNew false) h) /\
  (forall a g, a <> null -> h !! a = Some (OGraph g) ->
     hands_out h (OGraph g) (cexec e (CDuplicate a) h) /\
     (forall b, makes h OMatrix (find_avg_pool_matrix p (ce_order1 e) g b) (cexec e (CFindAvgPool a b) h)) /\
     (forall b t, makes h OGraph (approximate p (ce_order1 e) (ce_order2 e) g b t)
        (cexec e (CApproximate a b t) h)) /\
     (forall l, makes h OCompressed (compress p (ce_order1 e) (ce_order2 e) g l)
        (cexec e (CCompress a l) h))) /\
  (forall a cg, a <> null -> h !! a = Some (OCompressed cg) ->
     hands_out h (OCompressed cg) (cexec e (CCompressedDuplicate a) h) /\
     makes h OGraph (decompress p (ce_order1 e) cg) (cexec e (CDecompress a) h)) /\
  (forall a m, a <> null -> h !! a = Some (OMatrix m) ->
     hands_out h (OMatrix m) (cexec e (CMatrixDuplicate a) h)).
Proof.
  intros Hal p. split_and!.
  - by apply (box_hands e).
  - by apply (box_hands e).
  - intros a g Ha Hg. cbn [cexec]. unfold gphrx_duplicate, gphrx_find_avg_pool_matrix,
      gphrx_approximate, gphrx_compress.
    split_and!; intros; unfold cmap; unfold cbind at 1; rewrite (on_graph_live _ _ _ _ _ Ha Hg).
    + apply (box_hands e (OGraph g) h Hal).
    + unfold cbind, crust, makes, p.
      destruct (find_avg_pool_matrix _ _ _ _) as [m| |]; [|done..]. apply (box_hands e (OMatrix m) h Hal).
    + unfold cbind, crust, makes, p.
      destruct (approximate _ _ _ _ _ _) as [m| |]; [|done..]. apply (box_hands e (OGraph m) h Hal).
    + unfold cbind, crust, makes, p.
      destruct (compress _ _ _ _ _) as [m| |]; [|done..]. apply (box_hands e (OCompressed m) h Hal).
  - intros a g Ha Hg. cbn [cexec]. unfold gphrx_compressed_graph_duplicate, gphrx_decompress.
    split; unfold cmap; unfold cbind at 1; rewrite (on_compressed_live _ _ _ _ _ Ha Hg).
    + apply (box_hands e (OCompressed g) h Hal).
    + unfold cbind, crust, makes, p.
      destruct (decompress _ _ _) as [m| |]; [|done..]. apply (box_hands e (OGraph m) h Hal).
  - intros a g Ha Hg. cbn [cexec]. unfold gphrx_matrix_duplicate, cmap, cbind.
    rewrite (on_matrix_live _ _ _ _ _ Ha Hg). apply (box_hands e (OMatrix g) h Hal).
Qed.
Print Assumptions C52_makers.

Lemma slice_hands {A} e al (obj : list A -> cobj) l h : wf_alloc_fn (ce_alloc e) -> al <> null ->
  hands_out_list h obj l (cmap VPtr (box_slice e al obj l) h).
Proof.
  intros Hal Hn. destruct l; [by exists al|]. apply (box_hands e (obj _) h Hal).
Qed.

(** Lists: the array handed out contains exactly the edges (neighbours, stored entries),
    each once, and the output parameter receives its length. *)
Theorem C52_lists p e h a n : wf_platform p -> wf_alloc_fn (ce_alloc e) -> a <> null ->
  size_param h n ->
  (forall g, reach p g -> h !! a = Some (OGraph g) ->
     (exists l, NoDup l /\ (forall u v, (u, v) ∈ l <-> does_edge_exist g u v = true) /\
        hands_out_list (wrote_size n (N.of_nat (length l)) h) OEdges l (cexec e (CEdgeList a n) h)) /\
     (forall v, exists l, NoDup l /\ (forall u, u ∈ l <-> does_edge_exist g u v = true) /\
        hands_out_list (wrote_size n (N.of_nat (length l)) h) OVertices l
          (cexec e (CInEdges a v n) h)) /\
     (forall v, exists l, NoDup l /\ (forall w, w ∈ l <-> does_edge_exist g v w = true) /\
        hands_out_list (wrote_size n (N.of_nat (length l)) h) OVertices l
          (cexec e (COutEdges a v n) h))) /\
  (forall g o b m, reach p g -> find_avg_pool_matrix p o g b = Ret m -> h !! a = Some (OMatrix m) ->
     exists l, NoDup ((fun '(_, c, r) => (c, r)) <$> l : list (N * N)) /\
       l = sq_items (ce_order1 e) m /\
       (forall v c r, (v, c, r) ∈ l -> sq_get_entry f64_numeric m c r = v) /\
       (forall c r, (forall v, (v, c, r) ∉ l) -> sq_get_entry f64_numeric m c r = f64_zero) /\
       hands_out_list (wrote_size n (N.of_nat (length l)) h) OEntries l
         (cexec e (CMatrixEntries a n) h)).
Proof.
  intros Hp Hal Ha Hn. split.
  - intros g Hr Hg.
    assert (forall k, wrote_size n k h !! a = Some (OGraph g)) as Hg'.
    { intros k. by apply wrote_size_ne. }
    cbn [cexec]. unfold gphrx_get_edge_list, gphrx_get_vertex_in_edges_list,
      gphrx_get_vertex_out_edges_list.
    assert (forall k, put_size n k h = Done tt (wrote_size n k h)) as P1.
    { intros k. by apply put_size_ok. }
    assert (forall k, put_size n k (wrote_size n 0 h) = Done tt (wrote_size n k h)) as P2.
    { intros k. rewrite put_size_ok by by apply size_param_write. by rewrite wrote_size_twice. }
    pose proof (reach_inv p g Hp Hr) as Hi. split_and!.
    + exists (graph_items (ce_order1 e) g). split_and!.
      * apply NoDup_adj_items, Hi.
      * intros u v. rewrite exists_has. apply elem_of_adj_items, Hi.
      * unfold cmap. unfold cbind at 1. unfold cbind at 1. rewrite P1, (on_graph_live _ _ _ _ _ Ha (Hg' 0)).
        unfold cbind. rewrite P2. by apply slice_hands.
    + intros v. destruct (C07_edge_lists_and_degrees p g (ce_order1 e) v Hp Hr) as (_ & _ & _ & H1 & H2 & _).
      eexists. split_and!; [exact H1|exact H2|].
      unfold cmap. unfold cbind at 1. unfold cbind at 1. rewrite P1, (on_graph_live _ _ _ _ _ Ha (Hg' 0)).
      unfold cbind. rewrite P2. by apply slice_hands.
    + intros v. destruct (C07_edge_lists_and_degrees p g (ce_order1 e) v Hp Hr) as (H1 & H2 & _).
      eexists. split_and!; [exact H1|exact H2|].
      unfold cmap. unfold cbind at 1. unfold cbind at 1. rewrite P1, (on_graph_live _ _ _ _ _ Ha (Hg' 0)).
      unfold cbind. rewrite P2. by apply slice_hands.
  - intros g o b m Hr Hm Hg. assert (sq_inv m) as Hi.
    { eapply pool_inv; [|exact Hm]. by apply (reach_inv p). }
    exists (sq_items (ce_order1 e) m). split_and!.
    + apply NoDup_sq_items_keys. done.
    + done.
    + intros v c r Hv. apply elem_of_sq_items in Hv; [|done]. by rewrite sq_get_val, Hv.
    + intros c r Hv. rewrite sq_get_val. destruct (sq_val m c r) as [v|] eqn:E; [|done].
      apply (elem_of_sq_items (ce_order1 e)) in E; [|done]. by apply Hv in E.
    + cbn [cexec]. unfold gphrx_matrix_get_entry_list, cmap. unfold cbind at 1. unfold cbind at 1.
      rewrite put_size_ok by done.
      rewrite (on_matrix_live _ _ _ _ m Ha) by by apply wrote_size_ne.
      unfold cbind. rewrite put_size_ok by by apply size_param_write. rewrite wrote_size_twice.
      by apply slice_hands.
Qed.
Print Assumptions C52_lists.

Lemma fold_app_ne {A} (step : list N -> A -> list N) (l : list A) (s : list N) :
  (forall b x, b <> [] -> step b x <> []) -> s <> [] -> fold_left step l s <> [].
Proof. intros Hf. revert s. induction l as [|x l IH]; intros s Hs; [done|]. simpl. by apply IH, Hf. Qed.

Lemma graph_bytes_nonempty p o g bytes : graph_to_bytes p o g = Ok bytes -> bytes <> [].
Proof.
  unfold graph_to_bytes, rbind. destruct (graph_bytes_size p g); [|done].
  destruct (can_alloc p _); [|done]. intros [= <-].
  apply fold_app_ne; [|done]. intros b [c r] Hb. by destruct b.
Qed.

Lemma cgraph_bytes_nonempty p o g bytes : cgraph_to_bytes p o g = Ok bytes -> bytes <> [].
Proof.
  unfold cgraph_to_bytes, rbind. destruct (cgraph_bytes_size p g); [|done].
  destruct (can_alloc p _); [|done]. intros [= <-].
  apply fold_app_ne; [|done]. intros b [[x c] r] Hb. by destruct b.
Qed.

(** Texts and byte strings of graphs and compressed graphs. *)
Theorem C52_texts_and_bytes p e h a n : wf_platform p -> ce_platform e = p ->
  wf_alloc_fn (ce_alloc e) -> a <> null -> size_param h n ->
  (forall g, reach p g -> h !! a = Some (OGraph g) ->
     makes_or_null h OString (matrix_string p g) (cexec e (CMatrixString a) h) /\
     match graph_to_bytes p (ce_order1 e) g with
     | Ok bytes => hands_out (wrote_size n (N.of_nat (length bytes)) h) (OBytes bytes)
         (cexec e (CToBytes a n) h)
     | Err _ => cexec e (CToBytes a n) h = Done (VPtr null) (wrote_size n 0 h)
     end) /\
  (forall cg, creach p cg -> h !! a = Some (OCompressed cg) ->
     (exists r, c_matrix_string p (ce_order1 e) cg = Ret r /\
        makes_or_null h OString r (cexec e (CCompressedMatrixString a) h)) /\
     match cgraph_to_bytes p (ce_order1 e) cg with
     | Ok bytes => hands_out (wrote_size n (N.of_nat (length bytes)) h) (OBytes bytes)
         (cexec e (CCompressedToBytes a n) h)
     | Err _ => cexec e (CCompressedToBytes a n) h = Done (VPtr null) (wrote_size n 0 h)
     end).
Proof.
  intros Hp He Hal Ha Hn. split.
  - intros g Hr Hg. cbn [cexec]. unfold gphrx_matrix_string, gphrx_to_bytes. split.
    + unfold cmap, cbind. rewrite (on_graph_live _ _ _ _ _ Ha Hg), He.
      pose proof (C12_matrix_string_layout p g Hp Hr) as (Hs & _).
      destruct (matrix_string p g) as [s|err]; [|done]. destruct (Hs s eq_refl) as [-> _].
      rewrite into_c_string_nul; [apply (box_hands e (OString _) h Hal)|].
      apply nul_free_matrix. intros c r _ _. by destruct (does_edge_exist g c r).
    + unfold cmap, cbind. rewrite put_size_ok by done.
      rewrite (on_graph_live _ _ _ _ g Ha) by by apply wrote_size_ne. rewrite He.
      pose proof (graph_bytes_nonempty p (ce_order1 e) g) as Hne.
      destruct (graph_to_bytes p (ce_order1 e) g) as [bytes|err]; [|done].
      unfold boxed_bytes_to_raw, cbind. rewrite put_size_ok by by apply size_param_write.
      rewrite wrote_size_twice. specialize (Hne bytes eq_refl).
      destruct bytes as [|b bytes]; [done|]. apply (box_hands e (OBytes _) _ Hal).
  - intros cg Hr Hg. cbn [cexec].
    unfold gphrx_compressed_graph_matrix_string, gphrx_compressed_graph_to_bytes. split.
    + unfold cmap, cbind. rewrite (on_compressed_live _ _ _ _ _ Ha Hg), He.
      destruct (C45_matrix_string p p (ce_order1 e) cg Hp Hp Hr) as (r & Hs & Hsh).
      exists r. split; [done|]. unfold crust. rewrite Hs. destruct r as [s|err]; [|done].
      rewrite into_c_string_nul; [apply (box_hands e (OString _) h Hal)|].
      eapply nul_free_shows; [|exact Hsh]. intros c r t _ _. apply nul_free_integer.
    + unfold cmap, cbind. rewrite put_size_ok by done.
      rewrite (on_compressed_live _ _ _ _ cg Ha) by by apply wrote_size_ne. rewrite He.
      pose proof (cgraph_bytes_nonempty p (ce_order1 e) cg) as Hne.
      destruct (cgraph_to_bytes p (ce_order1 e) cg) as [bytes|err]; [|done].
      unfold boxed_bytes_to_raw, cbind. rewrite put_size_ok by by apply size_param_write.
      rewrite wrote_size_twice. specialize (Hne bytes eq_refl).
      destruct bytes as [|b bytes]; [done|]. apply (box_hands e (OBytes _) _ Hal).
Qed.
Print Assumptions C52_texts_and_bytes.

(** Queries about compressed graphs and matrices. *)
Theorem C52_other_queries e h a : a <> null ->
  (forall cg, h !! a = Some (OCompressed cg) ->
     cexec e (CCompressedLevel a) h = Done (VNum (compression_level cg)) h /\
     cexec e (CCompressedIsUndirected a) h = Done (VNum (if c_is_undirected cg then 1 else 0)) h /\
     cexec e (CCompressedVertexCount a) h = Done (VNum (c_vertex_count cg)) h /\
     cexec e (CCompressedEdgeCount a) h = Done (VNum (c_edge_count cg)) h /\
     (forall u v, cexec e (CCompressedDoesEdgeExist a u v) h =
        Done (VNum (if c_does_edge_exist cg u v then 1 else 0)) h) /\
     (forall c r, cexec e (CCompressedEntry a c r) h =
        Done (VNum (get_compressed_matrix_entry cg c r)) h)) /\
  (forall m, h !! a = Some (OMatrix m) ->
     cexec e (CMatrixDimension a) h = Done (VNum (sq_dimension m)) h /\
     cexec e (CMatrixEntryCount a) h = Done (VNum (sq_entry_count m)) h /\
     (forall c r, cexec e (CMatrixGetEntry a c r) h =
        Done (VDouble (sq_get_entry f64_numeric m c r)) h)).
Proof.
  intros Ha. split; intros x Hx; cbn [cexec]; unfold gphrx_compressed_graph_compression_level,
    gphrx_compressed_graph_is_undirected, gphrx_compressed_graph_vertex_count,
    gphrx_compressed_graph_edge_count, gphrx_compressed_graph_does_edge_exist,
    gphrx_get_compressed_matrix_entry, gphrx_matrix_dimension, gphrx_matrix_entry_count,
    gphrx_matrix_get_entry, cmap, cbind; split_and!; intros;
    first [by rewrite (on_compressed_live _ _ _ _ _ Ha Hx)|by rewrite (on_matrix_live _ _ _ _ _ Ha Hx)].
Qed.
Print Assumptions C52_other_queries.

(** In every heap a C program can produce, null is free and the objects behind handles are
    what the safe Rust API can produce. *)
Theorem C52_reachable p h a : c_reach p h ->
  h !! null = None /\
  (forall g, h !! a = Some (OGraph g) -> reach p g) /\
  (forall cg, h !! a = Some (OCompressed cg) -> creach p cg) /\
  (forall m, h !! a = Some (OMatrix m) ->
     exists g o b, reach p g /\ is_u64 b /\ find_avg_pool_matrix p o g b = Ret m).
Proof.
  intros H. apply c_reach_ok in H as [Hn Ho].
  split_and!; [done|intros x Hx; exact (Ho a _ Hx)..].
Qed.
Print Assumptions C52_reachable.

Example C52_case :
  exists vs h, crun [EClientNew 2 (OSizeCell 0); EClientNew 3 (OInputIds [1; 2; 7]);
      ECall env64 (CNew false); ECall env64 (CAddVertex 16 4 3 2);
      ECall env64 (CEdgeList 16 2); ECall env64 (COutEdges 16 0 2); ECall env64 (CMatrixString 16);
      ECall env64 (CToBytes 16 2)] ∅ = Done vs h /\
    vs = [VUnit; VUnit; VPtr 16; VUnit; VPtr 17; VPtr 8; VPtr 18; VPtr 19] /\
    h !! 17 = Some (OEdges [(4, 1); (4, 2)]) /\ h !! 2 = Some (OSizeCell 58) /\
    h !! 8 = None /\ value_of (cexec env64 (COutDegree 16 4) h) = Some (VNum 2).
Proof. apply done_ex. vm_compute. repeat split. Qed.

Lemma into_c_string_text e s h : wf_alloc_fn (ce_alloc e) ->
  makes_text h (Ok s) (cmap VPtr (into_c_string e s) h).
Proof.
  intros Hal. unfold makes_text, into_c_string.
  assert (existsb (fun c => N_of_ascii c =? 0) s = existsb (fun c => (c =? "000")%char) s) as ->.
  { induction s as [|c s IH]; [done|]. simpl. rewrite IH. f_equal.
    destruct (Ascii.eqb_spec c "000") as [->|Hc]; [done|]. apply N.eqb_neq. intros E.
    apply Hc. rewrite <- (ascii_N_embedding c), E. done. }
  destruct (existsb _ s); [done|]. apply (box_hands e (OString s) h Hal).
Qed.

(** Texts of matrices. *)
Theorem C52_matrix_texts e h a m : wf_alloc_fn (ce_alloc e) -> a <> null ->
  h !! a = Some (OMatrix m) ->
  (forall d, match sq_to_string_with_precision (ce_platform e) f64_numeric (ce_order1 e) m d with
     | Ret r => makes_text h r (cexec e (CMatrixToStringPrecision a d) h)
     | _ => cexec e (CMatrixToStringPrecision a d) h = Abort
     end) /\
  match sq_to_string_with_precision (ce_platform e) f64_numeric (ce_order1 e) m 2 with
  | Ret (Ok s) => makes_text h (Ok s) (cexec e (CMatrixToString a) h)
  | _ => cexec e (CMatrixToString a) h = Abort
  end.
Proof.
  intros Hal Ha Hm. cbn [cexec]. unfold gphrx_matrix_to_string_with_precision, gphrx_matrix_to_string.
  split; [intros d|].
  - unfold cmap, cbind. rewrite (on_matrix_live _ _ _ _ _ Ha Hm). unfold crust.
    destruct (sq_to_string_with_precision _ _ _ _ _) as [[s|err]| |]; [|done..].
    apply (into_c_string_text e s h Hal).
  - unfold cmap, cbind. rewrite (on_matrix_live _ _ _ _ _ Ha Hm). unfold crust, sq_display. cbn [num_has_decimal f64_numeric].
    destruct (sq_to_string_with_precision _ _ _ _ _) as [[s|err]| |]; [|done..].
    apply (into_c_string_text e s h Hal).
Qed.
Print Assumptions C52_matrix_texts.

(** ** C53 *)

(** False of the code: the text of the pooled matrix of a graph with 2^40 + 1 vertices does
    not fit in memory; gphrx_matrix_to_string aborts where
    gphrx_matrix_to_string_with_precision returns null. *)
Theorem C53_refuted : exists vs h,
  crun [ECall env64 (CNew false); ECall env64 (CAddVertex 16 (2 ^ 40) 0 0);
        ECall env64 (CFindAvgPool 16 1)] ∅ = Done vs h /\
  vs = [VPtr 16; VUnit; VPtr 17] /\
  cexec env64 (CMatrixToString 17) h = Abort /\
  value_of (cexec env64 (CMatrixToStringPrecision 17 2) h) = Some (VPtr null).
Proof. apply done_ex. vm_compute. repeat split. Qed.
Print Assumptions C53_refuted.

(** Matrices behind handles of C programs are pooled matrices.  For these, with at most
    65491 decimals, gphrx_matrix_to_string_with_precision never aborts; and
    gphrx_matrix_to_string aborts only when the text is too large for the platform.

    Missing: gphrx_matrix_to_string returning null in that case (false, see above), and
    more decimals (Rust's formatting code panics above 65535 of them). *)
Theorem C53_partial p e h a m : wf_platform p -> ce_platform e = p -> wf_alloc_fn (ce_alloc e) ->
  c_reach p h -> a <> null -> h !! a = Some (OMatrix m) ->
  (forall d, d + 44 <= 65535 ->
     cexec e (CMatrixToStringPrecision a d) h = Done (VPtr null) h \/
     exists s, hands_out h (OString s) (cexec e (CMatrixToStringPrecision a d) h)) /\
  (cexec e (CMatrixToString a) h = Abort ->
     cexec e (CMatrixToStringPrecision a 2) h = Done (VPtr null) h) /\
  (cexec e (CMatrixToString a) h <> Abort ->
     value_of (cexec e (CMatrixToString a) h) = value_of (cexec e (CMatrixToStringPrecision a 2) h)).
Proof.
  intros Hp He Hal Hr Ha Hm.
  destruct (C52_reachable p h a Hr) as (_ & _ & _ & Hmat).
  destruct (Hmat m Hm) as (g & o & b & Hg & Hb & Hpool).
  pose proof (reach_inv p g Hp Hg) as Hi.
  destruct (C52_matrix_texts e h a m Hal Ha Hm) as [Hprec Hdisp]. rewrite He in *.
  assert (forall d, d + 44 <= 65535 -> exists r,
    sq_to_string_with_precision p f64_numeric (ce_order1 e) m d = Ret r) as Hsafe.
  { intros d Hd. destruct (pool_safe p o (ce_order1 e) g b m d Hp Hi Hpool Hd) as (r & E & _). eauto. }
  split.
  - intros d Hd. specialize (Hprec d). destruct (Hsafe d Hd) as [r E]. rewrite E in Hprec.
    unfold makes_text in Hprec. destruct r as [s|err]; [|by left].
    destruct (existsb _ s); [by left|]. right. by exists s.
  - specialize (Hprec 2). destruct (Hsafe 2 ltac:(lia)) as [r E]. rewrite E in Hprec, Hdisp.
    destruct r as [s|err].
    + unfold makes_text in Hprec, Hdisp. destruct (existsb _ s).
      * rewrite Hprec, Hdisp. done.
      * destruct Hprec as (x & Hx & Hx2). destruct Hdisp as (y & Hy & Hy2).
        split; [rewrite Hy; done|]. intros _.
        revert Hx Hy. cbn [cexec].
        unfold gphrx_matrix_to_string_with_precision, gphrx_matrix_to_string, cmap, cbind.
        rewrite !(on_matrix_live _ _ _ _ _ Ha Hm). unfold crust, sq_display.
        cbn [num_has_decimal f64_numeric]. rewrite He, E. cbn [obind].
        intros -> ->. cbn in *. congruence.
    + split; [intros _; exact Hprec|intros Hc; exfalso; apply Hc; exact Hdisp].
Qed.
Print Assumptions C53_partial.

Example C53_case : exists vs h,
  crun [ECall env64 (CNew false); ECall env64 (CAddEdge 16 0 1); ECall env64 (CAddEdge 16 1 1);
        ECall env64 (CAddEdge 16 2 0); ECall env64 (CFindAvgPool 16 2);
        ECall env64 (CMatrixToString 17); ECall env64 (CMatrixToStringPrecision 17 1)] ∅ = Done vs h /\
  vs = [VPtr 16; VUnit; VUnit; VUnit; VPtr 17; VPtr 18; VPtr 19] /\
  h !! 18 = Some (OString (txt "[ 0.50, 0.25 ]" ++ ["013"%char; "010"%char] ++ txt "[ 0.00, 0.00 ]")) /\
  h !! 19 = Some (OString (txt "[ 0.5, 0.2 ]" ++ ["013"%char; "010"%char] ++ txt "[ 0.0, 0.0 ]")).
Proof. apply done_ex. vm_compute. repeat split. Qed.

(** ** C56 *)

(** The text of a pooled matrix shows every entry, that is (C27, C28) every block average,
    correctly rounded, whatever the hash orders. *)
Theorem C56_pooled_text p o o' g b m d : wf_platform p -> reach p g ->
  N.max 1 (N.min b (vertex_count g)) < 2 ^ 32 -> find_avg_pool_matrix p o g b = Ret m ->
  1 <= d -> d + 44 <= 65535 ->
  prints p (sq_dimension m) d (fun c r => rounded_text d (sq_get_entry f64_numeric m c r))
    (sq_to_string_with_precision p f64_numeric o' m d).
Proof.
  intros Hp Hr Hb Hm Hd1 Hd2. apply (pool_prints p o o' g b m d); try done. by apply (reach_inv p).
Qed.
Print Assumptions C56_pooled_text.

Example C56_case :
  exists m, find_avg_pool_matrix plat64 plain_order sample_und 3 = Ret m /\
  sq_to_string_with_precision plat64 f64_numeric reversed_order m 3 =
    Ret (Ok (join ["013"%char; "010"%char] [txt "[ 0.222, 0.222, 0.000 ]";
      txt "[ 0.222, 0.111, 0.000 ]"; txt "[ 0.000, 0.000, 0.000 ]"])).
Proof. apply ret_ex. by vm_compute. Qed.

(** ** C57 *)

(** Every object the library handed out can be freed, which removes it and nothing else; so
    making an object and freeing it leaves the heap as it was.  Empty lists take no memory;
    they may be freed too. *)
Theorem C57_free e h :
  (forall a x c, a <> null -> h !! a = Some x -> free_call a x = Some c ->
     x <> OBytes [] -> x <> OEdges [] -> x <> OVertices [] -> x <> OEntries [] ->
     cexec e c h = Done VUnit (delete a h)) /\
  (forall a x c h', hands_out h x (Done (VPtr a) h') -> free_call a x = Some c ->
     x <> OBytes [] -> x <> OEdges [] -> x <> OVertices [] -> x <> OEntries [] ->
     cexec e c h' = Done VUnit h) /\
  (forall a, cexec e (CFreeEdges a 0) h = Done VUnit h /\ cexec e (CFreeVertices a 0) h = Done VUnit h /\
     cexec e (CFreeEntries a 0) h = Done VUnit h /\ cexec e (CFreeBytes a 0) h = Done VUnit h).
Proof.
  assert (forall h a x c, a <> null -> h !! a = Some x -> free_call a x = Some c ->
     x <> OBytes [] -> x <> OEdges [] -> x <> OVertices [] -> x <> OEntries [] ->
     cexec e c h = Done VUnit (delete a h)) as Hfree.
  { clear h. intros h a x c Ha Hx Hc H1 H2 H3 H4. apply N.eqb_neq in Ha.
    destruct x; simpl in Hc; try discriminate; injection Hc as <-; cbn [cexec];
      unfold v_unit, cmap, cbind, free_gphrx_graph, free_gphrx_compressed_graph, free_gphrx_matrix,
        free_gphrx_bytes_buffer, free_gphrx_string_buffer, free_gphrx_edge_list,
        free_gphrx_vertex_list, free_gphrx_matrix_entry_list;
      rewrite Ha; unfold drop_box, drop_slice;
      try (destruct (N.eqb_spec (N.of_nat (length bytes)) 0); [by destruct bytes|]);
      try (destruct (N.eqb_spec (N.of_nat (length l)) 0); [by destruct l|]);
      rewrite Hx, ?N.eqb_refl; done. }
  split_and!.
  - intros a x c. apply Hfree.
  - intros a x c h' (b & E & Hb & Hn) Hc H1 H2 H3 H4. injection E as <- ->.
    rewrite (Hfree _ a x c Hb) by (done || apply lookup_insert). f_equal. by apply delete_insert.
  - intros a. cbn [cexec]. unfold v_unit, cmap, cbind, free_gphrx_bytes_buffer,
      free_gphrx_edge_list, free_gphrx_vertex_list, free_gphrx_matrix_entry_list, drop_slice.
    by destruct (a =? null).
Qed.
Print Assumptions C57_free.

(** After freeing everything the library handed out, only the C program's memory is left;
    freeing twice is undefined. *)
Example C57_case : exists vs h,
  crun [EClientNew 2 (OSizeCell 0); ECall env64 (CNew true); ECall env64 (CAddEdge 16 3 1);
        ECall env64 (CInEdges 16 1 2); ECall env64 (CInEdges 16 0 2); ECall env64 (CFreeVertices 8 0);
        ECall env64 (CFreeVertices 17 1); ECall env64 (CFreeGraph 16)] ∅ = Done vs h /\
  vs = [VUnit; VPtr 16; VUnit; VPtr 17; VPtr 8; VUnit; VUnit; VUnit] /\
  map_to_list h = [(2, OSizeCell 0)] /\ cexec env64 (CFreeGraph 16) h = UB.
Proof. apply done_ex. vm_compute. repeat split. Qed.
