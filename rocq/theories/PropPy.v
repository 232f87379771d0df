(** Properties C54 and C58-C62: the Python binding. *)
From Coq Require Import ZArith Ascii String.
From Verif Require Import Base HashIter F64 Numeric Adj Sq Standard Compressed Spec MatSpec TextSpec
  Api CApi CSpec Py PySpec AdjProofs SqProofs GraphProofs CompressProofs GraphCodecProofs
  CGraphCodecProofs ApproxProofs CApiProofs CHeapProofs PoolTextProofs PropCommon PropGraph
  PropMatrix PropCodec PropText PropC.
Local Arguments N.mul : simpl never.
Local Arguments N.add : simpl never.
Local Arguments N.pow : simpl never.

(** ** C54 *)

Lemma ptr_item_at {A} (list_of : cobj -> option (list A)) ptr l x h i a :
  h !! ptr = Some x -> list_of x = Some l -> (0 <= i)%Z -> l !! Z.to_nat i = Some a ->
  ptr_item list_of ptr i h = PyDone a h.
Proof.
  intros Hx Hl Hi Ha. unfold ptr_item. rewrite Hx. simpl. rewrite Hl.
  destruct (Z.ltb_spec i 0); [lia|]. by rewrite Ha.
Qed.

(** Indexing is right from -len + 1 to len - 1 and raises IndexError from len on.

    Missing from C54: indices from -len down, for which the statement is false (below). *)
Theorem C54_partial {A} (list_of : cobj -> option (list A)) h ptr size l i :
  holds_list h list_of ptr size l ->
  let n := Z.of_nat (length l) in
  ((n <= i)%Z -> py_getitem list_of ptr size i h = PyRaise IndexError h) /\
  ((0 <= i < n)%Z -> exists a, l !! Z.to_nat i = Some a /\
     py_getitem list_of ptr size i h = PyDone a h) /\
  ((- n < i < 0)%Z -> exists a, l !! Z.to_nat (n + i) = Some a /\
     py_getitem list_of ptr size i h = PyDone a h).
Proof.
  intros [-> Hl] n.
  assert (forall k, (0 <= k < n)%Z -> exists a, l !! Z.to_nat k = Some a /\
    ptr_item list_of ptr k h = PyDone a h) as Hitem.
  { intros k Hk. destruct (lookup_lt_is_Some_2 l (Z.to_nat k)) as [a Ha]; [lia|].
    exists a. split; [done|]. destruct Hl as [->|(x & Hx & Hx')]; [by rewrite lookup_nil in Ha|].
    eapply ptr_item_at; eauto. lia. }
  unfold py_getitem.
  replace (Z.of_N (N.of_nat (length l))) with n by lia.
  split_and!; intros Hi.
  - by destruct (Z.leb_spec n i); [|lia].
  - destruct (Z.leb_spec n i); [lia|]. destruct (Z.ltb_spec i 0); [lia|]. by apply Hitem.
  - destruct (Z.leb_spec n i); [lia|]. destruct (Z.ltb_spec i 0); [|lia].
    destruct (N.eqb_spec (N.of_nat (length l)) 0); [lia|].
    replace (n - Z.max (Z.abs i mod n) 1)%Z with (n + i)%Z; [apply Hitem; lia|].
    rewrite Z.mod_small by lia. lia.
Qed.
Print Assumptions C54_partial.

(** A list object with the vertices 4, 7 and 9 behind it, and an empty one. *)
Definition list_heap : cheap := {[20 := OVertices [4; 7; 9]]}.

(** False of the code: l[-3] of a list of three is its last element, not its first; l[-4]
    is the last element instead of an IndexError, and any negative index into an empty list
    raises ZeroDivisionError. *)
Theorem C54_refuted :
  holds_list list_heap vertices_of 20 3 [4; 7; 9] /\ holds_list list_heap vertices_of 8 0 [] /\
  py_getitem vertices_of 20 3 (-3) list_heap = PyDone 9 list_heap /\
  py_getitem vertices_of 20 3 (-4) list_heap = PyDone 9 list_heap /\
  py_getitem vertices_of 8 0 (-1) list_heap = PyRaise ZeroDivisionError list_heap.
Proof. split_and!; try done; (split; [done|]); [right; by eexists|by left]. Qed.
Print Assumptions C54_refuted.

Example C54_case :
  py_getitem vertices_of 20 3 0 list_heap = PyDone 4 list_heap /\
  py_getitem vertices_of 20 3 (-2) list_heap = PyDone 7 list_heap /\
  py_getitem vertices_of 20 3 3 list_heap = PyRaise IndexError list_heap.
Proof. done. Qed.

(** What happens below: the index wraps around, except that it lands on the last element
    where it should land on the first. *)
Theorem C54_below {A} (list_of : cobj -> option (list A)) h ptr size l i :
  holds_list h list_of ptr size l ->
  let n := Z.of_nat (length l) in
  (i <= - n)%Z -> (i < 0)%Z ->
  if decide (l = []) then py_getitem list_of ptr size i h = PyRaise ZeroDivisionError h
  else exists k a, l !! k = Some a /\ py_getitem list_of ptr size i h = PyDone a h /\
    Z.of_nat k = (if decide (i mod n = 0) then n - 1 else i mod n)%Z.
Proof.
  intros [-> Hl] n Hi Hi0. unfold py_getitem.
  replace (Z.of_N (N.of_nat (length l))) with n by lia.
  destruct (Z.leb_spec n i); [lia|]. destruct (Z.ltb_spec i 0); [|lia].
  destruct (decide (l = [])) as [->|Hne]; [done|].
  assert (0 < n)%Z as Hn by (destruct l; [done|simpl in n; lia]).
  destruct (N.eqb_spec (N.of_nat (length l)) 0); [lia|].
  pose proof (Z.mod_pos_bound (Z.abs i) n Hn) as Hm.
  set (q := (n - Z.max (Z.abs i mod n) 1)%Z).
  assert (0 <= q < n)%Z as Hq by lia.
  destruct (lookup_lt_is_Some_2 l (Z.to_nat q)) as [a Ha]; [lia|].
  exists (Z.to_nat q), a. split_and!; [done| |].
  - destruct Hl as [->|(x & Hx & Hx')]; [done|]. eapply ptr_item_at; eauto. lia.
  - rewrite Z2Nat.id by lia. subst q. rewrite Z.abs_neq in * by lia.
    destruct (decide (i mod n = 0)%Z) as [E|E].
    + rewrite Z.mod_opp_l_z by lia. lia.
    + rewrite Z.mod_opp_l_nz by lia. pose proof (Z.mod_pos_bound i n Hn). lia.
Qed.
Print Assumptions C54_below.

(** ** C58 *)

(** Iterating over a list object yields its elements in order and then stops; the heap stays
    as it is. *)
Theorem C58_iteration {A} (list_of : cobj -> option (list A)) h ptr size l :
  holds_list h list_of ptr size l ->
  (forall fuel, (length l < fuel)%nat ->
     py_iterate fuel list_of ptr size 0 h = PyDone (Some l) h) /\
  py_next list_of ptr size size h = PyRaise StopIteration h.
Proof.
  intros [-> Hl]. split; [|unfold py_next; by rewrite N.eqb_refl].
  assert (forall fuel k, (k <= length l)%nat -> (length l - k < fuel)%nat ->
    py_iterate fuel list_of ptr (N.of_nat (length l)) (N.of_nat k) h = PyDone (Some (drop k l)) h) as H.
  { induction fuel as [|fuel IH]; intros k Hk Hf; [lia|]. cbn [py_iterate]. unfold py_next.
    destruct (N.eqb_spec (N.of_nat k) (N.of_nat (length l))) as [E|E].
    - assert (k = length l) as -> by lia. unfold praise. by rewrite drop_all.
    - destruct (lookup_lt_is_Some_2 l k) as [a Ha]; [lia|].
      unfold pbind. destruct Hl as [->|(x & Hx & Hx')]; [by rewrite lookup_nil in Ha|].
      rewrite (ptr_item_at list_of ptr l x h _ a Hx Hx') by (lia || by rewrite <- Ha; f_equal; lia).
      unfold pret. replace (N.of_nat k + 1) with (N.of_nat (S k)) by lia.
      rewrite IH by lia. by rewrite (drop_S l a k Ha). }
  intros fuel Hf. apply (H fuel 0%nat); lia.
Qed.
Print Assumptions C58_iteration.

Example C58_case : py_iterate 10 vertices_of 20 3 0 list_heap = PyDone (Some [4; 7; 9]) list_heap.
Proof. done. Qed.

(** ** C59 *)

Lemma pcall_done e c h v h' : cexec e c h = Done v h' -> pcall e c h = PyDone v h'.
Proof. unfold pcall. by intros ->. Qed.

Lemma py_make_hands e c wrap x h : hands_out h x (cexec e c h) -> py_hands h wrap x (py_make e c wrap h).
Proof.
  intros (a & E & Ha & Hf). exists a. split_and!; [|done..].
  unfold py_make, pcall_ptr, pbind, pcall. by rewrite E.
Qed.

Lemma py_num e c n h : cexec e c h = Done (VNum n) h ->
  py_int e c h = PyDone (PyInt (Z.of_N n)) h /\ py_bool e c h = PyDone (PyBool (negb (n =? 0))) h.
Proof. intros E. unfold py_int, py_bool, pcall_num, pbind, pcall. by rewrite E. Qed.

Lemma py_none_done e c h h' : cexec e c h = Done VUnit h' -> py_none e c h = PyDone PyNone h'.
Proof. intros E. unfold py_none, pcall_none, pbind, pcall. by rewrite E. Qed.

Lemma with_temp_lookup (h : cheap) t y a x : h !! t = None -> h !! a = Some x ->
  <[t := y]> h !! a = Some x.
Proof. intros Ht Ha. rewrite lookup_insert_ne; [done|]. intros ->. congruence. Qed.

(** Methods that return a list. *)
Lemma py_list_hands {A} e c wrap (obj : list A -> cobj) l h : wf_alloc_fn (ce_alloc e) ->
  (let t := ce_alloc e h in
     hands_out_list (wrote_size t (N.of_nat (length l)) (<[t := OSizeCell 0]> h)) obj l
       (cexec e (c t) (<[t := OSizeCell 0]> h))) ->
  py_hands_list h wrap obj l (py_list e c wrap h).
Proof.
  intros Hal H. destruct (Hal h) as [Ht Hf]. cbn zeta in H.
  unfold py_list, with_temp. set (t := ce_alloc e h) in *.
  unfold wrote_size in H. destruct (N.eqb_spec t null); [done|]. rewrite insert_insert in H.
  unfold pcall_ptr, pbind, pcall, py_list_init, cell_value.
  destruct l as [|y l].
  - destruct H as (a & E & Ha). rewrite E. unfold pret. rewrite lookup_insert.
    destruct (N.eqb_spec a null); [done|]. exists a. split_and!; [done|done|].
    f_equal. by apply delete_insert.
  - destruct H as (a & E & Ha & Hn). rewrite E. unfold pret.
    assert (a <> t) as Hat by (intros ->; by rewrite lookup_insert in Hn).
    rewrite lookup_insert_ne, lookup_insert by done.
    destruct (N.eqb_spec a null); [done|]. exists a. split_and!; [done| |].
    + intros _. by rewrite lookup_insert_ne in Hn.
    + f_equal. rewrite delete_insert_ne by done. f_equal. by apply delete_insert.
Qed.

Lemma py_make_makes {A} e c wrap (obj : A -> cobj) x h : makes h obj x (cexec e c h) ->
  py_makes h wrap obj x (py_make e c wrap h).
Proof.
  unfold makes, py_makes. destruct x as [y| |]; [apply py_make_hands|..];
    intros E; unfold py_make, pcall_ptr, pbind, pcall; by rewrite E.
Qed.

Lemma py_string_ok e c s h : hands_out h (OString s) (cexec e c h) ->
  py_string e c h = PyDone (PyStr s) h.
Proof.
  intros (a & E & Ha & Hn). unfold py_string, pcall_ptr, pcall_none, pbind, pcall at 1.
  rewrite E. unfold pret, char_p_value. destruct (N.eqb_spec a null) as [|_]; [done|].
  rewrite lookup_insert. unfold pcall.
  destruct (C57_free e h) as (_ & Hfree & _).
  rewrite (Hfree a (OString s) (CFreeString a)); [done|by exists a|done..].
Qed.

Lemma py_string_null e c h : cexec e c h = Done (VPtr null) h ->
  py_string e c h = PyRaise AttributeError h.
Proof. intros E. unfold py_string, pcall_ptr, pcall_none, pbind, pcall at 1. by rewrite E. Qed.

Lemma py_string_abort e c h : cexec e c h = Abort -> py_string e c h = PyAbort.
Proof. intros E. unfold py_string, pcall_ptr, pbind, pcall at 1. by rewrite E. Qed.

Lemma py_bytes_ok e c bytes h : wf_alloc_fn (ce_alloc e) -> bytes <> [] ->
  (let t := ce_alloc e h in
     hands_out (wrote_size t (N.of_nat (length bytes)) (<[t := OSizeCell 0]> h)) (OBytes bytes)
       (cexec e (c t) (<[t := OSizeCell 0]> h))) ->
  py_bytes e c h = PyDone (PyBytes bytes) h.
Proof.
  intros Hal Hne H. destruct (Hal h) as [Ht Hf]. cbn zeta in H.
  unfold py_bytes, with_temp. set (t := ce_alloc e h) in *.
  unfold wrote_size in H. destruct (N.eqb_spec t null); [done|]. rewrite insert_insert in H.
  destruct (C57_free e (<[t := OSizeCell (N.of_nat (length bytes))]> h)) as (_ & Hfree & _).
  destruct H as (a & E & Ha & Hn).
  assert (a <> t) as Hat by (intros ->; by rewrite lookup_insert in Hn).
  unfold pcall_ptr, pcall_none, pbind, pcall at 1. rewrite E. unfold pret, cell_value.
  rewrite lookup_insert_ne, lookup_insert by done. unfold ptr_bytes.
  destruct (N.eqb_spec (N.of_nat (length bytes)) 0) as [E0|_]; [by destruct bytes|].
  rewrite lookup_insert. rewrite N.leb_refl, Nat2N.id, firstn_all. unfold pcall.
  rewrite (Hfree a (OBytes bytes) (CFreeBytes a (N.of_nat (length bytes))));
    [|by exists a|done|congruence..]. f_equal. by apply delete_insert.
Qed.

Lemma py_bytes_null e c h : wf_alloc_fn (ce_alloc e) ->
  (let t := ce_alloc e h in cexec e (c t) (<[t := OSizeCell 0]> h) =
     Done (VPtr null) (wrote_size t 0 (<[t := OSizeCell 0]> h))) ->
  py_bytes e c h = PyDone (PyBytes []) h.
Proof.
  intros Hal H. destruct (Hal h) as [Ht Hf]. cbn zeta in H.
  unfold py_bytes, with_temp. set (t := ce_alloc e h) in *.
  unfold wrote_size in H. destruct (N.eqb_spec t null); [done|]. rewrite insert_insert in H.
  unfold pcall_ptr, pcall_none, pbind, pcall at 1. rewrite H. unfold pret, cell_value.
  rewrite lookup_insert. unfold ptr_bytes. cbn [N.eqb].
  unfold pcall. cbn [cexec]. unfold free_gphrx_bytes_buffer, v_unit, cmap, cbind.
  change (null =? null) with true. unfold cret. f_equal. by apply delete_insert.
Qed.

Lemma size_param_temp (h : cheap) t n : size_param (<[t := OSizeCell n]> h) t.
Proof. right. exists n. apply lookup_insert. Qed.

(** Integers in the range of the C types are passed unchanged. *)
Theorem C59_integers p z :
  (fits_u64 z -> c_uint64 z = Z.to_N z) /\ is_u64 (c_uint64 z) /\
  ((0 <= z <= Z.of_N (usize_max p))%Z -> c_size_t p z = Z.to_N z).
Proof.
  unfold fits_u64, c_uint64, c_size_t, is_u64, two64. split_and!.
  - intros Hz. by rewrite Z.mod_small by lia.
  - pose proof (Z.mod_pos_bound z (Z.of_N 18446744073709551616) ltac:(done)). lia.
  - intros Hz. by rewrite Z.mod_small by lia.
Qed.
Print Assumptions C59_integers.

(** The methods of Graph return what the Rust methods return, and leave nothing in the heap
    but the objects they return. *)
Theorem C59_graph_queries e h a g : a <> null -> h !! a = Some (OGraph g) ->
  pyexec e (PIsUndirected a) h = PyDone (PyBool (is_undirected g)) h /\
  pyexec e (PVertexCount a) h = PyDone (PyInt (Z.of_N (vertex_count g))) h /\
  pyexec e (PEdgeCount a) h = PyDone (PyInt (Z.of_N (edge_count g))) h /\
  (forall u v, pyexec e (PDoesEdgeExist a u v) h =
     PyDone (PyBool (does_edge_exist g (c_uint64 u) (c_uint64 v))) h) /\
  (forall v, pyexec e (PInDegree a v) h =
     PyDone (PyInt (Z.of_N (get_vertex_in_degree (ce_order1 e) g (c_uint64 v)))) h) /\
  (forall v, pyexec e (POutDegree a v) h =
     PyDone (PyInt (Z.of_N (get_vertex_out_degree (ce_order1 e) g (c_uint64 v)))) h).
Proof.
  intros Ha Hg. destruct (C52_graph_queries e h a g Ha Hg) as (H1 & H2 & H3 & H4 & H5 & H6).
  cbn [pyexec]. split_and!; intros.
  - rewrite (proj2 (py_num _ _ _ _ H1)). by destruct (is_undirected g).
  - apply (proj1 (py_num _ _ _ _ H2)).
  - apply (proj1 (py_num _ _ _ _ H3)).
  - rewrite (proj2 (py_num _ _ _ _ (H4 _ _))). by destruct (does_edge_exist _ _ _).
  - apply (proj1 (py_num _ _ _ _ (H5 _))).
  - apply (proj1 (py_num _ _ _ _ (H6 _))).
Qed.
Print Assumptions C59_graph_queries.

Theorem C59_graph_changes e h a g : a <> null -> h !! a = Some (OGraph g) ->
  wf_alloc_fn (ce_alloc e) ->
  let becomes g' r := r = PyDone PyNone (<[a := OGraph g']> h) in
  (forall u v, becomes (add_edge g (c_uint64 u) (c_uint64 v)) (pyexec e (PAddEdge a u v) h)) /\
  (forall u v, becomes (delete_edge g (c_uint64 u) (c_uint64 v)) (pyexec e (PDeleteEdge a u v) h)) /\
  (forall v, becomes (add_vertex g (c_uint64 v) None) (pyexec e (PAddVertex a v None) h) /\
             becomes (add_vertex g (c_uint64 v) None) (pyexec e (PAddVertex a v (Some [])) h)) /\
  (forall v ids, ids <> [] -> N.of_nat (length ids) <= usize_max (ce_platform e) ->
     becomes (add_vertex g (c_uint64 v) (Some (c_uint64 <$> ids))) (pyexec e (PAddVertex a v (Some ids)) h)) /\
  pyexec e (PDel a) h = PyDone PyNone (delete a h).
Proof.
  intros Ha Hg Hal becomes. unfold becomes.
  destruct (C52_graph_changes e h a g Ha Hg) as (H1 & H2 & H3 & _ & _).
  cbn [pyexec]. split_and!; intros.
  - apply py_none_done, H1.
  - apply py_none_done, H2.
  - split; apply py_none_done, H3.
  - destruct ids as [|i ids]; [done|]. destruct (Hal h) as [Ht Hf].
    unfold with_temp. set (t := ce_alloc e h) in *. set (l := i :: ids) in *.
    pose proof (with_temp_lookup h t (OInputIds (c_uint64 <$> l)) a _ Hf Hg) as Hg'.
    destruct (C52_graph_changes e _ a g Ha Hg') as (_ & _ & _ & H4 & _).
    destruct (C59_integers (ce_platform e) (Z.of_nat (length l))) as (_ & _ & ->); [|lia].
    rewrite (py_none_done _ _ _ _ (H4 (c_uint64 v) t (Z.to_N (Z.of_nat (length l))) (c_uint64 <$> l)
      ltac:(subst l; simpl length; lia) Ht ltac:(left; apply lookup_insert)
      ltac:(rewrite fmap_length; lia))).
    f_equal. rewrite delete_insert_ne by congruence. rewrite delete_insert by done.
    f_equal. f_equal. f_equal. f_equal.
    replace (N.to_nat (Z.to_N (Z.of_nat (length l)))) with (length (c_uint64 <$> l))
      by (rewrite fmap_length; lia). by rewrite firstn_all.
  - apply py_none_done. destruct (C57_free e h) as (Hfree & _). by apply (Hfree a (OGraph g)).
Qed.
Print Assumptions C59_graph_changes.

Theorem C59_makers e h : wf_alloc_fn (ce_alloc e) ->
  let p := ce_platform e in
  (forall u : bool, py_hands h PyGraph (OGraph (if u then new_undirected else new_directed))
     (pyexec e (PNew (Some u)) h)) /\
  (forall a g, a <> null -> h !! a = Some (OGraph g) ->
     py_hands h PyGraph (OGraph g) (pyexec e (PDuplicate a) h) /\
     (forall b, py_makes h PyMatrix OMatrix (find_avg_pool_matrix p (ce_order1 e) g (c_uint64 b))
        (pyexec e (PFindAvgPool a b) h)) /\
     (forall b t, py_makes h PyGraph OGraph
        (approximate p (ce_order1 e) (ce_order2 e) g (c_uint64 b) t) (pyexec e (PApproximate a b t) h)) /\
     (forall l, py_makes h PyCompressed OCompressed
        (compress p (ce_order1 e) (ce_order2 e) g (Z.to_N (Z.max 1 (Z.min 64 l))))
        (pyexec e (PCompress a l) h))) /\
  (forall a cg, a <> null -> h !! a = Some (OCompressed cg) ->
     py_hands h PyCompressed (OCompressed cg) (pyexec e (PCDuplicate a) h) /\
     py_makes h PyGraph OGraph (decompress p (ce_order1 e) cg) (pyexec e (PDecompress a) h)) /\
  (forall a m, a <> null -> h !! a = Some (OMatrix m) ->
     py_hands h PyMatrix (OMatrix m) (pyexec e (PMDuplicate a) h)).
Proof.
  intros Hal p. destruct (C52_makers e h Hal) as (M1 & M2 & M3 & M4 & M5).
  cbn [pyexec]. split_and!.
  - intros u. apply py_make_hands. by destruct u.
  - intros a g Ha Hg. destruct (M3 a g Ha Hg) as (K1 & K2 & K3 & K4). split_and!; intros.
    + by apply py_make_hands.
    + by apply py_make_makes.
    + by apply py_make_makes.
    + apply py_make_makes.
      assert (c_uint8 (if (64 <? l)%Z then 64%Z else if (l <? 1)%Z then 1%Z else l) =
        Z.to_N (Z.max 1 (Z.min 64 l))) as E; [|rewrite <- E; apply K4].
      unfold c_uint8. destruct (Z.ltb_spec 64 l).
      * rewrite Z.mod_small by lia. lia.
      * destruct (Z.ltb_spec l 1); rewrite Z.mod_small by lia; lia.
  - intros a cg Ha Hg. destruct (M4 a cg Ha Hg) as (K1 & K2).
    split; [by apply py_make_hands|by apply py_make_makes].
  - intros a m Ha Hm. by apply py_make_hands, M5.
Qed.
Print Assumptions C59_makers.

Theorem C59_lists p e h a : wf_platform p -> wf_alloc_fn (ce_alloc e) -> a <> null ->
  (forall g, reach p g -> h !! a = Some (OGraph g) ->
     (exists l, NoDup l /\ (forall u v, (u, v) ∈ l <-> does_edge_exist g u v = true) /\
        py_hands_list h PyEdgeList OEdges l (pyexec e (PEdgeList a) h)) /\
     (forall v, exists l, NoDup l /\ (forall u, u ∈ l <-> does_edge_exist g u (c_uint64 v) = true) /\
        py_hands_list h PyVertexList OVertices l (pyexec e (PInEdges a v) h)) /\
     (forall v, exists l, NoDup l /\ (forall w, w ∈ l <-> does_edge_exist g (c_uint64 v) w = true) /\
        py_hands_list h PyVertexList OVertices l (pyexec e (POutEdges a v) h))) /\
  (forall g o b m, reach p g -> find_avg_pool_matrix p o g b = Ret m -> h !! a = Some (OMatrix m) ->
     exists l, NoDup ((fun '(_, c, r) => (c, r)) <$> l : list (N * N)) /\
       (forall v c r, (v, c, r) ∈ l -> sq_get_entry f64_numeric m c r = v) /\
       (forall c r, (forall v, (v, c, r) ∉ l) -> sq_get_entry f64_numeric m c r = f64_zero) /\
       py_hands_list h PyEntryList OEntries l (pyexec e (PMEntryList a) h)).
Proof.
  intros Hp Hal Ha. cbn [pyexec]. split.
  - intros g Hr Hg.
    destruct (Hal h) as [Ht Hf].
    destruct (C52_lists p e (<[ce_alloc e h := OSizeCell 0]> h) a (ce_alloc e h) Hp Hal Ha
      (size_param_temp h _ 0)) as [HL _].
    destruct (HL g Hr (with_temp_lookup h _ _ a _ Hf Hg)) as ((l & L1 & L2 & L3) & HI & HO).
    split_and!.
    + exists l. split_and!; [done|done|]. by apply py_list_hands.
    + intros v. destruct (HI (c_uint64 v)) as (k & K1 & K2 & K3).
      exists k. split_and!; [done|done|]. by apply py_list_hands.
    + intros v. destruct (HO (c_uint64 v)) as (k & K1 & K2 & K3).
      exists k. split_and!; [done|done|]. by apply py_list_hands.
  - intros g o b m Hr Hm Hg. destruct (Hal h) as [Ht Hf].
    destruct (C52_lists p e (<[ce_alloc e h := OSizeCell 0]> h) a (ce_alloc e h) Hp Hal Ha
      (size_param_temp h _ 0)) as [_ HL].
    destruct (HL g o b m Hr Hm (with_temp_lookup h _ _ a _ Hf Hg)) as (l & L1 & _ & L3 & L4 & L5).
    exists l. split_and!; [done..|]. by apply py_list_hands.
Qed.
Print Assumptions C59_lists.

(** Texts.  A method raises AttributeError where the Rust method returns an error. *)
Theorem C59_texts p e h a : wf_platform p -> ce_platform e = p -> wf_alloc_fn (ce_alloc e) ->
  a <> null ->
  (forall g, reach p g -> h !! a = Some (OGraph g) ->
     pyexec e (PMatrixString a) h = py_text h (Ret (matrix_string p g))) /\
  (forall cg, creach p cg -> h !! a = Some (OCompressed cg) ->
     pyexec e (PCMatrixString a) h = py_text h (c_matrix_string p (ce_order1 e) cg)) /\
  (forall g o b m d, reach p g -> N.max 1 (N.min b (vertex_count g)) < 2 ^ 32 ->
     find_avg_pool_matrix p o g b = Ret m -> h !! a = Some (OMatrix m) -> (1 <= d <= 65491)%Z ->
     pyexec e (PMToString a (Some d)) h =
       py_text h (sq_to_string_with_precision p f64_numeric (ce_order1 e) m (Z.to_N d)) /\
     pyexec e (PMToString a None) h = pyexec e (PMToString a (Some 2%Z)) h).
Proof.
  intros Hp He Hal Ha. cbn [pyexec].
  assert (size_param h null) as Hnull by by left.
  destruct (C52_texts_and_bytes p e h a null Hp He Hal Ha Hnull) as [HG HC]. split_and!.
  - intros g Hr Hg. destruct (HG g Hr Hg) as [Hs _]. unfold py_text, makes_or_null in *.
    destruct (matrix_string p g) as [s|err]; [by apply py_string_ok|by apply py_string_null].
  - intros cg Hr Hg. destruct (HC cg Hr Hg) as [(r & -> & Hs) _]. unfold py_text, makes_or_null in *.
    destruct r as [s|err]; [by apply py_string_ok|by apply py_string_null].
  - intros g o b m d Hr Hb Hm Hg Hd. split; [|done]. cbn [default from_option id].
    pose proof (C56_pooled_text p o (ce_order1 e) g b m (Z.to_N d) Hp Hr Hb Hm
      ltac:(lia) ltac:(lia)) as (r & E & Hsh).
    assert (c_size_t (ce_platform e) d = Z.to_N d) as ->.
    { apply C59_integers. rewrite He. pose proof (usize_16 p Hp). lia. }
    rewrite E. destruct (C52_matrix_texts e h a m Hal Ha Hg) as [Ht _].
    specialize (Ht (Z.to_N d)). rewrite He, E in Ht. unfold makes_text in Ht.
    destruct r as [s|err]; [|by apply py_string_null].
    assert (nul_free s) as Hn.
    { eapply nul_free_shows; [|exact Hsh]. intros c r t _ _. apply nul_free_rounded. }
    assert (existsb (fun c => N_of_ascii c =? 0) s = false) as Hz.
    { clear -Hn. unfold nul_free in Hn. revert Hn. induction s as [|c s IH]; [done|]. simpl.
      intros Hn. apply orb_false_iff in Hn as [H1 H2]. rewrite IH by done.
      destruct (N.eqb_spec (N_of_ascii c) 0) as [E|]; [|done].
      rewrite <- (ascii_N_embedding c), E in H1. done. }
    rewrite Hz in Ht. by apply py_string_ok.
Qed.
Print Assumptions C59_texts.

(** Bytes.  Where encoding fails [bytes(g)] is empty. *)
Theorem C59_bytes p e h a : wf_platform p -> ce_platform e = p -> wf_alloc_fn (ce_alloc e) ->
  a <> null ->
  (forall g, reach p g -> h !! a = Some (OGraph g) ->
     pyexec e (PBytes a) h =
       PyDone (PyBytes (match graph_to_bytes p (ce_order1 e) g with Ok bytes => bytes | Err _ => [] end)) h) /\
  (forall cg, creach p cg -> h !! a = Some (OCompressed cg) ->
     pyexec e (PCBytes a) h =
       PyDone (PyBytes (match cgraph_to_bytes p (ce_order1 e) cg with Ok bytes => bytes | Err _ => [] end)) h).
Proof.
  intros Hp He Hal Ha. cbn [pyexec]. destruct (Hal h) as [Ht Hf].
  destruct (C52_texts_and_bytes p e (<[ce_alloc e h := OSizeCell 0]> h) a (ce_alloc e h)
    Hp He Hal Ha (size_param_temp h _ 0)) as [HG HC]. split.
  - intros g Hr Hg. destruct (HG g Hr (with_temp_lookup h _ _ a _ Hf Hg)) as [_ Hs].
    pose proof (graph_bytes_nonempty p (ce_order1 e) g) as Hne.
    destruct (graph_to_bytes p (ce_order1 e) g) as [bytes|err]; [|by apply py_bytes_null].
    apply py_bytes_ok; auto.
  - intros g Hr Hg. destruct (HC g Hr (with_temp_lookup h _ _ a _ Hf Hg)) as [_ Hs].
    pose proof (cgraph_bytes_nonempty p (ce_order1 e) g) as Hne.
    destruct (cgraph_to_bytes p (ce_order1 e) g) as [bytes|err]; [|by apply py_bytes_null].
    apply py_bytes_ok; auto.
Qed.
Print Assumptions C59_bytes.

(** CompressedGraph and CsrSquareMatrix. *)
Theorem C59_other_queries e h a : a <> null ->
  (forall cg, h !! a = Some (OCompressed cg) ->
     pyexec e (PCLevel a) h = PyDone (PyFloat (f64_of_N (compression_level cg))) h /\
     pyexec e (PCIsUndirected a) h = PyDone (PyBool (c_is_undirected cg)) h /\
     pyexec e (PCVertexCount a) h = PyDone (PyInt (Z.of_N (c_vertex_count cg))) h /\
     pyexec e (PCEdgeCount a) h = PyDone (PyInt (Z.of_N (c_edge_count cg))) h /\
     (forall u v, pyexec e (PCDoesEdgeExist a u v) h =
        PyDone (PyBool (c_does_edge_exist cg (c_uint64 u) (c_uint64 v))) h) /\
     (forall c r, pyexec e (PCEntry a c r) h =
        PyDone (PyInt (Z.of_N (get_compressed_matrix_entry cg (c_uint64 c) (c_uint64 r)))) h) /\
     pyexec e (PCDel a) h = PyDone PyNone (delete a h)) /\
  (forall m, h !! a = Some (OMatrix m) ->
     pyexec e (PMDimension a) h = PyDone (PyInt (Z.of_N (sq_dimension m))) h /\
     pyexec e (PMEntryCount a) h = PyDone (PyInt (Z.of_N (sq_entry_count m))) h /\
     (forall c r, pyexec e (PMGetEntry a c r) h =
        PyDone (PyFloat (sq_get_entry f64_numeric m (c_uint64 c) (c_uint64 r))) h) /\
     pyexec e (PMDel a) h = PyDone PyNone (delete a h)).
Proof.
  intros Ha. destruct (C52_other_queries e h a Ha) as [HC HM].
  destruct (C57_free e h) as (Hfree & _). cbn [pyexec]. split.
  - intros cg Hg. destruct (HC cg Hg) as (H1 & H2 & H3 & H4 & H5 & H6). split_and!; intros.
    + unfold pcall_num, pbind, pcall. by rewrite H1.
    + rewrite (proj2 (py_num _ _ _ _ H2)). by destruct (c_is_undirected cg).
    + apply (proj1 (py_num _ _ _ _ H3)).
    + apply (proj1 (py_num _ _ _ _ H4)).
    + rewrite (proj2 (py_num _ _ _ _ (H5 _ _))). by destruct (c_does_edge_exist _ _ _).
    + apply (proj1 (py_num _ _ _ _ (H6 _ _))).
    + apply py_none_done. by apply (Hfree a (OCompressed cg)).
  - intros m Hm. destruct (HM m Hm) as (H1 & H2 & H3). split_and!; intros.
    + apply (proj1 (py_num _ _ _ _ H1)).
    + apply (proj1 (py_num _ _ _ _ H2)).
    + unfold pcall_double, pbind, pcall. by rewrite H3.
    + apply py_none_done. by apply (Hfree a (OMatrix m)).
Qed.
Print Assumptions C59_other_queries.

(** A list object's [__del__] gives back what making the list took. *)
Theorem C59_list_del e h ptr :
  (forall l h', py_hands_list h PyEdgeList OEdges l (PyDone (PyEdgeList ptr (N.of_nat (length l))) h') ->
     pyexec e (PDelEdges ptr (N.of_nat (length l))) h' = PyDone PyNone h) /\
  (forall l h', py_hands_list h PyVertexList OVertices l (PyDone (PyVertexList ptr (N.of_nat (length l))) h') ->
     pyexec e (PDelVertices ptr (N.of_nat (length l))) h' = PyDone PyNone h) /\
  (forall l h', py_hands_list h PyEntryList OEntries l (PyDone (PyEntryList ptr (N.of_nat (length l))) h') ->
     pyexec e (PDelEntries ptr (N.of_nat (length l))) h' = PyDone PyNone h).
Proof.
  destruct (C57_free e h) as (_ & Hfree & Hnil). destruct (Hnil ptr) as (F1 & F2 & F3 & _).
  cbn [pyexec]. split_and!; intros l h' (a & Ha & Hf & E); injection E as <- ->; apply py_none_done;
    (destruct l as [|x l]; [done|]).
  - apply (Hfree ptr (OEdges (x :: l))); try done. exists ptr. split_and!; [done..|by apply Hf].
  - apply (Hfree ptr (OVertices (x :: l))); try done. exists ptr. split_and!; [done..|by apply Hf].
  - apply (Hfree ptr (OEntries (x :: l))); try done. exists ptr. split_and!; [done..|by apply Hf].
Qed.
Print Assumptions C59_list_del.

(** Running Python methods one after the other, for examples. *)
Fixpoint pyrun (cs : list pycall) (h : cheap) : pyresult (list pyval) :=
  match cs with
  | [] => PyDone [] h
  | c :: cs' =>
      match pyexec env64 c h with
      | PyDone v h' => match pyrun cs' h' with
                       | PyDone vs h'' => PyDone (v :: vs) h''
                       | PyRaise x h'' => PyRaise x h''
                       | PyAbort => PyAbort
                       | PyUB => PyUB
                       end
      | PyRaise x h' => PyRaise x h'
      | PyAbort => PyAbort
      | PyUB => PyUB
      end
  end.

Lemma pydone_ex {A} (x : pyresult A) (P : A -> cheap -> Prop) :
  match x with PyDone v h => P v h | _ => False end -> exists v h, x = PyDone v h /\ P v h.
Proof. destruct x; [eauto|done..]. Qed.

Example C59_case : exists vs h,
  pyrun [PNew (Some true); PAddVertex 16 2 (Some [0%Z; (-18446744073709551615)%Z]); PEdgeCount 16;
         PDoesEdgeExist 16 1 2; PCompress 16 (-5); PCLevel 17; PMatrixString 16; PBytes 16;
         POutEdges 16 2; PFindAvgPool 16 3; PMToString 20 None; PDelVertices 19 2; PCDel 17; PMDel 20;
         PDel 16] ∅ = PyDone vs h /\
  match vs with
  | [v1; v2; v3; v4; v5; v6; v7; PyBytes l; v9; v10; v11; v12; v13; v14; v15] =>
      v1 = PyGraph 16 /\ v3 = PyInt 4 /\ v4 = PyBool true /\ v5 = PyCompressed 17 /\
      v6 = PyFloat f64_one /\
      v7 = PyStr (join ["013"%char; "010"%char] [txt "[ 0, 0, 1 ]"; txt "[ 0, 0, 1 ]"; txt "[ 1, 1, 0 ]"]) /\
      length l = 90%nat /\ v9 = PyVertexList 19 2 /\ v10 = PyMatrix 20 /\ v11 = PyStr (txt "[ 0.44 ]")
  | _ => False
  end /\ map_to_list h = [].
Proof. apply pydone_ex. vm_compute. repeat split. Qed.

(** ** C60 *)

Lemma from_bytes_temps e (h : cheap) bytes : wf_alloc_fn (ce_alloc e) ->
  let t := ce_alloc e h in
  let h1 := <[t := OInputBytes bytes]> h in
  let u := ce_alloc e h1 in
  t <> null /\ u <> null /\ t <> u /\ h !! t = None /\ h !! u = None /\
  error_param (<[u := OErrorCell 0]> h1) u /\
  bytes_param (<[u := OErrorCell 0]> h1) t (N.of_nat (length bytes)) bytes.
Proof.
  intros Hal t h1 u. destruct (Hal h) as [H1 H2]. destruct (Hal h1) as [H3 H4]. fold t in H1, H2.
  fold u in H3, H4.
  assert (t <> u) as Htu by (intros E; rewrite <- E in H4; unfold h1 in H4; by rewrite lookup_insert in H4).
  assert (h !! u = None) as Hu by (unfold h1 in H4; by rewrite lookup_insert_ne in H4).
  split_and!; [done..| |].
  - right. exists 0. apply lookup_insert.
  - destruct bytes as [|b bytes]; [by left|]. right. split_and!; [done..|].
    exists (b :: bytes). split_and!; [|done|by rewrite Nat2N.id, firstn_all].
    left. rewrite lookup_insert_ne by done. apply lookup_insert.
Qed.

(** from_bytes returns the decoded graph, or raises TypeError and leaves no trace.

    Missing from C60: the exception is TypeError, not the ValueError the code means to raise
    (below). *)
Theorem C60_partial p e h bytes : wf_platform p -> ce_platform e = p -> wf_alloc_fn (ce_alloc e) ->
  is_slice p bytes ->
  (exists r, graph_try_from p bytes = Ret r /\
   match r with
   | Ok g => py_hands h PyGraph (OGraph g) (pyexec e (PFromBytes bytes) h)
   | Err _ => pyexec e (PFromBytes bytes) h = PyRaise TypeError h
   end) /\
  (exists r, cgraph_try_from p bytes = Ret r /\
   match r with
   | Ok g => py_hands h PyCompressed (OCompressed g) (pyexec e (PCFromBytes bytes) h)
   | Err _ => pyexec e (PCFromBytes bytes) h = PyRaise TypeError h
   end).
Proof.
  intros Hp He Hal Hs.
  destruct (from_bytes_temps e h bytes Hal) as (T1 & T2 & T3 & T4 & T5 & T6 & T7).
  cbn [pyexec]. unfold py_from_bytes, with_temp.
  destruct (C59_integers (ce_platform e) (Z.of_nat (length bytes))) as (_ & _ & ->);
    [|rewrite He; destruct Hs; lia].
  replace (Z.to_N (Z.of_nat (length bytes))) with (N.of_nat (length bytes)) by lia.
  set (t := ce_alloc e h) in *. set (u := ce_alloc e (<[t := OInputBytes bytes]> h)) in *.
  set (h2 := <[u := OErrorCell 0]> (<[t := OInputBytes bytes]> h)) in *.
  assert (wf_platform (ce_platform e)) as Hp' by by rewrite He.
  assert (is_slice (ce_platform e) bytes) as Hs' by by rewrite He.
  destruct (C50_from_bytes e h2 t (N.of_nat (length bytes)) u bytes Hp' Hal T6 T7 Hs') as [HG HC].
  rewrite He in HG, HC.
  assert (forall n, wrote_error u n h2 = <[u := OErrorCell n]> (<[t := OInputBytes bytes]> h)) as Hw.
  { intros n. unfold wrote_error, h2. destruct (N.eqb_spec u null); [done|]. apply insert_insert. }
  assert (forall n, delete t (delete u (<[u := OErrorCell n]> (<[t := OInputBytes bytes]> h))) = h) as Hd.
  { intros n. rewrite delete_insert by by rewrite lookup_insert_ne. by apply delete_insert. }
  split.
  - destruct HG as (r & Hr & H). exists r. split; [done|]. rewrite Hw in H.
    unfold pcall_ptr, pbind, pcall, cell_value. destruct r as [g|err].
    + destruct H as (a & E & Ha & Hn). rewrite E. unfold pret.
      assert (a <> u) as Hau by (intros ->; by rewrite lookup_insert in Hn).
      rewrite lookup_insert_ne in Hn by done.
      assert (a <> t) as Hat by (intros ->; by rewrite lookup_insert in Hn).
      rewrite lookup_insert_ne in Hn by done.
      rewrite lookup_insert_ne, lookup_insert by done. cbn [N.eqb].
      exists a. split_and!; [|done..]. f_equal.
      by rewrite !(delete_insert_ne _ _ a), Hd by done.
    + rewrite Hw in H. rewrite H. unfold pret. rewrite lookup_insert. cbn [N.eqb]. unfold praise.
      by rewrite Hd.
  - destruct HC as (r & Hr & H). exists r. split; [done|]. rewrite Hw in H.
    unfold pcall_ptr, pbind, pcall, cell_value. destruct r as [g|err].
    + destruct H as (a & E & Ha & Hn). rewrite E. unfold pret.
      assert (a <> u) as Hau by (intros ->; by rewrite lookup_insert in Hn).
      rewrite lookup_insert_ne in Hn by done.
      assert (a <> t) as Hat by (intros ->; by rewrite lookup_insert in Hn).
      rewrite lookup_insert_ne in Hn by done.
      rewrite lookup_insert_ne, lookup_insert by done. cbn [N.eqb].
      exists a. split_and!; [|done..]. f_equal.
      by rewrite !(delete_insert_ne _ _ a), Hd by done.
    + rewrite Hw in H. rewrite H. unfold pret. rewrite lookup_insert. cbn [N.eqb]. unfold praise.
      by rewrite Hd.
Qed.
Print Assumptions C60_partial.

(** False of the code: undecodable bytes raise TypeError ('str' object is not callable). *)
Theorem C60_refuted :
  (exists h, pyexec env64 (PFromBytes []) ∅ = PyRaise TypeError h) /\
  (exists h, pyexec env64 (PCFromBytes [1; 2; 3]) ∅ = PyRaise TypeError h).
Proof. split; eexists; reflexivity. Qed.
Print Assumptions C60_refuted.

(** ** C61 *)

(** Where encoding succeeds, [from_bytes(bytes(g))] is a graph like [g].

    Missing: when the bytes cannot be allocated [bytes(g)] is empty, without an exception
    (below). *)
Theorem C61_partial p e e' h h' a g k : wf_platform p -> ce_platform e = p -> ce_platform e' = p ->
  wf_alloc_fn (ce_alloc e) -> wf_alloc_fn (ce_alloc e') ->
  a <> null -> h !! a = Some (OGraph g) -> reach p g ->
  has_card (fun '(u, v) => does_edge_exist g u v = true) k -> k < two64 ->
  26 + 16 * k <= usize_max p -> can_alloc p (26 + 16 * k) = true ->
  exists bytes g', pyexec e (PBytes a) h = PyDone (PyBytes bytes) h /\
    py_hands h' PyGraph (OGraph g') (pyexec e' (PFromBytes bytes) h') /\ same_graph g g'.
Proof.
  intros Hp He He' Hal Hal' Ha Hg Hr Hk Hk64 Hsz Hca.
  pose proof (C17_graph_layout p (ce_order1 e) g k Hp Hr Hk Hk64) as HL.
  destruct (N.leb_spec (26 + 16 * k) (usize_max p)); [|lia]. rewrite Hca in HL. cbn [andb] in HL.
  destruct HL as (bytes & _ & Hb & _).
  destruct (C16_graph_round_trip p (ce_order1 e) g bytes k Hp Hr Hk Hk64 Hb) as [Hs Hrt].
  destruct (Hrt p Hp Hs) as (g' & Hd & Hsame). exists bytes, g'. split_and!; [| |done].
  - destruct (C59_bytes p e h a Hp He Hal Ha) as [Hbytes _]. rewrite (Hbytes g Hr Hg). by rewrite Hb.
  - destruct (C60_partial p e' h' bytes Hp He' Hal' Hs) as [(r & Hr' & Hm) _].
    rewrite Hd in Hr'. by injection Hr' as <-.
Qed.
Print Assumptions C61_partial.

(** The same for compressed graphs made by [compress]. *)
Theorem C61_compressed_partial p e e' h h' a o1 o2 g l cg bytes k : wf_platform p ->
  ce_platform e = p -> ce_platform e' = p ->
  wf_alloc_fn (ce_alloc e) -> wf_alloc_fn (ce_alloc e') ->
  a <> null -> reach p g -> is_byte l -> compress p o1 o2 g l = Ret cg -> h !! a = Some (OCompressed cg) ->
  has_card (fun '(u, v) => does_edge_exist g u v = true) k -> k < two64 ->
  pyexec e (PCBytes a) h = PyDone (PyBytes bytes) h -> bytes <> [] ->
  exists cg', py_hands h' PyCompressed (OCompressed cg') (pyexec e' (PCFromBytes bytes) h') /\
    same_cgraph cg cg'.
Proof.
  intros Hp He He' Hal Hal' Ha Hr Hl Hc Hg Hk Hk64 Hx Hne.
  destruct (C59_bytes p e h a Hp He Hal Ha) as [_ Hbytes].
  rewrite (Hbytes cg) in Hx; [|by eapply (cr_compress p o1 o2 g l)|done].
  destruct (cgraph_to_bytes p (ce_order1 e) cg) as [b|err] eqn:Hb;
    injection Hx as <-; [|done].
  destruct (C30_cgraph_round_trip p o1 o2 (ce_order1 e) g l cg b k Hp Hr Hk Hk64 Hc Hb) as [Hs Hrt].
  destruct (Hrt p Hp Hs) as (g' & Hd & Hsame). exists g'. split; [|done].
  destruct (C60_partial p e' h' b Hp He' Hal' Hs) as [_ (r & Hr' & Hm)].
  rewrite Hd in Hr'. by injection Hr' as <-.
Qed.
Print Assumptions C61_compressed_partial.

(** A platform whose memory is exhausted. *)
Definition plat_full : platform := Platform (2 ^ 64 - 1) true (fun _ => false).

(** False of the code: there [bytes(g)] of a graph with an edge is empty; and the text
    methods raise AttributeError. *)
Theorem C61_refuted : wf_platform plat_full /\
  exists vs h, pyrun [PNew (Some true); PAddEdge 16 0 1] ∅ = PyDone vs h /\
  (exists h', pyexec (CEnv plat_full bump_alloc plain_order plain_order) (PBytes 16) h =
     PyDone (PyBytes []) h') /\
  (exists h', pyexec (CEnv plat_full bump_alloc plain_order plain_order) (PMatrixString 16) h =
     PyRaise AttributeError h').
Proof.
  split; [by constructor|]. apply pydone_ex. split; eexists; reflexivity.
Qed.
Print Assumptions C61_refuted.

Example C61_case : exists vs h,
  pyrun [PNew (Some false); PAddEdge 16 0 1; PFromBytes (graph_file false 2 1 [(0, 1)])] ∅ = PyDone vs h /\
  vs = [PyGraph 16; PyNone; PyGraph 19] /\
  exists h', pyexec env64 (PBytes 16) h = PyDone (PyBytes (graph_file false 2 1 [(0, 1)])) h'.
Proof. apply pydone_ex. split; [reflexivity|]. eexists. reflexivity. Qed.

(** ** C62 *)

(** False of the code: [Graph()] is directed, though its documentation says that it is
    undirected by default. *)
Theorem C62_refuted : forall e h, wf_alloc_fn (ce_alloc e) ->
  exists a h', pyexec e (PNew None) h = PyDone (PyGraph a) h' /\
    pyexec e (PIsUndirected a) h' = PyDone (PyBool false) h'.
Proof.
  intros e h Hal. destruct (C59_makers e h Hal) as (H & _). destruct (H false) as (a & E & Ha & _).
  exists a, (<[a := OGraph new_directed]> h). split; [exact E|].
  destruct (C59_graph_queries e (<[a := OGraph new_directed]> h) a new_directed Ha
    ltac:(apply lookup_insert)) as [Hu _]. exact Hu.
Qed.
Print Assumptions C62_refuted.

Example C62_case : wf_alloc_fn (ce_alloc env64).
Proof. exact bump_alloc_wf. Qed.
