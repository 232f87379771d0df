(** Properties C102 and C103: two sentences of the documentation that do not describe the code. *)
From Coq Require Import ZArith Ascii String.
From Verif Require Import Base HashIter F64 Numeric Adj Sq Standard Compressed Spec Api CApi
  CSpec Py PySpec AdjProofs GraphProofs ApproxProofs PropCommon PropGraph PropC PropPy.

(** ** C102: "Edges and vertices can be added to or removed from a graph" (lib.rs:10) *)

(** A call with the arguments Rust allows. *)
Definition op_allowed (op : gop) : Prop :=
  match op with
  | OpAddVertex v ts => is_u64 v /\ is_u64_slice (default [] ts)
  | OpAddEdge u v | OpDeleteEdge u v => is_u64 u /\ is_u64 v
  end.
Lemma step_reach p g op : reach p g -> op_allowed op -> reach p (step g op).
Proof. intros Hr Ho. destruct op; destruct Ho; simpl; by constructor. Qed.
Lemma fold_reach p ops : forall g, reach p g -> Forall op_allowed ops -> reach p (fold_left step ops g).
Proof.
  induction ops as [|op ops IH]; intros g Hr Hall; simpl; [done|].
  apply Forall_cons in Hall as [Ho Hall]. apply IH; [by apply step_reach|done].
Qed.

(** No vertex can be removed: whatever is called, the vertices of a graph stay. *)
Theorem C102_vertices_refuted p g ops : wf_platform p -> reach p g -> Forall op_allowed ops ->
  vertex_count g <= vertex_count (fold_left step ops g).
Proof.
  intros Hp Hr Hall. revert g Hr. induction Hall as [|op ops Ho _ IH]; intros g Hr; simpl; [lia|].
  etransitivity; [|apply IH; by apply step_reach].
  by apply (C02_vertex_count_growth p g Hp Hr).
Qed.
Print Assumptions C102_vertices_refuted.

(** What holds: any edges can be removed, one call for each, and nothing else changes (in an
    undirected graph an edge is removed with its reverse); all edges can be removed, by calling
    [delete_edge] on what iterating yields; and every vertex below u64::MAX can be added.  Missing from C102: a way to remove vertices;
    the code has none. *)
Definition deletions (l : list (N * N)) : list gop := (fun '(u, v) => OpDeleteEdge u v) <$> l.

Lemma delete_all l : forall g,
  vertex_count (fold_left step (deletions l) g) = vertex_count g /\
  g_und (fold_left step (deletions l) g) = g_und g /\
  forall a b, has (fold_left step (deletions l) g) a b <->
    has g a b /\ (a, b) ∉ l /\ (g_und g = true -> (b, a) ∉ l).
Proof.
  induction l as [|[u v] l IH]; intros g; simpl.
  { split_and!; [done..|]. intros a b. pose proof (not_elem_of_nil (a, b)).
    pose proof (not_elem_of_nil (b, a)). naive_solver. }
  destruct (IH (delete_edge g u v)) as (H1 & H2 & H3).
  assert (g_und (delete_edge g u v) = g_und g) as Hund by done.
  split_and!; [by rewrite H1, vc_delete_edge|by rewrite H2|].
  intros a b. rewrite H3, has_delete_edge, Hund, !not_elem_of_cons.
  split.
  - intros ((Hab & N1 & N2) & N3 & N4). split_and!; [done|naive_solver|done|].
    intros Hu. split; [naive_solver|auto].
  - intros (Hab & (N1 & N2) & N3). split_and!; [done|naive_solver| |done|naive_solver].
    intros (Hu & -> & ->). by destruct (N3 Hu).
Qed.

Theorem C102_edges_partial p g : wf_platform p -> reach p g ->
  (forall l, let g' := fold_left step (deletions l) g in
     vertex_count g' = vertex_count g /\ is_undirected g' = is_undirected g /\
     forall a b, does_edge_exist g' a b = true <->
       does_edge_exist g a b = true /\ (a, b) ∉ l /\ (is_undirected g = true -> (b, a) ∉ l)) /\
  (forall o items, (forall fuel, (length items < fuel)%nat ->
       hiter_run fuel (graph_into_iter o g) = Some items) ->
     let g' := fold_left step (deletions items) g in
     vertex_count g' = vertex_count g /\ edge_count g' = 0 /\
     forall a b, does_edge_exist g' a b = false) /\
  (forall u v, u < u64_max -> v < u64_max -> does_edge_exist (add_edge g u v) u v = true) /\
  (forall v, v < u64_max -> v < vertex_count (add_vertex g v None)).
Proof.
  intros Hp Hr.
  assert (forall l, let g' := fold_left step (deletions l) g in
     vertex_count g' = vertex_count g /\ is_undirected g' = is_undirected g /\
     forall a b, does_edge_exist g' a b = true <->
       does_edge_exist g a b = true /\ (a, b) ∉ l /\ (is_undirected g = true -> (b, a) ∉ l)) as Hdel.
  { intros l g'. destruct (delete_all l g) as (H1 & H2 & H3). split_and!; [done..|].
    intros a b. rewrite !exists_has. apply H3. }
  split_and!; [done| | |].
  - intros o items Hrun g'.
    destruct (C06_iteration p g o Hp Hr) as (it & Hit & _ & Hin & _).
    assert (items = it) as ->.
    { pose proof (Hit (S (length it + length items)) ltac:(lia)) as H1.
      pose proof (Hrun (S (length it + length items)) ltac:(lia)) as H2. congruence. }
    destruct (Hdel it) as (H1 & _ & H3).
    assert (forall a b, does_edge_exist g' a b = false) as Hnone.
    { intros a b. destruct (does_edge_exist g' a b) eqn:E; [|done]. exfalso.
      apply H3 in E as (E & N1 & _). by apply N1, Hin. }
    split_and!; [done| |done].
    assert (reach p g') as Hr'.
    { apply fold_reach; [done|]. apply Forall_fmap, Forall_forall. intros [u v] Huv. simpl.
      apply Hin in Huv. destruct (C04_edges_join_existing_vertices p g Hp Hr) as (Hn & Hj).
      apply Hj in Huv. unfold is_u64, two64. lia. }
    destruct (C05_edge_count p g' Hp Hr') as (k & (l & _ & Hl & Hk) & ->).
    destruct l as [|[a b] l]; [by rewrite <- Hk|]. exfalso.
    assert (does_edge_exist g' a b = true) as E by (apply (Hl (a, b)); left).
    by rewrite Hnone in E.
  - intros u v Hu Hv. apply exists_has, has_add_edge. right. split; [|by left].
    unfold both_valid. apply andb_true_iff. split; by apply N.ltb_lt.
  - intros v Hv. destruct (C02_vertex_count_growth p g Hp Hr) as (_ & _ & H & _).
    rewrite (H v None Hv (or_introl eq_refl)). lia.
Qed.
Print Assumptions C102_edges_partial.

(** The introduction's own numbers: add 3 -> 5, take the edge away; six vertices stay. *)
Example C102_case :
  let g := add_edge new_directed 3 5 in
  reach plat64 g /\ vertex_count g = 6 /\ hiter_run 9 (graph_into_iter plain_order g) = Some [(3, 5)] /\
  let g' := fold_left step (deletions [(3, 5)]) g in
  vertex_count g' = 6 /\ edge_count g' = 0 /\ does_edge_exist g' 3 5 = false.
Proof.
  split; [|vm_compute; done]. constructor; [constructor|..]; unfold is_u64; vm_compute; done.
Qed.

(** ** C103: "Optionally creates edges to the new vertex" (Python, Graph.add_vertex,
    graphrox-py/graphrox/__init__.py:334) *)

(** In a directed graph the edges go the other way. *)
Theorem C103_edges_to_refuted : exists e h a v t h',
  wf_alloc_fn (ce_alloc e) /\ a <> null /\ h !! a = Some (OGraph new_directed) /\
  fits_u64 v /\ fits_u64 t /\
  pyexec e (PAddVertex a v (Some [t])) h = PyDone PyNone h' /\
  pyexec e (PDoesEdgeExist a t v) h' = PyDone (PyBool false) h'.
Proof.
  exists env64, {[ 8 := OGraph new_directed ]}, 8, 5%Z, 3%Z,
    (<[8 := OGraph (add_vertex new_directed 5 (Some [3]))]> {[ 8 := OGraph new_directed ]}).
  assert (({[ 8 := OGraph new_directed ]} : cheap) !! 8 = Some (OGraph new_directed)) as Hh
    by apply lookup_singleton.
  assert (wf_alloc_fn (ce_alloc env64)) as Hwf by apply bump_alloc_wf.
  split_and!; [done|done|done|unfold fits_u64; lia|unfold fits_u64; lia| |].
  - destruct (C59_graph_changes env64 _ 8 _ ltac:(done) Hh Hwf) as (_ & _ & _ & H & _).
    apply (H 5%Z [3%Z]); [done|]. vm_compute. done.
  - destruct (C59_graph_queries env64 _ 8 (add_vertex new_directed 5 (Some [3])) ltac:(done)
      (lookup_insert {[ 8 := OGraph new_directed ]} 8 _)) as (_ & _ & _ & H & _). rewrite H. done.
Qed.
Print Assumptions C103_edges_to_refuted.

(** What holds: in every graph the edges go from the vertex to the listed ones; in an undirected
    graph also back.  The other edges are those of before.  Missing from C103: edges to the vertex
    in a directed graph; the code makes none. *)
Theorem C103_edges_from_partial p e h a g v ids : wf_platform p -> reach p g -> ce_platform e = p ->
  wf_alloc_fn (ce_alloc e) -> a <> null -> h !! a = Some (OGraph g) ->
  fits_u64 v -> Forall fits_u64 ids -> ids <> [] -> N.of_nat (length ids) <= usize_max p ->
  exists h', pyexec e (PAddVertex a v (Some ids)) h = PyDone PyNone h' /\
    (forall b, b <> a -> h' !! b = h !! b) /\
    forall x y, fits_u64 x -> fits_u64 y -> exists was is : bool,
      pyexec e (PDoesEdgeExist a x y) h = PyDone (PyBool was) h /\
      pyexec e (PDoesEdgeExist a x y) h' = PyDone (PyBool is) h' /\
      (is = true <-> was = true \/
        ((x < 2 ^ 64 - 1)%Z /\ (y < 2 ^ 64 - 1)%Z /\
         ((x = v /\ y ∈ ids) \/ (is_undirected g = true /\ y = v /\ x ∈ ids)))).
Proof.
  intros Hp Hr Hep Hwf Ha Hh Hv Hids Hne Hlen.
  destruct (C59_graph_changes e h a g Ha Hh Hwf) as (_ & _ & _ & Hadd & _).
  assert (forall z, fits_u64 z -> c_uint64 z = Z.to_N z) as Hz
    by (intros z; by apply (C59_integers p z)).
  eexists. split; [apply Hadd; [done|by rewrite Hep]|].
  split; [intros b Hb; by apply lookup_insert_ne|]. intros x y Hx Hy.
  destruct (C59_graph_queries e h a g Ha Hh) as (_ & _ & _ & Hq & _).
  destruct (C59_graph_queries e _ a _ Ha (lookup_insert h a (OGraph
    (add_vertex g (c_uint64 v) (Some (c_uint64 <$> ids)))))) as (_ & _ & _ & Hq' & _).
  eexists _, _. split; [apply Hq|]. split; [apply Hq'|].
  destruct (C11_add_vertex_partial p g (c_uint64 v) (c_uint64 <$> ids) Hp Hr) as (H & _).
  rewrite H, !Hz by done.
  assert (forall z, fits_u64 z -> Z.to_N z ∈ (c_uint64 <$> ids) <-> z ∈ ids) as Hin.
  { intros z Hfz. rewrite elem_of_list_fmap. rewrite Forall_forall in Hids. split.
    - intros (t & Ht & Hti). rewrite Hz in Ht by auto. pose proof (Hids t Hti).
      unfold fits_u64 in *. assert (z = t) as -> by lia. done.
    - intros Hi. exists z. by rewrite Hz by auto. }
  rewrite !Hin by done.
  assert (forall z w, fits_u64 z -> fits_u64 w -> Z.to_N z = Z.to_N w <-> z = w) as Heq.
  { unfold fits_u64. intros. lia. }
  rewrite !Heq by done.
  assert (forall z, fits_u64 z -> Z.to_N z < u64_max <-> (z < 2 ^ 64 - 1)%Z) as Hmax.
  { unfold fits_u64, u64_max. intros. lia. }
  by rewrite !Hmax.
Qed.
Print Assumptions C103_edges_from_partial.

Example C103_case :
  match pyexec env64 (PAddVertex 8 5 (Some [3%Z; 4%Z])) {[ 8 := OGraph new_directed ]} with
  | PyDone PyNone h =>
      match pyexec env64 (PDoesEdgeExist 8 5 3) h, pyexec env64 (PDoesEdgeExist 8 3 5) h with
      | PyDone (PyBool true) _, PyDone (PyBool false) _ => True
      | _, _ => False
      end
  | _ => False
  end.
Proof. vm_compute. exact I. Qed.
