(** Property C80, continued: why an object must go away only once.  After its [__del__] has run,
    every method of an object that holds memory is undefined behaviour, and so is a second
    [__del__]; two Python objects that share a handle, as [copy.copy] makes them, end that way. *)
From Coq Require Import ZArith Ascii String.
From Verif Require Import Base HashIter F64 Numeric Adj Sq Standard Compressed Spec Api CApi
  CSpec Py PySpec PyProg CProg PropCommon PropC PropPy PropCProg PropProg.

(** Nothing of the kind [k] at [a]. *)
Lemma pcall_gone e c h k a : takes c = Some (k, a) -> a <> null ->
  (forall x, h !! a = Some x -> ~ of_kind k x) -> pcall e c h = PyUB.
Proof.
  intros Ht Ha Hn. unfold pcall.
  assert (cexec e c h = UB) as ->; [|done].
  apply C81_contract. intros (Hk & _). destruct (Hk _ _ Ht) as [->|(x & Hx & Ho)]; [done|].
  by apply (Hn x).
Qed.

Lemma pcall_list_gone e c h a n (len_of : cobj -> option nat) : a <> null -> n <> 0 -> h !! a = None ->
  (contract h c -> whole_list h a n len_of) -> pcall e c h = PyUB.
Proof.
  intros Ha Hn Hx Hc. unfold pcall.
  assert (cexec e c h = UB) as ->; [|done].
  apply C81_contract. intros H. apply Hc in H. unfold whole_list in H.
  rewrite Hx in H. naive_solver.
Qed.


Lemma pbind_ub {A B} (x : pm A) (f : A -> pm B) h : x h = PyUB -> pbind x f h = PyUB.
Proof. intros H. unfold pbind. by rewrite H. Qed.
Lemma with_temp_ub {A} e x (f : addr -> pm A) h :
  (forall a, f a (<[a := x]> h) = PyUB) -> with_temp e x f h = PyUB.
Proof. intros H. unfold with_temp. by rewrite H. Qed.

(** The library has taken back the memory of [v]. *)
Definition gone (h : cheap) (v : pyval) : Prop :=
  exists a, memory_of v = Some a /\ a <> null /\ h !! a = None.

Ltac gone_step := first
  [ apply with_temp_ub; intros ? | apply pbind_ub ].
Ltac gone_solve Ha Hx := repeat gone_step;
  (eapply pcall_gone; [reflexivity|exact Ha|]); intros y Hy;
  first [ (rewrite Hx in Hy; discriminate Hy)
        | (apply lookup_insert_Some in Hy as [[_ <-]|[_ Hy]]; [cbn; tauto|rewrite Hx in Hy; discriminate Hy]) ].

(** Every method of such an object, and its [__del__], is undefined behaviour. *)
Theorem C80_gone e c h v : self_of c = Some v -> gone h v -> pyexec e c h = PyUB.
Proof.
  intros Hs (a & Hm & Ha & Hx).
  destruct c; cbn in Hs; try discriminate Hs; injection Hs as <-; cbn in Hm;
    try (destruct (N.eqb_spec size 0) as [?|Hn]; [discriminate Hm|]); injection Hm as ->;
    unfold pyexec, py_none, py_make, py_int, py_bool, py_bytes, py_string, py_list,
      pcall_none, pcall_num, pcall_ptr, pcall_double.
  all: try (by gone_solve Ha Hx).
  all: try (by repeat case_match; gone_solve Ha Hx).
  all: repeat gone_step; eapply (pcall_list_gone _ _ _ a size); [exact Ha|exact Hn|exact Hx|];
    intros (_ & _ & _ & H); exact H.
Qed.
Print Assumptions C80_gone.

(** Reading an element of such a list, or advancing an iterator that has not ended, as well. *)
Lemma ptr_item_gone {A} (list_of : cobj -> option (list A)) a i h : h !! a = None ->
  ptr_item list_of a i h = PyUB.
Proof. intros H. unfold ptr_item. by rewrite H. Qed.
Theorem C80_gone_elements {A} (list_of : cobj -> option (list A)) v a n h :
  v = PyEdgeList a n \/ v = PyVertexList a n \/ v = PyEntryList a n -> gone h v ->
  (forall i, py_getitem list_of a n i h =
     if decide (Z.of_N n <= i)%Z then PyRaise IndexError h else PyUB) /\
  (forall pos, py_next list_of a n pos h = if decide (pos = n) then PyRaise StopIteration h else PyUB).
Proof.
  intros Hv (b & Hm & Ha & Hx).
  assert (n <> 0 /\ b = a) as [Hn ->].
  { destruct Hv as [->|[->| ->]]; cbn in Hm; destruct (N.eqb_spec n 0); naive_solver. }
  split.
  - intros i. unfold py_getitem, praise.
    destruct (Z.leb_spec (Z.of_N n) i); [by rewrite decide_True|].
    rewrite decide_False by lia.
    destruct (Z.ltb_spec i 0); [|by apply ptr_item_gone].
    destruct (N.eqb_spec n 0); [done|]. by apply ptr_item_gone.
  - intros pos. unfold py_next, praise.
    destruct (N.eqb_spec pos n); [by rewrite decide_True|]. rewrite decide_False by done.
    apply pbind_ub. by apply ptr_item_gone.
Qed.
Print Assumptions C80_gone_elements.

(** Where an object that is alive and holds memory goes away, its memory is gone. *)
Lemma drop_gone p e h v : sound p h v -> is_Some (memory_of v) -> exists c h',
  del_call v = Some c /\ pyexec e c h = PyDone PyNone h' /\ gone h' v.
Proof.
  intros Hs [a Hm]. destruct (del_effect p e h v Hs) as (c & Hd & Hc). rewrite Hm in Hc.
  exists c, (delete a h). split_and!; [done..|]. exists a. split_and!; [done| |by rewrite lookup_delete].
  destruct v; cbn in Hs, Hm; try done; try (case_match; [done|]); injection Hm as ->; by destruct Hs.
Qed.

(** [copy.copy], and [_c_graph], make a second object with the same handle.  Where [v] is alive
    in a world a program can make and such a copy of it goes away, nothing is noticed; but then
    every method of [v] is undefined behaviour, and so is its own going away. *)
Theorem C80_shared_handle p w v e : wf_platform p -> py_world p w -> v ∈ w_live w -> is_Some (memory_of v) ->
  exists h, run_step (World (w_heap w) (v :: w_live w)) (SDrop e 0) = WOk (World h (w_live w)) /\
    (forall e' i, w_live w !! i = Some v -> run_step (World h (w_live w)) (SDrop e' i) = WUB) /\
    (forall e' c, self_of c = Some v -> run_step (World h (w_live w)) (SCall e' c) = WUB) /\
    (forall i j, w_live w !! i = Some v -> is_list v -> (j < Z.of_N (list_size v))%Z ->
       run_step (World h (w_live w)) (SItem i j) = WUB).
Proof.
  intros Hp Hw Hv Hm.
  destruct (world_owns p w Hp Hw) as [Hs _].
  rewrite Forall_forall in Hs. specialize (Hs v Hv).
  destruct (drop_gone p e _ v Hs Hm) as (c & h & Hd & Hc & Hg).
  assert (forall c', del_call v = Some c' -> self_of c' = Some v) as Hself.
  { intros c' H. by destruct v; cbn in H; try discriminate H; injection H as <-. }
  exists h. split_and!.
  - unfold run_step. cbn [w_live w_heap lookup list_lookup mbind option_bind]. rewrite Hd, Hc. done.
  - intros e' i Hi. unfold run_step. cbn [w_live w_heap]. rewrite Hi. cbn [mbind option_bind]. rewrite Hd.
    by rewrite (C80_gone e' c h v (Hself c Hd) Hg).
  - intros e' c' Hc'. unfold run_step. cbn [w_live w_heap]. by rewrite (C80_gone e' c' h v Hc' Hg).
  - intros i j Hi Hl Hj. unfold run_step. cbn [w_live w_heap]. rewrite Hi.
    destruct v; cbn in Hl; try done; cbn in Hj.
    + rewrite (proj1 (C80_gone_elements edges_of _ ptr size h (or_introl eq_refl) Hg)).
      by rewrite decide_False by lia.
    + rewrite (proj1 (C80_gone_elements vertices_of _ ptr size h (or_intror (or_introl eq_refl)) Hg)).
      by rewrite decide_False by lia.
    + rewrite (proj1 (C80_gone_elements entries_of _ ptr size h (or_intror (or_intror eq_refl)) Hg)).
      by rewrite decide_False by lia.
Qed.
Print Assumptions C80_shared_handle.

(** Objects that hold no memory, which are the empty lists, can go away any number of times. *)
Theorem C80_empty_again p w v e : wf_platform p -> py_world p w -> v ∈ w_live w -> memory_of v = None ->
  run_step (World (w_heap w) (v :: w_live w)) (SDrop e 0) = WOk w.
Proof.
  intros Hp Hw Hv Hm.
  destruct (world_owns p w Hp Hw) as [Hs _].
  rewrite Forall_forall in Hs. specialize (Hs v Hv).
  destruct (del_effect p e _ v Hs) as (c & Hd & Hc). rewrite Hm in Hc.
  unfold run_step. cbn [w_live w_heap lookup list_lookup mbind option_bind]. rewrite Hd, Hc. by destruct w.
Qed.
Print Assumptions C80_empty_again.

(** One graph, copied: the copy goes away, then the graph is asked for its number of vertices,
    or goes away itself. *)
Example C80_copy_case : exists w, run_steps (World ∅ []) [SCall env64 (PNew None)] = WOk w /\
  w_live w = [PyGraph 16] /\
  let w2 := World (w_heap w) (PyGraph 16 :: w_live w) in
  run_steps w2 [SCall env64 (PVertexCount 16); SCall env64 (PAddEdge 16 1 2)] <> WUB /\
  run_steps w2 [SDrop env64 0; SCall env64 (PVertexCount 16)] = WUB /\
  run_steps w2 [SDrop env64 0; SDrop env64 0] = WUB.
Proof.
  assert (forall r (P : world -> Prop), match r with WOk w => P w | _ => False end -> exists w, r = WOk w /\ P w) as H.
  { intros [] P HP; [by eexists|done..]. }
  apply H. vm_compute. split; [done|]. split; [discriminate|done].
Qed.
Example C80_gone_case : gone ∅ (PyVertexList 18 1) /\ ~ gone ∅ (PyVertexList 18 0) /\
  pyexec env64 (PDelVertices 18 1) ∅ = PyUB /\ pyexec env64 (PDelVertices 18 0) ∅ = PyDone PyNone ∅.
Proof. split_and!; [by exists 18| |done..]. by intros (a & [=] & _). Qed.
