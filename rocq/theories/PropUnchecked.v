(** Property C82: the unsafe constructor undirected_from_unchecked, inside and outside its
    contract; and the Display text of an adjacency matrix (C55). *)
From Coq Require Import Ascii String.
From Verif Require Import Base HashIter F64 Numeric Adj Sq Standard Compressed Spec MatSpec TextSpec
  Api AdjProofs SqProofs GraphProofs GraphMoreProofs BytesProofs GraphCodecProofs ApproxProofs
  TextProofs PropCommon PropGraph.
Local Arguments N.mul : simpl never.
Local Arguments N.add : simpl never.
Local Arguments N.pow : simpl never.

(** The contract of undirected_from_unchecked: if the entry at (col, row) is 1, so is the one
    at (row, col). *)
Definition symmetric (m : adj) : Prop :=
  forall c r, adj_get_entry m c r = 1 -> adj_get_entry m r c = 1.

Lemma symmetric_has m : symmetric m <-> (forall c r, adj_has m c r -> adj_has m r c).
Proof.
  split; intros H c r Hh; apply adj_get_entry_has; [apply H|apply H]; by apply adj_get_entry_has.
Qed.

(** ** C82: keeping to the contract gives the graph that undirected_from returns, which no
    later call can tell from one made safely. *)
Theorem C82_contract o m : adj_reach m ->
  (symmetric m <-> undirected_from o m = Ok (undirected_from_unchecked m)) /\
  (symmetric m -> forall p, reach p (undirected_from_unchecked m)).
Proof.
  intros Hm. pose proof (adj_reach_inv m Hm) as Hi.
  assert (symmetric m <-> undirected_from o m = Ok (undirected_from_unchecked m)) as Hiff.
  { rewrite symmetric_has. split; [by apply undirected_from_ok|]. intros H c r Hh.
    destruct (adj_get_entry_01 m r c) as [E|E]; [|by apply adj_get_entry_has].
    exfalso. destruct (undirected_from_err o m Hi) as [msg Hmsg]; [|congruence].
    intros Hs. apply adj_get_entry_not_has in E. auto. }
  split; [done|]. intros Hs p. by eapply r_undirected_from, Hiff.
Qed.
Print Assumptions C82_contract.

(** ** Reading: whatever the matrix, every call that only reads answers as on the directed
    graph of that matrix, but for the in-edges, which are the out-edges. *)
Definition mark_undirected (bytes : list N) : list N := <[24%nat := 1]> bytes.

Theorem C82_reading m : let u := undirected_from_unchecked m in let d := directed_from m in
  is_undirected u = true /\ vertex_count u = vertex_count d /\ edge_count u = edge_count d /\
  (forall a b, does_edge_exist u a b = does_edge_exist d a b) /\
  (forall o, graph_items o u = graph_items o d) /\
  (forall p, matrix_string p u = matrix_string p d) /\
  (forall p o b, find_avg_pool_matrix p o u b = find_avg_pool_matrix p o d b) /\
  (forall o v, get_vertex_out_edges o u v = get_vertex_out_edges o d v /\
     get_vertex_out_degree o u v = get_vertex_out_degree o d v /\
     get_vertex_in_edges o u v = get_vertex_out_edges o d v /\
     get_vertex_in_degree o u v = get_vertex_out_degree o d v) /\
  (forall p o, graph_to_bytes p o u =
     match graph_to_bytes p o d with
     | Ok bytes => Ok (mark_undirected bytes)
     | Err e => Err e
     end).
Proof.
  intros u d. split_and!; try done. intros p o. unfold graph_to_bytes.
  change (graph_bytes_size p u) with (graph_bytes_size p d).
  destruct (graph_bytes_size p d) as [sz|e]; simpl; [|done].
  destruct (can_alloc p sz); [|done]. f_equal.
  rewrite !fold_bytes_pairs. unfold mark_undirected. rewrite insert_app_l; [done|].
  simpl. lia.
Qed.
Print Assumptions C82_reading.

(** ** Compressing: the same words as for the directed graph, marked undirected. *)
Definition set_und (cg : cgraph) : cgraph :=
  CGraph (cg_edge_count cg) (cg_vertex_count cg) (cg_mat cg) true (cg_level cg).

Lemma ofold_map {A B C} (f : B -> A -> outcome B) (f' : C -> A -> outcome C) (h : B -> C) l b :
  (forall b a, f' (h b) a = obind (f b a) (fun b => Ret (h b))) ->
  ofold f' l (h b) = obind (ofold f l b) (fun b => Ret (h b)).
Proof.
  intros Hf. revert b. induction l as [|a l IH]; intros b; simpl; [done|].
  rewrite Hf. destruct (f b a); simpl; [apply IH|done..].
Qed.

Theorem C82_compress p o1 o2 m level :
  compress p o1 o2 (undirected_from_unchecked m) level =
  match compress p o1 o2 (directed_from m) level with
  | Ret cg => Ret (set_und cg)
  | Panic => Panic
  | OutOfFuel => OutOfFuel
  end.
Proof.
  unfold compress. set (t := compress_threshold _).
  change (find_avg_pool_matrix p o1 (undirected_from_unchecked m) 8) with
    (find_avg_pool_matrix p o1 (directed_from m) 8).
  destruct (find_avg_pool_matrix _ _ _ _) as [pool| |]; simpl; [|done..].
  change (builder_new true (vertex_count (undirected_from_unchecked m))
    (clamp_compression_level level)) with
    (set_und (builder_new false (vertex_count (directed_from m)) (clamp_compression_level level))).
  rewrite (ofold_map (fun builder '(entry, col, row) =>
       if f64_ge entry t then
         obind (encode_block p (directed_from m) col row) (fun '(compressed_entry, nodes_in_entry) =>
         Ret (builder_add builder compressed_entry col row (Some nodes_in_entry)))
       else Ret builder) _ set_und).
  - destruct (ofold _ _ _); simpl; done.
  - intros b [[e c] r]. destruct (f64_ge e t); [|done].
    change (encode_block p (undirected_from_unchecked m) c r) with
      (encode_block p (directed_from m) c r).
    by destruct (encode_block p (directed_from m) c r) as [[w k]| |].
Qed.
Print Assumptions C82_compress.

(** ** Calls that make a new graph edge by edge: the result has every edge both ways. *)
Record closes (d u : graph) : Prop := Closes {
  cl_d : is_undirected d = false;
  cl_u : is_undirected u = true;
  cl_n : vertex_count u = vertex_count d;
  cl_e : forall a b, does_edge_exist u a b = does_edge_exist d a b || does_edge_exist d b a;
}.

Record closes' (d u : graph) : Prop := {
  cl'_d : g_und d = false;
  cl'_u : g_und u = true;
  cl'_n : vertex_count u = vertex_count d;
  cl'_e : forall a b, has u a b <-> has d a b \/ has d b a;
}.

Lemma closes_intro d u : closes' d u -> closes d u.
Proof.
  intros [H1 H2 H3 H4]. constructor; try done. intros a b.
  destruct (does_edge_exist u a b) eqn:E; symmetry.
  - apply exists_has, H4 in E. apply orb_true_iff. by rewrite !exists_has.
  - apply exists_has_false in E. rewrite H4 in E. apply orb_false_iff.
    rewrite !exists_has_false. naive_solver.
Qed.

Lemma closes_add_edge d u a b : closes' d u -> closes' (add_edge d a b) (add_edge u a b).
Proof.
  intros [H1 H2 H3 H4]. constructor; [done..| |].
  - by rewrite !vc_add_edge, H3.
  - intros x y. rewrite !has_add_edge, H4, H1, H2. naive_solver.
Qed.

Lemma closes_grow d u v : closes' d u -> closes' (grow d v) (grow u v).
Proof.
  intros [H1 H2 H3 H4]. constructor; [by rewrite und_grow..| |].
  - unfold grow. rewrite H3. destruct (_ <=? _); [|done].
    unfold vertex_count, adj_dimension in *. simpl. by rewrite !adj_dim_set, H3.
  - intros x y. by rewrite !has_grow.
Qed.

Lemma closes_new : closes' new_directed new_undirected.
Proof.
  constructor; [done..|]. intros a b. unfold new_directed, new_undirected.
  pose proof (not_has_new true a b). pose proof (not_has_new false a b).
  pose proof (not_has_new false b a). naive_solver.
Qed.

(** Equal outcomes up to closing the graph. *)
Definition oclose (d u : outcome graph) : Prop :=
  match d, u with
  | Ret d, Ret u => closes d u
  | Panic, Panic => True
  | OutOfFuel, OutOfFuel => True
  | _, _ => False
  end.
Definition orel {A B} (R : A -> B -> Prop) (x : outcome A) (y : outcome B) : Prop :=
  match x, y with
  | Ret a, Ret b => R a b
  | Panic, Panic => True
  | OutOfFuel, OutOfFuel => True
  | _, _ => False
  end.

Lemma orel_ofold {A B C} (R : B -> C -> Prop) (f : B -> A -> outcome B) (f' : C -> A -> outcome C) l :
  (forall b c a, R b c -> orel R (f b a) (f' c a)) ->
  forall b c, R b c -> orel R (ofold f l b) (ofold f' l c).
Proof.
  intros Hf. induction l as [|a l IH]; intros b c Hr; simpl; [done|].
  specialize (Hf b c a Hr). destruct (f b a), (f' c a); simpl in *; try done. by apply IH.
Qed.

Lemma closes_decompress_entry p item d u : closes' d u ->
  orel closes' (decompress_entry p d item) (decompress_entry p u item).
Proof.
  destruct item as [[e c] r]. intros Hc. unfold decompress_entry.
  set (f := fun '(g, curr) i => _).
  assert (orel (fun x y => closes' x.1 y.1 /\ x.2 = y.2)
    (ofold f (range 64) (d, 1)) (ofold f (range 64) (u, 1))) as H.
  { apply orel_ofold; [|done]. intros [d' k] [u' k'] i [Hcl Hk]. simpl in *. subst k'.
    destruct (N.land e k =? k); simpl; [|done].
    destruct (u64_mul p c _) as [x| |]; simpl; [|done..].
    destruct (u64_add p x _) as [x'| |]; simpl; [|done..].
    destruct (u64_mul p r _) as [y| |]; simpl; [|done..].
    destruct (u64_add p y _) as [y'| |]; simpl; [|done..].
    split; [|done]. by apply closes_add_edge. }
  destruct (ofold f (range 64) (d, 1)) as [[d' k]| |], (ofold f (range 64) (u, 1)) as [[u' k']| |];
    simpl in *; naive_solver.
Qed.

Lemma orel_close x y : orel closes' x y -> oclose x y.
Proof. destruct x, y; simpl; try done. apply closes_intro. Qed.

(** Decompressing a compressed graph that is marked undirected, whatever its words, gives the
    edges of the words both ways. *)
Theorem C82_decompress p o cg : cg_und cg = false ->
  oclose (decompress p o cg) (decompress p o (set_und cg)).
Proof.
  intros Hu. apply orel_close. unfold decompress. rewrite Hu. simpl.
  apply orel_ofold; [intros; by apply closes_decompress_entry|].
  destruct (0 <? cg_vertex_count cg); [|apply closes_new].
  rewrite !add_vertex_none. apply closes_grow, closes_new.
Qed.
Print Assumptions C82_decompress.

(** Approximating: the approximation of the directed graph with every edge both ways, unless
    the graph is returned as it is. *)
Theorem C82_approximate p o1 o2 m b t :
  let u := undirected_from_unchecked m in let d := directed_from m in
  (b <= 1 \/ vertex_count u <= 1 -> approximate p o1 o2 u b t = Ret u) /\
  (1 < b -> 1 < vertex_count u ->
     oclose (approximate p o1 o2 d b t) (approximate p o1 o2 u b t)).
Proof.
  intros u d. split.
  - intros H. unfold approximate.
    assert ((b <=? 1) || (vertex_count u <=? 1) = true) as ->; [|done].
    apply orb_true_iff. rewrite !N.leb_le. done.
  - intros Hb Hn. apply orel_close. unfold approximate.
    change (vertex_count d) with (vertex_count u).
    assert ((b <=? 1) || (vertex_count u <=? 1) = false) as ->.
    { apply orb_false_iff. rewrite !N.leb_gt. done. }
    set (b' := if vertex_count u <? b then vertex_count u else b).
    change (find_avg_pool_matrix p o1 u b') with (find_avg_pool_matrix p o1 d b').
    destruct (find_avg_pool_matrix p o1 d b') as [pool| |]; simpl; [|done..].
    set (n := blocks_per_row (vertex_count u) b' - 1). rewrite !add_vertex_none.
    assert (closes' (grow new_directed n) (grow new_undirected n)) as Hc
      by apply closes_grow, closes_new.
    revert Hc. generalize (grow new_directed n) (grow new_undirected n).
    induction (sq_items o2 pool) as [|[[e c] r] l IH]; intros x y Hc; simpl; [done|].
    apply IH. destruct (f64_ge e _); [by apply closes_add_edge|done].
Qed.
Print Assumptions C82_approximate.

(** ** Bytes: a graph outside the contract can be written but not read back. *)
Theorem C82_bytes m p o bytes k : adj_reach m -> ~ symmetric m ->
  wf_platform p -> has_card (fun '(c, r) => adj_get_entry m c r = 1) k -> k < 2 ^ 64 ->
  graph_to_bytes p o (undirected_from_unchecked m) = Ok bytes ->
  forall p', wf_platform p' -> is_slice p' bytes ->
  exists e, graph_try_from p' bytes = Ret (Err e).
Proof.
  intros Hm Hns Hp Hk Hk64 Hb p' Hp' Hs. pose proof (adj_reach_inv m Hm) as Hi.
  destruct (graph_try_from_spec p' bytes Hp' Hs) as [(e & He & _)|(und & n & l & Heq & Hg & _)];
    [by eauto|]. exfalso. apply Hns, symmetric_has.
  set (u := undirected_from_unchecked m) in *.
  pose proof (directed_from_inv m Hi) as Hd.
  assert (graph_items o u = graph_items o (directed_from m)) as Hit by done.
  pose proof (items_good o _ Hd) as Hgd. rewrite <- Hit in Hgd.
  apply graph_to_bytes_file in Hb.
  assert (has_card (fun '(a, b) => does_edge_exist (directed_from m) a b = true) k) as Hk'.
  { eapply has_card_ext; [|exact Hk]. intros [c r]. rewrite exists_has.
    by rewrite adj_get_entry_has. }
  assert (k = N.of_nat (length (graph_items o u))) as Hlen.
  { eapply has_card_unique; [exact Hk'|]. rewrite Hit. by apply items_card. }
  assert (edge_count u = N.of_nat (length (graph_items o u))) as Hec.
  { change (edge_count u) with (edge_count (directed_from m)).
    rewrite (edge_count_card _ k) by done. rewrite N.mod_small by done. done. }
  rewrite Hec in Hb. rewrite Hb in Heq.
  assert (N.of_nat (length l) < two64) as Hl.
  { eapply (good_file_len und n l p'); [done|]. by rewrite <- Heq, <- Hb. }
  apply graph_file_inj in Heq as (<- & <- & _ & Hll);
    [|apply Hgd|apply Hg|by rewrite <- Hlen|done|eapply bound_u64; apply Hgd|eapply bound_u64; apply Hg].
  subst l. destruct Hg as [_ _ (dl & Hnd & Hdl & Hlen')]. simpl in Hdl.
  assert (NoDup (graph_items o u)) as Hndi by apply NoDup_adj_items, Hi.
  assert (graph_items o u ⊆+ dl) as Hsub.
  { apply NoDup_submseteq; [done|]. intros x Hx. apply Hdl. by left. }
  assert (graph_items o u ≡ₚ dl) as Hperm by (apply submseteq_Permutation_length_le; [lia|done]).
  intros c r Hh. apply (elem_of_adj_items o); [done|]. fold (graph_items o u).
  change (adj_items o m) with (graph_items o u). rewrite Hperm. apply Hdl. right.
  split; [done|]. simpl. by apply (elem_of_adj_items o).
Qed.
Print Assumptions C82_bytes.

(** ** Changing edges works as usual, and adding every edge again mends the graph. *)
Theorem C82_changing m a b : let u := undirected_from_unchecked m in
  (forall x y, does_edge_exist (add_edge u a b) x y = true <->
     does_edge_exist u x y = true \/
     (a < 2 ^ 64 - 1 /\ b < 2 ^ 64 - 1 /\ ((x, y) = (a, b) \/ (x, y) = (b, a)))) /\
  (forall x y, does_edge_exist (delete_edge u a b) x y = true <->
     does_edge_exist u x y = true /\ (x, y) <> (a, b) /\ (x, y) <> (b, a)).
Proof.
  intros u. split; intros x y.
  - rewrite !exists_has, has_add_edge. change (g_und u) with true.
    unfold both_valid. rewrite andb_true_iff, !N.ltb_lt. change u64_max with (2 ^ 64 - 1).
    naive_solver.
  - rewrite !exists_has, has_delete_edge. change (g_und u) with true. naive_solver.
Qed.
Print Assumptions C82_changing.

Lemma adj_inv_fold_add_edge l g : adj_inv (g_adj g) ->
  adj_inv (g_adj (fold_left (fun g '(a, b) => add_edge g a b) l g)).
Proof.
  revert g. induction l as [|[a b] l IH]; intros g Hi; simpl; [done|].
  apply IH. unfold add_edge. simpl. destruct (g_und g); auto using adj_inv_set.
Qed.

Theorem C82_mending m o : adj_reach m ->
  let u := undirected_from_unchecked m in
  let g := fold_left (fun g '(a, b) => add_edge g a b) (graph_items o u) u in
  closes (directed_from m) g /\ symmetric (g_adj g) /\
  forall o, undirected_from o (g_adj g) = Ok g.
Proof.
  intros Hm u g. pose proof (adj_reach_inv m Hm) as Hi. pose proof (directed_from_inv m Hi) as Hd.
  assert (forall x y, (x, y) ∈ graph_items o u <-> has (directed_from m) x y) as Hin.
  { intros x y. by apply elem_of_adj_items. }
  assert (g_und g = true) as Hgu.
  { unfold g. rewrite (und_fold_add_edge (graph_items o u) u). done. }
  assert (forall x y, has g x y <-> has (directed_from m) x y \/ has (directed_from m) y x) as Hg.
  { intros x y. unfold g. rewrite (has_fold_add_edge (graph_items o u) u). change (g_und u) with true.
    rewrite !Hin. change (has u x y) with (has (directed_from m) x y). split; [naive_solver|].
    intros [H|H]; [by left|right].
    split; [rewrite both_valid_comm; by apply (has_valid (directed_from m))|by right]. }
  assert (closes' (directed_from m) g) as Hc.
  { constructor; [done|done| |done]. apply N.le_antisymm.
    - unfold g. apply vc_fold_add_edge; [done|]. intros x y Hxy. apply Hin in Hxy.
      by apply has_bound in Hxy.
    - apply (vc_fold_add_edge_mono (graph_items o u) u). }
  assert (forall c r, adj_has (g_adj g) c r -> adj_has (g_adj g) r c) as Hs.
  { intros c r. fold (has g c r) (has g r c). rewrite !Hg. naive_solver. }
  split_and!; [by apply closes_intro|by apply symmetric_has|]. intros o'.
  rewrite undirected_from_ok; [|by apply adj_inv_fold_add_edge|done].
  f_equal. clear - Hgu. destruct g. simpl in *. by subst.
Qed.
Print Assumptions C82_mending.

(** ** Any history of calls on such a graph acts as on a set of edges, of which add_edge and
    delete_edge treat both directions. *)
Record refines_adj (g : graph) (s : sgraph) : Prop := RefinesAdj {
  ra_inv : adj_inv (g_adj g);
  ra_und : g_und g = sg_und s;
  ra_n : vertex_count g = sg_n s;
  ra_E : forall u v, has g u v <-> (u, v) ∈ sg_E s;
}.

Lemma refines_adj_add_edge g s u v : refines_adj g s -> refines_adj (add_edge g u v) (s_add_edge s u v).
Proof.
  intros [Hi Hu Hn HE]. unfold s_add_edge. change (valid_id u && valid_id v) with (both_valid u v).
  constructor.
  - unfold add_edge. simpl. destruct (g_und g); auto using adj_inv_set.
  - rewrite und_add_edge. by destruct (both_valid u v).
  - rewrite vc_add_edge, Hn. by destruct (both_valid u v).
  - intros a b. rewrite has_add_edge, HE, Hu. destruct (both_valid u v); [|naive_solver].
    simpl. destruct (sg_und s); set_solver.
Qed.

Lemma refines_adj_step g s op : refines_adj g s -> refines_adj (step g op) (s_step s op).
Proof.
  intros Hr. destruct op as [v ts|u v|u v]; simpl.
  - assert (refines_adj (grow g v)
      (if valid_id v then SGraph (sg_und s) (N.max (sg_n s) (v + 1)) (sg_E s) else s)) as Hg.
    { destruct Hr as [Hi Hu Hn HE]. constructor.
      - unfold grow. destruct (_ <=? _); [|done]. by apply adj_inv_set.
      - rewrite und_grow. by destruct (valid_id v).
      - pose proof (vc_grow (directed_from (g_adj g)) v (directed_from_inv _ Hi)) as H.
        transitivity (vertex_count (grow (directed_from (g_adj g)) v)).
        + unfold grow. change (vertex_count (directed_from (g_adj g))) with (vertex_count g).
          by destruct (_ <=? _).
        + rewrite H. change (vertex_count (directed_from (g_adj g))) with (vertex_count g).
          rewrite Hn. by destruct (valid_id v).
      - intros a b. rewrite has_grow, HE. by destruct (valid_id v). }
    destruct ts as [[|t ts]|].
    + rewrite add_vertex_nil. done.
    + rewrite add_vertex_cons. unfold s_add_vertex. clear Hg.
      generalize (t :: ts). intros l. revert g s Hr.
      induction l as [|t' l IH]; intros g s Hr; simpl; [done|].
      apply IH, refines_adj_add_edge, Hr.
    + rewrite add_vertex_none. done.
  - by apply refines_adj_add_edge.
  - destruct Hr as [Hi Hu Hn HE]. constructor.
    + unfold delete_edge. simpl. destruct (g_und g); auto using adj_inv_zero.
    + done.
    + by rewrite vc_delete_edge.
    + intros a b. rewrite has_delete_edge, HE, Hu. simpl.
      destruct (sg_und s); set_solver.
Qed.

Theorem C82_history (m : adj) (E : gset (N * N)) ops : adj_reach m ->
  (forall c r, (c, r) ∈ E <-> adj_get_entry m c r = 1) ->
  let g := fold_left step ops (undirected_from_unchecked m) in
  let s := fold_left s_step ops (SGraph true (adj_dimension m) E) in
  is_undirected g = true /\ vertex_count g = sg_n s /\
  edge_count g = N.of_nat (size (sg_E s)) mod 2 ^ 64 /\
  forall u v, does_edge_exist g u v = bool_decide ((u, v) ∈ sg_E s).
Proof.
  intros Hm HE g s.
  assert (refines_adj g s /\ g_und g = true) as [Hr Hgu].
  { assert (refines_adj (undirected_from_unchecked m) (SGraph true (adj_dimension m) E)) as Hr.
    { constructor; [by apply adj_reach_inv|done|done|]. intros u v. rewrite HE.
      symmetry. apply adj_get_entry_has. }
    assert (g_und (undirected_from_unchecked m) = true) as Hu by done.
    unfold g, s. revert Hr Hu. generalize (undirected_from_unchecked m), (SGraph true (adj_dimension m) E).
    induction ops as [|op ops IH]; intros g0 s0 Hr Hu; simpl; [done|].
    apply IH; [by apply refines_adj_step|]. clear -Hu.
    destruct op as [v ts|u v|u v]; simpl; [|done|done].
    destruct ts as [[|t ts]|]; [rewrite add_vertex_nil; by rewrite und_grow| |rewrite add_vertex_none; by rewrite und_grow].
    rewrite add_vertex_cons. revert g0 Hu. generalize (t :: ts). intros l.
    induction l as [|t' l IH]; intros g Hu; simpl; [done|]. apply IH. by rewrite und_add_edge. }
  destruct Hr as [Hi Hu Hn HsE]. split_and!; [done|done| |].
  - change (edge_count g) with (adj_cnt (g_adj g)). rewrite (ai_cnt _ Hi). f_equal. f_equal.
    unfold size, set_size; simpl. apply Permutation_length.
    apply NoDup_Permutation; [apply NoDup_adj_list|apply NoDup_elements|].
    intros [u v]. rewrite elem_of_adj_list, elem_of_elements. apply HsE.
  - intros u v. apply Bool.eq_iff_eq_true. rewrite exists_has, bool_decide_eq_true. apply HsE.
Qed.
Print Assumptions C82_history.

(** The edge 2 -> 0 without its mirror; deleting 0 -> 2 removes it. *)
Example C82_history_case : exists m, adj_reach m /\
  (forall c r, (c, r) ∈ ({[(2, 0)]} : gset (N * N)) <-> adj_get_entry m c r = 1) /\
  edge_count (fold_left step [OpAddVertex 1 (Some [2])] (undirected_from_unchecked m)) = 3 /\
  edge_count (fold_left step [OpDeleteEdge 0 2] (undirected_from_unchecked m)) = 0.
Proof.
  exists (adj_set_entry adj_new 1 2 0). split_and!; [by repeat constructor| |by vm_compute..].
  intros c r. rewrite adj_get_entry_has, adj_has_set, elem_of_singleton.
  split.
  - intros [= -> ->]. by right.
  - intros [H|(_ & _ & -> & ->)]; [|done]. exfalso. by apply (not_has_new true c r).
Qed.

(** Non-vacuity: one entry in one direction. *)
Definition one_way : adj := adj_set_entry adj_new 1 2 0.
Example C82_case : adj_reach one_way /\ ~ symmetric one_way /\
  (let u := undirected_from_unchecked one_way in
   does_edge_exist u 2 0 = true /\ does_edge_exist u 0 2 = false /\
   get_vertex_in_edges plain_order u 2 = [0] /\ get_vertex_in_edges plain_order (directed_from one_way) 2 = [] /\
   match graph_to_bytes plat64 plain_order u with
   | Ok bytes => graph_try_from plat64 bytes =
       Ret (Err (InvalidFormat "Graph edge count does not match header"))
   | Err _ => False
   end).
Proof.
  split; [by repeat constructor|]. split.
  - intros H. assert (adj_get_entry one_way 0 2 = 1) as Hc by (by apply H). by vm_compute in Hc.
  - split_and!; by vm_compute.
Qed.
Example C82_case_mended :
  let g := fold_left (fun g '(a, b) => add_edge g a b)
    (graph_items plain_order (undirected_from_unchecked one_way)) (undirected_from_unchecked one_way) in
  edge_count g = 2 /\ does_edge_exist g 0 2 = true.
Proof. by vm_compute. Qed.

(** ** C55: the Display text of an adjacency matrix is the text of the graph it describes, and
    fmt::Error where that text cannot be made. *)
Theorem C55_display p m : wf_platform p -> adj_reach m ->
  (forall s, adj_display p m = Some s <-> matrix_string p (directed_from m) = Ok s) /\
  (forall s, adj_display p m = Some s -> s = matrix_text (adj_dimension m)
     (fun c r => if adj_get_entry m c r =? 1 then txt "1" else txt "0")) /\
  (adj_dimension m = 0 -> adj_display p m = Some []) /\
  (adj_dimension m <> 0 ->
     let n := adj_dimension m in
     (exists s, adj_display p m = Some s) <->
     3 * (n * n) + 4 * n <= usize_max p /\ can_alloc p (3 * (n * n) + 4 * n - 2) = true).
Proof.
  intros Hp Hm. pose proof (r_directed_from p m Hm) as Hr.
  destruct (C12_matrix_string_layout p _ Hp Hr) as (H1 & _ & H3 & H4).
  assert (forall s, adj_display p m = Some s <-> matrix_string p (directed_from m) = Ok s) as Hiff.
  { intros s. unfold adj_display, matrix_string. simpl. destruct (adj_try_to_string p m); naive_solver. }
  split_and!; [done| | |].
  - intros s Hs. apply Hiff, H1 in Hs as [-> _]. apply matrix_text_ext. intros c r _ _.
    unfold does_edge_exist. simpl. by destruct (adj_get_entry_01 m c r) as [->| ->].
  - intros Hn. by apply Hiff, H3.
  - intros Hn n. etransitivity; [|exact (H4 Hn)].
    split; intros [s Hs]; exists s; by apply Hiff.
Qed.
Print Assumptions C55_display.

Example C55_display_case : adj_display plat64 (adj_set_entry adj_new 1 0 1) =
  Some (txt "[ 0, 0 ]" ++ [cr; lf] ++ txt "[ 1, 0 ]").
Proof. by vm_compute. Qed.
