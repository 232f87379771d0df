(** Properties C01-C13 and C15: graphs. *)
From Coq Require Import Ascii String.
From Verif Require Import Base HashIter F64 Numeric Adj Sq Standard Compressed Spec Api
  HashIterProofs AdjProofs GraphProofs GraphCodecProofs GraphMoreProofs ApproxProofs
  TextProofs PropCommon.

(** ** C01: after any history of mutating calls, every observer answers as the
    mathematical graph after the same history. *)
Theorem C01_graph_refines_set_of_edges (und : bool) (ops : list gop) :
  is_undirected (run und ops) = sg_und (s_run und ops) /\
  vertex_count (run und ops) = sg_n (s_run und ops) /\
  edge_count (run und ops) = N.of_nat (size (sg_E (s_run und ops))) mod 2 ^ 64 /\
  forall u v, does_edge_exist (run und ops) u v = bool_decide ((u, v) ∈ sg_E (s_run und ops)).
Proof.
  pose proof (refines_run und ops) as Hr. split_and!.
  - apply (rf_und _ _ Hr).
  - apply (rf_n _ _ Hr).
  - by rewrite (refines_edge_count _ _ Hr).
  - intros u v. apply Bool.eq_iff_eq_true. rewrite exists_has, bool_decide_eq_true.
    apply (rf_E _ _ Hr).
Qed.
Print Assumptions C01_graph_refines_set_of_edges.

Example C01_case : vertex_count sample_dir = 9 /\ edge_count sample_dir = 4 /\
  edge_count sample_und = 7 /\ does_edge_exist sample_und 2 1 = true /\
  size (sg_E (s_run true sample_ops)) = 7%nat.
Proof. by vm_compute. Qed.

(** ** C02 *)
Theorem C02_vertex_count_growth p g : wf_platform p -> reach p g ->
  (forall u v, u < u64_max -> v < u64_max ->
     vertex_count (add_edge g u v) = N.max (vertex_count g) (N.max (u + 1) (v + 1))) /\
  (forall u v, vertex_count (delete_edge g u v) = vertex_count g) /\
  (forall v ts, v < u64_max -> ts = None \/ ts = Some [] ->
     vertex_count (add_vertex g v ts) = N.max (vertex_count g) (v + 1)) /\
  (forall op, vertex_count g <= vertex_count (step g op)).
Proof.
  intros Hp Hr. apply reach_inv in Hr; [|done]. split_and!.
  - intros u v Hu Hv. rewrite vc_add_edge. unfold both_valid.
    apply N.ltb_lt in Hu as ->. by apply N.ltb_lt in Hv as ->.
  - intros u v. apply vc_delete_edge.
  - intros v ts Hv Hts. apply N.ltb_lt in Hv.
    destruct Hts as [-> | ->]; [rewrite vc_add_vertex_none by done|rewrite vc_add_vertex_nil by done];
      unfold valid_id; by rewrite Hv.
  - intros op. by apply vc_step_mono.
Qed.
Print Assumptions C02_vertex_count_growth.

Example C02_case : reach plat64 sample_dir /\ vertex_count (add_edge sample_dir 3 20) = 21 /\
  vertex_count (add_vertex sample_dir 40 (Some [])) = 41.
Proof. split; [apply sample_dir_reach|by vm_compute]. Qed.

(** ** C03 *)
Theorem C03_undirected_symmetric p g : wf_platform p -> reach p g -> is_undirected g = true ->
  forall u v, does_edge_exist g u v = does_edge_exist g v u.
Proof.
  intros Hp Hr Hu u v. apply reach_inv in Hr; [|done]. apply exists_eq_iff.
  split; by apply (gi_sym g Hr Hu).
Qed.
Print Assumptions C03_undirected_symmetric.

Example C03_case : reach plat64 sample_und /\ is_undirected sample_und = true /\
  does_edge_exist sample_und 4 0 = true.
Proof. split; [apply sample_und_reach|by vm_compute]. Qed.

(** ** C04 *)
Theorem C04_edges_join_existing_vertices p g : wf_platform p -> reach p g ->
  vertex_count g < 2 ^ 64 /\
  forall u v, does_edge_exist g u v = true -> u < vertex_count g /\ v < vertex_count g.
Proof.
  intros Hp Hr. apply reach_inv in Hr; [|done]. split; [by apply vc_u64|].
  intros u v Huv. apply exists_has in Huv. by apply has_bound.
Qed.
Print Assumptions C04_edges_join_existing_vertices.

(** ** C05 *)
Theorem C05_edge_count p g : wf_platform p -> reach p g ->
  exists k, has_card (fun '(u, v) => does_edge_exist g u v = true) k /\
            edge_count g = k mod 2 ^ 64.
Proof.
  intros Hp Hr. apply reach_inv in Hr; [|done]. eexists. split; [apply has_card_edges|].
  by apply edge_count_list.
Qed.
Print Assumptions C05_edge_count.

(** A graph reached through most kinds of step: built, approximated, mutated. *)
Example C05_case : exists g,
  reach plat64 g /\ vertex_count g = 3 /\ edge_count g = 3 /\ does_edge_exist g 1 2 = true.
Proof.
  destruct (approximate plat64 plain_order reversed_order sample_dir 3 (f64_of_N 0)) as [g| |] eqn:E;
    [|by vm_compute in E|by vm_compute in E].
  exists (delete_edge (add_edge g 1 2) 0 0). split.
  - apply r_delete_edge; [apply r_add_edge; [|done..]|done..].
    apply (r_approximate plat64 plain_order reversed_order sample_dir 3 (f64_of_N 0));
      [apply sample_dir_reach|done|done|done].
  - vm_compute in E. injection E as <-. by vm_compute.
Qed.

(** ** C06: the iterator of any graph, run for long enough, yields a repetition-free list
    of exactly the edges, and then stays at its end. *)
Theorem C06_iteration p g o : wf_platform p -> reach p g ->
  exists items,
    (forall fuel, (length items < fuel)%nat ->
       hiter_run fuel (graph_into_iter o g) = Some items) /\
    NoDup items /\
    (forall u v, (u, v) ∈ items <-> does_edge_exist g u v = true) /\
    edge_count g = N.of_nat (length items) mod 2 ^ 64 /\
    (forall it it' : hiter N, hiter_next it = (None, it') -> hiter_next it' = (None, it')).
Proof.
  intros Hp Hr. apply reach_inv in Hr; [|done]. exists (graph_items o g). split_and!.
  - intros fuel Hf. unfold graph_items, adj_items, graph_into_iter in *.
    destruct (N.eq_dec (adj_dim (g_adj g)) 0) as [Hd|Hd].
    + rewrite hiter_items_zero in * by done. destruct fuel as [|fuel]; [simpl in Hf; lia|].
      unfold hiter_run, hiter_next. simpl. by rewrite Hd.
    + rewrite hiter_items_remaining in * by done. by apply hiter_run_spec.
  - apply NoDup_adj_items, Hr.
  - intros u v. rewrite exists_has. apply elem_of_adj_items, Hr.
  - rewrite edge_count_list by done. unfold graph_items.
    by rewrite (Permutation_length (adj_items_perm o _ (gi_adj _ Hr))).
  - apply hiter_next_end.
Qed.
Print Assumptions C06_iteration.

Example C06_case : graph_items plain_order sample_dir <> [] /\
  length (graph_items reversed_order sample_dir) = 4%nat.
Proof. by vm_compute. Qed.

(** ** C07 *)
Theorem C07_edge_lists_and_degrees p g o v : wf_platform p -> reach p g ->
  NoDup (get_vertex_out_edges o g v) /\
  (forall w, w ∈ get_vertex_out_edges o g v <-> does_edge_exist g v w = true) /\
  get_vertex_out_degree o g v = N.of_nat (length (get_vertex_out_edges o g v)) /\
  NoDup (get_vertex_in_edges o g v) /\
  (forall w, w ∈ get_vertex_in_edges o g v <-> does_edge_exist g w v = true) /\
  get_vertex_in_degree o g v = N.of_nat (length (get_vertex_in_edges o g v)).
Proof.
  intros Hp Hr. apply reach_inv in Hr; [|done].
  destruct (out_edges_spec o g v Hr) as (H1 & H2 & H3).
  destruct (in_edges_spec o g v Hr) as (H4 & H5 & H6).
  split_and!; [done| |done|done| |done]; intros w; by rewrite exists_has.
Qed.
Print Assumptions C07_edge_lists_and_degrees.

(** The degrees do not depend on the hash order. *)
Theorem C07_degrees_order_free p g o o' v : wf_platform p -> reach p g ->
  get_vertex_out_degree o g v = get_vertex_out_degree o' g v /\
  get_vertex_in_degree o g v = get_vertex_in_degree o' g v.
Proof. intros Hp Hr. apply degree_order. by apply (reach_inv p). Qed.
Print Assumptions C07_degrees_order_free.

Example C07_case : get_vertex_out_degree plain_order sample_dir 4 = 3 /\
  get_vertex_in_degree plain_order sample_dir 4 = 1 /\
  get_vertex_in_degree plain_order sample_und 0 = 1.
Proof. by vm_compute. Qed.

(** ** C08 *)
Theorem C08_degree_sums p g o k : wf_platform p -> reach p g ->
  has_card (fun '(u, v) => does_edge_exist g u v = true) k ->
  foldr N.add 0 (get_vertex_out_degree o g <$> range (vertex_count g)) = k /\
  foldr N.add 0 (get_vertex_in_degree o g <$> range (vertex_count g)) = k.
Proof.
  intros Hp Hr Hk. apply reach_inv in Hr; [|done].
  split; [by apply sum_out_degrees|by apply sum_in_degrees].
Qed.
Print Assumptions C08_degree_sums.

Example C08_case :
  has_card (fun '(u, v) => does_edge_exist sample_und u v = true) 7.
Proof.
  change 7 with (N.of_nat (length (graph_items plain_order sample_und))).
  apply items_card, (reach_inv plat64); [apply plat64_wf|apply sample_und_reach].
Qed.

(** ** C09 *)
Theorem C09_from_matrix o m : adj_reach m ->
  ((forall c r, adj_get_entry m c r = adj_get_entry m r c) ->
     exists g, undirected_from o m = Ok g /\ is_undirected g = true /\
       vertex_count g = adj_dimension m /\ edge_count g = adj_entry_count m /\
       forall u v, does_edge_exist g u v = negb (adj_get_entry m u v =? 0)) /\
  (~ (forall c r, adj_get_entry m c r = adj_get_entry m r c) ->
     exists msg, undirected_from o m = Err (InvalidFormat msg)) /\
  is_undirected (directed_from m) = false /\
  vertex_count (directed_from m) = adj_dimension m /\
  edge_count (directed_from m) = adj_entry_count m /\
  (forall u v, does_edge_exist (directed_from m) u v = negb (adj_get_entry m u v =? 0)).
Proof.
  intros Hm. apply adj_reach_inv in Hm.
  assert ((forall c r, adj_get_entry m c r = adj_get_entry m r c) <->
          (forall c r, adj_has m c r -> adj_has m r c)) as Hiff.
  { split.
    - intros H c r Hh. apply adj_get_entry_has. rewrite H. by apply adj_get_entry_has.
    - intros H c r. destruct (adj_get_entry_01 m c r) as [E|E]; rewrite E; symmetry.
      + apply adj_get_entry_not_has. intros Hh. apply adj_get_entry_not_has in E. auto.
      + apply adj_get_entry_has. apply adj_get_entry_has in E. auto. }
  split_and!; [| |done..].
  - intros H. exists (Graph true m). split; [|done]. apply undirected_from_ok; [done|]. by apply Hiff.
  - intros H. apply undirected_from_err; [done|]. by rewrite <- Hiff.
Qed.
Print Assumptions C09_from_matrix.

Definition sample_adj : adj := adj_set_entry (adj_set_entry (adj_set_entry adj_new 1 0 2) 1 2 0) 0 3 3.
Example C09_case : adj_reach sample_adj /\ adj_reach (adj_zero_entry sample_adj 0 2) /\
  (exists g, undirected_from plain_order sample_adj = Ok g /\ vertex_count g = 4) /\
  (exists msg, undirected_from plain_order (adj_zero_entry sample_adj 0 2) = Err (InvalidFormat msg)).
Proof.
  assert (adj_reach sample_adj) by (repeat apply ar_set; by try apply ar_new).
  split_and!; [done|by apply ar_zero|eexists; split; [by vm_compute|done]|eexists; by vm_compute].
Qed.

(** ** C10 *)
Theorem C10_edge_algebra p g : wf_platform p -> reach p g ->
  (forall u v, same_graph (add_edge (add_edge g u v) u v) (add_edge g u v)) /\
  (forall u v u' v',
     same_graph (add_edge (add_edge g u v) u' v') (add_edge (add_edge g u' v') u v)) /\
  (forall u v u' v',
     same_graph (delete_edge (delete_edge g u v) u' v')
       (delete_edge (delete_edge g u' v') u v)) /\
  (forall u v, same_graph (delete_edge (delete_edge g u v) u v) (delete_edge g u v)) /\
  (forall u v a b, does_edge_exist (delete_edge (add_edge g u v) u v) a b =
                   does_edge_exist (delete_edge g u v) a b) /\
  (forall u v, same_graph (add_edge (delete_edge g u v) u v) (add_edge g u v)) /\
  (forall u v, does_edge_exist g u v = false -> same_graph (delete_edge g u v) g) /\
  (forall u v, does_edge_exist g u v = true -> same_graph (add_edge g u v) g) /\
  (forall u v, u < u64_max -> v < u64_max -> does_edge_exist (add_edge g u v) u v = true) /\
  (forall u v, does_edge_exist (delete_edge g u v) u v = false) /\
  (forall u v a b, (a, b) <> (u, v) -> (is_undirected g = true -> (a, b) <> (v, u)) ->
     does_edge_exist (add_edge g u v) a b = does_edge_exist g a b /\
     does_edge_exist (delete_edge g u v) a b = does_edge_exist g a b).
Proof.
  intros Hp Hr. apply reach_inv in Hr; [|done]. split_and!; intros.
  - by apply add_edge_idem.
  - by apply add_edge_comm.
  - by apply delete_edge_comm.
  - by apply delete_edge_idem.
  - by apply add_delete_edge.
  - by apply delete_add_edge.
  - by apply delete_absent.
  - by apply add_present.
  - apply exists_has, has_add_edge. right. split; [|by left]. unfold both_valid.
    apply andb_true_iff. by rewrite !N.ltb_lt.
  - apply exists_has_false. rewrite has_delete_edge. naive_solver.
  - split; [by apply add_edge_other|by apply delete_edge_other].
Qed.
Print Assumptions C10_edge_algebra.

Example C10_case : reach plat64 sample_und /\
  does_edge_exist sample_und 1 2 = true /\ does_edge_exist sample_und 0 1 = false /\
  does_edge_exist (add_edge sample_und 0 1) 1 0 = true /\
  edge_count (delete_edge sample_und 1 2) = 5.
Proof. split; [apply sample_und_reach|by vm_compute]. Qed.

(** ** C11 is false of the code: with [u64::MAX] as only target the vertex is not added.

    (standard.rs:210-226: the slice is not empty, so the vertex is not grown separately,
    and add_edge ignores the target.) *)
Theorem C11_add_vertex_refuted : exists g v ts,
  reach plat64 g /\ is_u64 v /\ is_u64_slice ts /\ v <> u64_max /\
  ~ v < vertex_count (add_vertex g v (Some ts)).
Proof.
  exists new_directed, 0, [u64_max]. split_and!; [apply r_new_directed|done| |done|by vm_compute].
  by apply Forall_singleton.
Qed.
Print Assumptions C11_add_vertex_refuted.

(** What holds of every call: exactly the edges between valid ids are added; the vertex
    exists afterwards as soon as the slice is empty or names one valid id; the vertex count
    is the least one that covers the old one and every added edge; no slice is like an
    empty one.  Missing from C11: the vertex exists when every target is u64::MAX. *)
Theorem C11_add_vertex_partial p g v ts : wf_platform p -> reach p g ->
  (forall a b, does_edge_exist (add_vertex g v (Some ts)) a b = true <->
     does_edge_exist g a b = true \/
     (a < u64_max /\ b < u64_max /\
      ((a = v /\ b ∈ ts) \/ (is_undirected g = true /\ b = v /\ a ∈ ts)))) /\
  is_undirected (add_vertex g v (Some ts)) = is_undirected g /\
  (v < u64_max -> (ts = [] \/ exists t, t ∈ ts /\ t < u64_max) ->
     v < vertex_count (add_vertex g v (Some ts))) /\
  (ts <> [] -> (forall t, t ∈ ts -> u64_max <= t) -> add_vertex g v (Some ts) = g) /\
  (ts <> [] -> forall n, vertex_count (add_vertex g v (Some ts)) <= n <->
     vertex_count g <= n /\
     (v < u64_max -> forall t, t ∈ ts -> t < u64_max -> v < n /\ t < n)) /\
  add_vertex g v None = add_vertex g v (Some []).
Proof.
  intros Hp Hr. apply reach_inv in Hr; [|done]. split_and!.
  - intros a b. rewrite !exists_has, has_add_vertex. unfold valid_id. rewrite !N.ltb_lt. done.
  - unfold is_undirected. destruct ts as [|t ts].
    + rewrite add_vertex_nil. apply und_grow.
    + rewrite add_vertex_cons, fold_star_pairs. apply und_fold_add_edge.
  - intros Hv Hts. apply vc_add_vertex_some; [done|by apply N.ltb_lt|].
    destruct Hts as [->|(t & Ht & Hlt)]; [by right|left]. exists t. split; [done|by apply N.ltb_lt].
  - intros Hne Hts. apply add_vertex_ignored; [done|]. apply Forall_forall. intros t Ht.
    apply N.ltb_ge. auto.
  - intros Hne n. by apply vc_add_vertex_le.
  - done.
Qed.
Print Assumptions C11_add_vertex_partial.

Example C11_case : vertex_count (add_vertex sample_dir 30 (Some [u64_max; 3])) = 31 /\
  does_edge_exist (add_vertex sample_dir 30 (Some [u64_max; 3])) 30 3 = true.
Proof. by vm_compute. Qed.

(** ** C12: layout of the text of a graph. *)
Theorem C12_matrix_string_layout p g : wf_platform p -> reach p g ->
  (forall s, matrix_string p g = Ok s ->
     s = matrix_text (vertex_count g)
           (fun i j => if does_edge_exist g i j then txt "1" else txt "0") /\
     (vertex_count g <> 0 -> N.of_nat (length s) =
        3 * (vertex_count g * vertex_count g) + 4 * vertex_count g - 2)) /\
  (forall e, matrix_string p g = Err e -> exists msg, e = CapacityOverflow msg) /\
  (vertex_count g = 0 -> matrix_string p g = Ok []) /\
  (vertex_count g <> 0 ->
     (exists s, matrix_string p g = Ok s) <->
     3 * (vertex_count g * vertex_count g) + 4 * vertex_count g <= usize_max p /\
     can_alloc p (3 * (vertex_count g * vertex_count g) + 4 * vertex_count g - 2) = true).
Proof.
  intros Hp Hr.
  assert (forall c r, adj_cell (g_adj g) c r =
    if does_edge_exist g c r then txt "1" else txt "0") as Hcell.
  { intros c r. unfold adj_cell, does_edge_exist. by destruct (_ =? 0). }
  split_and!.
  - intros s Hs. unfold matrix_string in Hs.
    destruct (adj_string_eq p (g_adj g)) as [E|[msg E]]; rewrite E in Hs; [|done].
    injection Hs as <-. split.
    + apply matrix_text_ext. intros c r _ _. apply Hcell.
    + intros Hn. rewrite (matrix_text_length _ _ 1) by (intros; try apply adj_cell_length; done).
      done.
  - intros e He. unfold matrix_string in He.
    destruct (adj_string_eq p (g_adj g)) as [E|[msg E]]; rewrite E in He; [done|].
    injection He as <-. eauto.
  - intros Hn. unfold matrix_string, adj_try_to_string.
    change (adj_dim (g_adj g)) with (vertex_count g). by rewrite Hn.
  - intros Hn. by apply adj_string_ok_iff.
Qed.
Print Assumptions C12_matrix_string_layout.

Definition small_graph : graph := run false [OpAddEdge 0 1; OpAddEdge 1 1].
Example C12_case : exists s, matrix_string plat64 small_graph = Ok s /\
  s = txt "[ 0, 0 ]" ++ [cr; lf] ++ txt "[ 1, 1 ]" /\
  exists msg, matrix_string plat16 (add_vertex small_graph 200 None) = Err (CapacityOverflow msg).
Proof. eexists. split; [by vm_compute|]. split; [done|]. eexists. by vm_compute. Qed.

(** ** C13 *)
Theorem C13_matrix_string_injective p p' g g' s :
  wf_platform p -> wf_platform p' -> reach p g -> reach p' g' ->
  matrix_string p g = Ok s -> matrix_string p' g' = Ok s ->
  vertex_count g = vertex_count g' /\
  forall u v, does_edge_exist g u v = does_edge_exist g' u v.
Proof.
  intros Hp Hp' Hr Hr' Hs Hs'.
  apply (C12_matrix_string_layout p g Hp Hr) in Hs as [Hs _].
  apply (C12_matrix_string_layout p' g' Hp' Hr') in Hs' as [Hs' _]. subst s.
  apply (matrix_text_inj _ _ _ _ 1) in Hs' as [Hn Hc];
    [|intros; by destruct (does_edge_exist _ _ _)..].
  split; [done|]. intros u v.
  apply reach_inv in Hr; [|done]. apply reach_inv in Hr'; [|done].
  destruct (decide (u < vertex_count g /\ v < vertex_count g)) as [[Hu Hv]|Hout].
  - specialize (Hc u v Hu Hv).
    by destruct (does_edge_exist g u v), (does_edge_exist g' u v).
  - assert (does_edge_exist g u v = false) as ->.
    { apply exists_has_false. intros H. apply has_bound in H; [|done]. naive_solver. }
    symmetry. apply exists_has_false. intros H. apply has_bound in H; [|done].
    rewrite Hn in Hout. naive_solver.
Qed.
Print Assumptions C13_matrix_string_injective.

Example C13_case : exists s, matrix_string plat64 small_graph = Ok s /\ reach plat64 small_graph.
Proof. eexists. split; [by vm_compute|by apply reach_runb]. Qed.
