(** Degrees, counting identities and the algebra of the mutators. *)
From Verif Require Import Base HashIter HashIterProofs F64 Numeric Adj Sq Standard Spec Api
  Compressed AdjProofs SqProofs GraphProofs BitsProofs.
Local Arguments N.mul : simpl never.
Local Arguments N.add : simpl never.

(** ** Neighbour lists and degrees *)

Lemma out_edges_spec o g v : graph_inv g ->
  NoDup (get_vertex_out_edges o g v) /\
  (forall w, w ∈ get_vertex_out_edges o g v <-> has g v w) /\
  get_vertex_out_degree o g v = N.of_nat (length (get_vertex_out_edges o g v)).
Proof.
  intros Hi. unfold get_vertex_out_edges, get_vertex_out_degree. split_and!.
  - apply NoDup_sparse_col.
  - intros w. apply elem_of_sparse_col.
  - rewrite (adj_col_count_length o o). apply N.mod_small.
    eapply N.le_lt_trans; [apply NoDup_bounded_length|by apply vc_u64].
    + apply NoDup_sparse_col.
    + intros w Hw. apply elem_of_sparse_col in Hw. by apply (has_bound g v w Hi).
Qed.

Lemma in_edges_spec o g v : graph_inv g ->
  NoDup (get_vertex_in_edges o g v) /\
  (forall w, w ∈ get_vertex_in_edges o g v <-> has g w v) /\
  get_vertex_in_degree o g v = N.of_nat (length (get_vertex_in_edges o g v)).
Proof.
  intros Hi. unfold get_vertex_in_edges, get_vertex_in_degree. destruct (g_und g) eqn:Hu.
  - destruct (out_edges_spec o g v Hi) as (H1 & H2 & H3). split_and!; [done| |done].
    intros w. rewrite (H2 w). split; by apply (gi_sym g Hi Hu).
  - split_and!.
    + apply NoDup_sparse_row.
    + intros w. apply elem_of_sparse_row.
    + rewrite (adj_row_count_length o o). apply N.mod_small.
      eapply N.le_lt_trans; [apply NoDup_bounded_length|by apply vc_u64].
      * apply NoDup_sparse_row.
      * intros w Hw. apply elem_of_sparse_row in Hw. by apply (has_bound g w v Hi).
Qed.

Lemma degree_order o o' g v : graph_inv g ->
  get_vertex_out_degree o g v = get_vertex_out_degree o' g v /\
  get_vertex_in_degree o g v = get_vertex_in_degree o' g v.
Proof.
  intros Hi.
  destruct (out_edges_spec o g v Hi) as (H1 & H2 & ->).
  destruct (out_edges_spec o' g v Hi) as (H1' & H2' & ->).
  destruct (in_edges_spec o g v Hi) as (H3 & H4 & ->).
  destruct (in_edges_spec o' g v Hi) as (H3' & H4' & ->).
  split; f_equal; apply Permutation_length, NoDup_Permutation; try done.
  - intros w. by rewrite H2, H2'.
  - intros w. by rewrite H4, H4'.
Qed.

(** ** Sums of degrees *)

Definition sumN (l : list N) : N := foldr N.add 0 l.

(** A sum of lengths is the length of the concatenation. *)
Lemma sum_lengths {A B} (f : A -> list B) (l : list A) :
  sumN ((fun a => N.of_nat (length (f a))) <$> l) = N.of_nat (length (l ≫= f)).
Proof.
  induction l as [|a l IH]; [done|]. rewrite bind_cons, app_length, fmap_cons.
  cbn [sumN foldr]. fold (sumN ((fun a => N.of_nat (length (f a))) <$> l)). rewrite IH. lia.
Qed.

Lemma sum_out_degrees o g k : graph_inv g ->
  has_card (fun '(u, v) => does_edge_exist g u v = true) k ->
  sumN (get_vertex_out_degree o g <$> range (vertex_count g)) = k.
Proof.
  intros Hi Hk.
  assert (has_card (fun '(u, v) => does_edge_exist g u v = true)
    (N.of_nat (length (range (vertex_count g) ≫= fun v => (v,.) <$> get_vertex_out_edges o g v)))) as Hc.
  { eexists. split_and!; [| |done].
    - assert (NoDup (range (vertex_count g))) as Hnd by apply NoDup_range.
      induction (range (vertex_count g)) as [|v l IH]; [constructor|].
      apply NoDup_cons in Hnd as [Hv Hnd]. rewrite bind_cons. apply NoDup_app. split_and!.
      + apply NoDup_fmap_2; [intros ? ?; congruence|]. by apply out_edges_spec.
      + intros [x y] Hx Hy. apply elem_of_list_fmap in Hx as (? & [= -> ->] & _).
        apply elem_of_list_bind in Hy as (v' & Hy & Hv').
        apply elem_of_list_fmap in Hy as (? & [= -> ->] & _). done.
      + by apply IH.
    - intros [u v]. rewrite elem_of_list_bind, exists_has. split.
      + intros (u' & Hin & _). apply elem_of_list_fmap in Hin as (? & [= -> ->] & Hin).
        by apply out_edges_spec in Hin.
      + intros Hh. exists u. split.
        * apply elem_of_list_fmap. exists v. split; [done|]. by apply out_edges_spec.
        * apply elem_of_range. by apply (has_bound g u v Hi). }
  rewrite (has_card_unique _ _ _ Hk Hc), <- sum_lengths. f_equal. apply list_fmap_ext.
  intros i v _. rewrite fmap_length. by apply out_edges_spec.
Qed.

Lemma sum_in_degrees o g k : graph_inv g ->
  has_card (fun '(u, v) => does_edge_exist g u v = true) k ->
  sumN (get_vertex_in_degree o g <$> range (vertex_count g)) = k.
Proof.
  intros Hi Hk.
  assert (has_card (fun '(u, v) => does_edge_exist g u v = true)
    (N.of_nat (length (range (vertex_count g) ≫= fun v => (.,v) <$> get_vertex_in_edges o g v)))) as Hc.
  { eexists. split_and!; [| |done].
    - assert (NoDup (range (vertex_count g))) as Hnd by apply NoDup_range.
      induction (range (vertex_count g)) as [|v l IH]; [constructor|].
      apply NoDup_cons in Hnd as [Hv Hnd]. rewrite bind_cons. apply NoDup_app. split_and!.
      + apply NoDup_fmap_2; [intros ? ?; congruence|]. by apply in_edges_spec.
      + intros [x y] Hx Hy. apply elem_of_list_fmap in Hx as (? & [= -> ->] & _).
        apply elem_of_list_bind in Hy as (v' & Hy & Hv').
        apply elem_of_list_fmap in Hy as (? & [= -> ->] & _). done.
      + by apply IH.
    - intros [u v]. rewrite elem_of_list_bind, exists_has. split.
      + intros (v' & Hin & _). apply elem_of_list_fmap in Hin as (? & [= -> ->] & Hin).
        by apply in_edges_spec in Hin.
      + intros Hh. exists v. split.
        * apply elem_of_list_fmap. exists u. split; [done|]. by apply in_edges_spec.
        * apply elem_of_range. by apply (has_bound g u v Hi). }
  rewrite (has_card_unique _ _ _ Hk Hc), <- sum_lengths. f_equal. apply list_fmap_ext.
  intros i v _. rewrite fmap_length. by apply in_edges_spec.
Qed.

(** ** Vertex counts *)

Lemma vc_add_vertex_none g v : graph_inv g ->
  vertex_count (add_vertex g v None) =
  if valid_id v then N.max (vertex_count g) (v + 1) else vertex_count g.
Proof. intros Hi. rewrite add_vertex_none. by apply vc_grow. Qed.

Lemma vc_add_vertex_nil g v : graph_inv g ->
  vertex_count (add_vertex g v (Some [])) =
  if valid_id v then N.max (vertex_count g) (v + 1) else vertex_count g.
Proof. intros Hi. rewrite add_vertex_nil. by apply vc_grow. Qed.

Lemma fold_star_pairs v ts g :
  fold_left (fun g t => add_edge g v t) ts g
  = fold_left (fun g '(u, w) => add_edge g u w) ((v,.) <$> ts) g.
Proof. revert g. induction ts as [|t ts IH]; intros g; [done|]. simpl. apply IH. Qed.

Lemma vc_step_mono g op : graph_inv g -> vertex_count g <= vertex_count (step g op).
Proof.
  intros Hi. destruct op as [v ts|u v|u v]; simpl.
  - destruct ts as [[|t ts]|].
    + rewrite vc_add_vertex_nil by done. destruct (valid_id v); lia.
    + rewrite add_vertex_cons, fold_star_pairs. apply vc_fold_add_edge_mono.
    + rewrite vc_add_vertex_none by done. destruct (valid_id v); lia.
  - rewrite vc_add_edge. destruct (both_valid u v); lia.
  - by rewrite vc_delete_edge.
Qed.

(** ** add_vertex with targets *)

Lemma has_add_vertex g v ts a b :
  has (add_vertex g v ts) a b <->
  has g a b \/ (valid_id a = true /\ valid_id b = true /\
    ((a = v /\ b ∈ default [] ts) \/ (g_und g = true /\ b = v /\ a ∈ default [] ts))).
Proof.
  assert (both_valid a b = true <-> valid_id a = true /\ valid_id b = true) as Hbv.
  { unfold both_valid. by rewrite andb_true_iff. }
  destruct ts as [[|t ts]|]; simpl default.
  - rewrite add_vertex_nil, has_grow. setoid_rewrite elem_of_nil. naive_solver.
  - rewrite add_vertex_cons, fold_star_pairs, has_fold_add_edge, Hbv.
    rewrite !elem_of_list_fmap. split.
    + intros [H|[Hv H]]; [by left|]. right. split_and!; [apply Hv..|].
      destruct H as [(w & [= -> ->] & Hw)|[Hu (w & [= -> ->] & Hw)]]; [by left|by right].
    + intros [H|(Ha & Hb & H)]; [by left|]. right. split; [done|].
      destruct H as [[-> H]|(Hu & -> & H)]; [left; eauto|right; eauto].
  - rewrite add_vertex_none, has_grow. setoid_rewrite elem_of_nil. naive_solver.
Qed.

Lemma vc_add_vertex_some g v ts : graph_inv g -> valid_id v = true ->
  (exists t, t ∈ ts /\ valid_id t = true) \/ ts = [] ->
  v < vertex_count (add_vertex g v (Some ts)).
Proof.
  intros Hi Hv [(t & Ht & Hvt)| ->].
  - assert (has (add_vertex g v (Some ts)) v t) as Hh.
    { apply has_add_vertex. right. split_and!; [done..|]. left. done. }
    apply has_bound in Hh; [|by apply graph_inv_add_vertex]. apply Hh.
  - rewrite vc_add_vertex_nil, Hv by done. lia.
Qed.

(** When every target is u64::MAX nothing happens. *)
Lemma vc_add_vertex_le g v ts n : ts <> [] ->
  vertex_count (add_vertex g v (Some ts)) <= n <->
  vertex_count g <= n /\ (v < u64_max -> forall t, t ∈ ts -> t < u64_max -> v < n /\ t < n).
Proof.
  intros Hne. destruct ts as [|t0 ts0]; [done|]. rewrite add_vertex_cons. clear Hne.
  generalize (t0 :: ts0) as ts. clear t0 ts0. intros ts. revert g.
  induction ts as [|t ts IH]; intros g; cbn [fold_left].
  - split; [intros H; split; [done|]; intros _ t Ht; by apply elem_of_nil in Ht|tauto].
  - rewrite IH, vc_add_edge. unfold both_valid.
    setoid_rewrite elem_of_cons.
    destruct (N.ltb_spec v u64_max) as [Hv|Hv]; destruct (N.ltb_spec t u64_max) as [Ht|Ht]; simpl.
    + split.
      * intros [H1 H2]. split; [lia|]. intros _ x [->|Hx] Hx'; [lia|by apply H2].
      * intros [H1 H2]. destruct (H2 Hv t ltac:(by left) Ht). split; [lia|].
        intros _ x Hx Hx'. apply H2; auto.
    + split; (intros [H1 H2]; split; [done|]); intros _ x Hx Hx'; [destruct Hx as [->|Hx]; [lia|]|]; apply H2; auto.
    + split; (intros [H1 H2]; split; [done|]); lia.
    + split; (intros [H1 H2]; split; [done|]); lia.
Qed.

Lemma add_vertex_ignored g v ts : ts <> [] -> Forall (fun t => valid_id t = false) ts ->
  add_vertex g v (Some ts) = g.
Proof.
  intros Hne Hall. destruct ts as [|t ts]; [done|]. rewrite add_vertex_cons. clear Hne.
  revert g. induction Hall as [|x xs Hx Hall IH]; intros g; [done|]. cbn [fold_left].
  assert (add_edge g v x = g) as ->; [|apply IH].
  unfold add_edge. rewrite !adj_set_entry_unfold. unfold both_valid.
  unfold valid_id in Hx. rewrite Hx. rewrite andb_false_r. simpl.
  destruct g as [und m]. simpl. by destruct und.
Qed.

(** ** Algebra *)

Lemma add_edge_idem g u v : graph_inv g -> same_graph (add_edge (add_edge g u v) u v) (add_edge g u v).
Proof.
  intros Hi. apply same_graph_intro; [by repeat apply graph_inv_add_edge|by repeat apply graph_inv_add_edge|done| |].
  - rewrite !vc_add_edge. destruct (both_valid u v); lia.
  - intros a b. rewrite !has_add_edge. simpl. naive_solver.
Qed.

Lemma add_edge_comm g u v u' v' : graph_inv g ->
  same_graph (add_edge (add_edge g u v) u' v') (add_edge (add_edge g u' v') u v).
Proof.
  intros Hi. apply same_graph_intro; [by repeat apply graph_inv_add_edge|by repeat apply graph_inv_add_edge|done| |].
  - rewrite !vc_add_edge. destruct (both_valid u v), (both_valid u' v'); lia.
  - intros a b. rewrite !has_add_edge. simpl. tauto.
Qed.

Lemma delete_edge_comm g u v u' v' : graph_inv g ->
  same_graph (delete_edge (delete_edge g u v) u' v') (delete_edge (delete_edge g u' v') u v).
Proof.
  intros Hi. apply same_graph_intro; [by repeat apply graph_inv_delete_edge|by repeat apply graph_inv_delete_edge|done| |].
  - by rewrite !vc_delete_edge.
  - intros a b. rewrite !has_delete_edge. simpl. tauto.
Qed.

Lemma delete_edge_idem g u v : graph_inv g ->
  same_graph (delete_edge (delete_edge g u v) u v) (delete_edge g u v).
Proof.
  intros Hi. apply same_graph_intro; [by repeat apply graph_inv_delete_edge|by repeat apply graph_inv_delete_edge|done| |].
  - by rewrite !vc_delete_edge.
  - intros a b. rewrite !has_delete_edge. simpl. tauto.
Qed.

Lemma add_delete_edge g u v a b : graph_inv g ->
  does_edge_exist (delete_edge (add_edge g u v) u v) a b = does_edge_exist (delete_edge g u v) a b.
Proof.
  intros Hi. apply exists_eq_iff. rewrite !has_delete_edge, has_add_edge. simpl. tauto.
Qed.

(** Deleting then adding is adding, but for the vertex count of the deleted graph. *)
Lemma delete_add_edge g u v : graph_inv g ->
  same_graph (add_edge (delete_edge g u v) u v) (add_edge g u v).
Proof.
  intros Hi. apply same_graph_intro.
  - by apply graph_inv_add_edge, graph_inv_delete_edge.
  - by apply graph_inv_add_edge.
  - done.
  - rewrite !vc_add_edge, vc_delete_edge. done.
  - intros a b. rewrite !has_add_edge, has_delete_edge. simpl. split.
    + tauto.
    + intros [Hh|H]; [|by right].
      destruct (both_valid u v) eqn:Hv.
      * destruct (decide (a = u /\ b = v)) as [?|Hn1]; [tauto|].
        destruct (decide (g_und g = true /\ a = v /\ b = u)) as [?|Hn2]; [tauto|]. tauto.
      * left. split; [done|]. pose proof (has_valid g a b Hi Hh) as Hab. split.
        -- intros [-> ->]. congruence.
        -- intros (_ & -> & ->). rewrite both_valid_comm in Hab. congruence.
Qed.

Lemma delete_absent g u v : graph_inv g -> does_edge_exist g u v = false ->
  same_graph (delete_edge g u v) g.
Proof.
  intros Hi Hno. apply exists_has_false in Hno.
  apply same_graph_intro; [by apply graph_inv_delete_edge|done|done|by rewrite vc_delete_edge|].
  intros a b. rewrite has_delete_edge. split; [tauto|]. intros Hh. split_and!; [done| |].
  - intros [-> ->]. done.
  - intros (Hu & -> & ->). by apply Hno, (gi_sym g Hi Hu).
Qed.

Lemma add_present g u v : graph_inv g -> does_edge_exist g u v = true ->
  same_graph (add_edge g u v) g.
Proof.
  intros Hi Hh. apply exists_has in Hh.
  apply same_graph_intro; [by apply graph_inv_add_edge|done|done| |].
  - rewrite vc_add_edge, (has_valid g u v Hi Hh). apply has_bound in Hh; [lia|done].
  - intros a b. rewrite has_add_edge. split; [|tauto].
    intros [H|[_ [[-> ->]|(Hu & -> & ->)]]]; [done|done|]. by apply (gi_sym g Hi Hu).
Qed.

(** Other pairs are unaffected. *)
Lemma add_edge_other g u v a b :
  (a, b) <> (u, v) -> (g_und g = true -> (a, b) <> (v, u)) ->
  does_edge_exist (add_edge g u v) a b = does_edge_exist g a b.
Proof.
  intros H1 H2. apply exists_eq_iff. rewrite has_add_edge. naive_solver.
Qed.

Lemma delete_edge_other g u v a b :
  (a, b) <> (u, v) -> (g_und g = true -> (a, b) <> (v, u)) ->
  does_edge_exist (delete_edge g u v) a b = does_edge_exist g a b.
Proof.
  intros H1 H2. apply exists_eq_iff. rewrite has_delete_edge. naive_solver.
Qed.

(** u64::MAX is ignored. *)
Lemma add_edge_invalid g u v : both_valid u v = false -> add_edge g u v = g.
Proof.
  intros Hv. unfold add_edge. rewrite !adj_set_entry_unfold.
  rewrite (both_valid_comm v u), Hv. destruct g as [und m]. simpl. by destruct und.
Qed.

Lemma adj_set_invalid m e c r : both_valid c r = false -> adj_set_entry m e c r = m.
Proof. intros Hv. by rewrite adj_set_entry_unfold, Hv. Qed.

Lemma grow_invalid g v : valid_id v = false -> grow g v = g.
Proof.
  intros Hv. unfold grow. destruct (_ <=? _); [|done].
  rewrite adj_set_invalid by (unfold both_valid; unfold valid_id in Hv; by rewrite Hv).
  by destruct g.
Qed.

(** ** Graphs from matrices *)

Lemma undirected_from_ok o m : adj_inv m ->
  (forall c r, adj_has m c r -> adj_has m r c) -> undirected_from o m = Ok (Graph true m).
Proof.
  intros Hi Hs. unfold undirected_from.
  assert (forallb (fun '(col, row) => adj_get_entry m row col =? 1) (adj_items o m) = true) as ->; [|done].
  apply forallb_forall. intros [c r] Hin. apply elem_of_list_In, elem_of_adj_items in Hin; [|done].
  apply N.eqb_eq, adj_get_entry_has. auto.
Qed.

Lemma undirected_from_err o m : adj_inv m ->
  ~ (forall c r, adj_has m c r -> adj_has m r c) -> exists msg, undirected_from o m = Err (InvalidFormat msg).
Proof.
  intros Hi Hs. unfold undirected_from.
  destruct (forallb _ _) eqn:E; [|eauto]. exfalso. apply Hs. intros c r Hh.
  apply (elem_of_adj_items o) in Hh; [|done]. rewrite forallb_forall in E.
  apply elem_of_list_In, E in Hh. by apply N.eqb_eq, adj_get_entry_has in Hh.
Qed.
