(** Facts about the standard graph: invariant, mutators, refinement of the abstract
    graph. *)
From Verif Require Import Base HashIter HashIterProofs Adj Spec AdjProofs Standard Api.

Definition has (g : graph) (u v : N) : Prop := adj_has (g_adj g) u v.

Lemma exists_has g u v : does_edge_exist g u v = true <-> has g u v.
Proof.
  unfold does_edge_exist, has. rewrite negb_true_iff, N.eqb_neq.
  rewrite adj_get_entry_not_has. destruct (decide (adj_has (g_adj g) u v)); naive_solver.
Qed.

Lemma exists_has_false g u v : does_edge_exist g u v = false <-> ~ has g u v.
Proof. rewrite <- exists_has. destruct (does_edge_exist g u v); naive_solver. Qed.

Global Instance has_dec g u v : Decision (has g u v) := adj_has_dec (g_adj g) u v.

Lemma exists_eq_iff g g' u v u' v' :
  (has g u v <-> has g' u' v') -> does_edge_exist g u v = does_edge_exist g' u' v'.
Proof.
  intros H. rewrite <- !exists_has in H.
  destruct (does_edge_exist g u v), (does_edge_exist g' u' v'); naive_solver.
Qed.

Record graph_inv (g : graph) : Prop := GraphInv {
  gi_adj : adj_inv (g_adj g);
  gi_sym : g_und g = true -> forall u v, has g u v -> has g v u;
}.

(** ** Constructors and mutators *)

Lemma graph_inv_new und : graph_inv (Graph und adj_new).
Proof.
  constructor; [apply adj_inv_new|]. intros _ u v (s & Hs & _). simpl in Hs.
  rewrite lookup_empty in Hs. done.
Qed.

Lemma not_has_new und u v : ~ has (Graph und adj_new) u v.
Proof. intros (s & Hs & _). simpl in Hs. rewrite lookup_empty in Hs. done. Qed.

Lemma und_add_edge g u v : g_und (add_edge g u v) = g_und g.
Proof. done. Qed.

Lemma both_valid_comm u v : both_valid u v = both_valid v u.
Proof. unfold both_valid. by rewrite andb_comm. Qed.

Lemma has_add_edge g u v a b :
  has (add_edge g u v) a b <->
  has g a b \/ (both_valid u v = true /\
                ((a = u /\ b = v) \/ (g_und g = true /\ a = v /\ b = u))).
Proof.
  unfold has, add_edge; simpl. destruct (g_und g).
  - rewrite !adj_has_set, (both_valid_comm v u). naive_solver.
  - rewrite adj_has_set. naive_solver.
Qed.

Lemma vc_add_edge g u v :
  vertex_count (add_edge g u v) =
  if both_valid u v then N.max (vertex_count g) (N.max (u + 1) (v + 1)) else vertex_count g.
Proof.
  unfold vertex_count, adj_dimension, add_edge; simpl. destruct (g_und g).
  - rewrite !adj_dim_set, (both_valid_comm v u). destruct (both_valid u v); lia.
  - by rewrite adj_dim_set.
Qed.

Lemma graph_inv_add_edge g u v : graph_inv g -> graph_inv (add_edge g u v).
Proof.
  intros [Ha Hs]. constructor.
  - unfold add_edge; simpl. destruct (g_und g); auto using adj_inv_set.
  - simpl. intros Hu a b. rewrite !has_add_edge. intros [H|[Hv H]].
    + left. auto.
    + right. naive_solver.
Qed.

Lemma has_delete_edge g u v a b :
  has (delete_edge g u v) a b <->
  has g a b /\ ~ (a = u /\ b = v) /\ ~ (g_und g = true /\ a = v /\ b = u).
Proof.
  unfold has, delete_edge; simpl. destruct (g_und g).
  - rewrite !adj_has_zero. naive_solver.
  - rewrite adj_has_zero. naive_solver.
Qed.

Lemma vc_delete_edge g u v : vertex_count (delete_edge g u v) = vertex_count g.
Proof.
  unfold vertex_count, adj_dimension, delete_edge; simpl.
  destruct (g_und g); by rewrite !adj_dim_zero.
Qed.

Lemma graph_inv_delete_edge g u v : graph_inv g -> graph_inv (delete_edge g u v).
Proof.
  intros [Ha Hs]. constructor.
  - unfold delete_edge; simpl. destruct (g_und g); auto using adj_inv_zero.
  - simpl. intros Hu a b. rewrite !has_delete_edge. naive_solver.
Qed.

(** The part of add_vertex that only touches the dimension. *)
Definition grow (g : graph) (v : N) : graph :=
  if vertex_count g <=? v then Graph (g_und g) (adj_set_entry (g_adj g) 0 v 0) else g.

Lemma has_grow g v a b : has (grow g v) a b <-> has g a b.
Proof.
  unfold grow. destruct (_ <=? _); [|done]. unfold has; simpl.
  rewrite adj_has_set. naive_solver.
Qed.

Lemma vc_grow g v : graph_inv g ->
  vertex_count (grow g v) = if valid_id v then N.max (vertex_count g) (v + 1) else vertex_count g.
Proof.
  intros Hi. unfold grow, valid_id.
  pose proof (ai_dim _ (gi_adj _ Hi)) as Hd. fold (adj_dimension (g_adj g)) in Hd.
  change (adj_dimension (g_adj g)) with (vertex_count g) in Hd.
  destruct (N.leb_spec (vertex_count g) v) as [Hle|Hle].
  - unfold vertex_count at 1, adj_dimension; simpl. rewrite adj_dim_set.
    unfold both_valid. unfold vertex_count, adj_dimension in *.
    destruct (N.ltb_spec v u64_max); simpl; [lia|done].
  - unfold two64, u64_max in *. destruct (N.ltb_spec v 18446744073709551615); lia.
Qed.

Lemma cnt_grow g v : edge_count (grow g v) = edge_count g.
Proof.
  unfold grow. destruct (_ <=? _); [|done].
  unfold edge_count, adj_entry_count; simpl. rewrite adj_cnt_set. simpl.
  rewrite andb_false_r. done.
Qed.

Lemma und_grow g v : g_und (grow g v) = g_und g.
Proof. unfold grow. by destruct (_ <=? _). Qed.

Lemma graph_inv_grow g v : graph_inv g -> graph_inv (grow g v).
Proof.
  intros Hi. constructor.
  - unfold grow. destruct (_ <=? _); [|apply Hi]. apply adj_inv_set, Hi.
  - rewrite und_grow. intros Hu a b. rewrite !has_grow. by apply Hi.
Qed.

Lemma add_vertex_none g v : add_vertex g v None = grow g v.
Proof. unfold add_vertex, grow. simpl. done. Qed.

Lemma add_vertex_nil g v : add_vertex g v (Some []) = grow g v.
Proof. unfold add_vertex, grow. simpl. done. Qed.

Lemma add_vertex_cons g v t ts :
  add_vertex g v (Some (t :: ts)) = fold_left (fun g edge => add_edge g v edge) (t :: ts) g.
Proof. unfold add_vertex. simpl. done. Qed.

Lemma graph_inv_fold_add_edge l g :
  graph_inv g -> graph_inv (fold_left (fun g '(u, v) => add_edge g u v) l g).
Proof.
  revert g. induction l as [|[u v] l IH]; intros g Hi; simpl; [done|].
  apply IH, graph_inv_add_edge, Hi.
Qed.

Lemma graph_inv_fold_star v l g :
  graph_inv g -> graph_inv (fold_left (fun g t => add_edge g v t) l g).
Proof.
  revert g. induction l as [|t l IH]; intros g Hi; simpl; [done|].
  apply IH, graph_inv_add_edge, Hi.
Qed.

Lemma graph_inv_add_vertex g v ts : graph_inv g -> graph_inv (add_vertex g v ts).
Proof.
  intros Hi. destruct ts as [[|t ts]|].
  - rewrite add_vertex_nil. by apply graph_inv_grow.
  - rewrite add_vertex_cons. by apply graph_inv_fold_star.
  - rewrite add_vertex_none. by apply graph_inv_grow.
Qed.

(** A batch of insertions. *)
Lemma has_fold_add_edge l g a b :
  has (fold_left (fun g '(u, v) => add_edge g u v) l g) a b <->
  has g a b \/ (both_valid a b = true /\
                ((a, b) ∈ l \/ (g_und g = true /\ (b, a) ∈ l))).
Proof.
  revert g. induction l as [|[u v] l IH]; intros g; simpl.
  - rewrite !elem_of_nil. naive_solver.
  - rewrite IH, und_add_edge, has_add_edge, !elem_of_cons.
    assert (both_valid b a = both_valid a b) as Hcomm by apply both_valid_comm.
    split.
    + intros [[H|[Hv [[-> ->]|(Hu & -> & ->)]]]|H]; [by left|..].
      * right. split; [done|]. left. by left.
      * right. split; [by rewrite both_valid_comm|]. right. split; [done|]. by left.
      * right. naive_solver.
    + intros [H|[Hv [[[= -> ->]|H]|[Hu [[= -> ->]|H]]]]].
      * left. by left.
      * left. right. split; [done|]. by left.
      * right. naive_solver.
      * left. right. split; [by rewrite both_valid_comm|]. right. done.
      * right. naive_solver.
Qed.

Lemma und_fold_add_edge l g :
  g_und (fold_left (fun g '(u, v) => add_edge g u v) l g) = g_und g.
Proof.
  revert g. induction l as [|[u v] l IH]; intros g; simpl; [done|]. by rewrite IH.
Qed.

Lemma vc_fold_add_edge l g n :
  vertex_count g <= n -> (forall u v, (u, v) ∈ l -> u < n /\ v < n) ->
  vertex_count (fold_left (fun g '(u, v) => add_edge g u v) l g) <= n.
Proof.
  revert g. induction l as [|[u v] l IH]; intros g Hg Hl; simpl; [done|].
  apply IH.
  - rewrite vc_add_edge. destruct (both_valid u v); [|done].
    destruct (Hl u v); [left|]. lia.
  - intros a b Hin. apply Hl. by right.
Qed.

Lemma vc_fold_add_edge_mono l g :
  vertex_count g <= vertex_count (fold_left (fun g '(u, v) => add_edge g u v) l g).
Proof.
  revert g. induction l as [|[u v] l IH]; intros g; simpl; [done|].
  etransitivity; [|apply IH]. rewrite vc_add_edge. destruct (both_valid u v); lia.
Qed.

(** ** Edge counts *)

Lemma edge_count_list g : graph_inv g ->
  edge_count g = N.of_nat (length (adj_list (g_adj g))) mod two64.
Proof. intros Hi. apply (ai_cnt _ (gi_adj _ Hi)). Qed.

Lemma has_card_edges g :
  has_card (fun '(u, v) => does_edge_exist g u v = true) (N.of_nat (length (adj_list (g_adj g)))).
Proof.
  exists (adj_list (g_adj g)). split_and!; [apply NoDup_adj_list| |done].
  intros [u v]. rewrite elem_of_adj_list, exists_has. done.
Qed.

Lemma edge_count_card g k : graph_inv g ->
  has_card (fun '(u, v) => does_edge_exist g u v = true) k -> edge_count g = k mod two64.
Proof.
  intros Hi Hk. rewrite edge_count_list by done.
  by rewrite (has_card_unique _ _ _ Hk (has_card_edges g)).
Qed.

Lemma has_bound g u v : graph_inv g -> has g u v -> u < vertex_count g /\ v < vertex_count g.
Proof. intros Hi H. apply (ai_bound _ (gi_adj _ Hi)), H. Qed.

Lemma vc_u64 g : graph_inv g -> vertex_count g < two64.
Proof. intros Hi. apply (ai_dim _ (gi_adj _ Hi)). Qed.

Lemma has_valid g u v : graph_inv g -> has g u v -> both_valid u v = true.
Proof.
  intros Hi H. apply has_bound in H; [|done]. pose proof (vc_u64 g Hi).
  unfold both_valid, two64, u64_max in *. apply andb_true_iff.
  rewrite !N.ltb_lt. lia.
Qed.

(** ** Refinement *)

Record refines (g : graph) (s : sgraph) : Prop := Refines {
  rf_inv : graph_inv g;
  rf_und : g_und g = sg_und s;
  rf_n : vertex_count g = sg_n s;
  rf_E : forall u v, has g u v <-> (u, v) ∈ sg_E s;
}.

Lemma refines_empty (und : bool) :
  refines (if und then new_undirected else new_directed) (s_empty und).
Proof.
  assert ((if und then new_undirected else new_directed) = Graph und adj_new) as ->
    by (by destruct und).
  constructor; [apply graph_inv_new|done..|].
  intros u v. split; [|set_solver]. intros H. by apply not_has_new in H.
Qed.

Lemma refines_add_edge g s u v : refines g s -> refines (add_edge g u v) (s_add_edge s u v).
Proof.
  intros [Hi Hu Hn HE]. unfold s_add_edge. fold (both_valid u v).
  change (valid_id u && valid_id v) with (both_valid u v).
  constructor.
  - by apply graph_inv_add_edge.
  - rewrite und_add_edge. by destruct (both_valid u v).
  - rewrite vc_add_edge, Hn. by destruct (both_valid u v).
  - intros a b. rewrite has_add_edge, HE, Hu. destruct (both_valid u v); [|naive_solver].
    simpl. destruct (sg_und s); set_solver.
Qed.

Lemma refines_step g s op : refines g s -> refines (step g op) (s_step s op).
Proof.
  intros Hr. destruct op as [v ts|u v|u v]; simpl.
  - assert (refines (grow g v)
      (if valid_id v then SGraph (sg_und s) (N.max (sg_n s) (v + 1)) (sg_E s) else s)) as Hg.
    { destruct Hr as [Hi Hu Hn HE]. constructor.
      - by apply graph_inv_grow.
      - rewrite und_grow. by destruct (valid_id v).
      - rewrite vc_grow, Hn by done. by destruct (valid_id v).
      - intros a b. rewrite has_grow, HE. by destruct (valid_id v). }
    destruct ts as [[|t ts]|].
    + rewrite add_vertex_nil. done.
    + rewrite add_vertex_cons. unfold s_add_vertex. clear Hg.
      generalize (t :: ts). intros l. revert g s Hr.
      induction l as [|t' l IH]; intros g s Hr; simpl; [done|].
      apply IH, refines_add_edge, Hr.
    + rewrite add_vertex_none. done.
  - by apply refines_add_edge.
  - destruct Hr as [Hi Hu Hn HE]. constructor.
    + by apply graph_inv_delete_edge.
    + done.
    + by rewrite vc_delete_edge.
    + intros a b. rewrite has_delete_edge, HE, Hu. simpl.
      destruct (sg_und s); set_solver.
Qed.

Lemma refines_run (und : bool) ops :
  refines (run und ops) (s_run und ops).
Proof.
  unfold run, s_run.
  pose proof (refines_empty und) as Hr. revert Hr.
  generalize (if und then new_undirected else new_directed), (s_empty und).
  induction ops as [|op ops IH]; intros g s Hr; simpl; [done|].
  apply IH, refines_step, Hr.
Qed.

Lemma refines_edge_count g s : refines g s ->
  edge_count g = N.of_nat (size (sg_E s)) mod two64.
Proof.
  intros [Hi Hu Hn HE]. rewrite edge_count_list by done. f_equal. f_equal.
  unfold size, set_size; simpl. apply Permutation_length.
  apply NoDup_Permutation; [apply NoDup_adj_list|apply NoDup_elements|].
  intros [u v]. rewrite elem_of_adj_list, elem_of_elements. apply HE.
Qed.

(** ** Observable equality *)

Lemma same_graph_intro g g' :
  graph_inv g -> graph_inv g' -> g_und g = g_und g' -> vertex_count g = vertex_count g' ->
  (forall u v, has g u v <-> has g' u v) -> same_graph g g'.
Proof.
  intros Hi Hi' Hu Hn HE. split_and!; [done..| |].
  - rewrite !edge_count_list by done. f_equal. f_equal.
    apply Permutation_length, adj_list_perm. apply HE.
  - intros u v. apply exists_eq_iff, HE.
Qed.
