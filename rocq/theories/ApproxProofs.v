(** Graph::approximate, and the invariants of all reachable graphs. *)
From Verif Require Import Base HashIter HashIterProofs F64 Numeric Adj Sq Standard Spec Api
  Compressed AdjProofs SqProofs GraphProofs PoolProofs BitsProofs KeepTable CompressProofs
  BytesProofs GraphCodecProofs CGraphCodecProofs.
Local Arguments N.mul : simpl never.
Local Arguments N.add : simpl never.

Lemma block_count_sym g b c r : graph_inv g -> g_und g = true ->
  block_count g b c r = block_count g b r c.
Proof.
  intros Hi Hu. unfold block_count.
  rewrite <- (fmap_length (fun '(u, v) => (v, u)) (block_edges g b c r)).
  apply Permutation_length, NoDup_Permutation.
  - apply NoDup_fmap_2; [|apply NoDup_block_edges]. intros [? ?] [? ?]. congruence.
  - apply NoDup_block_edges.
  - intros [u v]. rewrite elem_of_list_fmap, elem_of_block_edges. split.
    + intros ([u' v'] & [= -> ->] & Hin). apply elem_of_block_edges in Hin as (Hh & ? & ?).
      split_and!; [|done..]. by apply (gi_sym g Hi Hu).
    + intros (Hh & ? & ?). exists (v, u). split; [done|]. apply elem_of_block_edges.
      split_and!; [|done..]. by apply (gi_sym g Hi Hu).
Qed.

(** Whether the threshold test keeps the block. *)
Definition survives (g : graph) (b square : N) (t : f64) (c r : N) : bool :=
  match occ_val (block_count g b c r) with
  | None => false
  | Some e => f64_ge (f64_mul e (pool_multiplier square)) t
  end.

Lemma survives_sym g b square t c r : graph_inv g -> g_und g = true ->
  survives g b square t c r = survives g b square t r c.
Proof. intros Hi Hu. unfold survives. by rewrite (block_count_sym g b c r). Qed.

Lemma approx_fold t (items : list (spec_float * N * N)) g :
  fold_left (fun acc '(entry, col, row) =>
     if f64_ge entry t then add_edge acc col row else acc) items g
  = add_edges (omap (fun '(e, c, r) => if f64_ge e t then Some (c, r) else None) items) g.
Proof.
  revert g. induction items as [|[[e c] r] items IH]; intros g; [done|]. cbn [fold_left omap list_omap].
  rewrite IH. by destruct (f64_ge e t).
Qed.

(** The graph produced by approximate. *)
Record approx_of (g : graph) (b square : N) (t : f64) (g' : graph) : Prop := ApproxOf {
  ao_inv : graph_inv g';
  ao_und : g_und g' = g_und g;
  ao_n : vertex_count g' = blocks_per_row (vertex_count g) b;
  ao_has : forall c r, has g' c r <-> survives g b square t c r = true;
}.

Lemma blocks_range n b : 1 <= b <= n -> 1 <= blocks_per_row n b <= n.
Proof.
  intros Hb. destruct (blocks_per_row_spec n b) as [H1 H2]; [lia|].
  specialize (H2 ltac:(lia)). split.
  - destruct (N.eq_dec (blocks_per_row n b) 0); [|lia]. nia.
  - nia.
Qed.

Lemma approximate_copy p o1 o2 g b t :
  b <= 1 \/ vertex_count g <= 1 -> approximate p o1 o2 g b t = Ret g.
Proof.
  intros H. unfold approximate.
  destruct (N.leb_spec b 1), (N.leb_spec (vertex_count g) 1); cbn [orb]; try done. lia.
Qed.

Lemma approximate_eq p o1 o2 g b0 t : graph_inv g -> 1 < b0 -> 1 < vertex_count g ->
  let b := N.min b0 (vertex_count g) in
  match u64_mul p b b with
  | Ret square => exists g', approximate p o1 o2 g b0 t = Ret g' /\
                    approx_of g b square (clamp_threshold t) g'
  | Panic => approximate p o1 o2 g b0 t = Panic
  | OutOfFuel => False
  end.
Proof.
  intros Hi Hb Hn b. unfold approximate.
  destruct (N.leb_spec b0 1); [lia|]. destruct (N.leb_spec (vertex_count g) 1); [lia|]. cbn [orb].
  assert ((if vertex_count g <? b0 then vertex_count g else b0) = b) as ->.
  { unfold b. destruct (N.ltb_spec (vertex_count g) b0); lia. }
  assert (clamp_block (vertex_count g) b = b) as Hcb by (apply clamp_block_id; unfold b; lia).
  pose proof (find_avg_pool_spec p o1 g b Hi ltac:(lia)) as [Hpool _]. rewrite Hcb in Hpool.
  destruct (u64_mul p b b) as [square| |] eqn:Emul.
  - cbn [obind] in Hpool.
    pose proof (find_avg_pool_ret p o1 g b _ Hi ltac:(lia) Hpool) as (sq' & Hsq' & Hof).
    rewrite Hcb in Hsq', Hof. rewrite Emul in Hsq'. injection Hsq' as <-.
    rewrite Hpool. cbn [obind]. eexists. split; [done|].
    destruct Hof as [Hinv Hdim Hval].
    rewrite approx_fold. fold (start_graph (g_und g)). rewrite add_vertex_none.
    set (g0 := grow (start_graph (g_und g)) (blocks_per_row (vertex_count g) b - 1)).
    set (l := omap _ _).
    destruct (start_facts (g_und g)) as (Hi0 & Hu0 & Hv0 & Hh0).
    pose proof (blocks_range (vertex_count g) b ltac:(unfold b; lia)) as Hbl.
    pose proof (vc_u64 g Hi) as Hn64.
    assert (graph_inv g0) as Hg0 by (by apply graph_inv_grow).
    assert (g_und g0 = g_und g) as Hug0 by (unfold g0; by rewrite und_grow).
    assert (vertex_count g0 = blocks_per_row (vertex_count g) b) as Hvg0.
    { unfold g0. rewrite vc_grow by done. unfold valid_id.
      destruct (N.ltb_spec (blocks_per_row (vertex_count g) b - 1) u64_max);
        unfold u64_max, two64 in *; lia. }
    assert (forall c r, (c, r) ∈ l <-> survives g b square (clamp_threshold t) c r = true) as Hl.
    { intros c r. unfold l. rewrite elem_of_list_omap. unfold survives. split.
      - intros ([[e c'] r'] & Hin & Hsome). apply elem_of_sq_items in Hin; [|done].
        destruct (f64_ge e (clamp_threshold t)) eqn:Ege; [|done]. injection Hsome as -> ->.
        rewrite Hval in Hin. destruct (occ_val _); [|done]. injection Hin as <-. done.
      - intros Hs. destruct (occ_val (block_count g b c r)) as [e|] eqn:Eo; [|done].
        exists (f64_mul e (pool_multiplier square), c, r). split.
        + apply elem_of_sq_items; [done|]. by rewrite Hval, Eo.
        + by rewrite Hs. }
    assert (forall c r, (c, r) ∈ l ->
      c < blocks_per_row (vertex_count g) b /\ r < blocks_per_row (vertex_count g) b) as Hlb.
    { intros c r Hin. unfold l in Hin. apply elem_of_list_omap in Hin as ([[e c'] r'] & Hin & Hsome).
      apply elem_of_sq_items in Hin; [|done]. destruct (f64_ge e _); [|done].
      injection Hsome as -> ->. rewrite <- Hdim. apply (si_bound _ Hinv). eauto. }
    constructor.
    + by apply graph_inv_fold_add_edge.
    + unfold add_edges. rewrite und_fold_add_edge. done.
    + apply N.le_antisymm.
      * apply vc_fold_add_edge; [lia|]. done.
      * rewrite <- Hvg0. apply vc_fold_add_edge_mono.
    + intros c r. unfold add_edges. rewrite has_fold_add_edge, Hug0, !Hl. split.
      * intros [H'|[_ [H'|[Hu H']]]].
        -- unfold g0 in H'. rewrite has_grow in H'. by apply Hh0 in H'.
        -- done.
        -- by rewrite survives_sym.
      * intros Hs. right. split; [|by left]. apply both_valid_lt.
        apply Hl, Hlb in Hs. unfold u64_max, two64 in *. lia.
  - by rewrite Hpool.
  - unfold u64_mul in Emul. destruct (_ <? _); [done|]. by destruct (overflow_checks p).
Qed.

Lemma approximate_inv p o1 o2 g b t g' : graph_inv g ->
  approximate p o1 o2 g b t = Ret g' -> graph_inv g'.
Proof.
  intros Hi Hret.
  destruct (N.le_gt_cases b 1) as [Hb|Hb].
  { rewrite approximate_copy in Hret by (by left). by injection Hret as <-. }
  destruct (N.le_gt_cases (vertex_count g) 1) as [Hn|Hn].
  { rewrite approximate_copy in Hret by (by right). by injection Hret as <-. }
  pose proof (approximate_eq p o1 o2 g b t Hi Hb Hn) as H. simpl in H.
  destruct (u64_mul p _ _) as [square| |]; [|congruence|done].
  destruct H as (g'' & Heq & Hof). rewrite Hret in Heq. injection Heq as <-. apply Hof.
Qed.

(** ** Reachable states *)

Lemma adj_reach_inv m : adj_reach m -> adj_inv m.
Proof.
  induction 1 as [|m e c r _ IH|m c r _ IH]; [apply adj_inv_new|by apply adj_inv_set|
    by apply adj_inv_zero].
Qed.

Lemma undirected_from_inv o m g : adj_inv m -> undirected_from o m = Ok g ->
  g = Graph true m /\ graph_inv g.
Proof.
  intros Hi. unfold undirected_from.
  destruct (forallb _ _) eqn:E; [|done]. intros [= <-]. split; [done|].
  constructor; [done|]. intros _ u v Hh. unfold has in *. simpl in *.
  apply (elem_of_adj_items o) in Hh; [|done]. rewrite forallb_forall in E.
  apply elem_of_list_In, E in Hh. apply N.eqb_eq in Hh. by apply adj_get_entry_has.
Qed.

Lemma directed_from_inv m : adj_inv m -> graph_inv (directed_from m).
Proof. intros Hi. by constructor. Qed.

Scheme reach_mut := Induction for reach Sort Prop
with creach_mut := Induction for creach Sort Prop.
Combined Scheme reach_creach_ind from reach_mut, creach_mut.

Lemma reach_inv_both p : wf_platform p ->
  (forall g, reach p g -> graph_inv g) /\ (forall cg, creach p cg -> cg_inv cg).
Proof.
  intros Hp.
  pose proof (reach_creach_ind p (fun g _ => graph_inv g) (fun cg _ => cg_inv cg)) as Hind.
  simpl in Hind. apply Hind; clear Hind.
  - apply graph_inv_new.
  - apply graph_inv_new.
  - intros m Hm. apply directed_from_inv. by apply adj_reach_inv.
  - intros o m g Hm Hg. apply undirected_from_inv in Hg as [_ Hg]; [done|]. by apply adj_reach_inv.
  - intros. by apply graph_inv_add_vertex.
  - intros. by apply graph_inv_add_edge.
  - intros. by apply graph_inv_delete_edge.
  - intros bytes g Hs Hg. apply graph_try_from_ok_inv in Hg as (und & n & l & _ & Hgood & ->); [|done..].
    apply decoded_facts; apply Hgood.
  - intros o1 o2 g b t g' _ Hi _ _ Hret. by eapply approximate_inv.
  - intros o cg g _ Hi Hret. destruct (decompress_spec p o cg Hi (ci_n cg Hi)) as (g' & Hg' & Hof).
    rewrite Hret in Hg'. injection Hg' as <-. apply Hof.
  - intros o1 o2 g l cg _ Hi _ Hret. destruct (compress_spec p o1 o2 g l Hi) as (cg' & Hcg' & Hof).
    rewrite Hret in Hcg'. injection Hcg' as <-. apply Hof.
  - intros bytes cg Hs Hok. apply cgraph_try_from_ok_inv in Hok as (und & n & lv & l & _ & Hg & ->);
      [|done..]. by apply cdecoded_facts.
Qed.

Lemma reach_inv p g : wf_platform p -> reach p g -> graph_inv g.
Proof. intros Hp. by apply reach_inv_both. Qed.

Lemma creach_inv p cg : wf_platform p -> creach p cg -> cg_inv cg.
Proof. intros Hp. by apply reach_inv_both. Qed.

Lemma reach_run p und ops : Forall (fun op => match op with
    | OpAddVertex v ts => is_u64 v /\ is_u64_slice (default [] ts)
    | OpAddEdge u v | OpDeleteEdge u v => is_u64 u /\ is_u64 v
    end) ops -> reach p (run und ops).
Proof.
  intros Hops. unfold run.
  assert (reach p (if und then new_undirected else new_directed)) as Hr
    by (destruct und; constructor).
  revert Hr. generalize (if und then new_undirected else new_directed).
  induction Hops as [|op ops Hop Hops IH]; intros g Hr; [done|]. simpl. apply IH.
  destruct op; simpl; destruct Hop; [by apply r_add_vertex|by apply r_add_edge|
    by apply r_delete_edge].
Qed.
