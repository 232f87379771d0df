(** Structure of the average pool matrix: which cells are stored, and how often each was
    incremented.  Facts about the floating point values are in FloatProofs.v. *)
From Verif Require Import Base HashIter HashIterProofs F64 Numeric Adj Sq Standard Spec Api
  AdjProofs SqProofs GraphProofs.

(** The value of a cell after [k] increments. *)
Definition occ_val (k : nat) : option spec_float :=
  match k with
  | O => None
  | S k' => Some (Nat.iter k' (fun x => f64_add x f64_one) f64_one)
  end.

Definition bump (v : option spec_float) : option spec_float :=
  Some (match v with None => f64_one | Some x => f64_add x f64_one end).

Lemma bump_occ k : bump (occ_val k) = occ_val (S k).
Proof. by destruct k. Qed.

(** Number of occurrences of a cell in a list of increments. *)
Definition occurrences (cr : N * N) (l : list (N * N)) : nat := length (filter (eq cr) l).

Lemma iter_bump_succ n v : Nat.iter n bump (bump v) = bump (Nat.iter n bump v).
Proof. induction n as [|n IH]; simpl; [done|]. by rewrite IH. Qed.

Lemma iter_bump_occ n : Nat.iter n bump None = occ_val n.
Proof. induction n as [|n IH]; [done|]. simpl. by rewrite IH, bump_occ. Qed.

Lemma increment_fold p (l : list (N * N)) (m : sq spec_float) :
  sq_inv m -> (forall c r, (c, r) ∈ l -> both_valid c r = true) ->
  exists m', ofold (fun m '(c, r) => sq_increment_entry p f64_numeric m c r) l m = Ret m' /\
    sq_inv m' /\
    (forall c r, sq_val m' c r = Nat.iter (occurrences (c, r) l) bump (sq_val m c r)) /\
    (forall d, sq_dim m <= d -> (forall c r, (c, r) ∈ l -> c < d /\ r < d) -> sq_dim m' <= d).
Proof.
  revert m. induction l as [|[c0 r0] l IH]; intros m Hi Hl; simpl.
  - exists m. split_and!; [done..|]. by intros.
  - rewrite sq_increment_unfold. rewrite (Hl c0 r0) by left.
    assert (match sq_val m c0 r0 with
            | None => Ret (sq_put m (num_one f64_numeric) c0 r0)
            | Some e => obind (num_add_one f64_numeric p e) (fun e' => Ret (sq_put m e' c0 r0))
            end
            = Ret (sq_put m (match sq_val m c0 r0 with None => f64_one
                             | Some x => f64_add x f64_one end) c0 r0)) as ->.
    { by destruct (sq_val m c0 r0). }
    simpl.
    destruct (IH (sq_put m (match sq_val m c0 r0 with None => f64_one
                             | Some x => f64_add x f64_one end) c0 r0)) as (m' & Hm' & Hi' & Hv' & Hd').
    { apply sq_inv_put; [|done]. apply Hl. left. }
    { intros c r Hin. apply Hl. by right. }
    exists m'. split_and!; [done|done| |].
    + intros c r. rewrite Hv', sq_val_put. unfold occurrences at 2. rewrite filter_cons.
      destruct (decide ((c, r) = (c0, r0))) as [[= -> ->]|Hne].
      * rewrite decide_True by done. cbn [length]. rewrite Nat.iter_succ.
        fold (bump (sq_val m c0 r0)). by rewrite iter_bump_succ.
      * rewrite decide_False by naive_solver. done.
    + intros d Hd Hb. apply Hd'.
      * simpl. unfold dim_join. destruct (Hb c0 r0); [left|]. lia.
      * intros c r Hin. apply Hb. by right.
Qed.

(** ** Blocks of a graph *)

Definition block_edges (g : graph) (b c r : N) : list (N * N) :=
  filter (fun '(u, v) => u / b = c /\ v / b = r) (adj_list (g_adj g)).

Definition block_count (g : graph) (b c r : N) : nat := length (block_edges g b c r).

Lemma elem_of_block_edges g b c r u v :
  (u, v) ∈ block_edges g b c r <-> has g u v /\ u / b = c /\ v / b = r.
Proof.
  unfold block_edges. rewrite elem_of_list_filter, elem_of_adj_list. unfold has. naive_solver.
Qed.

Lemma NoDup_block_edges g b c r : NoDup (block_edges g b c r).
Proof. apply NoDup_filter, NoDup_adj_list. Qed.

Lemma block_has_count g b c r : block_has g b c r (N.of_nat (block_count g b c r)).
Proof.
  exists (block_edges g b c r). split_and!; [apply NoDup_block_edges| |done].
  intros [u v]. rewrite elem_of_block_edges, exists_has. done.
Qed.

Lemma block_has_eq g b c r k : block_has g b c r k -> block_count g b c r = N.to_nat k.
Proof.
  intros H. pose proof (has_card_unique _ _ _ H (block_has_count g b c r)). lia.
Qed.

Lemma block_count_bound g b c r : b <> 0 -> N.of_nat (block_count g b c r) <= b * b.
Proof.
  intros Hb. unfold block_count.
  rewrite <- (fmap_length (fun '(u, v) => (u mod b) * b + v mod b)).
  apply NoDup_bounded_length.
  - apply NoDup_fmap_2_strong; [|apply NoDup_block_edges].
    intros [u v] [u' v'] Hin Hin' Heq.
    apply elem_of_block_edges in Hin as (_ & Hu & Hv).
    apply elem_of_block_edges in Hin' as (_ & Hu' & Hv').
    pose proof (N.mod_lt u b Hb). pose proof (N.mod_lt v b Hb).
    pose proof (N.mod_lt u' b Hb). pose proof (N.mod_lt v' b Hb).
    destruct (N.div_mod_unique b (u mod b) (u' mod b) (v mod b) (v' mod b)) as [Eu Ev];
      [lia..|].
    rewrite (N.div_mod u b), (N.div_mod v b), (N.div_mod u' b), (N.div_mod v' b) by done.
    congruence.
  - intros x Hx. apply elem_of_list_fmap in Hx as ([u v] & -> & _).
    pose proof (N.mod_lt u b Hb). pose proof (N.mod_lt v b Hb). nia.
Qed.

Lemma block_count_pos g b c r :
  (0 < block_count g b c r)%nat <-> exists u v, has g u v /\ u / b = c /\ v / b = r.
Proof.
  unfold block_count. split.
  - intros H. destruct (block_edges g b c r) as [|[u v] l] eqn:E; [simpl in H; lia|].
    exists u, v. apply elem_of_block_edges. rewrite E. left.
  - intros (u & v & H). apply elem_of_block_edges in H.
    destruct (block_edges g b c r); [by apply elem_of_nil in H|]. simpl. lia.
Qed.

(** ** blocks_per_row is the ceiling of n/b *)

Lemma blocks_per_row_spec n b : b <> 0 ->
  b * blocks_per_row n b >= n /\ (n <> 0 -> b * (blocks_per_row n b - 1) < n).
Proof.
  intros Hb. unfold blocks_per_row. pose proof (N.div_mod n b Hb).
  pose proof (N.mod_lt n b Hb). generalize dependent (n / b). generalize dependent (n mod b).
  intros r Hr q Hq. destruct (N.eqb_spec r 0) as [->|Hr0].
  - rewrite N.add_0_r in *. split; [lia|]. intros Hn. destruct q as [|q] using N.peano_ind; [lia|].
    replace (N.succ q - 1) with q by lia. lia.
  - replace (q + 1 - 1) with q by lia. split; lia.
Qed.

Lemma div_lt_blocks n b u : b <> 0 -> u < n -> u / b < blocks_per_row n b.
Proof.
  intros Hb Hu. pose proof (blocks_per_row_spec n b Hb) as [H _].
  apply N.div_lt_upper_bound; [done|]. lia.
Qed.

Lemma blocks_le n b : b <> 0 -> n <> 0 -> 1 <= blocks_per_row n b <= n.
Proof.
  intros Hb Hn. unfold blocks_per_row. pose proof (N.div_mod n b Hb).
  pose proof (N.mod_lt n b Hb). generalize dependent (n / b). generalize dependent (n mod b).
  intros r Hr q Hq. destruct (N.eqb_spec r 0) as [->|Hr0].
  - split; [|nia]. destruct q; lia.
  - split; [lia|]. nia.
Qed.

Lemma clamp_block_range n b : n <> 0 -> 1 <= clamp_block n b <= n.
Proof.
  intros Hn. unfold clamp_block. destruct (N.ltb_spec b 1), (N.ltb_spec n b); lia.
Qed.

Lemma clamp_block_id n b : 1 <= b <= n -> clamp_block n b = b.
Proof. unfold clamp_block. destruct (N.ltb_spec b 1), (N.ltb_spec n b); lia. Qed.

(** ** The pooled matrix *)

Lemma sq_val_multiply m k c r :
  sq_val (sq_multiply_entries_by m k) c r = (fun e => f64_mul e k) <$> sq_val m c r.
Proof.
  unfold sq_val; simpl. rewrite lookup_fmap. destruct (sq_tab m !! c) as [t|]; [|done].
  simpl. by rewrite lookup_fmap.
Qed.

Lemma sq_inv_multiply m k : sq_inv m -> sq_inv (sq_multiply_entries_by m k).
Proof.
  intros [Hb Hd Hc].
  assert (forall c r, is_Some (sq_val (sq_multiply_entries_by m k) c r) <-> is_Some (sq_val m c r)) as Heq.
  { intros c r. rewrite sq_val_multiply. apply fmap_is_Some. }
  constructor; [|done|].
  - intros c r. rewrite Heq. apply Hb.
  - simpl. rewrite Hc. f_equal. f_equal. apply Permutation_length, sq_keys_perm; [apply NoDup_sq_keys|].
    intros c r. by rewrite elem_of_sq_keys, Heq.
Qed.

Lemma sq_val_mindim (m : sq spec_float) d c r :
  sq_val (sq_set_minimum_dimension m d) c r = sq_val m c r.
Proof. unfold sq_set_minimum_dimension. by destruct (sq_dim m <? d). Qed.

Definition pool_multiplier (square : N) : f64 := f64_div f64_one (f64_of_N square).

Lemma ofold_fmap {A B C} (f : B -> C -> outcome B) (h : A -> C) (l : list A) (b : B) :
  ofold f (h <$> l) b = ofold (fun b a => f b (h a)) l b.
Proof.
  revert b. induction l as [|a l IH]; intros b; simpl; [done|].
  destruct (f b (h a)); simpl; auto.
Qed.

Lemma ofold_ext {A B} (f f' : B -> A -> outcome B) l b :
  (forall b a, f b a = f' b a) -> ofold f l b = ofold f' l b.
Proof.
  intros H. revert b. induction l as [|a l IH]; intros b; simpl; [done|].
  rewrite H. destruct (f' b a); simpl; auto.
Qed.

Lemma find_avg_pool_spec p o g b0 :
  graph_inv g -> vertex_count g <> 0 ->
  let b := clamp_block (vertex_count g) b0 in
  find_avg_pool_matrix p o g b0 =
  obind (u64_mul p b b) (fun square =>
    Ret (sq_multiply_entries_by
      (sq_set_minimum_dimension
        (match ofold (fun m '(c, r) => sq_increment_entry p f64_numeric m c r)
           ((fun '(u, v) => (u / b, v / b)) <$> adj_items o (g_adj g)) sq_new with
         | Ret m => m | _ => sq_new end)
        (blocks_per_row (vertex_count g) b)) (pool_multiplier square))) /\
  forall square m,
    m = sq_multiply_entries_by
      (sq_set_minimum_dimension
        (match ofold (fun m '(c, r) => sq_increment_entry p f64_numeric m c r)
           ((fun '(u, v) => (u / b, v / b)) <$> adj_items o (g_adj g)) sq_new with
         | Ret m => m | _ => sq_new end)
        (blocks_per_row (vertex_count g) b)) (pool_multiplier square) ->
    sq_inv m /\ sq_dim m = blocks_per_row (vertex_count g) b /\
    forall c r, sq_val m c r =
      (fun e => f64_mul e (pool_multiplier square)) <$> occ_val (block_count g b c r).
Proof.
  intros Hi Hn b.
  pose proof (clamp_block_range (vertex_count g) b0 Hn) as Hb. fold b in Hb.
  pose proof (vc_u64 g Hi) as Hu64.
  assert (b <> 0) as Hb0 by lia.
  pose proof (blocks_le (vertex_count g) b Hb0 Hn) as Hblocks.
  set (l := (fun '(u, v) => (u / b, v / b)) <$> adj_items o (g_adj g)).
  assert (forall c r, (c, r) ∈ l ->
    c < blocks_per_row (vertex_count g) b /\ r < blocks_per_row (vertex_count g) b) as Hl.
  { intros c r Hin. apply elem_of_list_fmap in Hin as ([u v] & [= -> ->] & Hin).
    apply elem_of_adj_items, (has_bound g u v Hi) in Hin; [|apply Hi].
    split; apply div_lt_blocks; lia. }
  destruct (increment_fold p l sq_new sq_inv_new) as (m1 & Hm1 & Hi1 & Hv1 & Hd1).
  { intros c r Hin. apply Hl in Hin. apply both_valid_lt.
    unfold two64, u64_max in *. lia. }
  assert (forall cr, occurrences cr l = block_count g b cr.1 cr.2) as Hocc.
  { intros [c r]. simpl. unfold occurrences, block_count, block_edges, l.
    rewrite (adj_items_perm o (g_adj g) (gi_adj g Hi)).
    induction (adj_list (g_adj g)) as [|[u v] l' IH]; [done|].
    rewrite fmap_cons, !filter_cons.
    destruct (decide ((c, r) = (u / b, v / b))) as [[= -> ->]|Hne].
    - rewrite decide_True by done. simpl. by rewrite IH.
    - rewrite decide_False by naive_solver. done. }
  split.
  - unfold find_avg_pool_matrix. rewrite (proj2 (N.eqb_neq _ _) Hn). fold b. simpl.
    assert (ofold (fun m '(col, row) =>
        sq_increment_entry p f64_numeric m (col / b) (row / b)) (adj_items o (g_adj g)) sq_new
      = Ret m1) as ->.
    { rewrite <- Hm1. unfold l. rewrite ofold_fmap. apply ofold_ext. by intros ? [? ?]. }
    rewrite Hm1. simpl. done.
  - intros square m ->. rewrite Hm1.
    assert (sq_dim (sq_set_minimum_dimension m1 (blocks_per_row (vertex_count g) b))
            = blocks_per_row (vertex_count g) b) as Hdim.
    { unfold sq_set_minimum_dimension. specialize (Hd1 (blocks_per_row (vertex_count g) b)).
      destruct (N.ltb_spec (sq_dim m1) (blocks_per_row (vertex_count g) b)); [done|].
      assert (sq_dim m1 <= blocks_per_row (vertex_count g) b); [|lia].
      apply Hd1; [simpl; lia|]. apply Hl. }
    split_and!.
    + apply sq_inv_multiply. unfold sq_set_minimum_dimension.
      destruct (N.ltb_spec (sq_dim m1) (blocks_per_row (vertex_count g) b)); [|done].
      apply sq_inv_dim; [lia| |done]. lia.
    + simpl. done.
    + intros c r. rewrite sq_val_multiply, sq_val_mindim, Hv1, sq_val_new.
      by rewrite iter_bump_occ, Hocc.
Qed.

(** Usable form: for block dimensions below 2^32 the function returns. *)
Lemma u64_mul_small p b : b < 2 ^ 32 -> u64_mul p b b = Ret (b * b).
Proof.
  intros Hb. unfold u64_mul, two64. destruct (N.ltb_spec (b * b) 18446744073709551616); [done|].
  nia.
Qed.

Record pool_of (g : graph) (b : N) (square : N) (m : sq spec_float) : Prop := PoolOf {
  po_inv : sq_inv m;
  po_dim : sq_dim m = blocks_per_row (vertex_count g) b;
  po_val : forall c r, sq_val m c r =
    (fun e => f64_mul e (pool_multiplier square)) <$> occ_val (block_count g b c r);
}.

Lemma find_avg_pool_ret p o g b0 m :
  graph_inv g -> vertex_count g <> 0 -> find_avg_pool_matrix p o g b0 = Ret m ->
  let b := clamp_block (vertex_count g) b0 in
  exists square, u64_mul p b b = Ret square /\ pool_of g b square m.
Proof.
  intros Hi Hn Hret b. destruct (find_avg_pool_spec p o g b0 Hi Hn) as [Heq Hspec].
  fold b in Heq, Hspec. rewrite Heq in Hret.
  destruct (u64_mul p b b) as [square| |]; simpl in Hret; try done.
  exists square. split; [done|]. injection Hret as Hm.
  destruct (Hspec square m) as (? & ? & ?); [by rewrite <- Hm|]. done.
Qed.

Lemma find_avg_pool_total p o g b0 :
  graph_inv g -> clamp_block (vertex_count g) b0 < 2 ^ 32 ->
  exists m, find_avg_pool_matrix p o g b0 = Ret m.
Proof.
  intros Hi Hb. destruct (N.eq_dec (vertex_count g) 0) as [Hn|Hn].
  - unfold find_avg_pool_matrix. rewrite Hn. simpl. eauto.
  - destruct (find_avg_pool_spec p o g b0 Hi Hn) as [Heq _]. rewrite Heq.
    rewrite u64_mul_small by done. simpl. eauto.
Qed.
