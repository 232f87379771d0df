(** Block encoding, compression and decompression. *)
From Verif Require Import Base HashIter HashIterProofs F64 Numeric Adj Sq Standard Compressed
  Spec Api AdjProofs SqProofs GraphProofs PoolProofs BitsProofs KeepTable.

(** ** Positions inside a block *)

(** Bit number of the cell (u, v) inside its block. *)
Definition bit_pos (u v : N) : N := 8 * (v mod 8) + u mod 8.

Lemma bit_pos_lt u v : bit_pos u v < 64.
Proof.
  unfold bit_pos. pose proof (N.mod_lt u 8). pose proof (N.mod_lt v 8). lia.
Qed.

Lemma bit_pos_mod u v : bit_pos u v mod 8 = u mod 8.
Proof.
  unfold bit_pos. symmetry. apply (N.mod_unique _ _ (v mod 8)); [by apply N.mod_lt|lia].
Qed.

Lemma bit_pos_div u v : bit_pos u v / 8 = v mod 8.
Proof.
  unfold bit_pos. symmetry. apply (N.div_unique _ _ _ (u mod 8)); [by apply N.mod_lt|lia].
Qed.

Lemma bit_pos_block c r i : i < 64 -> bit_pos (8 * c + i mod 8) (8 * r + i / 8) = i.
Proof.
  intros Hi. unfold bit_pos.
  assert (i / 8 < 8) by (apply N.div_lt_upper_bound; lia).
  pose proof (N.mod_lt i 8).
  assert ((8 * c + i mod 8) mod 8 = i mod 8) as ->
    by (symmetry; apply (N.mod_unique _ _ c); lia).
  assert ((8 * r + i / 8) mod 8 = i / 8) as ->
    by (symmetry; apply (N.mod_unique _ _ r); lia).
  pose proof (N.div_mod i 8). lia.
Qed.

Lemma block_div c i : i < 8 -> (8 * c + i) / 8 = c.
Proof. intros Hi. symmetry. apply (N.div_unique _ _ _ i); lia. Qed.

Lemma block_split u : u = 8 * (u / 8) + u mod 8.
Proof. by apply N.div_mod. Qed.

(** ** Encoding a block *)

Definition block_word (g : graph) (c r : N) : N :=
  word_of (fun t => does_edge_exist g (8 * c + t mod 8) (8 * r + t / 8)).

Arguments block_word : simpl never.

Lemma block_word_bit g u v :
  N.testbit (block_word g (u / 8) (v / 8)) (bit_pos u v) = does_edge_exist g u v.
Proof.
  unfold block_word. rewrite word_of_bits.
  destruct (N.ltb_spec (bit_pos u v) 64) as [_|H]; [|pose proof (bit_pos_lt u v); lia].
  rewrite bit_pos_mod, bit_pos_div, <- !block_split. done.
Qed.

Lemma block_word_small g c r : block_word g c r < two64.
Proof. apply word_of_small. Qed.

(** Popcount of a block word = number of edges of the block. *)
Lemma word_cells_card w c r :
  w < two64 ->
  has_card (fun '(u, v) => u / 8 = c /\ v / 8 = r /\ N.testbit w (bit_pos u v) = true)
    (count_ones w).
Proof.
  intros Hw. destruct (count_ones_card w) as (l & Hnd & Hl & Hlen).
  assert (forall i, i ∈ l -> i < 64) as Hlt.
  { intros i Hin. apply Hl in Hin. destruct (N.lt_ge_cases i 64); [done|].
    rewrite (testbit_small w 64) in Hin; done. }
  exists ((fun i => (8 * c + i mod 8, 8 * r + i / 8)) <$> l). split_and!.
  - apply NoDup_fmap_2_strong; [|done]. intros i j Hi Hj Heq.
    apply pair_equal_spec in Heq as [H1 H2].
    apply Hlt in Hi. apply Hlt in Hj.
    pose proof (bit_pos_block c r i Hi) as Ei. pose proof (bit_pos_block c r j Hj) as Ej.
    rewrite H1, H2 in Ei. congruence.
  - intros [u v]. rewrite elem_of_list_fmap. split.
    + intros (i & Heq & Hin). apply pair_equal_spec in Heq as [-> ->]. pose proof (Hlt _ Hin) as Hi.
      assert (i / 8 < 8) by (apply N.div_lt_upper_bound; lia).
      rewrite !block_div; [|done|by apply N.mod_lt]. split_and!; [done..|].
      rewrite bit_pos_block by done. by apply Hl.
    + intros (<- & <- & Hb). exists (bit_pos u v). rewrite bit_pos_mod, bit_pos_div.
      rewrite <- !block_split. split; [done|]. by apply Hl.
  - by rewrite fmap_length.
Qed.

Lemma block_word_ones g c r : count_ones (block_word g c r) = N.of_nat (block_count g 8 c r).
Proof.
  eapply has_card_unique; [|apply block_has_count].
  eapply has_card_ext; [|apply (word_cells_card _ c r), block_word_small].
  intros [u v]. cbn beta iota. split.
  - intros (<- & <- & Hb). rewrite block_word_bit in Hb. done.
  - intros (Hb & <- & <-). rewrite block_word_bit. done.
Qed.

Lemma block_word_nonzero g c r : block_word g c r <> 0 <-> (0 < block_count g 8 c r)%nat.
Proof.
  rewrite block_count_pos. split.
  - intros Hw. apply N.bit_log2 in Hw. unfold block_word in Hw. rewrite word_of_bits in Hw.
    apply andb_true_iff in Hw as [Hlt Hb]. apply N.ltb_lt in Hlt.
    set (t := N.log2 (word_of _)) in *. apply exists_has in Hb.
    eexists _, _. split; [exact Hb|].
    assert (t / 8 < 8) by (apply N.div_lt_upper_bound; lia).
    rewrite !block_div; [done|done|by apply N.mod_lt].
  - intros (u & v & Hh & <- & <-) Hw. apply exists_has in Hh.
    rewrite <- block_word_bit, Hw, N.bits_0 in Hh. done.
Qed.

Lemma has_card_add {A} (P : A -> Prop) k x :
  has_card P k -> ~ P x -> has_card (fun y => P y \/ y = x) (k + 1).
Proof.
  intros (l & Hnd & Hl & Hlen) Hx. exists (x :: l). split_and!.
  - constructor; [|done]. by rewrite Hl.
  - intros y. rewrite elem_of_cons, Hl. tauto.
  - simpl. lia.
Qed.

Definition enc_inv (f : N -> bool) (t : N) (st : N * N * N) : Prop :=
  let '(entry, nodes, pos) := st in
  entry = fold_left (fun acc t => if f t then N.lor acc (2 ^ t) else acc) (range t) 0 /\
  has_card (fun i => i < t /\ f i = true) nodes /\
  pos = 2 ^ (N.min t 63).

Lemma encode_block_spec p g c r :
  8 * c + 7 < two64 -> 8 * r + 7 < two64 ->
  encode_block p g c r = Ret (block_word g c r, N.of_nat (block_count g 8 c r)).
Proof.
  intros Hc Hr. unfold encode_block, COMPRESSION_BLOCK_DIMENSION.
  unfold u64_mul.
  destruct (N.ltb_spec (r * 8) two64); [|lia]. destruct (N.ltb_spec (c * 8) two64); [|lia].
  cbn [obind].
  set (f := fun t => does_edge_exist g (8 * c + t mod 8) (8 * r + t / 8)).
  set (body := fun (st : N * N * N) (row : N) => ofold _ (range 8) st).
  destruct (ofold_range_inv (fun j st => enc_inv f (8 * j) st) body 8 (0, 0, 1))
    as ([[entry nodes] pos] & Hrun & Hinv).
  - split_and!; [done| |done]. exists []. split_and!; [constructor| |done].
    intros x. rewrite elem_of_nil. lia.
  - intros j st Hj Hst. unfold body.
    destruct (ofold_range_inv (fun i st => enc_inv f (8 * j + i) st)
      (fun '(entry, nodes, pos) col =>
         obind (u64_add p (c * 8) col) (fun from =>
         obind (u64_add p (r * 8) j) (fun to =>
         let '(entry, nodes) :=
           if does_edge_exist g from to then (N.lor entry pos, nodes + 1)
           else (entry, nodes) in
         Ret (entry, nodes,
              if negb (pos =? 0x8000000000000000) then N.shiftl pos 1 mod two64
              else pos)))) 8 st) as (st' & Hrun' & Hinv').
    + by rewrite N.add_0_r.
    + intros i [[entry nodes] pos] Hi (-> & Hcard & ->).
      unfold u64_add.
      destruct (N.ltb_spec (c * 8 + i) two64); [|lia].
      destruct (N.ltb_spec (r * 8 + j) two64); [|lia]. cbn [obind].
      assert (does_edge_exist g (c * 8 + i) (r * 8 + j) = f (8 * j + i)) as ->.
      { unfold f. f_equal.
        - rewrite (N.mul_comm c). f_equal. apply (N.mod_unique _ _ j); lia.
        - rewrite (N.mul_comm r). f_equal. apply (N.div_unique _ _ _ i); lia. }
      set (t := 8 * j + i) in *.
      assert (t < 64) as Ht by (unfold t; lia).
      rewrite (N.min_l t 63) by lia.
      replace (8 * j + (i + 1)) with (t + 1) by (unfold t; lia).
      assert ((if negb (2 ^ t =? 9223372036854775808) then N.shiftl (2 ^ t) 1 mod two64
               else 2 ^ t) = 2 ^ N.min (t + 1) 63) as Hpos.
      { destruct (N.eqb_spec (2 ^ t) 9223372036854775808) as [Heq|Hne].
        - change 9223372036854775808 with (2 ^ 63) in Heq.
          apply N.pow_inj_r in Heq; [|lia]. rewrite Heq. done.
        - assert (t <> 63) by (intros ->; done). simpl negb. cbv iota.
          rewrite N.min_l by lia. rewrite N.shiftl_mul_pow2, N.pow_add_r.
          rewrite N.mod_small; [done|].
          change two64 with (2 ^ 63 * 2 ^ 1). apply N.mul_lt_mono_pos_r; [done|].
          apply N.pow_lt_mono_r; lia. }
      destruct (f t) eqn:Ef; (eexists; split; [reflexivity|]).
      * split_and!; [|  |exact Hpos].
        -- rewrite range_S, fold_left_app. simpl. by rewrite Ef.
        -- eapply has_card_ext; [|apply (has_card_add _ _ t Hcard)].
           ++ intros x. split.
              ** intros [[? ?]| ->]; split; (lia || done).
              ** intros [? ?]. destruct (N.eq_dec x t); [by right|]. left. split; [lia|done].
           ++ lia.
      * split_and!; [| |exact Hpos].
        -- rewrite range_S, fold_left_app. simpl. by rewrite Ef.
        -- eapply has_card_ext; [|exact Hcard]. intros x. split.
           ++ intros [? ?]. split; [lia|done].
           ++ intros [? ?]. destruct (N.eq_dec x t) as [->|]; [congruence|]. split; [lia|done].
    + exists st'. split; [exact Hrun'|]. replace (8 * (j + 1)) with (8 * j + 8) by lia. done.
  - rewrite Hrun. cbn [obind]. destruct Hinv as (-> & Hcard & _).
    change (8 * 8) with 64 in *. rewrite <- word_of_unfold.
    change (word_of f) with (block_word g c r).
    f_equal. f_equal. rewrite <- block_word_ones.
    eapply has_card_unique; [exact Hcard|].
    eapply has_card_ext; [|apply count_ones_card]. intros x. cbn beta.
    unfold block_word. fold f. rewrite word_of_bits, andb_true_iff, N.ltb_lt. done.
Qed.

(** ** The edges of a compressed graph *)

Definition c_has (cg : cgraph) (u v : N) : Prop :=
  N.testbit (default 0 (sq_val (cg_mat cg) (u / 8) (v / 8))) (bit_pos u v) = true.

Lemma c_get_entry_val cg c r :
  get_compressed_matrix_entry cg c r = default 0 (sq_val (cg_mat cg) c r).
Proof. unfold get_compressed_matrix_entry. by rewrite sq_get_val. Qed.

Lemma c_exists_has cg u v : c_does_edge_exist cg u v = true <-> c_has cg u v.
Proof.
  unfold c_does_edge_exist, c_has. rewrite sq_get_val. unfold COMPRESSION_BLOCK_DIMENSION.
  change (num_zero u64_numeric) with 0.
  set (w := default 0 (sq_val (cg_mat cg) (u / 8) (v / 8))).
  fold (bit_pos u v). destruct (N.eqb_spec w 0) as [->|Hw].
  - rewrite N.bits_0. done.
  - by rewrite shiftr_land_1.
Qed.

Lemma c_exists_has_false cg u v : c_does_edge_exist cg u v = false <-> ~ c_has cg u v.
Proof. rewrite <- c_exists_has. by destruct (c_does_edge_exist cg u v). Qed.

(** The cells of one stored word. *)
Definition entry_edges (item : N * N * N) : list (N * N) :=
  let '(w, c, r) := item in
  (fun i => (8 * c + i mod 8, 8 * r + i / 8)) <$> filter (fun i => N.testbit w i = true) (range 64).

Lemma elem_of_entry_edges w c r u v :
  (u, v) ∈ entry_edges (w, c, r) <->
  u / 8 = c /\ v / 8 = r /\ N.testbit w (bit_pos u v) = true.
Proof.
  unfold entry_edges. rewrite elem_of_list_fmap. split.
  - intros (i & Heq & Hin). apply pair_equal_spec in Heq as [-> ->].
    apply elem_of_list_filter in Hin as [Hb Hi]. apply elem_of_range in Hi.
    assert (i / 8 < 8) by (apply N.div_lt_upper_bound; lia).
    rewrite !block_div; [|done|by apply N.mod_lt]. split_and!; [done..|].
    by rewrite bit_pos_block.
  - intros (<- & <- & Hb). exists (bit_pos u v).
    rewrite bit_pos_mod, bit_pos_div, <- !block_split. split; [done|].
    apply elem_of_list_filter. split; [done|]. apply elem_of_range, bit_pos_lt.
Qed.

Lemma NoDup_entry_edges item : NoDup (entry_edges item).
Proof.
  destruct item as [[w c] r]. unfold entry_edges.
  apply NoDup_fmap_2_strong; [|apply NoDup_filter, NoDup_range].
  intros i j Hi Hj Heq. apply pair_equal_spec in Heq as [H1 H2].
  apply elem_of_list_filter in Hi as [_ Hi]. apply elem_of_list_filter in Hj as [_ Hj].
  apply elem_of_range in Hi. apply elem_of_range in Hj.
  pose proof (bit_pos_block c r i Hi) as Ei. pose proof (bit_pos_block c r j Hj) as Ej.
  rewrite H1, H2 in Ei. congruence.
Qed.

Lemma length_entry_edges w c r : w < two64 ->
  N.of_nat (length (entry_edges (w, c, r))) = count_ones w.
Proof.
  intros Hw. eapply has_card_unique; [apply has_card_list, NoDup_entry_edges|].
  eapply has_card_ext; [|apply (word_cells_card w c r Hw)].
  intros [u v]. by rewrite elem_of_entry_edges.
Qed.

(** Total popcount of a list of entries. *)
Definition ones_total (es : list (N * N * N)) : N :=
  fold_right (fun '(w, _, _) acc => count_ones w + acc) 0 es.

Lemma ones_total_cons w c r es : ones_total ((w, c, r) :: es) = count_ones w + ones_total es.
Proof. done. Qed.

Lemma ones_total_app es1 es2 : ones_total (es1 ++ es2) = ones_total es1 + ones_total es2.
Proof.
  induction es1 as [|[[w c] r] es1 IH]; [done|]. simpl app. rewrite !ones_total_cons, IH. lia.
Qed.

Lemma ones_total_perm es1 es2 : es1 ≡ₚ es2 -> ones_total es1 = ones_total es2.
Proof.
  induction 1 as [|[[w c] r] l1 l2 _ IH|[[w c] r] [[w' c'] r'] l|l1 l2 l3 _ IH1 _ IH2];
    rewrite ?ones_total_cons; [done|lia|lia|congruence].
Qed.

Lemma length_edges_ones es : Forall (fun '(w, _, _) => w < two64) es ->
  N.of_nat (length (es ≫= entry_edges)) = ones_total es.
Proof.
  induction 1 as [|[[w c] r] es Hw _ IH]; [done|].
  rewrite bind_cons, app_length, ones_total_cons, <- IH, <- (length_entry_edges w c r Hw). lia.
Qed.

Lemma NoDup_edges es : NoDup ((fun '(e, c, r) => (c, r)) <$> es : list (N * N)) ->
  NoDup (es ≫= entry_edges).
Proof.
  induction es as [|[[w c] r] es IH]; [constructor|].
  rewrite fmap_cons, NoDup_cons, bind_cons. intros [Hnin Hnd].
  apply NoDup_app. split_and!; [apply NoDup_entry_edges| |by apply IH].
  intros [u v] Hin Hin'. apply Hnin. apply elem_of_entry_edges in Hin as (<- & <- & _).
  apply elem_of_list_bind in Hin' as ([[w' c'] r'] & Hin' & Hes).
  apply elem_of_entry_edges in Hin' as (<- & <- & _).
  apply elem_of_list_fmap. by exists (w', u / 8, v / 8).
Qed.

(** ** Invariant of compressed graphs *)

Record cg_inv (cg : cgraph) : Prop := CgInv {
  ci_sq : sq_inv (cg_mat cg);
  ci_word : forall c r w, sq_val (cg_mat cg) c r = Some w -> w <> 0 /\ w < two64;
  ci_bits : forall u v, c_has cg u v -> u < cg_vertex_count cg /\ v < cg_vertex_count cg;
  ci_dim : sq_dim (cg_mat cg) = compressed_matrix_dimension (cg_vertex_count cg);
  ci_n : cg_vertex_count cg < two64;
  ci_level : 1 <= cg_level cg <= 64;
  ci_ec : cg_edge_count cg < two64;
}.

Lemma c_has_items o cg u v : sq_inv (cg_mat cg) ->
  c_has cg u v <-> (u, v) ∈ sq_items o (cg_mat cg) ≫= entry_edges.
Proof.
  intros Hi. unfold c_has. rewrite elem_of_list_bind. split.
  - destruct (sq_val (cg_mat cg) (u / 8) (v / 8)) as [w|] eqn:E; simpl.
    + intros Hb. exists (w, u / 8, v / 8). split; [by apply elem_of_entry_edges|].
      by apply elem_of_sq_items.
    + done.
  - intros ([[w c] r] & Hin & Hit). apply elem_of_entry_edges in Hin as (<- & <- & Hb).
    apply elem_of_sq_items in Hit; [|done]. by rewrite Hit.
Qed.

(** The number of edges of a compressed graph is the total popcount. *)
Lemma c_has_card o cg : cg_inv cg ->
  has_card (fun '(u, v) => c_does_edge_exist cg u v = true)
    (ones_total (sq_items o (cg_mat cg))).
Proof.
  intros Hi. rewrite <- length_edges_ones.
  - eapply has_card_ext; [|apply has_card_list, NoDup_edges, NoDup_sq_items_keys, Hi].
    intros [u v]. rewrite c_exists_has, (c_has_items o) by apply Hi. done.
  - apply Forall_forall. intros [[w c] r] Hin. apply elem_of_sq_items in Hin; [|apply Hi].
    apply (ci_word cg Hi) in Hin as [_ Hw]. exact Hw.
Qed.

(** ** Feeding entries to the builder *)

Definition add_entries (es : list (N * N * N)) (b : cgraph) : cgraph :=
  fold_left (fun b '(w, c, r) => builder_add b w c r (Some (count_ones w))) es b.

Lemma sat_min a b : a < two64 -> saturating_add64 a b = N.min (a + b) u64_max.
Proof.
  intros Ha. unfold saturating_add64, two64, u64_max in *.
  destruct (N.ltb_spec (a + b) 18446744073709551616); lia.
Qed.

Lemma sat_lt a b : saturating_add64 a b < two64.
Proof.
  unfold saturating_add64, two64, u64_max. destruct (N.ltb_spec (a + b) 18446744073709551616); lia.
Qed.

Lemma add_entries_const es b :
  cg_vertex_count (add_entries es b) = cg_vertex_count b /\
  cg_und (add_entries es b) = cg_und b /\ cg_level (add_entries es b) = cg_level b.
Proof.
  revert b. induction es as [|[[w c] r] es IH]; intros b; [done|]. simpl.
  destruct (IH (builder_add b w c r (Some (count_ones w)))) as (-> & -> & ->). done.
Qed.

Lemma add_entries_count es b : cg_edge_count b < two64 ->
  cg_edge_count (add_entries es b) = N.min (cg_edge_count b + ones_total es) u64_max.
Proof.
  revert b. induction es as [|[[w c] r] es IH]; intros b Hb.
  - simpl. unfold two64, u64_max in *. lia.
  - simpl add_entries. rewrite IH; [|apply sat_lt]. rewrite ones_total_cons. simpl.
    rewrite sat_min by done. lia.
Qed.

Lemma add_entries_inv es b : sq_inv (cg_mat b) -> sq_inv (cg_mat (add_entries es b)).
Proof.
  revert b. induction es as [|[[w c] r] es IH]; intros b Hb; [done|]. simpl. apply IH.
  simpl. by apply sq_inv_set.
Qed.

Lemma add_entries_dim es b d :
  sq_dim (cg_mat b) = d -> d < two64 -> (forall w c r, (w, c, r) ∈ es -> c < d /\ r < d) ->
  sq_dim (cg_mat (add_entries es b)) = d.
Proof.
  revert b. induction es as [|[[w c] r] es IH]; intros b Hb Hd Hes; [done|]. simpl. apply IH.
  - simpl. rewrite sq_dim_set. destruct (Hes w c r); [left|].
    destruct (both_valid c r); unfold dim_join; lia.
  - done.
  - intros w' c' r' Hin. eapply Hes. by right.
Qed.

Lemma add_entries_val es b c r :
  (forall w c r, (w, c, r) ∈ es -> w <> 0 /\ both_valid c r = true) ->
  sq_val (cg_mat (add_entries es b)) c r =
  fold_left (fun acc '(w, c', r') => if decide (c = c' /\ r = r') then Some w else acc)
    es (sq_val (cg_mat b) c r).
Proof.
  revert b. induction es as [|[[w0 c0] r0] es IH]; intros b Hes; [done|]. simpl.
  rewrite IH by (intros; eapply Hes; by right). f_equal. simpl.
  destruct (Hes w0 c0 r0) as [Hw Hv]; [left|]. rewrite sq_val_set, Hv. simpl.
  destruct (N.eqb_spec w0 0); [done|]. simpl.
  repeat case_decide; naive_solver.
Qed.

Lemma last_write_nodup (es : list (N * N * N)) c r acc w :
  NoDup ((fun '(e, c, r) => (c, r)) <$> es : list (N * N)) ->
  fold_left (fun acc '(w, c', r') => if decide (c = c' /\ r = r') then Some w else acc)
    es acc = Some w <->
  (w, c, r) ∈ es \/ ((forall w', (w', c, r) ∉ es) /\ acc = Some w).
Proof.
  revert acc. induction es as [|[[w0 c0] r0] es IH]; intros acc Hnd; simpl.
  - split; [|intros [Hin|[_ H]]; [by apply elem_of_nil in Hin|done]].
    intros H. right. split; [|done]. intros w' Hin. by apply elem_of_nil in Hin.
  - rewrite fmap_cons, NoDup_cons in Hnd. destruct Hnd as [Hnin Hnd].
    rewrite IH by done. case_decide as Hd.
    + destruct Hd as [<- <-]. split.
      * intros [Hin|[_ [= <-]]]; [left; by right|left; left].
      * intros [Hin|[Hno _]].
        -- apply elem_of_cons in Hin as [[= ->]|Hin]; [|by left].
           right. split; [|done]. intros w' Hin. apply Hnin.
           apply elem_of_list_fmap. by exists (w', c, r).
        -- exfalso. apply (Hno w0). left.
    + split.
      * intros [Hin|[Hno Hacc]]; [left; by right|]. right. split; [|done].
        intros w' Hin. apply elem_of_cons in Hin as [[= -> -> ->]|Hin]; [naive_solver|].
        by apply (Hno w').
      * intros [Hin|[Hno Hacc]].
        -- apply elem_of_cons in Hin as [[= -> -> ->]|Hin]; [naive_solver|by left].
        -- right. split; [|done]. intros w' Hin. apply (Hno w'). by right.
Qed.

(** ** New builders *)

Lemma clamp_level_range l : 1 <= clamp_compression_level l <= 64.
Proof.
  unfold clamp_compression_level. destruct (N.ltb_spec 64 l); [lia|].
  destruct (N.eqb_spec l 0); lia.
Qed.

Lemma clamp_level_id l : 1 <= l <= 64 -> clamp_compression_level l = l.
Proof.
  intros H. unfold clamp_compression_level. destruct (N.ltb_spec 64 l); [lia|].
  destruct (N.eqb_spec l 0); lia.
Qed.

Lemma cmd_bound n : n < two64 -> 1 <= compressed_matrix_dimension n <= 2 ^ 61.
Proof.
  intros Hn. unfold compressed_matrix_dimension, COMPRESSION_BLOCK_DIMENSION.
  assert (n / 8 < 2 ^ 61) by (apply N.div_lt_upper_bound; [done|]; exact Hn).
  change (2 ^ 61) with 2305843009213693952 in *.
  generalize dependent (n / 8). generalize (n mod 8). intros q m Hq.
  destruct (N.eqb_spec q 0), (N.eqb_spec m 0); cbn [negb orb andb]; lia.
Qed.

Lemma builder_new_dim und n l : n < two64 ->
  sq_dim (cg_mat (builder_new und n l)) = compressed_matrix_dimension n.
Proof.
  intros Hn. unfold builder_new. simpl cg_mat. rewrite sq_dim_set.
  unfold compressed_matrix_dimension, COMPRESSION_BLOCK_DIMENSION.
  assert (n / 8 < 2 ^ 61) as Hb by (apply N.div_lt_upper_bound; [done|]; exact Hn).
  change (2 ^ 61) with 2305843009213693952 in *.
  generalize dependent (n / 8). generalize (n mod 8). intros q m Hm.
  set (c := if (q =? 0) && negb (m =? 0) then m - 1 else m).
  assert (c <= m) by (unfold c; destruct (_ && _); lia).
  rewrite (proj2 (both_valid_lt c 0)) by (unfold u64_max; lia).
  unfold dim_join. simpl sq_dim. unfold c.
  destruct (N.eqb_spec q 0), (N.eqb_spec m 0); cbn [negb orb andb]; lia.
Qed.

Lemma builder_new_val und n l c r : sq_val (cg_mat (builder_new und n l)) c r = None.
Proof.
  unfold builder_new. simpl cg_mat. rewrite sq_val_set. simpl. rewrite andb_false_r. simpl.
  apply sq_val_new.
Qed.

Lemma builder_new_inv und n l : sq_inv (cg_mat (builder_new und n l)).
Proof. apply sq_inv_set, sq_inv_new. Qed.

Lemma builder_new_cg_inv und n l : n < two64 -> cg_inv (builder_new und n l).
Proof.
  intros Hn. constructor.
  - apply builder_new_inv.
  - intros c r w. by rewrite builder_new_val.
  - intros u v. unfold c_has. by rewrite builder_new_val.
  - by apply builder_new_dim.
  - done.
  - apply clamp_level_range.
  - done.
Qed.

(** ** Compression *)

(** Whether the block is kept. *)
Definition kept (g : graph) (l c r : N) : bool :=
  let b := N.min 8 (vertex_count g) in
  (0 <? block_count g 8 c r)%nat &&
  (clamp_compression_level l * (b * b) <=? 64 * N.of_nat (block_count g 8 c r)).

Lemma kept_count g l c r : kept g l c r = true -> (0 < block_count g 8 c r)%nat.
Proof. intros H. apply andb_true_iff in H as [H _]. by apply Nat.ltb_lt. Qed.

Record compress_of (g : graph) (l : N) (cg : cgraph) : Prop := CompressOf {
  co_inv : cg_inv cg;
  co_und : cg_und cg = g_und g;
  co_n : cg_vertex_count cg = vertex_count g;
  co_level : cg_level cg = clamp_compression_level l;
  co_val : forall c r, sq_val (cg_mat cg) c r =
    if kept g l c r then Some (block_word g c r) else None;
  co_ec : forall k, has_card (fun '(u, v) => c_does_edge_exist cg u v = true) k ->
    cg_edge_count cg = N.min k u64_max;
}.

Lemma block_count_zero_vc g b c r : graph_inv g -> vertex_count g = 0 -> block_count g b c r = O.
Proof.
  intros Hi Hn. destruct (block_count g b c r) eqn:E; [done|].
  destruct (proj1 (block_count_pos g b c r)) as (u & v & Hh & _); [lia|].
  apply has_bound in Hh; [lia|done].
Qed.

(** With at most 8 vertices there is one block, whatever the block dimension. *)
Lemma block_count_min g c r : graph_inv g -> vertex_count g <> 0 ->
  block_count g (N.min 8 (vertex_count g)) c r = block_count g 8 c r.
Proof.
  intros Hi Hn. destruct (N.le_gt_cases 8 (vertex_count g)) as [H8|H8].
  - by rewrite N.min_l.
  - rewrite N.min_r by lia. unfold block_count. apply Permutation_length.
    apply NoDup_Permutation; [apply NoDup_block_edges..|].
    intros [u v]. rewrite !elem_of_block_edges.
    split; intros (Hh & <- & <-); pose proof (has_bound g u v Hi Hh) as [Hu Hv];
      (split; [done|]); by rewrite !N.div_small by lia.
Qed.

Lemma blocks_8 n : n <> 0 -> blocks_per_row n (N.min 8 n) = compressed_matrix_dimension n.
Proof.
  intros Hn. unfold blocks_per_row, compressed_matrix_dimension, COMPRESSION_BLOCK_DIMENSION.
  destruct (N.le_gt_cases 8 n) as [H8|H8].
  - rewrite N.min_l by done.
    assert (n / 8 <> 0) as Hq by (intros H; apply N.div_small_iff in H; lia).
    generalize dependent (n / 8). generalize (n mod 8). intros q m Hm.
    destruct (N.eqb_spec q 0), (N.eqb_spec m 0); cbn [negb orb]; lia.
  - rewrite N.min_r by lia. rewrite N.div_same, N.mod_same by done.
    rewrite (N.div_small n 8), (N.mod_small n 8) by done.
    destruct (N.eqb_spec n 0); [done|]. done.
Qed.

Lemma compress_loop p g thr items b :
  (forall e c r, (e, c, r) ∈ items -> 8 * c + 7 < two64 /\ 8 * r + 7 < two64) ->
  ofold (fun builder '(entry, col, row) =>
       if f64_ge entry thr then
         obind (encode_block p g col row) (fun '(compressed_entry, nodes_in_entry) =>
         Ret (builder_add builder compressed_entry col row (Some nodes_in_entry)))
       else Ret builder) items b
  = Ret (add_entries
      ((fun '(e, c, r) => (block_word g c r, c, r)) <$>
         filter (fun '(e, c, r) => f64_ge e thr = true) items) b).
Proof.
  revert b. induction items as [|[[e c] r] items IH]; intros b Hb; [done|].
  cbn [ofold]. rewrite filter_cons.
  assert (forall e c r, (e, c, r) ∈ items -> 8 * c + 7 < two64 /\ 8 * r + 7 < two64) as Hb'
    by (intros e' c' r' Hin; apply (Hb e'); by right).
  destruct (Hb e c r) as [Hc Hr]; [left|].
  case_decide as E.
  - rewrite E, encode_block_spec by done. cbn [obind].
    rewrite IH by done. rewrite fmap_cons. f_equal. simpl. f_equal. f_equal. f_equal.
    symmetry. apply block_word_ones.
  - rewrite (not_true_is_false _ E). cbn [obind]. by apply IH.
Qed.

Lemma occ_val_pool k e square b : occ_val k = Some e -> square = b * b ->
  (1 <= k)%nat /\ f64_mul e (pool_multiplier square) = pool_value b k.
Proof.
  destruct k as [|k]; [done|]. intros [= <-] ->. split; [lia|].
  unfold pool_value. by replace (S k - 1)%nat with k by lia.
Qed.


(** Entries a compressed graph is built from. *)
Lemma add_entries_cg es und n l :
  n < two64 -> 1 <= l <= 64 ->
  NoDup ((fun '(e, c, r) => (c, r)) <$> es : list (N * N)) ->
  (forall w c r, (w, c, r) ∈ es -> w <> 0 /\ w < two64 /\
     c < compressed_matrix_dimension n /\ r < compressed_matrix_dimension n /\
     forall u v, (u, v) ∈ entry_edges (w, c, r) -> u < n /\ v < n) ->
  let cg := add_entries es (builder_new und n l) in
  cg_inv cg /\ (forall c r w, sq_val (cg_mat cg) c r = Some w <-> (w, c, r) ∈ es) /\
  cg_und cg = und /\ cg_vertex_count cg = n /\ cg_level cg = l /\
  cg_edge_count cg = N.min (ones_total es) u64_max /\
  (forall o, sq_items o (cg_mat cg) ≡ₚ es).
Proof.
  intros Hn Hl Hnd Hes cg. pose proof (cmd_bound n Hn) as Hcmd.
  assert (forall w c r, (w, c, r) ∈ es -> w <> 0 /\ both_valid c r = true) as Hv.
  { intros w c r Hin. destruct (Hes w c r Hin) as (? & ? & ? & ? & _). split; [done|].
    apply both_valid_lt. unfold u64_max. lia. }
  assert (forall c r w, sq_val (cg_mat cg) c r = Some w <-> (w, c, r) ∈ es) as Hval.
  { intros c r w. unfold cg. rewrite add_entries_val by done.
    rewrite last_write_nodup by done. rewrite builder_new_val. split; [|by left].
    by intros [?|[_ ?]]. }
  destruct (add_entries_const es (builder_new und n l)) as (Hvc & Hund & Hlev).
  fold cg in Hvc, Hund, Hlev. simpl in Hvc, Hund, Hlev.
  assert (sq_inv (cg_mat cg)) as Hsq by apply add_entries_inv, builder_new_inv.
  assert (cg_edge_count cg = N.min (ones_total es) u64_max) as Hec.
  { unfold cg. by rewrite add_entries_count. }
  split_and!.
  - constructor; [done| | | | | |].
    + intros c r w Hw. apply Hval in Hw. by apply Hes in Hw as (? & ? & _).
    + intros u v Hh. apply (c_has_items plain_order) in Hh; [|done].
      apply elem_of_list_bind in Hh as ([[w c] r] & Hin & Hit).
      apply elem_of_sq_items in Hit; [|done]. apply Hval in Hit.
      apply Hes in Hit as (_ & _ & _ & _ & Hb). rewrite Hvc. by apply Hb.
    + rewrite Hvc. apply add_entries_dim; [by apply builder_new_dim| |].
      * change (2 ^ 61) with 2305843009213693952 in Hcmd. unfold two64. lia.
      * intros w c r Hin. by apply Hes in Hin as (_ & _ & ? & ? & _).
    + by rewrite Hvc.
    + rewrite Hlev. apply clamp_level_range.
    + rewrite Hec. unfold u64_max, two64. lia.
  - done.
  - done.
  - done.
  - rewrite Hlev. by apply clamp_level_id.
  - done.
  - intros o. apply NoDup_Permutation.
    + by apply NoDup_sq_items.
    + by eapply NoDup_fmap_1.
    + intros [[w c] r]. by rewrite elem_of_sq_items, Hval.
Qed.

Lemma builder_new_clamp und n l :
  builder_new und n (clamp_compression_level l) = builder_new und n l.
Proof.
  unfold builder_new. by rewrite (clamp_level_id _ (clamp_level_range l)).
Qed.

Lemma compress_spec p o1 o2 g l : graph_inv g ->
  exists cg, compress p o1 o2 g l = Ret cg /\ compress_of g l cg.
Proof.
  intros Hi. pose proof (vc_u64 g Hi) as Hn64.
  pose proof (clamp_level_range l) as Hl.
  set (L := clamp_compression_level l) in *.
  (* the pooled matrix *)
  assert (exists m, find_avg_pool_matrix p o1 g COMPRESSION_BLOCK_DIMENSION = Ret m /\
    sq_inv m /\ (forall c r e, sq_val m c r = Some e ->
      (0 < block_count g 8 c r)%nat /\
      f64_ge e (compress_threshold L) = kept g l c r) /\
    (forall c r, (0 < block_count g 8 c r)%nat -> is_Some (sq_val m c r)))
    as (m & Hm & Him & Hmv & Hms).
  { destruct (N.eq_dec (vertex_count g) 0) as [Hn|Hn].
    - exists sq_new. unfold find_avg_pool_matrix. rewrite Hn. split_and!; [done|apply sq_inv_new| |].
      + intros c r e. by rewrite sq_val_new.
      + intros c r. rewrite block_count_zero_vc by done. lia.
    - assert (clamp_block (vertex_count g) COMPRESSION_BLOCK_DIMENSION
              = N.min 8 (vertex_count g)) as Hcb.
      { unfold clamp_block, COMPRESSION_BLOCK_DIMENSION. simpl.
        destruct (N.ltb_spec (vertex_count g) 8); lia. }
      destruct (find_avg_pool_total p o1 g COMPRESSION_BLOCK_DIMENSION Hi) as [m Hm].
      { rewrite Hcb. change (2 ^ 32) with 4294967296. lia. }
      destruct (find_avg_pool_ret p o1 g _ m Hi Hn Hm) as (square & Hsq & [Hinv Hdim Hval]).
      rewrite Hcb in *. set (b := N.min 8 (vertex_count g)) in *.
      rewrite u64_mul_small in Hsq by (change (2 ^ 32) with 4294967296; lia).
      injection Hsq as <-.
      exists m. split_and!; [done|done| |].
      2:{ intros c r Hpos. rewrite Hval. unfold b. rewrite block_count_min by done.
          destruct (block_count g 8 c r); [lia|]. simpl. eauto. }
      intros c r e He. rewrite Hval in He.
      apply fmap_Some in He as (x & Hx & ->).
      destruct (occ_val_pool _ _ (b * b) b Hx) as [Hk ->]; [done|].
      unfold b in Hk, Hx. rewrite block_count_min in Hk, Hx by done. split; [lia|].
      unfold b at 2. rewrite block_count_min by done. unfold kept. fold b L.
      rewrite (proj2 (Nat.ltb_lt _ _)) by lia. simpl andb.
      apply keep_table; [lia|done| |done].
      pose proof (block_count_bound g b c r) as Hbd. unfold b in Hbd at 2.
      rewrite block_count_min in Hbd by done. apply Hbd. lia. }
  set (es := (fun '(e, c, r) => (block_word g c r, c, r)) <$>
       filter (fun '(e, c, r) => f64_ge e (compress_threshold L) = true) (sq_items o2 m)).
  assert (forall w c r, (w, c, r) ∈ es <-> is_Some (sq_val m c r) /\ kept g l c r = true /\
            w = block_word g c r) as Hes.
  { intros w c r. unfold es. rewrite elem_of_list_fmap. split.
    - intros ([[e c'] r'] & [= -> -> ->] & Hin). apply elem_of_list_filter in Hin as [Hge Hin].
      apply elem_of_sq_items in Hin; [|done]. destruct (Hmv _ _ _ Hin) as [_ Hk].
      rewrite Hge in Hk. split_and!; [by eexists|done|done].
    - intros ([e He] & Hk & ->). exists (e, c, r). split; [done|].
      apply elem_of_list_filter. split; [|by apply elem_of_sq_items].
      destruct (Hmv _ _ _ He) as [_ Hge]. congruence. }
  assert (forall c r, kept g l c r = true -> c < compressed_matrix_dimension (vertex_count g)
            /\ r < compressed_matrix_dimension (vertex_count g)) as Hkb.
  { intros c r Hk. apply kept_count in Hk.
    apply block_count_pos in Hk as (u & v & Hh & Hc & Hr).
    destruct (has_bound g u v Hi Hh) as [Hu Hv].
    assert (vertex_count g <> 0) as Hn0 by lia.
    assert (forall x, x < vertex_count g -> x / 8 < compressed_matrix_dimension (vertex_count g)) as Hd.
    { intros x Hx. rewrite <- blocks_8 by done.
      destruct (N.le_gt_cases 8 (vertex_count g)) as [H8|H8].
      - rewrite N.min_l by done. by apply div_lt_blocks.
      - rewrite N.div_small by lia.
        destruct (blocks_le (vertex_count g) (N.min 8 (vertex_count g))); lia. }
    rewrite <- Hc, <- Hr. split; by apply Hd. }
  pose proof (cmd_bound _ Hn64) as Hcmd. change (2 ^ 61) with 2305843009213693952 in Hcmd.
  destruct (add_entries_cg es (g_und g) (vertex_count g) L)
    as (Hinv & Hval & Hund & Hvc & Hlev & Hec & Hperm).
  { done. }
  { done. }
  { unfold es. rewrite <- list_fmap_compose.
    rewrite (list_fmap_ext _ (fun '(e, c, r) => (c, r))) by (by intros ? [[? ?] ?]).
    apply NoDup_fmap_filter, NoDup_sq_items_keys, Him. }
  { intros w c r Hin. apply Hes in Hin as (_ & Hk & ->). destruct (Hkb c r Hk).
    split_and!; [|apply block_word_small|done|done|].
    - apply block_word_nonzero. by eapply kept_count.
    - intros u v Hin. apply elem_of_entry_edges in Hin as (<- & <- & Hb).
      rewrite block_word_bit in Hb. apply exists_has in Hb. by apply has_bound. }
  eexists. split.
  - unfold compress. rewrite Hm. cbn [obind]. fold L. rewrite compress_loop.
    + cbn [obind]. reflexivity.
    + intros e c r Hin. apply elem_of_sq_items in Hin; [|done].
      destruct (Hmv _ _ _ Hin) as [Hpos _].
      apply block_count_pos in Hpos as (u & v & Hh & Hc & Hr).
      destruct (has_bound g u v Hi Hh) as [Hu Hv].
      assert (forall x, x < two64 -> 8 * (x / 8) + 7 < two64) as Hx.
      { intros x Hx. assert (x / 8 < 2305843009213693952) as Hd
          by (apply N.div_lt_upper_bound; [done|]; exact Hx).
        generalize dependent (x / 8). unfold two64. intros; lia. }
      rewrite <- Hc, <- Hr. split; apply Hx; lia.
  - unfold builder_finish. fold es. constructor; [done..| |].
    + intros c r. destruct (kept g l c r) eqn:Hk.
      * apply Hval, Hes. split_and!; [|done|done]. by apply Hms, kept_count with l.
      * destruct (sq_val _ c r) as [w|] eqn:E; [|done]. apply Hval, Hes in E as (_ & ? & _).
        congruence.
    + intros k Hk. rewrite Hec. f_equal. rewrite <- (ones_total_perm _ _ (Hperm plain_order)).
      eapply has_card_unique; [|exact Hk]. by apply c_has_card.
Qed.

(** ** Decompression *)

Definition add_edges (l : list (N * N)) (g : graph) : graph :=
  fold_left (fun g '(u, v) => add_edge g u v) l g.

Lemma add_edges_app l1 l2 g : add_edges (l1 ++ l2) g = add_edges l2 (add_edges l1 g).
Proof. apply fold_left_app. Qed.

Lemma decompress_entry_spec p g w c r :
  (forall u v, (u, v) ∈ entry_edges (w, c, r) -> u < two64 /\ v < two64) ->
  decompress_entry p g (w, c, r) = Ret (add_edges (entry_edges (w, c, r)) g).
Proof.
  intros Hb. unfold decompress_entry.
  match goal with |- context [ofold ?f _ _] => set (body := f) end.
  set (cells := fun n => (fun i => (8 * c + i mod 8, 8 * r + i / 8)) <$>
                  filter (fun i => N.testbit w i = true) (range n)).
  destruct (ofold_range_inv
    (fun i st => st = (add_edges (cells i) g, if i <? 64 then 2 ^ i else 0)) body 64 (g, 1))
    as (st & Hrun & Hst).
  - done.
  - intros i st Hi ->. unfold body. cbv beta iota.
    destruct (N.ltb_spec i 64); [|lia].
    assert (N.shiftl (2 ^ i) 1 mod two64 = if i + 1 <? 64 then 2 ^ (i + 1) else 0) as ->.
    { rewrite N.shiftl_mul_pow2, <- N.pow_add_r. destruct (N.ltb_spec (i + 1) 64).
      - apply N.mod_small. change two64 with (2 ^ 64). apply N.pow_lt_mono_r; lia.
      - by replace (i + 1) with 64 by lia. }
    rewrite land_pow2.
    assert (cells (i + 1) = cells i ++ (if decide (N.testbit w i = true)
              then [(8 * c + i mod 8, 8 * r + i / 8)] else [])) as ->.
    { unfold cells. rewrite range_S, filter_app, fmap_app, filter_cons, filter_nil.
      by case_decide. }
    rewrite add_edges_app.
    destruct (N.testbit w i) eqn:Eb.
    + rewrite decide_True by done.
      destruct (Hb (8 * c + i mod 8) (8 * r + i / 8)) as [Hu Hv].
      { unfold entry_edges. apply elem_of_list_fmap. exists i. split; [done|].
        apply elem_of_list_filter. split; [done|]. by apply elem_of_range. }
      unfold COMPRESSION_BLOCK_DIMENSION, u64_mul, u64_add.
      rewrite !(N.mul_comm _ 8).
      pose proof (N.le_0_l (i mod 8)). pose proof (N.le_0_l (i / 8)).
      destruct (N.ltb_spec (8 * c) two64); [|lia]. destruct (N.ltb_spec (8 * r) two64); [|lia].
      cbn [obind].
      destruct (N.ltb_spec (8 * c + i mod 8) two64); [|lia].
      destruct (N.ltb_spec (8 * r + i / 8) two64); [|lia]. cbn [obind].
      eexists. split; [reflexivity|]. done.
    + rewrite decide_False by done. cbn [obind]. eexists. split; [reflexivity|]. done.
  - rewrite Hrun, Hst. cbn [obind]. done.
Qed.

Lemma decompress_loop p items g :
  (forall u v, (u, v) ∈ items ≫= entry_edges -> u < two64 /\ v < two64) ->
  ofold (decompress_entry p) items g = Ret (add_edges (items ≫= entry_edges) g).
Proof.
  revert g. induction items as [|[[w c] r] items IH]; intros g Hb; [done|].
  cbn [ofold]. rewrite bind_cons, add_edges_app. rewrite decompress_entry_spec.
  - cbn [obind]. apply IH. intros u v Hin. apply Hb. rewrite bind_cons, elem_of_app. by right.
  - intros u v Hin. apply Hb. rewrite bind_cons, elem_of_app. by left.
Qed.

Record decompress_of (cg : cgraph) (g : graph) : Prop := DecompressOf {
  do_inv : graph_inv g;
  do_und : g_und g = cg_und cg;
  do_n : vertex_count g = cg_vertex_count cg;
  do_has : forall u v, has g u v <-> c_has cg u v \/ (cg_und cg = true /\ c_has cg v u);
}.

Lemma decompress_spec p o cg : cg_inv cg -> cg_vertex_count cg < two64 ->
  exists g, decompress p o cg = Ret g /\ decompress_of cg g.
Proof.
  intros Hi Hn64.
  assert (forall u v, (u, v) ∈ sq_items o (cg_mat cg) ≫= entry_edges <-> c_has cg u v) as Hc.
  { intros u v. by rewrite (c_has_items o cg u v) by apply Hi. }
  set (g0 := if cg_und cg then new_undirected else new_directed).
  set (g1 := if 0 <? cg_vertex_count cg then add_vertex g0 (cg_vertex_count cg - 1) None else g0).
  assert (graph_inv g0) as Hi0 by (unfold g0; destruct (cg_und cg); apply graph_inv_new).
  assert (g_und g0 = cg_und cg) as Hu0 by (unfold g0; by destruct (cg_und cg)).
  assert (vertex_count g0 = 0) as Hv0 by (unfold g0; by destruct (cg_und cg)).
  assert (forall u v, ~ has g0 u v) as Hh0
    by (unfold g0; destruct (cg_und cg); apply not_has_new).
  assert (graph_inv g1) as Hi1
    by (unfold g1; destruct (0 <? _); [by apply graph_inv_add_vertex|done]).
  assert (g_und g1 = cg_und cg) as Hu1.
  { unfold g1. destruct (0 <? _); [|done]. by rewrite add_vertex_none, und_grow. }
  assert (forall u v, ~ has g1 u v) as Hh1.
  { unfold g1. destruct (0 <? _); [|done]. intros u v. rewrite add_vertex_none, has_grow.
    apply Hh0. }
  assert (vertex_count g1 = cg_vertex_count cg) as Hv1.
  { unfold g1. destruct (N.ltb_spec 0 (cg_vertex_count cg)); [|lia].
    rewrite add_vertex_none, vc_grow, Hv0 by done. unfold valid_id.
    destruct (N.ltb_spec (cg_vertex_count cg - 1) u64_max); unfold u64_max, two64 in *; lia. }
  eexists. split.
  - unfold decompress. fold g0 g1. apply decompress_loop. intros u v Hin. apply Hc in Hin.
    apply (ci_bits cg Hi) in Hin. lia.
  - constructor.
    + by apply graph_inv_fold_add_edge.
    + unfold add_edges. by rewrite und_fold_add_edge.
    + apply N.le_antisymm.
      * apply vc_fold_add_edge; [lia|]. intros u v Hin. apply Hc in Hin.
        by apply (ci_bits cg Hi).
      * rewrite <- Hv1. apply vc_fold_add_edge_mono.
    + intros u v. unfold add_edges. rewrite has_fold_add_edge, Hu1.
      rewrite !Hc.
      split.
      * intros [H|[_ H]]; [by apply Hh1 in H|done].
      * intros H. right. split; [|done]. apply both_valid_lt.
        destruct H as [H|[_ H]]; apply (ci_bits cg Hi) in H; unfold u64_max, two64 in *; lia.
Qed.
