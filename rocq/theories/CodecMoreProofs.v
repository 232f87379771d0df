(** Decoding errors, and the codec lemmas in the vocabulary of Spec.v. *)
From Coq Require Import Ascii String.
From Verif Require Import Base HashIter F64 Numeric Adj Sq Standard Compressed Spec Api
  HashIterProofs AdjProofs SqProofs GraphProofs BitsProofs CompressProofs BytesProofs
  GraphCodecProofs CGraphCodecProofs ApproxProofs PoolProofs.

Local Arguments N.mul : simpl never.
Local Arguments N.add : simpl never.

(** ** Every decoding error is InvalidFormat *)
Definition invalid {A} (r : result A) : Prop :=
  match r with Err e => exists msg, e = InvalidFormat msg | Ok _ => True end.
Definition oinvalid {A} (r : outcome (result A)) : Prop :=
  match r with Ret r => invalid r | _ => True end.

Lemma invalid_ok_or {A} msg (x : option A) : invalid (ok_or (InvalidFormat msg) x).
Proof. destruct x; simpl; eauto. Qed.
Lemma invalid_rbind {A B} (x : result A) (f : A -> result B) :
  invalid x -> (forall a, invalid (f a)) -> invalid (rbind x f).
Proof. destruct x; simpl; eauto. Qed.
Lemma oinvalid_orbind {A B} (x : outcome (result A)) (f : A -> outcome (result B)) :
  oinvalid x -> (forall a, oinvalid (f a)) -> oinvalid (orbind x f).
Proof. destruct x as [[]| |]; simpl; eauto. Qed.
Lemma oinvalid_obind {A B} (x : outcome A) (f : A -> outcome (result B)) :
  (forall a, oinvalid (f a)) -> oinvalid (obind x f).
Proof. destruct x; simpl; eauto. Qed.
Lemma oinvalid_err {A} msg : oinvalid (Ret (Err (A := A) (InvalidFormat msg))).
Proof. simpl. eauto. Qed.

Lemma invalid_read_be p k bytes off : invalid (read_be p k bytes off).
Proof.
  unfold read_be. apply invalid_rbind; [apply invalid_ok_or|]. intros _.
  apply invalid_rbind; [apply invalid_ok_or|]. done.
Qed.
Lemma invalid_c_read_be p k bytes off : invalid (c_read_be p k bytes off).
Proof.
  unfold c_read_be. apply invalid_rbind; [apply invalid_ok_or|]. intros _.
  apply invalid_rbind; [apply invalid_ok_or|]. done.
Qed.

Lemma invalid_validate w c r n : invalid (validate_compressed_entry_bounds w c r n).
Proof.
  unfold validate_compressed_entry_bounds.
  assert (forall l acc, invalid acc -> invalid (fold_left (fun acc bit =>
    rbind acc (fun _ => validate_bit w c r n bit)) l acc)) as H.
  { induction l as [|i l IH]; intros acc Hacc; [done|]. simpl. apply IH.
    apply invalid_rbind; [done|]. intros _. unfold validate_bit.
    destruct (_ =? 0); [done|]. apply invalid_rbind; [apply invalid_ok_or|]. intros ?.
    apply invalid_rbind; [apply invalid_ok_or|]. intros ?. destruct (_ || _); simpl; eauto. }
  by apply H.
Qed.

Lemma oinvalid_ret {A} (r : result A) : invalid r -> oinvalid (Ret r).
Proof. done. Qed.

Ltac inv_leaf := match goal with
  | |- oinvalid (Ret (read_be _ _ _ _)) => apply oinvalid_ret, invalid_read_be
  | |- oinvalid (Ret (c_read_be _ _ _ _)) => apply oinvalid_ret, invalid_c_read_be
  | |- oinvalid (Ret (ok_or _ _)) => apply oinvalid_ret, invalid_ok_or
  | |- oinvalid (Ret (validate_compressed_entry_bounds _ _ _ _)) =>
      apply oinvalid_ret, invalid_validate
  | |- oinvalid (Ret (graph_expected_size _ _)) => apply oinvalid_ret, invalid_ok_or
  | |- oinvalid (Ret (cgraph_expected_size _ _)) => apply oinvalid_ret, invalid_ok_or
  | |- oinvalid (Ret (Err (InvalidFormat _))) => apply oinvalid_err
  | |- oinvalid (Ret (Ok _)) => exact I
  | |- oinvalid OutOfFuel => exact I
  end.
Ltac oinv := repeat first
  [ inv_leaf
  | match goal with
    | |- oinvalid (orbind _ _) => apply oinvalid_orbind; [|intros ?]
    | |- oinvalid (obind _ _) => apply oinvalid_obind; intros ?
    | |- oinvalid (if ?b then _ else _) => destruct b
    | |- oinvalid (match ?a with (_, _) => _ end) => destruct a
    | |- oinvalid (let '(_, _) := ?a in _) => destruct a
    end ].

Lemma oinvalid_graph_read_loop p fuel bytes expected dim pos g :
  oinvalid (graph_read_loop p fuel bytes expected dim pos g).
Proof.
  revert pos g. induction fuel as [|fuel IH]; intros pos g; cbn [graph_read_loop].
  - by destruct (pos <? expected).
  - oinv. apply IH.
Qed.

Lemma oinvalid_graph_try_from p bytes : oinvalid (graph_try_from p bytes).
Proof.
  unfold graph_try_from. oinv. apply oinvalid_graph_read_loop.
Qed.

Lemma oinvalid_cgraph_read_loop p fuel bytes expected dim n pos b parsed :
  oinvalid (cgraph_read_loop p fuel bytes expected dim n pos b parsed).
Proof.
  revert pos b parsed. induction fuel as [|fuel IH]; intros pos b parsed; cbn [cgraph_read_loop].
  - by destruct (pos <? expected).
  - oinv. apply IH.
Qed.

Lemma oinvalid_cgraph_try_from p bytes : oinvalid (cgraph_try_from p bytes).
Proof.
  unfold cgraph_try_from. oinv. apply oinvalid_cgraph_read_loop.
Qed.

(** ** Valid files *)
Lemma good_file_valid und n l : good_file und n l <-> valid_graph_file und n l.
Proof.
  split.
  - intros [Hn Hb Hc]. constructor; [done| |done]. intros u v Hin.
    rewrite Forall_forall in Hb. exact (Hb _ Hin).
  - intros [Hn Hb Hc]. constructor; [done| |done]. apply Forall_forall. intros [u v]. apply Hb.
Qed.

Lemma popcount_ones w : w < two64 -> popcount w = count_ones w.
Proof.
  intros Hw. rewrite <- (length_entry_edges w 0 0 Hw). unfold entry_edges, popcount.
  by rewrite fmap_length.
Qed.

Lemma popcount_ones_total l : (forall w c r, (w, c, r) ∈ l -> w < two64) ->
  popcount_total l = ones_total l.
Proof.
  induction l as [|[[w c] r] l IH]; intros Hl; [done|].
  rewrite ones_total_cons. simpl. rewrite popcount_ones by (apply (Hl w c r); left).
  rewrite IH; [done|]. intros w' c' r' Hin. apply (Hl w' c' r'). by right.
Qed.

Lemma blocks_of_dim n : blocks_of n = compressed_matrix_dimension n.
Proof.
  unfold blocks_of, compressed_matrix_dimension, COMPRESSION_BLOCK_DIMENSION.
  pose proof (N.div_mod n 8 ltac:(done)) as Hdm. pose proof (N.mod_lt n 8 ltac:(done)) as Hm.
  set (q := n / 8) in *. set (m := n mod 8) in *. clearbody q m. subst n.
  destruct (N.eqb_spec m 0) as [->|Hm0]; cbn [negb orb].
  - replace ((8 * q + 0 + 7) / 8) with q by (apply (N.div_unique _ _ _ 7); lia).
    destruct (N.eqb_spec q 0); lia.
  - replace ((8 * q + m + 7) / 8) with (q + 1) by (apply (N.div_unique _ _ _ (m - 1)); lia).
    lia.
Qed.

Lemma good_cfile_valid n level l : good_cfile n level l <-> valid_cgraph_file n level l.
Proof.
  split.
  - intros [Hn Hlev Hw Hk Hb Ht]. rewrite Forall_forall in Hw, Hk.
    assert (forall w c r, (w, c, r) ∈ l -> 0 < w < two64) as Hw'.
    { intros w c r Hin. specialize (Hw _ Hin). simpl in Hw. lia. }
    constructor; [done|done|done| | |].
    + intros w c r Hin. rewrite blocks_of_dim. exact (Hk _ Hin).
    + intros w c r i Hin Hi Hbit. apply Hb. apply elem_of_list_bind. exists (w, c, r).
      split; [|done]. unfold entry_edges. apply elem_of_list_fmap. exists i. split; [done|].
      apply elem_of_list_filter. split; [done|]. by apply elem_of_range.
    + rewrite popcount_ones_total; [done|]. intros w c r Hin. apply (Hw' w c r Hin).
  - intros [Hn Hlev Hw Hk Hb Ht]. constructor; [done|done| | | |].
    + apply Forall_forall. intros [[w c] r] Hin. specialize (Hw _ _ _ Hin). lia.
    + apply Forall_forall. intros [[w c] r] Hin. rewrite <- blocks_of_dim. exact (Hk _ _ _ Hin).
    + intros u v Hin. apply elem_of_list_bind in Hin as ([[w c] r] & Hin & Hl).
      unfold entry_edges in Hin. apply elem_of_list_fmap in Hin as (i & Heq & Hi).
      apply pair_equal_spec in Heq as [-> ->]. apply elem_of_list_filter in Hi as [Hbit Hi].
      apply elem_of_range in Hi. by apply (Hb w c r i).
    + rewrite <- popcount_ones_total; [done|]. intros w c r Hin. apply (Hw w c r Hin).
Qed.

Lemma cfile_of_valid und n level l : valid_cgraph_file n level l ->
  cgraph_file und (blocks_of n) (N.of_nat (length l)) (popcount_total l) n level l =
  cfile_of und n level l.
Proof.
  intros Hv. unfold cfile_of. rewrite blocks_of_dim, popcount_ones_total; [done|].
  intros w c r Hin. apply (vc_words _ _ _ Hv w c r Hin).
Qed.

Lemma last_word_val l c r :
  default 0 (fold_left (fun acc '(w, c', r') => if decide (c = c' /\ r = r') then Some w else acc)
    l None) = last_word l c r.
Proof.
  unfold last_word.
  change (default 0 (fold_left (fun acc '(w, c', r') =>
    if decide (c = c' /\ r = r') then Some w else acc) l None) =
    fold_left (fun acc '(w, c', r') => if (c =? c') && (r =? r') then w else acc) l
      (default 0 (None (A := N)))).
  generalize (None (A := N)) as acc. induction l as [|[[w c'] r'] l IH]; intros acc; [done|].
  simpl. rewrite IH. f_equal.
  destruct (N.eqb_spec c c'), (N.eqb_spec r r'); case_decide; naive_solver.
Qed.

Lemma cdecoded_entry und n level l c r : good_cfile n level l ->
  get_compressed_matrix_entry (cdecoded und n level l) c r = last_word l c r.
Proof.
  intros Hg. rewrite c_get_entry_val. unfold cdecoded. rewrite add_entries_val.
  - rewrite builder_new_val. apply last_word_val.
  - destruct Hg as [Hn _ Hw Hk _ _]. pose proof (cmd_bound n Hn) as Hc.
    change (2 ^ 61) with 2305843009213693952 in Hc.
    rewrite Forall_forall in Hw, Hk. intros w' c' r' Hin.
    specialize (Hw _ Hin). specialize (Hk _ Hin). simpl in Hw, Hk.
    split; [apply Hw|]. apply both_valid_lt. unfold u64_max. lia.
Qed.

Lemma c_exists_bit cg u v : c_does_edge_exist cg u v =
  N.testbit (get_compressed_matrix_entry cg (u / 8) (v / 8)) (8 * (v mod 8) + u mod 8).
Proof.
  apply eq_true_iff_eq. rewrite c_exists_has. unfold c_has, bit_pos. by rewrite c_get_entry_val.
Qed.

(** ** Hand-made compressed graphs *)

Definition build_step (b : cgraph) (call : N * N * N * option N) : cgraph :=
  let '(e, c, r, h) := call in builder_add b e c r h.

Lemma valid_both c r : both_valid c r = valid_id c && valid_id r.
Proof.
  apply eq_true_iff_eq. rewrite both_valid_lt, andb_true_iff. unfold valid_id. by rewrite !N.ltb_lt.
Qed.

Lemma build_facts calls b :
  sq_inv (cg_mat b) -> cg_edge_count b < two64 ->
  (forall e c r h, (e, c, r, h) ∈ calls -> e < two64) ->
  let cg := fold_left build_step calls b in
  sq_inv (cg_mat cg) /\ cg_und cg = cg_und b /\ cg_vertex_count cg = cg_vertex_count b /\
  cg_level cg = cg_level b /\
  cg_edge_count cg = N.min (cg_edge_count b + weight_total calls) u64_max /\
  sq_dim (cg_mat cg) = fold_left (fun d '(_, c, r, _) =>
    if valid_id c && valid_id r then N.max d (N.max (c + 1) (r + 1)) else d) calls (sq_dim (cg_mat b)) /\
  (forall c r, default 0 (sq_val (cg_mat cg) c r) = fold_left (fun acc '(e, c', r', _) =>
    if (c =? c') && (r =? r') && valid_id c' && valid_id r' && negb (e =? 0) then e else acc)
    calls (default 0 (sq_val (cg_mat b) c r))) /\
  ((forall c r w, sq_val (cg_mat b) c r = Some w -> w <> 0 /\ w < two64) ->
   forall c r w, sq_val (cg_mat cg) c r = Some w -> w <> 0 /\ w < two64).
Proof.
  revert b. induction calls as [|[[[e c] r] h] calls IH]; intros b Hi Hec He cg.
  - split_and!; try done. subst cg. cbn [fold_left]. change (weight_total []) with 0.
    unfold u64_max, two64 in *. lia.
  - assert (e < two64) as He1 by (eapply He; left).
    destruct (IH (build_step b (e, c, r, h))) as (I1 & I2 & I3 & I4 & I5 & I6 & I7 & I8).
    + simpl. by apply sq_inv_set.
    + simpl. apply sat_lt.
    + intros e' c' r' h' Hin. apply (He e' c' r' h'). by right.
    + cbn [fold_left] in cg. fold cg in I1, I2, I3, I4, I5, I6, I7, I8. split_and!; try done.
      * rewrite I5. cbn [build_step builder_add cg_edge_count weight_total fold_right].
        rewrite sat_min by done.
        change (foldr _ 0 calls) with (weight_total calls).
        change (call_weight (e, c, r, h)) with (default (popcount e) h).
        assert (match h with Some w => w | None => find_hamming_weight e end =
          default (popcount e) h) as ->.
        { destruct h; [done|]. simpl. by rewrite popcount_ones. }
        lia.
      * rewrite I6. cbn [fold_left]. f_equal. simpl. by rewrite sq_dim_set, valid_both.
      * intros c1 r1. rewrite I7. cbn [fold_left]. f_equal. simpl. rewrite sq_val_set, valid_both.
        change (num_eq u64_numeric e (num_zero u64_numeric)) with (e =? 0).
        destruct (valid_id c && valid_id r) eqn:Ev.
        -- apply andb_true_iff in Ev as [-> ->]. rewrite !andb_true_r. cbn [andb].
           destruct (N.eqb_spec e 0); cbn [negb]; [by rewrite andb_false_r|].
           rewrite andb_true_r.
           destruct (N.eqb_spec c1 c), (N.eqb_spec r1 r); case_bool_decide || case_decide; naive_solver.
        -- rewrite <- (andb_assoc _ (valid_id c)), Ev, andb_false_r. done.
      * intros Hb. apply I8. intros c1 r1 w. simpl. rewrite sq_val_set.
        change (num_eq u64_numeric e (num_zero u64_numeric)) with (e =? 0).
        destruct (both_valid c r && negb (e =? 0) && _) eqn:E.
        -- intros [= <-]. apply andb_true_iff in E as [E _]. apply andb_true_iff in E as [_ E].
           by destruct (N.eqb_spec e 0).
        -- apply Hb.
Qed.

Lemma build_spec und n level calls : n < two64 ->
  (forall e c r h, (e, c, r, h) ∈ calls -> e < two64) ->
  let cg := build und n level calls in
  sq_inv (cg_mat cg) /\ cg_und cg = und /\ cg_vertex_count cg = n /\
  cg_level cg = clamp_compression_level level /\
  cg_edge_count cg = N.min (weight_total calls) u64_max /\
  sq_dim (cg_mat cg) = built_dim n calls /\
  (forall c r, get_compressed_matrix_entry cg c r = last_stored calls c r) /\
  (forall c r w, sq_val (cg_mat cg) c r = Some w -> w <> 0 /\ w < two64).
Proof.
  intros Hn He.
  destruct (build_facts calls (builder_new und n level)) as (I1 & I2 & I3 & I4 & I5 & I6 & I7 & I8).
  - apply builder_new_inv.
  - done.
  - done.
  - assert (build und n level calls = fold_left build_step calls (builder_new und n level)) as Heq.
    { unfold build, builder_finish. done. }
    simpl. rewrite Heq. split_and!; try done.
    + rewrite I6. unfold built_dim. by rewrite builder_new_dim, blocks_of_dim.
    + intros c r. rewrite c_get_entry_val, I7, builder_new_val. done.
    + apply I8. intros c r w. by rewrite builder_new_val.
Qed.

(** ** Writing *)
Lemma cgraph_layout p o cg k : wf_platform p -> sq_inv (cg_mat cg) ->
  (forall c r w, sq_val (cg_mat cg) c r = Some w -> w <> 0 /\ w < two64) ->
  has_card (fun '(c, r) => get_compressed_matrix_entry cg c r <> 0) k -> k < two64 ->
  if (42 + 24 * k <=? usize_max p) && can_alloc p (42 + 24 * k)
  then exists bytes l, cgraph_to_bytes p o cg = Ok bytes /\
    bytes = cgraph_file (cg_und cg) (sq_dim (cg_mat cg)) k (cg_edge_count cg)
      (cg_vertex_count cg) (cg_level cg) l /\
    distinct_blocks l /\
    (forall w c r, (w, c, r) ∈ l <-> get_compressed_matrix_entry cg c r = w /\ w <> 0) /\
    N.of_nat (length bytes) = 42 + 24 * k
  else exists msg, cgraph_to_bytes p o cg = Err (CapacityOverflow msg).
Proof.
  intros Hp Hi Hw Hk Hk64.
  assert (N.of_nat (length (sq_items o (cg_mat cg))) = k) as Hlen.
  { eapply has_card_unique; [|exact Hk].
    rewrite <- (fmap_length (fun '(e, c, r) => (c, r)) (sq_items o (cg_mat cg))).
    eapply has_card_ext; [|apply has_card_list, (NoDup_sq_items_keys o), Hi].
    intros [c r]. rewrite elem_of_list_fmap, c_get_entry_val. split.
    - intros ([[w c'] r'] & [= -> ->] & Hin). apply elem_of_sq_items in Hin; [|done].
      rewrite Hin. simpl. by apply (Hw _ _ _ Hin).
    - destruct (sq_val (cg_mat cg) c r) as [w|] eqn:E; [|done]. intros _. exists (w, c, r).
      split; [done|]. by apply elem_of_sq_items. }
  assert (sq_cnt (cg_mat cg) = k) as Hcnt.
  { rewrite (si_cnt _ Hi). rewrite length_sq_items in Hlen by done. rewrite Hlen.
    by apply N.mod_small. }
  assert (cgraph_to_bytes p o cg =
    if (42 + 24 * k <=? usize_max p) && can_alloc p (42 + 24 * k)
    then cgraph_to_bytes p o cg
    else if 42 + 24 * k <=? usize_max p
    then Err (CapacityOverflow "Unable to allocate compressed graph bytes")
    else Err (CapacityOverflow "CompressedGraph byte size overflowed")) as Hcase.
  { destruct (_ && _) eqn:E; [done|]. unfold cgraph_to_bytes.
    rewrite cgraph_bytes_size_eq, Hcnt by done.
    destruct (42 + 24 * k <=? usize_max p); [|done]. cbn [rbind andb] in *. by rewrite E. }
  destruct (_ && _) eqn:E.
  - apply andb_true_iff in E as [_ Ha]. eexists _, (sq_items o (cg_mat cg)). split.
    { apply cgraph_to_bytes_ok; [done|]. by rewrite Hcnt. }
    split_and!.
    + by rewrite Hcnt.
    + by apply NoDup_sq_items_keys.
    + intros w c r. rewrite elem_of_sq_items, c_get_entry_val by done. split.
      * intros Hv. rewrite Hv. split; [done|]. by apply (Hw _ _ _ Hv).
      * destruct (sq_val (cg_mat cg) c r); simpl; [naive_solver|]. intros [<- ?]. done.
    + rewrite length_cgraph_file. lia.
  - rewrite Hcase. destruct (_ <=? _); eauto.
Qed.

Lemma has_card_le {A} (P Q : A -> Prop) k k' : has_card P k -> has_card Q k' ->
  (forall x, P x -> Q x) -> k <= k'.
Proof.
  intros (l & Hnd & Hl & <-) (l' & _ & Hl' & <-) Hpq.
  assert (length l <= length l')%nat; [|lia].
  apply submseteq_length, NoDup_submseteq; [done|]. intros x Hx. by apply Hl', Hpq, Hl.
Qed.

Lemma count_ones_pos w : w <> 0 -> 1 <= count_ones w.
Proof.
  destruct w as [|x]; [done|]. intros _. simpl. induction x; simpl; lia.
Qed.

Lemma length_le_ones l : (forall w c r, (w, c, r) ∈ l -> w <> 0) ->
  N.of_nat (length l) <= ones_total l.
Proof.
  induction l as [|[[w c] r] l IH]; intros Hl; [done|]. rewrite ones_total_cons.
  pose proof (count_ones_pos w) as H1. specialize (Hl w c r) as H2.
  assert (w <> 0) by (apply H2; left). cbn [length].
  assert (N.of_nat (length l) <= ones_total l); [|lia].
  apply IH. intros w' c' r' Hin. apply (Hl w' c' r'). by right.
Qed.

(** ** Compression *)
Lemma clamp_level_eq l : clamp_compression_level l = N.max 1 (N.min l 64).
Proof.
  unfold clamp_compression_level. destruct (N.ltb_spec 64 l); [lia|].
  destruct (N.eqb_spec l 0); lia.
Qed.

Lemma compress_exists g l cg u v : compress_of g l cg ->
  c_does_edge_exist cg u v = does_edge_exist g u v && kept g l (u / 8) (v / 8).
Proof.
  intros Hco. apply eq_true_iff_eq. rewrite c_exists_has. unfold c_has. rewrite (co_val _ _ _ Hco).
  destruct (kept g l (u / 8) (v / 8)); simpl default.
  - by rewrite block_word_bit, andb_true_r.
  - by rewrite N.bits_0, andb_false_r.
Qed.

Lemma kept_rule g l u v k : block_has g 8 (u / 8) (v / 8) k -> does_edge_exist g u v = true ->
  kept g l (u / 8) (v / 8) = true <->
  N.max 1 (N.min l 64) * (N.min 8 (vertex_count g) * N.min 8 (vertex_count g)) <= 64 * k.
Proof.
  intros Hk He. apply block_has_eq in Hk. unfold kept. rewrite clamp_level_eq.
  assert (0 < block_count g 8 (u / 8) (v / 8))%nat as Hpos.
  { apply block_count_pos. exists u, v. split_and!; [by apply exists_has|done|done]. }
  rewrite andb_true_iff, Nat.ltb_lt, N.leb_le, Hk, N2Nat.id in *. split; [tauto|]. intros H.
  split; [lia|done].
Qed.

Lemma kept_sym g l c r : graph_inv g -> g_und g = true -> kept g l c r = kept g l r c.
Proof.
  intros Hi Hu. unfold kept. by rewrite (block_count_sym g 8 c r Hi Hu).
Qed.
Lemma compress_sym g l cg u v : graph_inv g -> compress_of g l cg -> cg_und cg = true ->
  c_does_edge_exist cg u v = c_does_edge_exist cg v u.
Proof.
  intros Hi Hco Hu. rewrite (co_und _ _ _ Hco) in Hu.
  rewrite !(compress_exists g l cg) by done. rewrite (kept_sym g l (u / 8)) by done. f_equal.
  apply eq_true_iff_eq. rewrite !exists_has. split; by apply (gi_sym g Hi Hu).
Qed.

(** Decompression of a symmetric compressed graph. *)
Lemma decompress_exists cg g : decompress_of cg g ->
  (cg_und cg = true -> forall u v, c_does_edge_exist cg u v = c_does_edge_exist cg v u) ->
  forall u v, does_edge_exist g u v = c_does_edge_exist cg u v.
Proof.
  intros Hd Hs u v. apply eq_true_iff_eq. rewrite exists_has, (do_has _ _ Hd), c_exists_has.
  split; [|by left]. intros [H|[Hu H]]; [done|].
  apply c_exists_has in H. rewrite <- Hs in H by done. by apply c_exists_has.
Qed.

Lemma cdecoded_items und n level l o : good_cfile n level l -> distinct_blocks l ->
  sq_items o (cg_mat (cdecoded und n level l)) ≡ₚ l.
Proof.
  intros Hg Hd. assert (Hv := Hg). apply good_cfile_valid in Hv.
  destruct (cdecoded_facts und n level l Hg) as (Hi & _).
  apply NoDup_Permutation; [apply NoDup_sq_items, Hi|by eapply NoDup_fmap_1|].
  intros [[w c] r]. rewrite elem_of_sq_items by apply Hi.
  apply (add_entries_cg l und n level); [apply Hv|apply Hv|exact Hd|].
  intros w' c' r' Hin. pose proof (vc_words _ _ _ Hv _ _ _ Hin).
  pose proof (vc_keys _ _ _ Hv _ _ _ Hin) as Hkey. rewrite blocks_of_dim in Hkey.
  split_and!; [lia|lia|apply Hkey|apply Hkey|].
  intros u v Huv. apply (gc_bits _ _ _ Hg), elem_of_list_bind. eauto.
Qed.

(** Stored words have 64 bits. *)
Lemma entry_small cg c r i : (forall c r w, sq_val (cg_mat cg) c r = Some w -> w <> 0 /\ w < two64) ->
  64 <= i -> N.testbit (get_compressed_matrix_entry cg c r) i = false.
Proof.
  intros Hw Hi. rewrite c_get_entry_val. destruct (sq_val (cg_mat cg) c r) as [w|] eqn:E; simpl.
  - apply (testbit_small w 64); [by apply Hw in E as [_ E]|done].
  - done.
Qed.

Lemma card_words o cg : sq_inv (cg_mat cg) ->
  (forall c r w, sq_val (cg_mat cg) c r = Some w -> w <> 0 /\ w < two64) ->
  has_card (fun '(u, v) => c_does_edge_exist cg u v = true)
    (popcount_total (sq_items o (cg_mat cg))).
Proof.
  intros Hi Hw.
  assert (forall w c r, (w, c, r) ∈ sq_items o (cg_mat cg) -> w < two64) as Hlt.
  { intros w c r Hin. apply elem_of_sq_items in Hin; [|done]. by apply Hw in Hin as [_ ?]. }
  rewrite popcount_ones_total, <- length_edges_ones.
  - eapply has_card_ext; [|apply has_card_list, NoDup_edges, NoDup_sq_items_keys, Hi].
    intros [u v]. rewrite c_exists_has, (c_has_items o) by apply Hi. done.
  - apply Forall_forall. intros [[w c] r] Hin. by eapply Hlt.
  - done.
Qed.

Lemma popcount_total_perm l l' : l ≡ₚ l' -> popcount_total l = popcount_total l'.
Proof.
  induction 1 as [|[[w c] r] l1 l2 _ IH|[[w c] r] [[w' c'] r'] l|l1 l2 l3 _ IH1 _ IH2];
    simpl; [done|lia|lia|congruence].
Qed.

Lemma last_stored_word entries c r :
  (forall w c r, (w, c, r) ∈ entries -> 0 < w < two64 /\ c < u64_max /\ r < u64_max) ->
  last_stored ((fun '(w, c, r) => (w, c, r, None)) <$> entries) c r = last_word entries c r.
Proof.
  unfold last_stored, last_word. intros He.
  match goal with |- fold_left ?f ?l 0 = fold_left ?h ?l' 0 =>
    cut (forall acc, fold_left f l acc = fold_left h l' acc); [intros H; apply H|] end.
  induction entries as [|[[w c'] r'] entries IH]; intros acc; [done|].
  rewrite fmap_cons. cbn [fold_left]. rewrite IH by (intros; apply He; by right).
  f_equal. destruct (He w c' r') as (Hw & Hc & Hr); [left|].
  unfold valid_id. rewrite (proj2 (N.ltb_lt _ _) Hc), (proj2 (N.ltb_lt _ _) Hr), !andb_true_r.
  destruct (N.eqb_spec w 0); [lia|]. by rewrite andb_true_r.
Qed.

Lemma last_word_distinct entries c r w : distinct_blocks entries -> w <> 0 ->
  (forall w c r, (w, c, r) ∈ entries -> w <> 0) ->
  last_word entries c r = w <-> (w, c, r) ∈ entries.
Proof.
  intros Hd Hw Hall. rewrite <- last_word_val.
  destruct (fold_left _ entries None) as [w'|] eqn:E.
  - simpl. split.
    + intros ->. apply last_write_nodup in E as [?|[_ ?]]; done.
    + intros Hin. assert (Some w' = Some w) as Heq; [|by injection Heq].
      rewrite <- E. apply last_write_nodup; [done|by left].
  - simpl. split; [done|]. intros Hin.
    assert (None (A := N) = Some w) as Heq; [|done].
    rewrite <- E. apply last_write_nodup; [done|by left].
Qed.

Lemma weight_total_entries entries :
  weight_total ((fun '(w, c, r) => (w, c, r, None)) <$> entries) = popcount_total entries.
Proof.
  induction entries as [|[[w c] r] entries IH]; [done|]. rewrite fmap_cons. simpl. by rewrite IH.
Qed.
