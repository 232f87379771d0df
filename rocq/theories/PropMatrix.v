(** Properties C14, C15, C42-C44 and C55: the two matrix types. *)
From Coq Require Import Ascii String.
From Verif Require Import Base HashIter F64 Numeric Adj Sq Standard Compressed Spec MatSpec Api
  HashIterProofs AdjProofs SqProofs GraphProofs GraphMoreProofs MatrixProofs PropCommon.

(** ** C14 is false of the code for zero: set_entry does not store zeros, so a non-zero
    value stays (csr_adjacency_matrix.rs:273-275, csr_square_matrix.rs:366-368). *)
Theorem C14_set_entry_refuted :
  (exists ops c r, c < u64_max /\ r < u64_max /\
     adj_get_entry (adj_set_entry (arun ops) 0 c r) c r <> 0) /\
  (exists ops (m : sq N) c r, mrun plat64 u64_numeric ops = Ret m /\ c < u64_max /\ r < u64_max /\
     sq_get_entry u64_numeric (sq_set_entry u64_numeric m 0 c r) c r <> 0).
Proof.
  split.
  - exists [ASet 1 0 0], 0, 0. by vm_compute.
  - exists [MSet 5 0 0]. cut (exists m : sq N, mrun plat64 u64_numeric [MSet 5 0 0] = Ret m /\
      sq_get_entry u64_numeric (sq_set_entry u64_numeric m 0 0 0) 0 0 <> 0).
    { intros (m & H1 & H2). by exists m, 0, 0. }
    apply ret_ex. by vm_compute.
Qed.
Print Assumptions C14_set_entry_refuted.

(** Non-zero values overwrite, zeros leave every cell alone, other cells are never
    touched.  Missing from C14: writing zero over a non-zero value. *)
Theorem C14_set_entry_partial :
  (forall m e c r c' r', c < u64_max -> r < u64_max ->
     adj_get_entry (adj_set_entry m e c r) c' r' =
     if (c' =? c) && (r' =? r) && negb (e =? 0) then 1 else adj_get_entry m c' r') /\
  (forall T (num : numeric T) (m : sq T) e c r c' r', c < u64_max -> r < u64_max ->
     sq_get_entry num (sq_set_entry num m e c r) c' r' =
     if (c' =? c) && (r' =? r) && negb (num_eq num e (num_zero num)) then e
     else sq_get_entry num m c' r').
Proof.
  split.
  - intros m e c r c' r' Hc Hr.
    assert (both_valid c r = true) as Hb by by apply both_valid_lt.
    pose proof (adj_has_set m e c r c' r') as Hs.
    destruct (N.eqb_spec c' c), (N.eqb_spec r' r), (N.eqb_spec e 0); simpl;
      try (by apply adj_get_entry_has, Hs; right);
      (destruct (adj_get_entry_01 m c' r') as [E|E]; rewrite E;
       [apply adj_get_entry_not_has; apply adj_get_entry_not_has in E; rewrite Hs; naive_solver
       |apply adj_get_entry_has; apply adj_get_entry_has in E; rewrite Hs; naive_solver]).
  - intros T num m e c r c' r' Hc Hr.
    assert (both_valid c r = true) as Hb by by apply both_valid_lt.
    rewrite !sq_get_val, sq_val_set, Hb. simpl.
    destruct (num_eq num e (num_zero num)); simpl; [by rewrite andb_false_r|]. rewrite andb_true_r.
    case_bool_decide as E.
    + destruct E as [-> ->]. by rewrite !N.eqb_refl.
    + destruct (N.eqb_spec c' c), (N.eqb_spec r' r); naive_solver.
Qed.
Print Assumptions C14_set_entry_partial.

(** ** C15 *)
Theorem C15_max_id_ignored u v : u = u64_max \/ v = u64_max ->
  (forall g, add_edge g u v = g) /\
  (forall g ts, ts = None \/ ts = Some [] -> add_vertex g u64_max ts = g) /\
  (forall m e, adj_set_entry m e u v = m) /\
  (forall T (num : numeric T) (m : sq T) e, sq_set_entry num m e u v = m) /\
  (forall T (num : numeric T) p (m : sq T), sq_increment_entry p num m u v = Ret m).
Proof.
  intros Huv.
  assert (both_valid u v = false) as Hb.
  { destruct (both_valid u v) eqn:E; [|done]. apply both_valid_lt in E. lia. }
  split_and!.
  - intros g. by apply add_edge_invalid.
  - intros g ts [-> | ->]; [rewrite add_vertex_none|rewrite add_vertex_nil]; by apply grow_invalid.
  - intros m e. by apply adj_set_invalid.
  - intros T num m e. by rewrite sq_set_entry_unfold, Hb.
  - intros T num p m. by rewrite sq_increment_unfold, Hb.
Qed.
Print Assumptions C15_max_id_ignored.

(** ...and every smaller id is honoured: the cell written can be read back and lies below
    the dimension, whatever the matrix or graph was. *)
Theorem C15_other_ids_honoured u v : u < u64_max -> v < u64_max ->
  (forall g, does_edge_exist (add_edge g u v) u v = true /\
             u < vertex_count (add_edge g u v) /\ v < vertex_count (add_edge g u v)) /\
  (forall m, adj_get_entry (adj_set_entry m 1 u v) u v = 1 /\
             u < adj_dimension (adj_set_entry m 1 u v) /\ v < adj_dimension (adj_set_entry m 1 u v)) /\
  (forall T (num : numeric T) (m : sq T) e,
     u < sq_dimension (sq_set_entry num m e u v) /\ v < sq_dimension (sq_set_entry num m e u v)).
Proof.
  intros Hu Hv. assert (both_valid u v = true) as Hb by by apply both_valid_lt. split_and!.
  - intros g. rewrite exists_has, has_add_edge, vc_add_edge, Hb. split_and!; [|lia..].
    right. by split; [|left].
  - intros m. rewrite adj_get_entry_has, adj_has_set. unfold adj_dimension. rewrite adj_dim_set, Hb.
    split_and!; [by right|lia..].
  - intros T num m e. unfold sq_dimension. rewrite sq_dim_set, Hb. unfold dim_join. split; lia.
Qed.
Print Assumptions C15_other_ids_honoured.

Example C15_case : add_edge sample_dir u64_max 3 = sample_dir /\
  vertex_count (add_edge sample_dir (u64_max - 1) 3) = u64_max.
Proof. split; [by apply C15_max_id_ignored; left|by vm_compute]. Qed.

(** ** C42: any history of calls on a square matrix of any element type acts as on a finite
    map, and panics exactly when an increment has no result. *)
Theorem C42_square_matrix_is_finite_map T (num : numeric T) p (ops : list (mop T)) :
  match mrun p num ops,
        sm_run (fun e => num_eq num e (num_zero num)) (num_one num)
          (fun e => match num_add_one num p e with Ret e' => Some e' | _ => None end)
          (SMap 0 ∅) ops with
  | Ret m, Some s =>
    sq_dimension m = sm_dim s /\
    sq_entry_count m = N.of_nat (size (sm_cells s)) mod 2 ^ 64 /\
    (forall c r, sq_get_entry num m c r = default (num_zero num) (sm_cells s !! (c, r))) /\
    (forall c r, is_Some (sm_cells s !! (c, r)) -> c < sq_dimension m /\ r < sq_dimension m)
  | Ret _, None | Panic, Some _ | OutOfFuel, Some _ => False
  | Panic, None | OutOfFuel, None => True
  end.
Proof.
  pose proof (mrun_rel num p ops) as H. unfold num_succ, num_is_zero in H.
  destruct (mrun p num ops) as [m| |], (sm_run _ _ _ _ ops) as [s|]; try done.
  split_and!.
  - apply (sr_dim _ _ H).
  - by apply sq_rel_count.
  - intros c r. rewrite sq_get_val. by rewrite (sr_val _ _ H).
  - intros c r Hs. rewrite <- (sr_val _ _ H) in Hs. apply (si_bound _ (sr_inv _ _ H)), Hs.
Qed.
Print Assumptions C42_square_matrix_is_finite_map.

(** Single calls on a matrix with any history. *)
Theorem C42_square_matrix_calls T (num : numeric T) p ops (m : sq T) :
  mrun p num ops = Ret m ->
  (forall c r c' r', sq_get_entry num (sq_zero_entry m c r) c' r' =
     if (c' =? c) && (r' =? r) then num_zero num else sq_get_entry num m c' r') /\
  (forall c r m', c < u64_max -> r < u64_max -> sq_increment_entry p num m c r = Ret m' ->
     (forall c' r', (c', r') <> (c, r) -> sq_get_entry num m' c' r' = sq_get_entry num m c' r') /\
     (sq_get_entry num m' c r = num_one num \/
      num_add_one num p (sq_get_entry num m c r) = Ret (sq_get_entry num m' c r))).
Proof.
  intros _. split.
  - intros c r c' r'. rewrite !sq_get_val, sq_val_zero.
    case_decide as E; [destruct E as [-> ->]; by rewrite !N.eqb_refl|].
    destruct (N.eqb_spec c' c), (N.eqb_spec r' r); naive_solver.
  - intros c r m' Hc Hr Hm. rewrite sq_increment_unfold in Hm.
    assert (both_valid c r = true) as Hb by by apply both_valid_lt. rewrite Hb in Hm.
    assert (forall e, m' = sq_put m e c r ->
      (forall c' r', (c', r') <> (c, r) -> sq_get_entry num m' c' r' = sq_get_entry num m c' r') /\
      sq_get_entry num m' c r = e) as Hput.
    { intros e ->. split.
      - intros c' r' Hne. rewrite !sq_get_val, sq_val_put. rewrite decide_False by naive_solver. done.
      - rewrite sq_get_val, sq_val_put. by rewrite decide_True. }
    destruct (sq_val m c r) as [e|] eqn:Ev.
    + destruct (num_add_one num p e) as [e'| |] eqn:Ea; simpl in Hm; [|done..].
      injection Hm as <-. destruct (Hput e' eq_refl) as [H1 H2]. split; [done|right].
      rewrite H2. by rewrite sq_get_val, Ev.
    + injection Hm as <-. destruct (Hput _ eq_refl) as [H1 H2]. split; [done|by left].
Qed.
Print Assumptions C42_square_matrix_calls.

(** For unsigned integers "adds one" is literally so, including on absent cells. *)
Theorem C42_unsigned_increment bits p ops (m m' : sq N) c r :
  mrun p (uint_numeric bits) ops = Ret m -> c < u64_max -> r < u64_max ->
  overflow_checks p = true ->
  sq_increment_entry p (uint_numeric bits) m c r = Ret m' ->
  sq_get_entry (uint_numeric bits) m' c r = sq_get_entry (uint_numeric bits) m c r + 1.
Proof.
  intros Hrun Hc Hr Ho Hm. rewrite sq_increment_unfold in Hm.
  assert (both_valid c r = true) as Hb by by apply both_valid_lt. rewrite Hb in Hm.
  rewrite !sq_get_val. destruct (sq_val m c r) as [e|].
  - simpl in Hm. rewrite Ho in Hm. destruct (_ <? _); [|done]. simpl in Hm. injection Hm as <-.
    rewrite sq_val_put, decide_True by done. done.
  - injection Hm as <-. rewrite sq_val_put, decide_True by done. done.
Qed.
Print Assumptions C42_unsigned_increment.

(** What increment_entry does to an integer entry, at the largest value too: there it panics
    in a debug build and wraps to the smallest value in a release build. *)
Theorem C42_integer_increment_exact bits p c r : 2 <= bits -> c < u64_max -> r < u64_max ->
  (forall m : sq N, let num := uint_numeric bits in let v := sq_get_entry num m c r in
     (v < 2 ^ bits - 1 -> exists m', sq_increment_entry p num m c r = Ret m' /\
        sq_get_entry num m' c r = v + 1) /\
     (v = 2 ^ bits - 1 ->
        if overflow_checks p then sq_increment_entry p num m c r = Panic
        else exists m', sq_increment_entry p num m c r = Ret m' /\ sq_get_entry num m' c r = 0)) /\
  (forall (m : sq Z) dec, let num := sint_numeric (Z.of_N bits) dec in
     let v := sq_get_entry num m c r in let top := (2 ^ (Z.of_N bits - 1) - 1)%Z in
     ((v < top)%Z -> exists m', sq_increment_entry p num m c r = Ret m' /\
        sq_get_entry num m' c r = (v + 1)%Z) /\
     (v = top ->
        if overflow_checks p then sq_increment_entry p num m c r = Panic
        else exists m', sq_increment_entry p num m c r = Ret m' /\
          sq_get_entry num m' c r = (- (2 ^ (Z.of_N bits - 1)))%Z)).
Proof.
  intros Hbits Hc Hr.
  assert (both_valid c r = true) as Hb by by apply both_valid_lt.
  assert (2 ^ 2 <= 2 ^ bits) as Hpow by (apply N.pow_le_mono_r; lia).
  change (2 ^ 2) with 4 in Hpow.
  assert (forall T (num : numeric T) (m : sq T) e,
    sq_get_entry num (sq_put m e c r) c r = e) as Hput.
  { intros T num m e. by rewrite sq_get_val, sq_val_put, decide_True. }
  split.
  - intros m num v. unfold v. rewrite sq_increment_unfold, Hb.
    rewrite (sq_get_val _ m). destruct (sq_val m c r) as [e|] eqn:Ev; simpl.
    + destruct (N.ltb_spec (e + 1) (2 ^ bits)); split; intros He; try lia.
      * eexists. split; [done|]. by rewrite Hput.
      * destruct (overflow_checks p); [done|]. eexists. split; [done|]. rewrite Hput.
        replace (e + 1) with (2 ^ bits) by lia. apply N.mod_same. lia.
    + split; intros He; [|lia]. eexists. split; [done|]. by rewrite Hput.
  - intros m dec num v top. unfold v, top.
    assert (2 ^ 1 <= 2 ^ (Z.of_N bits - 1))%Z as Hpow' by (apply Z.pow_le_mono_r; lia).
    assert (2 ^ Z.of_N bits = 2 * 2 ^ (Z.of_N bits - 1))%Z as Hdbl.
    { rewrite <- Z.pow_succ_r by lia. f_equal. lia. }
    rewrite sq_increment_unfold, Hb.
    rewrite (sq_get_val _ m). destruct (sq_val m c r) as [e|] eqn:Ev; simpl.
    + destruct (Z.ltb_spec (e + 1) (2 ^ (Z.of_N bits - 1))); split; intros He; try lia.
      * eexists. split; [done|]. by rewrite Hput.
      * destruct (overflow_checks p); [done|]. eexists. split; [done|]. rewrite Hput. lia.
    + split; intros He; [|lia]. eexists. split; [done|]. by rewrite Hput.
Qed.
Print Assumptions C42_integer_increment_exact.

Example C42_integer_increment_case :
  mrun plat64 (sint_numeric 8 false) [MSet 127%Z 0 0; MInc 0 0] = Panic /\
  match mrun plat64r (sint_numeric 8 false) [MSet 127%Z 0 0; MInc 0 0] with
  | Ret m => sq_get_entry (sint_numeric 8 false) m 0 0 = (-128)%Z
  | _ => False
  end.
Proof. by vm_compute. Qed.

Definition sample_mops : list (mop N) :=
  [MSet 5 0 3; MInc 0 3; MInc 2 2; MZero 0 7; MSet 0 9 1; MSet 8 2 2; MInc 1 1; MZero 1 1].
Example C42_case : exists m, mrun plat64 u64_numeric sample_mops = Ret m /\
  sq_dimension m = 10 /\ sq_entry_count m = 2 /\ sq_get_entry u64_numeric m 0 3 = 6 /\
  sq_get_entry u64_numeric m 2 2 = 8 /\
  mrun plat64 u8_numeric [MSet 255 0 0; MInc 0 0] = Panic.
Proof. apply ret_ex. vm_compute. repeat split. Qed.

(** ** C43 is false of the code: incrementing -1 stores a zero, which stays counted
    (csr_square_matrix.rs:79-105); and so does incrementing the maximum of an unsigned
    type in a release build. *)
Theorem C43_entry_count_refuted :
  (exists ops (m : sq Z), mrun plat64 i64_numeric ops = Ret m /\ sq_entry_count m = 1 /\
     forall c r, sq_get_entry i64_numeric m c r = 0%Z) /\
  (exists ops (m : sq N), mrun plat64r u8_numeric ops = Ret m /\ sq_entry_count m = 1 /\
     forall c r, sq_get_entry u8_numeric m c r = 0).
Proof.
  split.
  - destruct (mrun plat64 i64_numeric [MSet (-1)%Z 0 0; MInc 0 0]) as [m| |] eqn:E;
      [|by vm_compute in E..].
    exists [MSet (-1)%Z 0 0; MInc 0 0], m. split; [done|].
    assert (sq_items plain_order m = [(0%Z, 0, 0)] /\ sq_entry_count m = 1) as [Hi Hc]
      by (vm_compute in E; injection E as <-; by vm_compute).
    split; [done|]. intros c r. rewrite sq_get_val. destruct (sq_val m c r) as [e|] eqn:Ev; [|done].
    apply (elem_of_sq_items plain_order) in Ev; [|by eapply mrun_inv].
    rewrite Hi in Ev. apply elem_of_list_singleton in Ev. by injection Ev as -> -> ->.
  - destruct (mrun plat64r u8_numeric [MSet 255 0 0; MInc 0 0]) as [m| |] eqn:E;
      [|by vm_compute in E..].
    exists [MSet 255 0 0; MInc 0 0], m. split; [done|].
    assert (sq_items plain_order m = [(0, 0, 0)] /\ sq_entry_count m = 1) as [Hi Hc]
      by (vm_compute in E; injection E as <-; by vm_compute).
    split; [done|]. intros c r. rewrite sq_get_val. destruct (sq_val m c r) as [e|] eqn:Ev; [|done].
    apply (elem_of_sq_items plain_order) in Ev; [|by eapply mrun_inv].
    rewrite Hi in Ev. apply elem_of_list_singleton in Ev. by injection Ev as -> -> ->.
Qed.
Print Assumptions C43_entry_count_refuted.

(** Without increments, entry_count is the number of non-zero cells for every element type
    (whose zero equals itself); with increments it is for unsigned integers when overflow
    panics.  Missing from C43: signed or wrapping increments that reach zero. *)
Theorem C43_entry_count_partial :
  (forall T (num : numeric T) p ops (m : sq T),
     num_eq num (num_zero num) (num_zero num) = true ->
     mrun p num ops = Ret m -> (forall c r, MInc c r ∉ ops) ->
     exists k, has_card (fun '(c, r) =>
         num_eq num (sq_get_entry num m c r) (num_zero num) = false) k /\
       sq_entry_count m = k mod 2 ^ 64) /\
  (forall bits p ops (m : sq N), overflow_checks p = true ->
     mrun p (uint_numeric bits) ops = Ret m ->
     exists k, has_card (fun '(c, r) => sq_get_entry (uint_numeric bits) m c r <> 0) k /\
       sq_entry_count m = k mod 2 ^ 64).
Proof.
  split.
  - intros T num p ops m Hz Hm Hno. pose proof (mrun_inv num p ops m Hm) as Hi.
    eexists. split.
    + apply (nonzero_card num m Hi Hz).
      apply (mrun_values num (fun e => num_is_zero num e = false) p ops m); [done| |done].
      intros (c & r & Hcr). by apply Hno in Hcr.
    + apply (si_cnt _ Hi).
  - intros bits p ops m Ho Hm. pose proof (mrun_inv _ p ops m Hm) as Hi.
    eexists. split.
    + eapply has_card_ext; [|apply (nonzero_card (uint_numeric bits) m Hi eq_refl)].
      * intros [c r]. unfold num_is_zero. simpl. by rewrite N.eqb_neq.
      * apply (mrun_values (uint_numeric bits) (fun e => num_is_zero (uint_numeric bits) e = false) p ops m); [done| |done].
        intros _. split; [done|]. intros e e' _. simpl. rewrite Ho. destruct (_ <? _); [|done].
        intros [= <-]. unfold num_is_zero; simpl. apply N.eqb_neq. lia.
    + apply (si_cnt _ Hi).
Qed.
Print Assumptions C43_entry_count_partial.

Example C43_case : exists m, mrun plat64 i64_numeric [MSet (-1)%Z 0 0; MSet 3%Z 1 4; MZero 0 0] = Ret m /\
  sq_entry_count m = 1 /\ num_eq i64_numeric 0%Z 0%Z = true /\
  num_eq f64_numeric f64_zero f64_zero = true.
Proof. apply ret_ex. vm_compute. repeat split. Qed.

(** ** C44 *)
Theorem C44_square_iteration T (num : numeric T) p o ops (m : sq T) :
  mrun p num ops = Ret m ->
  NoDup ((fun '(e, c, r) => (c, r)) <$> sq_items o m : list (N * N)) /\
  (forall e c r, (e, c, r) ∈ sq_items o m -> sq_get_entry num m c r = e) /\
  (forall c r, num_eq num (num_zero num) (num_zero num) = true ->
     num_eq num (sq_get_entry num m c r) (num_zero num) = false ->
     (sq_get_entry num m c r, c, r) ∈ sq_items o m) /\
  sq_entry_count m = N.of_nat (length (sq_items o m)) mod 2 ^ 64 /\
  (forall fuel, (length (sq_items o m) < fuel)%nat ->
     exists l, hiter_run fuel (sq_into_iter o m) = Some l /\
       sq_items o m = (fun '(c, (r, e)) => (e, c, r)) <$> l).
Proof.
  intros Hm. apply mrun_inv in Hm as Hi. split_and!.
  - by apply NoDup_sq_items_keys.
  - intros e c r He. apply elem_of_sq_items in He; [|done]. by rewrite sq_get_val, He.
  - intros c r Hz Hne. apply elem_of_sq_items; [done|]. rewrite sq_get_val in *.
    destruct (sq_val m c r); [done|]. simpl in Hne. by rewrite Hz in Hne.
  - rewrite length_sq_items by done. apply (si_cnt _ Hi).
  - intros fuel Hf. exists (hiter_items (sq_into_iter o m)). split; [|done].
    unfold sq_items in Hf. rewrite fmap_length in Hf.
    destruct (N.eq_dec (sq_dim m) 0) as [Hd|Hd].
    + rewrite hiter_items_zero in * by done. destruct fuel as [|fuel]; [simpl in Hf; lia|].
      unfold hiter_run, hiter_next. simpl. by rewrite Hd.
    + rewrite hiter_items_remaining in * by done. by apply hiter_run_spec.
Qed.
Print Assumptions C44_square_iteration.

Example C44_case : exists m, mrun plat64 u64_numeric sample_mops = Ret m /\
  length (sq_items plain_order m) = 2%nat.
Proof. apply ret_ex. vm_compute. repeat split. Qed.

(** ** C55: adjacency matrices are sets of cells. *)
Theorem C55_adjacency_matrix_is_set (ops : list aop) :
  adj_dimension (arun ops) = ss_dim (ss_run ops) /\
  adj_entry_count (arun ops) = N.of_nat (size (ss_cells (ss_run ops))) mod 2 ^ 64 /\
  (forall c r, adj_get_entry (arun ops) c r =
     if bool_decide ((c, r) ∈ ss_cells (ss_run ops)) then 1 else 0) /\
  (forall o, NoDup (adj_items o (arun ops)) /\
     forall c r, (c, r) ∈ adj_items o (arun ops) <-> (c, r) ∈ ss_cells (ss_run ops)).
Proof.
  pose proof (arun_rel ops) as H. split_and!.
  - apply (ar_dim _ _ H).
  - by apply adj_rel_count.
  - intros c r. case_bool_decide as E.
    + by apply adj_get_entry_has, (ar_has _ _ H).
    + by apply adj_get_entry_not_has; rewrite (ar_has _ _ H).
  - intros o. split; [apply NoDup_adj_items, H|]. intros c r.
    rewrite elem_of_adj_items by apply H. apply (ar_has _ _ H).
Qed.
Print Assumptions C55_adjacency_matrix_is_set.

(** The sparse column and row vectors list exactly the entries of one column or row. *)
Theorem C55_sparse_vectors (ops : list aop) o c :
  let m := arun ops in
  NoDup (adj_sparse_col o m c) /\
  (forall r, r ∈ adj_sparse_col o m c <-> adj_get_entry m c r = 1) /\
  adj_col_count o m c = N.of_nat (length (adj_sparse_col o m c)) /\
  NoDup (adj_sparse_row o m c) /\
  (forall c', c' ∈ adj_sparse_row o m c <-> adj_get_entry m c' c = 1) /\
  adj_row_count o m c = N.of_nat (length (adj_sparse_row o m c)).
Proof.
  intros m. pose proof (arun_rel ops) as Hrel. pose proof (ar_inv _ _ Hrel) as Hi. fold m in Hi.
  assert (forall l : list N, NoDup l -> (forall x, x ∈ l -> x < adj_dim m) ->
    N.of_nat (length l) mod two64 = N.of_nat (length l)) as Hmod.
  { intros l Hnd Hl. apply N.mod_small. pose proof (NoDup_bounded_length l _ Hnd Hl).
    pose proof (ai_dim _ Hi). lia. }
  split_and!.
  - apply NoDup_sparse_col.
  - intros r. by rewrite elem_of_sparse_col, adj_get_entry_has.
  - rewrite (adj_col_count_length o o). apply Hmod; [apply NoDup_sparse_col|].
    intros x Hx. apply elem_of_sparse_col in Hx. apply (ai_bound _ Hi c x Hx).
  - apply NoDup_sparse_row.
  - intros c'. by rewrite elem_of_sparse_row, adj_get_entry_has.
  - rewrite (adj_row_count_length o o). apply Hmod; [apply NoDup_sparse_row|].
    intros x Hx. apply elem_of_sparse_row in Hx. apply (ai_bound _ Hi x c Hx).
Qed.
Print Assumptions C55_sparse_vectors.

Definition sample_aops : list aop := [ASet 1 0 3; ASet 9 2 3; ASet 1 2 2; AZero 2 2; ASet 0 6 0].
Example C55_case : adj_dimension (arun sample_aops) = 7 /\ adj_entry_count (arun sample_aops) = 2 /\
  length (adj_sparse_row plain_order (arun sample_aops) 3) = 2%nat.
Proof. by vm_compute. Qed.
