(** Property C47, continued: numbers of decimals so great that the width of a cell leaves
    usize (in Python, to_string(-1) asks for usize::MAX decimals). *)
From Coq Require Import ZArith Ascii String SpecFloat.
From Verif Require Import Base HashIter F64 Numeric Adj Sq Standard Compressed Spec MatSpec TextSpec
  Api AdjProofs SqProofs BitsProofs GraphProofs CompressProofs ApproxProofs TextProofs SqTextProofs
  NumTextProofs SqShowProofs FloatTextProofs SqExactProofs WrapTextProofs MatrixProofs
  CodecMoreProofs PropCommon PropText PropTextMore.
Local Arguments N.mul : simpl never.
Local Arguments N.add : simpl never.
Local Arguments N.pow : simpl never.

(** The result of printing an n by n matrix (n not 0) with [d] decimals, d within 43 of
    usize::MAX, integer parts being up to [w] characters long: CapacityOverflow while w + d + 3
    fits in usize.  Beyond that a panic if overflow is checked for.  If it is not, cells and
    what is between them take w + d + 3 - 2^bits characters: CapacityOverflow if that is too
    much, a panic if something is stored or there is not even room for what is between cells,
    and otherwise a text with blank cells, or with a 0 in them for exactly usize::MAX decimals. *)
Definition prints_huge (p : platform) (n d w : N) (stored : Prop)
    (out : outcome (result text)) : Prop :=
  (w + d + 3 <= usize_max p -> exists msg, out = Ret (Err (CapacityOverflow msg))) /\
  (usize_max p < w + d + 3 -> overflow_checks p = true -> out = Panic) /\
  (usize_max p < w + d + 3 -> overflow_checks p = false ->
   let c := w + d + 3 - (usize_max p + 1) in
   let size := c * (n * n) + 4 * n in
   let fits := n * n <= usize_max p /\ size <= usize_max p /\ can_alloc p (size - 2) = true in
   (~ fits -> exists msg, out = Ret (Err (CapacityOverflow msg))) /\
   (fits -> c < 2 \/ stored -> out = Panic) /\
   (fits -> 2 <= c -> ~ stored -> out = Ret (Ok (matrix_text n (fun _ _ =>
      if d =? usize_max p then replicate (N.to_nat (w - 1)) " "%char ++ ["0"%char]
      else replicate (N.to_nat (c - 2)) " "%char))))).

Lemma replicate_fmap {A B} (f : A -> B) l y : (forall x, x ∈ l -> f x = y) ->
  f <$> l = replicate (length l) y.
Proof.
  induction l as [|x l IH]; intros H; [done|]. cbn. rewrite (H x) by left.
  f_equal. apply IH. intros z Hz. apply H. by right.
Qed.

Lemma template_short es lp : es <= lp -> template_cell es lp = replicate (N.to_nat es) " "%char.
Proof.
  intros H. unfold template_cell. rewrite (replicate_fmap _ _ " "%char).
  - by rewrite length_range.
  - intros i Hi%elem_of_range. destruct (N.ltb_spec i lp); [done|lia].
Qed.

Lemma template_just lp : template_cell (lp + 1) lp = replicate (N.to_nat lp) " "%char ++ ["0"%char].
Proof.
  unfold template_cell, range. replace (N.to_nat (lp + 1)) with (S (N.to_nat lp)) by lia.
  rewrite seq_S, !fmap_app. f_equal.
  - rewrite <-(template_short lp lp) by lia. unfold template_cell, range. done.
  - cbn. rewrite N2Nat.id. destruct (N.ltb_spec lp lp); [lia|]. by destruct (N.eqb_spec lp (lp + 1)); [lia|].
Qed.

Lemma prints_huge_gen {T} p (num : numeric T) o o' m d hi lo : wf_platform p ->
  sq_inv m -> sq_dim m <> 0 -> sq_extremes num o m = (hi, lo) ->
  1 <= sq_width0 num hi lo <= 40 -> 2 ^ 17 <= usize_max p -> d <= usize_max p ->
  usize_max p < d + 44 ->
  prints_huge p (sq_dim m) d (sq_width0 num hi lo) (sq_items o' m <> [])
    (sq_to_string_with_precision p num o m d).
Proof.
  intros Hp Hinv Hn Hext Hw Hp17 Hd Hbig.
  set (w := sq_width0 num hi lo) in *.
  assert (2 ^ 17 = 131072) as E17 by done. rewrite E17 in Hp17. clear E17.
  unfold prints_huge. split_and!.
  - intros Hfit. by apply (wide_capacity p num o m d hi lo).
  - intros Hwide Ho. by apply (wide_panic p num o m d hi lo).
  - intros Hwide Ho. cbv zeta.
    pose proof (wide_wraps p num o m d hi lo Hp Hn Hext Hw Hd Hbig Hwide Ho ltac:(lia)) as H.
    cbv zeta in H. fold w in H. set (c := w + d + 3 - (usize_max p + 1)) in *.
    set (n := sq_dim m) in *.
    assert (wrapped_fits p n c = true <-> n * n <= usize_max p /\
      c * (n * n) + 4 * n <= usize_max p /\ can_alloc p (c * (n * n) + 4 * n - 2) = true) as Hf.
    { unfold wrapped_fits. rewrite !andb_true_iff, !N.leb_le. tauto. }
    rewrite <-Hf. clear Hf.
    assert (sq_items o' m <> [] <-> sq_cells o m <> []) as Hst.
    { split; intros Hne E; destruct (sq_items o' m) as [|[[v x] y] l] eqn:E1; try done.
      - assert (sq_val m x y = Some v) as Hv.
        { apply (elem_of_sq_items o'); [done|]. rewrite E1. left. }
        apply (elem_of_sq_cells o) in Hv. rewrite E in Hv. by apply elem_of_nil in Hv.
      - destruct (sq_cells o m) as [|[[x y] v] l] eqn:E2; [done|].
        assert (sq_val m x y = Some v) as Hv.
        { apply (elem_of_sq_cells o). rewrite E2. left. }
        apply (elem_of_sq_items o') in Hv; [|done]. rewrite E1 in Hv. by apply elem_of_nil in Hv. }
    rewrite Hst. clear Hst.
    destruct (wrapped_fits p n c); [|by split_and!].
    split_and!; [done| |].
    + intros _ Hor. destruct (N.ltb_spec c 2); [done|]. destruct Hor as [?|Hne]; [lia|]. by apply H.
    + intros _ Hc Hns. destruct (N.ltb_spec c 2); [lia|].
      destruct (sq_cells o m) as [|x l] eqn:E; [|by destruct Hns].
      destruct H as [_ H]. rewrite H by done.
      destruct (N.eqb_spec d (usize_max p)) as [->|Hne].
      * replace (c - 2) with (w - 1 + 1) by (unfold c; lia). by rewrite template_just.
      * rewrite template_short; [done|]. unfold c. lia.
Qed.

(** The longest text of a stored integer has [w] characters; at most 40 if there is none. *)
Definition widest_integer {T} (key : T -> Z) (items : list (T * N * N)) (w : N) : Prop :=
  (forall v c r t, (v, c, r) ∈ items -> signed_decimal t (key v) -> N.of_nat (length t) <= w) /\
  ((exists v c r t, (v, c, r) ∈ items /\ signed_decimal t (key v) /\ N.of_nat (length t) = w) \/
   items = [] /\ 1 <= w <= 40).

Lemma int_widest {T} (num : numeric T) key o o' m hi lo : int_type num key -> sq_inv m ->
  (forall c r v, sq_val m c r = Some v -> in_type num key v) ->
  sq_extremes num o m = (hi, lo) -> widest_integer key (sq_items o' m) (sq_width0 num hi lo).
Proof.
  intros HT Hinv Hty Hext. destruct (int_extremes num key HT o m hi lo Hty Hext) as (Hb & Hw & Hin).
  split.
  - intros v c r t Hv Ht. apply (elem_of_sq_items o') in Hv; [|done].
    rewrite (signed_decimal_unique _ _ _ Ht (Z_text_spec _)).
    pose proof (Z_text_between _ _ _ (Hb c r v Hv)) as Hz.
    unfold sq_width0. rewrite !(it_digits _ _ HT). lia.
  - destruct (sq_items o' m) as [|[[v c] r] l] eqn:E; [by right|left]. rewrite <-E.
    assert (sq_val m c r = Some v) as Hv.
    { apply (elem_of_sq_items o'); [done|]. rewrite E. left. }
    destruct Hin as [(c1 & r1 & H1) (c2 & r2 & H2)]; [by eauto|].
    assert (sq_width0 num hi lo = num_digits num hi \/ sq_width0 num hi lo = num_digits num lo) as [->| ->]
      by (unfold sq_width0; lia).
    + exists hi, c1, r1, (Z_text (key hi)).
      split_and!; [by apply (elem_of_sq_items o')|apply Z_text_spec|by rewrite (it_digits _ _ HT)].
    + exists lo, c2, r2, (Z_text (key lo)).
      split_and!; [by apply (elem_of_sq_items o')|apply Z_text_spec|by rewrite (it_digits _ _ HT)].
Qed.

Lemma huge_ints {T} (num : numeric T) key (HT : int_type num key) p o o' m d : wf_platform p ->
  2 ^ 17 <= usize_max p -> d <= usize_max p -> usize_max p < d + 44 -> sq_inv m -> sq_dim m <> 0 ->
  (forall c r v, sq_val m c r = Some v -> in_type num key v) ->
  exists w, widest_integer key (sq_items o' m) w /\
    prints_huge p (sq_dim m) d w (sq_items o' m <> []) (sq_to_string_with_precision p num o m d).
Proof.
  intros Hp Hp17 Hd Hbig Hinv Hn Hty. destruct (sq_extremes num o m) as [hi lo] eqn:Hext.
  exists (sq_width0 num hi lo). split; [by eapply int_widest|].
  apply prints_huge_gen; try done. by destruct (int_extremes num key HT o m hi lo Hty Hext) as (_ & ? & _).
Qed.

Theorem C47_huge p o o' d : wf_platform p -> 2 ^ 17 <= usize_max p -> d <= usize_max p ->
  usize_max p < d + 44 ->
  (forall ops m, mrun p f64_numeric ops = Ret m -> sq_dim m <> 0 ->
     (forall v c r, (v, c, r) ∈ sq_items o' m -> is_f64 v = true) ->
     exists w, widest_integer_part (sq_items o' m) w /\
       prints_huge p (sq_dim m) d w (sq_items o' m <> []) (sq_to_string_with_precision p f64_numeric o m d)) /\
  (forall ops m, mrun p f32_numeric ops = Ret m -> sq_dim m <> 0 ->
     (forall v c r, (v, c, r) ∈ sq_items o' m -> valid_binary 24 128 v = true) ->
     exists w, widest_integer_part (sq_items o' m) w /\
       prints_huge p (sq_dim m) d w (sq_items o' m <> []) (sq_to_string_with_precision p f32_numeric o m d)) /\
  (forall bits dec ops m, (2 <= bits <= 128)%Z -> mrun p (sint_numeric bits dec) ops = Ret m ->
     sq_dim m <> 0 -> signed_ops bits ops ->
     exists w, widest_integer (fun z => z) (sq_items o' m) w /\
       prints_huge p (sq_dim m) d w (sq_items o' m <> [])
         (sq_to_string_with_precision p (sint_numeric bits dec) o m d)) /\
  (forall bits ops m, 1 <= bits <= 128 -> mrun p (uint_numeric bits) ops = Ret m ->
     sq_dim m <> 0 -> unsigned_ops bits ops ->
     exists w, widest_integer Z.of_N (sq_items o' m) w /\
       prints_huge p (sq_dim m) d w (sq_items o' m <> [])
         (sq_to_string_with_precision p (uint_numeric bits) o m d)).
Proof.
  intros Hp Hp17 Hd Hbig. split_and!.
  - intros ops m Hm Hn Hval. assert (sq_inv m) as Hinv by by eapply mrun_inv.
    destruct (sq_extremes f64_numeric o m) as [hi lo] eqn:Hext.
    assert (forall c r v, sq_val m c r = Some v -> valid_binary 53 1024 v = true) as Hv.
    { intros c r v Hv. apply (elem_of_sq_items o') in Hv; [|done]. by eapply Hval. }
    exists (sq_width0 f64_numeric hi lo).
    split; [eapply (float_widest f64_numeric 53 1024 f64_type); [by vm_compute|by vm_compute|done..]|].
    apply prints_huge_gen; try done. by eapply (float_extremes f64_numeric 53 1024 f64_type).
  - intros ops m Hm Hn Hval. assert (sq_inv m) as Hinv by by eapply mrun_inv.
    destruct (sq_extremes f32_numeric o m) as [hi lo] eqn:Hext.
    assert (forall c r v, sq_val m c r = Some v -> valid_binary 24 128 v = true) as Hv.
    { intros c r v Hv. apply (elem_of_sq_items o') in Hv; [|done]. by eapply Hval. }
    exists (sq_width0 f32_numeric hi lo).
    split; [eapply (float_widest f32_numeric 24 128 f32_type); [by vm_compute|by vm_compute|done..]|].
    apply prints_huge_gen; try done. by eapply (float_extremes f32_numeric 24 128 f32_type).
  - intros bits dec ops m Hb Hm Hn Hops. assert (sq_inv m) as Hinv by by eapply mrun_inv.
    apply (huge_ints (sint_numeric bits dec) (fun z => z) (sint_type bits dec ltac:(lia))); try done.
    eapply signed_values; [|done..]. lia.
  - intros bits ops m Hb Hm Hn Hops. assert (sq_inv m) as Hinv by by eapply mrun_inv.
    apply (huge_ints (uint_numeric bits) Z.of_N (uint_type bits ltac:(lia))); try done.
    eapply unsigned_values; [|done..]. lia.
Qed.
Print Assumptions C47_huge.

(** 2^64 - 1 decimals with overflow checks and without, and of a matrix whose only entry was
    set to zero again; 43 decimals fewer. *)
Example C47_huge_case :
  (exists m, mrun plat64 f64_numeric [MSet f64_one 1 0] = Ret m /\
     sq_to_string_with_precision plat64 f64_numeric plain_order m (2 ^ 64 - 1) = Panic /\
     sq_to_string_with_precision plat64r f64_numeric plain_order m (2 ^ 64 - 1) = Panic /\
     sq_to_string_with_precision plat64r f64_numeric plain_order m (2 ^ 64 - 44) =
       Ret (Err (CapacityOverflow "Matrix string size overflowed"))) /\
  (exists m, mrun plat64 f64_numeric [MSet f64_one 0 0; MZero 0 0] = Ret m /\
     sq_to_string_with_precision plat64r f64_numeric plain_order m (2 ^ 64 - 39) = Ret (Ok (txt "[    ]")) /\
     sq_to_string_with_precision plat64r f64_numeric plain_order m (2 ^ 64 - 1) =
       Ret (Ok (txt "[                                        0 ]"))).
Proof. split; apply ret_ex; vm_compute; repeat split. Qed.

(** ** C47 for i128 *)

(** The panics of i128 matrices, exactly. *)
Theorem C47_i128_exact p o o' ops m d : wf_platform p -> d + 44 <= usize_max p ->
  mrun p i128_numeric ops = Ret m -> signed_ops 128 ops ->
  exists w, widest_integer (fun z => z) (sq_items o' m) w /\
    let size := (w + 1 + d + 2) * (sq_dim m * sq_dim m) + 4 * sq_dim m in
    (sq_to_string_with_precision p i128_numeric o m d = Panic <->
     (size <= usize_max p /\ can_alloc p (size - 2) = true) /\
     sq_items o' m <> [] /\ 65535 < w + 1 + d) /\
    (sq_to_string_with_precision p i128_numeric o m d = Panic \/
     exists r, sq_to_string_with_precision p i128_numeric o m d = Ret r).
Proof.
  intros Hp Hd Hm Hops. assert (sq_inv m) as Hinv by by eapply mrun_inv.
  assert (forall c r v, sq_val m c r = Some v -> in_type i128_numeric (fun z => z) v) as Hty.
  { by eapply (signed_values p 128 true). }
  destruct (sq_extremes i128_numeric o m) as [hi lo] eqn:Hext.
  exists (sq_width0 i128_numeric hi lo). split; [by eapply (int_widest _ _ _ _ _ _ _ i128_int)|]. cbv zeta.
  destruct (int_extremes _ _ i128_int o m hi lo Hty Hext) as (Hb & Hw & _).
  assert (sq_width i128_numeric hi lo d = sq_width0 i128_numeric hi lo + 1 + d) as Hww by done.
  rewrite <-Hww. set (w := sq_width i128_numeric hi lo d) in *.
  destruct (decide (sq_dim m = 0)) as [H0|Hn].
  { assert (sq_to_string_with_precision p i128_numeric o m d = Ret (Ok [])) as ->.
    { unfold sq_to_string_with_precision. by rewrite H0. }
    split; [|right; by eexists]. split; [done|]. intros (_ & Hne & _). exfalso. apply Hne.
    destruct (sq_items o' m) as [|[[v c] r] l] eqn:E; [done|]. exfalso.
    assert (sq_val m c r = Some v) as Hv.
    { apply (elem_of_sq_items o'); [done|]. rewrite E. by left. }
    destruct (si_bound m Hinv c r ltac:(by eexists)). lia. }
  set (n := sq_dim m) in *.
  assert ((w + 2) * (n * n) + 4 * n <= usize_max p /\ can_alloc p ((w + 2) * (n * n) + 4 * n - 2) = true
    <-> text_fits p n w = true) as Hfits.
  { unfold text_fits, text_size. by rewrite andb_true_iff, N.leb_le. }
  rewrite Hfits. clear Hfits.
  pose proof (sq_string_unfold p i128_numeric o m d hi lo Hn Hext ltac:(lia) ltac:(lia)) as Hun.
  fold n w in Hun.
  destruct (text_fits p n w) eqn:Hf.
  2:{ destruct Hun as [msg ->]. split; [|right; by eexists]. split; [done|]. by intros [? _]. }
  destruct (sq_cells o m) as [|[[c' r'] v'] l] eqn:E.
  { rewrite Hun. cbn [ofold obind]. split; [|right; by eexists]. split; [done|].
    intros (_ & Hne & _). exfalso. apply Hne.
    destruct (sq_items o' m) as [|[[v c] r] l] eqn:E1; [done|]. exfalso.
    assert (sq_val m c r = Some v) as Hv.
    { apply (elem_of_sq_items o'); [done|]. rewrite E1. by left. }
    apply (elem_of_sq_cells o) in Hv. rewrite E in Hv. by apply elem_of_nil in Hv. }
  assert (sq_val m c' r' = Some v') as Hv'.
  { apply (elem_of_sq_cells o). rewrite E. left. }
  assert (sq_items o' m <> []) as Hne.
  { intros E1. apply (elem_of_sq_items o') in Hv'; [|done]. rewrite E1 in Hv'. by apply elem_of_nil in Hv'. }
  destruct (si_bound m Hinv c' r' ltac:(by eexists)) as [Hc' Hr']. fold n in Hc', Hr'.
  destruct (decide (w <= 65535)) as [Hw16|Hw16].
  - pose proof (sq_string_layout p i128_numeric o m d hi lo (fun v => pad_left w (Z_text v))
      Hinv Hn Hext ltac:(lia) ltac:(lia) (template_ascii i128_numeric hi lo d ltac:(lia))) as Hlay.
    fold n w in Hlay. rewrite Hf in Hlay. rewrite Hlay.
    + split; [|right; by eexists]. split; [done|]. intros (_ & _ & ?). lia.
    + intros c r v Hv. split_and!; [| |apply pad_left_ascii, Z_text_ascii].
      * unfold sq_cell_text, fmt_count. change (num_has_decimal i128_numeric) with true. cbn [negb andb].
        destruct (N.leb_spec w 65535); [|lia]. cbn [obind]. destruct (N.leb_spec d 65535); [|lia]. done.
      * rewrite pad_left_length. pose proof (Z_text_between _ _ _ (Hb c r v Hv)) as Hz.
        rewrite Hww. unfold sq_width0 in *. rewrite !(it_digits _ _ i128_int). lia.
  - assert (sq_to_string_with_precision p i128_numeric o m d = Panic) as ->.
    { rewrite Hun. apply text_fits_spec in Hf as [Hf _].
      cbn [ofold]. rewrite write_cell_unfold; [|done|done|nia|lia].
      unfold sq_cell_text, fmt_count. change (num_has_decimal i128_numeric) with true. cbn [negb andb].
      by destruct (N.leb_spec w 65535); [lia|]. }
    split; [|by left]. split; [|done]. intros _. split_and!; [done..|lia].
Qed.
Print Assumptions C47_i128_exact.

(** 65533 decimals are the most for a number of one digit. *)
Example C47_i128_case : exists m, mrun plat64 i128_numeric [MSet 7%Z 0 0] = Ret m /\
  sq_to_string_with_precision plat64 i128_numeric plain_order m 65534 = Panic /\
  exists r, sq_to_string_with_precision plat64 i128_numeric plain_order m 65533 = Ret r.
Proof.
  assert (exists m, mrun plat64 i128_numeric [MSet 7%Z 0 0] = Ret m /\ sq_dim m = 1 /\
    sq_items plain_order m = [(7%Z, 0, 0)]) as (m & Hm & Hn & Hi).
  { apply ret_ex. vm_compute. by repeat split. }
  exists m. split; [done|].
  assert (signed_ops 128 [MSet 7%Z 0 0]) as Hops.
  { intros e c r [= -> -> ->]%elem_of_list_singleton. by split. }
  assert (forall w, widest_integer (fun z => z) (sq_items plain_order m) w -> w = 1) as Hone.
  { intros w [_ Hw]. rewrite Hi in Hw. destruct Hw as [(v & c & r & t & Hv & Ht & <-)|[? _]]; [|done].
    apply elem_of_list_singleton in Hv as [= -> -> ->].
    by rewrite (signed_decimal_unique _ _ _ Ht (Z_text_spec _)). }
  destruct (C47_i128_exact plat64 plain_order plain_order _ m 65534 plat64_wf ltac:(by vm_compute) Hm Hops)
    as (w & Hw%Hone & Hpan & _).
  destruct (C47_i128_exact plat64 plain_order plain_order _ m 65533 plat64_wf ltac:(by vm_compute) Hm Hops)
    as (w' & Hw'%Hone & Hpan' & Htot). subst w w'. split.
  - apply Hpan. rewrite Hn, Hi. split_and!; [by vm_compute..|done|lia].
  - destruct Htot as [E|?]; [|done]. apply Hpan' in E as (_ & _ & ?). lia.
Qed.
