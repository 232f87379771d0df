(** Properties C45-C47: texts of square matrices. *)
From Coq Require Import ZArith Ascii String.
From Verif Require Import Base HashIter F64 Numeric Adj Sq Standard Compressed Spec MatSpec TextSpec
  Api AdjProofs SqProofs GraphProofs CompressProofs ApproxProofs TextProofs SqTextProofs
  NumTextProofs SqShowProofs FloatTextProofs MatrixProofs CodecMoreProofs PropCommon.
Local Arguments N.mul : simpl never.
Local Arguments N.add : simpl never.
Local Arguments N.pow : simpl never.

(** Histories that only set values of an unsigned or signed type of the given width. *)
Definition unsigned_ops (bits : N) (ops : list (mop N)) : Prop :=
  forall e c r, MSet e c r ∈ ops -> e < 2 ^ bits.
Definition signed_ops (bits : Z) (ops : list (mop Z)) : Prop :=
  forall e c r, MSet e c r ∈ ops -> (- 2 ^ (bits - 1) <= e < 2 ^ (bits - 1))%Z.

Lemma unsigned_values p bits ops m : 1 <= bits -> unsigned_ops bits ops ->
  mrun p (uint_numeric bits) ops = Ret m ->
  forall c r v, sq_val m c r = Some v -> in_type (uint_numeric bits) Z.of_N v.
Proof.
  intros Hb Hops Hm. assert (2 ^ 1 <= 2 ^ bits) as Hp by (apply N.pow_le_mono_r; lia).
  change (2 ^ 1) with 2 in Hp.
  cut (forall c r v, sq_val m c r = Some v -> v < 2 ^ bits).
  { intros H c r v Hv. specialize (H c r v Hv). unfold in_type. simpl. lia. }
  apply (mrun_values (uint_numeric bits) (fun v => v < 2 ^ bits) p ops m); [..|done].
  - intros e c r He _. eauto.
  - intros _. simpl. split; [lia|]. intros e e' He.
    destruct (N.ltb_spec (e + 1) (2 ^ bits)); [by intros [= <-]|].
    destruct (overflow_checks p); [done|]. intros [= <-]. apply N.mod_lt. lia.
Qed.

Lemma signed_values p bits dec ops m : (2 <= bits)%Z -> signed_ops bits ops ->
  mrun p (sint_numeric bits dec) ops = Ret m ->
  forall c r v, sq_val m c r = Some v -> in_type (sint_numeric bits dec) (fun z => z) v.
Proof.
  intros Hb Hops Hm.
  assert (2 ^ 1 <= 2 ^ (bits - 1))%Z as Hp by (apply Z.pow_le_mono_r; lia).
  assert (2 ^ bits = 2 * 2 ^ (bits - 1))%Z as Hd.
  { replace bits with (Z.succ (bits - 1)) at 1 by lia. by rewrite Z.pow_succ_r by lia. }
  change (2 ^ 1)%Z with 2%Z in Hp.
  cut (forall c r v, sq_val m c r = Some v -> (- 2 ^ (bits - 1) <= v < 2 ^ (bits - 1))%Z).
  { intros H c r v Hv. specialize (H c r v Hv). unfold in_type. simpl. lia. }
  apply (mrun_values (sint_numeric bits dec) (fun v => (- 2 ^ (bits - 1) <= v < 2 ^ (bits - 1))%Z) p ops m);
    [..|done].
  - intros e c r He _. eauto.
  - intros _. split; [simpl; lia|]. intros e e' He. cbn [num_add_one sint_numeric].
    destruct (Z.ltb_spec (e + 1) (2 ^ (bits - 1))); [intros [= <-]; lia|].
    destruct (overflow_checks p); [done|]. intros [= <-]. lia.
Qed.

Lemma usize_16 p : wf_platform p -> 65535 <= usize_max p.
Proof. intros H. apply H. Qed.

(** ** C45: unsigned integers up to 128 bits, signed integers other than i128, and
    CompressedGraph::matrix_string. *)
Theorem C45_unsigned_text p o bits ops m : wf_platform p -> 1 <= bits <= 128 ->
  unsigned_ops bits ops -> mrun p (uint_numeric bits) ops = Ret m ->
  prints p (sq_dim m) 0
    (fun c r => integer_text 0 (Z.of_N (sq_get_entry (uint_numeric bits) m c r)))
    (sq_to_string_with_precision p (uint_numeric bits) o m 0).
Proof.
  intros Hp Hb Hops Hm.
  apply (int_prints_0 _ Z.of_N (uint_type bits ltac:(lia))); [by apply usize_16|by eapply mrun_inv|done|].
  eapply unsigned_values; [|done..]. lia.
Qed.
Print Assumptions C45_unsigned_text.

Theorem C45_signed_text p o bits ops m : wf_platform p -> (2 <= bits <= 128)%Z ->
  signed_ops bits ops -> mrun p (sint_numeric bits false) ops = Ret m ->
  prints p (sq_dim m) 0
    (fun c r => integer_text 0 (sq_get_entry (sint_numeric bits false) m c r))
    (sq_to_string_with_precision p (sint_numeric bits false) o m 0).
Proof.
  intros Hp Hb Hops Hm.
  apply (int_prints_0 _ (fun z => z) (sint_type bits false ltac:(lia)));
    [by apply usize_16|by eapply mrun_inv|done|].
  eapply signed_values; [|done..]. lia.
Qed.
Print Assumptions C45_signed_text.

Theorem C45_matrix_string p p' o cg : wf_platform p -> wf_platform p' -> creach p cg ->
  prints p' (blocks_of (c_vertex_count cg)) 0
    (fun c r => integer_text 0 (Z.of_N (get_compressed_matrix_entry cg c r)))
    (c_matrix_string p' o cg).
Proof.
  intros Hp Hp' Hr. pose proof (creach_inv p cg Hp Hr) as Hi.
  assert (blocks_of (c_vertex_count cg) = sq_dim (cg_mat cg)) as ->.
  { rewrite (ci_dim cg Hi). apply blocks_of_dim. }
  apply (int_prints_0 _ Z.of_N (uint_type 64 ltac:(done))); [by apply usize_16|apply Hi|done|].
  intros c r v Hv. destruct (ci_word cg Hi c r v Hv) as [_ Hw]. unfold in_type, two64 in *. simpl.
  change (2 ^ 64) with 18446744073709551616. lia.
Qed.
Print Assumptions C45_matrix_string.

Definition neg_ops : list (mop Z) := [MSet (-5)%Z 0 0; MSet 1000%Z 1 0; MInc 1 1].

Example C45_case :
  (exists m, mrun plat64 (sint_numeric 64 false) neg_ops = Ret m /\
     sq_to_string_with_precision plat64 (sint_numeric 64 false) plain_order m 0 =
     Ret (Ok (txt "[   -5, 1000 ]" ++ [cr; lf] ++ txt "[    0,    1 ]"))) /\
  (exists cg, compress plat64 plain_order plain_order sample_und 1 = Ret cg /\
     c_matrix_string plat64 plain_order cg =
     Ret (Ok (txt "[ 81604514832,           0 ]" ++ [cr; lf] ++
              txt "[           0,           0 ]"))).
Proof. split; apply ret_ex; by vm_compute. Qed.

(** Nothing is printed only for want of memory. *)
Example C45_capacity_case :
  (exists m, mrun plat64 u64_numeric [MSet 7 (2 ^ 40) 0] = Ret m /\
     exists msg, sq_to_string_with_precision plat64 u64_numeric plain_order m 0 =
       Ret (Err (CapacityOverflow msg))).
Proof. apply ret_ex. vm_compute. eexists; done. Qed.

(** ** C46 *)

Lemma shows_1x1 shows s : shows_matrix 1 shows s ->
  exists k t, s = txt "[ " ++ replicate k " "%char ++ t ++ txt " ]" /\ shows 0 0 t.
Proof.
  intros (w & cell & -> & H). destruct (H 0 0 ltac:(done) ltac:(done)) as (_ & k & t & Hc & Hs).
  exists k, t. split; [|done].
  change (matrix_text 1 cell) with (txt "[ " ++ cell 0 0 ++ txt " ]"). rewrite Hc.
  by rewrite <- app_assoc.
Qed.

Lemma integer_text_unique d z t t' : integer_text d z t -> integer_text d z t' -> t = t'.
Proof. intros (a & Ha & ->) (b & Hb & ->). by rewrite (signed_decimal_unique a b z). Qed.

Lemma integer_text_make d z : integer_text d z (Z_text z ++
  (if d =? 0 then [] else "."%char :: replicate (N.to_nat d) "0"%char)).
Proof. exists (Z_text z). split; [apply Z_text_spec|done]. Qed.

Ltac one_cell H :=
  apply (f_equal (@rev ascii)) in H; rewrite !rev_app_distr in H; simpl in H; discriminate H.

(** False of the code in four ways: a negative integer with decimals is written one
    column too wide (csr_square_matrix.rs:283-287 pads to one more than the width
    computed at 183-189), the sign of doubles between -1 and 0 is not counted
    (util/mod.rs:475-477), zeros of float matrices are printed as "0." when no decimals
    are asked for (191-193), and i128 claims to have decimals but is printed without
    (util/mod.rs:400-403). *)
Theorem C46_precision_refuted :
  (exists m s, mrun plat64 i64_numeric [MSet (-5)%Z 0 0] = Ret m /\
     sq_to_string_with_precision plat64 i64_numeric plain_order m 1 = Ret (Ok s) /\
     ~ shows_matrix (sq_dim m) (fun c r => integer_text 1 (sq_get_entry i64_numeric m c r)) s) /\
  (exists m s, mrun plat64 f64_numeric [MSet (S754_finite true 4503599627370496 (-53)) 0 0] = Ret m /\
     sq_to_string_with_precision plat64 f64_numeric plain_order m 2 = Ret (Ok s) /\
     ~ shows_matrix (sq_dim m) (fun c r => rounded_text 2 (sq_get_entry f64_numeric m c r)) s) /\
  (exists m s, mrun plat64 f64_numeric [MSet f64_zero 0 0] = Ret m /\
     sq_to_string_with_precision plat64 f64_numeric plain_order m 0 = Ret (Ok s) /\
     ~ shows_matrix (sq_dim m) (fun c r => rounded_text 0 (sq_get_entry f64_numeric m c r)) s) /\
  (exists m s, mrun plat64 i128_numeric [MSet 5%Z 0 0] = Ret m /\
     sq_to_string_with_precision plat64 i128_numeric plain_order m 1 = Ret (Ok s) /\
     ~ shows_matrix (sq_dim m) (fun c r => integer_text 1 (sq_get_entry i128_numeric m c r)) s).
Proof.
  split_and!.
  - eexists _, (txt "[  -5.0]"). split; [reflexivity|]. split; [by vm_compute|]. intros H.
    apply shows_1x1 in H as (k & t & Hs & Ht).
    rewrite (integer_text_unique _ _ _ _ Ht (integer_text_make 1 (-5))) in Hs. one_cell Hs.
  - eexists _, (txt "[ -0.50]"). split; [reflexivity|]. split; [by vm_compute|]. intros H.
    apply shows_1x1 in H as (k & t & Hs & Ht).
    rewrite (rounded_text_unique _ _ _ _ Ht (float_text_spec 2 (S754_finite true 4503599627370496 (-53)))) in Hs.
    change (float_text 2 (S754_finite true 4503599627370496 (-53))) with (txt "-0.50") in Hs.
    one_cell Hs.
  - eexists _, (txt "[                                       0. ]"). split; [reflexivity|].
    split; [by vm_compute|]. intros H. apply shows_1x1 in H as (k & t & Hs & Ht).
    rewrite (rounded_text_unique _ _ _ _ Ht (float_text_spec 0 f64_zero)) in Hs.
    change (float_text 0 f64_zero) with (txt "0") in Hs. one_cell Hs.
  - eexists _, (txt "[   5 ]"). split; [reflexivity|]. split; [by vm_compute|]. intros H.
    apply shows_1x1 in H as (k & t & Hs & Ht).
    rewrite (integer_text_unique _ _ _ _ Ht (integer_text_make 1 5)) in Hs. one_cell Hs.
Qed.
Print Assumptions C46_precision_refuted.

(** Unsigned integers are printed with any number of decimals that does not overflow
    usize. *)
Theorem C46_unsigned_partial p o bits ops m d : wf_platform p -> 1 <= bits <= 128 ->
  unsigned_ops bits ops -> mrun p (uint_numeric bits) ops = Ret m -> d + 44 <= usize_max p ->
  prints p (sq_dim m) d
    (fun c r => integer_text d (Z.of_N (sq_get_entry (uint_numeric bits) m c r)))
    (sq_to_string_with_precision p (uint_numeric bits) o m d).
Proof.
  intros Hp Hb Hops Hm Hd. destruct (N.eq_dec d 0) as [->|Hd0]; [by eapply C45_unsigned_text|].
  pose proof (uint_type bits ltac:(lia)) as HT.
  apply (int_prints_d _ Z.of_N HT); [by apply usize_16|done|done|by eapply mrun_inv|done| |].
  { eapply unsigned_values; [|done..]. lia. }
  intros hi lo Hext (c & r & v & Hv).
  destruct (int_extremes _ _ HT o m hi lo ltac:(eapply unsigned_values; [|done..]; lia) Hext) as (Hbt & _).
  pose proof (Hbt c r v Hv) as Hlh. simpl. destruct (N.ltb_spec lo 0); [lia|].
  unfold sq_width0. simpl. pose proof (N_text_mono lo hi ltac:(lia)). lia.
Qed.
Print Assumptions C46_unsigned_partial.

(** Signed integers (not i128) too, if no entry is negative or if the text of the least
    entry is one character longer than that of the greatest. *)
Theorem C46_signed_partial p o o' bits ops m d : wf_platform p -> (2 <= bits <= 128)%Z ->
  signed_ops bits ops -> mrun p (sint_numeric bits false) ops = Ret m -> d + 44 <= usize_max p ->
  d = 0 \/ (forall v c r, (v, c, r) ∈ sq_items o' m -> (0 <= v)%Z) \/
  (exists hi c r lo c' r' thi tlo, (hi, c, r) ∈ sq_items o' m /\ (lo, c', r') ∈ sq_items o' m /\
     (forall v c r, (v, c, r) ∈ sq_items o' m -> (lo <= v <= hi)%Z) /\ (lo < 0)%Z /\
     signed_decimal thi hi /\ signed_decimal tlo lo /\ length tlo = S (length thi)) ->
  prints p (sq_dim m) d
    (fun c r => integer_text d (sq_get_entry (sint_numeric bits false) m c r))
    (sq_to_string_with_precision p (sint_numeric bits false) o m d).
Proof.
  intros Hp Hb Hops Hm Hd Hcase. destruct (N.eq_dec d 0) as [->|Hd0]; [by eapply C45_signed_text|].
  pose proof (sint_type bits false ltac:(lia)) as HT.
  assert (sq_inv m) as Hinv by by eapply mrun_inv.
  apply (int_prints_d _ (fun z => z) HT); [by apply usize_16|done|done|done|done| |].
  { eapply signed_values; [|done..]. lia. }
  intros hi lo Hext Hex.
  destruct (int_extremes _ _ HT o m hi lo ltac:(eapply signed_values; [|done..]; lia) Hext)
    as (Hbt & _ & Hst).
  destruct (Hst Hex) as [(c1 & r1 & Hhi) (c2 & r2 & Hlo)].
  cbn [num_lt num_digits num_zero sint_numeric] in *. unfold sq_width0.
  cbn [num_lt num_digits num_zero sint_numeric] in *.
  destruct Hcase as [?|[Hpos|(hi' & ch & rh & lo' & cl & rl & thi & tlo & Hi1 & Hi2 & Hall & Hneg & T1 & T2 & HL)]];
    [done| |].
  - apply (elem_of_sq_items o') in Hhi, Hlo; [|done..]. apply Hpos in Hhi, Hlo.
    destruct (Z.ltb_spec lo 0); [lia|].
    destruct Hex as (c & r & v & Hv). specialize (Hbt c r v Hv).
    unfold Z_text. destruct (Z.ltb_spec lo 0), (Z.ltb_spec hi 0); try lia.
    pose proof (N_text_mono (Z.abs_N lo) (Z.abs_N hi) ltac:(lia)). lia.
  - apply (elem_of_sq_items o') in Hi1, Hi2; [|done..].
    assert (hi = hi') as <-.
    { pose proof (Hbt _ _ _ Hi1). apply (elem_of_sq_items o') in Hhi; [|done]. apply Hall in Hhi. lia. }
    assert (lo = lo') as <-.
    { pose proof (Hbt _ _ _ Hi2). apply (elem_of_sq_items o') in Hlo; [|done]. apply Hall in Hlo. lia. }
    rewrite (signed_decimal_unique _ _ _ T1 (Z_text_spec hi)) in HL.
    rewrite (signed_decimal_unique _ _ _ T2 (Z_text_spec lo)) in HL.
    destruct (Z.ltb_spec lo 0); [|lia]. lia.
Qed.
Print Assumptions C46_signed_partial.

(** f64 and f32 with at least one decimal (and at most 65491): right if every value,
    rounded, takes no more room than the integer part of some value plus the decimals. *)
Definition room_for (m : sq spec_float) (o : hash_order) (d extra : N) : Prop :=
  forall v c r, (v, c, r) ∈ sq_items o m -> v <> S754_nan ->
  exists h c' r' t th, (h, c', r') ∈ sq_items o m /\ h <> S754_nan /\
    rounded_text d v t /\ signed_decimal th (float_as_i128 h) /\
    N.of_nat (length t) <= N.of_nat (length th) + 1 + d + extra.

Lemma room_for_fit m o d extra : sq_inv m -> room_for m o d extra ->
  forall c r v, sq_val m c r = Some v -> not_nan v = true ->
     exists c' r' h, sq_val m c' r' = Some h /\ not_nan h = true /\
       N.of_nat (length (float_text d v)) <=
       N.of_nat (length (Z_text (float_as_i128 h))) + 1 + d + extra.
Proof.
  intros Hinv H c r v Hv Nv. apply (elem_of_sq_items o) in Hv; [|done].
  destruct (H v c r Hv) as (h & c' & r' & t & th & Hh & Nh & Ht & Hth & HL).
  { by intros ->. }
  exists c', r', h. split_and!.
  - by apply (elem_of_sq_items o) in Hh.
  - by destruct h.
  - rewrite (rounded_text_unique _ _ _ _ Ht (float_text_spec d v)) in HL.
    rewrite (signed_decimal_unique _ _ _ Hth (Z_text_spec _)) in HL. done.
Qed.

Theorem C46_float_partial p o o' d : wf_platform p -> 1 <= d -> d + 44 <= 65535 ->
  (forall ops m, mrun p f64_numeric ops = Ret m ->
     (forall v c r, (v, c, r) ∈ sq_items o' m -> is_f64 v = true) -> room_for m o' d 0 ->
     prints p (sq_dim m) d (fun c r => rounded_text d (sq_get_entry f64_numeric m c r))
       (sq_to_string_with_precision p f64_numeric o m d)) /\
  (forall ops m, mrun p f32_numeric ops = Ret m ->
     (forall v c r, (v, c, r) ∈ sq_items o' m -> valid_binary 24 128 v = true) -> room_for m o' d 0 ->
     prints p (sq_dim m) d (fun c r => rounded_text d (sq_get_entry f32_numeric m c r))
       (sq_to_string_with_precision p f32_numeric o m d)).
Proof.
  intros Hp Hd1 Hd2. split; intros ops m Hm Hval Hroom.
  - assert (sq_inv m) as Hinv by by eapply mrun_inv.
    apply (float_prints f64_numeric 53 1024 f64_type); [by apply usize_16|done|lia|done| |].
    + intros c r v Hv. apply (elem_of_sq_items o') in Hv; [|done]. by eapply Hval.
    + intros c r v Hv Nv. destruct (room_for_fit m o' d 0 Hinv Hroom c r v Hv Nv) as (c' & r' & h & ? & ? & ?).
      exists c', r', h. split_and!; [done|done|lia].
  - assert (sq_inv m) as Hinv by by eapply mrun_inv.
    apply (float_prints f32_numeric 24 128 f32_type); [by apply usize_16|done|lia|done| |].
    + intros c r v Hv. apply (elem_of_sq_items o') in Hv; [|done]. by eapply Hval.
    + intros c r v Hv Nv. destruct (room_for_fit m o' d 0 Hinv Hroom c r v Hv Nv) as (c' & r' & h & ? & ? & ?).
      exists c', r', h. split_and!; [done|done|lia].
Qed.
Print Assumptions C46_float_partial.

(** In particular for doubles above 0 and up to 1 (averages). *)
Theorem C46_unit_partial p o o' ops m d : wf_platform p -> 1 <= d -> d + 44 <= 65535 ->
  mrun p f64_numeric ops = Ret m ->
  (forall v c r, (v, c, r) ∈ sq_items o' m ->
     is_f64 v = true /\ f64_lt f64_zero v = true /\ f64_le v f64_one = true) ->
  prints p (sq_dim m) d (fun c r => rounded_text d (sq_get_entry f64_numeric m c r))
    (sq_to_string_with_precision p f64_numeric o m d).
Proof.
  intros Hp Hd1 Hd2 Hm Hval.
  apply (proj1 (C46_float_partial p o o' d Hp Hd1 Hd2) ops m Hm).
  - intros v c r Hv. by destruct (Hval v c r Hv).
  - intros v c r Hv Nv. destruct (Hval v c r Hv) as (V1 & V2 & V3).
    exists v, c, r, (float_text d v), (Z_text (float_as_i128 v)).
    split_and!; [done|done|apply float_text_spec|apply Z_text_spec|].
    pose proof (Z_text_length (float_as_i128 v)).
    destruct (unit_text d v V1) as [_ Hl]; [|done|].
    + unfold f64_le, SFleb. unfold f64_lt, SFltb in V2. by destruct (SFcompare _ _) as [[]|].
    + assert (v <> S754_zero true) as Hz by (by intros ->). specialize (Hl Hz). lia.
Qed.
Print Assumptions C46_unit_partial.

(** i128: entries are printed without decimals, absent entries as zero with a point and
    [d] decimals, all in one width. *)
Theorem C46_i128_partial p o ops m d : wf_platform p -> d + 44 <= 65535 ->
  signed_ops 128 ops -> mrun p i128_numeric ops = Ret m ->
  prints p (sq_dim m) d
    (fun c r t => signed_decimal t (sq_get_entry i128_numeric m c r) \/
       sq_get_entry i128_numeric m c r = 0%Z /\ t = txt "0." ++ replicate (N.to_nat d) "0"%char)
    (sq_to_string_with_precision p i128_numeric o m d).
Proof.
  intros Hp Hd Hops Hm. apply i128_prints; [by apply usize_16|done|by eapply mrun_inv|].
  by eapply (signed_values p 128 true).
Qed.
Print Assumptions C46_i128_partial.

Example C46_case :
  (exists m, mrun plat64 u64_numeric [MSet 12 0 0; MSet 3 1 1] = Ret m /\
     sq_to_string_with_precision plat64 u64_numeric plain_order m 2 =
     Ret (Ok (txt "[ 12.00,  0.00 ]" ++ [cr; lf] ++ txt "[  0.00,  3.00 ]"))) /\
  (exists m, mrun plat64 i64_numeric [MSet (-12)%Z 0 0; MSet 33%Z 1 1] = Ret m /\
     sq_to_string_with_precision plat64 i64_numeric plain_order m 1 =
     Ret (Ok (txt "[ -12.0,   0.0 ]" ++ [cr; lf] ++ txt "[   0.0,  33.0 ]"))) /\
  (exists m, mrun plat64 f64_numeric [MSet (S754_finite false 6755399441055744 (-53)) 0 0;
       MSet f64_one 1 1] = Ret m /\
     sq_to_string_with_precision plat64 f64_numeric reversed_order m 2 =
     Ret (Ok (txt "[ 0.75, 0.00 ]" ++ [cr; lf] ++ txt "[ 0.00, 1.00 ]"))) /\
  (exists m, mrun plat64 i128_numeric [MSet 12%Z 0 0; MSet 3%Z 1 1] = Ret m /\
     sq_to_string_with_precision plat64 i128_numeric plain_order m 1 =
     Ret (Ok (txt "[   12,  0.0 ]" ++ [cr; lf] ++ txt "[  0.0,    3 ]"))).
Proof. split_and!; apply ret_ex; by vm_compute. Qed.

(** ** C47 *)

(** A float or i128 matrix with an entry panics on precisions above 65535, which the
    formatting machinery does not accept. *)
Lemma wide_panics {T} p (num : numeric T) o m d c r v hi lo : sq_inv m ->
  num_has_decimal num = true -> sq_val m c r = Some v ->
  sq_extremes num o m = (hi, lo) -> 1 <= sq_width0 num hi lo ->
  65535 < d -> sq_width0 num hi lo + d + 3 <= usize_max p ->
  text_fits p (sq_dim m) (sq_width num hi lo d) = true ->
  sq_to_string_with_precision p num o m d = Panic.
Proof.
  intros Hinv Hdec Hv Hext Hw0 Hd Hw Hfit.
  assert (sq_dim m <> 0) as Hn.
  { destruct (si_bound m Hinv c r ltac:(by eexists)). lia. }
  pose proof (sq_string_unfold p num o m d hi lo Hn Hext Hw0 Hw) as H. rewrite Hfit in H. rewrite H.
  apply text_fits_spec in Hfit as [Hfit _].
  destruct (sq_cells o m) as [|[[c' r'] v'] l] eqn:E.
  { apply (elem_of_sq_cells o) in Hv. rewrite E in Hv. by apply elem_of_nil in Hv. }
  assert (sq_val m c' r' = Some v') as Hv'.
  { apply (elem_of_sq_cells o). rewrite E. left. }
  destruct (si_bound m Hinv c' r' ltac:(by eexists)) as [Hc' Hr'].
  cbn [ofold]. rewrite write_cell_unfold; [|done|done|nia|lia].
  unfold sq_cell_text, fmt_count. rewrite Hdec. cbn [negb andb].
  destruct (N.leb_spec (sq_width num hi lo d) 65535) as [Hle|_]; [|done].
  unfold sq_width in Hle. rewrite Hdec in Hle. cbn [orb] in Hle. lia.
Qed.

(** False of the code: a double whose integer part does not fit i128 writes outside the
    buffer, and so does asking for more than 65535 decimals panic. *)
Theorem C47_no_panic_refuted :
  (exists m, mrun plat64 f64_numeric [MSet (f64_mul (f64_of_N (10 ^ 18)) (f64_mul (f64_of_N (10 ^ 18))
       (f64_of_N (10 ^ 18)))) 0 0] = Ret m /\
     sq_to_string_with_precision plat64 f64_numeric plain_order m 2 = Panic) /\
  (exists m, mrun plat64 f64_numeric [MSet f64_one 0 0] = Ret m /\
     sq_to_string_with_precision plat64 f64_numeric plain_order m 65536 = Panic).
Proof.
  split.
  - apply ret_ex. by vm_compute.
  - eexists. split; [reflexivity|].
    eapply (wide_panics _ _ _ _ _ 0 0); [|by vm_compute..].
    apply (mrun_inv f64_numeric plat64 [MSet f64_one 0 0]). reflexivity.
Qed.
Print Assumptions C47_no_panic_refuted.

(** Every integer type except i128 prints or reports CapacityOverflow for every precision
    that does not overflow usize; i128 and the floats for precisions up to 65491, the
    floats only if no value takes more than two characters more than the integer part of
    some value plus the decimals. *)
Theorem C47_no_panic_partial p o d : wf_platform p -> d + 44 <= usize_max p ->
  let fine out := exists r : result text, out = Ret r /\
    match r with Ok _ => True | Err e => exists msg, e = CapacityOverflow msg end in
  (forall bits ops m, 1 <= bits <= 128 -> unsigned_ops bits ops ->
     mrun p (uint_numeric bits) ops = Ret m ->
     fine (sq_to_string_with_precision p (uint_numeric bits) o m d)) /\
  (forall bits ops m, (2 <= bits <= 128)%Z -> signed_ops bits ops ->
     mrun p (sint_numeric bits false) ops = Ret m ->
     fine (sq_to_string_with_precision p (sint_numeric bits false) o m d)) /\
  (d + 44 <= 65535 ->
   (forall ops m, signed_ops 128 ops -> mrun p i128_numeric ops = Ret m ->
      fine (sq_to_string_with_precision p i128_numeric o m d)) /\
   (forall o' ops m, mrun p f64_numeric ops = Ret m ->
      (forall v c r, (v, c, r) ∈ sq_items o' m -> is_f64 v = true) -> room_for m o' d 2 ->
      fine (sq_to_string_with_precision p f64_numeric o m d)) /\
   (forall o' ops m, mrun p f32_numeric ops = Ret m ->
      (forall v c r, (v, c, r) ∈ sq_items o' m -> valid_binary 24 128 v = true) ->
      room_for m o' d 2 ->
      fine (sq_to_string_with_precision p f32_numeric o m d))).
Proof.
  intros Hp Hd fine. split_and!.
  - intros bits ops m Hb Hops Hm.
    apply (int_safe _ Z.of_N (uint_type bits ltac:(lia))); [by apply usize_16|done|by eapply mrun_inv|done|].
    eapply unsigned_values; [|done..]. lia.
  - intros bits ops m Hb Hops Hm.
    apply (int_safe _ (fun z => z) (sint_type bits false ltac:(lia)));
      [by apply usize_16|done|by eapply mrun_inv|done|].
    eapply signed_values; [|done..]. lia.
  - intros Hd'. split_and!.
    + intros ops m Hops Hm.
      destruct (C46_i128_partial p o ops m d Hp Hd' Hops Hm) as (r & Hr & Hs).
      exists r. split; [done|]. destruct r; [done|]. by destruct Hs.
    + intros o' ops m Hm Hval Hroom. assert (sq_inv m) as Hinv by by eapply mrun_inv.
      apply (float_safe f64_numeric 53 1024 f64_type); [by apply usize_16|done|done| |].
      * intros c r v Hv. apply (elem_of_sq_items o') in Hv; [|done]. by eapply Hval.
      * intros c r v Hv Nv. destruct (room_for_fit m o' d 2 Hinv Hroom c r v Hv Nv) as (c' & r' & h & ? & ? & ?).
        exists c', r', h. split_and!; [done|done|lia].
    + intros o' ops m Hm Hval Hroom. assert (sq_inv m) as Hinv by by eapply mrun_inv.
      apply (float_safe f32_numeric 24 128 f32_type); [by apply usize_16|done|done| |].
      * intros c r v Hv. apply (elem_of_sq_items o') in Hv; [|done]. by eapply Hval.
      * intros c r v Hv Nv. destruct (room_for_fit m o' d 2 Hinv Hroom c r v Hv Nv) as (c' & r' & h & ? & ? & ?).
        exists c', r', h. split_and!; [done|done|lia].
Qed.
Print Assumptions C47_no_panic_partial.

(** For floats a bound on the values is enough: below 10^41 (infinities and NaN may occur),
    and so every f32.

    Missing: more than 65491 decimals (false above 65535) and doubles from 10^41 on (false
    in general). *)
Theorem C47_float_partial p o o' d : wf_platform p -> d + 44 <= 65535 ->
  let fine out := exists r : result text, out = Ret r /\
    match r with Ok _ => True | Err e => exists msg, e = CapacityOverflow msg end in
  (forall ops m, mrun p f64_numeric ops = Ret m ->
     (forall v c r, (v, c, r) ∈ sq_items o' m -> is_f64 v = true /\ below (10 ^ 41) v) ->
     fine (sq_to_string_with_precision p f64_numeric o m d)) /\
  (forall ops m, mrun p f32_numeric ops = Ret m ->
     (forall v c r, (v, c, r) ∈ sq_items o' m -> valid_binary 24 128 v = true) ->
     fine (sq_to_string_with_precision p f32_numeric o m d)).
Proof.
  intros Hp Hd fine. split.
  - intros ops m Hm Hval. assert (sq_inv m) as Hinv by by eapply mrun_inv.
    apply (float_safe f64_numeric 53 1024 f64_type); [by apply usize_16|done|done| |].
    + intros c r v Hv. apply (elem_of_sq_items o') in Hv; [|done]. by destruct (Hval v c r Hv).
    + intros c r v Hv Nv. exists c, r, v. split_and!; [done..|].
      apply (elem_of_sq_items o') in Hv; [|done]. destruct (Hval v c r Hv) as [V1 V2].
      apply float_text_room_wide; [|done]. destruct v as [s|s| |s mm e]; try done.
      apply (bounded_spec 53 1024 ltac:(done) ltac:(done)) in V1 as (V1 & _).
      eapply Z.lt_le_trans; [exact V1|]. by vm_compute.
  - intros ops m Hm Hval. assert (sq_inv m) as Hinv by by eapply mrun_inv.
    apply (float_safe f32_numeric 24 128 f32_type); [by apply usize_16|done|done| |].
    + intros c r v Hv. apply (elem_of_sq_items o') in Hv; [|done]. by eapply Hval.
    + intros c r v Hv Nv. exists c, r, v. split_and!; [done..|].
      apply (elem_of_sq_items o') in Hv; [|done]. specialize (Hval v c r Hv).
      destruct v as [s|s| |s mm e]; try (by apply float_text_room_wide).
      apply (bounded_spec 24 128 ltac:(done) ltac:(done)) in Hval as (V1 & V2 & V3).
      apply float_text_room_wide; [eapply Z.lt_le_trans; [exact V1|by vm_compute]|].
      unfold below. destruct (Z.lt_ge_cases e 0) as [He|He].
      * replace (Z.max 0 e) with 0%Z by lia.
        assert (0 < 2 ^ Z.max 0 (- e))%Z by (apply Z.pow_pos_nonneg; lia). nia.
      * replace (Z.max 0 e) with e by lia. replace (Z.max 0 (- e)) with 0%Z by lia.
        assert (2 ^ e <= 2 ^ 104)%Z by (apply Z.pow_le_mono_r; lia).
        assert (2 ^ 24 * 2 ^ 104 < 10 ^ 41 * 2 ^ 0)%Z by done. nia.
Qed.
Print Assumptions C47_float_partial.

(** Minus the largest double below 10^41; it does not fit i128. *)
Example C47_float_case :
  exists m, mrun plat64 f64_numeric [MSet (S754_finite true 5169878828456422 84) 0 0] = Ret m /\
    forall v c r, (v, c, r) ∈ sq_items plain_order m -> is_f64 v = true /\ below (10 ^ 41) v.
Proof.
  eexists. split; [reflexivity|]. intros v c r Hv.
  match type of Hv with _ ∈ sq_items _ ?m => change (sq_items plain_order m)
    with [(S754_finite true 5169878828456422 84, 0, 0)] in Hv end.
  apply elem_of_list_singleton in Hv as [= -> -> ->]. by vm_compute.
Qed.

(** A negative double between -1 and 0 does not panic, though its text is misplaced. *)
Example C47_case :
  exists m, mrun plat64 f64_numeric [MSet (S754_finite true 4503599627370496 (-53)) 0 0] = Ret m /\
    room_for m plain_order 2 2 /\ ~ room_for m plain_order 2 0.
Proof.
  eexists. split; [reflexivity|].
  match goal with |- room_for ?m _ _ _ /\ _ => set (mm := m) end.
  change (sq_items plain_order mm) with [(S754_finite true 4503599627370496 (-53), 0, 0)].
  split.
  - intros v c r Hv Nv.
    change (sq_items plain_order mm) with [(S754_finite true 4503599627370496 (-53), 0, 0)] in *.
    apply elem_of_list_singleton in Hv as [= -> -> ->].
    exists (S754_finite true 4503599627370496 (-53)), 0, 0, (txt "-0.50"), (txt "0").
    split_and!; [by left|done|exact (float_text_spec 2 (S754_finite true 4503599627370496 (-53)))
      |exact (Z_text_spec 0)|by vm_compute].
  - intros H. destruct (H (S754_finite true 4503599627370496 (-53)) 0 0) as (h & c & r & t & th & Hh & _ & Ht & Hth & HL);
      [by left|done|].
    change (sq_items plain_order mm) with [(S754_finite true 4503599627370496 (-53), 0, 0)] in *.
    apply elem_of_list_singleton in Hh as [= -> -> ->].
    rewrite (rounded_text_unique _ _ _ _ Ht (float_text_spec 2 (S754_finite true 4503599627370496 (-53)))) in HL.
    rewrite (signed_decimal_unique _ _ _ Hth (Z_text_spec _)) in HL. vm_compute in HL. by apply HL.
Qed.
