(** Properties C45-C47, continued: Display, and exactly when the text of a matrix of signed
    integers with decimals, of floats or of i128 is right. *)
From Coq Require Import ZArith Ascii String SpecFloat.
From Verif Require Import Base HashIter F64 Numeric Adj Sq Standard Compressed Spec MatSpec TextSpec
  Api AdjProofs SqProofs GraphProofs CompressProofs ApproxProofs TextProofs SqTextProofs
  NumTextProofs SqShowProofs FloatTextProofs SqExactProofs MatrixProofs CodecMoreProofs PropCommon
  PropText.
Local Arguments N.mul : simpl never.
Local Arguments N.add : simpl never.
Local Arguments N.pow : simpl never.

(** ** Display *)

(** The result of formatting with Display: a text laid out as usual, or fmt::Error, and that
    only if the memory or address space is too small for cells of 42 + d characters. *)
Definition displays (p : platform) (n d : N) (shows : N -> N -> text -> Prop)
    (out : outcome (option text)) : Prop :=
  exists r, out = Ret r /\
  match r with
  | Some s => shows_matrix n shows s
  | None => n <> 0 /\
     ~ ((44 + d) * (n * n) + 4 * n <= usize_max p /\
        forall k, k <= (44 + d) * (n * n) + 4 * n -> can_alloc p k = true)
  end.

Lemma display_prints {T} p (num : numeric T) o m d shows :
  d = (if num_has_decimal num then 2 else 0) ->
  prints p (sq_dim m) d shows (sq_to_string_with_precision p num o m d) ->
  displays p (sq_dim m) d shows (sq_display p num o m).
Proof.
  intros -> (r & Hr & Hm). unfold sq_display. rewrite Hr. cbn [obind].
  eexists. split; [reflexivity|]. destruct r; [done|]. by destruct Hm as (_ & ? & ?).
Qed.

(** Integers are displayed without decimals. *)
Theorem C45_display p o : wf_platform p ->
  (forall bits ops m, 1 <= bits <= 128 -> unsigned_ops bits ops ->
     mrun p (uint_numeric bits) ops = Ret m ->
     displays p (sq_dim m) 0
       (fun c r => integer_text 0 (Z.of_N (sq_get_entry (uint_numeric bits) m c r)))
       (sq_display p (uint_numeric bits) o m)) /\
  (forall bits ops m, (2 <= bits <= 128)%Z -> signed_ops bits ops ->
     mrun p (sint_numeric bits false) ops = Ret m ->
     displays p (sq_dim m) 0
       (fun c r => integer_text 0 (sq_get_entry (sint_numeric bits false) m c r))
       (sq_display p (sint_numeric bits false) o m)).
Proof.
  intros Hp. split; intros bits ops m Hb Hops Hm; apply display_prints; try done.
  - by eapply C45_unsigned_text.
  - by eapply C45_signed_text.
Qed.
Print Assumptions C45_display.

(** Floats with two decimals, when there is room for them.

    Missing: the matrices without room, for which C46_float_exact says what is printed with
    two decimals; i128 has its stored values without decimals. *)
Theorem C46_display_partial p o o' : wf_platform p ->
  (forall ops m, mrun p f64_numeric ops = Ret m ->
     (forall v c r, (v, c, r) ∈ sq_items o' m -> is_f64 v = true) -> room_for m o' 2 0 ->
     displays p (sq_dim m) 2 (fun c r => rounded_text 2 (sq_get_entry f64_numeric m c r))
       (sq_display p f64_numeric o m)) /\
  (forall ops m, mrun p f32_numeric ops = Ret m ->
     (forall v c r, (v, c, r) ∈ sq_items o' m -> valid_binary 24 128 v = true) -> room_for m o' 2 0 ->
     displays p (sq_dim m) 2 (fun c r => rounded_text 2 (sq_get_entry f32_numeric m c r))
       (sq_display p f32_numeric o m)) /\
  (forall ops m, signed_ops 128 ops -> mrun p i128_numeric ops = Ret m ->
     displays p (sq_dim m) 2
       (fun c r t => signed_decimal t (sq_get_entry i128_numeric m c r) \/
          sq_get_entry i128_numeric m c r = 0%Z /\ t = txt "0.00")
       (sq_display p i128_numeric o m)).
Proof.
  intros Hp. destruct (C46_float_partial p o o' 2 Hp ltac:(lia) ltac:(lia)) as [H1 H2].
  split_and!.
  - intros ops m Hm Hval Hroom. apply display_prints; [done|]. by eapply H1.
  - intros ops m Hm Hval Hroom. apply display_prints; [done|]. by eapply H2.
  - intros ops m Hops Hm. apply display_prints; [done|].
    exact (C46_i128_partial p o ops m 2 Hp ltac:(lia) Hops Hm).
Qed.
Print Assumptions C46_display_partial.

(** In every case it is the text with two decimals that is displayed. *)
Theorem C46_display p o {T} (num : numeric T) m out :
  num_has_decimal num = true -> sq_display p num o m = out ->
  match out with
  | Panic => sq_to_string_with_precision p num o m 2 = Panic
  | OutOfFuel => sq_to_string_with_precision p num o m 2 = OutOfFuel
  | Ret (Some s) => sq_to_string_with_precision p num o m 2 = Ret (Ok s)
  | Ret None => exists e, sq_to_string_with_precision p num o m 2 = Ret (Err e)
  end.
Proof.
  intros Hdec <-. unfold sq_display. rewrite Hdec.
  destruct (sq_to_string_with_precision p num o m 2) as [[s|e]| |]; cbn [obind]; [done|by eexists|done|done].
Qed.
Print Assumptions C46_display.

Example C45_display_case :
  (exists m, mrun plat64 (sint_numeric 64 false) neg_ops = Ret m /\
     sq_display plat64 (sint_numeric 64 false) plain_order m =
     Ret (Some (txt "[   -5, 1000 ]" ++ [cr; lf] ++ txt "[    0,    1 ]"))) /\
  (exists m, mrun plat64 f64_numeric [MSet (S754_finite false 6755399441055744 (-53)) 0 0;
       MSet f64_one 1 1] = Ret m /\
     sq_display plat64 f64_numeric reversed_order m =
     Ret (Some (txt "[ 0.75, 0.00 ]" ++ [cr; lf] ++ txt "[ 0.00, 1.00 ]"))) /\
  (exists m, mrun plat64 u64_numeric [MSet 7 (2 ^ 40) 0] = Ret m /\
     sq_display plat64 u64_numeric plain_order m = Ret None).
Proof. split_and!; apply ret_ex; by vm_compute. Qed.

(** ** Signed integers *)

(** The text of signed integers (not i128) with [d] decimals is right exactly when [d] is 0,
    no entry is negative, or the text of the least entry is one character longer than that of
    the greatest. *)
Theorem C46_signed_exact p o o' bits ops m d s : wf_platform p -> (2 <= bits <= 128)%Z ->
  signed_ops bits ops -> mrun p (sint_numeric bits false) ops = Ret m -> d + 44 <= usize_max p ->
  sq_to_string_with_precision p (sint_numeric bits false) o m d = Ret (Ok s) ->
  shows_matrix (sq_dim m) (fun c r => integer_text d (sq_get_entry (sint_numeric bits false) m c r)) s <->
  d = 0 \/ (forall v c r, (v, c, r) ∈ sq_items o' m -> (0 <= v)%Z) \/
  (exists hi c r lo c' r' thi tlo, (hi, c, r) ∈ sq_items o' m /\ (lo, c', r') ∈ sq_items o' m /\
     (forall v c r, (v, c, r) ∈ sq_items o' m -> (lo <= v <= hi)%Z) /\ (lo < 0)%Z /\
     signed_decimal thi hi /\ signed_decimal tlo lo /\ length tlo = S (length thi)).
Proof.
  intros Hp Hb Hops Hm Hd Hs. pose proof (sint_type bits false ltac:(lia)) as HT.
  assert (sq_inv m) as Hinv by by eapply mrun_inv. split.
  - intros Hshow. destruct (decide (d = 0)) as [|Hd0]; [by left|]. right.
    assert (forall c r v, sq_val m c r = Some v -> in_type (sint_numeric bits false) (fun z => z) v) as Hty.
    { eapply signed_values; [|done..]. lia. }
    destruct (decide (Exists (fun '(v, _, _) => (v < 0)%Z) (sq_items o' m))) as [Hex|Hno].
    + right. apply Exists_exists in Hex as ([[v c] r] & Hin & Hv).
      apply (elem_of_sq_items o') in Hin; [|done].
      destruct (sq_extremes (sint_numeric bits false) o m) as [hi lo] eqn:Hext.
      destruct (int_extremes _ _ HT o m hi lo Hty Hext) as (Hbt & _ & Hst).
      destruct (Hst ltac:(eauto)) as [(c1 & r1 & Hhi) (c2 & r2 & Hlo)].
      pose proof (Hbt _ _ _ Hin) as Hvb.
      exists hi, c1, r1, lo, c2, r2, (Z_text hi), (Z_text lo).
      split_and!; [by apply (elem_of_sq_items o')|by apply (elem_of_sq_items o')| |lia|apply Z_text_spec..|].
      { intros v' c' r' Hv'. apply (elem_of_sq_items o') in Hv'; [|done]. by eapply Hbt. }
      destruct (decide (length (Z_text lo) = S (length (Z_text hi)))) as [|Hne]; [done|]. exfalso.
      eapply (int_not_shown _ _ HT p o m d hi lo s); try done; [by apply usize_16|eauto|lia].
    + left. intros v c r Hv. destruct (decide (v < 0)%Z) as [Hneg|]; [|lia]. exfalso. apply Hno.
      apply Exists_exists. by exists (v, c, r).
  - intros Hcase.
    destruct (C46_signed_partial p o o' bits ops m d Hp Hb Hops Hm Hd Hcase) as (r & Hr & Hshow).
    rewrite Hs in Hr. injection Hr as <-. done.
Qed.
Print Assumptions C46_signed_exact.

(** Both ways of going wrong: "[  -5.0]" runs into the separator; in the other one the text of
    7 leaves the template behind it. *)
Example C46_signed_case :
  (exists m, mrun plat64 i64_numeric [MSet (-5)%Z 0 0; MSet 10%Z 0 1] = Ret m /\
     sq_to_string_with_precision plat64 i64_numeric plain_order m 1 =
     Ret (Ok (txt "[  -5.0  0.0 ]" ++ [cr; lf] ++ txt "[  10.0  0.0 ]"))) /\
  (exists m, mrun plat64 i64_numeric [MSet (-100)%Z 0 0; MSet 7%Z 0 1] = Ret m /\
     sq_to_string_with_precision plat64 i64_numeric plain_order m 1 =
     Ret (Ok (txt "[ -100.0,    0.0 ]" ++ [cr; lf] ++ txt "[  7.0.0,    0.0 ]"))).
Proof. split_and!; apply ret_ex; by vm_compute. Qed.

(** ** i128 *)

(** The text of an i128 matrix is right only if no decimals are asked for and every cell is
    stored, or if decimals are asked for and nothing is stored. *)
Theorem C46_i128_exact p o o' ops m d s : wf_platform p -> d + 44 <= 65535 ->
  signed_ops 128 ops -> mrun p i128_numeric ops = Ret m ->
  sq_to_string_with_precision p i128_numeric o m d = Ret (Ok s) ->
  shows_matrix (sq_dim m) (fun c r => integer_text d (sq_get_entry i128_numeric m c r)) s <->
  if d =? 0 then forall c r, c < sq_dim m -> r < sq_dim m -> exists v, (v, c, r) ∈ sq_items o' m
  else sq_items o' m = [].
Proof.
  intros Hp Hd Hops Hm Hs. assert (sq_inv m) as Hinv by by eapply mrun_inv.
  etransitivity.
  { apply (i128_exact p o m d s); [by apply usize_16|done|done| |done].
    by eapply (signed_values p 128 true). }
  destruct (d =? 0).
  - split; intros H c r Hc Hr; destruct (H c r Hc Hr) as [v Hv]; exists v; by apply (elem_of_sq_items o').
  - split.
    + intros H. destruct (sq_items o' m) as [|[[v c] r] l] eqn:E; [done|]. exfalso.
      assert (sq_val m c r = Some v) as Hv.
      { apply (elem_of_sq_items o'); [done|]. rewrite E. by left. }
      by rewrite H in Hv.
    + intros H c r. destruct (sq_val m c r) as [v|] eqn:Hv; [|done].
      apply (elem_of_sq_items o') in Hv; [|done]. rewrite H in Hv. by apply elem_of_nil in Hv.
Qed.
Print Assumptions C46_i128_exact.

Example C46_i128_case :
  (exists m, mrun plat64 i128_numeric [MSet 12%Z 0 0] = Ret m /\
     sq_to_string_with_precision plat64 i128_numeric plain_order m 0 = Ret (Ok (txt "[  12 ]"))) /\
  (exists m, mrun plat64 i128_numeric [MSet 12%Z 1 0; MSet 0%Z 1 1] = Ret m /\
     sq_to_string_with_precision plat64 i128_numeric plain_order m 0 =
     Ret (Ok (txt "[  0.,  12 ]" ++ [cr; lf] ++ txt "[  0.,  0. ]"))).
Proof. split_and!; apply ret_ex; by vm_compute. Qed.

(** ** Floats *)

(** What printing a matrix of floats gives, for every precision that does not overflow usize:
    when it is CapacityOverflow, when a panic, and when the text is right. *)
Theorem C46_float_exact p o o' d : wf_platform p -> d + 44 <= usize_max p ->
  (forall ops m, mrun p f64_numeric ops = Ret m -> sq_dim m <> 0 ->
     (forall v c r, (v, c, r) ∈ sq_items o' m -> is_f64 v = true) ->
     prints_floats p (sq_dim m) d (sq_items o' m)
       (fun c r => rounded_text d (sq_get_entry f64_numeric m c r))
       (sq_to_string_with_precision p f64_numeric o m d)) /\
  (forall ops m, mrun p f32_numeric ops = Ret m -> sq_dim m <> 0 ->
     (forall v c r, (v, c, r) ∈ sq_items o' m -> valid_binary 24 128 v = true) ->
     prints_floats p (sq_dim m) d (sq_items o' m)
       (fun c r => rounded_text d (sq_get_entry f32_numeric m c r))
       (sq_to_string_with_precision p f32_numeric o m d)).
Proof.
  intros Hp Hd. split; intros ops m Hm Hn Hval.
  - assert (sq_inv m) as Hinv by by eapply mrun_inv.
    apply (float_exact f64_numeric 53 1024 f64_type); [by vm_compute|by vm_compute|by apply usize_16|done..|].
    intros c r v Hv. apply (elem_of_sq_items o') in Hv; [|done]. by eapply Hval.
  - assert (sq_inv m) as Hinv by by eapply mrun_inv.
    apply (float_exact f32_numeric 24 128 f32_type); [by vm_compute|by vm_compute|by apply usize_16|done..|].
    intros c r v Hv. apply (elem_of_sq_items o') in Hv; [|done]. by eapply Hval.
Qed.
Print Assumptions C46_float_exact.

(** The sign of -0.5 is not counted, and its text takes the place of the separator; 1 alone
    fills its matrix and is right without decimals; 10^54 runs over the cell below it. *)
Example C46_float_case :
  (exists m, mrun plat64 f64_numeric [MSet (S754_finite true 4503599627370496 (-53)) 0 0;
       MSet f64_one 1 1] = Ret m /\
     sq_to_string_with_precision plat64 f64_numeric plain_order m 1 =
     Ret (Ok (txt "[ -0.5 0.0 ]" ++ [cr; lf] ++ txt "[ 0.0, 1.0 ]"))) /\
  (exists m, mrun plat64 f64_numeric [MSet f64_one 0 0] = Ret m /\
     sq_to_string_with_precision plat64 f64_numeric plain_order m 0 = Ret (Ok (txt "[  1 ]"))) /\
  (exists m, mrun plat64 f64_numeric [MSet (f64_mul (f64_of_N (10 ^ 18)) (f64_mul (f64_of_N (10 ^ 18))
       (f64_of_N (10 ^ 18)))) 0 0; MSet f64_one 0 1] = Ret m /\
     exists s, sq_to_string_with_precision plat64 f64_numeric plain_order m 2 = Ret (Ok s)).
Proof. split_and!; apply ret_ex; vm_compute; try done. by eexists. Qed.

(** ** C47 for floats *)

Lemma prints_floats_panic p n d items shows out : prints_floats p n d items shows out ->
  (out = Panic \/ exists r, out = Ret r) /\
  exists w, widest_integer_part items w /\
  let cell := w + 1 + d in
  let size := (cell + 2) * (n * n) + 4 * n in
  out = Panic <->
  (size <= usize_max p /\ can_alloc p (size - 2) = true) /\
  exists v c r t, (v, c, r) ∈ items /\ rounded_text d v t /\
    (65535 < cell \/
     (n - 1 - r) * (4 + n * (cell + 2)) + (n - 1 - c) * (cell + 2) + cell + 2 < N.of_nat (length t)).
Proof.
  intros (w & Hw & H). cbv zeta in *. destruct H as (H1 & H2 & H3).
  match type of H2 with ?A -> ?B -> _ => set (F := A) in *; set (Q := B) in * end.
  assert (Decision F) as DF.
  { unfold F. apply and_dec; [apply decide_rel, _|apply bool_eq_dec]. }
  destruct (decide F) as [Hf|Hf].
  2:{ destruct (H1 Hf) as [msg E]. split; [right; by eexists|]. exists w. split; [done|].
      split; [congruence|]. by intros []. }
  assert (Q <-> Exists (fun '(v, c, r) => 65535 < w + 1 + d \/
    (n - 1 - r) * (4 + n * (w + 1 + d + 2)) + (n - 1 - c) * (w + 1 + d + 2) + (w + 1 + d) + 2
      < N.of_nat (length (float_text d v))) items) as HQ.
  { rewrite Exists_exists. split.
    - intros (v & c & r & t & Hin & Ht & Hb). exists (v, c, r). split; [done|].
      by rewrite <- (rounded_text_unique _ _ _ _ Ht (float_text_spec d v)).
    - intros ([[v c] r] & Hin & Hb). exists v, c, r, (float_text d v).
      split_and!; [done|apply float_text_spec|done]. }
  match type of HQ with _ <-> Exists ?P _ => destruct (decide (Exists P items)) as [Hy|Hno] end.
  - apply HQ in Hy. specialize (H2 Hf Hy). split; [by left|]. exists w. by split_and!.
  - destruct (H3 Hf) as (s & E & _); [by rewrite HQ|]. split; [right; by eexists|].
    exists w. split; [done|]. split; [congruence|]. intros [_ Hq]. by apply HQ in Hq.
Qed.

(** The panics, exactly. *)
Theorem C47_float_exact p o o' d : wf_platform p -> d + 44 <= usize_max p ->
  let panics_when (n : N) items (out : outcome (result text)) :=
    exists w, widest_integer_part items w /\
    let cell := w + 1 + d in
    let size := (cell + 2) * (n * n) + 4 * n in
    out = Panic <->
    (size <= usize_max p /\ can_alloc p (size - 2) = true) /\
    exists v c r t, (v, c, r) ∈ items /\ rounded_text d v t /\
      (65535 < cell \/
       (n - 1 - r) * (4 + n * (cell + 2)) + (n - 1 - c) * (cell + 2) + cell + 2 < N.of_nat (length t)) in
  (forall ops m, mrun p f64_numeric ops = Ret m ->
     (forall v c r, (v, c, r) ∈ sq_items o' m -> is_f64 v = true) ->
     panics_when (sq_dim m) (sq_items o' m) (sq_to_string_with_precision p f64_numeric o m d)) /\
  (forall ops m, mrun p f32_numeric ops = Ret m ->
     (forall v c r, (v, c, r) ∈ sq_items o' m -> valid_binary 24 128 v = true) ->
     panics_when (sq_dim m) (sq_items o' m) (sq_to_string_with_precision p f32_numeric o m d)).
Proof.
  intros Hp Hd panics_when.
  assert (forall n items shows out, prints_floats p n d items shows out -> panics_when n items out) as Hgen.
  { intros. by eapply prints_floats_panic. }
  assert (forall num (m : sq spec_float), sq_inv m -> sq_dim m = 0 ->
    panics_when (sq_dim m) (sq_items o' m) (sq_to_string_with_precision p num o m d)) as H0.
  { intros num m Hinv H0.
    assert (sq_items o' m = []) as ->.
    { destruct (sq_items o' m) as [|[[v c] r] l] eqn:E; [done|]. exfalso.
      assert (sq_val m c r = Some v) as Hv.
      { apply (elem_of_sq_items o'); [done|]. rewrite E. by left. }
      destruct (si_bound m Hinv c r ltac:(by eexists)). lia. }
    assert (sq_to_string_with_precision p num o m d = Ret (Ok [])) as ->.
    { unfold sq_to_string_with_precision. by rewrite H0. }
    exists 39. split.
    - split; [by intros ? ? ? ? ? ?%elem_of_nil|]. right. split; [by intros ? ? ? ?%elem_of_nil|lia].
    - split; [done|]. by intros [_ (? & ? & ? & ? & ?%elem_of_nil & _)]. }
  destruct (C46_float_exact p o o' d Hp Hd) as [E1 E2].
  split; intros ops m Hm Hval; (destruct (decide (sq_dim m = 0)) as [Hz|Hn];
    [apply H0; [by eapply mrun_inv|done]|]).
  - by eapply Hgen, E1.
  - by eapply Hgen, E2.
Qed.
Print Assumptions C47_float_exact.

Example C47_exact_case :
  (exists m, mrun plat64 f64_numeric [MSet (f64_mul (f64_of_N (10 ^ 18)) (f64_mul (f64_of_N (10 ^ 18))
       (f64_of_N (10 ^ 18)))) 0 1; MSet f64_one 1 1] = Ret m /\
     exists s, sq_to_string_with_precision plat64 f64_numeric plain_order m 2 = Ret (Ok s)) /\
  (exists m, mrun plat64 f64_numeric [MSet (f64_mul (f64_of_N (10 ^ 18)) (f64_mul (f64_of_N (10 ^ 18))
       (f64_of_N (10 ^ 18)))) 1 1; MSet f64_one 0 0] = Ret m /\
     sq_to_string_with_precision plat64 f64_numeric plain_order m 2 = Panic).
Proof. split; apply ret_ex; vm_compute; try done. by eexists. Qed.
