(** What the square matrix printer produces, for every element type. *)
From Coq Require Import ZArith Ascii String.
From Verif Require Import Base HashIter F64 Numeric Adj Sq Spec TextSpec Api AdjProofs GraphProofs
  SqProofs BitsProofs TextProofs SqTextProofs NumTextProofs.
Local Arguments N.mul : simpl never.
Local Arguments N.add : simpl never.
Local Arguments N.pow : simpl never.

(** ** Any element type *)

Lemma sq_string_layout {T} p (num : numeric T) o m d hi lo (txt_of : T -> text) :
  sq_inv m -> sq_dim m <> 0 -> sq_extremes num o m = (hi, lo) ->
  1 <= sq_width0 num hi lo -> sq_width0 num hi lo + d + 3 <= usize_max p ->
  utf8_ok (template num hi lo d) = true ->
  (forall c r v, sq_val m c r = Some v ->
     sq_cell_text num hi lo (sq_width num hi lo d) d v = Ret (txt_of v) /\
     length (txt_of v) = N.to_nat (sq_width num hi lo d) /\ utf8_ok (txt_of v) = true) ->
  if text_fits p (sq_dim m) (sq_width num hi lo d) then
    sq_to_string_with_precision p num o m d =
    Ret (Ok (matrix_text (sq_dim m) (fun c r =>
      match sq_val m c r with Some v => txt_of v | None => template num hi lo d end)))
  else exists msg, sq_to_string_with_precision p num o m d = Ret (Err (CapacityOverflow msg)).
Proof.
  intros Hinv Hn Hext Hw0 Hw Hta Hcells.
  pose proof (sq_string_unfold p num o m d hi lo Hn Hext Hw0 Hw) as H.
  destruct (text_fits _ _ _) eqn:Hfit; [|done]. rewrite H. clear H.
  apply text_fits_spec in Hfit as [Hfit _].
  set (w := sq_width num hi lo d) in *. set (n := sq_dim m) in *.
  destruct (write_cells_text p num hi lo w d n txt_of (sq_cells o m)
    (fun _ _ => template num hi lo d)) as (cell' & Heq & Hin & Hout).
  - nia.
  - lia.
  - intros. apply template_cell_length.
  - intros c r v Hv. apply elem_of_sq_cells in Hv.
    destruct (si_bound m Hinv c r ltac:(by eexists)). destruct (Hcells c r v Hv) as (? & ? & ?). done.
  - apply NoDup_sq_cells_keys.
  - rewrite Heq. cbn [obind].
    assert (matrix_text n cell' = matrix_text n (fun c r =>
      match sq_val m c r with Some v => txt_of v | None => template num hi lo d end)) as ->.
    { apply matrix_text_ext. intros c r _ _. destruct (sq_val m c r) as [v|] eqn:E.
      - apply Hin. by apply elem_of_sq_cells.
      - apply Hout. intros v Hv. apply elem_of_sq_cells in Hv. congruence. }
    rewrite matrix_text_ascii; [done|]. intros c r _ _.
    destruct (sq_val m c r) as [v|] eqn:E; [|done]. by apply (Hcells c r v).
Qed.

Lemma sq_string_safe {T} p (num : numeric T) o m d hi lo :
  sq_inv m -> sq_dim m <> 0 -> sq_extremes num o m = (hi, lo) ->
  1 <= sq_width0 num hi lo -> sq_width0 num hi lo + d + 3 <= usize_max p ->
  utf8_ok (template num hi lo d) = true ->
  (forall c r v, sq_val m c r = Some v -> exists t,
     sq_cell_text num hi lo (sq_width num hi lo d) d v = Ret t /\
     N.of_nat (length t) <= sq_width num hi lo d + 2 /\ utf8_ok t = true) ->
  exists r, sq_to_string_with_precision p num o m d = Ret r /\
    match r with Ok _ => True | Err e => exists msg, e = CapacityOverflow msg end.
Proof.
  intros Hinv Hn Hext Hw0 Hw Hta Hcells.
  pose proof (sq_string_unfold p num o m d hi lo Hn Hext Hw0 Hw) as H.
  destruct (text_fits _ _ _) eqn:Hfit.
  2:{ destruct H as [msg H]. eexists. split; [done|]. by exists msg. }
  rewrite H. clear H.
  apply text_fits_spec in Hfit as [Hfit _].
  set (w := sq_width num hi lo d) in *. set (n := sq_dim m) in *.
  assert (forall c r, c < n -> r < n -> length (template num hi lo d) = N.to_nat w) as Htl.
  { intros. apply template_cell_length. }
  destruct (write_cells_safe p num hi lo w d n (sq_cells o m)
    (matrix_text n (fun _ _ => template num hi lo d))) as (buf & Heq & _ & Hok).
  - nia.
  - lia.
  - rewrite (matrix_text_length n _ (N.to_nat w)); [by rewrite N2Nat.id|done|done].
  - by apply matrix_text_ascii.
  - intros c r v Hv. apply elem_of_sq_cells in Hv.
    destruct (si_bound m Hinv c r ltac:(by eexists)). destruct (Hcells c r v Hv) as (? & ? & ?). eauto.
  - rewrite Heq. cbn [obind]. rewrite Hok. by eexists.
Qed.

Lemma template_eq {T} (num : numeric T) hi lo d : 1 <= sq_width0 num hi lo ->
  template num hi lo d =
  replicate (N.to_nat (sq_width0 num hi lo - 1)) " "%char ++ txt "0" ++
  (if num_has_decimal num || (0 <? d) then "."%char :: replicate (N.to_nat d) "0"%char else []).
Proof.
  intros Hw0. unfold template, sq_width. set (w0 := sq_width0 num hi lo) in *.
  destruct (_ || _).
  - replace (w0 + 1 + d) with (w0 - 1 + 2 + d) by lia. apply template_decimal.
  - replace w0 with (w0 - 1 + 1) at 1 by lia. rewrite template_integer. done.
Qed.

Lemma template_ascii {T} (num : numeric T) hi lo d : 1 <= sq_width0 num hi lo ->
  utf8_ok (template num hi lo d) = true.
Proof.
  intros H. rewrite template_eq by done. rewrite !utf8_app, replicate_ascii by done.
  cbn [andb]. destruct (_ || _); [|done].
  change ("."%char :: replicate (N.to_nat d) "0"%char) with (["."%char] ++ replicate (N.to_nat d) "0"%char).
  by rewrite utf8_app, replicate_ascii.
Qed.

Lemma prints_empty {T} p (num : numeric T) o m d shows : sq_dim m = 0 ->
  prints p (sq_dim m) d shows (sq_to_string_with_precision p num o m d).
Proof.
  intros H0. unfold sq_to_string_with_precision. rewrite H0. simpl. eexists. split; [done|].
  exists 0%nat, (fun _ _ => []). split; [done|]. intros; lia.
Qed.

Lemma fits_large p n w k : w + 2 <= k -> text_fits p n w = false ->
  ~ (k * (n * n) + 4 * n <= usize_max p /\
     forall j, j <= k * (n * n) + 4 * n -> can_alloc p j = true).
Proof.
  intros Hwk Hf [H1 H2].
  assert ((w + 2) * (n * n) <= k * (n * n)) as Hle by by apply N.mul_le_mono_r.
  unfold text_fits in Hf. apply andb_false_iff in Hf as [Hf|Hf].
  - apply N.leb_gt in Hf. lia.
  - rewrite H2 in Hf; [done|]. unfold text_size. lia.
Qed.

(** The layout in terms of a predicate on cell texts. *)
Lemma sq_string_prints {T} p (num : numeric T) o m d hi lo (txt_of : T -> text)
    (shows : N -> N -> text -> Prop) :
  sq_inv m -> sq_dim m <> 0 -> sq_extremes num o m = (hi, lo) ->
  1 <= sq_width0 num hi lo <= 41 -> d + 44 <= usize_max p ->
  (forall c r v, sq_val m c r = Some v ->
     sq_cell_text num hi lo (sq_width num hi lo d) d v = Ret (txt_of v) /\
     length (txt_of v) = N.to_nat (sq_width num hi lo d) /\ utf8_ok (txt_of v) = true /\
     exists k t, txt_of v = replicate k " "%char ++ t /\ shows c r t) ->
  (forall c r, sq_val m c r = None -> shows c r (txt "0" ++
     (if num_has_decimal num || (0 <? d) then "."%char :: replicate (N.to_nat d) "0"%char else []))) ->
  prints p (sq_dim m) d shows (sq_to_string_with_precision p num o m d).
Proof.
  intros Hinv Hn Hext Hw0 Hw Hcells Hzero.
  assert (sq_width num hi lo d + 2 <= 44 + d) as Hww.
  { unfold sq_width. destruct (_ || _); lia. }
  pose proof (sq_string_layout p num o m d hi lo txt_of Hinv Hn Hext ltac:(lia) ltac:(lia)
    (template_ascii num hi lo d ltac:(lia))) as H.
  destruct (text_fits _ _ _) eqn:Hfit.
  - eexists. split.
    + apply H. intros c r v Hv. destruct (Hcells c r v Hv) as (? & ? & ? & _). done.
    + exists (N.to_nat (sq_width num hi lo d)). eexists. split; [reflexivity|].
      intros c r Hc Hr. cbv beta. destruct (sq_val m c r) as [v|] eqn:E.
      * destruct (Hcells c r v E) as (_ & ? & _ & ?). done.
      * split; [apply template_cell_length|]. eexists _, _. split; [apply template_eq; lia|].
        by apply Hzero.
  - destruct H as [msg H].
    { intros c r v Hv. destruct (Hcells c r v Hv) as (? & ? & ? & _). done. }
    eexists. split; [exact H|]. split_and!; [by exists msg|done|].
    by apply (fits_large p _ (sq_width num hi lo d)).
Qed.

(** ** Integers *)

Lemma decimal_0 : decimal (txt "0") 0.
Proof. by vm_compute. Qed.

Lemma signed_decimal_N n : signed_decimal (N_text n) (Z.of_N n).
Proof.
  exists (N_text n). split.
  - replace (Z.abs_N (Z.of_N n)) with n by lia. apply N_text_spec.
  - destruct (Z.ltb_spec (Z.of_N n) 0); [lia|done].
Qed.

Section Int.
Context {T : Type} (num : numeric T) (key : T -> Z).

(** An integer type: at most 128 bits, no decimals of its own, printed in decimal. *)
Record int_type : Prop := IntType {
  it_gt : forall a b, num_gt num a b = (key b <? key a)%Z;
  it_lt : forall a b, num_lt num a b = (key a <? key b)%Z;
  it_digits : forall a, num_digits num a = N.of_nat (length (Z_text (key a)));
  it_text : forall d a, num_text num d a = Z_text (key a);
  it_zero : key (num_zero num) = 0%Z;
  it_max : (0 <= key (num_max num) < 2 ^ 128)%Z;
  it_min : (- 2 ^ 128 < key (num_min num) <= 0)%Z;
  it_inj : forall a b, key a = key b -> a = b;
}.
Hypothesis HT : int_type.

(** Being a value of the type. *)
Definition in_type (v : T) : Prop := (key (num_min num) <= key v <= key (num_max num))%Z.

Lemma int_width z : (- 2 ^ 128 < z < 2 ^ 128)%Z -> N.of_nat (length (Z_text z)) <= 40.
Proof.
  intros Hz. apply (Z_text_bound z 39); [|done].
  assert (Z.of_N (Z.abs_N z) < Z.of_N (10 ^ 39))%Z; [|lia].
  rewrite N2Z.inj_abs_N. change (Z.of_N (10 ^ 39)) with (10 ^ 39)%Z.
  assert (2 ^ 128 < 10 ^ 39)%Z by (by vm_compute). lia.
Qed.

Lemma int_extremes o m hi lo : (forall c r v, sq_val m c r = Some v -> in_type v) ->
  sq_extremes num o m = (hi, lo) ->
  (forall c r v, sq_val m c r = Some v -> (key lo <= key v <= key hi)%Z) /\
  (1 <= sq_width0 num hi lo <= 40) /\
  ((exists c r v, sq_val m c r = Some v) ->
   (exists c r, sq_val m c r = Some hi) /\ (exists c r, sq_val m c r = Some lo)).
Proof.
  intros Hty Hext.
  destruct (extremes_spec num (fun _ => True) (fun _ => true) key (fun a b _ _ => it_gt HT a b)
    (fun a b _ _ => it_lt HT a b) o m hi lo (fun _ _ _ _ => I) eq_refl eq_refl eq_refl Hext)
    as (_ & _ & H1' & H2 & H3 & H4).
  assert (forall c r v, sq_val m c r = Some v -> (key lo <= key v <= key hi)%Z) as H1 by eauto.
  pose proof (it_max HT). pose proof (it_min HT). pose proof (it_zero HT).
  split_and!; [done| | |].
  - unfold sq_width0. rewrite !(it_digits HT).
    pose proof (Z_text_length (key hi)). lia.
  - assert (- 2 ^ 128 < key hi < 2 ^ 128)%Z.
    { destruct H2 as [->|[->|(c & r & Hv)]]; [lia|lia|]. apply Hty in Hv. unfold in_type in Hv. lia. }
    assert (- 2 ^ 128 < key lo < 2 ^ 128)%Z.
    { destruct H3 as [->|(c & r & Hv)]; [lia|]. apply Hty in Hv. unfold in_type in Hv. lia. }
    unfold sq_width0. rewrite !(it_digits HT).
    pose proof (int_width (key hi) ltac:(done)). pose proof (int_width (key lo) ltac:(done)). lia.
  - intros Hex. destruct (H4 Hex) as (Hm1 & Hm2 & H7). destruct Hex as (c & r & v & Hv).
    pose proof (Hty c r v Hv) as [Hv1 Hv2]. pose proof (H1 c r v Hv) as Hvb. split.
    + destruct H7 as [->|?]; [|done]. exists c, r. rewrite Hv. f_equal. apply (it_inj HT). lia.
    + destruct H3 as [->|?]; [|done]. exists c, r. rewrite Hv. f_equal. apply (it_inj HT). lia.
Qed.

Definition shows_int (m : sq T) (d : N) (c r : N) (t : text) : Prop :=
  integer_text d (key (sq_get_entry num m c r)) t.

Lemma int_zero_text d : num_has_decimal num = false ->
  integer_text d 0 (txt "0" ++ (if num_has_decimal num || (0 <? d)
    then "."%char :: replicate (N.to_nat d) "0"%char else [])).
Proof.
  intros Hd. rewrite Hd. cbn [orb]. exists (txt "0"). split.
  - exists (txt "0"). split; [apply decimal_0|done].
  - destruct (N.eqb_spec d 0) as [->|Hne]; [done|]. by destruct (N.ltb_spec 0 d); [|lia].
Qed.

Lemma shows_int_stored m d c r v : sq_val m c r = Some v ->
  shows_int m d c r (Z_text (key v) ++
    (if d =? 0 then [] else "."%char :: replicate (N.to_nat d) "0"%char)).
Proof.
  intros Hv. unfold shows_int. rewrite sq_get_val, Hv. cbn [default].
  exists (Z_text (key v)). split; [apply Z_text_spec|done].
Qed.

Lemma shows_int_zero m d c r : num_has_decimal num = false -> sq_val m c r = None ->
  shows_int m d c r (txt "0" ++ (if num_has_decimal num || (0 <? d)
    then "."%char :: replicate (N.to_nat d) "0"%char else [])).
Proof.
  intros Hd Hv. unfold shows_int. rewrite sq_get_val, Hv. cbn [default]. rewrite (it_zero HT).
  by apply int_zero_text.
Qed.

(** No decimals requested. *)
Lemma int_prints_0 p o m : 65535 <= usize_max p -> sq_inv m ->
  num_has_decimal num = false -> (forall c r v, sq_val m c r = Some v -> in_type v) ->
  prints p (sq_dim m) 0 (shows_int m 0) (sq_to_string_with_precision p num o m 0).
Proof.
  intros Hp Hinv Hdec Hty. destruct (N.eq_dec (sq_dim m) 0) as [H0|Hn]; [by apply prints_empty|].
  destruct (sq_extremes num o m) as [hi lo] eqn:Hext.
  destruct (int_extremes o m hi lo Hty Hext) as (Hb & Hw & _).
  assert (sq_width num hi lo 0 = sq_width0 num hi lo) as Hww.
  { unfold sq_width. by rewrite Hdec. }
  apply (sq_string_prints p num o m 0 hi lo
    (fun v => pad_left (sq_width0 num hi lo) (Z_text (key v)))); try done; try lia.
  - intros c r v Hv.
    assert (length (pad_left (sq_width0 num hi lo) (Z_text (key v))) = N.to_nat (sq_width0 num hi lo)) as Hl.
    { rewrite pad_left_length. pose proof (Z_text_between _ _ _ (Hb c r v Hv)) as Hz.
      unfold sq_width0 in *. rewrite !(it_digits HT). lia. }
    rewrite Hww. split_and!.
    + unfold sq_cell_text, fmt_count. rewrite Hdec. cbn [negb andb N.ltb].
      change (0 <? 0) with false. cbv iota.
      destruct (N.leb_spec (sq_width0 num hi lo) 65535); [|lia]. cbn [obind].
      change (0 <=? 65535) with true. cbn [obind]. rewrite (it_text HT). done.
    + done.
    + apply pad_left_ascii, Z_text_ascii.
    + eexists _, _. split; [reflexivity|].
      pose proof (shows_int_stored m 0 c r v Hv) as Hs. by rewrite app_nil_r in Hs.
  - intros c r Hv. by apply shows_int_zero.
Qed.

(** With decimals, when the width of the integer part is the one the printer computes. *)
Lemma int_prints_d p o m d : 65535 <= usize_max p -> d + 44 <= usize_max p -> d <> 0 -> sq_inv m ->
  num_has_decimal num = false -> (forall c r v, sq_val m c r = Some v -> in_type v) ->
  (forall hi lo, sq_extremes num o m = (hi, lo) -> (exists c r v, sq_val m c r = Some v) ->
     num_digits num hi + (if num_lt num lo (num_zero num) then 1 else 0) = sq_width0 num hi lo) ->
  prints p (sq_dim m) d (shows_int m d) (sq_to_string_with_precision p num o m d).
Proof.
  intros Hp Hdp Hd0 Hinv Hdec Hty Hwidth.
  destruct (N.eq_dec (sq_dim m) 0) as [H0|Hn]; [by apply prints_empty|].
  destruct (sq_extremes num o m) as [hi lo] eqn:Hext.
  destruct (int_extremes o m hi lo Hty Hext) as (Hb & Hw & _).
  assert (sq_width num hi lo d = sq_width0 num hi lo + 1 + d) as Hww.
  { unfold sq_width. destruct (N.ltb_spec 0 d); [by rewrite orb_true_r|lia]. }
  apply (sq_string_prints p num o m d hi lo
    (fun v => pad_left (sq_width0 num hi lo) (Z_text (key v)) ++
              ["."%char] ++ replicate (N.to_nat d) "0"%char)); try done; try lia.
  - intros c r v Hv.
    assert (length (pad_left (sq_width0 num hi lo) (Z_text (key v))) = N.to_nat (sq_width0 num hi lo)) as Hl.
    { rewrite pad_left_length. pose proof (Z_text_between _ _ _ (Hb c r v Hv)) as Hz.
      unfold sq_width0 in *. rewrite !(it_digits HT). lia. }
    rewrite Hww. split_and!.
    + unfold sq_cell_text, fmt_count. rewrite Hdec. cbn [negb andb].
      destruct (N.ltb_spec 0 d); [|lia].
      specialize (Hwidth hi lo eq_refl ltac:(eauto)).
      assert ((if num_lt num lo (num_zero num) then num_digits num hi + 1 else num_digits num hi)
        = sq_width0 num hi lo) as ->.
      { rewrite <- Hwidth. destruct (num_lt num lo (num_zero num)); lia. }
      destruct (N.leb_spec (sq_width0 num hi lo) 65535); [|lia]. cbn [obind].
      rewrite (it_text HT). done.
    + rewrite !app_length, Hl, replicate_length. simpl. lia.
    + rewrite !utf8_app, replicate_ascii by done. rewrite pad_left_ascii by apply Z_text_ascii. done.
    + unfold pad_left. eexists _, _. split; [rewrite <- app_assoc; reflexivity|].
      pose proof (shows_int_stored m d c r v Hv) as Hs.
      destruct (N.eqb_spec d 0); [done|]. exact Hs.
  - intros c r Hv. by apply shows_int_zero.
Qed.

(** Printing integers never panics. *)
Lemma int_safe p o m d : 65535 <= usize_max p -> d + 44 <= usize_max p -> sq_inv m ->
  num_has_decimal num = false -> (forall c r v, sq_val m c r = Some v -> in_type v) ->
  exists r, sq_to_string_with_precision p num o m d = Ret r /\
    match r with Ok _ => True | Err e => exists msg, e = CapacityOverflow msg end.
Proof.
  intros Hp Hdp Hinv Hdec Hty.
  destruct (N.eq_dec d 0) as [->|Hd0].
  { destruct (int_prints_0 p o m Hp Hinv Hdec Hty) as (r & Hr & Hm). exists r. split; [done|].
    destruct r; [done|]. by destruct Hm. }
  destruct (N.eq_dec (sq_dim m) 0) as [H0|Hn].
  { eexists. split; [unfold sq_to_string_with_precision; rewrite H0; reflexivity|done]. }
  destruct (sq_extremes num o m) as [hi lo] eqn:Hext.
  destruct (int_extremes o m hi lo Hty Hext) as (Hb & Hw & Hst).
  assert (sq_width num hi lo d = sq_width0 num hi lo + 1 + d) as Hww.
  { unfold sq_width. destruct (N.ltb_spec 0 d); [by rewrite orb_true_r|lia]. }
  apply (sq_string_safe p num o m d hi lo); try done; try lia.
  { apply template_ascii. lia. }
  intros c r v Hv. rewrite Hww. unfold sq_cell_text, fmt_count. rewrite Hdec. cbn [negb andb].
  destruct (N.ltb_spec 0 d); [|lia].
  set (wd := if num_lt num lo (num_zero num) then _ else _).
  assert (num_digits num hi <= sq_width0 num hi lo) by (unfold sq_width0; lia).
  assert (wd <= sq_width0 num hi lo + 1) as Hwd.
  { subst wd. destruct (num_lt _ _ _); lia. }
  destruct (N.leb_spec wd 65535); [|lia]. cbn [obind].
  eexists. split; [reflexivity|]. rewrite (it_text HT). split.
  - rewrite !app_length, pad_left_length, replicate_length. simpl.
    pose proof (Z_text_between _ _ _ (Hb c r v Hv)) as Hz.
    assert (N.of_nat (length (Z_text (key v))) <= sq_width0 num hi lo).
    { unfold sq_width0. rewrite !(it_digits HT). lia. }
    lia.
  - rewrite !utf8_app, replicate_ascii by done. rewrite pad_left_ascii by apply Z_text_ascii. done.
Qed.
End Int.

Lemma Z_text_of_N n : Z_text (Z.of_N n) = N_text n.
Proof.
  unfold Z_text. destruct (Z.ltb_spec (Z.of_N n) 0); [lia|]. f_equal. lia.
Qed.

Lemma uint_type bits : bits <= 128 -> int_type (uint_numeric bits) Z.of_N.
Proof.
  intros Hb. constructor; simpl.
  - intros a b. destruct (N.ltb_spec b a), (Z.ltb_spec (Z.of_N b) (Z.of_N a)); lia.
  - intros a b. destruct (N.ltb_spec a b), (Z.ltb_spec (Z.of_N a) (Z.of_N b)); lia.
  - intros a. by rewrite Z_text_of_N.
  - intros _ a. by rewrite Z_text_of_N.
  - done.
  - assert (2 ^ bits <= 2 ^ 128) by (by apply N.pow_le_mono_r).
    assert (2 ^ bits <> 0) by (by apply N.pow_nonzero).
    change (2 ^ 128)%Z with (Z.of_N (2 ^ 128)). lia.
  - change (2 ^ 128)%Z with (Z.of_N (2 ^ 128)). pose proof (N.pow_nonzero 2 128). lia.
  - intros a b. lia.
Qed.

Lemma sint_type bits dec : (1 <= bits <= 128)%Z -> int_type (sint_numeric bits dec) (fun z => z).
Proof.
  intros Hb.
  assert (1 <= 2 ^ (bits - 1))%Z as H1 by (pose proof (Z.pow_pos_nonneg 2 (bits - 1)); lia).
  assert (2 ^ (bits - 1) <= 2 ^ 127)%Z as H2 by (apply Z.pow_le_mono_r; lia).
  assert (2 ^ 127 < 2 ^ 128)%Z as H3 by (by vm_compute).
  constructor; simpl; try done; lia.
Qed.
