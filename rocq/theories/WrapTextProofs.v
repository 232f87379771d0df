(** The square matrix printer when the width of a cell does not fit in usize. *)
From Coq Require Import ZArith Ascii String.
From Verif Require Import Base HashIter F64 Numeric Adj Sq Spec TextSpec Api AdjProofs GraphProofs
  SqProofs BitsProofs TextProofs SqTextProofs NumTextProofs SqShowProofs FloatTextProofs SqExactProofs.
Local Arguments N.mul : simpl never.
Local Arguments N.add : simpl never.
Local Arguments N.pow : simpl never.

Lemma add_wraps p a b : overflow_checks p = false ->
  usize_add p a b = Ret ((a + b) mod (usize_max p + 1)).
Proof.
  intros Ho. unfold usize_add. rewrite Ho. destruct (N.leb_spec (a + b) (usize_max p)); [|done].
  by rewrite N.mod_small by lia.
Qed.

Lemma sub_wraps p a b : overflow_checks p = false -> a <= usize_max p -> b <= usize_max p ->
  usize_sub p a b = Ret ((a + (usize_max p + 1) - b) mod (usize_max p + 1)).
Proof.
  intros Ho Ha Hb. unfold usize_sub. rewrite Ho. destruct (N.leb_spec b a); [|done].
  replace (a + (usize_max p + 1) - b) with (a - b + 1 * (usize_max p + 1)) by lia.
  rewrite N.mod_add by lia. by rewrite N.mod_small by lia.
Qed.

(** [a mod W] for [a] between W and 2 W. *)
Lemma mod_once W a : W <= a < 2 * W -> a mod W = a - W.
Proof.
  intros H. replace a with (a - W + 1 * W) at 1 by lia. rewrite N.mod_add by lia.
  by rewrite N.mod_small by lia.
Qed.

Definition wrapped_fits (p : platform) (n c : N) : bool :=
  (n * n <=? usize_max p) && (c * (n * n) + 4 * n <=? usize_max p) &&
  can_alloc p (c * (n * n) + 4 * n - 2).

Lemma text_size_any p n cpe : n <> 0 ->
  if (n * n <=? usize_max p) && (cpe * (n * n) + 4 * n <=? usize_max p)
  then sq_text_size p n cpe = Ok (n, cpe * (n * n) + 4 * n - 2)
  else exists msg, sq_text_size p n cpe = Err (CapacityOverflow msg).
Proof.
  intros Hn.
  unfold sq_text_size, usize_try_from, checked_mulU, checked_addU, checked_subU.
  destruct (N.leb_spec n (usize_max p)); cbn [ok_or rbind].
  2:{ destruct (N.leb_spec (n * n) (usize_max p)); [nia|]. cbn [andb]. eauto. }
  destruct (N.leb_spec (n * n) (usize_max p)); cbn [ok_or rbind andb]; [|eauto].
  destruct (N.leb_spec (4 * n) (usize_max p)); simpl.
  2:{ destruct (N.leb_spec (cpe * (n * n) + 4 * n) (usize_max p)); [nia|]. eauto. }
  destruct (N.leb_spec (cpe * (n * n)) (usize_max p)); simpl.
  2:{ destruct (N.leb_spec (cpe * (n * n) + 4 * n) (usize_max p)); [nia|]. eauto. }
  destruct (N.leb_spec (cpe * (n * n) + 4 * n) (usize_max p)); simpl; [|eauto].
  destruct (N.leb_spec 2 (cpe * (n * n) + 4 * n)); simpl; [done|nia].
Qed.

(** A text longer than the buffer does not fit anywhere in it. *)
Lemma put_long (t buf : text) pos : (length buf < length t)%nat -> ofold buf_put t (buf, pos) = Panic.
Proof.
  intros H. destruct (N.le_gt_cases pos (N.of_nat (length buf))).
  - rewrite <-(N2Nat.id pos). apply put_over; lia.
  - destruct t as [|x t]; [simpl in H; lia|]. cbn [ofold buf_put].
    by destruct (N.ltb_spec pos (N.of_nat (length buf))); [lia|].
Qed.

(** The template loop overruns a buffer shorter than one cell. *)
Lemma template_over p dim es lp (buf : list ascii) : dim <> 0 -> lp + 1 <= usize_max p ->
  N.of_nat (length buf) < es ->
  ofold (fun st row => sq_template_row p dim es lp row st) (range dim) (buf, 0) = Panic.
Proof.
  intros Hn Hlp Hlen.
  rewrite (ofold_ext _ (fun st row => ofold buf_put (row_text dim (fun _ _ => template_cell es lp) row ++
    (if negb (row =? dim - 1) then [cr; lf] else [])) st)).
  2:{ intros st row _. by apply template_row_put. }
  rewrite put_loop.
  rewrite (join_bind (fun row => row_text dim (fun _ _ => template_cell es lp) row)) by done.
  rewrite app_nil_r, <- matrix_text_rows.
  change 0 with (N.of_nat 0). apply put_over; [lia|].
  pose proof (matrix_text_length dim (fun _ _ => template_cell es lp) (N.to_nat es) Hn
    ltac:(intros; apply template_cell_length)) as Hl.
  rewrite N2Nat.id in Hl.
  assert (1 <= dim * dim) by nia.
  assert ((es + 2) * 1 <= (es + 2) * (dim * dim)) by (apply N.mul_le_mono_l; done).
  lia.
Qed.

Section Wrap.
Context {T : Type} (p : platform) (num : numeric T) (o : hash_order) (m : sq T) (d : N) (hi lo : T).
Hypothesis Hwf : wf_platform p.
Hypothesis Hn : sq_dim m <> 0.
Hypothesis Hext : sq_extremes num o m = (hi, lo).
Hypothesis Hw : 1 <= sq_width0 num hi lo <= 40.
Hypothesis Hd : d <= usize_max p.
Hypothesis Hbig : usize_max p < d + 44.

Let w := sq_width0 num hi lo.
Let n := sq_dim m.

Lemma wide_decimals : num_has_decimal num || (0 <? d) = true.
Proof.
  pose proof (wf_usize_min p Hwf). destruct (N.ltb_spec 0 d); [|lia]. by rewrite orb_true_r.
Qed.

(** Room for the width, but never for the text. *)
Lemma wide_capacity : w + d + 3 <= usize_max p ->
  exists msg, sq_to_string_with_precision p num o m d = Ret (Err (CapacityOverflow msg)).
Proof.
  intros Hfit. pose proof (wf_usize_min p Hwf) as Hmin. pose proof (sq_string_unfold p num o m d hi lo Hn Hext ltac:(lia) Hfit) as H.
  destruct (text_fits p (sq_dim m) (sq_width num hi lo d)) eqn:E; [|done].
  apply text_fits_spec in E as [E1 E2]. apply (wf_alloc p Hwf) in E2. exfalso.
  unfold text_size, sq_width in *. rewrite wide_decimals in *. fold w n in Hfit, E1, E2, Hw. fold n in Hn.
  assert (1 <= n * n) by nia. assert (n <= n * n) by nia.
  assert ((w + 1 + d + 2) * 1 <= (w + 1 + d + 2) * (n * n)) by (apply N.mul_le_mono_l; done).
  lia.
Qed.

Lemma wide_unfold : 
  sq_to_string_with_precision p num o m d =
    obind (obind (usize_add p 1 d) (usize_add p w)) (fun entry_size =>
    obind (obind (usize_add p 1 d) (usize_add p 1)) (fun smallest_entry_chars =>
    obind (usize_sub p entry_size smallest_entry_chars) (fun left_padding =>
    obind (usize_add p entry_size 2) (fun chars_per_entry =>
    match sq_text_size p (sq_dim m) chars_per_entry with
    | Err e => Ret (Err e)
    | Ok (dimension, buffer_size) =>
      if negb (can_alloc p buffer_size)
      then Ret (Err (CapacityOverflow "Unable to allocate matrix string"))
      else
        obind (ofold (fun st row =>
                        sq_template_row p (sq_dim m) entry_size left_padding row st)
                 (range (sq_dim m)) (replicate (N.to_nat buffer_size) "000"%char, 0))
          (fun st =>
        obind (obind (usize_mul p dimension chars_per_entry) (usize_add p 4))
          (fun chars_per_row =>
        obind (ofold (sq_write_cell p num hi lo entry_size d
                        chars_per_entry chars_per_row)
                 (sq_cells o m) st.1) (fun buffer =>
        Ret (if utf8_ok buffer then Ok buffer
             else Err (InvalidFormat "Generated matrix string was not UTF-8")))))
    end)))).
Proof.
  unfold sq_to_string_with_precision.
  destruct (N.eqb_spec (sq_dim m) 0) as [?|_]; [done|]. rewrite Hext.
  assert ((if num_digits num lo <? num_digits num hi then num_digits num hi else num_digits num lo)
    = w) as ->.
  { unfold w, sq_width0. destruct (N.ltb_spec (num_digits num lo) (num_digits num hi)); lia. }
  rewrite wide_decimals. done.
Qed.

(** Overflow checks. *)
Lemma wide_panic : usize_max p < w + d + 3 -> overflow_checks p = true ->
  sq_to_string_with_precision p num o m d = Panic.
Proof.
  intros Hwide Ho. rewrite wide_unfold. fold w in Hw. pose proof (wf_usize_min p Hwf).
  unfold usize_add. rewrite Ho.
  destruct (N.leb_spec (1 + d) (usize_max p)); cbn [obind]; [|done].
  destruct (N.leb_spec (w + (1 + d)) (usize_max p)); cbn [obind]; [|done].
  destruct (N.leb_spec (1 + (1 + d)) (usize_max p)); cbn [obind]; [|done].
  unfold usize_sub. destruct (N.leb_spec (1 + (1 + d)) (w + (1 + d))); [|lia]. cbn [obind].
  destruct (N.leb_spec (w + (1 + d) + 2) (usize_max p)); [lia|]. done.
Qed.

(** No overflow checks: the width wraps around. *)
Lemma wide_wraps : usize_max p < w + d + 3 -> overflow_checks p = false -> 65535 < d ->
  let c := w + d + 3 - (usize_max p + 1) in
  if wrapped_fits p n c then
    if c <? 2 then sq_to_string_with_precision p num o m d = Panic
    else (sq_cells o m <> [] -> sq_to_string_with_precision p num o m d = Panic) /\
      (sq_cells o m = [] -> sq_to_string_with_precision p num o m d =
         Ret (Ok (matrix_text n (fun _ _ => template_cell (c - 2) (w - 1)))))
  else exists msg, sq_to_string_with_precision p num o m d = Ret (Err (CapacityOverflow msg)).
Proof.
  intros Hwide Ho Hd16 c. rewrite wide_unfold. fold w in Hw. pose proof (wf_usize_min p Hwf) as Hmin.
  rewrite !(add_wraps p) by done. cbn [obind].
  set (W := usize_max p + 1) in *.
  assert (W <> 0) as HW by lia.
  rewrite !(add_wraps p) by done. cbn [obind]. fold W. rewrite !N.add_mod_idemp_r by done.
  assert (forall x, x mod W <= usize_max p) as Hm.
  { intros x. pose proof (N.mod_lt x W HW). lia. }
  rewrite sub_wraps by done. cbn [obind]. fold W.
  assert (((w + (1 + d)) mod W + W - (1 + (1 + d)) mod W) mod W = w - 1) as ->.
  { destruct (decide (W <= 1 + (1 + d))).
    - rewrite (mod_once W (w + (1 + d))), (mod_once W (1 + (1 + d))) by lia.
      rewrite mod_once by lia. lia.
    - rewrite (N.mod_small (1 + (1 + d))) by lia. destruct (decide (W <= w + (1 + d))).
      + rewrite (mod_once W (w + (1 + d))) by lia. rewrite N.mod_small by lia. lia.
      + rewrite (N.mod_small (w + (1 + d))) by lia. rewrite mod_once by lia. lia. }
  rewrite (add_wraps p) by done. cbn [obind]. fold W. rewrite N.add_mod_idemp_l by done.
  assert ((w + (1 + d) + 2) mod W = c) as ->.
  { rewrite mod_once by lia. unfold c. lia. }
  pose proof (text_size_any p n c Hn) as Hs. unfold wrapped_fits. fold n in Hs |- *.
  destruct ((n * n <=? usize_max p) && (c * (n * n) + 4 * n <=? usize_max p)) eqn:Ef; cbn [andb].
  2:{ destruct Hs as [msg ->]. by exists msg. }
  rewrite Hs. destruct (can_alloc p _) eqn:Ea; cbn [negb]; [|by eexists].
  apply andb_true_iff in Ef as [F1%N.leb_le F2%N.leb_le].
  apply (wf_alloc p Hwf) in Ea.
  destruct (N.ltb_spec c 2) as [Hc|Hc].
  - rewrite template_over; [done|done|lia|].
    rewrite replicate_length, N2Nat.id. rewrite N.mod_small by lia. unfold c in *. lia.
  - assert ((w + (1 + d)) mod W = c - 2) as ->.
    { rewrite mod_once by (unfold c in *; lia). unfold c. lia. }
    assert (n <= n * n) as Hnn by nia.
    assert (n * c <= c * (n * n)) as Hnc.
    { rewrite (N.mul_comm n c). by apply N.mul_le_mono_l. }
    rewrite template_fill; [|done|lia|].
    2:{ rewrite replicate_length. apply Nat2N.inj. rewrite N2Nat.id.
        rewrite (matrix_text_length _ _ (N.to_nat (c - 2))); [rewrite N2Nat.id|done|].
        - by replace (c - 2 + 2) with c by lia.
        - intros. apply template_cell_length. }
    cbn [obind fst].
    assert (usize_mul p n c = Ret (n * c)) as ->.
    { unfold usize_mul. destruct (N.leb_spec (n * c) (usize_max p)); [done|]. lia. }
    cbn [obind].
    assert (usize_add p 4 (n * c) = Ret (4 + n * c)) as ->.
    { unfold usize_add. destruct (N.leb_spec (4 + n * c) (usize_max p)); [done|]. lia. }
    cbn [obind].
    destruct (sq_cells o m) as [|[[c' r'] v'] l] eqn:E.
    + split; [done|]. intros _. cbn [ofold obind].
      assert (utf8_ok (matrix_text n (fun _ _ => template_cell (c - 2) (w - 1))) = true) as ->; [|done].
      apply matrix_text_ascii. intros. unfold template_cell, utf8_ok. apply forallb_forall.
      intros x (i & -> & _)%elem_of_list_In%elem_of_list_fmap.
      by destruct (i <? w - 1), (i =? w - 1 + 1).
    + split; [|done]. intros _. cbn [ofold]. unfold sq_write_cell.
      assert (forall x y, usize_mul p x y = Ret ((x * y) mod W)) as Hmul.
      { intros x y. unfold usize_mul. rewrite Ho.
        destruct (N.leb_spec (x * y) (usize_max p)); [|done]. by rewrite N.mod_small by lia. }
      rewrite !Hmul. cbn [obind]. rewrite !(add_wraps p) by done. cbn [obind].
      rewrite !(add_wraps p) by done. cbn [obind].
      unfold sq_cell_text. destruct (num_has_decimal num); cbn [negb andb].
      * unfold fmt_count. destruct (N.leb_spec (c - 2) 65535); cbn [obind]; [|done].
        destruct (N.leb_spec d 65535); [lia|done].
      * destruct (N.ltb_spec 0 d); [|lia].
        match goal with |- context [fmt_count ?k] => destruct (fmt_count k) as [k'| |] eqn:Ek end;
          cbn [obind]; [|done|by unfold fmt_count in Ek; destruct (_ <=? _)].
        rewrite put_long; [done|]. rewrite !app_length, replicate_length. cbn [length].
        pose proof (matrix_text_length n (fun _ _ => template_cell (c - 2) (w - 1)) (N.to_nat (c - 2)) Hn
          ltac:(intros; apply template_cell_length)) as HL. rewrite N2Nat.id in HL.
        replace (c - 2 + 2) with c in HL by lia. lia.
Qed.
End Wrap.
