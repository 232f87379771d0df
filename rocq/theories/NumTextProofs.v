(** Texts of numbers: digits, widths, and the cells of the printer's template. *)
From Coq Require Import ZArith Ascii String.
From Verif Require Import Base HashIter F64 Numeric Adj Sq Spec TextSpec Api AdjProofs GraphProofs
  SqProofs BitsProofs TextProofs SqTextProofs.
Local Arguments N.mul : simpl never.
Local Arguments N.add : simpl never.
Local Arguments N.pow : simpl never.

Lemma digit_char_val d : d < 10 -> is_digit (digit_char d) = true /\
  N_of_ascii (digit_char d) - 48 = d /\ (digit_char d = "0"%char -> d = 0).
Proof.
  intros Hd.
  assert (N_of_ascii (digit_char d) = 48 + d) as H.
  { unfold digit_char. apply N_ascii_embedding. lia. }
  unfold is_digit. rewrite H. split_and!.
  - apply andb_true_iff; split; apply N.leb_le; lia.
  - lia.
  - intros Hz. rewrite Hz in H. change (N_of_ascii "0") with 48 in H. lia.
Qed.

Lemma digits_value_app a b : digits_value (a ++ b) =
  digits_value a * 10 ^ N.of_nat (length b) + digits_value b.
Proof.
  unfold digits_value. rewrite fold_left_app.
  set (x := fold_left _ a 0). clearbody x. clear a.
  cut (forall x y, fold_left (fun n a => 10 * n + (N_of_ascii a - 48)) b (x + y) =
    x * 10 ^ N.of_nat (length b) + fold_left (fun n a => 10 * n + (N_of_ascii a - 48)) b y).
  { intros H. rewrite <- (N.add_0_r x) at 1. apply H. }
  induction b as [|c b IH]; intros x0 y0; cbn [fold_left length].
  - change (N.of_nat 0) with 0. rewrite N.pow_0_r. lia.
  - rewrite Nat2N.inj_succ, N.pow_succ_r'.
    replace (10 * (x0 + y0) + (N_of_ascii c - 48)) with
      (10 * x0 + (10 * y0 + (N_of_ascii c - 48))) by lia.
    rewrite IH. lia.
Qed.

Lemma digits_value_single c : digits_value [c] = N_of_ascii c - 48.
Proof. unfold digits_value. simpl. lia. Qed.

(** The digits of [n], prefixed to [acc]. *)
Lemma digits_loop_spec fuel n acc : n < 10 ^ N.of_nat fuel -> fuel <> 0%nat ->
  exists t, digits_loop fuel n acc = t ++ acc /\ decimal t n /\
    n < 10 ^ N.of_nat (length t) /\ (length t = 1%nat \/ 10 ^ (N.of_nat (length t) - 1) <= n).
Proof.
  revert n acc. induction fuel as [|fuel IH]; intros n acc Hn Hf; [done|]. cbn [digits_loop].
  destruct (N.ltb_spec n 10) as [Hlt|Hge].
  - exists [digit_char n]. destruct (digit_char_val n Hlt) as (H1 & H2 & H3).
    split_and!; [done| | |by left].
    + unfold decimal. rewrite digits_value_single. simpl. rewrite H1. split_and!; try done.
      intros [= H]. by rewrite (H3 H).
    + by change (10 ^ N.of_nat (length [digit_char n])) with 10.
  - assert (n / 10 <> 0) as Hnz.
    { intros H. apply N.div_small_iff in H; lia. }
    assert (n / 10 < 10 ^ N.of_nat fuel) as Hn'.
    { apply N.div_lt_upper_bound; [done|]. rewrite Nat2N.inj_succ, N.pow_succ_r' in Hn. lia. }
    assert (fuel <> 0%nat) as Hf'.
    { intros ->. change (10 ^ N.of_nat 0) with 1 in Hn'. lia. }
    destruct (IH (n / 10) (digit_char (n mod 10) :: acc) Hn' Hf') as (t & Heq & Hdec & Hlt & Hlen).
    assert (n mod 10 < 10) as Hmod by by apply N.mod_lt.
    destruct (digit_char_val _ Hmod) as (H1 & H2 & H3).
    pose proof (N.div_mod n 10 ltac:(done)) as Hdm.
    exists (t ++ [digit_char (n mod 10)]). split_and!.
    + rewrite Heq. by rewrite <- app_assoc.
    + destruct Hdec as (Hd1 & Hd2 & Hd3 & Hd4). unfold decimal. split_and!.
      * rewrite forallb_app, Hd1. simpl. by rewrite H1.
      * rewrite digits_value_app, Hd2, digits_value_single, H2.
        change (10 ^ N.of_nat (length [digit_char (n mod 10)])) with 10. lia.
      * by destruct t.
      * destruct t as [|x t]; [done|]. simpl. intros Hh. destruct (Hd4 Hh). lia.
    + rewrite app_length, Nat2N.inj_add, N.pow_add_r. simpl length.
      change (10 ^ N.of_nat 1) with 10. nia.
    + right. rewrite app_length. simpl length.
      assert (length t <> 0%nat). { destruct Hdec as (_ & _ & Hne & _). by destruct t. }
      replace (N.of_nat (length t + 1) - 1) with (N.succ (N.of_nat (length t) - 1)) by lia.
      rewrite N.pow_succ_r'. destruct Hlen as [Hl|Hl]; [|lia].
      rewrite Hl. change (10 ^ (N.of_nat 1 - 1)) with 1. lia.
Qed.

Lemma N_text_spec n : decimal (N_text n) n /\ n < 10 ^ N.of_nat (length (N_text n)) /\
  (length (N_text n) = 1%nat \/ 10 ^ (N.of_nat (length (N_text n)) - 1) <= n).
Proof.
  unfold N_text.
  destruct (digits_loop_spec (S (N.to_nat (N.log2 n))) n []) as (t & Heq & Hd & H1 & H2).
  - rewrite Nat2N.inj_succ, N2Nat.id. destruct (N.eq_dec n 0) as [->|Hn].
    + by vm_compute.
    + eapply N.lt_le_trans; [apply N.log2_spec; lia|]. apply N.pow_le_mono_l. lia.
  - done.
  - rewrite app_nil_r in Heq. rewrite Heq. done.
Qed.

Lemma N_text_length n : (1 <= length (N_text n))%nat.
Proof. destruct (N_text_spec n) as ((_ & _ & Hne & _) & _). destruct (N_text n); simpl; [done|lia]. Qed.

Lemma N_text_mono a b : a <= b -> (length (N_text a) <= length (N_text b))%nat.
Proof.
  intros Hab. destruct (N_text_spec a) as (_ & _ & Ha). destruct (N_text_spec b) as (_ & Hb & _).
  pose proof (N_text_length b). destruct Ha as [Ha|Ha]; [lia|].
  destruct (Nat.le_gt_cases (length (N_text a)) (length (N_text b))) as [?|Hgt]; [done|].
  assert (10 ^ N.of_nat (length (N_text b)) <= 10 ^ (N.of_nat (length (N_text a)) - 1)) as Hp.
  { apply N.pow_le_mono_r; [done|lia]. }
  lia.
Qed.

Lemma N_text_bound n k : n < 10 ^ k -> k <> 0 -> N.of_nat (length (N_text n)) <= k.
Proof.
  intros Hn Hk. destruct (N_text_spec n) as (_ & _ & [Ha|Ha]); [lia|].
  destruct (N.le_gt_cases (N.of_nat (length (N_text n))) k) as [?|Hgt]; [done|].
  assert (10 ^ k <= 10 ^ (N.of_nat (length (N_text n)) - 1)) by (apply N.pow_le_mono_r; [done|lia]).
  lia.
Qed.

Lemma Z_text_spec z : signed_decimal (Z_text z) z.
Proof.
  exists (N_text (Z.abs_N z)). split; [apply N_text_spec|]. unfold Z_text. by destruct (z <? 0)%Z.
Qed.

Lemma Z_text_length z : (1 <= length (Z_text z))%nat.
Proof. pose proof (N_text_length (Z.abs_N z)). unfold Z_text. destruct (z <? 0)%Z; simpl; lia. Qed.

Lemma Z_text_bound z k : (Z.abs_N z < 10 ^ k) -> k <> 0 -> N.of_nat (length (Z_text z)) <= k + 1.
Proof.
  intros Hz Hk. pose proof (N_text_bound _ _ Hz Hk). unfold Z_text. destruct (z <? 0)%Z; simpl; lia.
Qed.

(** Between two integers, no text is longer than the longer of theirs. *)
Lemma Z_text_between lo z hi : (lo <= z <= hi)%Z ->
  (length (Z_text z) <= Nat.max (length (Z_text hi)) (length (Z_text lo)))%nat.
Proof.
  intros Hz. unfold Z_text. destruct (Z.ltb_spec z 0), (Z.ltb_spec lo 0), (Z.ltb_spec hi 0); try lia; simpl.
  - pose proof (N_text_mono (Z.abs_N z) (Z.abs_N lo) ltac:(lia)). lia.
  - pose proof (N_text_mono (Z.abs_N z) (Z.abs_N lo) ltac:(lia)). lia.
  - pose proof (N_text_mono (Z.abs_N z) (Z.abs_N hi) ltac:(lia)). lia.
  - pose proof (N_text_mono (Z.abs_N z) (Z.abs_N hi) ltac:(lia)). lia.
Qed.

(** ** ASCII *)

Lemma utf8_app a b : utf8_ok (a ++ b) = utf8_ok a && utf8_ok b.
Proof. unfold utf8_ok. apply forallb_app. Qed.

Lemma digits_ascii t : forallb is_digit t = true -> utf8_ok t = true.
Proof.
  intros H. unfold utf8_ok. rewrite forallb_forall in *. intros x Hx. specialize (H x Hx).
  unfold is_digit in H. apply andb_true_iff in H as [_ H]. apply N.leb_le in H. apply N.ltb_lt. lia.
Qed.

Lemma replicate_ascii k a : N_of_ascii a < 128 -> utf8_ok (replicate k a) = true.
Proof.
  intros H. unfold utf8_ok. rewrite forallb_forall. intros x Hx. apply elem_of_list_In in Hx.
  apply elem_of_replicate in Hx as [-> _]. by apply N.ltb_lt.
Qed.

Lemma N_text_digits n : forallb is_digit (N_text n) = true.
Proof. apply N_text_spec. Qed.

Lemma N_text_ascii n : utf8_ok (N_text n) = true.
Proof. apply digits_ascii, N_text_digits. Qed.

Lemma Z_text_ascii z : utf8_ok (Z_text z) = true.
Proof.
  pose proof (N_text_ascii (Z.abs_N z)) as H. unfold Z_text. destruct (z <? 0)%Z; [|done].
  change ("-"%char :: N_text (Z.abs_N z)) with (["-"%char] ++ N_text (Z.abs_N z)).
  by rewrite utf8_app, H.
Qed.

Lemma pad_left_ascii w t : utf8_ok t = true -> utf8_ok (pad_left w t) = true.
Proof. intros H. unfold pad_left. rewrite utf8_app, H, replicate_ascii; done. Qed.

Lemma pad_left_length w t : length (pad_left w t) = Nat.max (N.to_nat w) (length t).
Proof. unfold pad_left. rewrite app_length, replicate_length. lia. Qed.

Lemma join_ascii sep l : utf8_ok sep = true -> (forall t, t ∈ l -> utf8_ok t = true) ->
  utf8_ok (join sep l) = true.
Proof.
  intros Hs. induction l as [|x l IH]; intros Hl; [done|].
  assert (utf8_ok x = true) as Hx by (apply Hl; left).
  destruct l as [|y l]; [done|]. rewrite join_cons, !utf8_app, Hx, Hs. cbn [andb].
  apply IH. intros t Ht. apply Hl. by right.
Qed.

Lemma matrix_text_ascii n cell : (forall c r, c < n -> r < n -> utf8_ok (cell c r) = true) ->
  utf8_ok (matrix_text n cell) = true.
Proof.
  intros H. rewrite matrix_text_rows. apply join_ascii; [done|].
  intros t Ht. apply elem_of_list_fmap in Ht as (r & -> & Hr). apply elem_of_range in Hr.
  unfold row_text. rewrite !utf8_app. cbn [andb]. rewrite join_ascii; [done|done|].
  intros t Ht. apply elem_of_list_fmap in Ht as (c & -> & Hc). apply elem_of_range in Hc. auto.
Qed.

(** ** Template cells *)

Lemma range_add a b : range (a + b) = range a ++ ((fun i => a + i) <$> range b).
Proof.
  unfold range. rewrite N2Nat.inj_add, seq_app, fmap_app. f_equal.
  rewrite Nat.add_0_l. rewrite <- list_fmap_compose.
  rewrite <- (Nat.add_0_r (N.to_nat a)), <- fmap_add_seq, <- list_fmap_compose.
  apply list_fmap_ext. intros i x _. simpl. lia.
Qed.

Lemma fmap_const {A B} (f : A -> B) l b : (forall x, x ∈ l -> f x = b) -> f <$> l = replicate (length l) b.
Proof.
  induction l as [|x l IH]; intros H; [done|]. simpl. rewrite H by left. f_equal. apply IH.
  intros y Hy. apply H. by right.
Qed.

Lemma template_integer lp : template_cell (lp + 1) lp = replicate (N.to_nat lp) " "%char ++ txt "0".
Proof.
  unfold template_cell. rewrite range_add, fmap_app. f_equal.
  - rewrite (fmap_const _ _ " "%char), length_range; [done|].
    intros x Hx. apply elem_of_range in Hx. destruct (N.ltb_spec x lp); [done|lia].
  - change (range 1) with [0]. simpl.
    destruct (N.ltb_spec (lp + 0) lp); [lia|]. destruct (N.eqb_spec (lp + 0) (lp + 1)); [lia|done].
Qed.

Lemma template_decimal lp d : template_cell (lp + 2 + d) lp =
  replicate (N.to_nat lp) " "%char ++ txt "0." ++ replicate (N.to_nat d) "0"%char.
Proof.
  unfold template_cell. rewrite range_add, fmap_app, range_add, fmap_app, <- app_assoc. f_equal; [|f_equal].
  - rewrite (fmap_const _ _ " "%char), length_range; [done|].
    intros x Hx. apply elem_of_range in Hx. destruct (N.ltb_spec x lp); [done|lia].
  - change (range 2) with [0; 1]. simpl.
    destruct (N.ltb_spec (lp + 0) lp); [lia|]. destruct (N.eqb_spec (lp + 0) (lp + 1)); [lia|].
    destruct (N.ltb_spec (lp + 1) lp); [lia|]. by rewrite N.eqb_refl.
  - rewrite <- list_fmap_compose, (fmap_const _ _ "0"%char), length_range; [done|].
    intros x Hx. simpl. destruct (N.ltb_spec (lp + 2 + x) lp); [lia|].
    destruct (N.eqb_spec (lp + 2 + x) (lp + 1)); [lia|done].
Qed.

(** ** Extreme values *)

Section Extremes.
Context {T : Type} (num : numeric T) (dom : T -> Prop) (good : T -> bool) (key : T -> Z).
(** Values that are not [good] compare false with everything. *)
Hypothesis key_gt : forall a b, dom a -> good b = true -> num_gt num a b = good a && (key b <? key a)%Z.
Hypothesis key_lt : forall a b, dom a -> good b = true -> num_lt num a b = good a && (key a <? key b)%Z.

Lemma extremes_fold (l : list (N * N * T)) hi lo hi' lo' :
  (forall c r v, (c, r, v) ∈ l -> dom v) -> good hi = true -> good lo = true ->
  fold_left (fun '(highest, lowest) '(_, _, val) =>
     (if num_gt num val highest then val else highest,
      if num_lt num val lowest then val else lowest)) l (hi, lo) = (hi', lo') ->
  good hi' = true /\ good lo' = true /\
  (key hi <= key hi')%Z /\ (key lo' <= key lo)%Z /\
  (forall c r v, (c, r, v) ∈ l -> good v = true -> (key lo' <= key v <= key hi')%Z) /\
  (hi' = hi \/ exists c r, (c, r, hi') ∈ l) /\ (lo' = lo \/ exists c r, (c, r, lo') ∈ l).
Proof.
  revert hi lo. induction l as [|[[c r] v] l IH]; intros hi lo Hdom Hhi Hlo; cbn [fold_left].
  - intros [= <- <-]. split_and!; try lia; try done; [|by left|by left].
    intros c r v Hin. by apply elem_of_nil in Hin.
  - assert (forall c r v, (c, r, v) ∈ l -> dom v) as Hdom'.
    { intros c' r' v' Hin. apply (Hdom c' r'). by right. }
    assert (dom v) as Hdv by (apply (Hdom c r); left).
    intros H. rewrite key_gt, key_lt in H by done.
    destruct (good v) eqn:Hv; cbn [andb] in H.
    2:{ apply IH in H as (Hh' & Hl' & H1 & H2 & H3 & H4 & H5); [|done|done|done].
        split_and!; try done.
        - intros c' r' v' Hin Hv'. apply elem_of_cons in Hin as [[= -> -> ->]|Hin]; [congruence|eauto].
        - destruct H4 as [->|(c' & r' & Hin)]; [by left|right; exists c', r'; by right].
        - destruct H5 as [->|(c' & r' & Hin)]; [by left|right; exists c', r'; by right]. }
    destruct (Z.ltb_spec (key hi) (key v)) as [C1|C1], (Z.ltb_spec (key v) (key lo)) as [C2|C2];
      apply IH in H as (Hh' & Hl' & H1 & H2 & H3 & H4 & H5); try done; split_and!; try done; try lia.
    all: try (intros c' r' v' Hin Hv'; apply elem_of_cons in Hin as [[= -> -> ->]|Hin]; [lia|eauto]).
    all: first
      [ destruct H4 as [->|(c' & r' & Hin)]; [by (left; done) || (right; exists c, r; left)|right; exists c', r'; by right]
      | destruct H5 as [->|(c' & r' & Hin)]; [by (left; done) || (right; exists c, r; left)|right; exists c', r'; by right] ].
Qed.

Lemma extremes_spec o m hi lo :
  (forall c r v, sq_val m c r = Some v -> dom v) ->
  good (num_zero num) = true -> good (num_min num) = true -> good (num_max num) = true ->
  sq_extremes num o m = (hi, lo) ->
  good hi = true /\ good lo = true /\
  (forall c r v, sq_val m c r = Some v -> good v = true -> (key lo <= key v <= key hi)%Z) /\
  (hi = num_zero num \/ hi = num_min num \/ exists c r, sq_val m c r = Some hi) /\
  (lo = num_max num \/ exists c r, sq_val m c r = Some lo) /\
  ((exists c r v, sq_val m c r = Some v) ->
   (key (num_min num) <= key hi)%Z /\ (key lo <= key (num_max num))%Z /\
   (hi = num_min num \/ exists c r, sq_val m c r = Some hi)).
Proof.
  intros Hdom Gz Gmin Gmax.
  unfold sq_extremes. destruct (Nat.eqb_spec (length (ord_map o _ None (sq_tab m))) 0) as [H0|H0].
  - intros [= <- <-].
    assert (forall c r v, sq_val m c r = Some v -> False) as Hno.
    { intros c r v Hv. apply (elem_of_sq_cells o) in Hv. unfold sq_cells in Hv.
      apply nil_length_inv in H0. rewrite H0 in Hv. by apply elem_of_nil in Hv. }
    split_and!; [done|done| |by left|by left|].
    + intros c r v Hv. destruct (Hno c r v Hv).
    + intros (c & r & v & Hv). destruct (Hno c r v Hv).
  - intros H. apply extremes_fold in H as (Hh' & Hl' & H1 & H2 & H3 & H4 & H5); [| |done|done].
    2:{ intros c r v Hin. apply elem_of_sq_cells in Hin. eauto. }
    split_and!; [done|done| | | |].
    + intros c r v Hv. apply (H3 c r). by apply elem_of_sq_cells.
    + right. destruct H4 as [->|(c & r & Hin)]; [by left|]. right. exists c, r.
      by apply elem_of_sq_cells in Hin.
    + destruct H5 as [->|(c & r & Hin)]; [by left|]. right. exists c, r.
      by apply elem_of_sq_cells in Hin.
    + intros _. split_and!; [done|done|]. destruct H4 as [->|(c & r & Hin)]; [by left|].
      right. exists c, r. by apply elem_of_sq_cells in Hin.
Qed.
End Extremes.
