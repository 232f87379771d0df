(** Bits, popcounts, ranges and counted loops. *)
From Verif Require Import Base Compressed Spec AdjProofs.

(** ** Ranges *)

Lemma elem_of_range n x : x ∈ range n <-> x < n.
Proof.
  unfold range. rewrite elem_of_list_fmap. split.
  - intros (i & -> & Hi). apply elem_of_seq in Hi. lia.
  - intros H. exists (N.to_nat x). split; [lia|]. apply elem_of_seq. lia.
Qed.

Lemma NoDup_range n : NoDup (range n).
Proof. unfold range. apply NoDup_fmap_2; [intros ? ?; lia|]. apply NoDup_seq. Qed.

Lemma length_range n : length (range n) = N.to_nat n.
Proof. unfold range. by rewrite fmap_length, seq_length. Qed.

Lemma range_S n : range (n + 1) = range n ++ [n].
Proof.
  unfold range. rewrite N2Nat.inj_add. change (N.to_nat 1) with 1%nat.
  rewrite Nat.add_1_r, seq_S, fmap_app. simpl. by rewrite N2Nat.id.
Qed.

Lemma range_0 : range 0 = [].
Proof. done. Qed.

(** ** Counted loops *)

Lemma ofold_app {A B} (f : B -> A -> outcome B) l1 l2 b :
  ofold f (l1 ++ l2) b = obind (ofold f l1 b) (ofold f l2).
Proof.
  revert b. induction l1 as [|a l1 IH]; intros b; simpl; [done|].
  destruct (f b a); simpl; auto.
Qed.

Lemma ofold_range_inv {B} (I : N -> B -> Prop) (f : B -> N -> outcome B) n b :
  I 0 b ->
  (forall i b, i < n -> I i b -> exists b', f b i = Ret b' /\ I (i + 1) b') ->
  exists b', ofold f (range n) b = Ret b' /\ I n b'.
Proof.
  intros H0 Hstep. induction n as [|n IH] using N.peano_ind.
  - exists b. done.
  - destruct IH as (b1 & Hb1 & HI1); [intros; apply Hstep; [lia|done]|].
    destruct (Hstep n b1) as (b2 & Hb2 & HI2); [lia|done|].
    exists b2. rewrite <- N.add_1_r, range_S, ofold_app, Hb1. simpl. rewrite Hb2. simpl.
    split; [done|]. done.
Qed.

(** ** Popcount *)

Lemma pos_ones_card x : has_card (fun n => N.testbit (Npos x) n = true) (pos_ones x).
Proof.
  induction x as [x IH|x IH|].
  - destruct IH as (l & Hnd & Hl & Hlen).
    exists (0 :: (N.succ <$> l)). split_and!.
    + constructor.
      * intros Hin. apply elem_of_list_fmap in Hin as (y & Hy & _). lia.
      * apply NoDup_fmap_2; [intros ? ?; lia|done].
    + intros n. rewrite elem_of_cons, elem_of_list_fmap. split.
      * intros [->|(y & -> & Hy)]; [done|]. apply Hl in Hy.
        change (Npos x~1) with (2 * Npos x + 1). by rewrite N.testbit_odd_succ by lia.
      * intros H. destruct n as [|n] using N.peano_ind; [by left|]. right.
        exists n. split; [done|]. apply Hl.
        change (Npos x~1) with (2 * Npos x + 1) in H. by rewrite N.testbit_odd_succ in H by lia.
    + simpl. rewrite fmap_length. simpl in *. lia.
  - destruct IH as (l & Hnd & Hl & Hlen).
    exists (N.succ <$> l). split_and!.
    + apply NoDup_fmap_2; [intros ? ?; lia|done].
    + intros n. rewrite elem_of_list_fmap. split.
      * intros (y & -> & Hy). apply Hl in Hy.
        change (Npos x~0) with (2 * Npos x). by rewrite N.testbit_even_succ by lia.
      * intros H. destruct n as [|n] using N.peano_ind; [done|].
        exists n. split; [done|]. apply Hl.
        change (Npos x~0) with (2 * Npos x) in H. by rewrite N.testbit_even_succ in H by lia.
    + simpl. rewrite fmap_length. simpl in *. lia.
  - exists [0]. split_and!.
    + apply NoDup_singleton.
    + intros n. rewrite elem_of_list_singleton. split; [by intros ->|].
      destruct n; [done|]. simpl. by destruct p.
    + done.
Qed.

(** [count_ones] counts the set bits. *)
Lemma count_ones_card x : has_card (fun n => N.testbit x n = true) (count_ones x).
Proof.
  destruct x as [|x]; [|apply pos_ones_card].
  exists []. split_and!; [constructor| |done]. intros n. rewrite elem_of_nil, N.bits_0. done.
Qed.

Lemma land_pow2 w i : (N.land w (2 ^ i) =? 2 ^ i) = N.testbit w i.
Proof.
  destruct (N.testbit w i) eqn:E.
  - apply N.eqb_eq. apply N.bits_inj. intros n. rewrite N.land_spec, N.pow2_bits_eqb.
    destruct (N.eqb_spec i n) as [->|]; [by rewrite E|]. by rewrite andb_false_r.
  - apply N.eqb_neq. intros H.
    assert (N.testbit (N.land w (2 ^ i)) i = true) as Hb
      by (rewrite H; apply N.pow2_bits_true).
    rewrite N.land_spec, E in Hb. done.
Qed.

Lemma shiftr_land_1 w i : (N.land (N.shiftr w i) 1 =? 1) = N.testbit w i.
Proof.
  change 1 with (2 ^ 0). rewrite land_pow2, N.shiftr_spec by lia. by rewrite N.add_0_l.
Qed.

Lemma shiftr_land_0 w i : (N.land (N.shiftr w i) 1 =? 0) = negb (N.testbit w i).
Proof.
  rewrite <- shiftr_land_1.
  assert (N.land (N.shiftr w i) 1 < 2) as H.
  { change 1 with (N.ones 1). rewrite N.land_ones. apply N.mod_lt. done. }
  destruct (N.eqb_spec (N.land (N.shiftr w i) 1) 0) as [->|Hn]; [done|].
  assert (N.land (N.shiftr w i) 1 = 1) as -> by lia. done.
Qed.

Lemma testbit_small w n i : w < 2 ^ n -> n <= i -> N.testbit w i = false.
Proof.
  intros Hw Hi. destruct (N.eq_dec w 0) as [->|Hz]; [apply N.bits_0|].
  apply N.bits_above_log2. apply N.log2_lt_pow2; [lia|].
  eapply N.lt_le_trans; [done|]. apply N.pow_le_mono_r; lia.
Qed.

Lemma small_testbit w n : (forall i, n <= i -> N.testbit w i = false) -> w < 2 ^ n.
Proof.
  intros H. destruct (N.eq_dec w 0) as [->|Hz].
  - apply N.neq_0_lt_0, N.pow_nonzero. done.
  - destruct (N.lt_ge_cases w (2 ^ n)) as [|Hge]; [done|]. exfalso.
    assert (n <= N.log2 w) as Hl by (apply N.log2_le_pow2; lia).
    pose proof (H (N.log2 w) Hl) as Hb. rewrite N.bit_log2 in Hb; done.
Qed.

(** Word with the given 64 bits. *)
Definition word_of (f : N -> bool) : N :=
  fold_left (fun acc t => if f t then N.lor acc (2 ^ t) else acc) (range 64) 0.

Lemma word_fold_bits (f : N -> bool) n i :
  N.testbit (fold_left (fun acc t => if f t then N.lor acc (2 ^ t) else acc) (range n) 0) i
  = (i <? n) && f i.
Proof.
  induction n as [|n IH] using N.peano_ind.
  - rewrite range_0. simpl. destruct i; done.
  - rewrite <- N.add_1_r, range_S, fold_left_app. simpl.
    destruct (f n) eqn:Ef.
    + rewrite N.lor_spec, IH, N.pow2_bits_eqb.
      destruct (N.eqb_spec n i) as [->|Hne].
      * rewrite Ef. rewrite orb_true_r.
        destruct (N.ltb_spec i (i + 1)); [done|lia].
      * rewrite orb_false_r. destruct (N.ltb_spec i n), (N.ltb_spec i (n + 1)); (done || lia).
    + rewrite IH. destruct (N.ltb_spec i n), (N.ltb_spec i (n + 1)); try (done || lia).
      assert (i = n) as -> by lia. by rewrite Ef.
Qed.

Lemma word_of_bits f i : N.testbit (word_of f) i = (i <? 64) && f i.
Proof. apply word_fold_bits. Qed.

Lemma word_of_small f : word_of f < two64.
Proof.
  change two64 with (2 ^ 64). apply small_testbit. intros i Hi. rewrite word_of_bits.
  destruct (N.ltb_spec i 64); [lia|done].
Qed.

Lemma word_of_ext f g : (forall i, i < 64 -> f i = g i) -> word_of f = word_of g.
Proof.
  intros H. apply N.bits_inj. intros i. rewrite !word_of_bits.
  destruct (N.ltb_spec i 64); [|done]. by rewrite H.
Qed.

Lemma word_of_unfold f :
  word_of f = fold_left (fun acc t => if f t then N.lor acc (2 ^ t) else acc) (range 64) 0.
Proof. done. Qed.

Global Opaque word_of.
