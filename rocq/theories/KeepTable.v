(** The retention decision of [compress] as an integer inequality. *)
From Verif Require Import Base F64 Numeric Standard Compressed PoolProofs BitsProofs.

(** ** Thresholds: a finite check over every block size, fill count and level *)

(** The value stored for a block of [b * b] cells with [k] edges. *)
Definition pool_value (b : N) (k : nat) : f64 :=
  f64_mul (Nat.iter (k - 1) (fun x => f64_add x f64_one) f64_one) (pool_multiplier (b * b)).

(** [x], [x + 1.0], [x + 1.0 + 1.0], ... *)
Fixpoint counts (n : nat) (x : f64) : list f64 :=
  match n with
  | O => []
  | S n' => x :: counts n' (f64_add x f64_one)
  end.

Lemma counts_lookup n x i : (i < n)%nat ->
  counts n x !! i = Some (Nat.iter i (fun y => f64_add y f64_one) x).
Proof.
  revert x i. induction n as [|n IH]; intros x i Hi; [lia|]. destruct i as [|i]; [done|].
  simpl. rewrite IH by lia. f_equal. clear. induction i as [|i IH]; [done|]. simpl. by rewrite IH.
Qed.

Definition keep_check (thresholds : list (N * f64)) (b : N) (q : f64) : bool :=
  forallb (fun '(k, count) =>
    (fun v => forallb (fun '(l, t) => Bool.eqb (f64_ge v t) (l * (b * b) <=? 64 * k)) thresholds)
      (f64_mul count q))
    (zip (N.of_nat <$> seq 1 (N.to_nat (b * b))) (counts (N.to_nat (b * b)) f64_one)).

Lemma keep_table_check :
  (fun thresholds =>
     forallb (fun b => keep_check thresholds b (pool_multiplier (b * b))) (N.of_nat <$> seq 1 8))
    ((fun l => (l, compress_threshold l)) <$> (N.of_nat <$> seq 1 64)) = true.
Proof. reflexivity. Qed.

Lemma elem_of_seq_N x a n : N.of_nat a <= x < N.of_nat (a + n) -> x ∈ N.of_nat <$> seq a n.
Proof.
  intros H. apply elem_of_list_fmap. exists (N.to_nat x). split; [lia|]. apply elem_of_seq. lia.
Qed.

Lemma keep_table b k l :
  1 <= b <= 8 -> (1 <= k)%nat -> N.of_nat k <= b * b -> 1 <= l <= 64 ->
  f64_ge (pool_value b k) (compress_threshold l) = (l * (b * b) <=? 64 * N.of_nat k).
Proof.
  intros Hb Hk Hkb Hl. pose proof keep_table_check as H. cbv beta in H.
  rewrite forallb_forall in H. specialize (H b). rewrite <- elem_of_list_In in H.
  specialize (H ltac:(apply elem_of_seq_N; lia)). unfold keep_check in H.
  rewrite forallb_forall in H.
  specialize (H (N.of_nat k, Nat.iter (k - 1) (fun x => f64_add x f64_one) f64_one)).
  rewrite <- elem_of_list_In in H. cbv beta iota in H.
  fold (pool_value b k) in H. rewrite forallb_forall in H.
  specialize (fun Hin => H Hin (l, compress_threshold l)).
  cbv beta iota in H. apply Bool.eqb_prop, H.
  - apply elem_of_lookup_zip_with. exists (k - 1)%nat, (N.of_nat k),
      (Nat.iter (k - 1) (fun x => f64_add x f64_one) f64_one). split_and!; [done| |].
    + rewrite list_lookup_fmap, lookup_seq_lt by lia. simpl. f_equal. lia.
    + apply counts_lookup. lia.
  - apply elem_of_list_In, elem_of_list_fmap. exists l. split; [done|].
    apply elem_of_seq_N. lia.
Qed.
