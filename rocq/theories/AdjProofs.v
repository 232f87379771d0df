(** Facts about the adjacency matrix model. *)
From Verif Require Import Base HashIter HashIterProofs Adj Spec.

(** ** Counting *)

Lemma has_card_unique {A} (P : A -> Prop) k1 k2 :
  has_card P k1 -> has_card P k2 -> k1 = k2.
Proof.
  intros (l1 & Hn1 & Hm1 & <-) (l2 & Hn2 & Hm2 & <-).
  assert (l1 ≡ₚ l2) as ->; [|done].
  apply NoDup_Permutation; [done..|]. intros x. rewrite Hm1, Hm2. done.
Qed.

Lemma has_card_ext {A} (P Q : A -> Prop) k :
  (forall x, P x <-> Q x) -> has_card P k -> has_card Q k.
Proof.
  intros H (l & Hn & Hm & Hl). exists l. split_and!; [done| |done].
  intros x. rewrite Hm. apply H.
Qed.

Lemma has_card_list {A} (l : list A) :
  NoDup l -> has_card (fun x => x ∈ l) (N.of_nat (length l)).
Proof. intros H. exists l. done. Qed.

Lemma mod_inc k : ((k mod two64) + 1) mod two64 = (k + 1) mod two64.
Proof. unfold two64. rewrite N.add_mod_idemp_l; [done|lia]. Qed.

(** ** The set of nonzero cells *)

Definition adj_has (m : adj) (c r : N) : Prop :=
  exists s, adj_tab m !! c = Some s /\ r ∈ s.

Definition adj_list (m : adj) : list (N * N) :=
  flat ((fun '(c, s) => (c, elements s)) <$> map_to_list (adj_tab m)).

Lemma adj_get_entry_has m c r :
  adj_get_entry m c r = 1 <-> adj_has m c r.
Proof.
  unfold adj_get_entry, adj_has. destruct (adj_tab m !! c) as [s|] eqn:E.
  - destruct (bool_decide (r ∈ s)) eqn:Hb.
    + apply bool_decide_eq_true in Hb. split; eauto.
    + apply bool_decide_eq_false in Hb. split; [done|]. intros (s' & [= <-] & ?). done.
  - split; [done|]. intros (s' & ? & _). done.
Qed.

Lemma adj_get_entry_01 m c r : adj_get_entry m c r = 0 \/ adj_get_entry m c r = 1.
Proof.
  unfold adj_get_entry. destruct (adj_tab m !! c); [|by left].
  destruct (bool_decide _); auto.
Qed.

Lemma adj_get_entry_not_has m c r :
  adj_get_entry m c r = 0 <-> ~ adj_has m c r.
Proof.
  rewrite <- adj_get_entry_has. destruct (adj_get_entry_01 m c r) as [->| ->]; split; congruence.
Qed.

Global Instance adj_has_dec m c r : Decision (adj_has m c r).
Proof.
  destruct (decide (adj_get_entry m c r = 1)) as [H|H].
  - left. by apply adj_get_entry_has.
  - right. by rewrite <- adj_get_entry_has.
Defined.

Lemma elem_of_adj_list m c r : (c, r) ∈ adj_list m <-> adj_has m c r.
Proof.
  unfold adj_list, adj_has. rewrite elem_of_flat. split.
  - intros (items & Hin & Hr). apply elem_of_list_fmap in Hin as ([c' s] & [= -> ->] & Hin).
    apply elem_of_map_to_list in Hin. apply elem_of_elements in Hr. eauto.
  - intros (s & Hs & Hr). exists (elements s). split; [|by apply elem_of_elements].
    apply elem_of_list_fmap. exists (c, s). split; [done|]. by apply elem_of_map_to_list.
Qed.

Lemma NoDup_adj_list m : NoDup (adj_list m).
Proof.
  unfold adj_list. apply NoDup_flat.
  - rewrite <- list_fmap_compose.
    rewrite (list_fmap_ext _ fst) by (by intros ? [? ?]).
    apply NoDup_fst_map_to_list.
  - apply Forall_fmap, Forall_true. intros [c s]. apply NoDup_elements.
Qed.

(** ** Invariant *)

Record adj_inv (m : adj) : Prop := AdjInv {
  ai_bound : forall c r, adj_has m c r -> c < adj_dim m /\ r < adj_dim m;
  ai_dim : adj_dim m < two64;
  ai_cnt : adj_cnt m = N.of_nat (length (adj_list m)) mod two64;
}.

Lemma adj_inv_new : adj_inv adj_new.
Proof.
  constructor.
  - intros c r (s & Hs & _). simpl in Hs. rewrite lookup_empty in Hs. done.
  - done.
  - reflexivity.
Qed.

(** ** Updates *)

Lemma checked_add64_1 x :
  checked_add64 x 1 = if x <? u64_max then Some (x + 1) else None.
Proof.
  unfold checked_add64, two64, u64_max.
  destruct (N.ltb_spec (x + 1) 18446744073709551616), (N.ltb_spec x 18446744073709551615);
    (done || lia).
Qed.

Definition both_valid (c r : N) : bool := (c <? u64_max) && (r <? u64_max).

Lemma adj_set_entry_unfold m e c r :
  adj_set_entry m e c r =
  if both_valid c r then
    let d := N.max (adj_dim m) (N.max (c + 1) (r + 1)) in
    if e =? 0 then Adj d (adj_tab m) (adj_cnt m)
    else
      let s := default ∅ (adj_tab m !! c) in
      Adj d (<[c := {[r]} ∪ s]> (adj_tab m))
        (if bool_decide (r ∉ s) then wrapping_inc64 (adj_cnt m) else adj_cnt m)
  else m.
Proof.
  unfold adj_set_entry, both_valid. rewrite !checked_add64_1.
  destruct (c <? u64_max); [|done]. destruct (r <? u64_max); [|done]. simpl.
  set (d1 := if adj_dim m <? c + 1 then _ else _).
  assert ((if d1 <? r + 1 then r + 1 else d1) = N.max (adj_dim m) (N.max (c + 1) (r + 1))) as ->.
  { unfold d1. destruct (N.ltb_spec (adj_dim m) (c + 1)).
    - destruct (N.ltb_spec (c + 1) (r + 1)); lia.
    - destruct (N.ltb_spec (adj_dim m) (r + 1)); lia. }
  done.
Qed.

Lemma adj_dim_set m e c r :
  adj_dim (adj_set_entry m e c r) =
  if both_valid c r then N.max (adj_dim m) (N.max (c + 1) (r + 1)) else adj_dim m.
Proof.
  rewrite adj_set_entry_unfold. destruct (both_valid c r); [|done].
  simpl. destruct (e =? 0); done.
Qed.

Lemma adj_has_set m e c r c' r' :
  adj_has (adj_set_entry m e c r) c' r' <->
  adj_has m c' r' \/ (both_valid c r = true /\ e <> 0 /\ c' = c /\ r' = r).
Proof.
  rewrite adj_set_entry_unfold. destruct (both_valid c r).
  2:{ split; [by left|]. intros [?|[? _]]; done. }
  destruct (N.eqb_spec e 0) as [He|He].
  { simpl. unfold adj_has; simpl. split; [by left|]. intros [?|(?&?&_)]; done. }
  unfold adj_has; simpl. destruct (decide (c' = c)) as [->|Hc].
  - rewrite lookup_insert. destruct (adj_tab m !! c) as [s|] eqn:E; simpl.
    + split.
      * intros (s' & [= <-] & Hin). apply elem_of_union in Hin as [Hin|Hin].
        -- right. apply elem_of_singleton in Hin. auto.
        -- left. eauto.
      * intros [(s' & [= <-] & Hin)|(_ & _ & _ & ->)]; eexists; (split; [done|]); set_solver.
    + split.
      * intros (s' & [= <-] & Hin). right. split_and!; [done..|]. set_solver.
      * intros [(s' & ? & Hin)|(_ & _ & _ & ->)]; [done|]. eexists; split; [done|]. set_solver.
  - rewrite lookup_insert_ne by done. split; [by left|]. intros [?|(_&_&?&_)]; done.
Qed.

Lemma adj_list_set_new m e c r :
  both_valid c r = true -> e <> 0 -> ~ adj_has m c r ->
  adj_list (adj_set_entry m e c r) ≡ₚ (c, r) :: adj_list m.
Proof.
  intros Hv He Hn. apply NoDup_Permutation.
  - apply NoDup_adj_list.
  - constructor; [by rewrite elem_of_adj_list|apply NoDup_adj_list].
  - intros [c' r']. rewrite elem_of_cons, !elem_of_adj_list, adj_has_set.
    split.
    + intros [H|(_&_&->&->)]; [by right|by left].
    + intros [[= -> ->]|H]; [|by left]. right. done.
Qed.

Lemma adj_list_perm m m' :
  (forall c r, adj_has m c r <-> adj_has m' c r) -> adj_list m ≡ₚ adj_list m'.
Proof.
  intros H. apply NoDup_Permutation; [apply NoDup_adj_list..|].
  intros [c r]. by rewrite !elem_of_adj_list.
Qed.

Lemma adj_cnt_set m e c r :
  adj_cnt (adj_set_entry m e c r) =
  if both_valid c r && negb (e =? 0) && bool_decide (~ adj_has m c r)
  then wrapping_inc64 (adj_cnt m) else adj_cnt m.
Proof.
  rewrite adj_set_entry_unfold. destruct (both_valid c r); [|done]. simpl.
  destruct (e =? 0); [done|]. simpl.
  assert (r ∉ default ∅ (adj_tab m !! c) <-> ~ adj_has m c r) as H.
  { unfold adj_has. destruct (adj_tab m !! c) as [s|]; simpl.
    - split; [intros Hr (s' & [= <-] & ?); done|]. intros H Hr. apply H. eauto.
    - split; [intros _ (s' & ? & _); done|]. intros _. apply not_elem_of_empty. }
  by rewrite (bool_decide_ext _ _ H).
Qed.

Lemma adj_inv_set m e c r : adj_inv m -> adj_inv (adj_set_entry m e c r).
Proof.
  intros [Hb Hd Hc]. constructor.
  - intros c' r'. rewrite adj_has_set, adj_dim_set. intros [H|(Hv & _ & -> & ->)].
    + apply Hb in H. destruct (both_valid c r); lia.
    + rewrite Hv. lia.
  - rewrite adj_dim_set. unfold both_valid, two64, u64_max in *.
    destruct (N.ltb_spec c 18446744073709551615), (N.ltb_spec r 18446744073709551615); simpl; lia.
  - rewrite adj_cnt_set. destruct (both_valid c r) eqn:Hv; simpl.
    2:{ rewrite Hc. f_equal. f_equal. apply Permutation_length, adj_list_perm.
        intros c' r'. rewrite adj_has_set, Hv. naive_solver. }
    destruct (N.eqb_spec e 0) as [He|He]; simpl.
    { rewrite Hc. f_equal. f_equal. apply Permutation_length, adj_list_perm.
      intros c' r'. rewrite adj_has_set. naive_solver. }
    destruct (decide (adj_has m c r)) as [Hh|Hh].
    + rewrite bool_decide_eq_false_2 by (intros ?; done).
      rewrite Hc. f_equal. f_equal. apply Permutation_length, adj_list_perm.
      intros c' r'. rewrite adj_has_set. naive_solver.
    + rewrite bool_decide_eq_true_2 by done.
      rewrite (adj_list_set_new m e c r Hv He Hh). cbn [length].
      unfold wrapping_inc64. rewrite Hc, mod_inc. f_equal. lia.
Qed.

Lemma adj_dim_zero m c r : adj_dim (adj_zero_entry m c r) = adj_dim m.
Proof. unfold adj_zero_entry. destruct (adj_tab m !! c); done. Qed.

Lemma adj_has_zero m c r c' r' :
  adj_has (adj_zero_entry m c r) c' r' <-> adj_has m c' r' /\ ~ (c' = c /\ r' = r).
Proof.
  unfold adj_zero_entry, adj_has. destruct (adj_tab m !! c) as [s|] eqn:E; simpl.
  - destruct (decide (c' = c)) as [->|Hc].
    + rewrite lookup_insert, E. split.
      * intros (s' & [= <-] & Hin). apply elem_of_difference in Hin as [Hin Hne].
        split; [eauto|]. intros [_ ->]. set_solver.
      * intros [(s' & [= <-] & Hin) Hne]. eexists; split; [done|].
        apply elem_of_difference. split; [done|]. rewrite elem_of_singleton. naive_solver.
    + rewrite lookup_insert_ne by done. naive_solver.
  - split; [|naive_solver]. intros (s' & Hs & Hr). split; [eauto|].
    intros [-> _]. congruence.
Qed.

Lemma adj_cnt_zero m c r :
  adj_cnt (adj_zero_entry m c r) =
  if bool_decide (adj_has m c r) then wrapping_dec64 (adj_cnt m) else adj_cnt m.
Proof.
  destruct (decide (adj_has m c r)) as [H|H].
  - rewrite (bool_decide_eq_true_2 (adj_has m c r)) by done.
    destruct H as (s & Hs & Hr). unfold adj_zero_entry. rewrite Hs. simpl.
    by rewrite bool_decide_eq_true_2.
  - rewrite (bool_decide_eq_false_2 (adj_has m c r)) by done.
    unfold adj_zero_entry. destruct (adj_tab m !! c) as [s|] eqn:E; [|done]. simpl.
    rewrite bool_decide_eq_false_2; [done|]. intros Hr. apply H. exists s. done.
Qed.

Lemma adj_list_zero m c r :
  adj_has m c r -> adj_list m ≡ₚ (c, r) :: adj_list (adj_zero_entry m c r).
Proof.
  intros Hh. apply NoDup_Permutation.
  - apply NoDup_adj_list.
  - constructor; [|apply NoDup_adj_list]. rewrite elem_of_adj_list, adj_has_zero. naive_solver.
  - intros [c' r']. rewrite elem_of_cons, !elem_of_adj_list, adj_has_zero.
    split.
    + intros H. destruct (decide (c' = c /\ r' = r)) as [[-> ->]|]; [by left|by right].
    + intros [[= -> ->]|[H _]]; done.
Qed.

Lemma adj_inv_zero m c r : adj_inv m -> adj_inv (adj_zero_entry m c r).
Proof.
  intros [Hb Hd Hc]. constructor.
  - intros c' r'. rewrite adj_has_zero, adj_dim_zero. intros [H _]. auto.
  - by rewrite adj_dim_zero.
  - rewrite adj_cnt_zero. destruct (decide (adj_has m c r)) as [Hh|Hh].
    + rewrite bool_decide_eq_true_2 by done. rewrite Hc.
      rewrite (adj_list_zero m c r Hh). cbn [length].
      unfold wrapping_dec64, two64, u64_max.
      rewrite N.add_mod_idemp_l by lia.
      rewrite Nat2N.inj_succ.
      replace (N.succ _ + 18446744073709551615) with
        (N.of_nat (length (adj_list (adj_zero_entry m c r))) + 1 * 18446744073709551616) by lia.
      by rewrite N.mod_add by lia.
    + rewrite bool_decide_eq_false_2 by done. rewrite Hc.
      f_equal. f_equal. apply Permutation_length, adj_list_perm.
      intros c' r'. rewrite adj_has_zero. naive_solver.
Qed.

(** ** Iteration *)

Lemma adj_flat_perm o m :
  flat ((fun '(c, s) => (c, ord_set o c s)) <$> ord_map o _ None (adj_tab m)) ≡ₚ adj_list m.
Proof.
  apply NoDup_Permutation.
  - apply NoDup_flat.
    + rewrite <- list_fmap_compose.
      rewrite (list_fmap_ext _ fst) by (by intros ? [? ?]).
      rewrite (ord_map_perm o). apply NoDup_fst_map_to_list.
    + apply Forall_fmap, Forall_true. intros [c s]. simpl.
      rewrite (ord_set_perm o). apply NoDup_elements.
  - apply NoDup_adj_list.
  - intros [c r]. unfold adj_list. rewrite !elem_of_flat.
    split; intros (items & Hin & Hr).
    + apply elem_of_list_fmap in Hin as ([c' s] & [= -> ->] & Hin).
      exists (elements s). split.
      * apply elem_of_list_fmap. exists (c', s). split; [done|].
        by rewrite (ord_map_perm o) in Hin.
      * by rewrite (ord_set_perm o) in Hr.
    + apply elem_of_list_fmap in Hin as ([c' s] & [= -> ->] & Hin).
      exists (ord_set o c' s). split.
      * apply elem_of_list_fmap. exists (c', s). split; [done|].
        by rewrite (ord_map_perm o).
      * by rewrite (ord_set_perm o).
Qed.

Lemma adj_items_perm o m : adj_inv m -> adj_items o m ≡ₚ adj_list m.
Proof.
  intros Hi. unfold adj_items. destruct (N.eq_dec (adj_dim m) 0) as [Hd|Hd].
  - rewrite hiter_items_zero by done.
    destruct (adj_list m) as [|[c r] l] eqn:E; [done|].
    assert ((c, r) ∈ adj_list m) as Hin by (rewrite E; left).
    apply elem_of_adj_list, (ai_bound m Hi) in Hin. lia.
  - rewrite hiter_items_remaining by done. unfold remaining, adj_into_iter; simpl.
    apply adj_flat_perm.
Qed.

Lemma elem_of_adj_items o m c r : adj_inv m -> (c, r) ∈ adj_items o m <-> adj_has m c r.
Proof. intros Hi. rewrite (adj_items_perm o m Hi). apply elem_of_adj_list. Qed.

Lemma NoDup_adj_items o m : adj_inv m -> NoDup (adj_items o m).
Proof. intros Hi. rewrite (adj_items_perm o m Hi). apply NoDup_adj_list. Qed.

(** ** Column and row scans *)

Lemma elem_of_sparse_col o m c r : r ∈ adj_sparse_col o m c <-> adj_has m c r.
Proof.
  unfold adj_sparse_col, adj_has. destruct (adj_tab m !! c) as [s|].
  - rewrite (ord_set_perm o), elem_of_elements. naive_solver.
  - rewrite elem_of_nil. naive_solver.
Qed.

Lemma NoDup_sparse_col o m c : NoDup (adj_sparse_col o m c).
Proof.
  unfold adj_sparse_col. destruct (adj_tab m !! c) as [s|]; [|constructor].
  rewrite (ord_set_perm o). apply NoDup_elements.
Qed.

Lemma adj_col_count_length o o' m c :
  adj_col_count o m c = N.of_nat (length (adj_sparse_col o' m c)) mod two64.
Proof.
  unfold adj_col_count, adj_sparse_col. destruct (adj_tab m !! c) as [s|]; [|done].
  by rewrite !(ord_set_perm _).
Qed.

Lemma sparse_row_fold (row : N) (l : list (N * gset N)) acc :
  fold_left (fun vector '(col, row_set) =>
     if bool_decide (row ∈ (row_set : gset N)) then vector ++ [col] else vector) l acc
  = acc ++ (filter (fun '(_, row_set) => row ∈ (row_set : gset N)) l).*1.
Proof.
  revert acc. induction l as [|[c s] l IH]; intros acc; simpl.
  - by rewrite app_nil_r.
  - rewrite IH, filter_cons.
    destruct (decide (row ∈ s)) as [Hr|Hr].
    + rewrite bool_decide_eq_true_2 by done. simpl. by rewrite <- app_assoc.
    + rewrite bool_decide_eq_false_2 by done. done.
Qed.

Lemma adj_sparse_row_filter o m r :
  adj_sparse_row o m r =
  (filter (fun '(_, row_set) => r ∈ (row_set : gset N)) (ord_map o _ None (adj_tab m))).*1.
Proof. unfold adj_sparse_row. by rewrite sparse_row_fold. Qed.

Lemma elem_of_sparse_row o m c r : c ∈ adj_sparse_row o m r <-> adj_has m c r.
Proof.
  rewrite adj_sparse_row_filter, elem_of_list_fmap. unfold adj_has. split.
  - intros ([c' s] & -> & Hin). apply elem_of_list_filter in Hin as [Hr Hin].
    rewrite (ord_map_perm o), elem_of_map_to_list in Hin. eauto.
  - intros (s & Hs & Hr). exists (c, s). split; [done|].
    apply elem_of_list_filter. split; [done|].
    by rewrite (ord_map_perm o), elem_of_map_to_list.
Qed.

Lemma NoDup_fmap_filter {A B} (f : A -> B) (P : A -> Prop) `{!forall x, Decision (P x)} l :
  NoDup (f <$> l) -> NoDup (f <$> filter P l).
Proof.
  induction l as [|x l IH]; simpl; [constructor|]. intros Hnd.
  inversion Hnd as [|? ? Hx Hnd']; subst. rewrite filter_cons.
  destruct (decide (P x)); [|auto]. simpl. constructor; [|auto].
  intros Hin. apply Hx. apply elem_of_list_fmap in Hin as (y & -> & Hy).
  apply elem_of_list_filter in Hy as [_ Hy]. apply elem_of_list_fmap. eauto.
Qed.

Lemma NoDup_sparse_row o m r : NoDup (adj_sparse_row o m r).
Proof.
  rewrite adj_sparse_row_filter. apply NoDup_fmap_filter.
  rewrite (ord_map_perm o). apply NoDup_fst_map_to_list.
Qed.

Lemma adj_row_count_length o o' m r :
  adj_row_count o m r = N.of_nat (length (adj_sparse_row o' m r)) mod two64.
Proof.
  unfold adj_row_count. rewrite adj_sparse_row_filter, fmap_length.
  f_equal. f_equal. apply Permutation_length. by rewrite !(ord_map_perm _).
Qed.

(** A repetition-free list of numbers below [d] has at most [d] elements. *)
Lemma NoDup_bounded_length (l : list N) d :
  NoDup l -> (forall x, x ∈ l -> x < d) -> N.of_nat (length l) <= d.
Proof.
  intros Hnd Hb.
  assert (l ⊆+ (N.of_nat <$> seq 0 (N.to_nat d))) as Hs.
  { apply NoDup_submseteq; [done|]. intros x Hx. apply elem_of_list_fmap.
    exists (N.to_nat x). split; [lia|]. apply elem_of_seq. apply Hb in Hx. lia. }
  apply submseteq_length in Hs. rewrite fmap_length, seq_length in Hs. lia.
Qed.
