(** Facts about the square matrix model. *)
From Verif Require Import Base HashIter HashIterProofs F64 Numeric Adj Sq Spec AdjProofs.

Section sq.
Context {T : Type}.
Implicit Types m : sq T.

(** The stored value of a cell. *)
Definition sq_val m (c r : N) : option T := sq_tab m !! c ≫= fun t => t !! r.

Definition sq_list m : list (N * (N * T)) :=
  flat ((fun '(c, t) => (c, map_to_list t)) <$> map_to_list (sq_tab m)).

Definition sq_keys m : list (N * N) := (fun '(c, (r, _)) => (c, r)) <$> sq_list m.

Lemma sq_val_Some m c r e :
  sq_val m c r = Some e <-> exists t, sq_tab m !! c = Some t /\ t !! r = Some e.
Proof. unfold sq_val. rewrite bind_Some. done. Qed.

Lemma elem_of_sq_list m c r e : (c, (r, e)) ∈ sq_list m <-> sq_val m c r = Some e.
Proof.
  unfold sq_list. rewrite elem_of_flat, sq_val_Some. split.
  - intros (items & Hin & Hr). apply elem_of_list_fmap in Hin as ([c' t] & [= -> ->] & Hin).
    apply elem_of_map_to_list in Hin. apply elem_of_map_to_list in Hr. eauto.
  - intros (t & Ht & Hr). exists (map_to_list t). split; [|by apply elem_of_map_to_list].
    apply elem_of_list_fmap. exists (c, t). split; [done|]. by apply elem_of_map_to_list.
Qed.

Lemma elem_of_sq_keys m c r : (c, r) ∈ sq_keys m <-> is_Some (sq_val m c r).
Proof.
  unfold sq_keys. rewrite elem_of_list_fmap. split.
  - intros ([c' [r' e]] & [= -> ->] & Hin). apply elem_of_sq_list in Hin. eauto.
  - intros [e He]. exists (c, (r, e)). split; [done|]. by apply elem_of_sq_list.
Qed.

Lemma NoDup_flat_keys (cols : list (N * list (N * T))) :
  NoDup cols.*1 -> Forall (fun ci => NoDup ci.2.*1) cols ->
  NoDup ((fun '(c, (r, _)) => (c, r)) <$> flat cols).
Proof.
  intros Hnd Hall.
  assert ((fun '(c, (r, _)) => (c, r)) <$> flat cols
          = flat ((fun ci => (ci.1, ci.2.*1)) <$> cols)) as ->.
  { clear. induction cols as [|[c items] cols IH]; [done|].
    rewrite fmap_cons, !flat_cons, fmap_app, IH. simpl. f_equal.
    rewrite <- !list_fmap_compose. apply list_fmap_ext. by intros ? [? ?]. }
  apply NoDup_flat.
  - rewrite <- list_fmap_compose.
    rewrite (list_fmap_ext _ fst) by (by intros ? [? ?]). done.
  - rewrite Forall_fmap. apply Hall.
Qed.

Lemma NoDup_sq_keys m : NoDup (sq_keys m).
Proof.
  unfold sq_keys, sq_list. apply NoDup_flat_keys.
  - rewrite <- list_fmap_compose.
    rewrite (list_fmap_ext _ fst) by (by intros ? [? ?]).
    apply NoDup_fst_map_to_list.
  - apply Forall_fmap, Forall_true. intros [c t]. apply NoDup_fst_map_to_list.
Qed.

Lemma NoDup_sq_list m : NoDup (sq_list m).
Proof. eapply NoDup_fmap_1, NoDup_sq_keys. Qed.

Lemma length_sq_keys m : length (sq_keys m) = length (sq_list m).
Proof. apply fmap_length. Qed.

Lemma sq_keys_perm m (l : list (N * N)) :
  NoDup l -> (forall c r, (c, r) ∈ l <-> is_Some (sq_val m c r)) -> sq_keys m ≡ₚ l.
Proof.
  intros Hnd H. apply NoDup_Permutation; [apply NoDup_sq_keys|done|].
  intros [c r]. by rewrite elem_of_sq_keys, H.
Qed.

(** ** Invariant *)

Record sq_inv m : Prop := SqInv {
  si_bound : forall c r, is_Some (sq_val m c r) -> c < sq_dim m /\ r < sq_dim m;
  si_dim : sq_dim m < two64;
  si_cnt : sq_cnt m = N.of_nat (length (sq_keys m)) mod two64;
}.

Lemma sq_val_new c r : sq_val (sq_new (T := T)) c r = None.
Proof. unfold sq_val; simpl. by rewrite lookup_empty. Qed.

Lemma sq_inv_new : sq_inv sq_new.
Proof.
  constructor.
  - intros c r. rewrite sq_val_new. by intros [? ?].
  - done.
  - reflexivity.
Qed.

(** ** A single cell update *)

Definition dim_join (d c r : N) : N := N.max d (N.max (c + 1) (r + 1)).

Lemma dim_join_eq d c r :
  (let d1 := if d <? c + 1 then c + 1 else d in if d1 <? r + 1 then r + 1 else d1)
  = dim_join d c r.
Proof.
  unfold dim_join. simpl. destruct (N.ltb_spec d (c + 1)).
  - destruct (N.ltb_spec (c + 1) (r + 1)); lia.
  - destruct (N.ltb_spec d (r + 1)); lia.
Qed.

(** Writing [e] at (c, r) and counting a new cell. *)
Definition sq_put m (e : T) (c r : N) : sq T :=
  Sq (dim_join (sq_dim m) c r)
    (<[c := <[r := e]> (default ∅ (sq_tab m !! c))]> (sq_tab m))
    (match sq_val m c r with None => wrapping_inc64 (sq_cnt m) | Some _ => sq_cnt m end).

Lemma default_lookup m c r : default ∅ (sq_tab m !! c) !! r = sq_val m c r.
Proof. unfold sq_val. destruct (sq_tab m !! c); simpl; [done|apply lookup_empty]. Qed.

Lemma sq_val_put m e c r c' r' :
  sq_val (sq_put m e c r) c' r' =
  if decide (c' = c /\ r' = r) then Some e else sq_val m c' r'.
Proof.
  unfold sq_put. unfold sq_val at 1; simpl.
  destruct (decide (c' = c)) as [->|Hc].
  - rewrite lookup_insert. simpl. destruct (decide (r' = r)) as [->|Hr].
    + rewrite lookup_insert, decide_True; done.
    + rewrite lookup_insert_ne by done. rewrite default_lookup.
      rewrite decide_False; [done|naive_solver].
  - rewrite lookup_insert_ne by done. rewrite decide_False; [done|naive_solver].
Qed.

Lemma both_valid_lt c r : both_valid c r = true <-> c < u64_max /\ r < u64_max.
Proof. unfold both_valid. by rewrite andb_true_iff, !N.ltb_lt. Qed.

Lemma sq_inv_put m e c r : both_valid c r = true -> sq_inv m -> sq_inv (sq_put m e c r).
Proof.
  intros Hv [Hb Hd Hc]. apply both_valid_lt in Hv. constructor.
  - intros c' r'. rewrite sq_val_put. simpl. unfold dim_join.
    destruct (decide _) as [[-> ->]|]; [lia|]. intros H. apply Hb in H. lia.
  - simpl. unfold dim_join, two64, u64_max in *. lia.
  - simpl. destruct (sq_val m c r) as [e0|] eqn:E.
    + rewrite Hc. f_equal. f_equal. apply Permutation_length.
      apply sq_keys_perm; [apply NoDup_sq_keys|].
      intros c' r'. rewrite elem_of_sq_keys, sq_val_put.
      destruct (decide _) as [[-> ->]|]; [|done]. rewrite E. by split.
    + rewrite (sq_keys_perm (sq_put m e c r) ((c, r) :: sq_keys m)).
      * cbn [length]. unfold wrapping_inc64. rewrite Hc, mod_inc. f_equal. lia.
      * constructor; [|apply NoDup_sq_keys]. rewrite elem_of_sq_keys, E. by intros [? ?].
      * intros c' r'. rewrite elem_of_cons, elem_of_sq_keys, sq_val_put.
        destruct (decide _) as [[-> ->]|Hne].
        -- split; [|by left]. by intros _.
        -- split; [|by right]. intros [[= -> ->]|H]; [|done]. naive_solver.
Qed.

Context (num : numeric T).

Lemma sq_set_entry_unfold m e c r :
  sq_set_entry num m e c r =
  if both_valid c r then
    if num_eq num e (num_zero num)
    then Sq (dim_join (sq_dim m) c r) (sq_tab m) (sq_cnt m)
    else sq_put m e c r
  else m.
Proof.
  unfold sq_set_entry, both_valid. rewrite !checked_add64_1.
  destruct (c <? u64_max); [|done]. destruct (r <? u64_max); [|done].
  cbn [andb]. cbv zeta. pose proof (dim_join_eq (sq_dim m) c r) as Hd. cbv zeta in Hd.
  rewrite Hd. destruct (num_eq num e (num_zero num)); [done|].
  unfold sq_put. by rewrite default_lookup.
Qed.

Lemma sq_increment_unfold p m c r :
  sq_increment_entry p num m c r =
  if both_valid c r then
    match sq_val m c r with
    | None => Ret (sq_put m (num_one num) c r)
    | Some e => obind (num_add_one num p e) (fun e' => Ret (sq_put m e' c r))
    end
  else Ret m.
Proof.
  unfold sq_increment_entry, both_valid. rewrite !checked_add64_1.
  destruct (c <? u64_max); [|done]. destruct (r <? u64_max); [|done].
  cbn [andb]. cbv zeta. pose proof (dim_join_eq (sq_dim m) c r) as Hd. cbv zeta in Hd.
  rewrite Hd, default_lookup. unfold sq_put.
  destruct (sq_val m c r) as [e|] eqn:E; done.
Qed.

Lemma sq_inv_dim m d : sq_dim m <= d -> d < two64 -> sq_inv m ->
  sq_inv (Sq d (sq_tab m) (sq_cnt m)).
Proof.
  intros Hle Hlt [Hb Hd Hc]. constructor; [|done|done].
  intros c r H. apply Hb in H. simpl. lia.
Qed.

Lemma sq_inv_set m e c r : sq_inv m -> sq_inv (sq_set_entry num m e c r).
Proof.
  intros Hi. rewrite sq_set_entry_unfold. destruct (both_valid c r) eqn:Hv; [|done].
  destruct (num_eq num e (num_zero num)); [|by apply sq_inv_put].
  apply sq_inv_dim; [unfold dim_join; lia| |done].
  apply both_valid_lt in Hv. pose proof (si_dim m Hi).
  unfold dim_join, two64, u64_max in *. lia.
Qed.

Lemma sq_inv_increment p m c r m' :
  sq_inv m -> sq_increment_entry p num m c r = Ret m' -> sq_inv m'.
Proof.
  intros Hi. rewrite sq_increment_unfold. destruct (both_valid c r) eqn:Hv.
  - destruct (sq_val m c r) as [e|].
    + destruct (num_add_one num p e); simpl; [|done..]. intros [= <-]. by apply sq_inv_put.
    + intros [= <-]. by apply sq_inv_put.
  - by intros [= <-].
Qed.

Lemma sq_val_set m e c r c' r' :
  sq_val (sq_set_entry num m e c r) c' r' =
  if both_valid c r && negb (num_eq num e (num_zero num)) && bool_decide (c' = c /\ r' = r)
  then Some e else sq_val m c' r'.
Proof.
  rewrite sq_set_entry_unfold. destruct (both_valid c r); [|done]. simpl.
  destruct (num_eq num e (num_zero num)); [done|]. simpl. rewrite sq_val_put.
  destruct (decide _) as [H|H].
  - by rewrite bool_decide_eq_true_2.
  - by rewrite bool_decide_eq_false_2.
Qed.

Lemma sq_dim_set m e c r :
  sq_dim (sq_set_entry num m e c r) =
  if both_valid c r then dim_join (sq_dim m) c r else sq_dim m.
Proof.
  rewrite sq_set_entry_unfold. destruct (both_valid c r); [|done].
  by destruct (num_eq num e (num_zero num)).
Qed.

Lemma sq_val_zero m c r c' r' :
  sq_val (sq_zero_entry m c r) c' r' =
  if decide (c' = c /\ r' = r) then None else sq_val m c' r'.
Proof.
  unfold sq_zero_entry, sq_val. destruct (sq_tab m !! c) as [t|] eqn:E; simpl.
  - destruct (decide (c' = c)) as [->|Hc].
    + rewrite lookup_insert, E. simpl. destruct (decide (r' = r)) as [->|Hr].
      * rewrite lookup_delete, decide_True; done.
      * rewrite lookup_delete_ne by done. rewrite decide_False; [done|naive_solver].
    + rewrite lookup_insert_ne by done. rewrite decide_False; [done|naive_solver].
  - destruct (decide _) as [[-> ->]|]; [|done]. by rewrite E.
Qed.

Lemma sq_dim_zero m c r : sq_dim (sq_zero_entry m c r) = sq_dim m.
Proof. unfold sq_zero_entry. by destruct (sq_tab m !! c). Qed.

Lemma sq_cnt_zero m c r :
  sq_cnt (sq_zero_entry m c r) =
  match sq_val m c r with Some _ => wrapping_dec64 (sq_cnt m) | None => sq_cnt m end.
Proof. unfold sq_zero_entry, sq_val. by destruct (sq_tab m !! c). Qed.

Lemma wrapping_dec_succ k :
  wrapping_dec64 (N.of_nat (S k) mod two64) = N.of_nat k mod two64.
Proof.
  unfold wrapping_dec64, two64, u64_max. rewrite N.add_mod_idemp_l by lia.
  replace (N.of_nat (S k) + 18446744073709551615)
    with (N.of_nat k + 1 * 18446744073709551616) by lia.
  by rewrite N.mod_add by lia.
Qed.

Lemma sq_inv_zero m c r : sq_inv m -> sq_inv (sq_zero_entry m c r).
Proof.
  intros [Hb Hd Hc]. constructor.
  - intros c' r'. rewrite sq_val_zero, sq_dim_zero. destruct (decide _); [|apply Hb].
    by intros [? ?].
  - by rewrite sq_dim_zero.
  - rewrite sq_cnt_zero. destruct (sq_val m c r) as [e|] eqn:E.
    + rewrite Hc.
      rewrite (sq_keys_perm m ((c, r) :: sq_keys (sq_zero_entry m c r))).
      * apply wrapping_dec_succ.
      * constructor; [|apply NoDup_sq_keys].
        rewrite elem_of_sq_keys, sq_val_zero, decide_True by done. by intros [? ?].
      * intros c' r'. rewrite elem_of_cons, elem_of_sq_keys, sq_val_zero.
        destruct (decide _) as [[-> ->]|Hne].
        -- rewrite E. split; [done|]. by left.
        -- split; [|by right]. intros [[= -> ->]|H]; [|done]. naive_solver.
    + rewrite Hc. f_equal. f_equal. apply Permutation_length, sq_keys_perm; [apply NoDup_sq_keys|].
      intros c' r'. rewrite elem_of_sq_keys, sq_val_zero.
      destruct (decide _) as [[-> ->]|]; [|done]. by rewrite E.
Qed.

Lemma sq_get_val m c r : sq_get_entry num m c r = default (num_zero num) (sq_val m c r).
Proof.
  unfold sq_get_entry, sq_val. destruct (sq_tab m !! c) as [t|]; [|done]. simpl.
  by destruct (t !! r).
Qed.

(** ** Iteration *)

Lemma sq_flat_perm o m :
  flat ((fun '(c, t) => (c, ord_map o T (Some c) t)) <$> ord_map o _ None (sq_tab m))
  ≡ₚ sq_list m.
Proof.
  apply NoDup_Permutation.
  - eapply NoDup_fmap_1, NoDup_flat_keys.
    + rewrite <- list_fmap_compose.
      rewrite (list_fmap_ext _ fst) by (by intros ? [? ?]).
      rewrite (ord_map_perm o). apply NoDup_fst_map_to_list.
    + apply Forall_fmap, Forall_true. intros [c t]. simpl.
      rewrite (ord_map_perm o). apply NoDup_fst_map_to_list.
  - apply NoDup_sq_list.
  - intros [c v]. unfold sq_list. rewrite !elem_of_flat.
    split; intros (items & Hin & Hr).
    + apply elem_of_list_fmap in Hin as ([c' t] & [= -> ->] & Hin).
      exists (map_to_list t). split.
      * apply elem_of_list_fmap. exists (c', t). split; [done|].
        by rewrite (ord_map_perm o) in Hin.
      * by rewrite (ord_map_perm o) in Hr.
    + apply elem_of_list_fmap in Hin as ([c' t] & [= -> ->] & Hin).
      exists (ord_map o T (Some c') t). split.
      * apply elem_of_list_fmap. exists (c', t). split; [done|].
        by rewrite (ord_map_perm o).
      * by rewrite (ord_map_perm o).
Qed.

Lemma sq_items_perm o m : sq_inv m ->
  sq_items o m ≡ₚ (fun '(c, (r, e)) => (e, c, r)) <$> sq_list m.
Proof.
  intros Hi. unfold sq_items. apply fmap_Permutation.
  destruct (N.eq_dec (sq_dim m) 0) as [Hd|Hd].
  - rewrite hiter_items_zero by done.
    destruct (sq_list m) as [|[c [r e]] l] eqn:E; [done|].
    assert ((c, (r, e)) ∈ sq_list m) as Hin by (rewrite E; left).
    apply elem_of_sq_list in Hin.
    destruct (si_bound m Hi c r); [by rewrite Hin|]. lia.
  - rewrite hiter_items_remaining by done. unfold remaining, sq_into_iter; simpl.
    apply sq_flat_perm.
Qed.

Lemma elem_of_sq_items o m e c r : sq_inv m ->
  (e, c, r) ∈ sq_items o m <-> sq_val m c r = Some e.
Proof.
  intros Hi. rewrite (sq_items_perm o m Hi), elem_of_list_fmap. split.
  - intros ([c' [r' e']] & [= -> -> ->] & Hin). by apply elem_of_sq_list.
  - intros H. exists (c, (r, e)). split; [done|]. by apply elem_of_sq_list.
Qed.

Lemma sq_items_keys_perm o m : sq_inv m ->
  (fun '(e, c, r) => (c, r)) <$> sq_items o m ≡ₚ sq_keys m.
Proof.
  intros Hi. rewrite (sq_items_perm o m Hi), <- list_fmap_compose. unfold sq_keys.
  by rewrite (list_fmap_ext _ (fun '(c, (r, _)) => (c, r)) (sq_list m)) by (by intros ? [? [? ?]]).
Qed.

Lemma NoDup_sq_items_keys o m : sq_inv m ->
  NoDup ((fun '(e, c, r) => (c, r)) <$> sq_items o m).
Proof. intros Hi. rewrite sq_items_keys_perm by done. apply NoDup_sq_keys. Qed.

Lemma NoDup_sq_items o m : sq_inv m -> NoDup (sq_items o m).
Proof. intros Hi. eapply NoDup_fmap_1. by apply (NoDup_sq_items_keys o). Qed.

Lemma length_sq_items o m : sq_inv m -> length (sq_items o m) = length (sq_keys m).
Proof.
  intros Hi. rewrite <- (sq_items_keys_perm o m Hi). by rewrite fmap_length.
Qed.

Lemma sq_cells_flat o m :
  sq_cells o m = (fun '(c, (r, e)) => (c, r, e)) <$>
    flat ((fun '(c, t) => (c, ord_map o T (Some c) t)) <$> ord_map o _ None (sq_tab m)).
Proof.
  unfold sq_cells. induction (ord_map o _ None (sq_tab m)) as [|[c t] l IH]; [done|].
  rewrite bind_cons, IH, fmap_cons, flat_cons, fmap_app. f_equal. rewrite <- list_fmap_compose.
  apply list_fmap_ext. by intros ? [? ?].
Qed.

Lemma elem_of_sq_cells o m c r e : (c, r, e) ∈ sq_cells o m <-> sq_val m c r = Some e.
Proof.
  rewrite sq_cells_flat, sq_flat_perm, elem_of_list_fmap. split.
  - intros ([c' [r' e']] & [= -> -> ->] & Hin). by apply elem_of_sq_list.
  - intros H. exists (c, (r, e)). split; [done|]. by apply elem_of_sq_list.
Qed.

Lemma NoDup_sq_cells_keys o m : NoDup ((fun '(c, r, e) => (c, r)) <$> sq_cells o m).
Proof.
  rewrite sq_cells_flat, <- list_fmap_compose, sq_flat_perm.
  rewrite (list_fmap_ext _ (fun '(c, (r, _)) => (c, r)) (sq_list m)) by (by intros ? [? [? ?]]).
  apply NoDup_sq_keys.
Qed.

End sq.
