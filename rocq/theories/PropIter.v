(** Property C105: the iterators call by call, and the order in which they go. *)
From Verif Require Import Base HashIter F64 Numeric Adj Sq Standard Compressed Spec MatSpec Api
  HashIterProofs AdjProofs SqProofs MatrixProofs GraphProofs GraphCodecProofs GraphMoreProofs
  ApproxProofs PropCommon PropGraph PropMatrix.
Local Open Scope N_scope.

(** The results of the first [n] calls of [next]. *)
Fixpoint next_calls {V} (n : nat) (it : hiter V) : list (option (N * V)) :=
  match n with
  | O => []
  | S n' => let '(x, it') := hiter_next it in x :: next_calls n' it'
  end.

(** What [n] calls return if there are the items [l] to return. *)
Definition first_calls {A} (n : nat) (l : list A) : list (option A) :=
  (Some <$> take n l) ++ replicate (n - length l) None.

(** ** Lemmas *)

Lemma next_calls_zero {V} n (it : hiter V) : it_dim it = 0 -> next_calls n it = replicate n None.
Proof.
  intros Hd. induction n as [|n IH]; [done|]. cbn [next_calls]. unfold hiter_next.
  rewrite Hd. simpl. by rewrite IH.
Qed.

Lemma next_calls_remaining {V} n (it : hiter V) : it_dim it <> 0 ->
  next_calls n it = first_calls n (remaining it).
Proof.
  revert it. induction n as [|n IH]; intros it Hd; [done|].
  cbn [next_calls]. unfold hiter_next.
  destruct (N.eqb_spec (it_dim it) 0) as [|_]; [done|].
  pose proof (hiter_loop_spec (it_dim it) (it_cols it) (it_row it) (it_cur it)) as H.
  assert (HIter (it_dim it) (it_cols it) (it_row it) (it_cur it) = it) as Hit by (by destruct it).
  rewrite Hit in H. destruct (hiter_loop _ _ _ _) as [[x|] it'].
  - destruct H as [H Hd']. rewrite H, IH by (by rewrite Hd'). done.
  - destruct H as (H & Hd' & H'). rewrite H, IH by (by rewrite Hd'). rewrite H'.
    unfold first_calls. simpl. rewrite take_nil, Nat.sub_0_r. done.
Qed.

Lemma next_calls_items {V} n (it : hiter V) : next_calls n it = first_calls n (hiter_items it).
Proof.
  destruct (N.eq_dec (it_dim it) 0) as [Hd|Hd].
  - rewrite next_calls_zero, hiter_items_zero by done. unfold first_calls. simpl.
    rewrite take_nil, Nat.sub_0_r. done.
  - rewrite hiter_items_remaining by done. by apply next_calls_remaining.
Qed.

(** Columns without items do not show. *)
Definition inhabited_cols {V} (cols : list (N * list V)) : list (N * list V) :=
  filter (fun ci => ci.2 <> []) cols.

Lemma flat_inhabited {V} (cols : list (N * list V)) : flat (inhabited_cols cols) = flat cols.
Proof.
  induction cols as [|[c items] cols IH]; [done|]. unfold inhabited_cols in *.
  rewrite filter_cons. destruct (decide _) as [H|H].
  - by rewrite !flat_cons, IH.
  - rewrite flat_cons, IH. simpl in H. destruct items; [done|]. by destruct H.
Qed.

Lemma inhabited_NoDup {V} (cols : list (N * list V)) : NoDup cols.*1 -> NoDup (inhabited_cols cols).*1.
Proof.
  induction cols as [|[c items] cols IH]; [done|]. unfold inhabited_cols in *. simpl.
  intros [Hc Hnd]%NoDup_cons. rewrite filter_cons. destruct (decide _); [|by apply IH].
  simpl. apply NoDup_cons. split; [|by apply IH]. intros ([c' i] & -> & Hi)%elem_of_list_fmap.
  apply Hc. apply elem_of_list_filter in Hi as [_ Hi]. apply elem_of_list_fmap. eexists; split; [|done]. done.
Qed.

(** The items of an adjacency matrix, column by column. *)
Lemma adj_items_cols o m : adj_inv m -> exists cols,
  NoDup cols /\ (forall c, c ∈ cols <-> exists r, adj_has m c r) /\
  adj_items o m = cols ≫= (fun c => (c,.) <$> adj_sparse_col o m c).
Proof.
  intros Hi. destruct (N.eq_dec (adj_dim m) 0) as [Hd|Hd].
  { exists []. split_and!; [constructor| |].
    - intros c. rewrite elem_of_nil. split; [done|]. intros [r Hr].
      apply (ai_bound m Hi) in Hr. lia.
    - unfold adj_items. by rewrite hiter_items_zero. }
  set (table := (fun '(c, s) => (c, ord_set o c s)) <$> ord_map o _ None (adj_tab m)).
  assert (forall c items, (c, items) ∈ table ->
            items = adj_sparse_col o m c) as Hcol.
  { intros c items ([c' s] & [= -> ->] & Hin)%elem_of_list_fmap.
    rewrite (ord_map_perm o), elem_of_map_to_list in Hin. unfold adj_sparse_col. by rewrite Hin. }
  assert (NoDup table.*1) as Hnd.
  { unfold table. rewrite <- list_fmap_compose.
    rewrite (list_fmap_ext _ fst); [|intros ? [] _; done].
    rewrite (ord_map_perm o). apply NoDup_fst_map_to_list. }
  exists (inhabited_cols table).*1. split_and!.
  - by apply inhabited_NoDup.
  - intros c. rewrite elem_of_list_fmap. split.
    + intros ([c' items] & -> & [Hne Hin]%elem_of_list_filter). simpl in *.
      destruct items as [|r items]; [done|]. exists r.
      apply (elem_of_sparse_col o). rewrite <- (Hcol _ _ Hin). left.
    + intros [r Hr]. destruct Hr as (s & Hs & Hrs).
      exists (c, ord_set o c s). split; [done|]. apply elem_of_list_filter. split.
      * simpl. intros E. apply elem_of_elements in Hrs.
        rewrite <- (ord_set_perm o c), E in Hrs. by apply elem_of_nil in Hrs.
      * apply elem_of_list_fmap. exists (c, s). split; [done|].
        by rewrite (ord_map_perm o), elem_of_map_to_list.
  - unfold adj_items. rewrite hiter_items_remaining by done.
    unfold remaining, adj_into_iter; simpl. fold table. rewrite <- (flat_inhabited table).
    assert (forall c items, (c, items) ∈ inhabited_cols table -> items = adj_sparse_col o m c) as Hcol'.
    { intros c items Hin. apply elem_of_list_filter in Hin as [_ Hin]. by apply Hcol. }
    clear -Hcol'. induction (inhabited_cols table) as [|[c items] l IH]; [done|].
    rewrite flat_cons. cbn [fmap list_fmap fst mbind list_bind].
    rewrite (Hcol' c items) by left. f_equal. apply IH. intros c' i Hin. apply Hcol'. by right.
Qed.

(** The items of a square matrix, column by column. *)
Lemma sq_items_cols {T} (num : numeric T) o (m : sq T) : sq_inv m -> exists cols (rows : N -> list N),
  NoDup cols /\ (forall c, NoDup (rows c) /\ (c ∈ cols <-> rows c <> [])) /\
  (forall c r, r ∈ rows c <-> is_Some (sq_val m c r)) /\
  sq_items o m = cols ≫= (fun c => (fun r => (sq_get_entry num m c r, c, r)) <$> rows c).
Proof.
  intros Hi.
  set (rows c := match sq_tab m !! c with Some t => (ord_map o T (Some c) t).*1 | None => [] end).
  assert (forall c, NoDup (rows c)) as Hndr.
  { intros c. unfold rows. destruct (sq_tab m !! c) as [t|]; [|constructor].
    rewrite (ord_map_perm o). apply NoDup_fst_map_to_list. }
  assert (forall c r, r ∈ rows c <-> is_Some (sq_val m c r)) as Hrows.
  { intros c r. unfold rows, sq_val. destruct (sq_tab m !! c) as [t|]; simpl.
    - rewrite (ord_map_perm o), elem_of_list_fmap. split.
      + intros ([r' e] & -> & Hin%elem_of_map_to_list). by exists e.
      + intros [e He]. exists (r, e). split; [done|]. by apply elem_of_map_to_list.
    - rewrite elem_of_nil. split; [done|]. by intros []. }
  destruct (N.eq_dec (sq_dim m) 0) as [Hd|Hd].
  { assert (forall c, rows c = []) as Hnil.
    { intros c. destruct (rows c) as [|r l] eqn:E; [done|].
      assert (r ∈ rows c) as [e He]%Hrows by (rewrite E; left).
      assert ((e, c, r) ∈ sq_items o m) as Hin by (by apply elem_of_sq_items).
      unfold sq_items in Hin. rewrite hiter_items_zero in Hin by done. by apply elem_of_nil in Hin. }
    exists [], rows. split_and!; [constructor| |done|].
    - intros c. split; [done|]. rewrite elem_of_nil, Hnil. done.
    - unfold sq_items. by rewrite hiter_items_zero. }
  set (table := (fun '(c, t) => (c, ord_map o T (Some c) t)) <$> ord_map o _ None (sq_tab m)).
  assert (forall c items, (c, items) ∈ table -> sq_tab m !! c <> None /\ items.*1 = rows c /\
     forall r e, (r, e) ∈ items -> sq_get_entry num m c r = e) as Hcol.
  { intros c items ([c' t] & [= -> ->] & Hin)%elem_of_list_fmap.
    rewrite (ord_map_perm o), elem_of_map_to_list in Hin. unfold rows. rewrite Hin.
    split; [done|]. split; [done|]. intros r e He.
    rewrite (ord_map_perm o), elem_of_map_to_list in He. rewrite sq_get_val. unfold sq_val.
    rewrite Hin. simpl. by rewrite He. }
  assert (NoDup table.*1) as Hnd.
  { unfold table. rewrite <- list_fmap_compose.
    rewrite (list_fmap_ext _ fst); [|intros ? [] _; done].
    rewrite (ord_map_perm o). apply NoDup_fst_map_to_list. }
  exists (inhabited_cols table).*1, rows. split_and!.
  - by apply inhabited_NoDup.
  - intros c. split; [done|]. rewrite elem_of_list_fmap. split.
    + intros ([c' items] & -> & [Hne Hin]%elem_of_list_filter). simpl in *.
      destruct (Hcol _ _ Hin) as (_ & <- & _). by destruct items.
    + intros Hne. unfold rows in Hne. destruct (sq_tab m !! c) as [t|] eqn:E; [|done].
      exists (c, ord_map o T (Some c) t). split; [done|]. apply elem_of_list_filter. split.
      * simpl. by destruct (ord_map o T (Some c) t).
      * apply elem_of_list_fmap. exists (c, t). split; [done|].
        by rewrite (ord_map_perm o), elem_of_map_to_list.
  - done.
  - unfold sq_items. rewrite hiter_items_remaining by done.
    unfold remaining, sq_into_iter; simpl. fold table. rewrite <- (flat_inhabited table).
    assert (forall c items, (c, items) ∈ inhabited_cols table -> items.*1 = rows c /\
      forall r e, (r, e) ∈ items -> sq_get_entry num m c r = e) as Hcol'.
    { intros c items Hin. apply elem_of_list_filter in Hin as [_ Hin]. apply Hcol, Hin. }
    clear -Hcol'. induction (inhabited_cols table) as [|[c items] l IH]; [done|].
    rewrite flat_cons, fmap_app. cbn [fmap list_fmap fst mbind list_bind].
    destruct (Hcol' c items) as [<- He]; [left|]. f_equal.
    + clear -He. induction items as [|[r e] items IH]; [done|]. simpl. rewrite (He r e) by left.
      f_equal. apply IH. intros r' e' Hin. apply He. by right.
    + apply IH. intros c' i Hin. apply Hcol'. by right.
Qed.

(** ** C105 *)

(** The edges of a graph come source by source: the sources are the vertices with outgoing edges,
    each once, and after each the edges of get_vertex_out_edges in its order. The first calls of
    next return these edges in turn, all later ones return None. *)
Theorem C105_graph p g o : wf_platform p -> reach p g ->
  exists sources,
    NoDup sources /\
    (forall u, u ∈ sources <-> exists v, does_edge_exist g u v = true) /\
    let edges := sources ≫= (fun u => (u,.) <$> get_vertex_out_edges o g u) in
    forall n, next_calls n (graph_into_iter o g) = first_calls n edges.
Proof.
  intros Hp Hr. apply reach_inv in Hr; [|done].
  destruct (adj_items_cols o (g_adj g) (gi_adj _ Hr)) as (cols & Hnd & Hin & Heq).
  exists cols. split_and!; [done| |].
  - intros u. rewrite Hin. apply exist_proper. intros v. symmetry. apply exists_has.
  - intros edges n. rewrite next_calls_items. f_equal. exact Heq.
Qed.
Print Assumptions C105_graph.

(** The same of adjacency matrices, column by column, in the order of get_sparse_col_vector. *)
Theorem C105_adjacency (ops : list aop) o : let m := arun ops in
  exists cols,
    NoDup cols /\ (forall c, c ∈ cols <-> exists r, adj_get_entry m c r = 1) /\
    let cells := cols ≫= (fun c => (c,.) <$> adj_sparse_col o m c) in
    forall n, next_calls n (adj_into_iter o m) = first_calls n cells.
Proof.
  intros m. pose proof (ar_inv _ _ (arun_rel ops)) as Hi. fold m in Hi.
  destruct (adj_items_cols o m Hi) as (cols & Hnd & Hin & Heq).
  exists cols. split_and!; [done| |].
  - intros u. rewrite Hin. apply exist_proper. intros v. symmetry. apply adj_get_entry_has.
  - intros edges n. rewrite next_calls_items. f_equal. exact Heq.
Qed.
Print Assumptions C105_adjacency.

(** And of square matrices: entry_count cells (modulo 2^64), with the values get_entry reads. *)
Theorem C105_square T (num : numeric T) p o ops (m : sq T) : mrun p num ops = Ret m ->
  exists cols (rows : N -> list N),
    NoDup cols /\ (forall c, NoDup (rows c) /\ (c ∈ cols <-> rows c <> [])) /\
    (forall c r, num_eq num (num_zero num) (num_zero num) = true ->
       num_eq num (sq_get_entry num m c r) (num_zero num) = false -> r ∈ rows c) /\
    let cells : list (T * N * N) := cols ≫= (fun c : N => (fun r : N => (sq_get_entry num m c r, c, r)) <$> rows c) in
    sq_entry_count m = N.of_nat (length cells) mod 2 ^ 64 /\
    forall n, map (option_map (fun '(c, (r, e)) => (e, c, r))) (next_calls n (sq_into_iter o m)) =
              first_calls n cells.
Proof.
  intros Hm. apply mrun_inv in Hm as Hi.
  destruct (sq_items_cols num o m Hi) as (cols & rows & Hnd & Hc & Hin & Heq).
  exists cols, rows. split_and!; [done|done| |].
  - intros c r Hz Hne. apply Hin. rewrite sq_get_val in Hne.
    destruct (sq_val m c r) as [e|]; [by exists e|]. simpl in Hne. by rewrite Hz in Hne.
  - intros cells. split.
    + unfold cells. rewrite <- Heq, length_sq_items by done. apply (si_cnt _ Hi).
    + intros n. rewrite next_calls_items. unfold cells. rewrite <- Heq.
      unfold first_calls, sq_items. rewrite fmap_length, map_app, <- fmap_take. f_equal.
      * generalize (take n (hiter_items (sq_into_iter o m))). intros l.
        induction l as [|[c [r e]] l IH]; [done|]. cbn [fmap list_fmap map]. apply (f_equal2 cons); [done|exact IH].
      * generalize (n - length (hiter_items (sq_into_iter o m)))%nat. intros k.
        induction k as [|k IH]; [done|]. cbn [replicate map]. apply (f_equal2 cons); [done|exact IH].
Qed.
Print Assumptions C105_square.

(** The same edges, two columns, forwards and backwards; the fifth and sixth calls return None. *)
Example C105_case :
  next_calls 6 (graph_into_iter plain_order sample_dir) <>
  next_calls 6 (graph_into_iter reversed_order sample_dir) /\
  (forall o, o = plain_order \/ o = reversed_order ->
     exists a b c d, next_calls 6 (graph_into_iter o sample_dir) =
       [Some a; Some b; Some c; Some d; None; None]) /\
  next_calls 2 (graph_into_iter plain_order new_undirected) = [None; None].
Proof.
  split; [|split].
  - vm_compute. discriminate.
  - intros o [-> | ->]; vm_compute; do 4 eexists; reflexivity.
  - vm_compute. reflexivity.
Qed.

Example C105_matrix_case :
  length (omap id (next_calls 5 (adj_into_iter plain_order (arun sample_aops)))) = 2%nat /\
  exists m, mrun plat64 u64_numeric sample_mops = Ret m /\
    length (omap id (next_calls 5 (sq_into_iter plain_order m))) = 2%nat.
Proof. split; [reflexivity|]. apply ret_ex. vm_compute. repeat split. Qed.
