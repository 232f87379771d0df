(** Matrix texts: layout, length, injectivity, and the adjacency matrix printer. *)
From Coq Require Import Ascii String.
From Verif Require Import Base HashIter F64 Numeric Adj Sq Standard Spec Api Compressed
  AdjProofs GraphProofs BitsProofs.
Local Arguments N.mul : simpl never.
Local Arguments N.add : simpl never.

(** ** Joining *)

Lemma join_cons sep x y l : join sep (x :: y :: l) = x ++ sep ++ join sep (y :: l).
Proof. done. Qed.

Lemma join_snoc sep l z : join sep (l ++ [z]) = (l ≫= fun x => x ++ sep) ++ z.
Proof.
  induction l as [|x l IH]; [done|].
  assert (join sep ((x :: l) ++ [z]) = x ++ sep ++ join sep (l ++ [z])) as ->.
  { destruct l; done. }
  rewrite IH, bind_cons. by rewrite <- !app_assoc.
Qed.

Lemma join_length sep l k :
  Forall (fun x => length x = k) l -> l <> [] ->
  length (join sep l) = (length l * k + (length l - 1) * length sep)%nat.
Proof.
  intros H Hne. destruct (exists_last Hne) as (l' & z & ->). clear Hne.
  rewrite join_snoc, !app_length. apply Forall_app in H as [Hl Hz].
  apply Forall_cons in Hz as [Hz _]. rewrite Hz. simpl length.
  assert (length (l' ≫= fun x => x ++ sep) = (length l' * (k + length sep))%nat) as ->.
  { clear Hz. induction Hl as [|x l' Hx Hl IH]; [done|]. rewrite bind_cons, !app_length, IH, Hx. simpl. lia. }
  replace (length l' + 1 - 1)%nat with (length l') by lia. lia.
Qed.

Lemma join_inj sep l l' :
  Forall2 (fun x y => length x = length y) l l' -> join sep l = join sep l' -> l = l'.
Proof.
  induction 1 as [|x y l l' Hxy Hall IH]; [done|]. intros Heq.
  destruct Hall as [|x2 y2 l l' Hxy2 Hall].
  - simpl in Heq. by subst.
  - rewrite !join_cons in Heq. apply app_inj_1 in Heq as [-> Heq]; [|done].
    apply app_inj_1 in Heq as [_ Heq]; [|done]. f_equal. by apply IH.
Qed.

(** ** Loops over rows or columns *)

Lemma fold_append {A} (f : N -> list A) l buf :
  fold_left (fun b i => b ++ f i) l buf = buf ++ (l ≫= f).
Proof.
  revert buf. induction l as [|i l IH]; intros buf; simpl.
  - by rewrite app_nil_r.
  - rewrite IH. by rewrite <- app_assoc.
Qed.

Lemma range_last n : n <> 0 -> range n = range (n - 1) ++ [n - 1].
Proof.
  intros Hn. replace n with (N.succ (n - 1)) at 1 by lia.
  unfold range. rewrite N2Nat.inj_succ, seq_S, fmap_app. simpl. by rewrite N2Nat.id.
Qed.

Lemma fold_join (x : N -> text) sep last n buf : n <> 0 ->
  fold_left (fun b i => if negb (i =? n - 1) then (b ++ x i) ++ sep else (b ++ x i) ++ last)
    (range n) buf = buf ++ join sep (x <$> range n) ++ last.
Proof.
  intros Hn. rewrite range_last by done. rewrite fold_left_app, fmap_app.
  change (x <$> [n - 1]) with [x (n - 1)]. rewrite join_snoc.
  assert (forall l b, (forall i, i ∈ l -> i < n - 1) ->
    fold_left (fun b i => if negb (i =? n - 1) then (b ++ x i) ++ sep else (b ++ x i) ++ last) l b
    = b ++ ((x <$> l) ≫= fun t => t ++ sep)) as Hl.
  { induction l as [|i l IH]; intros b Hb; cbn [fold_left].
    - simpl. by rewrite app_nil_r.
    - destruct (N.eqb_spec i (n - 1)); [specialize (Hb i ltac:(left)); lia|]. cbn [negb].
      rewrite IH by (intros j Hj; apply Hb; by right).
      rewrite fmap_cons, bind_cons. by rewrite <- !app_assoc. }
  rewrite (Hl (range (n - 1))) by (intros i Hi; apply elem_of_range in Hi; lia). simpl. rewrite N.eqb_refl. simpl.
  by rewrite <- !app_assoc.
Qed.

Lemma fold_left_ext {A B} (f f' : A -> B -> A) l a :
  (forall a b, f a b = f' a b) -> fold_left f l a = fold_left f' l a.
Proof.
  intros H. revert a. induction l as [|b l IH]; intros a; simpl; [done|]. by rewrite H, IH.
Qed.

(** ** matrix_text *)

Definition row_text (n : N) (cell : N -> N -> text) (row : N) : text :=
  txt "[ " ++ join (txt ", ") ((fun col => cell col row) <$> range n) ++ txt " ]".

Lemma matrix_text_rows n cell : matrix_text n cell = join [cr; lf] (row_text n cell <$> range n).
Proof. done. Qed.

Lemma matrix_text_ext n cell cell' :
  (forall c r, c < n -> r < n -> cell c r = cell' c r) -> matrix_text n cell = matrix_text n cell'.
Proof.
  intros H. rewrite !matrix_text_rows. f_equal. apply list_fmap_ext. intros i r Hr.
  apply elem_of_list_lookup_2, elem_of_range in Hr. unfold row_text. do 2 f_equal.
  f_equal. apply list_fmap_ext. intros j c Hc. apply elem_of_list_lookup_2, elem_of_range in Hc. auto.
Qed.

Lemma row_text_length n cell row w : n <> 0 ->
  (forall c r, c < n -> r < n -> length (cell c r) = w) -> row < n ->
  length (row_text n cell row) = (4 + N.to_nat n * w + 2 * (N.to_nat n - 1))%nat.
Proof.
  intros Hn Hw Hrow. unfold row_text. rewrite !app_length.
  rewrite (join_length _ _ w).
  - rewrite fmap_length, length_range. simpl length. lia.
  - apply Forall_forall. intros t Ht. apply elem_of_list_fmap in Ht as (c & -> & Hc).
    apply elem_of_range in Hc. auto.
  - intros H. apply (f_equal length) in H. rewrite fmap_length, length_range in H. simpl in H. lia.
Qed.

Lemma matrix_text_length n cell w : n <> 0 ->
  (forall c r, c < n -> r < n -> length (cell c r) = w) ->
  N.of_nat (length (matrix_text n cell)) = (N.of_nat w + 2) * (n * n) + 4 * n - 2.
Proof.
  intros Hn Hw. rewrite matrix_text_rows.
  rewrite (join_length _ _ (4 + N.to_nat n * w + 2 * (N.to_nat n - 1))).
  - rewrite fmap_length, length_range. simpl length. nia.
  - apply Forall_forall. intros t Ht. apply elem_of_list_fmap in Ht as (r & -> & Hr).
    apply elem_of_range in Hr. by apply row_text_length.
  - intros H. apply (f_equal length) in H. rewrite fmap_length, length_range in H. simpl in H. lia.
Qed.

Lemma fmap_range_inj {A} n (f f' : N -> A) i :
  f <$> range n = f' <$> range n -> i < n -> f i = f' i.
Proof.
  intros Heq Hi. apply elem_of_range in Hi. revert Heq Hi.
  induction (range n) as [|j l IH]; intros Heq Hin; [by apply elem_of_nil in Hin|].
  injection Heq as Hj Heq. apply elem_of_cons in Hin as [->|Hin]; auto.
Qed.

Lemma Forall2_fmap_same {A B} (R : B -> B -> Prop) (f f' : A -> B) l :
  (forall x, x ∈ l -> R (f x) (f' x)) -> Forall2 R (f <$> l) (f' <$> l).
Proof.
  intros H. induction l as [|x l IH]; constructor; [apply H; left|]. apply IH. intros y Hy.
  apply H. by right.
Qed.

Lemma matrix_text_inj n n' cell cell' w :
  (forall c r, c < n -> r < n -> length (cell c r) = w) ->
  (forall c r, c < n' -> r < n' -> length (cell' c r) = w) ->
  matrix_text n cell = matrix_text n' cell' ->
  n = n' /\ forall c r, c < n -> r < n -> cell c r = cell' c r.
Proof.
  intros Hw Hw' Heq.
  assert (n = n') as <-.
  { destruct (N.eq_dec n 0) as [->|Hn], (N.eq_dec n' 0) as [->|Hn']; [done|..].
    - apply (f_equal (fun t => N.of_nat (length t))) in Heq.
      rewrite (matrix_text_length n' cell' w) in Heq by done. simpl in Heq. nia.
    - apply (f_equal (fun t => N.of_nat (length t))) in Heq.
      rewrite (matrix_text_length n cell w) in Heq by done. simpl in Heq. nia.
    - apply (f_equal (fun t => N.of_nat (length t))) in Heq.
      rewrite (matrix_text_length n cell w), (matrix_text_length n' cell' w) in Heq by done.
      destruct (N.lt_trichotomy n n') as [Hlt|[?|Hlt]]; [|done|]; exfalso.
      + assert (n * n <= n' * n') as Hsq by nia.
        apply (N.mul_le_mono_l _ _ (N.of_nat w + 2)) in Hsq. lia.
      + assert (n' * n' <= n * n) as Hsq by nia.
        apply (N.mul_le_mono_l _ _ (N.of_nat w + 2)) in Hsq. lia. }
  split; [done|]. intros c r Hc Hr.
  assert (n <> 0) as Hn by lia.
  rewrite !matrix_text_rows in Heq. apply join_inj in Heq.
  2:{ apply Forall2_fmap_same. intros i Hi. apply elem_of_range in Hi.
      by rewrite !(row_text_length n _ i w). }
  apply (fmap_range_inj n _ _ r) in Heq; [|done]. unfold row_text in Heq.
  apply app_inj_1 in Heq as [_ Heq]; [|done].
  apply app_inj_2 in Heq as [Heq _]; [|done].
  apply join_inj in Heq.
  2:{ apply Forall2_fmap_same. intros i Hi. apply elem_of_range in Hi.
      by rewrite Hw, Hw'. }
  by apply (fmap_range_inj n _ _ c) in Heq.
Qed.

(** ** The adjacency matrix printer *)

Definition adj_cell (m : adj) (col row : N) : text :=
  if adj_get_entry m col row =? 0 then txt "0" else txt "1".

Lemma adj_render_text m : adj_dim m <> 0 -> adj_render m = matrix_text (adj_dim m) (adj_cell m).
Proof.
  intros Hn. unfold adj_render.
  transitivity (fold_left (fun b row =>
     if negb (row =? adj_dim m - 1) then (b ++ row_text (adj_dim m) (adj_cell m) row) ++ [cr; lf]
     else (b ++ row_text (adj_dim m) (adj_cell m) row) ++ []) (range (adj_dim m)) []).
  - apply fold_left_ext. intros b row.
    cbv beta zeta.
    pose proof (fold_join (fun col => adj_cell m col row) (txt ", ") (txt " ") (adj_dim m)
      (b ++ txt "[ ") Hn) as HF.
    match type of HF with _ = ?r =>
      match goal with |- context [fold_left ?f ?l ?a] =>
        replace (fold_left f l a) with r by (symmetry; exact HF)
      end
    end. clear HF.
    assert (((b ++ txt "[ ") ++ join (txt ", ") ((fun col => adj_cell m col row) <$> range (adj_dim m)) ++ txt " ")
      ++ txt "]" = b ++ row_text (adj_dim m) (adj_cell m) row) as ->.
    { unfold row_text. rewrite <- !app_assoc. done. }
    destruct (negb _); [done|]. by rewrite app_nil_r.
  - rewrite fold_join by done. by rewrite app_nil_r.
Qed.

Lemma adj_text_size_eq p m : adj_dim m <> 0 ->
  let size := 3 * (adj_dim m * adj_dim m) + 4 * adj_dim m - 2 in
  if 3 * (adj_dim m * adj_dim m) + 4 * adj_dim m <=? usize_max p
  then adj_text_size p m = Ok size
  else exists msg, adj_text_size p m = Err (CapacityOverflow msg).
Proof.
  intros Hn size. unfold adj_text_size, usize_try_from, checked_mulU, checked_addU, checked_subU.
  unfold size. set (n := adj_dim m) in *.
  destruct (N.leb_spec n (usize_max p)); cbn [ok_or rbind].
  2:{ destruct (N.leb_spec (3 * (n * n) + 4 * n) (usize_max p)); [nia|]. eauto. }
  destruct (N.leb_spec (n * n) (usize_max p)); cbn [ok_or rbind].
  2:{ destruct (N.leb_spec (3 * (n * n) + 4 * n) (usize_max p)); [nia|]. eauto. }
  destruct (N.leb_spec (4 * n) (usize_max p)); simpl.
  2:{ destruct (N.leb_spec (3 * (n * n) + 4 * n) (usize_max p)); [nia|]. eauto. }
  destruct (N.leb_spec (3 * (n * n)) (usize_max p)); simpl.
  2:{ destruct (N.leb_spec (3 * (n * n) + 4 * n) (usize_max p)); [nia|]. eauto. }
  destruct (N.leb_spec (3 * (n * n) + 4 * n) (usize_max p)); simpl; [|eauto].
  destruct (N.leb_spec 2 (3 * (n * n) + 4 * n)); simpl; [done|nia].
Qed.

Lemma adj_cell_length m c r : length (adj_cell m c r) = 1%nat.
Proof. unfold adj_cell. by destruct (_ =? 0). Qed.

Lemma adj_string_eq p m : 
  adj_try_to_string p m = Ok (matrix_text (adj_dim m) (adj_cell m)) \/
  (exists msg, adj_try_to_string p m = Err (CapacityOverflow msg)).
Proof.
  unfold adj_try_to_string. destruct (N.eqb_spec (adj_dim m) 0) as [H0|Hn].
  - left. by rewrite H0.
  - pose proof (adj_text_size_eq p m Hn) as Hs. cbv zeta in Hs.
    destruct (_ <=? _).
    + rewrite Hs. cbn [rbind]. destruct (can_alloc p _); [|right; eauto]. left.
      by rewrite adj_render_text.
    + destruct Hs as [msg ->]. right. simpl. eauto.
Qed.

(** Success exactly when the size fits and is granted. *)
Lemma adj_string_ok_iff p m : adj_dim m <> 0 ->
  (exists s, adj_try_to_string p m = Ok s) <->
  3 * (adj_dim m * adj_dim m) + 4 * adj_dim m <= usize_max p /\
  can_alloc p (3 * (adj_dim m * adj_dim m) + 4 * adj_dim m - 2) = true.
Proof.
  intros Hn. unfold adj_try_to_string. destruct (N.eqb_spec (adj_dim m) 0); [done|].
  pose proof (adj_text_size_eq p m Hn) as Hs. cbv zeta in Hs.
  destruct (N.leb_spec (3 * (adj_dim m * adj_dim m) + 4 * adj_dim m) (usize_max p)).
  - rewrite Hs. cbn [rbind]. destruct (can_alloc p _).
    + split; [done|]. eauto.
    + split; [by intros [s ?]|]. by intros [_ ?].
  - destruct Hs as [msg ->]. simpl. split; [by intros [s ?]|]. lia.
Qed.
