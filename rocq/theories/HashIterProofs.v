(** Facts about the iterator state machine. *)
From Verif Require Import Base HashIter.

(** Everything a table of tables contains, in the given order. *)
Definition flat {V} (cols : list (N * list V)) : list (N * V) :=
  cols ≫= fun '(c, items) => (c,.) <$> items.

(** What is left to yield. *)
Definition remaining {V} (it : hiter V) : list (N * V) :=
  ((it_cur it,.) <$> from_option id [] (it_row it)) ++ flat (it_cols it).

Lemma flat_cons {V} c (items : list V) cols :
  flat ((c, items) :: cols) = ((c,.) <$> items) ++ flat cols.
Proof. reflexivity. Qed.

Lemma length_flat {V} (cols : list (N * list V)) :
  length (flat cols) = sum_list (length ∘ snd <$> cols).
Proof.
  induction cols as [|[c items] cols IH]; [done|].
  rewrite flat_cons, app_length, fmap_length, IH. done.
Qed.

Lemma hiter_loop_spec {V} dim (cols : list (N * list V)) row cur :
  match hiter_loop dim cols row cur with
  | (None, it') => remaining (HIter dim cols row cur) = [] /\ it_dim it' = dim
                   /\ remaining it' = []
  | (Some x, it') => remaining (HIter dim cols row cur) = x :: remaining it'
                     /\ it_dim it' = dim
  end.
Proof.
  revert row cur. induction cols as [|[c items] cols IH]; intros row cur.
  - destruct row as [[|r rs]|]; simpl; unfold remaining; simpl; auto.
  - assert (forall row', from_option id [] row' = [] ->
      remaining (HIter dim ((c, items) :: cols) row' cur)
      = remaining (HIter dim cols (Some items) c)) as Heq.
    { intros row' Hr. unfold remaining; cbn [it_cur it_row it_cols].
      rewrite Hr, flat_cons. done. }
    specialize (IH (Some items) c).
    destruct row as [[|r rs]|].
    + rewrite Heq by done. exact IH.
    + cbn [hiter_loop]. unfold remaining; simpl. auto.
    + rewrite Heq by done. exact IH.
Qed.

Lemma hiter_run_spec {V} fuel (it : hiter V) :
  it_dim it <> 0 -> (length (remaining it) < fuel)%nat ->
  hiter_run fuel it = Some (remaining it).
Proof.
  revert it. induction fuel as [|fuel IH]; intros it Hd Hlen; [lia|].
  cbn [hiter_run]. unfold hiter_next.
  destruct (N.eqb_spec (it_dim it) 0) as [|_]; [done|].
  pose proof (hiter_loop_spec (it_dim it) (it_cols it) (it_row it) (it_cur it)) as H.
  assert (HIter (it_dim it) (it_cols it) (it_row it) (it_cur it) = it) as Hit by (by destruct it).
  rewrite Hit in H.
  destruct (hiter_loop _ _ _ _) as [[x|] it'].
  - destruct H as [H Hd']. rewrite H in Hlen |- *. simpl in Hlen.
    rewrite IH; [done| |lia]. rewrite Hd'. done.
  - destruct H as [H _]. rewrite H. done.
Qed.

Lemma hiter_fuel_remaining {V} (it : hiter V) : hiter_fuel it = S (length (remaining it)).
Proof.
  unfold hiter_fuel, remaining. rewrite app_length, fmap_length, length_flat. done.
Qed.

(** The fuel given to the loop is always enough. *)
Lemma hiter_items_run {V} (it : hiter V) :
  hiter_run (hiter_fuel it) it = Some (hiter_items it).
Proof.
  unfold hiter_items. destruct (N.eq_dec (it_dim it) 0) as [Hd|Hd].
  - rewrite hiter_fuel_remaining. cbn [hiter_run]. unfold hiter_next.
    rewrite Hd. done.
  - rewrite hiter_run_spec; [done|done|]. rewrite hiter_fuel_remaining. lia.
Qed.

Lemma hiter_items_remaining {V} (it : hiter V) :
  it_dim it <> 0 -> hiter_items it = remaining it.
Proof.
  intros Hd. unfold hiter_items. rewrite hiter_run_spec; [done|done|].
  rewrite hiter_fuel_remaining. lia.
Qed.

Lemma hiter_items_zero {V} (it : hiter V) : it_dim it = 0 -> hiter_items it = [].
Proof.
  intros Hd. unfold hiter_items. rewrite hiter_fuel_remaining.
  cbn [hiter_run]. unfold hiter_next. rewrite Hd. done.
Qed.

(** An exhausted iterator stays exhausted. *)
Lemma hiter_next_fused {V} (it it' : hiter V) :
  hiter_next it = (None, it') -> (hiter_next it').1 = None.
Proof.
  unfold hiter_next. destruct (N.eqb_spec (it_dim it) 0) as [Hd|Hd].
  - intros [= <-]. rewrite Hd. done.
  - intros H.
    pose proof (hiter_loop_spec (it_dim it) (it_cols it) (it_row it) (it_cur it)) as Hs.
    rewrite H in Hs. destruct Hs as (_ & Hd' & Hr).
    rewrite Hd'. destruct (N.eqb_spec (it_dim it) 0); [done|].
    pose proof (hiter_loop_spec (it_dim it') (it_cols it') (it_row it') (it_cur it')) as Hs.
    assert (HIter (it_dim it') (it_cols it') (it_row it') (it_cur it') = it') as Hit
      by (by destruct it').
    rewrite Hit, Hr in Hs. rewrite <- Hd'.
    clear H. destruct (hiter_loop _ _ _ _) as [[x|] it'']; [|done].
    destruct Hs as [Hs _]. done.
Qed.

(** ** Membership and absence of repetition in a flattened table *)

Lemma elem_of_flat {V} (cols : list (N * list V)) c v :
  (c, v) ∈ flat cols <-> exists items, (c, items) ∈ cols /\ v ∈ items.
Proof.
  unfold flat. rewrite elem_of_list_bind. split.
  - intros ([c' items] & Hin & Hcol).
    apply elem_of_list_fmap in Hin as (v' & [= -> ->] & Hv). eauto.
  - intros (items & Hcol & Hv). exists (c, items). split; [|done].
    apply elem_of_list_fmap. eauto.
Qed.

Lemma NoDup_flat {V} (cols : list (N * list V)) :
  NoDup cols.*1 -> Forall (fun ci => NoDup ci.2) cols -> NoDup (flat cols).
Proof.
  induction cols as [|[c items] cols IH]; intros Hnd Hall; [constructor|].
  inversion Hnd as [|? ? Hc Hnd']; subst. inversion Hall as [|? ? Hi Hall']; subst.
  rewrite flat_cons. apply NoDup_app. split_and!.
  - apply NoDup_fmap_2; [|done]. intros ? ? [= ->]. done.
  - intros [c' v] Hin Hin'. apply elem_of_list_fmap in Hin as (v' & [= -> ->] & _).
    apply elem_of_flat in Hin' as (items' & Hin' & _).
    apply Hc. apply elem_of_list_fmap. exists (c, items'). done.
  - auto.
Qed.

(** After the end the iterator does not change any more. *)
Lemma hiter_next_end {V} (it it' : hiter V) :
  hiter_next it = (None, it') -> hiter_next it' = (None, it').
Proof.
  unfold hiter_next. destruct (N.eqb_spec (it_dim it) 0) as [Hd|Hd].
  - intros [= <-]. by rewrite Hd.
  - generalize (it_cur it), (it_row it). revert Hd. generalize (it_dim it) as d.
    induction (it_cols it) as [|[c items] cols IH]; intros d Hd cur row.
    + simpl. destruct row as [[|x row]|]; [|done|]; intros [= <-]; simpl;
        by destruct (N.eqb_spec d 0).
    + simpl. destruct row as [[|x row]|]; [|done|]; apply IH; done.
Qed.
