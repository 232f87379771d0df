(** Matrices as finite maps and sets. *)
From Verif Require Import Base HashIter F64 Numeric Adj Sq Spec MatSpec
  HashIterProofs AdjProofs SqProofs.
Local Arguments N.mul : simpl never.
Local Arguments N.add : simpl never.

Section sq.
Context {T : Type} (num : numeric T).

Definition num_is_zero (e : T) : bool := num_eq num e (num_zero num).
Definition num_succ (p : platform) (e : T) : option T :=
  match num_add_one num p e with Ret e' => Some e' | _ => None end.

Record sq_rel (m : sq T) (s : smap T) : Prop := SqRel {
  sr_inv : sq_inv m;
  sr_dim : sq_dim m = sm_dim s;
  sr_val : forall c r, sq_val m c r = sm_cells s !! (c, r);
}.

Lemma sq_rel_new : sq_rel sq_new (SMap 0 ∅).
Proof. constructor; [apply sq_inv_new|done|]. intros c r. rewrite sq_val_new. simpl. by rewrite lookup_empty. Qed.

Lemma sq_rel_count m s : sq_rel m s -> sq_cnt m = N.of_nat (size (sm_cells s)) mod two64.
Proof.
  intros [Hi Hd Hv]. rewrite (si_cnt _ Hi). do 2 f_equal.
  change (size (sm_cells s)) with (length (map_to_list (sm_cells s))).
  rewrite <- (fmap_length fst (map_to_list (sm_cells s))).
  apply Permutation_length, sq_keys_perm; [apply NoDup_fst_map_to_list|].
  intros c r. rewrite Hv, elem_of_list_fmap. split.
  - intros ([k e] & Heq & Hin). simpl in Heq. subst k. apply elem_of_map_to_list in Hin. eauto.
  - intros [e He]. exists ((c, r), e). split; [done|]. by apply elem_of_map_to_list.
Qed.

Lemma mstep_rel p m s op : sq_rel m s ->
  match mstep p num m op, sm_step num_is_zero (num_one num) (num_succ p) s op with
  | Ret m', Some s' => sq_rel m' s'
  | Ret _, None => False
  | _, Some _ => False
  | _, None => True
  end.
Proof.
  intros [Hi Hd Hv]. destruct op as [e c r|c r|c r]; simpl.
  - change (valid_id c && valid_id r) with (both_valid c r). constructor.
    + by apply sq_inv_set.
    + rewrite sq_dim_set. destruct (both_valid c r); [|done]. by rewrite Hd.
    + intros c' r'. rewrite sq_val_set. destruct (both_valid c r); [|apply Hv]. simpl.
      unfold num_is_zero. destruct (num_eq num e (num_zero num)); simpl; [apply Hv|].
      case_bool_decide as E; [destruct E as [-> ->]; by rewrite lookup_insert|].
      rewrite lookup_insert_ne by naive_solver. apply Hv.
  - constructor.
    + by apply sq_inv_zero.
    + by rewrite sq_dim_zero.
    + intros c' r'. rewrite sq_val_zero. simpl.
      case_decide as E; [destruct E as [-> ->]; by rewrite lookup_delete|].
      rewrite lookup_delete_ne by naive_solver. apply Hv.
  - change (valid_id c && valid_id r) with (both_valid c r). rewrite sq_increment_unfold.
    destruct (both_valid c r) eqn:Hb; [|by constructor]. rewrite Hv.
    assert (forall e, sq_rel (sq_put m e c r)
      (SMap (grow_dim (sm_dim s) c r) (<[(c, r) := e]> (sm_cells s)))) as Hput.
    { intros e. constructor.
      - by apply sq_inv_put.
      - simpl. by rewrite Hd.
      - intros c' r'. rewrite sq_val_put. simpl.
        case_decide as E; [destruct E as [-> ->]; by rewrite lookup_insert|].
        rewrite lookup_insert_ne by naive_solver. apply Hv. }
    destruct (sm_cells s !! (c, r)) as [e|]; [|apply Hput].
    unfold num_succ. destruct (num_add_one num p e) as [e'| |]; simpl; auto.
Qed.

Lemma mrun_rel_from p ops m s : sq_rel m s ->
  match ofold (mstep p num) ops m, sm_run num_is_zero (num_one num) (num_succ p) s ops with
  | Ret m', Some s' => sq_rel m' s'
  | Ret _, None => False
  | _, Some _ => False
  | _, None => True
  end.
Proof.
  revert m s. induction ops as [|op ops IH]; intros m s Hr; [done|].
  cbn [ofold sm_run]. pose proof (mstep_rel p m s op Hr) as Hs.
  destruct (mstep p num m op) as [m'| |], (sm_step _ _ _ s op) as [s'|]; simpl; try done.
  by apply IH.
Qed.

Lemma mrun_rel p ops :
  match mrun p num ops, sm_run num_is_zero (num_one num) (num_succ p) (SMap 0 ∅) ops with
  | Ret m', Some s' => sq_rel m' s'
  | Ret _, None => False
  | _, Some _ => False
  | _, None => True
  end.
Proof. apply mrun_rel_from, sq_rel_new. Qed.

Lemma mrun_inv p ops m : mrun p num ops = Ret m -> sq_inv m.
Proof.
  intros Hm. pose proof (mrun_rel p ops) as H. rewrite Hm in H.
  destruct (sm_run _ _ _ _ _); [|done]. apply H.
Qed.

(** A property of stored values kept by sets of non-zero values and by increments. *)
Lemma mrun_values (P : T -> Prop) p ops m :
  (forall e c r, MSet e c r ∈ ops -> num_is_zero e = false -> P e) ->
  ((exists c r, MInc c r ∈ ops) -> P (num_one num) /\
     forall e e', P e -> num_add_one num p e = Ret e' -> P e') ->
  mrun p num ops = Ret m -> forall c r e, sq_val m c r = Some e -> P e.
Proof.
  unfold mrun. intros Hset Hinc.
  assert (forall c r e, sq_val (sq_new (T := T)) c r = Some e -> P e) as H0
    by (intros; by rewrite sq_val_new in *).
  revert H0. generalize (sq_new (T := T)).
  induction ops as [|op ops IH]; intros m0 H0; [by intros [= <-]|]. cbn [ofold].
  destruct (mstep p num m0 op) as [m1| |] eqn:Hs; [|done..]. simpl. apply IH.
  - intros e c r He. apply (Hset e c r). by right.
  - intros (c & r & Hcr). apply Hinc. exists c, r. by right.
  - intros c r e. destruct op as [e0 c0 r0|c0 r0|c0 r0]; simpl in Hs.
    + injection Hs as <-. rewrite sq_val_set. destruct (both_valid c0 r0); [|apply H0]. simpl.
      destruct (num_eq num e0 (num_zero num)) eqn:Ez; simpl; [apply H0|].
      case_bool_decide; [|apply H0]. intros [= <-]. apply (Hset e0 c0 r0); [left|done].
    + injection Hs as <-. rewrite sq_val_zero. case_decide; [done|apply H0].
    + destruct Hinc as [H1 H2]; [exists c0, r0; left|].
      rewrite sq_increment_unfold in Hs. destruct (both_valid c0 r0); [|injection Hs as <-; apply H0].
      destruct (sq_val m0 c0 r0) as [e0|] eqn:E0.
      * destruct (num_add_one num p e0) as [e1| |] eqn:E1; simpl in Hs; [|done..].
        injection Hs as <-. rewrite sq_val_put. case_decide; [|apply H0].
        intros [= <-]. eapply H2; [|done]. by apply (H0 c0 r0).
      * injection Hs as <-. rewrite sq_val_put. case_decide; [|apply H0]. by intros [= <-].
Qed.

(** When every stored value is non-zero, entry_count counts the non-zero cells. *)
Lemma nonzero_card m : sq_inv m -> num_is_zero (num_zero num) = true ->
  (forall c r e, sq_val m c r = Some e -> num_is_zero e = false) ->
  has_card (fun '(c, r) => num_is_zero (sq_get_entry num m c r) = false)
    (N.of_nat (length (sq_keys m))).
Proof.
  intros Hi Hz Hnz. exists (sq_keys m). split_and!; [apply NoDup_sq_keys| |done].
  intros [c r]. rewrite elem_of_sq_keys, sq_get_val. split.
  - intros [e He]. rewrite He. simpl. by apply (Hnz c r).
  - destruct (sq_val m c r); [eauto|]. simpl. by rewrite Hz.
Qed.

End sq.

(** ** Adjacency matrices *)

Record adj_rel (m : adj) (s : sset) : Prop := AdjRel {
  ar_inv : adj_inv m;
  ar_dim : adj_dim m = ss_dim s;
  ar_has : forall c r, adj_has m c r <-> (c, r) ∈ ss_cells s;
}.

Lemma adj_rel_new : adj_rel adj_new (SSet 0 ∅).
Proof.
  constructor; [apply adj_inv_new|done|]. intros c r. split; [|set_solver].
  intros (s & Hs & _). simpl in Hs. by rewrite lookup_empty in Hs.
Qed.

Lemma astep_rel m s op : adj_rel m s -> adj_rel (astep m op) (ss_step s op).
Proof.
  intros [Hi Hd Hh]. destruct op as [e c r|c r]; simpl.
  - change (valid_id c && valid_id r) with (both_valid c r). constructor.
    + by apply adj_inv_set.
    + rewrite adj_dim_set. destruct (both_valid c r); [|done]. by rewrite Hd.
    + intros c' r'. rewrite adj_has_set, Hh. destruct (both_valid c r); [|naive_solver].
      destruct (N.eqb_spec e 0); simpl; [naive_solver|].
      rewrite elem_of_union, elem_of_singleton. naive_solver.
  - constructor; simpl.
    + by apply adj_inv_zero.
    + by rewrite adj_dim_zero.
    + intros c' r'. rewrite adj_has_zero, Hh, elem_of_difference, elem_of_singleton. naive_solver.
Qed.

Lemma arun_rel ops : adj_rel (arun ops) (ss_run ops).
Proof.
  unfold arun, ss_run. pose proof adj_rel_new as Hr. revert Hr.
  generalize adj_new, (SSet 0 ∅). induction ops as [|op ops IH]; intros m s Hr; [done|].
  simpl. by apply IH, astep_rel.
Qed.

Lemma adj_rel_count m s : adj_rel m s -> adj_cnt m = N.of_nat (size (ss_cells s)) mod two64.
Proof.
  intros [Hi Hd Hh]. rewrite (ai_cnt _ Hi). do 2 f_equal.
  unfold size, set_size; simpl. apply Permutation_length.
  apply NoDup_Permutation; [apply NoDup_adj_list|apply NoDup_elements|].
  intros [c r]. rewrite elem_of_adj_list, elem_of_elements. apply Hh.
Qed.
