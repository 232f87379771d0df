(** Invariants of the heaps C programs produce, and texts without NUL. *)
From Coq Require Import ZArith Ascii String.
From Verif Require Import Base HashIter F64 Numeric Adj Sq Standard Compressed Spec TextSpec Api
  CApi CSpec AdjProofs SqProofs GraphProofs TextProofs SqTextProofs NumTextProofs SqShowProofs
  BitsProofs FloatTextProofs CApiProofs.
Local Arguments N.mul : simpl never.
Local Arguments N.add : simpl never.
Local Arguments N.pow : simpl never.

(** ** Objects behind handles *)

Definition obj_ok (p : platform) (x : cobj) : Prop :=
  match x with
  | OGraph g => reach p g
  | OCompressed cg => creach p cg
  | OMatrix m => exists g o b, reach p g /\ is_u64 b /\ find_avg_pool_matrix p o g b = Ret m
  | _ => True
  end.

Definition heap_ok (p : platform) (h : cheap) : Prop :=
  h !! null = None /\ forall a x, h !! a = Some x -> obj_ok p x.

Lemma heap_ok_insert p h a x : heap_ok p h -> a <> null -> obj_ok p x -> heap_ok p (<[a := x]> h).
Proof.
  intros [H1 H2] Ha Hx. split; [by rewrite lookup_insert_ne|].
  intros b y Hb. destruct (decide (a = b)) as [->|Hn].
  - rewrite lookup_insert in Hb. by injection Hb as <-.
  - rewrite lookup_insert_ne in Hb by done. by eapply H2.
Qed.

Lemma heap_ok_delete p h a : heap_ok p h -> heap_ok p (delete a h).
Proof.
  intros [H1 H2]. split; [apply lookup_delete_None; by right|].
  intros b y Hb. apply lookup_delete_Some in Hb as [_ Hb]. by eapply H2.
Qed.

Lemma alloc_null e h : wf_alloc_fn (ce_alloc e) -> ce_alloc e h <> null.
Proof. intros H. apply H. Qed.

Lemma slice_take p l n : is_slice p l -> is_slice p (take n l).
Proof.
  intros [H1 H2]. split; [by apply Forall_take|]. rewrite take_length. lia.
Qed.

Lemma slice_nil p : is_slice p [].
Proof. split; [constructor|]. simpl. lia. Qed.

Ltac solve_heap Hok Hal :=
  repeat first
    [ exact Hok
    | apply heap_ok_delete
    | apply heap_ok_insert;
      [|first [assumption|apply (alloc_null _ _ Hal)]|try exact I] ].

Lemma call_heap_ok p e c h v h' : heap_ok p h -> ce_platform e = p -> wf_alloc_fn (ce_alloc e) ->
  args_ok p h c -> cexec e c h = Done v h' -> heap_ok p h'.
Proof.
  intros Hok Hp Hal Hargs H. pose proof (proj2 Hok) as Hobj.
  cinv c; cbn [args_ok] in Hargs; repeat cinv_step; subst; try done;
    solve_heap Hok Hal; cbn [obj_ok];
    repeat match goal with
    | H : h !! _ = Some (OGraph _) |- _ => apply Hobj in H; cbn [obj_ok] in H
    | H : h !! _ = Some (OCompressed _) |- _ => apply Hobj in H; cbn [obj_ok] in H
    | H : h !! _ = Some (OMatrix _) |- _ => apply Hobj in H; cbn [obj_ok] in H
    end; try (by constructor); try done; try (by eauto using reach, creach);
    try (match goal with
    | H : graph_try_from _ [] = _ |- _ => apply (r_try_from _ _ _ (slice_nil _) H)
    | H : cgraph_try_from _ [] = _ |- _ => apply (cr_try_from _ _ _ (slice_nil _) H)
    end).
  - eapply r_try_from; [|eassumption]. apply slice_take;
    match goal with H : forall l, _ -> is_slice _ l |- _ => apply H end.
    destruct_or!; eauto.
  - eapply r_try_from; [|eassumption]. apply slice_take;
    match goal with H : forall l, _ -> is_slice _ l |- _ => apply H end.
    match goal with H : <[_ := _]> h !! _ = _ \/ _ |- _ =>
      destruct H as [H|H]; apply lookup_insert_Some in H as [[_ ?]|[_ ?]]; try done; eauto end.
  - naive_solver.
  - constructor; [done|done|constructor].
  - constructor; [done|done|]. apply Forall_take.
    match goal with H : forall l, _ -> is_u64_slice l |- _ => by apply H end.
  - eapply cr_try_from; [|eassumption]. apply slice_take;
    match goal with H : forall l, _ -> is_slice _ l |- _ => apply H end.
    destruct_or!; eauto.
  - eapply cr_try_from; [|eassumption]. apply slice_take;
    match goal with H : forall l, _ -> is_slice _ l |- _ => apply H end.
    match goal with H : <[_ := _]> h !! _ = _ \/ _ |- _ =>
      destruct H as [H|H]; apply lookup_insert_Some in H as [[_ ?]|[_ ?]]; try done; eauto end.
Qed.

Lemma c_reach_ok p h : c_reach p h -> heap_ok p h.
Proof.
  induction 1 as [|e c v h h' _ IH Hp Hal Hargs H|ev v h h' _ IH Hev H].
  - split; [done|]. intros a x. by rewrite lookup_empty.
  - by eapply call_heap_ok.
  - destruct ev as [e c|a x|a x|a]; [by destruct (Hev e c)|..]; simpl in H.
    + destruct (is_client x) eqn:Ex; [|done]. destruct (N.eqb_spec a null); [done|].
      destruct (negb (bool_decide (is_Some (h !! a)))); [|done]. simpl in H. injection H as <- <-.
      apply heap_ok_insert; [done|done|]. by destruct x.
    + destruct (h !! a) as [y|] eqn:Ea; [|done]. destruct (is_client x) eqn:Ex; [|done].
      destruct (is_client y); [|done]. injection H as <- <-.
      apply heap_ok_insert; [done| |by destruct x]. intros ->. by rewrite (proj1 IH) in Ea.
    + destruct (h !! a) as [y|] eqn:Ea; [|done]. destruct (is_client y); [|done].
      injection H as <- <-. by apply heap_ok_delete.
Qed.

(** ** Texts without NUL *)

Definition nul_free (s : text) : Prop := existsb (fun c => (c =? "000")%char) s = false.

Lemma nul_free_app s t : nul_free (s ++ t) <-> nul_free s /\ nul_free t.
Proof. unfold nul_free. by rewrite existsb_app, orb_false_iff. Qed.

Lemma nul_free_replicate k c : c <> "000"%char -> nul_free (replicate k c).
Proof.
  intros Hc. unfold nul_free. induction k as [|k IH]; [done|]. simpl. rewrite IH.
  destruct (Ascii.eqb_spec c "000"); done.
Qed.

Lemma nul_free_cons c s : c <> "000"%char -> nul_free s -> nul_free (c :: s).
Proof.
  intros Hc Hs. unfold nul_free. simpl. rewrite Hs. destruct (Ascii.eqb_spec c "000"); done.
Qed.

Lemma nul_free_digits s : forallb is_digit s = true -> nul_free s.
Proof.
  induction s as [|c s IH]; [done|]. simpl. intros H. apply andb_true_iff in H as [H1 H2].
  apply nul_free_cons; [|by apply IH]. by intros ->.
Qed.

Lemma nul_free_join sep l : nul_free sep -> (forall t, t ∈ l -> nul_free t) -> nul_free (join sep l).
Proof.
  intros Hs. induction l as [|x l IH]; intros Hl; [done|].
  assert (nul_free x) as Hx by (apply Hl; left).
  destruct l as [|y l]; [done|]. rewrite join_cons, !nul_free_app.
  split_and!; [done|done|]. apply IH. intros t Ht. apply Hl. by right.
Qed.

Lemma nul_free_matrix n cell : (forall c r, c < n -> r < n -> nul_free (cell c r)) ->
  nul_free (matrix_text n cell).
Proof.
  intros H. unfold matrix_text. apply nul_free_join; [done|].
  intros t Ht. apply elem_of_list_fmap in Ht as (r & -> & Hr). apply elem_of_range in Hr.
  rewrite !nul_free_app. split_and!; [done| |done]. apply nul_free_join; [done|].
  intros t Ht. apply elem_of_list_fmap in Ht as (c & -> & Hc). apply elem_of_range in Hc. auto.
Qed.

Lemma nul_free_shows n (shows : N -> N -> text -> Prop) s : (forall c r t, c < n -> r < n -> shows c r t -> nul_free t) ->
  shows_matrix n shows s -> nul_free s.
Proof.
  intros Hs (w & cell & -> & Hc). apply nul_free_matrix. intros c r Hcn Hrn.
  destruct (Hc c r Hcn Hrn) as (_ & k & t & -> & Ht). apply nul_free_app.
  split; [by apply nul_free_replicate|]. exact (Hs c r t Hcn Hrn Ht).
Qed.

Lemma nul_free_signed t z : signed_decimal t z -> nul_free t.
Proof.
  intros (t' & (Hd & _) & ->). apply nul_free_app. split; [by destruct (z <? 0)%Z|].
  by apply nul_free_digits.
Qed.

Lemma nul_free_integer d z t : integer_text d z t -> nul_free t.
Proof.
  intros (t' & Ht & ->). apply nul_free_app. split; [by eapply nul_free_signed|].
  destruct (d =? 0); [done|]. apply nul_free_cons; [done|]. by apply nul_free_replicate.
Qed.

Lemma nul_free_fixed d q t : fixed_point d q t -> nul_free t.
Proof.
  intros (ip & fp & (Hi & _) & Hf & _ & _ & ->). apply nul_free_app.
  split; [by apply nul_free_digits|]. destruct (d =? 0); [done|].
  apply nul_free_cons; [done|]. by apply nul_free_digits.
Qed.

Lemma nul_free_rounded d x t : rounded_text d x t -> nul_free t.
Proof.
  destruct x as [s|s| |s m e]; simpl.
  - intros (t' & Ht & ->). apply nul_free_app. split; [by destruct s|by eapply nul_free_fixed].
  - intros ->. by destruct s.
  - by intros ->.
  - intros (q & t' & _ & Ht & ->). apply nul_free_app. split; [by destruct s|by eapply nul_free_fixed].
Qed.

Lemma into_c_string_nul e s h : nul_free s ->
  into_c_string e s h = Done (ce_alloc e h) (<[ce_alloc e h := OString s]> h).
Proof. unfold nul_free, into_c_string. by intros ->. Qed.
