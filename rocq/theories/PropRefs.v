(** Property C101: the reference an iterator holds keeps its list alive, as the comments in the
    source say (graphrox-py/graphrox/__init__.py:504-506, 560-562, 775-777): with it no Python
    program touches memory that has been given back, without it some do. *)
From Coq Require Import ZArith Ascii String.
From Verif Require Import Base HashIter F64 Numeric Adj Sq Standard Compressed Spec Api CApi
  CSpec Py PySpec PyProg PyRefs PropCommon PropC PropPy PropProg.

Definition owned (x : option robj) : option pyval :=
  match x with Some (RObject v) => Some v | _ => None end.
Definition owned_values (w : rworld) : list pyval := omap owned (r_objs w).

Lemma object_some w i x : object w i = Some x <-> r_objs w !! i = Some (Some x).
Proof. unfold object. destruct (r_objs w !! i) as [[]|]; simpl; naive_solver. Qed.
Lemma object_new w x i : is_Some (object w i) -> object (new_object x w) i = object w i.
Proof.
  intros [y Hy]. apply object_some in Hy as Hl. rewrite Hy. apply object_some. simpl.
  rewrite lookup_app_l; [done|]. by eapply lookup_lt_Some.
Qed.
Lemma object_new_last w x : object (new_object x w) (length (r_objs w)) = Some x.
Proof. apply object_some. simpl. rewrite lookup_app_r, Nat.sub_diag by lia. done. Qed.
Lemma object_set w i x j : is_Some (object w i) ->
  object (set_object i x w) j = if decide (i = j) then x else object w j.
Proof.
  intros [y Hy]. apply object_some in Hy. unfold object. simpl. case_decide as Hd.
  - subst. rewrite list_lookup_insert by (by eapply lookup_lt_Some). by destruct x.
  - by rewrite list_lookup_insert_ne.
Qed.
Lemma object_owned w i v : object w i = Some (RObject v) -> v ∈ owned_values w.
Proof.
  intros H. apply object_some in H. apply elem_of_list_omap. exists (Some (RObject v)).
  split; [by eapply elem_of_list_lookup_2|done].
Qed.
Lemma owned_cons (x : option robj) l : omap owned (x :: l) = option_list (owned x) ++ omap owned l.
Proof. simpl. by destruct (owned x). Qed.
Lemma owned_none (l : list (option robj)) : forall i x y, l !! i = Some x -> owned y = None ->
  omap owned l ≡ₚ option_list (owned x) ++ omap owned (<[i := y]> l).
Proof.
  induction l as [|z l IH]; intros [|i] x y Hl Hy; try done.
  - injection Hl as ->. change (<[0%nat := y]> (x :: l)) with (y :: l). rewrite !owned_cons, Hy. done.
  - change (<[S i := y]> (z :: l)) with (z :: <[i := y]> l). rewrite !owned_cons, (IH i x y Hl Hy).
    rewrite !(assoc_L (++)). by rewrite (Permutation_app_comm (option_list (owned z))).
Qed.

(** A reachable iterator finds its list. *)
Definition iterators_ok (w : rworld) : Prop :=
  (forall i, i ∈ r_vars w -> is_Some (object w i)) /\
  forall i l pos r, i ∈ r_vars w -> object w i = Some (RIterator l pos r) ->
    exists j, r = Some j /\ object w j = Some (RObject l) /\ is_list l /\ pos <= list_size l.
Definition rinv (p : platform) (w : rworld) : Prop :=
  iterators_ok w /\ exists live, py_world p (World (r_heap w) live) /\ live ≡ₚ owned_values w.

Lemma forget_sub i vars j : j ∈ forget i vars -> j ∈ vars.
Proof.
  induction vars as [|k vars IH]; simpl; [done|]. case_decide; [by right|].
  rewrite !elem_of_cons. naive_solver.
Qed.

Definition rabort_ok (p : platform) (w : rworld) (s : rstep) : Prop :=
  match s with RCall e c => may_abort p (r_heap w) c | _ => False end.

Lemma iterators_new w x : iterators_ok w ->
  (forall l pos r, x = RIterator l pos r ->
     exists j, r = Some j /\ object w j = Some (RObject l) /\ is_list l /\ pos <= list_size l) ->
  iterators_ok (new_object x w).
Proof.
  intros [Hv Hi] Hx. split.
  - intros i [->|Hi']%elem_of_cons; [rewrite object_new_last; by eexists|]. rewrite object_new; auto.
  - intros i l pos r [->|Hi']%elem_of_cons Ho.
    + rewrite object_new_last in Ho. injection Ho as ->. destruct (Hx _ _ _ eq_refl) as (j & -> & Hj & H).
      exists j. split; [done|]. split; [|done]. rewrite object_new; [done|by eexists].
    + rewrite object_new in Ho by auto. destruct (Hi _ _ _ _ Hi' Ho) as (j & -> & Hj & H).
      exists j. split; [done|]. split; [|done]. rewrite object_new; [done|by eexists].
Qed.

Lemma list_next_case p h l pos : sound p h l -> is_list l -> pos <= list_size l ->
  list_next l pos h = if decide (pos = list_size l) then PyRaise StopIteration h else PyDone (pos + 1) h.
Proof.
  intros Hs Hl Hp.
  assert (forall {A} (list_of : cobj -> option (list A)) a n k, holds_list h list_of a n k -> pos <= n ->
    pbind (py_next list_of a n pos) (fun '(_, pos) => pret pos) h =
    if decide (pos = n) then PyRaise StopIteration h else PyDone (pos + 1) h) as H.
  { intros A list_of a n k Hh Hn. unfold pbind.
    destruct (next_safe list_of h a n k pos Hh Hn) as [[[x q] Hx]|Hx].
    - rewrite Hx. unfold py_next in Hx. destruct (N.eqb_spec pos n); [discriminate Hx|].
      rewrite decide_False by done. unfold pbind in Hx. destruct (ptr_item list_of a (Z.of_N pos) h); try discriminate Hx.
      unfold pret in *. by injection Hx as _ <- _.
    - rewrite Hx. unfold py_next in Hx. destruct (N.eqb_spec pos n); [by rewrite decide_True|].
      unfold pbind in Hx. destruct Hh as [-> [->|(y & Hy & Hk)]]; [simpl in *; lia|].
      destruct (lookup_lt_is_Some_2 k (N.to_nat pos)) as [z Hz]; [lia|].
      erewrite ptr_item_at in Hx; [discriminate Hx|done|done|lia|].
      by replace (Z.to_nat (Z.of_N pos)) with (N.to_nat pos) by lia. }
  destruct l; simpl in Hl; try done; destruct Hs as [_ [k Hk]]; by eapply H.
Qed.
Lemma list_item_case p h l idx : sound p h l -> is_list l ->
  list_item l idx h = PyDone tt h \/ exists x, list_item l idx h = PyRaise x h.
Proof.
  intros Hs Hl. destruct l; simpl in Hl; try done; destruct Hs as [_ [k Hk]]; simpl; unfold pbind;
    (destruct (getitem_safe _ _ _ _ _ idx Hk) as [[x ->]|[x ->]]; [by left|right; by exists x]).
Qed.

Lemma rstep_inv p w s : wf_platform p -> rinv p w -> rstep_ok p w s ->
  match run_rstep true w s with
  | ROk w' => rinv p w'
  | RAbort => rabort_ok p w s
  | RUB => False
  end.
Proof.
  intros Hp Hinv Hok. pose proof Hinv as [Hit (live & Hw & HP)].
  pose proof (world_owns p _ Hp Hw) as [Hs _]. simpl in Hs. rewrite Forall_forall in Hs.
  assert (forall i v, object w i = Some (RObject v) -> sound p (r_heap w) v) as Hsound.
  { intros i v Hi. apply Hs. rewrite HP. by eapply object_owned. }
  destruct s as [e c|i|i|i|i|i idx|i|e i]; simpl in Hok |- *.
  - destruct Hok as (He & Ha & Hd & Hargs & Hself).
    assert (step_ok p (World (r_heap w) live) (SCall e c)) as Hstep.
    { split_and!; [done..|]. intros v Hv. destruct (Hself v Hv) as (i & _ & Hi). simpl.
      rewrite HP. by eapply object_owned. }
    pose proof (step_owns p _ _ Hp (world_owns p _ Hp Hw) Hstep) as Hr.
    pose proof (fun w' => pw_step p _ (SCall e c) w' Hw Hstep) as Hnext.
    unfold run_step in Hr, Hnext. simpl in Hr, Hnext.
    destruct (pyexec e c (r_heap w)) as [v h|x h| |] eqn:E; simpl in *; [| |done..].
    + specialize (Hnext _ eq_refl). destruct (is_object v) eqn:Eo.
      * split; [apply iterators_new; [exact Hit|by intros]|].
        exists ([v] ++ live). split; [done|]. unfold owned_values. simpl.
        rewrite omap_app. simpl. rewrite HP. by rewrite Permutation_app_comm.
      * split; [done|]. by exists live.
    + split; [done|]. exists live. split; [|done]. by apply Hnext.
  - split; [|by exists live]. destruct Hit as [Hv Hi]. split; simpl; setoid_rewrite elem_of_cons.
    + intros j [->|]; by apply Hv.
    + intros j l pos r [->|] Hj; by eapply Hi.
  - split; [|by exists live]. destruct Hit as [Hv Hi]. split; simpl.
    + intros j Hj. by eapply Hv, forget_sub.
    + intros j l pos r Hj. by eapply Hi, forget_sub.
  - destruct Hok as (Hi & l & Hl & Hlist). rewrite Hl. split.
    + apply iterators_new; [done|]. intros ? ? ? [= <- <- <-]. exists i.
      split_and!; [done..|lia].
    + exists live. split; [done|]. unfold owned_values. simpl. rewrite omap_app. simpl. by rewrite app_nil_r.
  - destruct (object w i) as [[|l pos [j|]]|] eqn:E; try exact Hinv.
    destruct Hit as [Hv Hi]. destruct (Hi _ _ _ _ Hok E) as (j' & [= <-] & Hj & _).
    split; [|by exists live]. split; simpl; setoid_rewrite elem_of_cons.
    + intros k [->|]; [by eexists|by apply Hv].
    + intros k l' pos' r [->|] Hk; [|by eapply Hi].
      change (object w j = Some (RIterator l' pos' r)) in Hk. congruence.
  - destruct Hok as (Hi & l & Hl & Hlist). rewrite Hl.
    destruct (list_item_case p (r_heap w) l idx (Hsound _ _ Hl) Hlist) as [->|[x ->]]; by destruct w.
  - destruct (object w i) as [[|l pos r]|] eqn:E; try exact Hinv.
    destruct Hit as [Hv Hi]. destruct (Hi _ _ _ _ Hok E) as (j & -> & Hj & Hlist & Hpos).
    rewrite (list_next_case p (r_heap w) l pos (Hsound _ _ Hj) Hlist Hpos).
    case_decide as Hd; [by destruct w|]. simpl. destruct w as [h objs vars]. simpl in *.
    set (w := RWorld h objs vars) in *.
    assert (forall k, object (set_object i (Some (RIterator l (pos + 1) (Some j))) w) k =
      if decide (i = k) then Some (RIterator l (pos + 1) (Some j)) else object w k) as Hset.
    { intros k. apply object_set. by eexists. }
    split; [split|].
    + intros k Hk. rewrite Hset. case_decide; [by eexists|by apply Hv].
    + intros k l' pos' r' Hk. rewrite Hset. case_decide as Hik.
      * intros [= <- <- <-]. exists j. split; [done|]. rewrite Hset.
        rewrite decide_False by congruence. split_and!; [done..|lia].
      * intros Ho. destruct (Hi _ _ _ _ Hk Ho) as (j' & -> & Hj' & H). exists j'. split; [done|].
        rewrite Hset. rewrite decide_False by congruence. done.
    + exists live. split; [done|]. rewrite HP. apply object_some in E.
      pose proof (owned_none objs i _ (Some (RIterator l (pos + 1) (Some j))) E eq_refl) as H. exact H.
  - destruct Hok as (He & Ha & [x Hx] & Hnr). rewrite Hx.
    assert (forall h, iterators_ok (set_object i None (RWorld h (r_objs w) (r_vars w)))) as Hit'.
    { intros h. destruct Hit as [Hv Hi].
      assert (forall k, object (set_object i None (RWorld h (r_objs w) (r_vars w))) k =
        if decide (i = k) then None else object w k) as Hset.
      { intros k. apply (object_set (RWorld h (r_objs w) (r_vars w))). by eexists. }
      split.
      - intros k Hk. rewrite Hset. rewrite decide_False; [by apply Hv|]. intros ->. apply Hnr. by left.
      - intros k l pos r Hk. rewrite Hset. case_decide; [done|]. intros Ho.
        destruct (Hi _ _ _ _ Hk Ho) as (j & -> & Hj & H'). exists j. split; [done|].
        rewrite Hset. rewrite decide_False; [done|]. intros ->. apply Hnr. right. by exists k, l, pos. }
    pose proof Hx as Hx'. apply object_some in Hx'.
    pose proof (owned_none (r_objs w) i _ None Hx' eq_refl) as Hperm.
    destruct x as [v|l pos r].
    + assert (v ∈ live) as Hv by (rewrite HP; by eapply object_owned).
      apply elem_of_list_lookup in Hv as [j Hj].
      destruct (del_effect p e (r_heap w) v (Hsound _ _ Hx)) as (c & Hc & E). rewrite Hc, E. simpl.
      split; [apply Hit'|]. exists (delete j live). split.
      * eapply (pw_step p _ (SDrop e j)); [exact Hw|split_and!; [done..|by eexists]|].
        simpl. rewrite Hj. simpl. by rewrite Hc, E.
      * apply (Permutation_cons_inv (a := v)). rewrite <-delete_Permutation by done. rewrite HP. exact Hperm.
    + split; [destruct w; apply Hit'|]. exists live. split; [by destruct w|]. by rewrite HP.
Qed.

Lemma refs_inv p w : wf_platform p -> py_refs true p w -> rinv p w.
Proof.
  intros Hp. induction 1 as [|w s w' _ IH Hok Hrun].
  - split; [split; simpl; [by intros ? ?%elem_of_nil|by intros ? ? ? ? ?%elem_of_nil]|].
    exists []. split; [constructor|done].
  - pose proof (rstep_inv p w s Hp IH Hok) as H. by rewrite Hrun in H.
Qed.

(** No program, whatever it does with its variables and whenever objects go away after the last
    reference to them, touches memory it does not own; the process ends by the same few calls as
    in C80. *)
Theorem C101_safe p w s : wf_platform p -> py_refs true p w -> rstep_ok p w s ->
  run_rstep true w s <> RUB /\
  (run_rstep true w s = RAbort -> exists e c, s = RCall e c /\
     match c with
     | PFindAvgPool a b | PApproximate a b _ => overflow_checks p = true /\
         exists g, r_heap w !! a = Some (OGraph g) /\ 2 ^ 32 <= N.min (c_uint64 b) (vertex_count g)
     | PMToString _ d => (65491 < Z.of_N (c_size_t p (default 2%Z d)))%Z
     | _ => False
     end).
Proof.
  intros Hp Hw Hok. pose proof (rstep_inv p w s Hp (refs_inv p w Hp Hw) Hok) as H.
  destruct (run_rstep true w s) as [w'| |]; [done| |done]. split; [done|]. intros _.
  destruct s as [e c| | | | | | |]; [|done..]. by exists e, c.
Qed.
Print Assumptions C101_safe.

(** What a variable refers to is there.  An iterator finds its list, has all elements from its
    position on ahead of it, and ends after the last one. *)
Theorem C101_iterators p w i : wf_platform p -> py_refs true p w -> i ∈ r_vars w ->
  is_Some (object w i) /\
  forall l pos r, object w i = Some (RIterator l pos r) ->
    (exists j, r = Some j /\ object w j = Some (RObject l)) /\
    match l with
    | PyEdgeList a n => exists k, holds_list (r_heap w) edges_of a n k /\
        py_next edges_of a n pos (r_heap w) =
          match k !! N.to_nat pos with
          | Some x => PyDone (x, pos + 1) (r_heap w) | None => PyRaise StopIteration (r_heap w) end
    | PyVertexList a n => exists k, holds_list (r_heap w) vertices_of a n k /\
        py_next vertices_of a n pos (r_heap w) =
          match k !! N.to_nat pos with
          | Some x => PyDone (x, pos + 1) (r_heap w) | None => PyRaise StopIteration (r_heap w) end
    | PyEntryList a n => exists k, holds_list (r_heap w) entries_of a n k /\
        py_next entries_of a n pos (r_heap w) =
          match k !! N.to_nat pos with
          | Some x => PyDone (x, pos + 1) (r_heap w) | None => PyRaise StopIteration (r_heap w) end
    | _ => False
    end.
Proof.
  intros Hp Hw Hi. destruct (refs_inv p w Hp Hw) as [[Hv Hit] (live & Hpw & HP)].
  split; [by apply Hv|]. intros l pos r Ho. destruct (Hit _ _ _ _ Hi Ho) as (j & -> & Hj & Hl & Hpos).
  split; [by exists j|].
  assert (sound p (r_heap w) l) as Hs.
  { destruct (world_owns p _ Hp Hpw) as [Hs _]. rewrite Forall_forall in Hs. apply Hs. simpl.
    rewrite HP. by eapply object_owned. }
  assert (forall {A} (list_of : cobj -> option (list A)) a n k, holds_list (r_heap w) list_of a n k -> pos <= n ->
    py_next list_of a n pos (r_heap w) = match k !! N.to_nat pos with
      | Some x => PyDone (x, pos + 1) (r_heap w) | None => PyRaise StopIteration (r_heap w) end) as H.
  { intros A list_of a n k [-> Hk] Hn. unfold py_next.
    destruct (N.eqb_spec pos (N.of_nat (length k))) as [->|Hne].
    - by rewrite Nat2N.id, lookup_ge_None_2.
    - destruct Hk as [->|(y & Hy & Hk)]; [simpl in *; lia|].
      destruct (lookup_lt_is_Some_2 k (N.to_nat pos)) as [z Hz]; [lia|]. rewrite Hz.
      unfold pbind. erewrite ptr_item_at; [done|done|done|lia|].
      by replace (Z.to_nat (Z.of_N pos)) with (N.to_nat pos) by lia. }
  destruct l; simpl in Hl; try done; destruct Hs as [_ [k Hk]]; exists k; (split; [done|by apply H]).
Qed.
Print Assumptions C101_iterators.

(** As long as the program can get at a list, no step changes it: the elements an iterator has
    ahead of it are the ones of the list it was made from. *)
Theorem C101_lists_stay p w s w' i l : wf_platform p -> py_refs true p w -> rstep_ok p w s ->
  run_rstep true w s = ROk w' -> reachable w i -> object w i = Some (RObject l) -> is_list l ->
  object w' i = Some (RObject l) /\
  forall a, memory_of l = Some a -> r_heap w' !! a = r_heap w !! a.
Proof.
  intros Hp Hw Hok Hrun Hr Hi Hl. pose proof (refs_inv p w Hp Hw) as [Hit (live & Hpw & HP)].
  assert (l ∈ live) as Hlive by (rewrite HP; by eapply object_owned).
  assert (forall j v, object w j = Some (RObject v) -> sound p (r_heap w) v) as Hsound.
  { intros j v Hj. destruct (world_owns p _ Hp Hpw) as [Hs _]. rewrite Forall_forall in Hs. apply Hs. simpl.
    rewrite HP. by eapply object_owned. }
  destruct s as [e c|k|k|k|k|k idx|k|e k]; simpl in Hok, Hrun.
  - destruct Hok as (He & Ha & Hd & Hargs & Hself).
    assert (step_ok p (World (r_heap w) live) (SCall e c)) as Hstep.
    { split_and!; [done..|]. intros v Hv. destruct (Hself v Hv) as (j & _ & Hj). simpl.
      rewrite HP. by eapply object_owned. }
    assert (forall W, run_step (World (r_heap w) live) (SCall e c) = WOk W ->
      forall a, memory_of l = Some a -> w_heap W !! a = r_heap w !! a) as Hheap.
    { intros W HW a Hm. apply (C80_others_untouched p (World (r_heap w) live) (SCall e c) W l a); [done..|].
      intros Hc Hs. destruct c; simpl in Hc; try discriminate Hc; simpl in Hs; injection Hs as <-; done. }
    unfold run_step in Hheap. simpl in Hheap.
    destruct (pyexec e c (r_heap w)) as [v h|x h| |] eqn:E; simpl in *; [| |discriminate Hrun..].
    + specialize (Hheap _ eq_refl). simpl in Hheap. injection Hrun as <-. destruct (is_object v).
      * split; [|done]. rewrite (object_new (RWorld h (r_objs w) (r_vars w))); [done|by eexists].
      * by split.
    + specialize (Hheap _ eq_refl). injection Hrun as <-. by split.
  - injection Hrun as <-. by split.
  - injection Hrun as <-. by split.
  - destruct Hok as (_ & l' & Hl' & _). rewrite Hl' in Hrun. injection Hrun as <-. split; [|done].
    rewrite object_new; [done|by eexists].
  - destruct (object w k) as [[|? ? [j|]]|]; injection Hrun as <-; by split.
  - destruct Hok as (_ & l' & Hl' & Hlist). rewrite Hl' in Hrun.
    destruct (list_item_case p (r_heap w) l' idx (Hsound _ _ Hl') Hlist) as [E|[x E]]; rewrite E in Hrun;
      simpl in Hrun; injection Hrun as <-; by split.
  - destruct (object w k) as [[|l' pos r]|] eqn:E; try (injection Hrun as <-; by split).
    destruct Hit as [_ Hit]. destruct (Hit _ _ _ _ Hok E) as (j & -> & Hj & Hlist & Hpos).
    rewrite (list_next_case p (r_heap w) l' pos (Hsound _ _ Hj) Hlist Hpos) in Hrun.
    case_decide; simpl in Hrun; injection Hrun as <-; [by split|]. split; [|done].
    rewrite (object_set (RWorld (r_heap w) (r_objs w) (r_vars w))) by (by eexists).
    rewrite decide_False; [done|]. congruence.
  - destruct Hok as (He & Ha & [x Hx] & Hnr).
    assert (k <> i) as Hki by (by intros ->).
    rewrite Hx in Hrun. destruct x as [v|l' pos r].
    + destruct (del_effect p e (r_heap w) v (Hsound _ _ Hx)) as (c & Hc & E). rewrite Hc, E in Hrun.
      simpl in Hrun. injection Hrun as <-. split.
      * rewrite (object_set (RWorld _ (r_objs w) (r_vars w))) by (by eexists). by rewrite decide_False.
      * intros a Hm. simpl. destruct (memory_of v) as [b|] eqn:Hb; [|done]. apply lookup_delete_ne. intros ->.
        destruct (C80_no_leak p _ Hp Hpw) as (_ & Hone & _). simpl in Hone.
        apply object_some in Hx as Hx', Hi as Hi'.
        assert (NoDup (omap memory_of live)) as Hn by (by destruct (world_owns p _ Hp Hpw) as (_ & ? & _)).
        pose proof (owned_none (r_objs w) k _ None Hx' eq_refl) as HP1.
        assert (l ∈ omap owned (<[k := None]> (r_objs w))) as Hin.
        { apply elem_of_list_omap. exists (Some (RObject l)). split; [|done].
          apply elem_of_list_lookup. exists i. by rewrite list_lookup_insert_ne. }
        unfold owned_values in HP. rewrite HP, HP1 in Hn. simpl in Hn. rewrite Hb in Hn.
        inversion Hn as [|? ? Hna _]; subst. apply Hna, elem_of_list_omap. by exists l.
    + injection Hrun as <-. split; [|done]. rewrite object_set by (by eexists). by rewrite decide_False.
Qed.
Print Assumptions C101_lists_stay.

Lemma finalize_one p w e i : wf_platform p -> py_refs true p w -> rstep_ok p w (RFinalize e i) ->
  exists h, run_rstep true w (RFinalize e i) = ROk (RWorld h (<[i := None]> (r_objs w)) (r_vars w)).
Proof.
  intros Hp Hw Hok. pose proof (refs_inv p w Hp Hw) as [_ (live & Hpw & HP)].
  destruct Hok as (_ & _ & [x Hx] & _). simpl. rewrite Hx. destruct x as [v|].
  - assert (sound p (r_heap w) v) as Hs.
    { destruct (world_owns p _ Hp Hpw) as [Hs _]. rewrite Forall_forall in Hs. apply Hs. simpl.
      rewrite HP. by eapply object_owned. }
    destruct (del_effect p e (r_heap w) v Hs) as (c & -> & ->). simpl. by eexists.
  - by eexists.
Qed.

(** What the steps do to variables and objects: [iter(l)] makes a new iterator at the first
    element, [next(it)] moves it on unless it is at the end, and an object that goes away leaves all
    others as they are; [it._list_ref] is the list; indexing changes nothing; a call that raises
    makes no object. *)
Theorem C101_steps p w : wf_platform p -> py_refs true p w ->
  (forall e c w', rstep_ok p w (RCall e c) -> run_rstep true w (RCall e c) = ROk w' ->
     (forall k, is_Some (object w k) -> object w' k = object w k) /\
     forall v h, pyexec e c (r_heap w) = PyDone v h -> r_heap w' = h /\
       if is_object v then exists j, object w j = None /\ object w' j = Some (RObject v) /\
         r_vars w' = j :: r_vars w
       else r_vars w' = r_vars w) /\
  (forall e c x h, pyexec e c (r_heap w) = PyRaise x h ->
     run_rstep true w (RCall e c) = ROk (RWorld h (r_objs w) (r_vars w))) /\
  (forall i l, rstep_ok p w (RIter i) -> object w i = Some (RObject l) ->
     exists w' j, run_rstep true w (RIter i) = ROk w' /\ r_heap w' = r_heap w /\ object w j = None /\
       r_vars w' = j :: r_vars w /\ object w' j = Some (RIterator l 0 (Some i)) /\
       forall k, k <> j -> object w' k = object w k) /\
  (forall i l pos r, rstep_ok p w (RNext i) -> object w i = Some (RIterator l pos r) ->
     exists w', run_rstep true w (RNext i) = ROk w' /\ r_heap w' = r_heap w /\ r_vars w' = r_vars w /\
       object w' i = Some (RIterator l (if decide (pos = list_size l) then pos else pos + 1) r) /\
       forall k, k <> i -> object w' k = object w k) /\
  (forall e i, rstep_ok p w (RFinalize e i) ->
     exists w', run_rstep true w (RFinalize e i) = ROk w' /\ r_vars w' = r_vars w /\
       forall k, object w' k = if decide (k = i) then None else object w k) /\
  (forall i, i ∈ r_vars w -> exists vars,
     run_rstep true w (RForget i) = ROk (RWorld (r_heap w) (r_objs w) vars) /\ i :: vars ≡ₚ r_vars w) /\
  (forall i, run_rstep true w (RCopy i) = ROk (RWorld (r_heap w) (r_objs w) (i :: r_vars w))) /\
  (forall i l pos r, i ∈ r_vars w -> object w i = Some (RIterator l pos r) ->
     exists j, object w j = Some (RObject l) /\
       run_rstep true w (RListRef i) = ROk (RWorld (r_heap w) (r_objs w) (j :: r_vars w))) /\
  (forall i idx, rstep_ok p w (RItem i idx) -> run_rstep true w (RItem i idx) = ROk w).
Proof.
  intros Hp Hw. pose proof (refs_inv p w Hp Hw) as [Hit (live & Hpw & HP)].
  assert (forall j v, object w j = Some (RObject v) -> sound p (r_heap w) v) as Hsound.
  { intros j v Hj. destruct (world_owns p _ Hp Hpw) as [Hs _]. rewrite Forall_forall in Hs. apply Hs. simpl.
    rewrite HP. by eapply object_owned. }
  assert (object w (length (r_objs w)) = None) as Hlen.
  { unfold object. by rewrite lookup_ge_None_2. }
  split_and!.
  - intros e c w' _ Hrun. simpl in Hrun. destruct (pyexec e c (r_heap w)) as [v h|x h| |]; simpl in Hrun; try discriminate Hrun;
      injection Hrun as <-.
    + destruct (is_object v) eqn:E.
      * split; [intros k Hk; by rewrite (object_new (RWorld h (r_objs w) (r_vars w)))|].
        intros v' h' [= <- <-]. split; [done|]. rewrite E. exists (length (r_objs w)).
        split_and!; [done| |done]. apply (object_new_last (RWorld h (r_objs w) (r_vars w))).
      * split; [done|]. intros v' h' [= <- <-]. split; [done|]. by rewrite E.
    + split; [done|]. by intros.
  - intros e c x h E. simpl. by rewrite E.
  - intros i l _ Hi. exists (new_object (RIterator l 0 (Some i)) w), (length (r_objs w)).
    simpl. rewrite Hi. split_and!; [done..|apply object_new_last|]. intros k Hk.
    unfold object. simpl. destruct (decide (k < length (r_objs w))%nat) as [|Hge].
    + by rewrite lookup_app_l.
    + rewrite !lookup_ge_None_2; [done|lia|rewrite app_length; simpl; lia].
  - intros i l pos r Hi Ho. simpl. rewrite Ho. destruct Hit as [_ Hit].
    destruct (Hit _ _ _ _ Hi Ho) as (j & -> & Hj & Hlist & Hpos).
    rewrite (list_next_case p (r_heap w) l pos (Hsound _ _ Hj) Hlist Hpos).
    case_decide; simpl.
    + eexists. split_and!; [done..|]. by intros.
    + eexists. split; [done|]. split; [done|]. split; [done|].
      assert (is_Some (object (RWorld (r_heap w) (r_objs w) (r_vars w)) i)) as Hs by (by eexists).
      split; [rewrite (object_set _ _ _ _ Hs); by rewrite decide_True|].
      intros k Hk. rewrite (object_set _ _ _ _ Hs). by rewrite decide_False.
  - intros e i Hok. destruct (finalize_one p w e i Hp Hw Hok) as [h Hrun]. eexists. split; [exact Hrun|].
    split; [done|]. intros k. destruct Hok as (_ & _ & Hs & _).
    change (object (set_object i None w) k = if decide (k = i) then None else object w k).
    rewrite (object_set _ _ _ _ Hs). by repeat case_decide; subst.
  - intros i Hi. exists (forget i (r_vars w)). split; [done|]. clear -Hi.
    induction (r_vars w) as [|j vars IH]; [by apply elem_of_nil in Hi|]. simpl. case_decide; [by subst|].
    rewrite Permutation_swap. f_equiv. apply IH. by apply elem_of_cons in Hi as [?|?].
  - done.
  - intros i l pos r Hi Ho. destruct Hit as [_ Hit].
    destruct (Hit _ _ _ _ Hi Ho) as (j & -> & Hj & _). exists j. split; [done|]. simpl. by rewrite Ho.
  - intros i idx (_ & l & Ho & Hlist). simpl. rewrite Ho.
    pose proof (Hsound _ _ Ho) as Hs. clear Ho. destruct w as [h objs vars]. simpl in *.
    destruct l; simpl in Hlist; try done; destruct Hs as [_ [k Hk]]; simpl; unfold pbind;
      by destruct (getitem_safe _ _ _ _ _ idx Hk) as [[x ->]|[x ->]].
Qed.
Print Assumptions C101_steps.

(** Memory in use belongs to objects that have not gone away; each has its own. *)
Theorem C101_no_leak p w : wf_platform p -> py_refs true p w ->
  (forall a, is_Some (r_heap w !! a) <->
     exists i v, object w i = Some (RObject v) /\ memory_of v = Some a) /\
  ((forall i, object w i = None) -> r_heap w = ∅).
Proof.
  intros Hp Hw. pose proof (refs_inv p w Hp Hw) as [_ (live & Hpw & HP)].
  destruct (C80_no_leak p _ Hp Hpw) as (Ha & _ & He). simpl in Ha, He. split.
  - intros a. rewrite Ha. setoid_rewrite HP. split.
    + intros (v & Hv & Hm). apply elem_of_list_omap in Hv as (x & Hx & Ho).
      apply elem_of_list_lookup in Hx as [i Hi]. exists i, v. split; [|done]. apply object_some.
      rewrite Hi. by destruct x as [[]|]; simpl in Ho; simplify_eq.
    + intros (i & v & Hi & Hm). exists v. split; [by eapply object_owned|done].
  - intros Hnone. apply He. destruct live as [|v live]; [done|].
    assert (v ∈ owned_values w) as Hv by (rewrite <-HP; by left).
    apply elem_of_list_omap in Hv as (x & Hx & Ho). apply elem_of_list_lookup in Hx as [i Hi].
    specialize (Hnone i). unfold object in Hnone. rewrite Hi in Hnone. simpl in Hnone. by subst.
Qed.
Print Assumptions C101_no_leak.

Fixpoint run_rsteps (keeps_ref : bool) (w : rworld) (l : list rstep) : rresult :=
  match l with
  | [] => ROk w
  | s :: l => match run_rstep keeps_ref w s with ROk w => run_rsteps keeps_ref w l | r => r end
  end.
Fixpoint rsteps_ok (keeps_ref : bool) (p : platform) (w : rworld) (l : list rstep) : Prop :=
  match l with
  | [] => True
  | s :: l => rstep_ok p w s /\
      match run_rstep keeps_ref w s with ROk w => rsteps_ok keeps_ref p w l | _ => False end
  end.

(** Once a program has no variables left, its objects can go away in the order they were made, or
    in any other order, and then no memory is in use. *)
Theorem C101_end p w e order : wf_platform p -> py_refs true p w -> ce_platform e = p ->
  wf_alloc_fn (ce_alloc e) -> r_vars w = [] -> NoDup order ->
  (forall i, i ∈ order <-> is_Some (object w i)) ->
  exists w', rsteps_ok true p w (RFinalize e <$> order) /\
    run_rsteps true w (RFinalize e <$> order) = ROk w' /\ r_heap w' = ∅.
Proof.
  intros Hp Hw He Ha. revert w Hw. induction order as [|i order IH]; intros w Hw Hvars Hn Hall.
  - exists w. split_and!; [done..|]. apply (C101_no_leak p w Hp Hw). intros i.
    destruct (object w i) eqn:E; [|done]. destruct (Hall i) as [_ H]. rewrite E in H.
    by apply elem_of_nil in H; [|eexists].
  - assert (rstep_ok p w (RFinalize e i)) as Hok.
    { split_and!; [done..|apply Hall; by left|]. unfold reachable. rewrite Hvars.
      intros [?%elem_of_nil|(? & ? & ? & ?%elem_of_nil & _)]; done. }
    destruct (finalize_one p w e i Hp Hw Hok) as [h Hrun].
    apply NoDup_cons in Hn as [Hni Hn].
    assert (is_Some (object w i)) as Hsome by (apply Hall; by left).
    destruct (IH (RWorld h (<[i := None]> (r_objs w)) (r_vars w))) as (w' & Hoks & Hruns & Hh); [by eapply pr_step|done..| |].
    { intros j. change (object (RWorld h (<[i := None]> (r_objs w)) (r_vars w)) j) with (object (set_object i None w) j).
      rewrite object_set by done. case_decide as Hd; [subst; split; [done|by intros []]|].
      rewrite <-Hall, elem_of_cons. naive_solver. }
    exists w'. split; [|split; [|done]].
    + cbn [fmap list_fmap rsteps_ok]. split; [done|]. by rewrite Hrun.
    + cbn [fmap list_fmap run_rsteps]. by rewrite Hrun.
Qed.
Print Assumptions C101_end.

Lemma run_rsteps_refs k p l : forall w w', py_refs k p w -> rsteps_ok k p w l ->
  run_rsteps k w l = ROk w' -> py_refs k p w'.
Proof.
  induction l as [|s l IH]; simpl; intros w w' Hw Hok Hrun; [by injection Hrun as <-|].
  destruct Hok as [Hs Hok]. destruct (run_rstep k w s) as [w1| |] eqn:E; [|done..].
  eapply IH; [|done..]. by eapply pr_step.
Qed.

(** [it = iter(g.get_vertex_out_edges_list(3))], after which only the iterator refers to the list. *)
Definition only_iterator : list rstep :=
  [RCall env64 (PNew (Some false)); RCall env64 (PAddEdge 16 3 7); RCall env64 (POutEdges 16 3);
   RIter 1; RForget 1].
Definition after (k : bool) (l : list rstep) : rworld :=
  match run_rsteps k (RWorld ∅ [] []) l with ROk w => w | _ => RWorld ∅ [] [] end.

Ltac in_list := repeat first [apply elem_of_list_here | apply elem_of_list_further].
Lemma only_iterator_ok k : rsteps_ok k (ce_platform env64) (RWorld ∅ [] []) only_iterator.
Proof.
  unfold only_iterator.
  split; [split_and!; [apply env64_ok..|done|done|by intros ? [=]]|].
  split; [split_and!; [apply env64_ok..|done|done|intros ? [= <-]; exists 0%nat; split; [in_list|by vm_compute]]|].
  split; [split_and!; [apply env64_ok..|done|done|intros ? [= <-]; exists 0%nat; split; [in_list|by vm_compute]]|].
  split; [split; [in_list|exists (PyVertexList 18 1); split; [by vm_compute|done]]|].
  split; [in_list|done].
Qed.

Lemma rsteps_app k p l1 l2 : forall w w1, rsteps_ok k p w l1 -> run_rsteps k w l1 = ROk w1 ->
  (rsteps_ok k p w1 l2 -> rsteps_ok k p w (l1 ++ l2)) /\ run_rsteps k w (l1 ++ l2) = run_rsteps k w1 l2.
Proof.
  induction l1 as [|s l1 IH]; simpl; intros w w1 Hok Hrun; [by injection Hrun as ->|].
  destruct Hok as [Hs Hok]. destruct (run_rstep k w s) as [w2| |]; [|done..].
  destruct (IH w2 w1 Hok Hrun) as [H1 H2]. split; [|done]. intros H. split; [done|by apply H1].
Qed.
Lemma only_iterator_run k : run_rsteps k (RWorld ∅ [] []) only_iterator = ROk (after k only_iterator).
Proof.
  assert (match run_rsteps k (RWorld ∅ [] []) only_iterator with ROk _ => True | _ => False end) as H
    by by destruct k; vm_compute.
  unfold after. by destruct (run_rsteps k (RWorld ∅ [] []) only_iterator).
Qed.
Lemma only_iterator_refs k : py_refs k (ce_platform env64) (after k only_iterator).
Proof.
  eapply run_rsteps_refs; [constructor|apply only_iterator_ok|apply only_iterator_run].
Qed.

(** Without the reference the list can go away while its iterator is in use; reading on is
    undefined behaviour. *)
Theorem C101_ref_needed : exists p w s, wf_platform p /\ py_refs false p w /\ rstep_ok p w s /\
  run_rstep false w s = RUB.
Proof.
  assert (match run_rstep false (after false only_iterator) (RFinalize env64 1) with
    | ROk w => r_vars w = [2; 0]%nat /\ run_rstep false w (RNext 2) = RUB | _ => False end) as H by by vm_compute.
  assert (rstep_ok (ce_platform env64) (after false only_iterator) (RFinalize env64 1)) as Hok.
  { split; [done|]. split; [apply env64_ok|].
    assert (r_vars (after false only_iterator) = [2; 0]%nat) as Hv by by vm_compute.
    split; [vm_compute; by eexists|].
    intros [Hi|(j & l & pos & Hj & Ho)].
    - rewrite Hv, !elem_of_cons in Hi. destruct Hi as [?|[?|Hi]]; [done..|]. by apply elem_of_nil in Hi.
    - rewrite Hv, !elem_of_cons in Hj. destruct Hj as [->|[->|Hj]]; [by vm_compute in Ho..|].
      by apply elem_of_nil in Hj. }
  pose proof (only_iterator_refs false) as Hw. set (w := after false only_iterator) in *.
  destruct (run_rstep false w (RFinalize env64 1)) as [w1| |] eqn:E; [|done..]. destruct H as [Hv H].
  exists (ce_platform env64), w1, (RNext 2). split; [apply plat64_wf|].
  split; [exact (pr_step _ _ _ _ _ Hw Hok E)|]. split; [|done]. unfold rstep_ok. rewrite Hv. in_list.
Qed.
Print Assumptions C101_ref_needed.

(** With it, the list is reachable by the iterator, which goes on; when the iterator is forgotten
    too, the list can go away. *)
Example C101_case : let w := after true only_iterator in
  py_refs true (ce_platform env64) w /\ r_vars w = [2; 0]%nat /\ reachable w 1 /\
  r_heap w !! 18 = Some (OVertices [7]) /\
  object (after true (only_iterator ++ [RNext 2])) 2 = Some (RIterator (PyVertexList 18 1) 1 (Some 1%nat)) /\
  let w' := after true (only_iterator ++ [RNext 2; RNext 2; RForget 2; RFinalize env64 1]) in
  object w' 1 = None /\ r_heap w' !! 18 = None /\ r_heap w' !! 16 <> None.
Proof.
  split; [apply only_iterator_refs|]. split; [by vm_compute|]. split.
  { right. exists 2%nat, (PyVertexList 18 1), 0. split; [vm_compute; in_list|by vm_compute]. }
  split; [by vm_compute|]. split; [by vm_compute|]. split; [by vm_compute|]. split; by vm_compute.
Qed.
(** The whole life of such a program: at its end no memory is in use. *)
Example C101_end_case : let w := after true (only_iterator ++ [RForget 2; RForget 0]) in
  r_vars w = [] /\ length (r_objs w) = 3%nat /\ r_heap w !! 18 <> None /\
  match run_rsteps true w (RFinalize env64 <$> [1; 0; 2]%nat) with
  | ROk w' => r_heap w' !! 16 = None /\ r_heap w' !! 18 = None /\ r_objs w' = [None; None; None]
  | _ => False
  end.
Proof. split; [by vm_compute|]. split; [by vm_compute|]. split; [by vm_compute|]. by vm_compute. Qed.
