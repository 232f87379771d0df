(** Property C93: whole programs in Python and in C compute what the calls on each graph,
    taken by themselves, say. *)
From Coq Require Import ZArith Ascii String.
From Verif Require Import Base HashIter F64 Numeric Adj Sq Standard Compressed Spec TextSpec Api CApi
  CSpec Py PySpec PyProg GraphProofs CApiProofs CodecMoreProofs PropCommon PropC PropPy PropProg.
Local Arguments N.mul : simpl never.
Local Arguments N.add : simpl never.
Local Arguments N.pow : simpl never.

(** ** Python *)

(** What a step asks of the graph at [a]. *)
Definition py_ops (a : addr) (s : pystep) : list gop :=
  match s with
  | SCall _ (PAddVertex a' v ids) =>
      if a' =? a then
        [OpAddVertex (c_uint64 v) (match ids with
                                   | Some (i :: ids) => Some (c_uint64 <$> (i :: ids))
                                   | _ => None
                                   end)]
      else []
  | SCall _ (PAddEdge a' u v) => if a' =? a then [OpAddEdge (c_uint64 u) (c_uint64 v)] else []
  | SCall _ (PDeleteEdge a' u v) => if a' =? a then [OpDeleteEdge (c_uint64 u) (c_uint64 v)] else []
  | _ => []
  end.

(** The object [v] does not go away. *)
Fixpoint kept (v : pyval) (w : world) (l : list pystep) : Prop :=
  match l with
  | [] => True
  | s :: l => match s with SDrop _ i => w_live w !! i <> Some v | _ => True end /\
      match run_step w s with WOk w' => kept v w' l | _ => True end
  end.

Lemma py_ops_step p w s w' a g : wf_platform p -> py_world p w -> step_ok p w s ->
  run_step w s = WOk w' -> PyGraph a ∈ w_live w -> w_heap w !! a = Some (OGraph g) ->
  match s with SDrop _ i => w_live w !! i <> Some (PyGraph a) | _ => True end ->
  PyGraph a ∈ w_live w' /\ w_heap w' !! a = Some (OGraph (fold_left step (py_ops a s) g)).
Proof.
  intros Hp Hw Hok Hrun Ha Hg Hkeep.
  assert (py_ops a s = [] \/ exists e c, s = SCall e c /\ changes c = true /\ self_of c = Some (PyGraph a))
    as [E|(e & c & -> & Hch & Hself)].
  { destruct s as [e c| | |]; [|by left..]. destruct c; try by left.
    all: simpl; destruct (N.eqb_spec self a) as [->|]; [right|by left]; by eexists _, _. }
  - rewrite E. cbn [fold_left]. rewrite <- Hg.
    apply (C80_others_untouched p w s w' (PyGraph a) a Hp Hw Hok Hrun Ha eq_refl).
    destruct s as [e c| | |]; [|done..]. intros Hch Hself.
    destruct c; try discriminate Hch; simpl in E, Hself; injection Hself as ->;
      by rewrite N.eqb_refl in E.
  - destruct (world_owns p w Hp Hw) as (Hs & _). rewrite Forall_forall in Hs.
    destruct (Hs _ Ha) as [Hnull _]. destruct Hok as (He & Hal & _ & Hargs & _).
    destruct (C59_graph_changes e (w_heap w) a g Hnull Hg Hal) as (H1 & H2 & H3 & H4 & _).
    unfold run_step in Hrun.
    destruct c as [| | | | | | | | | |a' v ids|a' u v|a' u v| | | | | | | | | | | | | | | | | | | | | | | | | | | | | |];
      try discriminate Hch; simpl in Hself; injection Hself as ->.
    + assert (pyexec e (PAddVertex a v ids) (w_heap w) = PyDone PyNone (<[a := OGraph
        (fold_left step (py_ops a (SCall e (PAddVertex a v ids))) g)]> (w_heap w))) as E.
      { simpl py_ops. rewrite N.eqb_refl. destruct ids as [[|i ids]|].
        - apply H3.
        - rewrite H4; [done|done|]. rewrite He. exact Hargs.
        - apply H3. }
      rewrite E in Hrun. cbn [keep is_object app] in Hrun. injection Hrun as <-. cbn [w_live w_heap].
      split; [done|]. apply lookup_insert.
    + rewrite H1 in Hrun. injection Hrun as <-. cbn [w_live w_heap py_ops]. rewrite N.eqb_refl.
      split; [done|]. apply lookup_insert.
    + rewrite H2 in Hrun. injection Hrun as <-. cbn [w_live w_heap py_ops]. rewrite N.eqb_refl.
      split; [done|]. apply lookup_insert.
Qed.

Lemma py_ops_run p l : forall w w' a g, wf_platform p -> py_world p w -> steps_ok p w l ->
  run_steps w l = WOk w' -> PyGraph a ∈ w_live w -> w_heap w !! a = Some (OGraph g) ->
  kept (PyGraph a) w l ->
  py_world p w' /\ PyGraph a ∈ w_live w' /\
  w_heap w' !! a = Some (OGraph (fold_left step (l ≫= py_ops a) g)).
Proof.
  induction l as [|s l IH]; intros w w' a g Hp Hw Hok Hrun Ha Hg Hk.
  - cbn [run_steps] in Hrun. injection Hrun as <-. done.
  - cbn [run_steps steps_ok kept] in *. destruct Hok as [Hs Hok], Hk as [Hk1 Hk].
    destruct (run_step w s) as [w1| |] eqn:E; [|done..].
    destruct (py_ops_step p w s w1 a g Hp Hw Hs E Ha Hg Hk1) as [Ha1 Hg1].
    destruct (IH w1 w' a _ Hp ltac:(by eapply pw_step) Hok Hrun Ha1 Hg1 Hk) as (? & ? & H).
    split_and!; [done|done|]. rewrite H, bind_cons, fold_left_app. done.
Qed.

(** Make a graph, then let any program run in which it does not go away.  Then the graph
    answers as the mathematical graph after the calls on it in turn: the calls on other
    objects, the objects made and dropped in between, and exceptions make no difference. *)
Theorem C93_python p w e0 u w1 a l w2 : wf_platform p -> py_world p w ->
  step_ok p w (SCall e0 (PNew u)) -> run_step w (SCall e0 (PNew u)) = WOk w1 ->
  w_live w1 = PyGraph a :: w_live w ->
  steps_ok p w1 l -> run_steps w1 l = WOk w2 -> kept (PyGraph a) w1 l ->
  let s := s_run (default false u) (l ≫= py_ops a) in
  let h := w_heap w2 in
  PyGraph a ∈ w_live w2 /\
  (exists g, h !! a = Some (OGraph g) /\ g = run (default false u) (l ≫= py_ops a)) /\
  forall e,
    pyexec e (PIsUndirected a) h = PyDone (PyBool (sg_und s)) h /\
    pyexec e (PVertexCount a) h = PyDone (PyInt (Z.of_N (sg_n s))) h /\
    pyexec e (PEdgeCount a) h = PyDone (PyInt (Z.of_nat (size (sg_E s)) mod 2 ^ 64)) h /\
    forall x y, pyexec e (PDoesEdgeExist a x y) h =
      PyDone (PyBool (bool_decide ((c_uint64 x, c_uint64 y) ∈ sg_E s))) h.
Proof.
  intros Hp Hw Hs0 Hr0 Hlive Hok Hrun Hk s h.
  assert (py_world p w1) as Hw1 by (by eapply pw_step).
  assert (w_heap w1 !! a = Some (OGraph (if default false u then new_undirected else new_directed)))
    as Hg.
  { destruct Hs0 as (He & Hal & _). destruct (C59_makers e0 (w_heap w) Hal) as (Hnew & _).
    specialize (Hnew (default false u)).
    assert (pyexec e0 (PNew u) (w_heap w) = pyexec e0 (PNew (Some (default false u))) (w_heap w))
      as E by by destruct u.
    unfold run_step in Hr0. rewrite E in Hr0. destruct Hnew as (b & Eb & Hb & Hf).
    rewrite Eb in Hr0. cbn [keep is_object app] in Hr0. injection Hr0 as <-.
    cbn [w_live w_heap] in *. injection Hlive as ->. apply lookup_insert. }
  assert (PyGraph a ∈ w_live w1) as Ha by (rewrite Hlive; left).
  destruct (py_ops_run p l w1 w2 a _ Hp Hw1 Hok Hrun Ha Hg Hk) as (Hw2 & Ha2 & Hg2).
  fold h in Hg2. fold (run (default false u) (l ≫= py_ops a)) in Hg2.
  destruct (world_owns p w2 Hp Hw2) as (Hsd & _). rewrite Forall_forall in Hsd.
  destruct (Hsd _ Ha2) as [Hnull _].
  split_and!; [done|by eexists|]. intros e.
  destruct (C59_graph_queries e h a _ Hnull Hg2) as (Q1 & Q2 & Q3 & Q4 & _ & _).
  pose proof (refines_run (default false u) (l ≫= py_ops a)) as Hr. fold s in Hr.
  rewrite Q1, Q2, Q3. split_and!.
  - by rewrite <- (rf_und _ _ Hr).
  - by rewrite <- (rf_n _ _ Hr).
  - rewrite (refines_edge_count _ _ Hr). do 2 f_equal. unfold two64.
    rewrite N2Z.inj_mod, nat_N_Z. done.
  - intros x y. rewrite Q4. do 2 f_equal. apply Bool.eq_iff_eq_true.
    rewrite exists_has, bool_decide_eq_true. apply (rf_E _ _ Hr).
Qed.
Print Assumptions C93_python.

(** Everything that is not a graph never changes: what a graph was compressed to, pooled to,
    listed as or decompressed from stays what it was when it was made. *)
Theorem C93_snapshots p w l w' v a : wf_platform p -> py_world p w -> steps_ok p w l ->
  run_steps w l = WOk w' -> v ∈ w_live w -> memory_of v = Some a -> kept v w l ->
  (forall b, v <> PyGraph b) ->
  v ∈ w_live w' /\ w_heap w' !! a = w_heap w !! a.
Proof.
  intros Hp Hw Hok Hrun Hv Hm Hk Hng. revert w Hw Hok Hrun Hv Hk.
  induction l as [|s l IH]; intros w Hw Hok Hrun Hv Hk.
  - cbn [run_steps] in Hrun. by injection Hrun as <-.
  - cbn [run_steps steps_ok kept] in *. destruct Hok as [Hs Hok], Hk as [Hk1 Hk].
    destruct (run_step w s) as [w1| |] eqn:E; [|done..].
    destruct (C80_others_untouched p w s w1 v a Hp Hw Hs E Hv Hm) as [Hv1 Hh].
    { destruct s as [e c| | |]; try done. intros Hch Hself. destruct c; try discriminate Hch;
        simpl in Hself; injection Hself as Hself; by apply (Hng self). }
    destruct (IH w1 ltac:(by eapply pw_step) Hok Hrun Hv1 Hk) as [? ->]. done.
Qed.
Print Assumptions C93_snapshots.

(** ** C *)

(** What an event asks of the graph at [a]; the ids of [add_vertex] are read from the heap. *)
Definition c_ops (a : addr) (h : cheap) (ev : cevent) : list gop :=
  match ev with
  | ECall _ (CAddVertex a' v ids n) =>
      if negb (a' =? a) then []
      else if n =? 0 then [OpAddVertex v None]
      else if ids =? null then []
      else match h !! ids with
           | Some (OInputIds l) | Some (OVertices l) => [OpAddVertex v (Some (take (N.to_nat n) l))]
           | _ => []
           end
  | ECall _ (CAddEdge a' u v) => if a' =? a then [OpAddEdge u v] else []
  | ECall _ (CDeleteEdge a' u v) => if a' =? a then [OpDeleteEdge u v] else []
  | _ => []
  end.
Fixpoint c_history (a : addr) (h : cheap) (evs : list cevent) : list gop :=
  match evs with
  | [] => []
  | ev :: evs => c_ops a h ev ++ match cstep ev h with Done _ h' => c_history a h' evs | _ => [] end
  end.

(** Of what an event may change, [a] is at most the graph it is called on. *)
Definition only_calls (a : addr) (ev : cevent) : Prop :=
  a ∈ touches ev -> exists e c, ev = ECall e c /\ mutates c = a.

Lemma c_ops_step ev h v h' a g : a <> null -> wf_event ev -> only_calls a ev ->
  cstep ev h = Done v h' -> h !! a = Some (OGraph g) ->
  h' !! a = Some (OGraph (fold_left step (c_ops a h ev) g)).
Proof.
  intros Ha Hwf Honly E Hg.
  assert ((c_ops a h ev = [] /\ a ∉ touches ev) \/ exists e c, ev = ECall e c /\ mutates c = a)
    as [[E0 Hnt]|(e & c & -> & Hm)].
  { destruct (decide (a ∈ touches ev)) as [Hin|Hin]; [right; by apply Honly|]. left.
    split; [|done]. destruct ev as [e c| | |]; try done. destruct c; try done;
      simpl; destruct (N.eqb_spec graph a) as [->|]; try done; destruct Hin; simpl;
      rewrite !elem_of_cons; tauto. }
  - rewrite E0. cbn [fold_left]. by eapply step_frame.
  - destruct (C52_graph_changes e h a g Ha Hg) as (H1 & H2 & H3 & H4 & H5).
    cbn [cstep] in E. destruct c; simpl in Hm; try (by destruct Ha); subst graph.
    all: cbn [c_ops]; rewrite N.eqb_refl; cbn [negb].
    + destruct (N.eqb_spec len 0) as [->|Hn].
      { rewrite H3 in E. injection E as <- <-. apply lookup_insert. }
      destruct (N.eqb_spec ids null) as [->|Hi].
      { rewrite H5 in E by done. injection E as <- <-. done. }
      destruct (h !! ids) as [x|] eqn:Ex.
      2:{ exfalso. revert E. cbn [cexec]. unfold gphrx_add_vertex, v_unit, cmap, cbind.
          rewrite (on_graph_live _ _ _ _ _ Ha Hg). apply N.eqb_neq in Hn, Hi. rewrite Hn, Hi.
          cbn [andb negb]. unfold read_ids. by rewrite Ex. }
      assert (exists l, (x = OInputIds l \/ x = OVertices l) /\ len <= N.of_nat (length l)) as (l & Hx & Hl).
      { revert E. cbn [cexec]. unfold gphrx_add_vertex, v_unit, cmap, cbind.
        rewrite (on_graph_live _ _ _ _ _ Ha Hg). apply N.eqb_neq in Hn, Hi. rewrite Hn, Hi.
        cbn [andb negb]. unfold read_ids. rewrite Ex.
        destruct x; try done;
          match goal with |- context [len <=? N.of_nat (length ?l)] =>
            destruct (N.leb_spec len (N.of_nat (length l))); try done; eauto end. }
      rewrite (H4 _ ids len l) in E; [|done|done|rewrite Ex; naive_solver|done].
      injection E as <- <-. rewrite lookup_insert. by destruct Hx as [-> | ->].
    + rewrite H1 in E. injection E as <- <-. apply lookup_insert.
    + rewrite H2 in E. injection E as <- <-. apply lookup_insert.
Qed.

(** The same for C programs: as long as the graph is not freed and its address is not used for
    anything else, it answers as the mathematical graph after the calls on it. *)
Theorem C93_c e0 u h h1 a evs vs h2 : wf_alloc_fn (ce_alloc e0) ->
  cexec e0 (CNew u) h = Done (VPtr a) h1 ->
  (forall e c, ECall e c ∈ evs -> wf_alloc_fn (ce_alloc e)) ->
  (forall ev, ev ∈ evs -> only_calls a ev) -> crun evs h1 = Done vs h2 ->
  let s := s_run u (c_history a h1 evs) in
  (exists g, h2 !! a = Some (OGraph g) /\ g = run u (c_history a h1 evs)) /\
  forall e,
    cexec e (CIsUndirected a) h2 = Done (VNum (if sg_und s then 1 else 0)) h2 /\
    cexec e (CVertexCount a) h2 = Done (VNum (sg_n s)) h2 /\
    cexec e (CEdgeCount a) h2 = Done (VNum (N.of_nat (size (sg_E s)) mod 2 ^ 64)) h2 /\
    forall x y, cexec e (CDoesEdgeExist a x y) h2 =
      Done (VNum (if bool_decide ((x, y) ∈ sg_E s) then 1 else 0)) h2.
Proof.
  intros Hal E0 Hwf Honly Hrun s.
  assert (a <> null /\ h1 !! a = Some (OGraph (if u then new_undirected else new_directed))) as [Ha Hg].
  { destruct (C52_makers e0 h Hal) as (M1 & M2 & _). destruct u.
    - destruct M1 as (b & Eb & Hb & Hf). rewrite Eb in E0. injection E0 as -> <-.
      split; [done|]. apply lookup_insert.
    - destruct M2 as (b & Eb & Hb & Hf). rewrite Eb in E0. injection E0 as -> <-.
      split; [done|]. apply lookup_insert. }
  assert (h2 !! a = Some (OGraph (run u (c_history a h1 evs)))) as Hg2.
  { unfold run. clear s E0. revert Hg. generalize (if u then new_undirected else new_directed).
    revert h1 vs Hrun. induction evs as [|ev evs IH]; intros h1 vs Hrun g Hg.
    - cbn [crun] in Hrun. by injection Hrun as <- <-.
    - cbn [crun c_history] in *. destruct (cstep ev h1) as [v h'| |] eqn:E; [|done..].
      destruct (crun evs h') as [vs' h''| |] eqn:E'; [|done..]. injection Hrun as <- <-.
      rewrite fold_left_app. eapply (IH ltac:(intros; eapply Hwf; by right)
        ltac:(intros; apply Honly; by right) h' vs' E').
      eapply c_ops_step; [done| |apply Honly; left|done|done].
      destruct ev as [e c| | |]; [|done..]. simpl. eapply Hwf. left. }
  split; [by eexists|]. intros e.
  destruct (C52_graph_queries e h2 a _ Ha Hg2) as (Q1 & Q2 & Q3 & Q4 & _ & _).
  pose proof (refines_run u (c_history a h1 evs)) as Hr. fold s in Hr.
  rewrite Q1, Q2, Q3. split_and!.
  - unfold is_undirected. by rewrite (rf_und _ _ Hr).
  - by rewrite <- (rf_n _ _ Hr).
  - by rewrite (refines_edge_count _ _ Hr).
  - intros x y. rewrite Q4. do 2 f_equal.
    assert (does_edge_exist (run u (c_history a h1 evs)) x y = bool_decide ((x, y) ∈ sg_E s)) as ->; [|done].
    apply Bool.eq_iff_eq_true. rewrite exists_has, bool_decide_eq_true. apply (rf_E _ _ Hr).
Qed.
Print Assumptions C93_c.

(** ** Non-vacuity *)

(** Two graphs, a compressed graph made in between, and one of the graphs dropped. *)
Definition py_life : list pystep :=
  [SCall env64 (PAddEdge 16 3 7); SCall env64 (PNew (Some true)); SCall env64 (PAddEdge 17 1 0);
   SCall env64 (PCompress 16 1); SCall env64 (PDeleteEdge 16 3 7);
   SCall env64 (PAddVertex 16 (-2) (Some [0; 5]%Z)); SDrop env64 1; SCall env64 (PAddVertex 16 9 None)].
Definition py_start : world :=
  match run_step (World ∅ []) (SCall env64 (PNew None)) with WOk w => w | _ => World ∅ [] end.

Lemma run_steps_ex (r : wresult) (P : world -> Prop) :
  match r with WOk w => P w | _ => False end -> exists w, r = WOk w /\ P w.
Proof. destruct r; [by eexists|done..]. Qed.
(** A check of the steps by computation, for methods of graphs. *)
Definition graph_alive (a : addr) (w : world) : bool :=
  existsb (fun v => match v with PyGraph b => a =? b | _ => false end) (w_live w).
Fixpoint alive_check (w : world) (l : list pystep) : bool :=
  match l with
  | [] => true
  | s :: l =>
      match s with
      | SCall _ c => match self_of c with
                     | Some (PyGraph a) => graph_alive a w
                     | Some _ => false
                     | None => true
                     end
      | SDrop _ i => bool_decide (is_Some (w_live w !! i))
      | _ => false
      end && match run_step w s with WOk w' => alive_check w' l | _ => false end
  end.
Definition static_ok (p : platform) (s : pystep) : Prop :=
  match s with
  | SCall e c => ce_platform e = p /\ wf_alloc_fn (ce_alloc e) /\ is_del c = false /\ pyargs_ok p c
  | SDrop e _ => ce_platform e = p /\ wf_alloc_fn (ce_alloc e)
  | _ => True
  end.
Lemma alive_check_ok p l : forall w, Forall (static_ok p) l -> alive_check w l = true -> steps_ok p w l.
Proof.
  induction l as [|s l IH]; intros w Hst Hc; [exact I|].
  apply Forall_cons in Hst as [Hs Hst]. cbn [alive_check] in Hc. apply andb_true_iff in Hc as [Ha Hc].
  cbn [steps_ok]. split.
  - destruct s as [e c|e i| |]; [| |done|done]; cbn [static_ok step_ok] in *.
    + destruct Hs as (? & ? & ? & ?). split_and!; [done..|]. intros v Hv. rewrite Hv in Ha.
      destruct v; try done. apply existsb_exists in Ha as (y & Hy & E).
      destruct y; try done. apply N.eqb_eq in E as ->. by apply elem_of_list_In.
    + apply bool_decide_eq_true in Ha. destruct Hs. done.
  - destruct (run_step w s) as [w'| |]; [|done..]. by apply IH.
Qed.

Example C93_python_case : run_step (World ∅ []) (SCall env64 (PNew None)) = WOk py_start /\
  w_live py_start = [PyGraph 16] /\ steps_ok (ce_platform env64) py_start py_life /\
  kept (PyGraph 16) py_start py_life /\
  (exists w, run_steps py_start py_life = WOk w /\ w_live w = [PyCompressed 18; PyGraph 16] /\
    match pyexec env64 (PEdgeCount 16) (w_heap w), pyexec env64 (PDoesEdgeExist 16 (-2) 5) (w_heap w),
      pyexec env64 (PCEdgeCount 18) (w_heap w) with
    | PyDone (PyInt k) _, PyDone (PyBool b) _, PyDone (PyInt k') _ => (k, b, k') = (2%Z, true, 1%Z)
    | _, _, _ => False
    end) /\
  py_life ≫= py_ops 16 = [OpAddEdge 3 7; OpDeleteEdge 3 7;
    OpAddVertex 18446744073709551614 (Some [0; 5]); OpAddVertex 9 None].
Proof.
  split_and!.
  - reflexivity.
  - reflexivity.
  - apply alive_check_ok; [|vm_compute; reflexivity].
    unfold py_life. repeat (apply Forall_cons; split); try apply Forall_nil_2.
    all: cbn [static_ok is_del pyargs_ok]; split_and!; try exact I; try apply env64_ok; try reflexivity.
    by vm_compute.
  - vm_compute. split_and!; try exact I. discriminate.
  - apply run_steps_ex. vm_compute. split; reflexivity.
  - reflexivity.
Qed.

(** The ids of [add_vertex] are read from an array of the program. *)
Definition c_life : list cevent :=
  [ECall env64 (CAddEdge 16 3 7); EClientNew 40 (OInputIds [0; 5; 6]); ECall env64 (CNew true);
   ECall env64 (CAddVertex 16 4 40 2); ECall env64 (CDeleteEdge 16 3 7);
   ECall env64 (CFreeGraph 41); EClientFree 40].
Example C93_c_case : match cexec env64 (CNew false) ∅ with
  | Done (VPtr a) h1 => a = 16 /\
      c_history 16 h1 c_life = [OpAddEdge 3 7; OpAddVertex 4 (Some [0; 5]); OpDeleteEdge 3 7] /\
      match crun c_life h1 with
      | Done _ h2 => match cexec env64 (CEdgeCount 16) h2 with Done (VNum k) _ => k = 2 | _ => False end
      | _ => False
      end
  | _ => False
  end /\
  (forall ev, ev ∈ c_life -> only_calls 16 ev).
Proof.
  split; [vm_compute; split_and!; reflexivity|].
  intros ev Hev. unfold c_life in Hev. rewrite !elem_of_cons, elem_of_nil in Hev. intros Ht.
  destruct Hev as [->|[->|[->|[->|[->|[->|[->|[]]]]]]]]; try (by eexists _, _);
    simpl in Ht; rewrite !elem_of_cons, elem_of_nil in Ht; naive_solver.
Qed.
