(** Property C80: whole Python programs are memory safe and give back all memory. *)
From Coq Require Import ZArith Ascii String.
From Verif Require Import Base HashIter F64 Numeric Adj Sq Standard Compressed Spec TextSpec Api CApi
  CSpec Py PySpec PyProg GraphProofs ApproxProofs CompressProofs PoolTextProofs CodecMoreProofs PropCommon
  PropCompress PropCodec PropPoolMore PropC PropPy PropExact.
Local Arguments N.mul : simpl never.
Local Arguments N.add : simpl never.
Local Arguments N.pow : simpl never.

(** What an object that is alive finds in the heap. *)
Definition sound (p : platform) (h : cheap) (v : pyval) : Prop :=
  match v with
  | PyGraph a => a <> null /\ exists g, h !! a = Some (OGraph g) /\ reach p g
  | PyCompressed a => a <> null /\ exists g, h !! a = Some (OCompressed g) /\ creach p g
  | PyMatrix a => a <> null /\ exists m g o b, h !! a = Some (OMatrix m) /\ reach p g /\
      find_avg_pool_matrix p o g b = Ret m
  | PyEdgeList a n => a <> null /\ exists l, holds_list h edges_of a n l
  | PyVertexList a n => a <> null /\ exists l, holds_list h vertices_of a n l
  | PyEntryList a n => a <> null /\ exists l, holds_list h entries_of a n l
  | _ => False
  end.

Definition owns (p : platform) (w : world) : Prop :=
  Forall (sound p (w_heap w)) (w_live w) /\
  NoDup (omap memory_of (w_live w)) /\
  (forall a, is_Some (w_heap w !! a) <-> a ∈ omap memory_of (w_live w)).

Lemma holds_frame {A} (list_of : cobj -> option (list A)) h h' a n l :
  holds_list h list_of a n l -> (forall b, (if n =? 0 then None else Some a) = Some b -> h' !! b = h !! b) ->
  holds_list h' list_of a n l.
Proof.
  intros [Hn [->|(x & Hx & Hl)]] H; (split; [done|]); [by left|].
  destruct (N.eqb_spec n 0) as [->|].
  - left. by destruct l.
  - right. exists x. by rewrite H.
Qed.

Lemma sound_frame p h h' v : sound p h v -> (forall a, memory_of v = Some a -> h' !! a = h !! a) ->
  sound p h' v.
Proof.
  intros Hs H. destruct v; simpl in *; try done.
  1-3: destruct Hs as [Ha Hs]; (split; [done|]); by rewrite (H a).
  all: destruct Hs as [Ha [l Hs]]; (split; [done|]); exists l; by eapply holds_frame.
Qed.

(** The three methods that change their graph. *)
Definition changes (c : pycall) : bool :=
  match c with PAddVertex _ _ _ | PAddEdge _ _ _ | PDeleteEdge _ _ _ => true | _ => false end.

(** What a call can do to the world. *)
Definition may_abort (p : platform) (h : cheap) (c : pycall) : Prop :=
  match c with
  | PFindAvgPool a b | PApproximate a b _ => overflow_checks p = true /\
      exists g, h !! a = Some (OGraph g) /\ 2 ^ 32 <= N.min (c_uint64 b) (vertex_count g)
  | PMToString _ d => (65491 < Z.of_N (c_size_t p (default 2%Z d)))%Z
  | _ => False
  end.

Inductive effect (p : platform) (h : cheap) (c : pycall) : pyresult pyval -> Prop :=
| e_value v : is_object v = false -> effect p h c (PyDone v h)
| e_raise x : effect p h c (PyRaise x h)
| e_new v a x : memory_of v = Some a -> is_object v = true -> h !! a = None ->
    sound p (<[a := x]> h) v -> effect p h c (PyDone v (<[a := x]> h))
| e_empty v : memory_of v = None -> is_object v = true -> sound p h v -> effect p h c (PyDone v h)
| e_change a g g' : changes c = true -> self_of c = Some (PyGraph a) -> h !! a = Some (OGraph g) -> reach p g' ->
    effect p h c (PyDone PyNone (<[a := OGraph g']> h))
| e_abort : may_abort p h c -> effect p h c PyAbort.

Lemma effect_hands p h c wrap x r : (forall a, is_object (wrap a) = true /\ memory_of (wrap a) = Some a) ->
  (forall a, a <> null -> h !! a = None -> sound p (<[a := x]> h) (wrap a)) ->
  py_hands h wrap x r -> effect p h c r.
Proof.
  intros Hw Hs (a & -> & Ha & Hf). destruct (Hw a). by eapply e_new; eauto.
Qed.

Lemma effect_list {A} p h c wrap (obj : list A -> cobj) (list_of : cobj -> option (list A)) l r :
  (forall a n, is_object (wrap a n) = true /\ memory_of (wrap a n) = if n =? 0 then None else Some a) ->
  (forall h a n l, a <> null -> holds_list h list_of a n l -> sound p h (wrap a n)) ->
  (forall l, list_of (obj l) = Some l) ->
  py_hands_list h wrap obj l r -> effect p h c r.
Proof.
  intros Hw Hs Hl (a & Ha & Hf & ->). destruct (Hw a (N.of_nat (length l))) as [Ho Hm].
  destruct l as [|y l].
  - eapply e_empty; [done|done|]. apply (Hs h a _ []); [done|]. split; [done|by left].
  - eapply e_new; [rewrite Hm; by rewrite (proj2 (N.eqb_neq _ _))|done|by apply Hf|].
    eapply Hs; [done|]. split; [done|]. right. eexists. split; [apply lookup_insert|apply Hl].
Qed.

Lemma effect_makes {A} p h c wrap (obj : A -> cobj) (x : outcome A) r :
  (forall a, is_object (wrap a) = true /\ memory_of (wrap a) = Some a) ->
  (forall y a, x = Ret y -> a <> null -> h !! a = None -> sound p (<[a := obj y]> h) (wrap a)) ->
  (x = Panic -> may_abort p h c) -> x <> OutOfFuel ->
  py_makes h wrap obj x r -> effect p h c r.
Proof.
  intros Hw Hs Hp Hf H. unfold py_makes in H. destruct x as [y| |].
  - eapply effect_hands; [done| |exact H]. intros a. by apply Hs.
  - subst r. by constructor; apply Hp.
  - done.
Qed.

Lemma u64_of z : is_u64 (c_uint64 z).
Proof. by destruct (C59_integers plat64 z) as (_ & ? & _). Qed.
Lemma u64_of_all l : is_u64_slice (c_uint64 <$> l).
Proof. induction l; constructor; [apply u64_of|done]. Qed.

Lemma py_text_effect p h c r : (forall x, r = Ret x -> True) -> r <> OutOfFuel ->
  (r = Panic -> may_abort p h c) -> effect p h c (py_text h r).
Proof.
  intros _ Hf Hp. destruct r as [[s|err]| |]; simpl; [by constructor|by constructor|by constructor; apply Hp|done].
Qed.

Lemma call_effect p w e c : wf_platform p -> owns p w -> step_ok p w (SCall e c) ->
  effect p (w_heap w) c (pyexec e c (w_heap w)).
Proof.
  intros Hp (Hs & _ & _) (He & Hal & Hnd & Hargs & Hself).
  destruct w as [h live]. simpl in *. rewrite Forall_forall in Hs.
  assert (forall v, self_of c = Some v -> sound p h v) as Hsound by (intros v Hv; by apply Hs, Hself).
  clear Hself Hs.
  destruct (C59_makers e h Hal) as (Hnew & Hmg & Hmc & Hmm). cbv zeta in *. rewrite He in *.
  assert (forall a, is_object (PyGraph a) = true /\ memory_of (PyGraph a) = Some a) as HwG by done.
  assert (forall a, is_object (PyCompressed a) = true /\ memory_of (PyCompressed a) = Some a) as HwC by done.
  assert (forall a, is_object (PyMatrix a) = true /\ memory_of (PyMatrix a) = Some a) as HwM by done.
  assert (forall g a, reach p g -> a <> null -> sound p (<[a := OGraph g]> h) (PyGraph a)) as HsG.
  { intros g a Hr Ha. split; [done|]. exists g. by rewrite lookup_insert. }
  assert (forall g a, creach p g -> a <> null -> sound p (<[a := OCompressed g]> h) (PyCompressed a)) as HsC.
  { intros g a Hr Ha. split; [done|]. exists g. by rewrite lookup_insert. }
  assert (forall m a g o b, reach p g -> find_avg_pool_matrix p o g b = Ret m -> a <> null ->
    sound p (<[a := OMatrix m]> h) (PyMatrix a)) as HsM.
  { intros m a g o b Hr Hm Ha. split; [done|]. exists m, g, o, b. by rewrite lookup_insert. }
  destruct (self_of c) as [v|] eqn:Ev; [specialize (Hsound v eq_refl)|].
  2: { destruct c as [u| | |bytes| | | | | | | | | | | | | | | | | | | | | | |bytes| | | | | | | | | | | | | | | |]; try discriminate.
    - (* PNew *) assert (pyexec e (PNew u) h = pyexec e (PNew (Some (default false u))) h)
        as -> by by destruct u.
      eapply effect_hands; [| |apply Hnew]; [done|]. intros a Ha _. apply HsG; [|done].
      destruct (default false u); constructor.
    - destruct (C60_partial p e h bytes Hp He Hal Hargs) as [(r & Er & Hr) _].
      destruct r as [g|err]; [|rewrite Hr; constructor].
      eapply effect_hands; [| |exact Hr]; [done|]. intros a Ha _. apply HsG; [|done]. by eapply r_try_from.
    - destruct (C60_partial p e h bytes Hp He Hal Hargs) as [_ (r & Er & Hr)].
      destruct r as [g|err]; [|rewrite Hr; constructor].
      eapply effect_hands; [| |exact Hr]; [done|]. intros a Ha _. apply HsC; [|done]. by eapply cr_try_from. }
  destruct v; try (destruct c; discriminate); simpl in Hsound.
  - (* methods of Graph *)
    destruct Hsound as [Ha (g & Hg & Hr)]. assert (self_of c = Some (PyGraph a)) as Hself by done.
    destruct (C59_graph_queries e h a g Ha Hg) as (Q1 & Q2 & Q3 & Q4 & Q5 & Q6).
    destruct (C59_graph_changes e h a g Ha Hg Hal) as (H1 & H2 & H3 & H4 & _).
    destruct (Hmg a g Ha Hg) as (Mdup & Mpool & Mapp & Mcomp).
    destruct (C59_lists p e h a Hp Hal Ha) as [HL _]. specialize (HL g Hr Hg) as (L1 & L2 & L3).
    destruct (C59_texts p e h a Hp He Hal Ha) as [HT _]. specialize (HT g Hr Hg).
    destruct (C59_bytes p e h a Hp He Hal Ha) as [HB _]. specialize (HB g Hr Hg).
    destruct c; try discriminate; injection Ev as ->.
    + rewrite HB. by constructor.
    + eapply effect_hands; [| |exact Mdup]; [done|]. intros. by apply HsG.
    + rewrite HT. apply py_text_effect; [done|done|]. by destruct (matrix_string p g).
    + rewrite Q1. by constructor.
    + rewrite Q2. by constructor.
    + rewrite Q3. by constructor.
    + rewrite Q4. by constructor.
    + assert (effect p h (PAddVertex a vertex to_vertexs)
        (PyDone PyNone (<[a:=OGraph (add_vertex g (c_uint64 vertex) (match to_vertexs with
           | None | Some [] => None | Some ids => Some (c_uint64 <$> ids) end))]> h))) as Hx.
      { eapply e_change; [done|done|done|]. apply r_add_vertex; [done|apply u64_of|].
        destruct to_vertexs as [[|i ids]|]; [by constructor|apply u64_of_all|by constructor]. }
      destruct to_vertexs as [[|i ids]|].
      * by rewrite (proj2 (H3 vertex)).
      * rewrite H4; [done|done|]. by rewrite He.
      * by rewrite (proj1 (H3 vertex)).
    + rewrite H1. eapply e_change; [done|done|done|]. apply r_add_edge; [done|apply u64_of..].
    + rewrite H2. eapply e_change; [done|done|done|]. apply r_delete_edge; [done|apply u64_of..].
    + destruct (C36_panics_exactly p (ce_order1 e) (ce_order1 e) g (c_uint64 block_dimension) f64_zero Hp Hr)
        as (P1 & _ & P3).
      eapply effect_makes; [| | | |apply Mpool]; [done|..].
      * intros y b Hy Hb _. by eapply HsM.
      * intros Hpan. apply P1 in Hpan as [? ?]. split; [done|]. by exists g.
      * intros Hof. destruct P3 as [[m Hm] _]; [|congruence].
        intros Hw. apply P1 in Hw. congruence.
    + destruct (C36_panics_exactly p (ce_order1 e) (ce_order2 e) g (c_uint64 block_dimension) threshold Hp Hr)
        as (_ & P2 & P3).
      eapply effect_makes; [| | | |apply Mapp]; [done|..].
      * intros y b Hy Hb _. apply HsG; [|done]. eapply r_approximate; [exact Hr|apply u64_of|exact Hargs|exact Hy].
      * intros Hpan. apply P2 in Hpan as [? ?]. split; [done|]. by exists g.
      * intros Hof. destruct P3 as [_ [m Hm]]; [|congruence].
        intros Hw. apply P2 in Hw. congruence.
    + destruct (C25_decompress p (ce_order1 e) (ce_order2 e) (ce_order1 e) g (Z.to_N (Z.max 1 (Z.min 64 level))) Hp Hr)
        as (cg & g' & Hc & _).
      eapply effect_makes; [| | | |apply Mcomp]; [done|..]; rewrite Hc; [|done|done].
      intros y b [= <-] Hb _. apply HsC; [|done]. eapply cr_compress; [exact Hr| |exact Hc].
      unfold is_byte. lia.
    + destruct L1 as (l & _ & _ & L). eapply (effect_list _ _ _ _ _ edges_of); [| | |exact L]; try done.
      intros h' b n l' Hb Hl. split; [done|]. by exists l'.
    + destruct (L2 vertex) as (l & _ & _ & L). eapply (effect_list _ _ _ _ _ vertices_of); [| | |exact L]; try done.
      intros h' b n l' Hb Hl. split; [done|]. by exists l'.
    + destruct (L3 vertex) as (l & _ & _ & L). eapply (effect_list _ _ _ _ _ vertices_of); [| | |exact L]; try done.
      intros h' b n l' Hb Hl. split; [done|]. by exists l'.
    + rewrite Q5. by constructor.
    + rewrite Q6. by constructor.
  - (* methods of CompressedGraph *)
    destruct Hsound as [Ha (g & Hg & Hr)].
    destruct (C59_other_queries e h a Ha) as [HQ _]. specialize (HQ g Hg) as (Q1 & Q2 & Q3 & Q4 & Q5 & Q6 & _).
    destruct (Hmc a g Ha Hg) as (Mdup & Mdec).
    destruct (C59_texts p e h a Hp He Hal Ha) as [_ [HT _]]. specialize (HT g Hr Hg).
    destruct (C59_bytes p e h a Hp He Hal Ha) as [_ HB]. specialize (HB g Hr Hg).
    destruct (C25_decompress_any p (ce_order1 e) g Hp Hr) as (g' & Hd & _).
    destruct c; try discriminate; injection Ev as ->.
    + rewrite HB. by constructor.
    + eapply effect_hands; [| |exact Mdup]; [done|]. intros. by apply HsC.
    + rewrite HT. destruct (C52_texts_and_bytes p e h a null Hp He Hal Ha ltac:(by left)) as [_ HC].
      destruct (HC g Hr Hg) as [(r & -> & _) _]. by apply py_text_effect.
    + eapply effect_makes; [| | | |apply Mdec]; [done|..]; rewrite Hd; [|done|done].
      intros y b [= <-] Hb _. apply HsG; [|done]. by eapply r_decompress.
    + rewrite Q1. by constructor.
    + rewrite Q2. by constructor.
    + rewrite Q3. by constructor.
    + rewrite Q4. by constructor.
    + rewrite Q5. by constructor.
    + rewrite Q6. by constructor.
  - (* methods of CsrSquareMatrix *)
    destruct Hsound as [Ha (m & g & o & b & Hm & Hr & Hpool)].
    destruct (C59_other_queries e h a Ha) as [_ HQ]. specialize (HQ m Hm) as (Q1 & Q2 & Q3 & _).
    pose proof (Hmm a m Ha Hm) as Mdup.
    destruct (C59_lists p e h a Hp Hal Ha) as [_ HL].
    destruct (HL g o b m Hr Hpool Hm) as (l & _ & _ & _ & L).
    destruct (C52_matrix_texts e h a m Hal Ha Hm) as [HT _].
    destruct c; try discriminate; injection Ev as ->.
    + eapply effect_hands; [| |exact Mdup]; [done|]. intros. by eapply HsM.
    + rewrite Q1. by constructor.
    + rewrite Q2. by constructor.
    + rewrite Q3. by constructor.
    + cbn [pyexec]. rewrite He. set (d := c_size_t p (default 2%Z decimal_digits)). specialize (HT d).
      rewrite He in HT.
      assert (cexec e (CMatrixToStringPrecision a d) h = Abort -> may_abort p h (PMToString a decimal_digits) ->
        effect p h (PMToString a decimal_digits) (py_string e (CMatrixToStringPrecision a d) h)) as Hab.
      { intros Hx Hy. rewrite py_string_abort by done. by constructor. }
      assert (forall r, makes_text h r (cexec e (CMatrixToStringPrecision a d) h) ->
        effect p h (PMToString a decimal_digits) (py_string e (CMatrixToStringPrecision a d) h)) as Htx.
      { intros [s|err] Hx; simpl in Hx; [destruct (existsb _ s)|].
        - rewrite py_string_null by done. constructor.
        - rewrite (py_string_ok _ _ s) by done. by constructor.
        - rewrite py_string_null by done. constructor. }
      destruct (N.le_gt_cases d 65491) as [Hd|Hd].
      * destruct (pool_safe p o (ce_order1 e) g b m d Hp (reach_inv p g Hp Hr) Hpool ltac:(lia)) as (r & E & _).
        rewrite E in HT. by apply (Htx r).
      * destruct (sq_to_string_with_precision p f64_numeric (ce_order1 e) m d) as [r| |].
        -- by apply (Htx r).
        -- apply Hab; [done|]. simpl. fold d. lia.
        -- apply Hab; [done|]. simpl. fold d. lia.
    + eapply (effect_list _ _ _ _ _ entries_of); [| | |exact L]; try done.
      intros h' x n l' Hb Hl. split; [done|]. by exists l'.
Qed.

Lemma omap_live_cons v live : omap memory_of (v :: live) =
  match memory_of v with Some a => a :: omap memory_of live | None => omap memory_of live end.
Proof. done. Qed.

Lemma memory_other p h live v a : Forall (sound p h) live -> a ∉ omap memory_of live -> v ∈ live ->
  memory_of v <> Some a.
Proof. intros Hs Ha Hv Hm. apply Ha. apply elem_of_list_omap. by exists v. Qed.

(** The result of a call keeps the books. *)
Lemma effect_owns p h live c r : owns p (World h live) -> self_of c = None \/
    (exists v, self_of c = Some v /\ v ∈ live) -> effect p h c r ->
  match keep live (fun v => if is_object v then [v] else []) r with
  | WOk w' => owns p w'
  | WAbort => may_abort p h c
  | WUB => False
  end.
Proof.
  intros (Hs & Hn & Hd) Hself Hr. simpl in *.
  destruct Hr as [v Hv|x|v a x Hm Ho Hf Hv|v Hm Ho Hv|a g g' _ Hc Hg Hr|Hab]; simpl; try rewrite Ho; simpl.
  - rewrite Hv. by split_and!.
  - by split_and!.
  - assert (a ∉ omap memory_of live) as Hnot by (rewrite <-Hd, Hf; by intros []).
    split_and!; simpl.
    + apply Forall_cons; split; [done|]. rewrite Forall_forall in Hs |- *. intros y Hy.
      eapply sound_frame; [by apply Hs|]. intros b Hb. rewrite lookup_insert_ne; [done|].
      intros ->. apply Hnot. apply elem_of_list_omap. by exists y.
    + rewrite Hm. by constructor.
    + intros b. rewrite Hm, elem_of_cons, <-Hd. destruct (decide (a = b)) as [->|Hne].
      * rewrite lookup_insert. naive_solver.
      * rewrite lookup_insert_ne by done. naive_solver.
  - split_and!; simpl.
    + by constructor.
    + by rewrite Hm.
    + by rewrite Hm.
  - destruct Hself as [Hself|(v & Hself & Hin)]; [congruence|].
    split_and!; simpl; [|done|].
    + rewrite Forall_forall in Hs |- *. intros y Hy.
      destruct (decide (memory_of y = Some a)) as [Hya|Hya].
      * specialize (Hs y Hy).
        assert (y = PyGraph a) as ->.
        { destruct y; simpl in Hs, Hya; try discriminate; try (injection Hya as ->; done).
          - injection Hya as ->. destruct Hs as [_ (g0 & E & _)]. congruence.
          - injection Hya as ->. destruct Hs as [_ (m & g0 & o & b & E & _)]. congruence.
          - destruct (N.eqb_spec size 0) as [|Hz]; [done|]. injection Hya as ->.
            destruct Hs as [_ (l & -> & [->|(x & Hx & Hl)])]; [done|]. rewrite Hg in Hx. by injection Hx as <-.
          - destruct (N.eqb_spec size 0) as [|Hz]; [done|]. injection Hya as ->.
            destruct Hs as [_ (l & -> & [->|(x & Hx & Hl)])]; [done|]. rewrite Hg in Hx. by injection Hx as <-.
          - destruct (N.eqb_spec size 0) as [|Hz]; [done|]. injection Hya as ->.
            destruct Hs as [_ (l & -> & [->|(x & Hx & Hl)])]; [done|]. rewrite Hg in Hx. by injection Hx as <-. }
        destruct Hs as [Ha _]. split; [done|]. exists g'. by rewrite lookup_insert.
      * eapply sound_frame; [by apply Hs|]. intros b Hb. rewrite lookup_insert_ne; [done|]. congruence.
    + intros b. rewrite <-Hd. destruct (decide (a = b)) as [->|Hne].
      * rewrite lookup_insert, Hg. naive_solver.
      * by rewrite lookup_insert_ne.
  - done.
Qed.

(** [__del__] gives back the memory of the object and nothing else. *)
Lemma del_effect p e h v : sound p h v -> exists c, del_call v = Some c /\
  pyexec e c h = PyDone PyNone (match memory_of v with Some a => delete a h | None => h end).
Proof.
  assert (forall {A} (wrap : addr -> N -> pyval) (obj : list A -> cobj) list_of a n l,
    a <> null -> holds_list h list_of a n l -> (forall x l, list_of x = Some l -> x = obj l) ->
    let h0 := if n =? 0 then h else delete a h in
    py_hands_list h0 wrap obj l (PyDone (wrap a (N.of_nat (length l))) h) /\ n = N.of_nat (length l)) as Hl.
  { intros A wrap obj list_of a n l Ha [-> Hx] Hobj. split; [|done]. exists a. split; [done|].
    destruct l as [|y l]; [by split|]. rewrite (proj2 (N.eqb_neq _ _)) by done. destruct Hx as [?|(x & Hx & Hy)]; [done|].
    split; [intros _; apply lookup_delete|]. rewrite insert_delete; [done|]. by rewrite Hx, (Hobj _ _ Hy). }
  assert (forall a n h0, (if n =? 0 then h else delete a h) = h0 ->
    match (if n =? 0 then None else Some a) with Some b => delete b h | None => h end = h0) as Hif.
  { intros a n h0 <-. by destruct (n =? 0). }
  intros Hs. destruct v; simpl in Hs; try done.
  - destruct Hs as [Ha (g & Hg & _)]. exists (PDel a). split; [done|]. simpl memory_of.
    cbn [pyexec]. unfold py_none, pcall_none, pbind, pcall.
    destruct (C57_free e h) as (F & _). by rewrite (F a (OGraph g) (CFreeGraph a)).
  - destruct Hs as [Ha (g & Hg & _)]. exists (PCDel a). split; [done|].
    destruct (C59_other_queries e h a Ha) as [HQ _]. apply (HQ g Hg).
  - destruct Hs as [Ha (m & g & o & b & Hg & _)]. exists (PMDel a). split; [done|].
    destruct (C59_other_queries e h a Ha) as [_ HQ]. apply (HQ m Hg).
  - destruct Hs as [Ha (l & Hh)].
    destruct (Hl _ PyEdgeList OEdges _ _ _ _ Ha Hh) as [H ->]; [by intros [] ? [= ->]|].
    exists (PDelEdges ptr (N.of_nat (length l))). split; [done|]. simpl memory_of.
    rewrite (proj1 (C59_list_del e _ ptr) _ _ H). f_equal. by rewrite (Hif _ _ _ eq_refl).
  - destruct Hs as [Ha (l & Hh)].
    destruct (Hl _ PyVertexList OVertices _ _ _ _ Ha Hh) as [H ->]; [by intros [] ? [= ->]|].
    exists (PDelVertices ptr (N.of_nat (length l))). split; [done|]. simpl memory_of.
    rewrite (proj1 (proj2 (C59_list_del e _ ptr)) _ _ H). f_equal. by rewrite (Hif _ _ _ eq_refl).
  - destruct Hs as [Ha (l & Hh)].
    destruct (Hl _ PyEntryList OEntries _ _ _ _ Ha Hh) as [H ->]; [by intros [] ? [= ->]|].
    exists (PDelEntries ptr (N.of_nat (length l))). split; [done|]. simpl memory_of.
    rewrite (proj2 (proj2 (C59_list_del e _ ptr)) _ _ H). f_equal. by rewrite (Hif _ _ _ eq_refl).
Qed.

(** Lists can be read at every index. *)
Lemma getitem_safe {A} (list_of : cobj -> option (list A)) h a n l idx : holds_list h list_of a n l ->
  (exists x, py_getitem list_of a n idx h = PyDone x h) \/ (exists x, py_getitem list_of a n idx h = PyRaise x h).
Proof.
  intros [-> Hx]. unfold py_getitem.
  destruct (Z.leb_spec (Z.of_N (N.of_nat (length l))) idx) as [|Hi]; [right; by eexists|].
  assert (forall i, l <> [] -> (0 <= i < Z.of_nat (length l))%Z -> exists x, ptr_item list_of a i h = PyDone x h) as Hit.
  { intros i Hl Hb. destruct Hx as [?|(x & Hx & Hy)]; [done|].
    destruct (lookup_lt_is_Some_2 l (Z.to_nat i)) as [y Hyi]; [lia|]. exists y. eapply ptr_item_at; [done|done|lia|done]. }
  destruct (Z.ltb_spec idx 0).
  - destruct (N.eqb_spec (N.of_nat (length l)) 0); [right; by eexists|]. left.
    destruct (Hit (Z.of_N (N.of_nat (length l)) - Z.max (Z.abs idx mod Z.of_N (N.of_nat (length l))) 1)%Z)
      as [x E]; [by destruct l| |by exists x].
    pose proof (Z.mod_pos_bound (Z.abs idx) (Z.of_N (N.of_nat (length l))) ltac:(lia)). lia.
  - left. apply Hit; [|lia]. destruct l; [simpl in Hi; lia|done].
Qed.

Lemma next_safe {A} (list_of : cobj -> option (list A)) h a n l pos : holds_list h list_of a n l -> pos <= n ->
  (exists x, py_next list_of a n pos h = PyDone x h) \/ py_next list_of a n pos h = PyRaise StopIteration h.
Proof.
  intros [-> Hx] Hpos. unfold py_next. destruct (N.eqb_spec pos (N.of_nat (length l))); [by right|]. left.
  destruct Hx as [->|(x & Hx & Hy)]; [simpl in *; lia|].
  destruct (lookup_lt_is_Some_2 l (N.to_nat pos)) as [y Hyi]; [lia|].
  unfold pbind. erewrite ptr_item_at; [by eexists|done|done|lia|]. by replace (Z.to_nat (Z.of_N pos)) with (N.to_nat pos) by lia.
Qed.

Definition abort_allowed (p : platform) (w : world) (s : pystep) : Prop :=
  match s with SCall e c => may_abort p (w_heap w) c | _ => False end.

Lemma step_owns p w s : wf_platform p -> owns p w -> step_ok p w s ->
  match run_step w s with
  | WOk w' => owns p w'
  | WAbort => abort_allowed p w s
  | WUB => False
  end.
Proof.
  intros Hp Ho Hok. destruct s as [e c|e i|i idx|i pos].
  - pose proof (call_effect p w e c Hp Ho Hok) as Heff. destruct w as [h live].
    destruct Hok as (_ & _ & _ & _ & Hself).
    pose proof (effect_owns p h live c (pyexec e c h) Ho) as H. simpl in *. apply H; [|done].
    destruct (self_of c) as [v|]; [right; exists v; auto|by left].
  - destruct Hok as (_ & _ & [v Hv]). destruct Ho as (Hs & Hn & Hd). destruct w as [h live]. simpl in *.
    assert (sound p h v) as Hsv by (rewrite Forall_forall in Hs; by eapply Hs, elem_of_list_lookup_2).
    destruct (del_effect p e h v Hsv) as (c & Hc & E). rewrite Hv. simpl. rewrite Hc, E. simpl.
    pose proof (delete_Permutation live i v Hv) as HP.
    assert (omap memory_of live ≡ₚ omap memory_of (v :: delete i live)) as HPo by by rewrite <-HP.
    rewrite omap_live_cons in HPo.
    assert (Forall (sound p h) (delete i live)) as Hs'.
    { rewrite HP in Hs. by inversion Hs. }
    split_and!; simpl.
    + destruct (memory_of v) as [a|]; [|done]. rewrite HPo in Hn. inversion Hn as [|? ? Hna Hn']; subst.
      rewrite Forall_forall in Hs' |- *. intros y Hy. eapply sound_frame; [by apply Hs'|].
      intros b Hb. rewrite lookup_delete_ne; [done|]. intros ->. apply Hna. apply elem_of_list_omap. by exists y.
    + destruct (memory_of v) as [a|]; rewrite HPo in Hn; [by inversion Hn|done].
    + intros b. specialize (Hd b). rewrite HPo in Hd, Hn. destruct (memory_of v) as [a|]; [|done].
      inversion Hn as [|? ? Hna Hn']; subst. destruct (decide (a = b)) as [->|Hne].
      * rewrite lookup_delete. split; [by intros []|done].
      * rewrite lookup_delete_ne by done. rewrite Hd, elem_of_cons. naive_solver.
  - destruct Hok as (v & Hv & Hl). destruct w as [h live]. simpl in *. rewrite Hv.
    assert (sound p h v) as Hsv.
    { destruct Ho as (Hs & _). rewrite Forall_forall in Hs. by eapply Hs, elem_of_list_lookup_2. }
    destruct v; try done; destruct Hsv as [_ [l Hh]];
      (destruct (getitem_safe _ _ _ _ _ idx Hh) as [[x ->]|[x ->]]; exact Ho).
  - destruct Hok as (v & Hv & Hl & Hpos). destruct w as [h live]. simpl in *. rewrite Hv.
    assert (sound p h v) as Hsv.
    { destruct Ho as (Hs & _). rewrite Forall_forall in Hs. by eapply Hs, elem_of_list_lookup_2. }
    destruct v; try done; destruct Hsv as [_ [l Hh]];
      (destruct (next_safe _ _ _ _ _ pos Hh Hpos) as [[x ->]| ->]; exact Ho).
Qed.

Lemma world_owns p w : wf_platform p -> py_world p w -> owns p w.
Proof.
  intros Hp. induction 1 as [|w s w' _ IH Hok Hrun].
  - split_and!; simpl; [done|constructor|]. intros a. rewrite lookup_empty, elem_of_nil.
    split; [by intros []|done].
  - pose proof (step_owns p w s Hp IH Hok) as H. by rewrite Hrun in H.
Qed.

(** No program reads, writes or frees memory it does not own.  The process ends only by a call
    of find_avg_pool_matrix or approximate on a graph and blocks of at least 2^32, in a build
    with overflow checks, or by to_string with more than 65491 decimals. *)
Theorem C80_safe p w s : wf_platform p -> py_world p w -> step_ok p w s ->
  run_step w s <> WUB /\
  (run_step w s = WAbort -> exists e c, s = SCall e c /\
     match c with
     | PFindAvgPool a b | PApproximate a b _ => overflow_checks p = true /\
         exists g, w_heap w !! a = Some (OGraph g) /\ 2 ^ 32 <= N.min (c_uint64 b) (vertex_count g)
     | PMToString _ d => (65491 < Z.of_N (c_size_t p (default 2%Z d)))%Z
     | _ => False
     end).
Proof.
  intros Hp Hw Hok. pose proof (step_owns p w s Hp (world_owns p w Hp Hw) Hok) as H.
  destruct (run_step w s) as [w'| |]; [done| |done]. split; [done|]. intros _.
  destruct s as [e c| | |]; [|done..]. by exists e, c.
Qed.
Print Assumptions C80_safe.

(** The memory in use is that of the objects alive, each of which has its own; when all objects
    are gone no memory is in use. *)
Theorem C80_no_leak p w : wf_platform p -> py_world p w ->
  (forall a, is_Some (w_heap w !! a) <-> exists v, v ∈ w_live w /\ memory_of v = Some a) /\
  (forall i j v v' a, w_live w !! i = Some v -> w_live w !! j = Some v' ->
     memory_of v = Some a -> memory_of v' = Some a -> i = j) /\
  (w_live w = [] -> w_heap w = ∅).
Proof.
  intros Hp Hw. destruct (world_owns p w Hp Hw) as (Hs & Hn & Hd). split_and!.
  - intros a. by rewrite Hd, elem_of_list_omap.
  - clear Hs Hd Hw. induction (w_live w) as [|x live IH]; [done|].
    rewrite omap_live_cons in Hn.
    assert (NoDup (omap memory_of live)) as Hn' by (destruct (memory_of x); [by inversion Hn|done]).
    assert (forall k y a, live !! k = Some y -> memory_of x = Some a -> memory_of y = Some a -> False) as Hx.
    { intros k y a Hk Hxa Hya. rewrite Hxa in Hn. inversion Hn as [|? ? Hna _]; subst. apply Hna.
      apply elem_of_list_omap. exists y. split; [by eapply elem_of_list_lookup_2|done]. }
    intros [|i] [|j] v v' a Hi Hj Ha Ha'; simpl in *.
    + done.
    + injection Hi as ->. by destruct (Hx j v' a).
    + injection Hj as ->. by destruct (Hx i v a).
    + f_equal. by eapply IH.
  - intros E. rewrite E in Hd. apply map_eq. intros a. rewrite lookup_empty.
    destruct (w_heap w !! a) eqn:Ea; [|done]. destruct (Hd a) as [H _].
    rewrite Ea in H. specialize (H ltac:(by eexists)). by apply elem_of_nil in H.
Qed.
Print Assumptions C80_no_leak.

(** Every object alive wraps what its class says. *)
Theorem C80_objects p w v : wf_platform p -> py_world p w -> v ∈ w_live w ->
  match v with
  | PyGraph a => exists g, w_heap w !! a = Some (OGraph g) /\ reach p g
  | PyCompressed a => exists g, w_heap w !! a = Some (OCompressed g) /\ creach p g
  | PyMatrix a => exists m g o b, w_heap w !! a = Some (OMatrix m) /\ reach p g /\
      find_avg_pool_matrix p o g b = Ret m
  | PyEdgeList a n => exists l, holds_list (w_heap w) edges_of a n l
  | PyVertexList a n => exists l, holds_list (w_heap w) vertices_of a n l
  | PyEntryList a n => exists l, holds_list (w_heap w) entries_of a n l
  | _ => False
  end.
Proof.
  intros Hp Hw Hv. destruct (world_owns p w Hp Hw) as (Hs & _). rewrite Forall_forall in Hs.
  specialize (Hs v Hv). destruct v; naive_solver.
Qed.
Print Assumptions C80_objects.

(** A step touches no object but the one that goes away or is changed. *)
Theorem C80_others_untouched p w s w' v a : wf_platform p -> py_world p w -> step_ok p w s ->
  run_step w s = WOk w' -> v ∈ w_live w -> memory_of v = Some a ->
  match s with
  | SCall _ c => changes c = true -> self_of c <> Some v
  | SDrop _ i => w_live w !! i <> Some v
  | _ => True
  end ->
  v ∈ w_live w' /\ w_heap w' !! a = w_heap w !! a.
Proof.
  intros Hp Hw Hok Hrun Hv Hm Hs. pose proof (world_owns p w Hp Hw) as Ho.
  destruct s as [e c|e i|i idx|i pos].
  - pose proof (call_effect p w e c Hp Ho Hok) as Heff. destruct Ho as (Hsd & _ & Hd).
    assert (is_Some (w_heap w !! a)) as [x Hx] by (apply Hd, elem_of_list_omap; by exists v).
    simpl in Hrun. destruct Heff as [v' Hv'|x'|v' a' x' Hm' Ho' Hf Hv'|v' Hm' Ho' Hv'|a' g g' Hch Hc Hg Hr|Hab];
      simpl in Hrun; try discriminate; injection Hrun as <-; simpl.
    + by rewrite Hv'.
    + done.
    + rewrite Ho'. split; [by right|]. rewrite lookup_insert_ne; [done|]. congruence.
    + rewrite Ho'. split; [by right|done].
    + split; [done|]. rewrite lookup_insert_ne; [done|]. intros ->. apply (Hs Hch). rewrite Hc. f_equal.
      rewrite Forall_forall in Hsd. specialize (Hsd v Hv).
      destruct v; simpl in Hsd, Hm; try discriminate; try (injection Hm as ->; done).
      * injection Hm as ->. destruct Hsd as [_ (g0 & E & _)]. congruence.
      * injection Hm as ->. destruct Hsd as [_ (m & g0 & o & b & E & _)]. congruence.
      * destruct (N.eqb_spec size 0); [done|]. injection Hm as ->.
        destruct Hsd as [_ (l & -> & [->|(y & Hy & Hl)])]; [done|]. rewrite Hg in Hy. by injection Hy as <-.
      * destruct (N.eqb_spec size 0); [done|]. injection Hm as ->.
        destruct Hsd as [_ (l & -> & [->|(y & Hy & Hl)])]; [done|]. rewrite Hg in Hy. by injection Hy as <-.
      * destruct (N.eqb_spec size 0); [done|]. injection Hm as ->.
        destruct Hsd as [_ (l & -> & [->|(y & Hy & Hl)])]; [done|]. rewrite Hg in Hy. by injection Hy as <-.
  - destruct Hok as (_ & _ & [u Hu]). pose proof Ho as (Hsd & Hn & _).
    assert (sound p (w_heap w) u) as Hsu by (rewrite Forall_forall in Hsd; by eapply Hsd, elem_of_list_lookup_2).
    destruct (del_effect p e _ u Hsu) as (c & Hc & E). simpl in Hrun. rewrite Hu in Hrun, Hs. simpl in Hrun.
    rewrite Hc, E in Hrun. injection Hrun as <-. simpl.
    pose proof (delete_Permutation _ i u Hu) as HP.
    assert (v ∈ delete i (w_live w)) as Hv'.
    { rewrite HP in Hv. apply elem_of_cons in Hv as [->|?]; [by destruct Hs|done]. }
    split; [done|]. destruct (memory_of u) as [b|] eqn:Hb; [|done]. rewrite lookup_delete_ne; [done|]. intros ->.
    assert (omap memory_of (w_live w) ≡ₚ omap memory_of (u :: delete i (w_live w))) as HPo by by rewrite <-HP.
    rewrite omap_live_cons, Hb in HPo. rewrite HPo in Hn. inversion Hn as [|? ? Hna _]; subst.
    apply Hna, elem_of_list_omap. by exists v.
  - destruct Hok as (u & Hu & Hl). simpl in Hrun. rewrite Hu in Hrun.
    destruct Ho as (Hsd & _). rewrite Forall_forall in Hsd. pose proof (Hsd u ltac:(by eapply elem_of_list_lookup_2)) as Hsu.
    destruct u; try done; destruct Hsu as [_ [l Hh]];
      (destruct (getitem_safe _ _ _ _ _ idx Hh) as [[x E]|[x E]]; rewrite E in Hrun; by injection Hrun as <-).
  - destruct Hok as (u & Hu & Hl & Hpos). simpl in Hrun. rewrite Hu in Hrun.
    destruct Ho as (Hsd & _). rewrite Forall_forall in Hsd. pose proof (Hsd u ltac:(by eapply elem_of_list_lookup_2)) as Hsu.
    destruct u; try done; destruct Hsu as [_ [l Hh]];
      (destruct (next_safe _ _ _ _ _ pos Hh Hpos) as [[x E]|E]; rewrite E in Hrun; by injection Hrun as <-).
Qed.
Print Assumptions C80_others_untouched.

(** A list outlives its graph; when both are gone no memory is left. *)
Fixpoint run_steps (w : world) (l : list pystep) : wresult :=
  match l with
  | [] => WOk w
  | s :: l => match run_step w s with WOk w => run_steps w l | r => r end
  end.
Fixpoint steps_ok (p : platform) (w : world) (l : list pystep) : Prop :=
  match l with
  | [] => True
  | s :: l => step_ok p w s /\ match run_step w s with WOk w => steps_ok p w l | _ => False end
  end.
Lemma run_steps_world p l : forall w (P : world -> Prop), py_world p w -> steps_ok p w l ->
  match run_steps w l with WOk w' => P w' | _ => False end ->
  exists w', run_steps w l = WOk w' /\ py_world p w' /\ P w'.
Proof.
  induction l as [|s l IH]; simpl; intros w P Hw Hok HP; [by eexists|].
  destruct Hok as [Hs Hok]. destruct (run_step w s) as [w'| |] eqn:E; [|done..].
  apply IH; [|done..]. by eapply pw_step.
Qed.

Definition life : list pystep :=
  [SCall env64 (PNew (Some false)); SCall env64 (PAddEdge 16 3 7); SCall env64 (POutEdges 16 3);
   SDrop env64 1; SItem 0 (-1); SNext 0 1].
Lemma env64_ok : ce_platform env64 = ce_platform env64 /\ wf_alloc_fn (ce_alloc env64).
Proof. split; [done|exact bump_alloc_wf]. Qed.
Ltac step_run := match goal with
  | |- match ?r with WOk _ => _ | _ => _ end => let r' := eval vm_compute in r in change r with r'; cbv beta iota
  end.
Example C80_case : exists w, run_steps (World ∅ []) life = WOk w /\ py_world (ce_platform env64) w /\
  w_live w = [PyVertexList 18 1] /\ w_heap w !! 18 = Some (OVertices [7]) /\ w_heap w !! 16 = None.
Proof.
  apply run_steps_world; [constructor| |by vm_compute]. unfold life.
  split; [split_and!; [apply env64_ok..|done|done|by intros ? [=]]|]. step_run.
  split; [split_and!; [apply env64_ok..|done|done|intros ? [= <-]; apply elem_of_list_singleton; by vm_compute]|]. step_run.
  split; [split_and!; [apply env64_ok..|done|done|intros ? [= <-]; apply elem_of_list_singleton; by vm_compute]|]. step_run.
  split; [split_and!; [apply env64_ok..|by eexists]|]. step_run.
  split; [by eexists|]. step_run.
  split; [by eexists|]. done.
Qed.
Example C80_end_case : exists w, run_steps (World ∅ []) (life ++ [SDrop env64 0]) = WOk w /\
  w_live w = [] /\ w_heap w !! 16 = None /\ w_heap w !! 18 = None.
Proof.
  assert (forall r (P : world -> Prop), match r with WOk w => P w | _ => False end -> exists w, r = WOk w /\ P w) as H.
  { intros [] P HP; [by eexists|done..]. }
  apply H. by vm_compute.
Qed.
(** The model does notice misuse: reading a list whose memory is gone. *)
Example C80_misuse_case : run_step (World ∅ [PyVertexList 18 1]) (SItem 0 0) = WUB.
Proof. done. Qed.
