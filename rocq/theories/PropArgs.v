(** Property C77: arguments of other types than the documented ones. *)
From Coq Require Import ZArith Ascii String.
From Coq Require Import Reals Lra.
From Flocq Require Import Core.
From Verif Require Import FloatSpec FloatBridge FloatProofs PoolValueProofs.
From Verif Require Import Base HashIter F64 Numeric Sq Standard Compressed CApi CSpec Py PySpec PyArgs
  ArgsProofs PropCommon PropC PropPy.
Local Open Scope N_scope.

(** ** Vocabulary *)

(** Integers, and the truth values that Python counts among them. *)
Definition integer_arg (x : pyarg) (z : Z) : Prop :=
  x = AInt z \/ x = ABool true /\ z = 1%Z \/ x = ABool false /\ z = 0%Z.
Definition no_integer (x : pyarg) : Prop := forall z, ~ integer_arg x z.

(** The methods whose arguments are one or two integers, beside the typed methods. *)
Definition one_integer : list ((addr -> pyarg -> pyargcall) * (addr -> Z -> pycall)) :=
  [(XFindAvgPool, PFindAvgPool); (XInEdges, PInEdges); (XOutEdges, POutEdges);
   (XInDegree, PInDegree); (XOutDegree, POutDegree);
   (fun a x => XMToString a (Some x), fun a z => PMToString a (Some z));
   (fun a x => XAddVertex a x None, fun a z => PAddVertex a z None);
   (fun a x => XAddVertex a x (Some ANone), fun a z => PAddVertex a z None);
   (fun a x => XAddVertex a x (Some (AList [])), fun a z => PAddVertex a z None)].
Definition two_integers : list ((addr -> pyarg -> pyarg -> pyargcall) * (addr -> Z -> Z -> pycall)) :=
  [(XDoesEdgeExist, PDoesEdgeExist); (XAddEdge, PAddEdge); (XDeleteEdge, PDeleteEdge);
   (XCDoesEdgeExist, PCDoesEdgeExist); (XCEntry, PCEntry); (XMGetEntry, PMGetEntry)].

Lemma integer_arg_spec x z : integer_arg x z <-> arg_int x = Some z.
Proof.
  unfold integer_arg. destruct x as [|[|]|z'| | | | |]; simpl; split; try naive_solver.
Qed.
Lemma no_integer_spec x : no_integer x <-> arg_int x = None.
Proof.
  unfold no_integer. split.
  - intros H. destruct (arg_int x) as [z|] eqn:E; [|done]. destruct (H z). by apply integer_arg_spec.
  - intros E z H%integer_arg_spec. congruence.
Qed.

(** Integer arguments: the method as in Py.v, or ArgumentError before anything happens. *)
Theorem C77_integers e h :
  Forall (fun '(m, typed) => forall a x,
    (forall z, integer_arg x z -> pyexec_args e (m a x) h = pyexec e (typed a z) h) /\
    (no_integer x -> pyexec_args e (m a x) h = PyRaise ArgumentError h)) one_integer /\
  Forall (fun '(m, typed) => forall a x y,
    (forall i j, integer_arg x i -> integer_arg y j ->
       pyexec_args e (m a x y) h = pyexec e (typed a i j) h) /\
    (no_integer x \/ no_integer y -> pyexec_args e (m a x y) h = PyRaise ArgumentError h)) two_integers.
Proof.
  split; repeat constructor.
  all: try (intros Hz%integer_arg_spec || intros z Hz%integer_arg_spec || intros i j Hi%integer_arg_spec Hj%integer_arg_spec);
    try (intros Hn%no_integer_spec); try (intros [Hn%no_integer_spec|Hn%no_integer_spec]).
  all: unfold pyexec_args, with_ints, want_int, pbind, pret, praise; simpl arg_len; cbv iota beta;
    rewrite ?Hz, ?Hi, ?Hj, ?Hn; try done; by destruct (arg_int x).
Qed.
Print Assumptions C77_integers.

(** Edges given as a list: built before the vertex is looked at. *)
Theorem C77_add_vertex e h a v x :
  (forall l ids z, x = AList l -> l <> [] -> Forall2 integer_arg l ids -> integer_arg v z ->
     pyexec_args e (XAddVertex a v (Some x)) h = pyexec e (PAddVertex a z (Some ids)) h) /\
  (forall l z, x = ABytes l -> l <> [] -> integer_arg v z ->
     pyexec_args e (XAddVertex a v (Some x)) h = pyexec e (PAddVertex a z (Some (Z.of_N <$> l))) h) /\
  (forall l, x = AList l -> Exists no_integer l ->
     pyexec_args e (XAddVertex a v (Some x)) h = PyRaise TypeError h) /\
  (forall s, x = AStr s -> s <> [] -> pyexec_args e (XAddVertex a v (Some x)) h = PyRaise TypeError h) /\
  (forall l ids, x = AList l -> Forall2 integer_arg l ids -> no_integer v ->
     pyexec_args e (XAddVertex a v (Some x)) h = PyRaise ArgumentError h) /\
  (x ∈ [AList []; ABytes []; AStr []] ->
     (forall z, integer_arg v z ->
        pyexec_args e (XAddVertex a v (Some x)) h = pyexec e (PAddVertex a z None) h) /\
     (no_integer v -> pyexec_args e (XAddVertex a v (Some x)) h = PyRaise ArgumentError h)) /\
  (forall l, x = ABytes l -> no_integer v ->
     pyexec_args e (XAddVertex a v (Some x)) h = PyRaise ArgumentError h) /\
  ((exists z, integer_arg x z) \/ (exists f, x = AFloat f) \/ x = AOther ->
     pyexec_args e (XAddVertex a v (Some x)) h = PyRaise TypeError h).
Proof.
  assert (forall l ids, Forall2 integer_arg l ids -> mapM arg_int l = Some ids) as Hm.
  { intros l ids H. apply mapM_Some. eapply Forall2_impl; [exact H|]. intros ? ? ?. by apply integer_arg_spec. }
  split_and!.
  - intros l ids z -> Hl H Hz%integer_arg_spec. destruct l as [|y l]; [done|].
    unfold pyexec_args. cbn [arg_len length]. unfold want_ids, want_int, pbind. cbn [arg_items mbind option_bind].
    rewrite (Hm _ _ H), Hz. done.
  - intros l z -> Hl Hz%integer_arg_spec. destruct l as [|y l]; [done|].
    unfold pyexec_args. cbn [arg_len length]. unfold want_ids, want_int, pbind. cbn [arg_items mbind option_bind].
    assert (mapM arg_int ((fun n => AInt (Z.of_N n)) <$> y :: l) = Some (Z.of_N <$> y :: l)) as ->.
    { apply Hm. generalize (y :: l). intros l'. induction l'; constructor; [by left|done]. }
    by rewrite Hz.
  - intros l -> H. assert (mapM arg_int l = None) as E.
    { apply mapM_None. eapply Exists_impl; [exact H|]. intros ? ?. by apply no_integer_spec. }
    destruct l as [|y l]; [by inversion H|]. unfold pyexec_args. cbn [arg_len length].
    unfold want_ids, pbind. cbn [arg_items mbind option_bind]. by rewrite E.
  - intros s -> Hs. by destruct s.
  - intros l ids -> H Hv%no_integer_spec. destruct l as [|y l].
    + unfold pyexec_args. cbn [arg_len length]. unfold want_int, pbind. by rewrite Hv.
    + unfold pyexec_args. cbn [arg_len length]. unfold want_ids, want_int, pbind.
      cbn [arg_items mbind option_bind]. rewrite (Hm _ _ H), Hv. done.
  - rewrite !elem_of_cons, elem_of_nil. intros Hx.
    assert (pyexec_args e (XAddVertex a v (Some x)) =
      pbind (want_int v) (fun v => pyexec e (PAddVertex a v None))) as ->.
    { destruct Hx as [->|[->|[->|[]]]]; done. }
    unfold want_int, pbind. split.
    + intros z ->%integer_arg_spec. done.
    + intros ->%no_integer_spec. done.
  - intros l -> Hv%no_integer_spec. destruct l as [|y l].
    + unfold pyexec_args. cbn [arg_len length]. unfold want_int, pbind. by rewrite Hv.
    + unfold pyexec_args. cbn [arg_len length]. unfold want_ids, want_int, pbind. cbn [arg_items mbind option_bind].
      assert (mapM arg_int ((fun n => AInt (Z.of_N n)) <$> y :: l) = Some (Z.of_N <$> y :: l)) as ->.
      { apply Hm. generalize (y :: l). intros l'. induction l'; constructor; [by left|done]. }
      by rewrite Hv.
  - intros [[z H%integer_arg_spec]|[[f ->]| ->]]; [|done..]. by destruct x.
Qed.
Print Assumptions C77_add_vertex.

(** Bytes: a bytes object, or a list of integers from 0 to 255. *)
Theorem C77_from_bytes e h x :
  Forall (fun '(m, typed) =>
    (forall l, x = ABytes l -> pyexec_args e (m x) h = pyexec e (typed l) h) /\
    (forall l bytes, x = AList l -> Forall2 (fun y n => integer_arg y (Z.of_N n) /\ n < 256) l bytes ->
       pyexec_args e (m x) h = pyexec e (typed bytes) h) /\
    ((forall l, x <> ABytes l) -> (forall l, x <> AList l) ->
       pyexec_args e (m x) h = PyRaise TypeError h) /\
    (forall l y l', x = AList (l ++ y :: l') ->
       Forall (fun y => exists n, integer_arg y (Z.of_N n) /\ n < 256) l ->
       (no_integer y -> pyexec_args e (m x) h = PyRaise TypeError h) /\
       (forall z, integer_arg y z -> (z < 0 \/ 256 <= z)%Z -> pyexec_args e (m x) h = PyRaise ValueError h)))
    [(XFromBytes, PFromBytes); (XCFromBytes, PCFromBytes)].
Proof.
  assert (forall l bytes, Forall2 (fun y n => integer_arg y (Z.of_N n) /\ n < 256) l bytes ->
    byte_items l = inr bytes) as Hgood.
  { intros l bytes H. induction H as [|y n l bytes [Hy%integer_arg_spec Hn] _ IH]; [done|].
    cbn [byte_items]. rewrite Hy. destruct (Z.ltb_spec (Z.of_N n) 0); [lia|].
    destruct (Z.ltb_spec 255 (Z.of_N n)); [lia|]. simpl orb. rewrite IH. by rewrite N2Z.id. }
  assert (forall l y l', Forall (fun y => exists n, integer_arg y (Z.of_N n) /\ n < 256) l ->
    (no_integer y -> byte_items (l ++ y :: l') = inl TypeError) /\
    (forall z, integer_arg y z -> (z < 0 \/ 256 <= z)%Z -> byte_items (l ++ y :: l') = inl ValueError)) as Hbad.
  { intros l y l' H. induction H as [|y' l (n & Hy%integer_arg_spec & Hn) _ [IH1 IH2]].
    - cbn [app byte_items]. split.
      + intros ->%no_integer_spec. done.
      + intros z ->%integer_arg_spec Hz. destruct (Z.ltb_spec z 0), (Z.ltb_spec 255 z); try done; lia.
    - cbn [app byte_items]. rewrite Hy. destruct (Z.ltb_spec (Z.of_N n) 0); [lia|].
      destruct (Z.ltb_spec 255 (Z.of_N n)); [lia|]. simpl orb. split.
      + intros Hn'. by rewrite IH1.
      + intros z Hz Hz'. by rewrite (IH2 z). }
  apply Forall_cons; split; [|apply Forall_cons; split; [|constructor]]; split_and!.
  1, 5: by intros l ->.
  1, 4: intros l bytes -> H; unfold pyexec_args, with_bytes; cbn [arg_len arg_bytes]; by rewrite (Hgood _ _ H).
  1, 3: intros H1 H2; destruct x; try done; try (by destruct (H1 l)); by destruct (H2 l).
  all: intros l y l' -> H; destruct (Hbad l y l' H) as [B1 B2]; unfold pyexec_args, with_bytes;
    cbn [arg_len arg_bytes]; split; [intros Hn; by rewrite B1|intros z Hz Hz'; by rewrite (B2 z)].
Qed.
Print Assumptions C77_from_bytes.

(** The other constructors. *)
Theorem C77_constructors e h :
  (forall x, pyexec_args e (XCompressedNew x) h = PyRaise TypeError h /\
     pyexec_args e (XMatrixNew x) h = PyRaise TypeError h) /\
  (forall u x, x <> ANone -> pyexec_args e (XNewFrom u x) h = PyRaise TypeError h) /\
  (forall x, pyexec_args e (XNew (Some x)) h = pyexec e (PNew (Some false)) h <->
     x = ANone \/ x = ABool false \/ x = AInt 0 \/ (exists s, x = AFloat (S754_zero s)) \/
     x = AStr [] \/ x = ABytes [] \/ x = AList [] \/
     pyexec e (PNew (Some true)) h = pyexec e (PNew (Some false)) h) /\
  (forall x, pyexec_args e (XNew (Some x)) h = pyexec e (PNew (Some true)) h \/
     pyexec_args e (XNew (Some x)) h = pyexec e (PNew (Some false)) h).
Proof.
  split_and!.
  - done.
  - intros u x Hx. by destruct x.
  - intros x. cbn [pyexec_args fmap option_fmap option_map].
    destruct (truthy x) eqn:E; split; try tauto; try done.
    + intros [->|[->|[->|[[s ->]|[->|[->|[->|H]]]]]]]; done.
    + intros _. destruct x as [|[|]|z|[s|s| |s m e']|[|c s]|[|n l]|[|y l]|]; try done; eauto 12.
      simpl in E. apply negb_false_iff, Z.eqb_eq in E as ->. eauto 12.
  - intros x. cbn [pyexec_args fmap option_fmap option_map]. destruct (truthy x); tauto.
Qed.
Print Assumptions C77_constructors.

(** [_c_graph=None] is as good as no [_c_graph]: the kind of the graph is still the one asked
    for, and a directed graph without being asked. *)
Theorem C77_no_structure e h :
  (forall u, pyexec_args e (XNewFrom u ANone) h = pyexec_args e (XNew u) h) /\
  pyexec_args e (XNew None) h = pyexec e (PNew (Some false)) h /\
  pyexec_args e (XNewFrom None ANone) h = pyexec e (PNew (Some false)) h /\
  pyexec_args e (XNewFrom (Some (ABool true)) ANone) h = pyexec e (PNew (Some true)) h.
Proof. done. Qed.
Print Assumptions C77_no_structure.
Example C77_no_structure_case e h :
  pyexec_args e (XNewFrom (Some (AInt 2)) ANone) h = pyexec e (PNew (Some true)) h /\
  pyexec_args e (XNewFrom (Some (AStr [])) ANone) h = pyexec e (PNew (Some false)) h.
Proof. done. Qed.

Lemma bpow_1024 : bpow radix2 1024 = IZR (2 ^ 1024).
Proof. symmetry. apply (IZR_Zpower radix2 1024). lia. Qed.

Lemma int_to_double_finite z : (Rabs (nearest_double (IZR z)) < IZR (2 ^ 1024))%R ->
  exists f, int_to_double z = Some f /\ is_f64 f = true /\ finite_double f = true /\
    double_value f = nearest_double (IZR z).
Proof.
  rewrite <-bpow_1024. intros H. destruct (int_to_double_cases z) as [H1 _].
  destruct (H1 H) as (b & E & Hf & Hv). exists (BinarySingleNaN.B2SF b). split; [done|].
  apply fval_facts. by exists b.
Qed.
Lemma int_to_double_infinite z : (IZR (2 ^ 1024) <= Rabs (nearest_double (IZR z)))%R ->
  int_to_double z = None.
Proof. rewrite <-bpow_1024. apply (int_to_double_cases z). Qed.

(** Thresholds: floats, and integers as the nearest double unless that is infinite. *)
Theorem C77_threshold e h a x t b :
  (no_integer x -> pyexec_args e (XApproximate a x t) h = PyRaise ArgumentError h) /\
  (integer_arg x b ->
    (forall f, t = AFloat f -> pyexec_args e (XApproximate a x t) h = pyexec e (PApproximate a b f) h) /\
    (forall z, integer_arg t z -> (Rabs (nearest_double (IZR z)) < IZR (2 ^ 1024))%R ->
       exists f, is_f64 f = true /\ finite_double f = true /\ double_value f = nearest_double (IZR z) /\
       pyexec_args e (XApproximate a x t) h = pyexec e (PApproximate a b f) h) /\
    (forall z, integer_arg t z -> (IZR (2 ^ 1024) <= Rabs (nearest_double (IZR z)))%R ->
       pyexec_args e (XApproximate a x t) h = PyRaise ArgumentError h) /\
    (no_integer t -> (forall f, t <> AFloat f) ->
       pyexec_args e (XApproximate a x t) h = PyRaise ArgumentError h)).
Proof.
  split.
  { intros H%no_integer_spec. unfold pyexec_args, want_int, pbind. by rewrite H. }
  intros Hx%integer_arg_spec. unfold pyexec_args, want_int, want_double, pbind. rewrite Hx. unfold pret at 1 3 5 7.
  split_and!.
  - by intros f ->.
  - intros z Hz%integer_arg_spec Hlt. destruct (int_to_double_finite z Hlt) as (f & E & Hf).
    exists f. destruct Hf as (H1 & H2 & H3). split_and!; [done..|].
    assert (arg_double t = Some f) as ->; [|done]. destruct t; try done; simpl in *; injection Hz as ->; by rewrite E.
  - intros z Hz%integer_arg_spec Hle. pose proof (int_to_double_infinite z Hle) as E.
    assert (arg_double t = None) as ->; [|done]. destruct t; try done; simpl in *; injection Hz as ->; by rewrite E.
  - intros Ht%no_integer_spec Hf. assert (arg_double t = None) as ->; [|done].
    destruct t as [| | |f| | | |]; try done. by destruct (Hf f).
Qed.
Print Assumptions C77_threshold.

(** The compression level: integers; floats only where clamping replaces them. *)
Theorem C77_level e h a x :
  (forall z, integer_arg x z -> pyexec_args e (XCompress a x) h = pyexec e (PCompress a z) h) /\
  (no_integer x -> (forall f, x <> AFloat f) ->
     pyexec_args e (XCompress a x) h = PyRaise TypeError h) /\
  (forall f, x = AFloat f ->
     (f = S754_infinity false \/ finite_double f = true /\ (64 < double_value f)%R ->
      pyexec_args e (XCompress a x) h = pyexec e (PCompress a 64) h) /\
     (f = S754_infinity true \/ finite_double f = true /\ (double_value f < 1)%R ->
      pyexec_args e (XCompress a x) h = pyexec e (PCompress a 1) h) /\
     (f = S754_nan \/ finite_double f = true /\ (1 <= double_value f <= 64)%R ->
      pyexec_args e (XCompress a x) h = PyRaise ArgumentError h)).
Proof.
  split_and!.
  - intros z Hz%integer_arg_spec. unfold pyexec_args, arg_gt, arg_lt.
    assert (forall n, arg_vs_int x n = Some (Some (z ?= n)%Z)) as Hc.
    { intros n. destruct x; try done; simpl in *; by injection Hz as ->. }
    rewrite !Hc. cbn [fmap option_fmap option_map]. unfold want_int, pbind, pret.
    unfold pyexec. destruct (Z.compare_spec z 64), (Z.compare_spec z 1); cbn [arg_int]; rewrite ?Hz;
      destruct (Z.ltb_spec 64 z), (Z.ltb_spec z 1); try done; lia.
  - intros Hn%no_integer_spec Hf. unfold pyexec_args, arg_gt, arg_lt.
    assert (forall n, arg_vs_int x n = None) as ->; [|done].
    intros n. destruct x as [| | |f| | | |]; try done. by destruct (Hf f).
  - intros f ->. unfold pyexec_args, arg_gt, arg_lt, arg_vs_int. split_and!.
    + intros [->|[Hfin Hv]]; [done|]. rewrite !float_vs_int_finite by done.
      by rewrite (Rcompare_Gt _ _ Hv).
    + intros [->|[Hfin Hv]]; [done|]. rewrite !float_vs_int_finite by done.
      rewrite (Rcompare_Lt (double_value f) 64) by lra. by rewrite (Rcompare_Lt _ _ Hv).
    + intros [->|[Hfin [H1 H64]]]; [done|]. rewrite !float_vs_int_finite by done.
      cbn [fmap option_fmap option_map].
      destruct (Rcompare_spec (double_value f) 64), (Rcompare_spec (double_value f) 1); try done; lra.
Qed.
Print Assumptions C77_level.

Lemma size_double size : 0 < size <= 2 ^ 53 ->
  fval (f64_of_N size) (IZR (Z.of_N size)) /\ double_value (f64_of_N size) = IZR (Z.of_N size).
Proof.
  intros H. pose proof (fval_N_exact size ltac:(lia)) as Hf. split; [done|].
  by destruct (fval_facts _ _ Hf) as (_ & _ & ?).
Qed.

(** Indexing a list object that holds [l]: integers as in C54; a float below zero is taken
    for the last element when its remainder modulo the length is below 1. *)
Theorem C77_index {A} (list_of : cobj -> option (list A)) h ptr size l idx :
  holds_list h list_of ptr size l -> size <= 2 ^ 53 ->
  let n := IZR (Z.of_N size) in
  (forall z, integer_arg idx z -> getitem_arg list_of ptr size idx h = py_getitem list_of ptr size z h) /\
  (no_integer idx -> (forall f, idx <> AFloat f) ->
     getitem_arg list_of ptr size idx h = PyRaise TypeError h) /\
  (idx = AFloat S754_nan -> getitem_arg list_of ptr size idx h = PyRaise TypeError h) /\
  (idx = AFloat (S754_infinity false) -> getitem_arg list_of ptr size idx h = PyRaise IndexError h) /\
  (idx = AFloat (S754_infinity true) -> l <> [] ->
     getitem_arg list_of ptr size idx h = PyRaise TypeError h) /\
  (idx = AFloat (S754_infinity true) -> l = [] ->
     getitem_arg list_of ptr size idx h = PyRaise ZeroDivisionError h) /\
  (forall f, idx = AFloat f -> finite_double f = true ->
    let r := double_value f in
    ((n <= r)%R -> getitem_arg list_of ptr size idx h = PyRaise IndexError h) /\
    ((0 <= r < n)%R -> getitem_arg list_of ptr size idx h = PyRaise TypeError h) /\
    ((r < 0)%R -> l = [] -> getitem_arg list_of ptr size idx h = PyRaise ZeroDivisionError h) /\
    ((r < 0)%R -> l <> [] ->
      ((exists k, IZR k * n <= - r < IZR k * n + 1)%R -> exists y, last l = Some y /\
         getitem_arg list_of ptr size idx h = PyDone y h) /\
      ((forall k, ~ IZR k * n <= - r < IZR k * n + 1)%R ->
         getitem_arg list_of ptr size idx h = PyRaise TypeError h))).
Proof.
  intros [Hsize Hl] H53 n. split_and!.
  - intros z Hz%integer_arg_spec. unfold getitem_arg. rewrite Hz. by destruct idx.
  - intros Hn%no_integer_spec Hf. unfold getitem_arg. rewrite Hn.
    destruct idx as [| | |f| | | |]; try done. by destruct (Hf f).
  - by intros ->.
  - by intros ->.
  - intros -> Hne. unfold getitem_arg. cbn [float_vs_int].
    destruct (N.eqb_spec size 0); [|done]. destruct l; [done|]. simpl in Hsize. lia.
  - intros -> ->. unfold getitem_arg. cbn [float_vs_int]. by rewrite Hsize.
  - intros f -> Hfin r. unfold getitem_arg. rewrite !float_vs_int_finite by done. fold r n.
    assert (0 <= n)%R as Hn0 by (apply (IZR_le 0); lia).
    split_and!.
    + intros H. by destruct (Rcompare_spec r n); [lra|..].
    + intros H. destruct (Rcompare_spec r n); [|lra..]. by destruct (Rcompare_spec r 0); [lra|..].
    + intros H ->. rewrite (Rcompare_Lt r n), (Rcompare_Lt r 0) by lra. by rewrite Hsize.
    + intros H Hne. rewrite (Rcompare_Lt r n), (Rcompare_Lt r 0) by lra.
      assert (0 < size) as Hpos by (destruct l; [done|simpl in Hsize; lia]).
      destruct (N.eqb_spec size 0); [lia|].
      destruct f as [s|s| |s m ex]; try done; [unfold r in H; simpl in H; lra|].
      assert (s = true) as ->.
      { destruct s; [done|]. unfold r, double_value in H. simpl in H.
        assert (0 < F2R (Float radix2 (Zpos m) ex))%R by by apply F2R_gt_0. lra. }
      assert (- r = double_value (S754_finite false m ex))%R as Er.
      { unfold r, double_value. simpl. rewrite <-F2R_Zopp. done. }
      destruct (size_double size ltac:(lia)) as [Hfv Hdv].
      assert (0 < n)%R as Hn by (apply (IZR_lt 0); lia).
      pose proof (float_mod_spec m ex (f64_of_N size)) as Hmod. rewrite Hdv in Hmod. fold n in Hfv, Hmod.
      specialize (Hmod Hfv Hn). rewrite <-Er in Hmod. split.
      * intros Hk. rewrite (proj2 Hmod Hk).
        destruct (last l) as [y|] eqn:Ey; [|by apply last_None in Ey]. exists y. split; [done|].
        rewrite last_lookup in Ey. destruct Hl as [->|(x & Hx & Hx')]; [done|].
        eapply ptr_item_at; [done|done|lia|]. rewrite <-Ey. f_equal. lia.
      * intros Hk. destruct (float_mod_below_1 m ex (f64_of_N size)) eqn:E; [|done].
        destruct (proj1 Hmod eq_refl) as [k Hk']. by destruct (Hk k).
Qed.
Print Assumptions C77_index.

(** The types the documentation asks for: truth values, integers, numbers, lists of
    integers, bytes. *)
Definition is_integer (x : pyarg) : Prop := exists z, integer_arg x z.
Definition documented (c : pyargcall) : Prop :=
  match c with
  | XNew u => u = None \/ exists b, u = Some (ABool b)
  | XNewFrom _ _ | XCompressedNew _ | XMatrixNew _ => False
  | XFromBytes x | XCFromBytes x => exists l, x = ABytes l
  | XAddVertex _ v x =>
      is_integer v /\ (x = None \/ x = Some ANone \/ exists l, x = Some (AList l) /\ Forall is_integer l)
  | XApproximate _ x t => is_integer x /\ (is_integer t \/ exists f, t = AFloat f)
  | XDoesEdgeExist _ x y | XAddEdge _ x y | XDeleteEdge _ x y | XCDoesEdgeExist _ x y
  | XCEntry _ x y | XMGetEntry _ x y => is_integer x /\ is_integer y
  | XFindAvgPool _ x | XCompress _ x | XInEdges _ x | XOutEdges _ x | XInDegree _ x
  | XOutDegree _ x => is_integer x
  | XMToString _ x => x = None \/ exists d, x = Some d /\ is_integer d
  end.
(** What else is taken: anything as the flag of Graph(), a float as compression level, a list
    as bytes, bytes or an empty text as list of vertices. *)
Definition lenient (c : pyargcall) : Prop :=
  match c with
  | XNew _ | XNewFrom _ ANone => True
  | XCompress _ (AFloat _) => True
  | XFromBytes (AList _) | XCFromBytes (AList _) => True
  | XAddVertex _ _ (Some (ABytes _)) | XAddVertex _ _ (Some (AStr [])) => True
  | _ => False
  end.

(** Everything else is rejected before the library is called.

    Missing from C77: the calls that are lenient, which C77_constructors, C77_level,
    C77_from_bytes, C77_add_vertex describe, and indexing, which C77_index describes. *)
Theorem C77_partial e c h : ~ documented c -> ~ lenient c ->
  pyexec_args e c h = PyRaise TypeError h \/ pyexec_args e c h = PyRaise ArgumentError h.
Proof.
  assert (forall x, ~ is_integer x <-> arg_int x = None) as Hi.
  { intros x. unfold is_integer. rewrite <-no_integer_spec. unfold no_integer. naive_solver. }
  assert (forall x y (f : Z -> Z -> pm pyval), ~ (is_integer x /\ is_integer y) ->
    with_ints x y f h = PyRaise ArgumentError h) as H2.
  { intros x y f H. unfold with_ints, want_int, pbind. destruct (arg_int x) as [i|] eqn:Ex; [|done].
    destruct (arg_int y) as [j|] eqn:Ey; [|done]. destruct H.
    split; [exists i|exists j]; by apply integer_arg_spec. }
  assert (forall x (f : Z -> pm pyval), ~ is_integer x ->
    pbind (want_int x) f h = PyRaise ArgumentError h) as H1.
  { intros x f H%Hi. unfold want_int, pbind. by rewrite H. }
  intros Hd Hl. destruct c as [u|u x|x|a x y|a v x|a x y|a x y|a x|a x t|a x|a x|a x|a x|a x|x|x|x|a x y|a x y|a x y|a x];
    cbn [documented lenient] in Hd, Hl; try (right; cbn [pyexec_args]; first [by apply H2|by apply H1]).
  - done.
  - left. by destruct x.
  - left. destruct x; try done. by destruct Hd; eexists.
  - destruct x as [x|]; cbn [pyexec_args].
    2: { right. apply H1. tauto. }
    destruct x as [|b|z|f|[|c s]|l|[|y l]|]; try (by left); try done.
    + right. apply H1. tauto.
    + right. apply H1. intros ?. apply Hd. split; [done|]. right; right. by exists [].
    + cbn [arg_len length]. unfold want_ids. cbn [arg_items mbind option_bind].
      destruct (mapM arg_int (y :: l)) as [ids|] eqn:E; [|by left]. right. unfold pbind at 1, pret.
      apply H1. intros Hv. apply Hd. split; [done|]. right; right. exists (y :: l). split; [done|].
      apply mapM_Some in E. rewrite Forall_forall. intros w Hw.
      apply elem_of_list_lookup in Hw as [k Hk]. eapply Forall2_lookup_l in Hk as (z & _ & Hz); [|exact E].
      exists z. by apply integer_arg_spec.
  - right. cbn [pyexec_args]. destruct (arg_int x) as [b|] eqn:Ex.
    + unfold want_int, pbind. rewrite Ex. unfold pret, want_double.
      assert (arg_double t = None) as ->; [|done].
      assert (is_integer x) as Hx by (exists b; by apply integer_arg_spec).
      destruct t as [|b'|z|f| | | |]; try done; destruct Hd; (split; [done|]).
      * left. destruct b'; eexists; right; [left|right]; done.
      * left. exists z. by left.
      * right. by exists f.
    + apply H1. by apply Hi.
  - cbn [pyexec_args]. unfold arg_gt, arg_lt. assert (arg_vs_int x 64 = None) as ->; [|by left].
    apply Hi in Hd. by destruct x.
  - by left.
  - by left.
  - left. destruct x; try done. by destruct Hd; eexists.
  - destruct x as [x|]; [|tauto]. right. cbn [pyexec_args]. apply H1. intros H. apply Hd. right. by exists x.
Qed.
Print Assumptions C77_partial.

(** False of the code for [compress] and for indices: compress(100.0) returns a compressed
    graph and l[-0.5] the last element. *)
Theorem C77_refuted :
  (exists h vs h', pyexec env64 (PNew (Some true)) ∅ = PyDone (PyGraph 16) h /\
     pyexec_args env64 (XCompress 16 (AFloat (f64_of_N 100))) h = PyDone vs h') /\
  getitem_arg vertices_of 20 3 (AFloat (f64_div (f64_of_N 1) (S754_finite true 1 1))) list_heap =
    PyDone 9 list_heap.
Proof.
  split; [|by vm_compute].
  destruct (pyexec env64 (PNew (Some true)) ∅) as [v h| | |] eqn:E; try (by vm_compute in E).
  exists h. destruct (pyexec_args env64 (XCompress 16 (AFloat (f64_of_N 100))) h) as [v' h'| | |] eqn:E'.
  - exists v', h'. split; [|done]. by injection E as <- <-.
  - injection E as <- <-. by vm_compute in E'.
  - injection E as <- <-. by vm_compute in E'.
  - injection E as <- <-. by vm_compute in E'.
Qed.
Print Assumptions C77_refuted.

Example C77_case :
  pyexec_args env64 (XAddEdge 16 (AInt 3) (AFloat f64_one)) ∅ = PyRaise ArgumentError ∅ /\
  pyexec_args env64 (XAddVertex 16 AOther (Some (AList [AInt 1; AStr []]))) ∅ = PyRaise TypeError ∅ /\
  pyexec_args env64 (XFromBytes (AList [AInt 1; AInt 256; AOther])) ∅ = PyRaise ValueError ∅ /\
  pyexec_args env64 (XCompress 16 (AFloat (f64_of_N 5))) ∅ = PyRaise ArgumentError ∅ /\
  pyexec_args env64 (XApproximate 16 (AInt 5) (AInt (2 ^ 1024))) ∅ = PyRaise ArgumentError ∅ /\
  getitem_arg vertices_of 20 3 (AFloat (f64_div (f64_of_N 3) (S754_finite true 1 1))) list_heap =
    PyRaise TypeError list_heap /\
  getitem_arg vertices_of 20 3 (ABool true) list_heap = PyDone 7 list_heap.
Proof. by vm_compute. Qed.
