(** Property C63: the Rust library, the C header and the ctypes declarations describe the
    same functions, and calls return values of the declared types. *)
From Coq Require Import ZArith Ascii String.
From Verif Require Import Base HashIter F64 Numeric Adj Sq Standard Compressed Spec Api CApi CSpec
  Py Abi AbiSpec AdjProofs SqProofs GraphProofs CompressProofs ApproxProofs CApiProofs CHeapProofs
  PoolTextProofs PropCommon PropGraph PropC.
Local Arguments N.mul : simpl never.
Local Arguments N.add : simpl never.
Local Arguments N.pow : simpl never.
Local Open Scope string_scope.
Local Open Scope N_scope.

Lemma assoc_in {A} k (l : list (string * A)) a : assoc k l = Some a -> (k, a) ∈ l.
Proof.
  induction l as [|[k' b] l IH]; [done|]. simpl. destruct (String.eqb_spec k k') as [->|].
  - intros [= ->]. left.
  - intros H. right. by apply IH.
Qed.

Ltac solve_same :=
  repeat first
    [ apply same_void_l | apply same_void_r
    | (apply same_refl; discriminate)
    | apply same_ptr | apply same_struct | apply same_cons | apply same_nil ].
Ltac solve_declares :=
  split;
  [ eexists; split; [reflexivity|]; cbn [fn_params];
    first [reflexivity | repeat (constructor; [solve_same|]); constructor]
  | cbn [fn_result]; first [apply same_none | apply same_some; solve_same] ].

(** The header and the ctypes declarations list exactly the functions the library exports,
    each with the parameters and the result of its definition. *)
Theorem C63_interfaces_agree :
  (forall f r, assoc f rust_functions = Some r ->
     exists d y, assoc f header_functions = Some d /\ declares header_abi d r /\
       assoc f python_functions = Some y /\ declares python_abi y r) /\
  (forall f d, assoc f header_functions = Some d -> is_Some (assoc f rust_functions)) /\
  (forall f y, assoc f python_functions = Some y -> is_Some (assoc f rust_functions)) /\
  NoDup rust_functions.*1 /\ NoDup header_functions.*1 /\ NoDup python_functions.*1.
Proof.
  split_and!.
  - assert (Forall (fun '(f, r) => exists d y, assoc f header_functions = Some d /\
      declares header_abi d r /\ assoc f python_functions = Some y /\ declares python_abi y r)
      rust_functions) as H.
    { repeat (constructor;
        [eexists _, _; split; [reflexivity|]; split; [solve_declares|];
         split; [reflexivity|]; solve_declares|]). constructor. }
    intros f r Hf. apply assoc_in in Hf. rewrite Forall_forall in H. by apply (H (f, r)).
  - assert (Forall (fun '(f, _) => is_Some (assoc f rust_functions)) header_functions) as H.
    { repeat (constructor; [eexists; reflexivity|]). constructor. }
    intros f d Hf. apply assoc_in in Hf. rewrite Forall_forall in H. by apply (H (f, d)).
  - assert (Forall (fun '(f, _) => is_Some (assoc f rust_functions)) python_functions) as H.
    { repeat (constructor; [eexists; reflexivity|]). constructor. }
    intros f d Hf. apply assoc_in in Hf. rewrite Forall_forall in H. by apply (H (f, d)).
  - apply (bool_decide_unpack _). vm_compute. exact I.
  - apply (bool_decide_unpack _). vm_compute. exact I.
  - apply (bool_decide_unpack _). vm_compute. exact I.
Qed.
Print Assumptions C63_interfaces_agree.

(** Every structure of the header and of the ctypes declarations has its fields where the
    library has them, whatever the size of a pointer. *)
Theorem C63_layouts_agree w :
  (forall s fs, assoc s header_structs = Some fs -> is_Some (assoc s rust_structs) /\
     layout w (header_abi (h_struct s)) = layout w (rust_abi (r_struct s))) /\
  (forall s fs, assoc s python_structs = Some fs -> exists s', s = ("_" ++ s' ++ "_c")%string /\
     is_Some (assoc s' rust_structs) /\
     layout w (python_abi (p_struct s)) = layout w (rust_abi (r_struct s'))).
Proof.
  split; intros s fs E; apply assoc_in in E.
  - assert (Forall (fun '(s, _) => is_Some (assoc s rust_structs) /\
      layout w (header_abi (h_struct s)) = layout w (rust_abi (r_struct s))) header_structs) as H.
    { repeat (constructor; [split; [eexists; reflexivity|reflexivity]|]). constructor. }
    rewrite Forall_forall in H. by apply (H (s, fs)).
  - assert (Forall (fun '(s, _) => exists s', s = ("_" ++ s' ++ "_c")%string /\
      is_Some (assoc s' rust_structs) /\
      layout w (python_abi (p_struct s)) = layout w (rust_abi (r_struct s'))) python_structs) as H.
    { constructor; [exists "GphrxGraph"|
      constructor; [exists "GphrxGraphEdge"|
      constructor; [exists "GphrxGraphVertex"|
      constructor; [exists "GphrxMatrixEntry"|
      constructor; [exists "GphrxCompressedGraph"|
      constructor; [exists "GphrxCsrSquareMatrix"|constructor]]]]]];
      (split; [reflexivity|split; [eexists; reflexivity|reflexivity]]). }
    rewrite Forall_forall in H. by apply (H (s, fs)).
Qed.
Print Assumptions C63_layouts_agree.

(** A matrix entry takes 24 bytes: the value, the column, the row. *)
Example C63_layout_case :
  layout 8 (rust_abi (r_struct "GphrxMatrixEntry")) =
    [("entry", 0, 8); ("col", 8, 8); ("row", 16, 8)] /\
  layout 4 (python_abi (p_struct "_GphrxGraph_c")) = [("graph_ptr", 0, 4)].
Proof. by vm_compute. Qed.

Lemma degree_u64 p g o v : wf_platform p -> reach p g ->
  get_vertex_out_degree o g v < two64 /\ get_vertex_in_degree o g v < two64.
Proof.
  intros Hp Hr. destruct (C07_edge_lists_and_degrees p g o v Hp Hr) as (H1 & H2 & -> & H4 & H5 & ->).
  pose proof (reach_inv p g Hp Hr) as Hi. pose proof (vc_u64 g Hi) as Hn.
  assert (forall l : list N, NoDup l -> (forall w, w ∈ l -> w < vertex_count g) ->
    N.of_nat (length l) < two64) as Hlen.
  { intros l Hnd Hb. assert (length l <= length (seq 0 (N.to_nat (vertex_count g))))%nat as Hle.
    { rewrite <-(fmap_length N.to_nat). apply submseteq_length, NoDup_submseteq.
      - apply NoDup_fmap_2; [|done]. intros ?? ?; lia.
      - intros x. rewrite elem_of_list_fmap. intros (w & -> & Hw). apply Hb in Hw.
        apply elem_of_seq. lia. }
    rewrite seq_length in Hle. lia. }
  split; apply Hlen; try done; intros w Hw; [apply H2 in Hw|apply H5 in Hw];
    rewrite exists_has in Hw; apply (ai_bound _ (gi_adj _ Hi)) in Hw; apply Hw.
Qed.

Ltac known_object :=
  try match goal with
  | Hp : wf_platform _, Hobj : context [obj_ok], G : _ !! _ = Some (OGraph _) |- _ =>
      apply Hobj in G; cbn [obj_ok] in G; pose proof (reach_inv _ _ Hp G) as Gi
  | Hp : wf_platform _, Hobj : context [obj_ok], G : _ !! _ = Some (OCompressed _) |- _ =>
      apply Hobj in G; cbn [obj_ok] in G; pose proof (creach_inv _ _ Hp G) as Gi
  | Hp : wf_platform _, Hobj : context [obj_ok], G : _ !! _ = Some (OMatrix _) |- _ =>
      apply Hobj in G; destruct G as (g & o & b & G & _ & Gm);
      pose proof (reach_inv _ _ Hp G) as Gi; pose proof (pool_inv _ _ _ _ _ Gi Gm) as Gs
  end.

(** Every call that ends normally returns a value of the result type of its function: the
    integers are in range, and a handle or pointer is null, points to an object of its kind,
    or is the address standing for an empty array. *)
Theorem C63_results_typed p e h c v h' : wf_platform p -> ce_platform e = p ->
  wf_alloc_fn (ce_alloc e) -> c_reach p h -> args_ok p h c -> cexec e c h = Done v h' ->
  exists r, assoc (name_of c) rust_functions = Some r /\ returns_type h' (fn_result r) v.
Proof.
  intros Hp He Hal Hr Hargs H. apply c_reach_ok in Hr. pose proof (proj2 Hr) as Hobj.
  assert (forall b, c_bool b < 128) as Hb by (by intros []).
  cinv c; (eexists; split; [reflexivity|]); cbn [fn_result CBool returns_type];
    repeat cinv_step; subst; unfold points_to; try done;
    try (by eexists; split; [reflexivity|]; first [done|apply Hb]).
  all: try (by eexists; split; [reflexivity|]; left).
  all: try (by eexists; split; [reflexivity|]; right; left).
  all: try (by eexists; split; [reflexivity|]; right; right; eexists; split; [apply lookup_insert|]).
  all: known_object.
  all: eexists; (split; [reflexivity|]).
  - by apply vc_u64.
  - unfold edge_count, adj_entry_count. rewrite (ai_cnt _ (gi_adj _ Gi)). by apply N.mod_lt.
  - by apply (degree_u64 (ce_platform e)).
  - by apply (degree_u64 (ce_platform e)).
  - unfold compression_level. pose proof (ci_level _ Gi). lia.
  - apply Gi.
  - apply Gi.
  - unfold get_compressed_matrix_entry. rewrite sq_get_val.
    destruct (sq_val (cg_mat x0) col row) as [w|] eqn:Ew; [|done]. by apply (ci_word _ Gi) in Ew as [_ ?].
  - apply Gs.
  - unfold sq_entry_count. rewrite (si_cnt _ Gs). by apply N.mod_lt.
  - rewrite sq_get_val. destruct (sq_val x0 col row) as [w|] eqn:Ew; [|done].
    by apply (pool_any _ _ _ _ _ _ _ _ Gi Gm) in Ew as [? _].
Qed.
Print Assumptions C63_results_typed.

(** Python receives these integers unchanged: reading the returned register as the declared
    ctypes type gives the number the library returned. *)
Theorem C63_ctypes_results p e h c n h' : wf_platform p -> ce_platform e = p ->
  wf_alloc_fn (ce_alloc e) -> c_reach p h -> args_ok p h c -> cexec e c h = Done (VNum n) h' ->
  exists y, assoc (name_of c) python_functions = Some y /\
    ctypes_int (fn_result y) n = Some (Z.of_N n).
Proof.
  intros Hp He Hal Hr Hargs H.
  destruct (C63_results_typed p e h c _ h' Hp He Hal Hr Hargs H) as (r & Hf & Ht).
  destruct c; try match goal with _ : cexec _ (CNew ?b) _ = _ |- _ => destruct b end;
    cbn [name_of] in Hf |- *;
    (eexists; split; [reflexivity|]); injection Hf as <-; cbn [fn_result CBool returns_type ctypes_int] in *;
    try (destruct Ht as (n' & [= <-] & Hn)); try (destruct Ht as (x & [=] & _)); try done;
    try (f_equal; f_equal; by apply N.mod_small).
  all: rewrite N.mod_small by lia; f_equal; by apply N.ltb_lt in Hn as ->.
Qed.
Print Assumptions C63_ctypes_results.

(** The calls of the C model are exactly the functions of the library. *)
Definition one_call_each : list ccall :=
 [CFreeString 0; CFreeBytes 0 0; CFreeGraph 0; CFreeEdges 0 0; CFreeVertices 0 0; CNew true; 
   CNew false; CFromBytes 0 0 0; CDuplicate 0; CMatrixString 0; CToBytes 0 0; CIsUndirected 0; 
   CVertexCount 0; CEdgeCount 0; CDoesEdgeExist 0 0 0; CFindAvgPool 0 0; 
   CApproximate 0 0 f64_zero; CCompress 0 0; CEdgeList 0 0; CAddVertex 0 0 0 0; CAddEdge 0 0 0; 
   CDeleteEdge 0 0 0; CInEdges 0 0 0; COutEdges 0 0 0; CInDegree 0 0; COutDegree 0 0; 
   CFreeCompressed 0; CCompressedDuplicate 0; CCompressedLevel 0; CCompressedIsUndirected 0; 
   CCompressedVertexCount 0; CCompressedEdgeCount 0; CCompressedDoesEdgeExist 0 0 0; 
   CCompressedEntry 0 0 0; CCompressedMatrixString 0; CCompressedToBytes 0 0; 
   CCompressedFromBytes 0 0 0; CDecompress 0; CFreeMatrix 0; CMatrixDuplicate 0; 
   CFreeEntries 0 0; CMatrixDimension 0; CMatrixEntryCount 0; CMatrixGetEntry 0 0 0; 
   CMatrixToString 0; CMatrixToStringPrecision 0 0; CMatrixEntries 0 0].

Theorem C63_all_functions f :
  is_Some (assoc f rust_functions) <-> exists c, name_of c = f.
Proof.
  split.
  - intros [r Hf]. apply assoc_in in Hf.
    assert (Forall (fun '(f, _) => f ∈ name_of <$> one_call_each) rust_functions) as H.
    { repeat (constructor; [apply (bool_decide_unpack _); vm_compute; exact I|]). constructor. }
    rewrite Forall_forall in H. apply H in Hf. apply elem_of_list_fmap in Hf as (c & -> & _).
    by exists c.
  - intros [c <-]. destruct c; try (eexists; reflexivity). destruct undirected; by eexists.
Qed.
Print Assumptions C63_all_functions.

(** Every constant means the same in the languages that define it, and what the conversion
    functions write on invalid bytes (C50) is the value the binding takes for an error. *)
Theorem C63_constants_agree :
  (forall k n, assoc k header_constants = Some n -> assoc k rust_constants = Some n) /\
  (forall k n, assoc k rust_constants = Some n ->
     assoc k header_constants = Some n /\ assoc k python_constants = Some n /\
     assoc "GPHRX_NO_ERROR" python_constants <> Some n) /\
  assoc "GPHRX_ERROR_INVALID_FORMAT" rust_constants = Some GPHRX_ERROR_INVALID_FORMAT /\
  assoc "GPHRX_NO_ERROR" python_constants = Some 0.
Proof.
  split_and!; try done; intros k n H; apply assoc_in in H;
    unfold header_constants, rust_constants in H; apply elem_of_list_singleton in H as [= -> ->]; done.
Qed.
Print Assumptions C63_constants_agree.

Example C63_results_case : exists vs h,
  crun [ECall env64 (CNew true); ECall env64 (CAddEdge 16 0 255); ECall env64 (CCompress 16 1);
        ECall env64 (CVertexCount 16); ECall env64 (CCompressedLevel 17);
        ECall env64 (CIsUndirected 16)] ∅ = Done vs h /\
  vs = [VPtr 16; VUnit; VPtr 17; VNum 256; VNum 1; VNum 1] /\
  ctypes_int (Some p_uint64) 256 = Some 256%Z /\ ctypes_int (Some p_uint8) 256 = Some 0%Z /\
  ctypes_int (Some p_int8) 255 = Some (-1)%Z.
Proof. apply done_ex. vm_compute. repeat split. Qed.
