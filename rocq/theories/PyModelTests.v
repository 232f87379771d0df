(** The tests of graphrox-py/tests.py, run on the model of the Python binding by
    computation.  A test passes if its assertions hold, nothing is raised outside the
    [try] blocks, and nothing aborts or is undefined behaviour.  The tests leave freeing to
    the garbage collector, so nothing is checked about it. *)
From Coq Require Import ZArith Ascii String.
From Verif Require Import Base HashIter F64 Numeric Adj Sq Standard Compressed Spec Api CApi CSpec
  Py PySpec PropCommon PropC ModelTests.
Local Open Scope string_scope.
Local Open Scope Z_scope.

Local Notation "'let*' x := c 'in' k" := (pbind c (fun x => k))
  (at level 200, x pattern, k at level 200).
Local Notation "c ;; k" := (pbind c (fun _ => k)) (at level 100, k at level 200, only parsing).

Local Notation run := pyexec.

(** A failed assertion is [PyAbort], to tell it from the exceptions of the binding. *)
Definition check (b : bool) : pm unit := fun h => if b then PyDone tt h else PyAbort.

Definition graph_of (v : pyval) : pm addr :=
  match v with PyGraph a => pret a | _ => fun _ => PyAbort end.
Definition compressed_of (v : pyval) : pm addr :=
  match v with PyCompressed a => pret a | _ => fun _ => PyAbort end.
Definition matrix_of (v : pyval) : pm addr :=
  match v with PyMatrix a => pret a | _ => fun _ => PyAbort end.
Definition bytes_of (v : pyval) : pm (list N) :=
  match v with PyBytes l => pret l | _ => fun _ => PyAbort end.

(** [==] on numbers, strings and booleans; an int and a float compare as numbers (the ints
    here are below 2^53). *)
Definition py_eq (v w : pyval) : bool :=
  match v, w with
  | PyInt x, PyInt y => (x =? y)
  | PyFloat x, PyFloat y => match SFcompare x y with Some Eq => true | _ => false end
  | PyFloat x, PyInt y => match SFcompare x (f64_of_N (Z.to_N y)) with Some Eq => true | _ => false end
  | PyStr s, PyStr t => text_eqb s t
  | PyBool x, PyBool y => Bool.eqb x y
  | _, _ => false
  end.
Definition same (c d : pm pyval) : pm unit :=
  let* x := c in let* y := d in check (py_eq x y).
Definition truthy (c : pm pyval) : pm unit :=
  let* x := c in check (match x with PyBool b => b | _ => false end).
Definition falsy (c : pm pyval) : pm unit :=
  let* x := c in check (match x with PyBool b => negb b | _ => false end).

(** [for i, j in l] over integers. *)
Definition each {A} (l : list (N * N)) (f : Z -> Z -> pm A) : pm unit :=
  fold_right (fun '(u, v) k => f (Z.of_N u) (Z.of_N v);; k) (pret tt) l.

(** What a [for] loop over one of the three kinds of list sees, [len] and [in]. *)
Definition iterate {A} (list_of : cobj -> option (list A)) (ptr : addr) (n : N) : pm (list A) :=
  let* r := py_iterate (S (N.to_nat n)) list_of ptr n 0%N in
  match r with Some l => pret l | None => fun _ => PyAbort end.
Definition each_edge {A} (c : pm pyval) (f : Z -> Z -> pm A) : pm unit :=
  let* v := c in
  match v with
  | PyEdgeList ptr n => let* l := iterate edges_of ptr n in each l f
  | _ => fun _ => PyAbort
  end.
Definition py_len (v : pyval) : pm pyval :=
  match v with
  | PyEdgeList _ n | PyVertexList _ n | PyEntryList _ n => pret (PyInt (Z.of_N n))
  | _ => fun _ => PyAbort
  end.
Definition py_in (x : Z) (v : pyval) : pm pyval :=
  match v with
  | PyVertexList ptr n =>
      let* l := iterate vertices_of ptr n in
      pret (PyBool (existsb (fun y => Z.of_N y =? x) l))
  | _ => fun _ => PyAbort
  end.

(** The assertions every list test makes about negative indices and the index [len], for
    a list of [n] elements compared with [eqb]. *)
Definition raises_index_error {A} (c : pm A) : pm unit := fun h =>
  match c h with PyRaise IndexError h' => PyDone tt h' | _ => PyAbort end.
Definition index_checks {A} (eqb : A -> A -> bool) (list_of : cobj -> option (list A))
    (ptr : addr) (n : N) : pm unit :=
  let get i := py_getitem list_of ptr n i in
  let eq i j := let* x := get i in let* y := get j in check (eqb x y) in
  let len := Z.of_N n in
  eq (-1) (len - 1);;
  eq (-2) (len - 2);;
  eq (- len) (len - 1);;
  eq (- (len + 1)) (len - 1);;
  eq (- (len * 7 + 1)) (len - 1);;
  raises_index_error (get len).

Definition py_passes {A} (t : cenv -> pm A) : bool :=
  let run o1 o2 := match t (CEnv plat64 bump_alloc o1 o2) ∅ with
                   | PyDone _ _ => true
                   | _ => false
                   end in
  run plain_order reversed_order && run reversed_order plain_order.

(** tests.py:21-32. *)
Example py_test_new_graph :
  py_passes (fun e =>
  let* g := pbind (run e (PNew (Some false))) graph_of in
  falsy (run e (PIsUndirected g));;
  same (run e (PVertexCount g)) (pret (PyInt 0));;
  same (run e (PEdgeCount g)) (pret (PyInt 0));;
  let* g := pbind (run e (PNew (Some true))) graph_of in
  truthy (run e (PIsUndirected g));;
  same (run e (PVertexCount g)) (pret (PyInt 0));;
  same (run e (PEdgeCount g)) (pret (PyInt 0))) = true.
Proof. vm_compute. reflexivity. Qed.

(** tests.py:34-49. *)
Example py_test_graph_to_from_bytes :
  py_passes (fun e =>
  let* g := pbind (run e (PNew (Some true))) graph_of in
  run e (PAddVertex g 3 (Some [3; 6; 4; 1; 7; 0]));;
  run e (PAddVertex g 0 (Some [3; 6; 4; 1; 7; 0]));;
  let* bytes := pbind (run e (PBytes g)) bytes_of in
  let* g2 := pbind (run e (PFromBytes bytes)) graph_of in
  truthy (run e (PIsUndirected g2));;
  same (run e (PVertexCount g2)) (pret (PyInt 8));;
  same (run e (PEdgeCount g2)) (pret (PyInt 20));;
  truthy (run e (PDoesEdgeExist g2 0 0));;
  each_edge (run e (PEdgeList g)) (fun from_vertex to_vertex =>
    truthy (run e (PDoesEdgeExist g2 from_vertex to_vertex)))) = true.
Proof. vm_compute. reflexivity. Qed.

(** tests.py:51-73. *)
Example py_test_duplicate :
  py_passes (fun e =>
  let* g := pbind (run e (PNew (Some true))) graph_of in
  run e (PAddVertex g 3 (Some [3; 6; 4; 1; 7; 0]));;
  run e (PAddVertex g 0 (Some [3; 6; 4; 1; 7; 0]));;
  let* g2 := pbind (run e (PDuplicate g)) graph_of in
  truthy (run e (PIsUndirected g2));;
  same (run e (PVertexCount g2)) (pret (PyInt 8));;
  same (run e (PEdgeCount g2)) (pret (PyInt 20));;
  truthy (run e (PDoesEdgeExist g2 0 0));;
  each_edge (run e (PEdgeList g)) (fun from_vertex to_vertex =>
    truthy (run e (PDoesEdgeExist g2 from_vertex to_vertex)));;
  run e (PAddEdge g2 100 100);;
  same (run e (PVertexCount g2)) (pret (PyInt 101));;
  same (run e (PVertexCount g)) (pret (PyInt 8));;
  truthy (run e (PDoesEdgeExist g2 100 100));;
  falsy (run e (PDoesEdgeExist g 100 100))) = true.
Proof. vm_compute. reflexivity. Qed.

(** tests.py:75-81. *)
Example py_test_graph_matrix_string :
  py_passes (fun e =>
  let* g := pbind (run e (PNew (Some true))) graph_of in
  run e (PAddEdge g 1 0);;
  run e (PAddEdge g 1 1);;
  same (run e (PMatrixString g)) (pret (PyStr (lines ["[ 0, 1 ]"; "[ 1, 1 ]"])))) = true.
Proof. vm_compute. reflexivity. Qed.

(** tests.py:83-88. *)
Example py_test_is_undirected :
  py_passes (fun e =>
  let* g := pbind (run e (PNew (Some true))) graph_of in
  truthy (run e (PIsUndirected g));;
  let* g := pbind (run e (PNew (Some false))) graph_of in
  falsy (run e (PIsUndirected g))) = true.
Proof. vm_compute. reflexivity. Qed.

(** tests.py:90-98. *)
Example py_test_vertex_count :
  py_passes (fun e =>
  let* g := pbind (run e (PNew (Some true))) graph_of in
  same (run e (PVertexCount g)) (pret (PyInt 0));;
  run e (PAddEdge g 7 8);;
  same (run e (PVertexCount g)) (pret (PyInt 9));;
  run e (PAddVertex g 110 None);;
  same (run e (PVertexCount g)) (pret (PyInt 111))) = true.
Proof. vm_compute. reflexivity. Qed.

(** tests.py:100-123. *)
Example py_test_edge_count :
  py_passes (fun e =>
  let* g := pbind (run e (PNew (Some false))) graph_of in
  same (run e (PEdgeCount g)) (pret (PyInt 0));;
  run e (PAddEdge g 0 0);;
  same (run e (PEdgeCount g)) (pret (PyInt 1));;
  run e (PAddEdge g 0 0);;
  same (run e (PEdgeCount g)) (pret (PyInt 1));;
  run e (PAddEdge g 2 1);;
  same (run e (PEdgeCount g)) (pret (PyInt 2));;
  let* g := pbind (run e (PNew (Some true))) graph_of in
  same (run e (PEdgeCount g)) (pret (PyInt 0));;
  run e (PAddEdge g 0 0);;
  same (run e (PEdgeCount g)) (pret (PyInt 1));;
  run e (PAddEdge g 2 1);;
  same (run e (PEdgeCount g)) (pret (PyInt 3));;
  run e (PAddEdge g 1 2);;
  same (run e (PEdgeCount g)) (pret (PyInt 3))) = true.
Proof. vm_compute. reflexivity. Qed.

(** tests.py:125-134. *)
Example py_test_does_edge_exist :
  py_passes (fun e =>
  let* g := pbind (run e (PNew (Some true))) graph_of in
  falsy (run e (PDoesEdgeExist g 1 7));;
  falsy (run e (PDoesEdgeExist g 7 1));;
  run e (PAddEdge g 1 7);;
  truthy (run e (PDoesEdgeExist g 1 7));;
  truthy (run e (PDoesEdgeExist g 7 1))) = true.
Proof. vm_compute. reflexivity. Qed.

(** tests.py:136-149. *)
Example py_test_add_vertex :
  py_passes (fun e =>
  let* g := pbind (run e (PNew (Some true))) graph_of in
  run e (PAddVertex g 50 None);;
  same (run e (PVertexCount g)) (pret (PyInt 51));;
  same (run e (PEdgeCount g)) (pret (PyInt 0));;
  run e (PAddVertex g 1 (Some [10; 4; 60]));;
  same (run e (PVertexCount g)) (pret (PyInt 61));;
  same (run e (PEdgeCount g)) (pret (PyInt 6));;
  run e (PAddVertex g 7 (Some [8]));;
  same (run e (PVertexCount g)) (pret (PyInt 61));;
  same (run e (PEdgeCount g)) (pret (PyInt 8))) = true.
Proof. vm_compute. reflexivity. Qed.

(** tests.py:151-173. *)
Example py_test_add_edge :
  py_passes (fun e =>
  let* g := pbind (run e (PNew (Some true))) graph_of in
  same (run e (PVertexCount g)) (pret (PyInt 0));;
  falsy (run e (PDoesEdgeExist g 1 7));;
  falsy (run e (PDoesEdgeExist g 7 1));;
  run e (PAddEdge g 1 7);;
  same (run e (PVertexCount g)) (pret (PyInt 8));;
  truthy (run e (PDoesEdgeExist g 1 7));;
  truthy (run e (PDoesEdgeExist g 7 1));;
  let* g := pbind (run e (PNew (Some false))) graph_of in
  falsy (run e (PDoesEdgeExist g 1 7));;
  falsy (run e (PDoesEdgeExist g 7 1));;
  run e (PAddEdge g 1 7);;
  truthy (run e (PDoesEdgeExist g 1 7));;
  falsy (run e (PDoesEdgeExist g 7 1))) = true.
Proof. vm_compute. reflexivity. Qed.

(** tests.py:175-192. *)
Example py_test_delete_edge :
  py_passes (fun e =>
  let* g := pbind (run e (PNew (Some true))) graph_of in
  run e (PAddEdge g 1 2);;
  run e (PDeleteEdge g 2 1);;
  same (run e (PEdgeCount g)) (pret (PyInt 0));;
  falsy (run e (PDoesEdgeExist g 1 2));;
  falsy (run e (PDoesEdgeExist g 2 1));;
  let* g := pbind (run e (PNew (Some false))) graph_of in
  run e (PAddEdge g 1 2);;
  run e (PDeleteEdge g 1 2);;
  same (run e (PEdgeCount g)) (pret (PyInt 0));;
  falsy (run e (PDoesEdgeExist g 1 2));;
  run e (PDeleteEdge g 1 1)) = true.
Proof. vm_compute. reflexivity. Qed.

(** tests.py:194-210. *)
Example py_test_find_avg_pool_matrix :
  py_passes (fun e =>
  let* g := pbind (run e (PNew (Some true))) graph_of in
  run e (PAddVertex g 1 (Some [0; 2; 4; 7; 3]));;
  run e (PAddVertex g 5 (Some [6; 8; 0; 1; 5; 4; 2]));;
  run e (PAddEdge g 7 8);;
  let* m := pbind (run e (PFindAvgPool g 5)) matrix_of in
  same (run e (PMDimension m)) (pret (PyInt 2));;
  same (run e (PMEntryCount m)) (pret (PyInt 4));;
  same (run e (PMGetEntry m 0 0)) (pret (PyFloat (lit 32 100)));;
  same (run e (PMGetEntry m 0 1)) (pret (PyFloat (lit 20 100)));;
  same (run e (PMGetEntry m 1 0)) (pret (PyFloat (lit 20 100)));;
  same (run e (PMGetEntry m 1 1)) (pret (PyFloat (lit 28 100)))) = true.
Proof. vm_compute. reflexivity. Qed.

(** tests.py:212-235. *)
Example py_test_approximate :
  py_passes (fun e =>
  let* g := pbind (run e (PNew (Some false))) graph_of in
  let* g2 := pbind (run e (PApproximate g 5 (lit 25 100))) graph_of in
  same (run e (PIsUndirected g2)) (run e (PIsUndirected g));;
  let* g := pbind (run e (PNew (Some true))) graph_of in
  run e (PAddVertex g 1 (Some [0; 2; 4; 7; 3]));;
  run e (PAddVertex g 5 (Some [6; 8; 0; 1; 5; 4; 2]));;
  run e (PAddEdge g 7 8);;
  let* g2 := pbind (run e (PApproximate g 5 (lit 25 100))) graph_of in
  same (run e (PIsUndirected g2)) (run e (PIsUndirected g));;
  same (run e (PVertexCount g2)) (pret (PyInt 2));;
  same (run e (PEdgeCount g2)) (pret (PyInt 2));;
  truthy (run e (PDoesEdgeExist g2 0 0));;
  truthy (run e (PDoesEdgeExist g2 1 1));;
  falsy (run e (PDoesEdgeExist g2 0 1));;
  falsy (run e (PDoesEdgeExist g2 1 0))) = true.
Proof. vm_compute. reflexivity. Qed.

(** tests.py:237-265. *)
Example py_test_compress :
  py_passes (fun e =>
  let* g := pbind (run e (PNew (Some true))) graph_of in
  let* c := pbind (run e (PCompress g 6)) compressed_of in
  same (run e (PCIsUndirected c)) (run e (PIsUndirected g));;
  let* g := pbind (run e (PNew (Some false))) graph_of in
  run e (PAddVertex g 23 None);;
  each (rect 8 16 8 16) (fun i j =>
    run e (PAddEdge g i j));;
  each (rect 0 8 0 4) (fun i j =>
    run e (PAddEdge g i j));;
  run e (PAddEdge g 22 18);;
  run e (PAddEdge g 15 18);;
  let* c := pbind (run e (PCompress g 8)) compressed_of in
  same (run e (PCIsUndirected c)) (run e (PIsUndirected g));;
  same (run e (PCVertexCount c)) (run e (PVertexCount g));;
  same (run e (PCEdgeCount c)) (pret (PyInt 96));;
  same (run e (PCLevel c)) (pret (PyInt 8));;
  same (run e (PCEntry c 0 0)) (pret (PyInt 4294967295));;
  same (run e (PCEntry c 1 1)) (pret (PyInt 18446744073709551615))) = true.
Proof. vm_compute. reflexivity. Qed.

(** tests.py:267-316. *)
Example py_test_edge_list :
  py_passes (fun e =>
  let* g := pbind (run e (PNew (Some true))) graph_of in
  run e (PAddEdge g 1 2);;
  run e (PAddEdge g 3 2);;
  run e (PAddEdge g 0 1);;
  let* v := run e (PEdgeList g) in
  match v with
  | PyEdgeList ptr n =>
      let* l := iterate edges_of ptr n in
      check (forallb (fun p => has2 p l) [(1, 2); (2, 1); (3, 2); (2, 3); (0, 1); (1, 0)]%N);;
      check (negb (has2 (1, 3)%N l));;
      same (py_len v) (run e (PEdgeCount g));;
      each (map (fun i => (N.of_nat i, 0%N)) (seq 0 (N.to_nat n))) (fun i _ =>
        let* p := py_getitem edges_of ptr n i in
        truthy (run e (PDoesEdgeExist g (Z.of_N p.1) (Z.of_N p.2))));;
      each_edge (pret v) (fun i j => truthy (run e (PDoesEdgeExist g i j)));;
      same (pret (PyInt (Z.of_nat (length l)))) (run e (PEdgeCount g));;
      each_edge (pret v) (fun i j => truthy (run e (PDoesEdgeExist g i j)));;
      index_checks (fun p q => (p.1 =? q.1)%N && (p.2 =? q.2)%N) edges_of ptr n
  | _ => check false
  end) = true.
Proof. vm_compute. reflexivity. Qed.

(** tests.py:318-347. *)
Example py_test_vertex_in_edges :
  py_passes (fun e =>
  let* g := pbind (run e (PNew (Some false))) graph_of in
  run e (PAddEdge g 2 5);;
  run e (PAddEdge g 10 5);;
  run e (PAddEdge g 11 5);;
  run e (PAddEdge g 5 9);;
  let* l := run e (PInEdges g 5) in
  same (py_len l) (pret (PyInt 3));;
  truthy (py_in 2 l);;
  truthy (py_in 10 l);;
  truthy (py_in 11 l);;
  falsy (py_in 9 l);;
  let* g := pbind (run e (PNew (Some true))) graph_of in
  run e (PAddEdge g 2 5);;
  run e (PAddEdge g 10 5);;
  run e (PAddEdge g 11 5);;
  run e (PAddEdge g 5 9);;
  let* l := run e (PInEdges g 5) in
  same (py_len l) (pret (PyInt 4));;
  truthy (py_in 2 l);;
  truthy (py_in 10 l);;
  truthy (py_in 11 l);;
  truthy (py_in 9 l)) = true.
Proof. vm_compute. reflexivity. Qed.

(** tests.py:349-378. *)
Example py_test_vertex_out_edges :
  py_passes (fun e =>
  let* g := pbind (run e (PNew (Some false))) graph_of in
  run e (PAddEdge g 5 2);;
  run e (PAddEdge g 5 10);;
  run e (PAddEdge g 5 11);;
  run e (PAddEdge g 9 5);;
  let* l := run e (POutEdges g 5) in
  same (py_len l) (pret (PyInt 3));;
  truthy (py_in 2 l);;
  truthy (py_in 10 l);;
  truthy (py_in 11 l);;
  falsy (py_in 9 l);;
  let* g := pbind (run e (PNew (Some true))) graph_of in
  run e (PAddEdge g 5 2);;
  run e (PAddEdge g 5 10);;
  run e (PAddEdge g 5 11);;
  run e (PAddEdge g 9 5);;
  let* l := run e (POutEdges g 5) in
  same (py_len l) (pret (PyInt 4));;
  truthy (py_in 2 l);;
  truthy (py_in 10 l);;
  truthy (py_in 11 l);;
  truthy (py_in 9 l)) = true.
Proof. vm_compute. reflexivity. Qed.

(** tests.py:380-397. *)
Example py_test_vertex_in_degree :
  py_passes (fun e =>
  let* g := pbind (run e (PNew (Some false))) graph_of in
  run e (PAddEdge g 2 5);;
  run e (PAddEdge g 10 5);;
  run e (PAddEdge g 11 5);;
  run e (PAddEdge g 5 9);;
  same (run e (PInDegree g 5)) (pret (PyInt 3));;
  let* g := pbind (run e (PNew (Some true))) graph_of in
  run e (PAddEdge g 2 5);;
  run e (PAddEdge g 10 5);;
  run e (PAddEdge g 11 5);;
  run e (PAddEdge g 5 9);;
  same (run e (PInDegree g 5)) (pret (PyInt 4))) = true.
Proof. vm_compute. reflexivity. Qed.

(** tests.py:399-416. *)
Example py_test_vertex_out_degree :
  py_passes (fun e =>
  let* g := pbind (run e (PNew (Some false))) graph_of in
  run e (PAddEdge g 5 2);;
  run e (PAddEdge g 5 10);;
  run e (PAddEdge g 5 11);;
  run e (PAddEdge g 9 5);;
  same (run e (POutDegree g 5)) (pret (PyInt 3));;
  let* g := pbind (run e (PNew (Some true))) graph_of in
  run e (PAddEdge g 5 2);;
  run e (PAddEdge g 5 10);;
  run e (PAddEdge g 5 11);;
  run e (PAddEdge g 9 5);;
  same (run e (POutDegree g 5)) (pret (PyInt 4))) = true.
Proof. vm_compute. reflexivity. Qed.

(** tests.py:418-466. *)
Example py_test_vertex_list :
  py_passes (fun e =>
  let* g := pbind (run e (PNew (Some true))) graph_of in
  run e (PAddEdge g 2 5);;
  run e (PAddEdge g 10 5);;
  run e (PAddEdge g 11 5);;
  run e (PAddEdge g 5 9);;
  run e (PAddEdge g 7 6);;
  let* v := run e (PInEdges g 5) in
  match v with
  | PyVertexList ptr n =>
      same (py_len v) (pret (PyInt 4));;
      truthy (py_in 2 v);;
      truthy (py_in 10 v);;
      truthy (py_in 11 v);;
      truthy (py_in 9 v);;
      falsy (py_in 6 v);;
      falsy (py_in 7 v);;
      let* l := iterate vertices_of ptr n in
      check (forallb (fun x => has x [2; 9; 10; 11]%N) l && (length l =? 4)%nat);;
      let* l := iterate vertices_of ptr n in
      check (forallb (fun x => has x [2; 9; 10; 11]%N) l && (length l =? 4)%nat);;
      index_checks N.eqb vertices_of ptr n
  | _ => check false
  end) = true.
Proof. vm_compute. reflexivity. Qed.

(** tests.py:468-491. *)
Example py_test_compressed_graph_to_from_bytes :
  py_passes (fun e =>
  let* g := pbind (run e (PNew (Some false))) graph_of in
  run e (PAddVertex g 23 None);;
  each (rect 8 16 8 16) (fun i j =>
    run e (PAddEdge g i j));;
  each (rect 0 8 0 4) (fun i j =>
    run e (PAddEdge g i j));;
  let* c := pbind (run e (PCompress g 9)) compressed_of in
  let* bytes := pbind (run e (PCBytes c)) bytes_of in
  let* c2 := pbind (run e (PCFromBytes bytes)) compressed_of in
  same (run e (PCIsUndirected c2)) (run e (PCIsUndirected c));;
  same (run e (PCVertexCount c2)) (run e (PCVertexCount c));;
  same (run e (PCEdgeCount c2)) (run e (PCEdgeCount c));;
  same (run e (PCLevel c2)) (run e (PCLevel c));;
  same (run e (PCEntry c2 0 0)) (pret (PyInt 4294967295));;
  same (run e (PCEntry c2 1 1)) (pret (PyInt 18446744073709551615))) = true.
Proof. vm_compute. reflexivity. Qed.

(** tests.py:493-514. *)
Example py_test_compressed_graph_duplicate :
  py_passes (fun e =>
  let* g := pbind (run e (PNew (Some false))) graph_of in
  run e (PAddVertex g 23 None);;
  each (rect 8 16 8 16) (fun i j =>
    run e (PAddEdge g i j));;
  each (rect 0 8 0 4) (fun i j =>
    run e (PAddEdge g i j));;
  let* c := pbind (run e (PCompress g 4)) compressed_of in
  let* c2 := pbind (run e (PCDuplicate c)) compressed_of in
  same (run e (PCIsUndirected c2)) (run e (PCIsUndirected c));;
  same (run e (PCVertexCount c2)) (run e (PCVertexCount c));;
  same (run e (PCEdgeCount c2)) (run e (PCEdgeCount c));;
  same (run e (PCLevel c2)) (run e (PCLevel c));;
  same (run e (PCEntry c2 0 0)) (pret (PyInt 4294967295));;
  same (run e (PCEntry c2 1 1)) (pret (PyInt 18446744073709551615))) = true.
Proof. vm_compute. reflexivity. Qed.

(** tests.py:516-530. *)
Example py_test_compressed_graph_matrix_string :
  py_passes (fun e =>
  let* g := pbind (run e (PNew (Some true))) graph_of in
  each (rect 8 16 8 16) (fun i j =>
    run e (PAddEdge g i j));;
  each (rect 8 16 0 4) (fun i j =>
    run e (PAddEdge g i j));;
  let* c := pbind (run e (PCompress g 3)) compressed_of in
  same (run e (PCMatrixString c))
    (pret (PyStr (lines ["[                    0,           4294967295 ]";
      "[  1085102592571150095, 18446744073709551615 ]"])))) = true.
Proof. vm_compute. reflexivity. Qed.

(** tests.py:532-557. *)
Example py_test_decompress :
  py_passes (fun e =>
  let* g := pbind (run e (PNew (Some true))) graph_of in
  each (rect 8 16 8 16) (fun i j =>
    run e (PAddEdge g i j));;
  each (rect 0 8 0 4) (fun i j =>
    run e (PAddEdge g i j));;
  let* c := pbind (run e (PCompress g 11)) compressed_of in
  let* g2 := pbind (run e (PDecompress c)) graph_of in
  same (run e (PIsUndirected g)) (run e (PIsUndirected g2));;
  same (run e (PEdgeCount g)) (run e (PEdgeCount g2));;
  same (run e (PVertexCount g)) (run e (PVertexCount g2));;
  each (rect 8 16 8 16) (fun i j =>
    truthy (run e (PDoesEdgeExist g2 i j)));;
  each (rect 0 8 0 4) (fun i j =>
    truthy (run e (PDoesEdgeExist g2 i j));;
    truthy (run e (PDoesEdgeExist g2 j i)))) = true.
Proof. vm_compute. reflexivity. Qed.

(** tests.py:559-575. *)
Example py_test_compressed_graph_compression_level :
  py_passes (fun e =>
  let* g := pbind (run e (PNew (Some true))) graph_of in
  each (rect 8 16 8 16) (fun i j =>
    run e (PAddEdge g i j));;
  each (rect 0 8 0 4) (fun i j =>
    run e (PAddEdge g i j));;
  let* c := pbind (run e (PCompress g 10)) compressed_of in
  same (run e (PCLevel c)) (pret (PyInt 10));;
  let* g := pbind (run e (PNew (Some false))) graph_of in
  let* c := pbind (run e (PCompress g 42)) compressed_of in
  same (run e (PCLevel c)) (pret (PyInt 42))) = true.
Proof. vm_compute. reflexivity. Qed.

(** tests.py:577-584. *)
Example py_test_compressed_graph_is_undirected :
  py_passes (fun e =>
  let* g := pbind (run e (PNew (Some true))) graph_of in
  let* c := pbind (run e (PCompress g 8)) compressed_of in
  truthy (run e (PCIsUndirected c));;
  let* g := pbind (run e (PNew (Some false))) graph_of in
  let* c := pbind (run e (PCompress g 42)) compressed_of in
  falsy (run e (PCIsUndirected c))) = true.
Proof. vm_compute. reflexivity. Qed.

(** tests.py:586-603. *)
Example py_test_compressed_graph_vertex_count :
  py_passes (fun e =>
  let* g := pbind (run e (PNew (Some true))) graph_of in
  run e (PAddVertex g 23 None);;
  each (rect 8 16 8 16) (fun i j =>
    run e (PAddEdge g i j));;
  each (rect 0 8 0 4) (fun i j =>
    run e (PAddEdge g i j));;
  let* c := pbind (run e (PCompress g 2)) compressed_of in
  same (run e (PCVertexCount c)) (pret (PyInt 24));;
  let* g := pbind (run e (PNew (Some false))) graph_of in
  let* c := pbind (run e (PCompress g 1)) compressed_of in
  same (run e (PCVertexCount c)) (pret (PyInt 0))) = true.
Proof. vm_compute. reflexivity. Qed.

(** tests.py:605-622. *)
Example py_test_compressed_graph_edge_count :
  py_passes (fun e =>
  let* g := pbind (run e (PNew (Some true))) graph_of in
  run e (PAddVertex g 23 None);;
  each (rect 8 16 8 16) (fun i j =>
    run e (PAddEdge g i j));;
  each (rect 0 8 0 4) (fun i j =>
    run e (PAddEdge g i j));;
  let* c := pbind (run e (PCompress g 18)) compressed_of in
  same (run e (PCEdgeCount c)) (run e (PEdgeCount g));;
  let* g := pbind (run e (PNew (Some false))) graph_of in
  let* c := pbind (run e (PCompress g 43)) compressed_of in
  same (run e (PCEdgeCount c)) (run e (PEdgeCount g))) = true.
Proof. vm_compute. reflexivity. Qed.

(** tests.py:624-644. *)
Example py_test_compressed_graph_does_edge_exist :
  py_passes (fun e =>
  let* g := pbind (run e (PNew (Some true))) graph_of in
  each (rect 8 16 8 16) (fun i j =>
    run e (PAddEdge g i j));;
  each (rect 0 8 0 4) (fun i j =>
    run e (PAddEdge g i j));;
  let* c := pbind (run e (PCompress g 16)) compressed_of in
  each (rect 8 16 8 16) (fun i j =>
    truthy (run e (PCDoesEdgeExist c i j)));;
  each (rect 0 8 0 4) (fun i j =>
    truthy (run e (PCDoesEdgeExist c i j));;
    truthy (run e (PCDoesEdgeExist c j i)))) = true.
Proof. vm_compute. reflexivity. Qed.

(** tests.py:646-660. *)
Example py_test_compressed_graph_matrix_entry :
  py_passes (fun e =>
  let* g := pbind (run e (PNew (Some false))) graph_of in
  each (rect 8 16 8 16) (fun i j =>
    run e (PAddEdge g i j));;
  each (rect 0 8 0 4) (fun i j =>
    run e (PAddEdge g i j));;
  let* c := pbind (run e (PCompress g 15)) compressed_of in
  same (run e (PCEntry c 0 0)) (pret (PyInt 4294967295));;
  same (run e (PCEntry c 1 1)) (pret (PyInt 18446744073709551615))) = true.
Proof. vm_compute. reflexivity. Qed.

(** tests.py:662-673. *)
Example py_test_matrix_to_string :
  py_passes (fun e =>
  let* g := pbind (run e (PNew (Some true))) graph_of in
  run e (PAddVertex g 1 (Some [0; 2; 4; 7; 3]));;
  run e (PAddVertex g 5 (Some [6; 8; 0; 1; 5; 4; 2]));;
  run e (PAddEdge g 7 8);;
  let* m := pbind (run e (PFindAvgPool g 5)) matrix_of in
  same (run e (PMToString m (Some 3)))
    (pret (PyStr (lines ["[ 0.320, 0.200 ]"; "[ 0.200, 0.280 ]"])))
  ) = true.
Proof. vm_compute. reflexivity. Qed.

(** tests.py:675-686. *)
Example py_test_matrix_string :
  py_passes (fun e =>
  let* g := pbind (run e (PNew (Some true))) graph_of in
  run e (PAddVertex g 1 (Some [0; 2; 4; 7; 3]));;
  run e (PAddVertex g 5 (Some [6; 8; 0; 1; 5; 4; 2]));;
  run e (PAddEdge g 7 8);;
  let* m := pbind (run e (PFindAvgPool g 5)) matrix_of in
  same (run e (PMToString m None))
    (pret (PyStr (lines ["[ 0.32, 0.20 ]"; "[ 0.20, 0.28 ]"])))) = true.
Proof. vm_compute. reflexivity. Qed.

(** tests.py:688-705. *)
Example py_test_matrix_duplicate :
  py_passes (fun e =>
  let* g := pbind (run e (PNew (Some true))) graph_of in
  run e (PAddVertex g 1 (Some [0; 2; 4; 7; 3]));;
  run e (PAddVertex g 5 (Some [6; 8; 0; 1; 5; 4; 2]));;
  run e (PAddEdge g 7 8);;
  let* m := pbind (run e (PFindAvgPool g 5)) matrix_of in
  let* m2 := pbind (run e (PMDuplicate m)) matrix_of in
  same (run e (PMDimension m2)) (run e (PMDimension m));;
  same (run e (PMEntryCount m2)) (run e (PMEntryCount m));;
  same (run e (PMGetEntry m2 0 0)) (run e (PMGetEntry m 0 0));;
  same (run e (PMGetEntry m2 0 1)) (run e (PMGetEntry m 0 1));;
  same (run e (PMGetEntry m2 1 0)) (run e (PMGetEntry m 1 0));;
  same (run e (PMGetEntry m2 1 1)) (run e (PMGetEntry m 1 1))) = true.
Proof. vm_compute. reflexivity. Qed.

(** tests.py:707-720. *)
Example py_test_matrix_dimension :
  py_passes (fun e =>
  let* g := pbind (run e (PNew (Some true))) graph_of in
  run e (PAddVertex g 17 None);;
  let* m := pbind (run e (PFindAvgPool g 3)) matrix_of in
  same (run e (PMDimension m)) (pret (PyInt 6));;
  let* g := pbind (run e (PNew (Some false))) graph_of in
  run e (PAddVertex g 21 None);;
  let* m := pbind (run e (PFindAvgPool g 3)) matrix_of in
  same (run e (PMDimension m)) (pret (PyInt 8))) = true.
Proof. vm_compute. reflexivity. Qed.

(** tests.py:722-737. *)
Example py_test_matrix_entry_count :
  py_passes (fun e =>
  let* g := pbind (run e (PNew (Some true))) graph_of in
  each (rect 8 16 8 16) (fun i j =>
    run e (PAddEdge g i j));;
  each (rect 8 16 0 4) (fun i j =>
    run e (PAddEdge g i j));;
  run e (PAddEdge g 23 22);;
  run e (PAddEdge g 21 22);;
  let* m := pbind (run e (PFindAvgPool g 8)) matrix_of in
  same (run e (PMEntryCount m)) (pret (PyInt 4))) = true.
Proof. vm_compute. reflexivity. Qed.

(** tests.py:739-752. *)
Example py_test_matrix_get_entry :
  py_passes (fun e =>
  let* g := pbind (run e (PNew (Some true))) graph_of in
  run e (PAddVertex g 1 (Some [0; 2; 4; 7; 3]));;
  run e (PAddVertex g 5 (Some [6; 8; 0; 1; 5; 4; 2]));;
  run e (PAddEdge g 7 8);;
  let* m := pbind (run e (PFindAvgPool g 5)) matrix_of in
  same (run e (PMGetEntry m 0 0)) (pret (PyFloat (lit 32 100)));;
  same (run e (PMGetEntry m 0 1)) (pret (PyFloat (lit 20 100)));;
  same (run e (PMGetEntry m 1 0)) (pret (PyFloat (lit 20 100)));;
  same (run e (PMGetEntry m 1 1)) (pret (PyFloat (lit 28 100)))) = true.
Proof. vm_compute. reflexivity. Qed.

(** tests.py:754-804. *)
Definition feq (x y : spec_float) : bool := py_eq (PyFloat x) (PyFloat y).
Definition same_entry (p q : spec_float * N * N) : bool :=
  feq p.1.1 q.1.1 && (p.1.2 =? q.1.2)%N && (p.2 =? q.2)%N.
Example py_test_matrix_entry_list :
  py_passes (fun e =>
  let* g := pbind (run e (PNew (Some true))) graph_of in
  run e (PAddVertex g 28 None);;
  run e (PAddVertex g 1 (Some [0; 2; 4; 7; 3]));;
  run e (PAddVertex g 5 (Some [6; 8; 0; 1; 5; 4; 2]));;
  run e (PAddEdge g 7 8);;
  let* m := pbind (run e (PFindAvgPool g 5)) matrix_of in
  let* v := run e (PMEntryList m) in
  match v with
  | PyEntryList ptr n =>
      let agrees p := same (run e (PMGetEntry m (Z.of_N p.1.2) (Z.of_N p.2)))
                        (pret (PyFloat p.1.1)) in
      let* l := iterate entries_of ptr n in
      check (forallb (fun p => existsb (same_entry p) l)
        [(lit 32 100, 0, 0); (lit 20 100, 0, 1); (lit 20 100, 1, 0); (lit 28 100, 1, 1)]%N);;
      check (negb (existsb (same_entry (lit 28 100, 2, 1)%N) l));;
      same (py_len v) (run e (PMEntryCount m));;
      each (map (fun i => (N.of_nat i, 0%N)) (seq 0 (N.to_nat n))) (fun i _ =>
        let* p := py_getitem entries_of ptr n i in agrees p);;
      fold_right (fun p k => agrees p;; k) (pret tt) l;;
      same (pret (PyInt (Z.of_nat (length l)))) (run e (PMEntryCount m));;
      let* l := iterate entries_of ptr n in
      fold_right (fun p k => agrees p;; k) (pret tt) l;;
      same (pret (PyInt (Z.of_nat (length l)))) (run e (PMEntryCount m));;
      index_checks same_entry entries_of ptr n
  | _ => check false
  end) = true.
Proof. vm_compute. reflexivity. Qed.
