(** Whole programs over the Python binding: which objects are alive, and the calls a program
    makes on them.

    An object goes away once, at any time (its [__del__] runs then); a list object stays as
    long as one of its iterators, __init__.py:496-507, 552-563, 767-778, so that iterators need
    no memory of their own. *)
From Coq Require Import ZArith.
From Verif Require Import Base F64 Numeric Sq Standard Compressed Api CApi CSpec Py PySpec.

(** The values that hold memory of the library. *)
Definition is_object (v : pyval) : bool :=
  match v with
  | PyGraph _ | PyCompressed _ | PyMatrix _ | PyEdgeList _ _ | PyVertexList _ _ | PyEntryList _ _ => true
  | _ => false
  end.

(** The [__del__] of an object. *)
Definition del_call (v : pyval) : option pycall :=
  match v with
  | PyGraph a => Some (PDel a)
  | PyCompressed a => Some (PCDel a)
  | PyMatrix a => Some (PMDel a)
  | PyEdgeList a n => Some (PDelEdges a n)
  | PyVertexList a n => Some (PDelVertices a n)
  | PyEntryList a n => Some (PDelEntries a n)
  | _ => None
  end.

(** The object a method is called on; constructors have none. *)
Definition self_of (c : pycall) : option pyval :=
  match c with
  | PNew _ | PFromBytes _ | PCFromBytes _ => None
  | PDel a | PBytes a | PDuplicate a | PMatrixString a | PIsUndirected a | PVertexCount a
  | PEdgeCount a | PDoesEdgeExist a _ _ | PAddVertex a _ _ | PAddEdge a _ _ | PDeleteEdge a _ _
  | PFindAvgPool a _ | PApproximate a _ _ | PCompress a _ | PEdgeList a | PInEdges a _
  | POutEdges a _ | PInDegree a _ | POutDegree a _ => Some (PyGraph a)
  | PDelEdges a n => Some (PyEdgeList a n)
  | PDelVertices a n => Some (PyVertexList a n)
  | PDelEntries a n => Some (PyEntryList a n)
  | PCDel a | PCBytes a | PCDuplicate a | PCMatrixString a | PDecompress a | PCLevel a
  | PCIsUndirected a | PCVertexCount a | PCEdgeCount a | PCDoesEdgeExist a _ _ | PCEntry a _ _ =>
      Some (PyCompressed a)
  | PMDel a | PMDuplicate a | PMDimension a | PMEntryCount a | PMGetEntry a _ _ | PMToString a _
  | PMEntryList a => Some (PyMatrix a)
  end.
Definition is_del (c : pycall) : bool :=
  match c with
  | PDel _ | PCDel _ | PMDel _ | PDelEdges _ _ | PDelVertices _ _ | PDelEntries _ _ => true
  | _ => false
  end.

(** [bytes] objects hold bytes, Python floats are doubles, lists fit in memory. *)
Definition pyargs_ok (p : platform) (c : pycall) : Prop :=
  match c with
  | PFromBytes l | PCFromBytes l => is_slice p l
  | PApproximate _ _ t => is_f64 t = true
  | PAddVertex _ _ (Some ids) => N.of_nat (length ids) <= usize_max p
  | _ => True
  end.

(** The heap and the objects alive. *)
Record world := World { w_heap : cheap; w_live : list pyval }.

Inductive pystep :=
(** A method or constructor; the object it makes is kept. *)
| SCall (e : cenv) (c : pycall)
(** The [i]-th object goes away. *)
| SDrop (e : cenv) (i : nat)
(** [l[idx]] on the [i]-th object *)
| SItem (i : nat) (idx : Z)
(** An iterator of the [i]-th object, at [pos], is asked for the next element. *)
| SNext (i : nat) (pos : N).

Inductive wresult := WOk (w : world) | WAbort | WUB.

(** Exceptions are caught and the program goes on. *)
Definition keep {A} (live : list pyval) (new : A -> list pyval) (r : pyresult A) : wresult :=
  match r with
  | PyDone v h => WOk (World h (new v ++ live))
  | PyRaise _ h => WOk (World h live)
  | PyAbort => WAbort
  | PyUB => WUB
  end.

Definition run_step (w : world) (s : pystep) : wresult :=
  let h := w_heap w in
  let live := w_live w in
  match s with
  | SCall e c => keep live (fun v => if is_object v then [v] else []) (pyexec e c h)
  | SDrop e i =>
    match (v ← live !! i; del_call v) with
    | Some c => keep (delete i live) (fun _ => []) (pyexec e c h)
    | None => WUB
    end
  | SItem i idx =>
    match live !! i with
    | Some (PyEdgeList a n) => keep live (fun _ => []) (py_getitem edges_of a n idx h)
    | Some (PyVertexList a n) => keep live (fun _ => []) (py_getitem vertices_of a n idx h)
    | Some (PyEntryList a n) => keep live (fun _ => []) (py_getitem entries_of a n idx h)
    | _ => WUB
    end
  | SNext i pos =>
    match live !! i with
    | Some (PyEdgeList a n) => keep live (fun _ => []) (py_next edges_of a n pos h)
    | Some (PyVertexList a n) => keep live (fun _ => []) (py_next vertices_of a n pos h)
    | Some (PyEntryList a n) => keep live (fun _ => []) (py_next entries_of a n pos h)
    | _ => WUB
    end
  end.

(** What a Python program can do: calls on objects that are alive, never [__del__] itself. *)
Definition is_list (v : pyval) : Prop :=
  match v with PyEdgeList _ _ | PyVertexList _ _ | PyEntryList _ _ => True | _ => False end.
Definition list_size (v : pyval) : N :=
  match v with PyEdgeList _ n | PyVertexList _ n | PyEntryList _ n => n | _ => 0 end.
Definition step_ok (p : platform) (w : world) (s : pystep) : Prop :=
  match s with
  | SCall e c => ce_platform e = p /\ wf_alloc_fn (ce_alloc e) /\ is_del c = false /\
      pyargs_ok p c /\ (forall v, self_of c = Some v -> v ∈ w_live w)
  | SDrop e i => ce_platform e = p /\ wf_alloc_fn (ce_alloc e) /\ is_Some (w_live w !! i)
  | SItem i _ => exists v, w_live w !! i = Some v /\ is_list v
  | SNext i pos => exists v, w_live w !! i = Some v /\ is_list v /\ pos <= list_size v
  end.

Inductive py_world (p : platform) : world -> Prop :=
| pw_start : py_world p (World ∅ [])
| pw_step w s w' : py_world p w -> step_ok p w s -> run_step w s = WOk w' -> py_world p w'.

(** The address of the memory an object holds; empty lists hold none. *)
Definition memory_of (v : pyval) : option addr :=
  match v with
  | PyGraph a | PyCompressed a | PyMatrix a => Some a
  | PyEdgeList a n | PyVertexList a n | PyEntryList a n => if n =? 0 then None else Some a
  | _ => None
  end.
