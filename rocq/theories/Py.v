(** Model of graphrox-py/graphrox/__init__.py: the Python classes over the C interface.

    Simplifications: a Python object is the handle (or list address and length) it holds;
    [__del__] is an explicit call (when the garbage collector runs is not modelled, nor the
    reference that keeps a list alive as long as its iterators); integer arguments are
    Python integers and thresholds doubles (passing other types is not modelled); the
    library has been loaded and the arguments declared as lines 82-248 do. *)
From Coq Require Import ZArith Ascii String.
From Verif Require Import Base F64 Numeric Sq Standard Compressed CApi.

Inductive pyexc : Type :=
| TypeError | ValueError | IndexError | ZeroDivisionError | AttributeError | StopIteration
| MemoryError | ImportError | ArgumentError | FileNotFoundError.

(** [PyDone a h]: returns [a].  [PyRaise x h]: raises [x].  [PyAbort], [PyUB]: the C
    function called aborts the process or has undefined behaviour. *)
Inductive pyresult (A : Type) : Type :=
| PyDone (a : A) (h : cheap)
| PyRaise (x : pyexc) (h : cheap)
| PyAbort
| PyUB.
Arguments PyDone {A} a h.
Arguments PyRaise {A} x h.
Arguments PyAbort {A}.
Arguments PyUB {A}.

Definition pm (A : Type) : Type := cheap -> pyresult A.
Definition pret {A} (a : A) : pm A := fun h => PyDone a h.
Definition praise {A} (x : pyexc) : pm A := fun h => PyRaise x h.
Definition pbind {A B} (x : pm A) (f : A -> pm B) : pm B := fun h =>
  match x h with
  | PyDone a h' => f a h'
  | PyRaise x h' => PyRaise x h'
  | PyAbort => PyAbort
  | PyUB => PyUB
  end.

(** ** ctypes *)

(** Python integers passed as c_uint64, c_uint8 and c_size_t: taken modulo the width. *)
Definition c_uint64 (z : Z) : N := Z.to_N (z mod Z.of_N two64).
Definition c_uint8 (z : Z) : N := Z.to_N (z mod 256).
Definition c_size_t (p : platform) (z : Z) : N := Z.to_N (z mod Z.of_N (usize_max p + 1)).

(** Calling a function of the library. *)
Definition pcall (e : cenv) (c : ccall) : pm cval := fun h =>
  match cexec e c h with
  | Done v h' => PyDone v h'
  | Abort => PyAbort
  | UB => PyUB
  end.
(** The result as declared by [restype]. *)
Definition pcall_num (e : cenv) (c : ccall) : pm N :=
  pbind (pcall e c) (fun v => match v with VNum n => pret n | _ => praise TypeError end).
Definition pcall_ptr (e : cenv) (c : ccall) : pm addr :=
  pbind (pcall e c) (fun v => match v with VPtr a => pret a | _ => praise TypeError end).
Definition pcall_double (e : cenv) (c : ccall) : pm spec_float :=
  pbind (pcall e c) (fun v => match v with VDouble x => pret x | _ => praise TypeError end).
Definition pcall_none (e : cenv) (c : ccall) : pm unit := pbind (pcall e c) (fun _ => pret tt).

(** A ctypes object that lives as long as the method runs: [x] at a new address. *)
Definition with_temp {A} (e : cenv) (x : cobj) (f : addr -> pm A) : pm A := fun h =>
  let a := ce_alloc e h in
  match f a (<[a := x]> h) with
  | PyDone v h' => PyDone v (delete a h')
  | PyRaise exc h' => PyRaise exc (delete a h')
  | PyAbort => PyAbort
  | PyUB => PyUB
  end.
(** [size.value], [error.value]. *)
Definition cell_value (a : addr) : pm N := fun h =>
  match h !! a with
  | Some (OSizeCell n) | Some (OErrorCell n) => PyDone n h
  | _ => PyUB
  end.
(** [bytes_ptr[:n]] on a pointer to c_ubyte; nothing is read if n is 0. *)
Definition ptr_bytes (ptr : addr) (n : N) : pm (list N) := fun h =>
  if n =? 0 then PyDone [] h
  else match h !! ptr with
       | Some (OBytes l) =>
           if n <=? N.of_nat (length l) then PyDone (take (N.to_nat n) l) h else PyUB
       | _ => PyUB
       end.
(** [ptr[idx]] on pointers to edges, vertices and matrix entries. *)
Definition ptr_item {A} (list_of : cobj -> option (list A)) (ptr : addr) (idx : Z) : pm A :=
  fun h =>
  match (x ← h !! ptr; list_of x) with
  | Some l => if (idx <? 0)%Z then PyUB
              else match l !! Z.to_nat idx with Some a => PyDone a h | None => PyUB end
  | None => PyUB
  end.
(** [ctypes.cast(c_str, ctypes.c_char_p).value]: the characters before the NUL; None for
    a null pointer. *)
Definition char_p_value (ptr : addr) : pm (option text) := fun h =>
  if ptr =? null then PyDone None h
  else match h !! ptr with Some (OString s) => PyDone (Some s) h | _ => PyUB end.

(** ** Values *)

Inductive pyval : Type :=
| PyNone
| PyBool (b : bool)
| PyInt (z : Z)
| PyFloat (x : spec_float)
| PyStr (s : text)
| PyBytes (l : list N)
| PyGraph (a : addr)
| PyCompressed (a : addr)
| PyMatrix (a : addr)
| PyEdgeList (ptr : addr) (size : N)
| PyVertexList (ptr : addr) (size : N)
| PyEntryList (ptr : addr) (size : N).

(** ** Lists: _GraphEdgeList, _GraphVertexList, _CsrSquareMatrixEntryList *)

Definition edges_of (x : cobj) : option (list (N * N)) := match x with OEdges l => Some l | _ => None end.
Definition vertices_of (x : cobj) : option (list N) := match x with OVertices l => Some l | _ => None end.
Definition entries_of (x : cobj) : option (list (spec_float * N * N)) :=
  match x with OEntries l => Some l | _ => None end.

(** 465-472, 521-528, 736-743, __init__: looking at [contents] of a null pointer raises
    ValueError. *)
Definition py_list_init (v : pyval) (ptr : addr) : pm pyval :=
  if ptr =? null then praise ValueError else pret v.

(** 477-485, 533-541, 748-756, __getitem__.  Python's [%] by zero raises. *)
Definition py_getitem {A} (list_of : cobj -> option (list A)) (ptr : addr) (size : N) (idx : Z) : pm A :=
  if (Z.of_N size <=? idx)%Z then praise IndexError
  else if (idx <? 0)%Z then
    if size =? 0 then praise ZeroDivisionError
    else ptr_item list_of ptr (Z.of_N size - Z.max (Z.abs idx mod Z.of_N size) 1)
  else ptr_item list_of ptr idx.

(** 509-516, 565-572, 780-787, __next__; the state of the iterator is [pos]. *)
Definition py_next {A} (list_of : cobj -> option (list A)) (ptr : addr) (size pos : N) : pm (A * N) :=
  if pos =? size then praise StopIteration
  else pbind (ptr_item list_of ptr (Z.of_N pos)) (fun a => pret (a, pos + 1)).

(** What [for x in iterator] sees: [next] until StopIteration.  [fuel] bounds the number of
    calls; None if it does not suffice. *)
Fixpoint py_iterate {A} (fuel : nat) (list_of : cobj -> option (list A)) (ptr : addr) (size pos : N)
  : pm (option (list A)) := fun h =>
  match fuel with
  | O => PyDone None h
  | S fuel' =>
      match py_next list_of ptr size pos h with
      | PyDone (a, pos') h' =>
          match py_iterate fuel' list_of ptr size pos' h' with
          | PyDone (Some l) h'' => PyDone (Some (a :: l)) h''
          | PyDone None h'' => PyDone None h''
          | PyRaise x h'' => PyRaise x h''
          | PyAbort => PyAbort
          | PyUB => PyUB
          end
      | PyRaise StopIteration h' => PyDone (Some []) h'
      | PyRaise x h' => PyRaise x h'
      | PyAbort => PyAbort
      | PyUB => PyUB
      end
  end.

(** ** Shared bodies of methods *)

(** matrix_string and to_string: 303-308, 618-628, 713-722.  None has no [decode]. *)
Definition py_string (e : cenv) (c : ccall) : pm pyval :=
  pbind (pcall_ptr e c) (fun c_str =>
  pbind (char_p_value c_str) (fun py_str =>
  pbind (pcall_none e (CFreeString c_str)) (fun _ =>
  match py_str with
  | Some s => pret (PyStr s)
  | None => praise AttributeError
  end))).

(** __bytes__: 272-279, 587-594. *)
Definition py_bytes (e : cenv) (c : addr -> ccall) : pm pyval :=
  with_temp e (OSizeCell 0) (fun size =>
  pbind (pcall_ptr e (c size)) (fun bytes_ptr =>
  pbind (cell_value size) (fun n =>
  pbind (ptr_bytes bytes_ptr n) (fun bytes =>
  pbind (pcall_none e (CFreeBytes bytes_ptr n)) (fun _ =>
  pret (PyBytes bytes)))))).

(** from_bytes: 281-296, 596-611.  The error path evaluates [Graph.__name__()], calling a
    string, before it can raise ValueError. *)
Definition py_from_bytes (e : cenv) (c : addr -> N -> addr -> ccall) (wrap : addr -> pyval)
    (bytes : list N) : pm pyval :=
  with_temp e (OInputBytes bytes) (fun bytes_arr =>
  with_temp e (OErrorCell 0) (fun error =>
  pbind (pcall_ptr e (c bytes_arr (c_size_t (ce_platform e) (Z.of_nat (length bytes))) error)) (fun c_graph =>
  pbind (cell_value error) (fun err =>
  if err =? 0 then pret (wrap c_graph) else praise TypeError)))).

(** edge_list, vertex_in_edges, vertex_out_edges, entry_list: 420-430, 432-441,
    443-447, 724-732. *)
Definition py_list (e : cenv) (c : addr -> ccall) (wrap : addr -> N -> pyval) : pm pyval :=
  with_temp e (OSizeCell 0) (fun size =>
  pbind (pcall_ptr e (c size)) (fun arr_ptr =>
  pbind (cell_value size) (fun n =>
  py_list_init (wrap arr_ptr n) arr_ptr))).

Definition py_make (e : cenv) (c : ccall) (wrap : addr -> pyval) : pm pyval :=
  pbind (pcall_ptr e c) (fun a => pret (wrap a)).
Definition py_int (e : cenv) (c : ccall) : pm pyval :=
  pbind (pcall_num e c) (fun n => pret (PyInt (Z.of_N n))).
Definition py_bool (e : cenv) (c : ccall) : pm pyval :=
  pbind (pcall_num e c) (fun n => pret (PyBool (negb (n =? 0)))).
Definition py_none (e : cenv) (c : ccall) : pm pyval :=
  pbind (pcall_none e c) (fun _ => pret PyNone).

(** ** Methods *)

Inductive pycall : Type :=
(** Graph, 251-460 *)
| PNew (is_undirected : option bool)
| PDel (self : addr)
| PBytes (self : addr)
| PFromBytes (bytes : list N)
| PDuplicate (self : addr)
| PMatrixString (self : addr)
| PIsUndirected (self : addr)
| PVertexCount (self : addr)
| PEdgeCount (self : addr)
| PDoesEdgeExist (self : addr) (from to : Z)
| PAddVertex (self : addr) (vertex : Z) (to_vertexs : option (list Z))
| PAddEdge (self : addr) (from to : Z)
| PDeleteEdge (self : addr) (from to : Z)
| PFindAvgPool (self : addr) (block_dimension : Z)
| PApproximate (self : addr) (block_dimension : Z) (threshold : spec_float)
| PCompress (self : addr) (level : Z)
| PEdgeList (self : addr)
| PInEdges (self : addr) (vertex : Z)
| POutEdges (self : addr) (vertex : Z)
| PInDegree (self : addr) (vertex : Z)
| POutDegree (self : addr) (vertex : Z)
(** the lists, 463-572, 735-787 *)
| PDelEdges (ptr : addr) (size : N)
| PDelVertices (ptr : addr) (size : N)
| PDelEntries (ptr : addr) (size : N)
(** CompressedGraph, 575-673 *)
| PCDel (self : addr)
| PCBytes (self : addr)
| PCFromBytes (bytes : list N)
| PCDuplicate (self : addr)
| PCMatrixString (self : addr)
| PDecompress (self : addr)
| PCLevel (self : addr)
| PCIsUndirected (self : addr)
| PCVertexCount (self : addr)
| PCEdgeCount (self : addr)
| PCDoesEdgeExist (self : addr) (from to : Z)
| PCEntry (self : addr) (col row : Z)
(** CsrSquareMatrix, 676-732 *)
| PMDel (self : addr)
| PMDuplicate (self : addr)
| PMDimension (self : addr)
| PMEntryCount (self : addr)
| PMGetEntry (self : addr) (col row : Z)
| PMToString (self : addr) (decimal_digits : option Z)
| PMEntryList (self : addr).

Definition pyexec (e : cenv) (c : pycall) : pm pyval :=
  let p := ce_platform e in
  match c with
  (* 253-267 *)
  | PNew u => py_make e (CNew (default false u)) PyGraph
  (* 269-270 *)
  | PDel a => py_none e (CFreeGraph a)
  | PBytes a => py_bytes e (CToBytes a)
  | PFromBytes l => py_from_bytes e CFromBytes PyGraph l
  (* 298-301 *)
  | PDuplicate a => py_make e (CDuplicate a) PyGraph
  | PMatrixString a => py_string e (CMatrixString a)
  (* 310-312 *)
  | PIsUndirected a => py_bool e (CIsUndirected a)
  (* 314-316 *)
  | PVertexCount a => py_int e (CVertexCount a)
  (* 318-325 *)
  | PEdgeCount a => py_int e (CEdgeCount a)
  (* 327-331 *)
  | PDoesEdgeExist a u v => py_bool e (CDoesEdgeExist a (c_uint64 u) (c_uint64 v))
  (* 333-345 *)
  | PAddVertex a v None | PAddVertex a v (Some []) => py_none e (CAddVertex a (c_uint64 v) null 0)
  | PAddVertex a v (Some ids) =>
      with_temp e (OInputIds (c_uint64 <$> ids)) (fun edges =>
      py_none e (CAddVertex a (c_uint64 v) edges (c_size_t p (Z.of_nat (length ids)))))
  (* 347-353 *)
  | PAddEdge a u v => py_none e (CAddEdge a (c_uint64 u) (c_uint64 v))
  (* 355-357 *)
  | PDeleteEdge a u v => py_none e (CDeleteEdge a (c_uint64 u) (c_uint64 v))
  (* 359-367 *)
  | PFindAvgPool a b => py_make e (CFindAvgPool a (c_uint64 b)) PyMatrix
  (* 369-394 *)
  | PApproximate a b t => py_make e (CApproximate a (c_uint64 b) t) PyGraph
  (* 396-418 *)
  | PCompress a l =>
      let l := if (64 <? l)%Z then 64%Z else if (l <? 1)%Z then 1%Z else l in
      py_make e (CCompress a (c_uint8 l)) PyCompressed
  | PEdgeList a => py_list e (CEdgeList a) PyEdgeList
  | PInEdges a v => py_list e (CInEdges a (c_uint64 v)) PyVertexList
  | POutEdges a v => py_list e (COutEdges a (c_uint64 v)) PyVertexList
  (* 449-456 *)
  | PInDegree a v => py_int e (CInDegree a (c_uint64 v))
  (* 458-460 *)
  | POutDegree a v => py_int e (COutDegree a (c_uint64 v))
  (* 474-475 *)
  | PDelEdges ptr n => py_none e (CFreeEdges ptr n)
  (* 530-531 *)
  | PDelVertices ptr n => py_none e (CFreeVertices ptr n)
  (* 745-746 *)
  | PDelEntries ptr n => py_none e (CFreeEntries ptr n)
  (* 584-585 *)
  | PCDel a => py_none e (CFreeCompressed a)
  | PCBytes a => py_bytes e (CCompressedToBytes a)
  | PCFromBytes l => py_from_bytes e CCompressedFromBytes PyCompressed l
  (* 613-616 *)
  | PCDuplicate a => py_make e (CCompressedDuplicate a) PyCompressed
  | PCMatrixString a => py_string e (CCompressedMatrixString a)
  (* 630-633 *)
  | PDecompress a => py_make e (CDecompress a) PyGraph
  (* 635-641 *)
  | PCLevel a => pbind (pcall_num e (CCompressedLevel a)) (fun n => pret (PyFloat (f64_of_N n)))
  (* 643-645 *)
  | PCIsUndirected a => py_bool e (CCompressedIsUndirected a)
  (* 647-649 *)
  | PCVertexCount a => py_int e (CCompressedVertexCount a)
  (* 651-658 *)
  | PCEdgeCount a => py_int e (CCompressedEdgeCount a)
  (* 660-664 *)
  | PCDoesEdgeExist a u v => py_bool e (CCompressedDoesEdgeExist a (c_uint64 u) (c_uint64 v))
  (* 666-673 *)
  | PCEntry a c r => py_int e (CCompressedEntry a (c_uint64 c) (c_uint64 r))
  (* 690-691 *)
  | PMDel a => py_none e (CFreeMatrix a)
  (* 696-699 *)
  | PMDuplicate a => py_make e (CMatrixDuplicate a) PyMatrix
  (* 701-703 *)
  | PMDimension a => py_int e (CMatrixDimension a)
  (* 705-707 *)
  | PMEntryCount a => py_int e (CMatrixEntryCount a)
  (* 709-711 *)
  | PMGetEntry a c r =>
      pbind (pcall_double e (CMatrixGetEntry a (c_uint64 c) (c_uint64 r))) (fun x => pret (PyFloat x))
  | PMToString a d => py_string e (CMatrixToStringPrecision a (c_size_t p (default 2%Z d)))
  | PMEntryList a => py_list e (CMatrixEntries a) PyEntryList
  end.
