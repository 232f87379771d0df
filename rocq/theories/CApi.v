(** Model of graphrox-c/src/lib.rs: the C interface over a heap of handles.

    Simplifications: pointers are addresses of whole objects (no pointers into the middle
    of one), the fields [graph_ptr] / [matrix_ptr] of the handle structs are the handles
    themselves, and boxing an object never fails (running out of memory there aborts the
    process in reality).  [CBool] values are the numbers 0 and 1. *)
From Coq Require Import Ascii String.
From Verif Require Import Base F64 Numeric Adj Sq Standard Compressed.

(** Addresses; 0 is the null pointer. *)
Notation addr := N (only parsing).
Definition null : addr := 0.

(** What an address can point to.  The last four are the C program's own memory: output
    cells ([size_t], [uint8_t]) and input arrays. *)
Inductive cobj : Type :=
| OGraph (g : graph)
| OCompressed (g : cgraph)
| OMatrix (m : sq spec_float)
| OBytes (bytes : list N)
| OString (s : text)
| OEdges (l : list (N * N))
| OVertices (l : list N)
| OEntries (l : list (spec_float * N * N))
| OSizeCell (n : N)
| OErrorCell (n : N)
| OInputBytes (bytes : list N)
| OInputIds (ids : list N).

(** The live part of memory. *)
Notation cheap := (gmap N cobj).

(** What a call depends on besides its arguments: the platform, the address the allocator
    returns in each state of the heap, and the orders of the (at most two) hash tables the
    call iterates. *)
Record cenv : Type := CEnv {
  ce_platform : platform;
  ce_alloc : cheap -> addr;
  ce_order1 : hash_order;
  ce_order2 : hash_order;
}.

(** The allocator returns free non-null addresses. *)
Definition wf_alloc_fn (alloc : cheap -> addr) : Prop :=
  forall h, alloc h <> null /\ h !! alloc h = None.

(** [Done a h]: the call returns [a] and leaves heap [h].  [Abort]: the process aborts (a
    panic reaches the extern "C" boundary).  [UB]: undefined behaviour (dereferencing or
    freeing something that is not what the function expects). *)
Inductive cresult (A : Type) : Type :=
| Done (a : A) (h : cheap)
| Abort
| UB.
Arguments Done {A} a h.
Arguments Abort {A}.
Arguments UB {A}.

(** Code acting on the heap. *)
Definition cm (A : Type) : Type := cheap -> cresult A.

Definition cret {A} (a : A) : cm A := fun h => Done a h.
Definition cbind {A B} (x : cm A) (f : A -> cm B) : cm B := fun h =>
  match x h with
  | Done a h' => f a h'
  | Abort => Abort
  | UB => UB
  end.
(** Running Rust code that may panic. *)
Definition crust {A} (x : outcome A) : cm A := fun h =>
  match x with
  | Ret a => Done a h
  | Panic | OutOfFuel => Abort
  end.

(** lib.rs:18-36, graph_ref, graph_mut, compressed_graph_ref, matrix_ref. *)
Definition graph_ref (ptr : addr) : cm (option graph) := fun h =>
  if ptr =? null then Done None h
  else match h !! ptr with Some (OGraph g) => Done (Some g) h | _ => UB end.
Definition compressed_graph_ref (ptr : addr) : cm (option cgraph) := fun h =>
  if ptr =? null then Done None h
  else match h !! ptr with Some (OCompressed g) => Done (Some g) h | _ => UB end.
Definition matrix_ref (ptr : addr) : cm (option (sq spec_float)) := fun h =>
  if ptr =? null then Done None h
  else match h !! ptr with Some (OMatrix m) => Done (Some m) h | _ => UB end.

(** The [let Some(x) = ... else { return null_value; }] at the start of most functions. *)
Definition on_graph {A} (ptr : addr) (null_value : A) (f : graph -> cm A) : cm A :=
  cbind (graph_ref ptr) (fun x => match x with None => cret null_value | Some g => f g end).
Definition on_compressed {A} (ptr : addr) (null_value : A) (f : cgraph -> cm A) : cm A :=
  cbind (compressed_graph_ref ptr) (fun x =>
    match x with None => cret null_value | Some g => f g end).
Definition on_matrix {A} (ptr : addr) (null_value : A) (f : sq spec_float -> cm A) : cm A :=
  cbind (matrix_ref ptr) (fun x => match x with None => cret null_value | Some m => f m end).

(** Assignment through a [&mut Graph] obtained from [ptr]. *)
Definition store_graph (ptr : addr) (g : graph) : cm unit := fun h =>
  Done tt (<[ptr := OGraph g]> h).

(** [Box::into_raw(Box::new(x))]. *)
Definition box_new (e : cenv) (x : cobj) : cm addr := fun h =>
  Done (ce_alloc e h) (<[ce_alloc e h := x]> h).
(** [Box::into_raw(v.into_boxed_slice())]: an empty slice is not allocated, its address is
    the alignment of the element type. *)
Definition box_slice {A} (e : cenv) (align : N) (obj : list A -> cobj) (l : list A) : cm addr :=
  match l with
  | [] => cret align
  | _ => box_new e (obj l)
  end.

(** [if !cell.is_null() { *cell = n; }]. *)
Definition put_size (cell : addr) (n : N) : cm unit := fun h =>
  if cell =? null then Done tt h
  else match h !! cell with
       | Some (OSizeCell _) => Done tt (<[cell := OSizeCell n]> h)
       | _ => UB
       end.
Definition put_error (cell : addr) (n : N) : cm unit := fun h =>
  if cell =? null then Done tt h
  else match h !! cell with
       | Some (OErrorCell _) => Done tt (<[cell := OErrorCell n]> h)
       | _ => UB
       end.

(** [slice::from_raw_parts(ptr, len)] with len <> 0: the first [len] elements of an input
    array.  Byte buffers made by the library may be read too. *)
Definition read_bytes (ptr : addr) (len : N) : cm (list N) := fun h =>
  match h !! ptr with
  | Some (OInputBytes l) | Some (OBytes l) =>
      if len <=? N.of_nat (length l) then Done (take (N.to_nat len) l) h else UB
  | _ => UB
  end.
Definition read_ids (ptr : addr) (len : N) : cm (list N) := fun h =>
  match h !! ptr with
  | Some (OInputIds l) | Some (OVertices l) =>
      if len <=? N.of_nat (length l) then Done (take (N.to_nat len) l) h else UB
  | _ => UB
  end.

(** [drop(Box::from_raw(ptr))] for one object of the expected type. *)
Definition drop_box (is_it : cobj -> bool) (ptr : addr) : cm unit := fun h =>
  match h !! ptr with
  | Some x => if is_it x then Done tt (delete ptr h) else UB
  | None => UB
  end.
(** [drop(Box::from_raw(slice_from_raw_parts_mut(ptr, len)))]: dropping an empty slice does
    nothing; otherwise the length must be the one allocated. *)
Definition drop_slice (len_of : cobj -> option nat) (ptr : addr) (len : N) : cm unit := fun h =>
  if len =? 0 then Done tt h
  else match h !! ptr with
       | Some x => match len_of x with
                   | Some n => if N.of_nat n =? len then Done tt (delete ptr h) else UB
                   | None => UB
                   end
       | None => UB
       end.

(** [CString::new(s).ok()] followed by [into_raw]: null if the text contains a NUL. *)
Definition into_c_string (e : cenv) (s : text) : cm addr :=
  if existsb (fun c => (c =? "000")%char) s then cret null else box_new e (OString s).

(** lib.rs:38-46, boxed_bytes_to_raw. *)
Definition boxed_bytes_to_raw (e : cenv) (bytes : list N) (buffer_size : addr) : cm addr :=
  cbind (put_size buffer_size (N.of_nat (length bytes))) (fun _ =>
  box_slice e 1 OBytes bytes).

Definition c_bool (b : bool) : N := if b then 1 else 0.

(** ** Buffers *)

(** lib.rs:91-97. *)
Definition free_gphrx_string_buffer (buffer : addr) : cm unit :=
  if buffer =? null then cret tt
  else drop_box (fun x => match x with OString _ => true | _ => false end) buffer.
(** lib.rs:99-108. *)
Definition free_gphrx_bytes_buffer (buffer : addr) (buffer_size : N) : cm unit :=
  if buffer =? null then cret tt
  else drop_slice (fun x => match x with OBytes l => Some (length l) | _ => None end)
         buffer buffer_size.

(** ** Graph *)

(** lib.rs:111-117. *)
Definition free_gphrx_graph (graph : addr) : cm unit :=
  if graph =? null then cret tt
  else drop_box (fun x => match x with OGraph _ => true | _ => false end) graph.
(** lib.rs:119-125. *)
Definition free_gphrx_edge_list (list : addr) (length : N) : cm unit :=
  if list =? null then cret tt
  else drop_slice (fun x => match x with OEdges l => Some (List.length l) | _ => None end)
         list length.
(** lib.rs:127-133. *)
Definition free_gphrx_vertex_list (list : addr) (length : N) : cm unit :=
  if list =? null then cret tt
  else drop_slice (fun x => match x with OVertices l => Some (List.length l) | _ => None end)
         list length.

(** lib.rs:135-147. *)
Definition gphrx_new_undirected (e : cenv) : cm addr := box_new e (OGraph new_undirected).
Definition gphrx_new_directed (e : cenv) : cm addr := box_new e (OGraph new_directed).

Definition GPHRX_ERROR_INVALID_FORMAT : N := 1.

(** lib.rs:149-188. *)
Definition gphrx_from_bytes (e : cenv) (buffer : addr) (buffer_size : N) (error : addr)
  : cm addr :=
  cbind (put_error error 0) (fun _ =>
  if (buffer =? null) && negb (buffer_size =? 0) then
    cbind (put_error error GPHRX_ERROR_INVALID_FORMAT) (fun _ => cret null)
  else
    cbind (if buffer_size =? 0 then cret [] else read_bytes buffer buffer_size) (fun bytes =>
    cbind (crust (graph_try_from (ce_platform e) bytes)) (fun r =>
    match r with
    | Ok g => box_new e (OGraph g)
    | Err _ => cbind (put_error error GPHRX_ERROR_INVALID_FORMAT) (fun _ => cret null)
    end))).

(** lib.rs:190-201. *)
Definition gphrx_duplicate (e : cenv) (graph : addr) : cm addr :=
  on_graph graph null (fun g => box_new e (OGraph g)).

(** lib.rs:203-216. *)
Definition gphrx_matrix_string (e : cenv) (graph : addr) : cm addr :=
  on_graph graph null (fun g =>
  match matrix_string (ce_platform e) g with
  | Ok s => into_c_string e s
  | Err _ => cret null
  end).

(** lib.rs:218-230. *)
Definition gphrx_to_bytes (e : cenv) (graph buffer_size : addr) : cm addr :=
  cbind (put_size buffer_size 0) (fun _ =>
  on_graph graph null (fun g =>
  match graph_to_bytes (ce_platform e) (ce_order1 e) g with
  | Ok bytes => boxed_bytes_to_raw e bytes buffer_size
  | Err _ => cret null
  end)).

(** lib.rs:232-243, 245-252, 254-261. *)
Definition gphrx_is_undirected (graph : addr) : cm N :=
  on_graph graph 0 (fun g => cret (c_bool (is_undirected g))).
Definition gphrx_vertex_count (graph : addr) : cm N :=
  on_graph graph 0 (fun g => cret (vertex_count g)).
Definition gphrx_edge_count (graph : addr) : cm N :=
  on_graph graph 0 (fun g => cret (edge_count g)).

(** lib.rs:263-278. *)
Definition gphrx_does_edge_exist (graph : addr) (from to : N) : cm N :=
  on_graph graph 0 (fun g => cret (c_bool (does_edge_exist g from to))).

(** lib.rs:280-296. *)
Definition gphrx_find_avg_pool_matrix (e : cenv) (graph : addr) (block_dimension : N)
  : cm addr :=
  on_graph graph null (fun g =>
  cbind (crust (find_avg_pool_matrix (ce_platform e) (ce_order1 e) g block_dimension)) (fun m =>
  box_new e (OMatrix m))).

(** lib.rs:298-315. *)
Definition gphrx_approximate (e : cenv) (graph : addr) (block_dimension : N) (threshold : f64)
  : cm addr :=
  on_graph graph null (fun g =>
  cbind (crust (approximate (ce_platform e) (ce_order1 e) (ce_order2 e) g block_dimension
                  threshold)) (fun g' =>
  box_new e (OGraph g'))).

(** lib.rs:317-333. *)
Definition gphrx_compress (e : cenv) (graph : addr) (compression_level : N) : cm addr :=
  on_graph graph null (fun g =>
  cbind (crust (compress (ce_platform e) (ce_order1 e) (ce_order2 e) g compression_level)) (fun cg =>
  box_new e (OCompressed cg))).

(** lib.rs:335-359. *)
Definition gphrx_get_edge_list (e : cenv) (graph length : addr) : cm addr :=
  cbind (put_size length 0) (fun _ =>
  on_graph graph null (fun g =>
  let edges := graph_items (ce_order1 e) g in
  cbind (put_size length (N.of_nat (List.length edges))) (fun _ =>
  box_slice e 8 OEdges edges))).

(** lib.rs:361-388. *)
Definition gphrx_add_vertex (graph : addr) (vertex_id : N) (to_vertexs : addr)
    (to_vertexs_len : N) : cm unit :=
  on_graph graph tt (fun g =>
  if (to_vertexs =? null) && negb (to_vertexs_len =? 0) then cret tt
  else
    cbind (if to_vertexs_len =? 0 then cret [] else read_ids to_vertexs to_vertexs_len) (fun ids =>
    store_graph graph (add_vertex g vertex_id (if to_vertexs_len =? 0 then None else Some ids)))).

(** lib.rs:390-397, 399-410. *)
Definition gphrx_add_edge (graph : addr) (from to : N) : cm unit :=
  on_graph graph tt (fun g => store_graph graph (add_edge g from to)).
Definition gphrx_delete_edge (graph : addr) (from to : N) : cm unit :=
  on_graph graph tt (fun g => store_graph graph (delete_edge g from to)).

(** lib.rs:412-435, 437-460. *)
Definition gphrx_get_vertex_in_edges_list (e : cenv) (graph : addr) (vertex_id : N)
    (length : addr) : cm addr :=
  cbind (put_size length 0) (fun _ =>
  on_graph graph null (fun g =>
  let in_edges := get_vertex_in_edges (ce_order1 e) g vertex_id in
  cbind (put_size length (N.of_nat (List.length in_edges))) (fun _ =>
  box_slice e 8 OVertices in_edges))).
Definition gphrx_get_vertex_out_edges_list (e : cenv) (graph : addr) (vertex_id : N)
    (length : addr) : cm addr :=
  cbind (put_size length 0) (fun _ =>
  on_graph graph null (fun g =>
  let out_edges := get_vertex_out_edges (ce_order1 e) g vertex_id in
  cbind (put_size length (N.of_nat (List.length out_edges))) (fun _ =>
  box_slice e 8 OVertices out_edges))).

(** lib.rs:462-469, 471-478. *)
Definition gphrx_get_vertex_in_degree (e : cenv) (graph : addr) (vertex_id : N) : cm N :=
  on_graph graph 0 (fun g => cret (get_vertex_in_degree (ce_order1 e) g vertex_id)).
Definition gphrx_get_vertex_out_degree (e : cenv) (graph : addr) (vertex_id : N) : cm N :=
  on_graph graph 0 (fun g => cret (get_vertex_out_degree (ce_order1 e) g vertex_id)).

(** ** CompressedGraph *)

(** lib.rs:481-487. *)
Definition free_gphrx_compressed_graph (graph : addr) : cm unit :=
  if graph =? null then cret tt
  else drop_box (fun x => match x with OCompressed _ => true | _ => false end) graph.

(** lib.rs:489-502. *)
Definition gphrx_compressed_graph_duplicate (e : cenv) (graph : addr) : cm addr :=
  on_compressed graph null (fun g => box_new e (OCompressed g)).

(** lib.rs:504-513, 515-528, 530-537, 539-546. *)
Definition gphrx_compressed_graph_compression_level (graph : addr) : cm N :=
  on_compressed graph 0 (fun g => cret (compression_level g)).
Definition gphrx_compressed_graph_is_undirected (graph : addr) : cm N :=
  on_compressed graph 0 (fun g => cret (c_bool (c_is_undirected g))).
Definition gphrx_compressed_graph_vertex_count (graph : addr) : cm N :=
  on_compressed graph 0 (fun g => cret (c_vertex_count g)).
Definition gphrx_compressed_graph_edge_count (graph : addr) : cm N :=
  on_compressed graph 0 (fun g => cret (c_edge_count g)).

(** lib.rs:548-563, 565-576. *)
Definition gphrx_compressed_graph_does_edge_exist (graph : addr) (from to : N) : cm N :=
  on_compressed graph 0 (fun g => cret (c_bool (c_does_edge_exist g from to))).
Definition gphrx_get_compressed_matrix_entry (graph : addr) (col row : N) : cm N :=
  on_compressed graph 0 (fun g => cret (get_compressed_matrix_entry g col row)).

(** lib.rs:578-593. *)
Definition gphrx_compressed_graph_matrix_string (e : cenv) (graph : addr) : cm addr :=
  on_compressed graph null (fun g =>
  cbind (crust (c_matrix_string (ce_platform e) (ce_order1 e) g)) (fun r =>
  match r with
  | Ok s => into_c_string e s
  | Err _ => cret null
  end)).

(** lib.rs:595-610. *)
Definition gphrx_compressed_graph_to_bytes (e : cenv) (graph buffer_size : addr) : cm addr :=
  cbind (put_size buffer_size 0) (fun _ =>
  on_compressed graph null (fun g =>
  match cgraph_to_bytes (ce_platform e) (ce_order1 e) g with
  | Ok bytes => boxed_bytes_to_raw e bytes buffer_size
  | Err _ => cret null
  end)).

(** lib.rs:612-650. *)
Definition gphrx_compressed_graph_from_bytes (e : cenv) (buffer : addr) (buffer_size : N)
    (error : addr) : cm addr :=
  cbind (put_error error 0) (fun _ =>
  if (buffer =? null) && negb (buffer_size =? 0) then
    cbind (put_error error GPHRX_ERROR_INVALID_FORMAT) (fun _ => cret null)
  else
    cbind (if buffer_size =? 0 then cret [] else read_bytes buffer buffer_size) (fun bytes =>
    cbind (crust (cgraph_try_from (ce_platform e) bytes)) (fun r =>
    match r with
    | Ok g => box_new e (OCompressed g)
    | Err _ => cbind (put_error error GPHRX_ERROR_INVALID_FORMAT) (fun _ => cret null)
    end))).

(** lib.rs:652-665. *)
Definition gphrx_decompress (e : cenv) (graph : addr) : cm addr :=
  on_compressed graph null (fun cg =>
  cbind (crust (decompress (ce_platform e) (ce_order1 e) cg)) (fun g =>
  box_new e (OGraph g))).

(** ** CsrSquareMatrix *)

(** lib.rs:668-677. *)
Definition free_gphrx_matrix (matrix : addr) : cm unit :=
  if matrix =? null then cret tt
  else drop_box (fun x => match x with OMatrix _ => true | _ => false end) matrix.

(** lib.rs:679-692. *)
Definition gphrx_matrix_duplicate (e : cenv) (matrix : addr) : cm addr :=
  on_matrix matrix null (fun m => box_new e (OMatrix m)).

(** lib.rs:694-700. *)
Definition free_gphrx_matrix_entry_list (list : addr) (length : N) : cm unit :=
  if list =? null then cret tt
  else drop_slice (fun x => match x with OEntries l => Some (List.length l) | _ => None end)
         list length.

(** lib.rs:702-709, 711-718, 720-731. *)
Definition gphrx_matrix_dimension (matrix : addr) : cm N :=
  on_matrix matrix 0 (fun m => cret (sq_dimension m)).
Definition gphrx_matrix_entry_count (matrix : addr) : cm N :=
  on_matrix matrix 0 (fun m => cret (sq_entry_count m)).
Definition gphrx_matrix_get_entry (matrix : addr) (col row : N) : cm spec_float :=
  on_matrix matrix f64_zero (fun m => cret (sq_get_entry f64_numeric m col row)).

(** lib.rs:733-742; [ToString::to_string] panics when [Display::fmt] returns an error. *)
Definition gphrx_matrix_to_string (e : cenv) (matrix : addr) : cm addr :=
  on_matrix matrix null (fun m =>
  cbind (crust (sq_display (ce_platform e) f64_numeric (ce_order1 e) m)) (fun r =>
  match r with
  | Some s => into_c_string e s
  | None => crust Panic
  end)).

(** lib.rs:744-760. *)
Definition gphrx_matrix_to_string_with_precision (e : cenv) (matrix : addr)
    (decimal_digits : N) : cm addr :=
  on_matrix matrix null (fun m =>
  cbind (crust (sq_to_string_with_precision (ce_platform e) f64_numeric (ce_order1 e) m
                  decimal_digits)) (fun r =>
  match r with
  | Ok s => into_c_string e s
  | Err _ => cret null
  end)).

(** lib.rs:762-783. *)
Definition gphrx_matrix_get_entry_list (e : cenv) (matrix length : addr) : cm addr :=
  cbind (put_size length 0) (fun _ =>
  on_matrix matrix null (fun m =>
  let entries := sq_items (ce_order1 e) m in
  cbind (put_size length (N.of_nat (List.length entries))) (fun _ =>
  box_slice e 8 OEntries entries))).

(** ** Programs using the interface *)

(** One call, with its arguments. *)
Inductive ccall : Type :=
| CFreeString (buffer : addr)
| CFreeBytes (buffer : addr) (size : N)
| CFreeGraph (graph : addr)
| CFreeEdges (list : addr) (length : N)
| CFreeVertices (list : addr) (length : N)
| CNew (undirected : bool)
| CFromBytes (buffer : addr) (size : N) (error : addr)
| CDuplicate (graph : addr)
| CMatrixString (graph : addr)
| CToBytes (graph size : addr)
| CIsUndirected (graph : addr)
| CVertexCount (graph : addr)
| CEdgeCount (graph : addr)
| CDoesEdgeExist (graph : addr) (from to : N)
| CFindAvgPool (graph : addr) (block_dimension : N)
| CApproximate (graph : addr) (block_dimension : N) (threshold : f64)
| CCompress (graph : addr) (level : N)
| CEdgeList (graph length : addr)
| CAddVertex (graph : addr) (vertex : N) (ids : addr) (len : N)
| CAddEdge (graph : addr) (from to : N)
| CDeleteEdge (graph : addr) (from to : N)
| CInEdges (graph : addr) (vertex : N) (length : addr)
| COutEdges (graph : addr) (vertex : N) (length : addr)
| CInDegree (graph : addr) (vertex : N)
| COutDegree (graph : addr) (vertex : N)
| CFreeCompressed (graph : addr)
| CCompressedDuplicate (graph : addr)
| CCompressedLevel (graph : addr)
| CCompressedIsUndirected (graph : addr)
| CCompressedVertexCount (graph : addr)
| CCompressedEdgeCount (graph : addr)
| CCompressedDoesEdgeExist (graph : addr) (from to : N)
| CCompressedEntry (graph : addr) (col row : N)
| CCompressedMatrixString (graph : addr)
| CCompressedToBytes (graph size : addr)
| CCompressedFromBytes (buffer : addr) (size : N) (error : addr)
| CDecompress (graph : addr)
| CFreeMatrix (matrix : addr)
| CMatrixDuplicate (matrix : addr)
| CFreeEntries (list : addr) (length : N)
| CMatrixDimension (matrix : addr)
| CMatrixEntryCount (matrix : addr)
| CMatrixGetEntry (matrix : addr) (col row : N)
| CMatrixToString (matrix : addr)
| CMatrixToStringPrecision (matrix : addr) (digits : N)
| CMatrixEntries (matrix length : addr).

(** Returned values. *)
Inductive cval : Type :=
| VUnit
| VNum (n : N)
| VPtr (a : addr)
| VDouble (x : spec_float).

Definition cmap {A B} (f : A -> B) (x : cm A) : cm B := cbind x (fun a => cret (f a)).
Definition v_unit (x : cm unit) : cm cval := cmap (fun _ => VUnit) x.

(** The function each call runs. *)
Definition cexec (e : cenv) (c : ccall) : cm cval :=
  match c with
  | CFreeString b => v_unit (free_gphrx_string_buffer b)
  | CFreeBytes b n => v_unit (free_gphrx_bytes_buffer b n)
  | CFreeGraph g => v_unit (free_gphrx_graph g)
  | CFreeEdges l n => v_unit (free_gphrx_edge_list l n)
  | CFreeVertices l n => v_unit (free_gphrx_vertex_list l n)
  | CNew true => cmap VPtr (gphrx_new_undirected e)
  | CNew false => cmap VPtr (gphrx_new_directed e)
  | CFromBytes b n err => cmap VPtr (gphrx_from_bytes e b n err)
  | CDuplicate g => cmap VPtr (gphrx_duplicate e g)
  | CMatrixString g => cmap VPtr (gphrx_matrix_string e g)
  | CToBytes g n => cmap VPtr (gphrx_to_bytes e g n)
  | CIsUndirected g => cmap VNum (gphrx_is_undirected g)
  | CVertexCount g => cmap VNum (gphrx_vertex_count g)
  | CEdgeCount g => cmap VNum (gphrx_edge_count g)
  | CDoesEdgeExist g u v => cmap VNum (gphrx_does_edge_exist g u v)
  | CFindAvgPool g b => cmap VPtr (gphrx_find_avg_pool_matrix e g b)
  | CApproximate g b t => cmap VPtr (gphrx_approximate e g b t)
  | CCompress g l => cmap VPtr (gphrx_compress e g l)
  | CEdgeList g n => cmap VPtr (gphrx_get_edge_list e g n)
  | CAddVertex g v ids n => v_unit (gphrx_add_vertex g v ids n)
  | CAddEdge g u v => v_unit (gphrx_add_edge g u v)
  | CDeleteEdge g u v => v_unit (gphrx_delete_edge g u v)
  | CInEdges g v n => cmap VPtr (gphrx_get_vertex_in_edges_list e g v n)
  | COutEdges g v n => cmap VPtr (gphrx_get_vertex_out_edges_list e g v n)
  | CInDegree g v => cmap VNum (gphrx_get_vertex_in_degree e g v)
  | COutDegree g v => cmap VNum (gphrx_get_vertex_out_degree e g v)
  | CFreeCompressed g => v_unit (free_gphrx_compressed_graph g)
  | CCompressedDuplicate g => cmap VPtr (gphrx_compressed_graph_duplicate e g)
  | CCompressedLevel g => cmap VNum (gphrx_compressed_graph_compression_level g)
  | CCompressedIsUndirected g => cmap VNum (gphrx_compressed_graph_is_undirected g)
  | CCompressedVertexCount g => cmap VNum (gphrx_compressed_graph_vertex_count g)
  | CCompressedEdgeCount g => cmap VNum (gphrx_compressed_graph_edge_count g)
  | CCompressedDoesEdgeExist g u v => cmap VNum (gphrx_compressed_graph_does_edge_exist g u v)
  | CCompressedEntry g c r => cmap VNum (gphrx_get_compressed_matrix_entry g c r)
  | CCompressedMatrixString g => cmap VPtr (gphrx_compressed_graph_matrix_string e g)
  | CCompressedToBytes g n => cmap VPtr (gphrx_compressed_graph_to_bytes e g n)
  | CCompressedFromBytes b n err => cmap VPtr (gphrx_compressed_graph_from_bytes e b n err)
  | CDecompress g => cmap VPtr (gphrx_decompress e g)
  | CFreeMatrix m => v_unit (free_gphrx_matrix m)
  | CMatrixDuplicate m => cmap VPtr (gphrx_matrix_duplicate e m)
  | CFreeEntries l n => v_unit (free_gphrx_matrix_entry_list l n)
  | CMatrixDimension m => cmap VNum (gphrx_matrix_dimension m)
  | CMatrixEntryCount m => cmap VNum (gphrx_matrix_entry_count m)
  | CMatrixGetEntry m c r => cmap VDouble (gphrx_matrix_get_entry m c r)
  | CMatrixToString m => cmap VPtr (gphrx_matrix_to_string e m)
  | CMatrixToStringPrecision m d => cmap VPtr (gphrx_matrix_to_string_with_precision e m d)
  | CMatrixEntries m n => cmap VPtr (gphrx_matrix_get_entry_list e m n)
  end.
