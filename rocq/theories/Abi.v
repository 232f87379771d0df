(** The declarations of the library's functions and structures in the three languages:
    graphrox-c/src/lib.rs (the definitions), graphrox-c/gphrx.h (for C programs) and
    graphrox-py/graphrox/__init__.py:40-248 (for Python, through ctypes). *)
From Coq Require Import Ascii String.
From Verif Require Import Base.
Local Open Scope string_scope.

Inductive rust_type : Type :=
| r_u8 | r_i8 | r_u64 | r_usize | r_f64 | r_c_char | r_c_void
| r_mut (t : rust_type) | r_const (t : rust_type)
| r_struct (name : string).

Inductive h_type : Type :=
| h_uint8_t | h_int8_t | h_uint64_t | h_size_t | h_double | h_char | h_void
| h_const (t : h_type) | h_ptr (t : h_type)
| h_struct (name : string).

Inductive py_type : Type :=
| p_uint8 | p_ubyte | p_int8 | p_uint64 | p_size_t | p_double | p_void_p
| p_POINTER (t : py_type)
| p_struct (name : string).

(** Parameters (None: left open, as by [()] in C and [argtypes = None] in Python) and
    result (None: no result). *)
Record fn_decl (T : Type) : Type := Fn {
  fn_params : option (list T);
  fn_result : option T;
}.
Arguments Fn {T}.
Arguments fn_params {T}.
Arguments fn_result {T}.

(** ** graphrox-c/src/lib.rs; the numbers are line numbers *)

(** 14 *)
Definition CBool : rust_type := r_i8.

Definition rust_structs : list (string * list (string * rust_type)) := [
  ("GphrxGraph", [("graph_ptr", r_mut r_c_void)]);  (* 50 *)
  ("GphrxGraphEdge", [("from_vertex", r_u64); ("to_vertex", r_u64)]);  (* 55 *)
  ("GphrxGraphVertex", [("vertex_id", r_u64)]);  (* 61 *)
  ("GphrxMatrixEntry", [("entry", r_f64); ("col", r_u64); ("row", r_u64)]);  (* 66 *)
  ("GphrxCompressedGraph", [("graph_ptr", r_mut r_c_void)]);  (* 74 *)
  ("GphrxCompressedGraphBuilder", [("builder_ptr", r_mut r_c_void)]);  (* 80 *)
  ("GphrxCsrSquareMatrix", [("matrix_ptr", r_mut r_c_void)])  (* 86 *)
].

Definition rust_functions : list (string * fn_decl rust_type) := [
  ("free_gphrx_string_buffer", Fn (Some [r_mut r_c_char]) None);  (* 92 *)
  ("free_gphrx_bytes_buffer", Fn (Some [r_mut r_u8; r_usize]) None);  (* 100 *)
  ("free_gphrx_graph", Fn (Some [r_struct "GphrxGraph"]) None);  (* 112 *)
  ("free_gphrx_edge_list", Fn (Some [r_mut (r_struct "GphrxGraphEdge"); r_usize]) None);  (* 120 *)
  ("free_gphrx_vertex_list",
     Fn (Some [r_mut (r_struct "GphrxGraphVertex"); r_usize]) None);  (* 128 *)
  ("gphrx_new_undirected", Fn (Some []) (Some (r_struct "GphrxGraph")));  (* 136 *)
  ("gphrx_new_directed", Fn (Some []) (Some (r_struct "GphrxGraph")));  (* 143 *)
  ("gphrx_from_bytes",
     Fn (Some [r_const r_u8; r_usize; r_mut r_u8]) (Some (r_struct "GphrxGraph")));  (* 150 *)
  ("gphrx_duplicate", Fn (Some [r_struct "GphrxGraph"]) (Some (r_struct "GphrxGraph")));  (* 191 *)
  ("gphrx_matrix_string", Fn (Some [r_struct "GphrxGraph"]) (Some (r_mut r_c_char)));  (* 204 *)
  ("gphrx_to_bytes",
     Fn (Some [r_struct "GphrxGraph"; r_mut r_usize]) (Some (r_mut r_u8)));  (* 219 *)
  ("gphrx_is_undirected", Fn (Some [r_struct "GphrxGraph"]) (Some CBool));  (* 233 *)
  ("gphrx_vertex_count", Fn (Some [r_struct "GphrxGraph"]) (Some r_u64));  (* 246 *)
  ("gphrx_edge_count", Fn (Some [r_struct "GphrxGraph"]) (Some r_u64));  (* 255 *)
  ("gphrx_does_edge_exist",
     Fn (Some [r_struct "GphrxGraph"; r_u64; r_u64]) (Some CBool));  (* 264 *)
  ("gphrx_find_avg_pool_matrix",
     Fn (Some [r_struct "GphrxGraph"; r_u64]) (Some (r_struct "GphrxCsrSquareMatrix")));  (* 281 *)
  ("gphrx_approximate",
     Fn (Some [r_struct "GphrxGraph"; r_u64; r_f64]) (Some (r_struct "GphrxGraph")));  (* 299 *)
  ("gphrx_compress",
     Fn (Some [r_struct "GphrxGraph"; r_u8]) (Some (r_struct "GphrxCompressedGraph")));  (* 318 *)
  ("gphrx_get_edge_list",
     Fn (Some [r_struct "GphrxGraph"; r_mut r_usize])
       (Some (r_mut (r_struct "GphrxGraphEdge"))));  (* 336 *)
  ("gphrx_add_vertex",
     Fn (Some [r_struct "GphrxGraph"; r_u64; r_const r_u64; r_usize]) None);  (* 362 *)
  ("gphrx_add_edge", Fn (Some [r_struct "GphrxGraph"; r_u64; r_u64]) None);  (* 391 *)
  ("gphrx_delete_edge", Fn (Some [r_struct "GphrxGraph"; r_u64; r_u64]) None);  (* 400 *)
  ("gphrx_get_vertex_in_edges_list",
     Fn (Some [r_struct "GphrxGraph"; r_u64; r_mut r_usize])
       (Some (r_mut (r_struct "GphrxGraphVertex"))));  (* 413 *)
  ("gphrx_get_vertex_out_edges_list",
     Fn (Some [r_struct "GphrxGraph"; r_u64; r_mut r_usize])
       (Some (r_mut (r_struct "GphrxGraphVertex"))));  (* 438 *)
  ("gphrx_get_vertex_in_degree", Fn (Some [r_struct "GphrxGraph"; r_u64]) (Some r_u64));  (* 463 *)
  ("gphrx_get_vertex_out_degree", Fn (Some [r_struct "GphrxGraph"; r_u64]) (Some r_u64));  (* 472 *)
  ("free_gphrx_compressed_graph", Fn (Some [r_struct "GphrxCompressedGraph"]) None);  (* 482 *)
  ("gphrx_compressed_graph_duplicate",
     Fn (Some [r_struct "GphrxCompressedGraph"])
       (Some (r_struct "GphrxCompressedGraph")));  (* 490 *)
  ("gphrx_compressed_graph_compression_level",
     Fn (Some [r_struct "GphrxCompressedGraph"]) (Some r_u8));  (* 505 *)
  ("gphrx_compressed_graph_is_undirected",
     Fn (Some [r_struct "GphrxCompressedGraph"]) (Some CBool));  (* 516 *)
  ("gphrx_compressed_graph_vertex_count",
     Fn (Some [r_struct "GphrxCompressedGraph"]) (Some r_u64));  (* 531 *)
  ("gphrx_compressed_graph_edge_count",
     Fn (Some [r_struct "GphrxCompressedGraph"]) (Some r_u64));  (* 540 *)
  ("gphrx_compressed_graph_does_edge_exist",
     Fn (Some [r_struct "GphrxCompressedGraph"; r_u64; r_u64]) (Some CBool));  (* 549 *)
  ("gphrx_get_compressed_matrix_entry",
     Fn (Some [r_struct "GphrxCompressedGraph"; r_u64; r_u64]) (Some r_u64));  (* 566 *)
  ("gphrx_compressed_graph_matrix_string",
     Fn (Some [r_struct "GphrxCompressedGraph"]) (Some (r_mut r_c_char)));  (* 579 *)
  ("gphrx_compressed_graph_to_bytes",
     Fn (Some [r_struct "GphrxCompressedGraph"; r_mut r_usize]) (Some (r_mut r_u8)));  (* 596 *)
  ("gphrx_compressed_graph_from_bytes",
     Fn (Some [r_const r_u8; r_usize; r_mut r_u8])
       (Some (r_struct "GphrxCompressedGraph")));  (* 613 *)
  ("gphrx_decompress",
     Fn (Some [r_struct "GphrxCompressedGraph"]) (Some (r_struct "GphrxGraph")));  (* 653 *)
  ("free_gphrx_matrix", Fn (Some [r_struct "GphrxCsrSquareMatrix"]) None);  (* 669 *)
  ("gphrx_matrix_duplicate",
     Fn (Some [r_struct "GphrxCsrSquareMatrix"])
       (Some (r_struct "GphrxCsrSquareMatrix")));  (* 680 *)
  ("free_gphrx_matrix_entry_list",
     Fn (Some [r_mut (r_struct "GphrxMatrixEntry"); r_usize]) None);  (* 695 *)
  ("gphrx_matrix_dimension", Fn (Some [r_struct "GphrxCsrSquareMatrix"]) (Some r_u64));  (* 703 *)
  ("gphrx_matrix_entry_count", Fn (Some [r_struct "GphrxCsrSquareMatrix"]) (Some r_u64));  (* 712 *)
  ("gphrx_matrix_get_entry",
     Fn (Some [r_struct "GphrxCsrSquareMatrix"; r_u64; r_u64]) (Some r_f64));  (* 721 *)
  ("gphrx_matrix_to_string",
     Fn (Some [r_struct "GphrxCsrSquareMatrix"]) (Some (r_mut r_c_char)));  (* 734 *)
  ("gphrx_matrix_to_string_with_precision",
     Fn (Some [r_struct "GphrxCsrSquareMatrix"; r_usize]) (Some (r_mut r_c_char)));  (* 745 *)
  ("gphrx_matrix_get_entry_list",
     Fn (Some [r_struct "GphrxCsrSquareMatrix"; r_mut r_usize])
       (Some (r_mut (r_struct "GphrxMatrixEntry"))))  (* 763 *)
].

(** ** graphrox-c/gphrx.h *)

Definition header_structs : list (string * list (string * h_type)) := [
  ("GphrxGraph", [("graph_ptr", h_ptr (h_const h_void))]);  (* 8 *)
  ("GphrxGraphEdge", [("from_vertex", h_uint64_t); ("to_vertex", h_uint64_t)]);  (* 12 *)
  ("GphrxGraphVertex", [("vertex_id", h_uint64_t)]);  (* 17 *)
  ("GphrxMatrixEntry", [("entry", h_double); ("col", h_uint64_t); ("row", h_uint64_t)]);  (* 21 *)
  ("GphrxCompressedGraph", [("graph_ptr", h_ptr (h_const h_void))]);  (* 27 *)
  ("GphrxCsrSquareMatrix", [("matrix_ptr", h_ptr (h_const h_void))])  (* 31 *)
].

Definition header_functions : list (string * fn_decl h_type) := [
  ("free_gphrx_string_buffer", Fn (Some [h_ptr (h_const h_char)]) None);  (* 36 *)
  ("free_gphrx_bytes_buffer", Fn (Some [h_ptr (h_const h_uint8_t); h_size_t]) None);  (* 37 *)
  ("free_gphrx_graph", Fn (Some [h_struct "GphrxGraph"]) None);  (* 40 *)
  ("free_gphrx_edge_list",
     Fn (Some [h_ptr (h_const (h_struct "GphrxGraphEdge")); h_size_t]) None);  (* 41 *)
  ("free_gphrx_vertex_list",
     Fn (Some [h_ptr (h_const (h_struct "GphrxGraphVertex")); h_size_t]) None);  (* 42 *)
  ("gphrx_new_undirected", Fn None (Some (h_struct "GphrxGraph")));  (* 44 *)
  ("gphrx_new_directed", Fn None (Some (h_struct "GphrxGraph")));  (* 45 *)
  ("gphrx_from_bytes",
     Fn (Some [h_ptr (h_const h_uint8_t); h_size_t; h_ptr h_uint8_t])
       (Some (h_struct "GphrxGraph")));  (* 46 *)
  ("gphrx_duplicate",
     Fn (Some [h_const (h_struct "GphrxGraph")]) (Some (h_struct "GphrxGraph")));  (* 48 *)
  ("gphrx_matrix_string",
     Fn (Some [h_const (h_struct "GphrxGraph")]) (Some (h_ptr (h_const h_char))));  (* 49 *)
  ("gphrx_to_bytes",
     Fn (Some [h_const (h_struct "GphrxGraph"); h_ptr h_size_t])
       (Some (h_ptr (h_const h_uint8_t))));  (* 50 *)
  ("gphrx_is_undirected", Fn (Some [h_const (h_struct "GphrxGraph")]) (Some h_int8_t));  (* 52 *)
  ("gphrx_vertex_count", Fn (Some [h_const (h_struct "GphrxGraph")]) (Some h_uint64_t));  (* 53 *)
  ("gphrx_edge_count", Fn (Some [h_const (h_struct "GphrxGraph")]) (Some h_uint64_t));  (* 54 *)
  ("gphrx_does_edge_exist",
     Fn (Some [h_const (h_struct "GphrxGraph"); h_uint64_t; h_uint64_t]) (Some h_int8_t));  (* 55 *)
  ("gphrx_find_avg_pool_matrix",
     Fn (Some [h_const (h_struct "GphrxGraph"); h_uint64_t])
       (Some (h_const (h_struct "GphrxCsrSquareMatrix"))));  (* 59 *)
  ("gphrx_approximate",
     Fn (Some [h_const (h_struct "GphrxGraph"); h_uint64_t; h_double])
       (Some (h_struct "GphrxGraph")));  (* 61 *)
  ("gphrx_compress",
     Fn (Some [h_const (h_struct "GphrxGraph"); h_uint8_t])
       (Some (h_const (h_struct "GphrxCompressedGraph"))));  (* 64 *)
  ("gphrx_get_edge_list",
     Fn (Some [h_const (h_struct "GphrxGraph"); h_ptr h_size_t])
       (Some (h_ptr (h_const (h_struct "GphrxGraphEdge")))));  (* 65 *)
  ("gphrx_add_vertex",
     Fn (Some [h_struct "GphrxGraph"; h_uint64_t; h_ptr h_uint64_t; h_size_t]) None);  (* 67 *)
  ("gphrx_add_edge", Fn (Some [h_struct "GphrxGraph"; h_uint64_t; h_uint64_t]) None);  (* 71 *)
  ("gphrx_delete_edge", Fn (Some [h_struct "GphrxGraph"; h_uint64_t; h_uint64_t]) None);  (* 72 *)
  ("gphrx_get_vertex_in_edges_list",
     Fn (Some [h_struct "GphrxGraph"; h_uint64_t; h_ptr h_size_t])
       (Some (h_ptr (h_const (h_struct "GphrxGraphVertex")))));  (* 74 *)
  ("gphrx_get_vertex_out_edges_list",
     Fn (Some [h_struct "GphrxGraph"; h_uint64_t; h_ptr h_size_t])
       (Some (h_ptr (h_const (h_struct "GphrxGraphVertex")))));  (* 77 *)
  ("gphrx_get_vertex_in_degree",
     Fn (Some [h_struct "GphrxGraph"; h_uint64_t]) (Some h_uint64_t));  (* 80 *)
  ("gphrx_get_vertex_out_degree",
     Fn (Some [h_struct "GphrxGraph"; h_uint64_t]) (Some h_uint64_t));  (* 81 *)
  ("free_gphrx_compressed_graph",
     Fn (Some [h_const (h_struct "GphrxCompressedGraph")]) None);  (* 84 *)
  ("gphrx_compressed_graph_duplicate",
     Fn (Some [h_const (h_struct "GphrxCompressedGraph")])
       (Some (h_struct "GphrxCompressedGraph")));  (* 86 *)
  ("gphrx_compressed_graph_compression_level",
     Fn (Some [h_const (h_struct "GphrxCompressedGraph")]) (Some h_uint8_t));  (* 88 *)
  ("gphrx_compressed_graph_is_undirected",
     Fn (Some [h_const (h_struct "GphrxCompressedGraph")]) (Some h_int8_t));  (* 89 *)
  ("gphrx_compressed_graph_vertex_count",
     Fn (Some [h_const (h_struct "GphrxCompressedGraph")]) (Some h_uint64_t));  (* 90 *)
  ("gphrx_compressed_graph_edge_count",
     Fn (Some [h_const (h_struct "GphrxCompressedGraph")]) (Some h_uint64_t));  (* 91 *)
  ("gphrx_compressed_graph_does_edge_exist",
     Fn (Some [h_const (h_struct "GphrxCompressedGraph"); h_uint64_t; h_uint64_t])
       (Some h_int8_t));  (* 93 *)
  ("gphrx_get_compressed_matrix_entry",
     Fn (Some [h_const (h_struct "GphrxCompressedGraph"); h_uint64_t; h_uint64_t])
       (Some h_uint64_t));  (* 96 *)
  ("gphrx_compressed_graph_matrix_string",
     Fn (Some [h_const (h_struct "GphrxCompressedGraph")])
       (Some (h_ptr (h_const h_char))));  (* 99 *)
  ("gphrx_compressed_graph_to_bytes",
     Fn (Some [h_const (h_struct "GphrxCompressedGraph"); h_ptr h_size_t])
       (Some (h_ptr (h_const h_uint8_t))));  (* 100 *)
  ("gphrx_compressed_graph_from_bytes",
     Fn (Some [h_ptr (h_const h_uint8_t); h_size_t; h_ptr h_uint8_t])
       (Some (h_struct "GphrxCompressedGraph")));  (* 102 *)
  ("gphrx_decompress",
     Fn (Some [h_const (h_struct "GphrxCompressedGraph")])
       (Some (h_struct "GphrxGraph")));  (* 105 *)
  ("free_gphrx_matrix", Fn (Some [h_const (h_struct "GphrxCsrSquareMatrix")]) None);  (* 108 *)
  ("free_gphrx_matrix_entry_list",
     Fn (Some [h_ptr (h_const (h_struct "GphrxMatrixEntry")); h_size_t]) None);  (* 109 *)
  ("gphrx_matrix_duplicate",
     Fn (Some [h_const (h_struct "GphrxCsrSquareMatrix")])
       (Some (h_struct "GphrxCsrSquareMatrix")));  (* 111 *)
  ("gphrx_matrix_dimension",
     Fn (Some [h_const (h_struct "GphrxCsrSquareMatrix")]) (Some h_uint64_t));  (* 113 *)
  ("gphrx_matrix_entry_count",
     Fn (Some [h_const (h_struct "GphrxCsrSquareMatrix")]) (Some h_uint64_t));  (* 114 *)
  ("gphrx_matrix_get_entry",
     Fn (Some [h_const (h_struct "GphrxCsrSquareMatrix"); h_uint64_t; h_uint64_t])
       (Some h_double));  (* 115 *)
  ("gphrx_matrix_to_string",
     Fn (Some [h_const (h_struct "GphrxCsrSquareMatrix")])
       (Some (h_ptr (h_const h_char))));  (* 117 *)
  ("gphrx_matrix_to_string_with_precision",
     Fn (Some [h_const (h_struct "GphrxCsrSquareMatrix"); h_size_t])
       (Some (h_ptr (h_const h_char))));  (* 118 *)
  ("gphrx_matrix_get_entry_list",
     Fn (Some [h_const (h_struct "GphrxCsrSquareMatrix"); h_ptr h_size_t])
       (Some (h_ptr (h_const (h_struct "GphrxMatrixEntry")))))  (* 120 *)
].

(** ** graphrox-py/graphrox/__init__.py *)

Definition python_structs : list (string * list (string * py_type)) := [
  ("_GphrxGraph_c", [("graph_ptr", p_void_p)]);  (* 40 *)
  ("_GphrxGraphEdge_c", [("from_vertex", p_uint64); ("to_vertex", p_uint64)]);  (* 46 *)
  ("_GphrxGraphVertex_c", [("vertex_id", p_uint64)]);  (* 53 *)
  ("_GphrxMatrixEntry_c", [("entry", p_double); ("col", p_uint64); ("row", p_uint64)]);  (* 59 *)
  ("_GphrxCompressedGraph_c", [("graph_ptr", p_void_p)]);  (* 67 *)
  ("_GphrxCsrSquareMatrix_c", [("matrix_ptr", p_void_p)])  (* 73 *)
].

Definition python_functions : list (string * fn_decl py_type) := [
  ("free_gphrx_string_buffer", Fn (Some [p_void_p]) None);  (* 85 *)
  ("free_gphrx_bytes_buffer", Fn (Some [p_void_p; p_size_t]) None);  (* 88 *)
  ("free_gphrx_graph", Fn (Some [p_struct "_GphrxGraph_c"]) None);  (* 92 *)
  ("free_gphrx_edge_list",
     Fn (Some [p_POINTER (p_struct "_GphrxGraphEdge_c"); p_size_t]) None);  (* 95 *)
  ("free_gphrx_vertex_list",
     Fn (Some [p_POINTER (p_struct "_GphrxGraphVertex_c"); p_size_t]) None);  (* 98 *)
  ("gphrx_new_undirected", Fn None (Some (p_struct "_GphrxGraph_c")));  (* 101 *)
  ("gphrx_new_directed", Fn None (Some (p_struct "_GphrxGraph_c")));  (* 104 *)
  ("gphrx_from_bytes",
     Fn (Some [p_POINTER p_ubyte; p_size_t; p_POINTER p_uint8])
       (Some (p_struct "_GphrxGraph_c")));  (* 107 *)
  ("gphrx_duplicate",
     Fn (Some [p_struct "_GphrxGraph_c"]) (Some (p_struct "_GphrxGraph_c")));  (* 112 *)
  ("gphrx_matrix_string", Fn (Some [p_struct "_GphrxGraph_c"]) (Some p_void_p));  (* 115 *)
  ("gphrx_to_bytes",
     Fn (Some [p_struct "_GphrxGraph_c"; p_POINTER p_size_t])
       (Some (p_POINTER p_ubyte)));  (* 118 *)
  ("gphrx_is_undirected", Fn (Some [p_struct "_GphrxGraph_c"]) (Some p_int8));  (* 121 *)
  ("gphrx_vertex_count", Fn (Some [p_struct "_GphrxGraph_c"]) (Some p_uint64));  (* 124 *)
  ("gphrx_edge_count", Fn (Some [p_struct "_GphrxGraph_c"]) (Some p_uint64));  (* 127 *)
  ("gphrx_does_edge_exist",
     Fn (Some [p_struct "_GphrxGraph_c"; p_uint64; p_uint64]) (Some p_int8));  (* 130 *)
  ("gphrx_find_avg_pool_matrix",
     Fn (Some [p_struct "_GphrxGraph_c"; p_uint64])
       (Some (p_struct "_GphrxCsrSquareMatrix_c")));  (* 133 *)
  ("gphrx_approximate",
     Fn (Some [p_struct "_GphrxGraph_c"; p_uint64; p_double])
       (Some (p_struct "_GphrxGraph_c")));  (* 136 *)
  ("gphrx_compress",
     Fn (Some [p_struct "_GphrxGraph_c"; p_uint8])
       (Some (p_struct "_GphrxCompressedGraph_c")));  (* 139 *)
  ("gphrx_get_edge_list",
     Fn (Some [p_struct "_GphrxGraph_c"; p_POINTER p_size_t])
       (Some (p_POINTER (p_struct "_GphrxGraphEdge_c"))));  (* 142 *)
  ("gphrx_add_vertex",
     Fn (Some [p_struct "_GphrxGraph_c"; p_uint64; p_POINTER p_uint64; p_size_t]) None);  (* 145 *)
  ("gphrx_add_edge", Fn (Some [p_struct "_GphrxGraph_c"; p_uint64; p_uint64]) None);  (* 151 *)
  ("gphrx_delete_edge", Fn (Some [p_struct "_GphrxGraph_c"; p_uint64; p_uint64]) None);  (* 154 *)
  ("gphrx_get_vertex_in_edges_list",
     Fn (Some [p_struct "_GphrxGraph_c"; p_uint64; p_POINTER p_size_t])
       (Some (p_POINTER (p_struct "_GphrxGraphVertex_c"))));  (* 157 *)
  ("gphrx_get_vertex_out_edges_list",
     Fn (Some [p_struct "_GphrxGraph_c"; p_uint64; p_POINTER p_size_t])
       (Some (p_POINTER (p_struct "_GphrxGraphVertex_c"))));  (* 162 *)
  ("gphrx_get_vertex_in_degree",
     Fn (Some [p_struct "_GphrxGraph_c"; p_uint64]) (Some p_uint64));  (* 167 *)
  ("gphrx_get_vertex_out_degree",
     Fn (Some [p_struct "_GphrxGraph_c"; p_uint64]) (Some p_uint64));  (* 170 *)
  ("free_gphrx_compressed_graph", Fn (Some [p_struct "_GphrxCompressedGraph_c"]) None);  (* 174 *)
  ("gphrx_compressed_graph_duplicate",
     Fn (Some [p_struct "_GphrxCompressedGraph_c"])
       (Some (p_struct "_GphrxCompressedGraph_c")));  (* 177 *)
  ("gphrx_compressed_graph_compression_level",
     Fn (Some [p_struct "_GphrxCompressedGraph_c"]) (Some p_uint8));  (* 180 *)
  ("gphrx_compressed_graph_is_undirected",
     Fn (Some [p_struct "_GphrxCompressedGraph_c"]) (Some p_int8));  (* 183 *)
  ("gphrx_compressed_graph_vertex_count",
     Fn (Some [p_struct "_GphrxCompressedGraph_c"]) (Some p_uint64));  (* 186 *)
  ("gphrx_compressed_graph_edge_count",
     Fn (Some [p_struct "_GphrxCompressedGraph_c"]) (Some p_uint64));  (* 189 *)
  ("gphrx_compressed_graph_does_edge_exist",
     Fn (Some [p_struct "_GphrxCompressedGraph_c"; p_uint64; p_uint64]) (Some p_int8));  (* 192 *)
  ("gphrx_get_compressed_matrix_entry",
     Fn (Some [p_struct "_GphrxCompressedGraph_c"; p_uint64; p_uint64]) (Some p_uint64));  (* 197 *)
  ("gphrx_compressed_graph_matrix_string",
     Fn (Some [p_struct "_GphrxCompressedGraph_c"]) (Some p_void_p));  (* 202 *)
  ("gphrx_compressed_graph_to_bytes",
     Fn (Some [p_struct "_GphrxCompressedGraph_c"; p_POINTER p_size_t])
       (Some (p_POINTER p_ubyte)));  (* 205 *)
  ("gphrx_compressed_graph_from_bytes",
     Fn (Some [p_POINTER p_ubyte; p_size_t; p_POINTER p_uint8])
       (Some (p_struct "_GphrxCompressedGraph_c")));  (* 209 *)
  ("gphrx_decompress",
     Fn (Some [p_struct "_GphrxCompressedGraph_c"]) (Some (p_struct "_GphrxGraph_c")));  (* 214 *)
  ("free_gphrx_matrix", Fn (Some [p_struct "_GphrxCsrSquareMatrix_c"]) None);  (* 218 *)
  ("free_gphrx_matrix_entry_list",
     Fn (Some [p_POINTER (p_struct "_GphrxMatrixEntry_c"); p_size_t]) None);  (* 221 *)
  ("gphrx_matrix_duplicate",
     Fn (Some [p_struct "_GphrxCsrSquareMatrix_c"])
       (Some (p_struct "_GphrxCsrSquareMatrix_c")));  (* 225 *)
  ("gphrx_matrix_dimension",
     Fn (Some [p_struct "_GphrxCsrSquareMatrix_c"]) (Some p_uint64));  (* 228 *)
  ("gphrx_matrix_entry_count",
     Fn (Some [p_struct "_GphrxCsrSquareMatrix_c"]) (Some p_uint64));  (* 231 *)
  ("gphrx_matrix_get_entry",
     Fn (Some [p_struct "_GphrxCsrSquareMatrix_c"; p_uint64; p_uint64]) (Some p_double));  (* 234 *)
  ("gphrx_matrix_to_string",
     Fn (Some [p_struct "_GphrxCsrSquareMatrix_c"]) (Some p_void_p));  (* 239 *)
  ("gphrx_matrix_to_string_with_precision",
     Fn (Some [p_struct "_GphrxCsrSquareMatrix_c"; p_size_t]) (Some p_void_p));  (* 242 *)
  ("gphrx_matrix_get_entry_list",
     Fn (Some [p_struct "_GphrxCsrSquareMatrix_c"; p_POINTER p_size_t])
       (Some (p_POINTER (p_struct "_GphrxMatrixEntry_c"))))  (* 246 *)
].

(** The error constants: graphrox-c/src/lib.rs:12, gphrx.h:6, __init__.py:79-81.  The
    conversion functions write the first; the binding compares with the last (lines 291,
    606). *)
Definition rust_constants : list (string * N) := [("GPHRX_ERROR_INVALID_FORMAT", 1%N)].
Definition header_constants : list (string * N) := [("GPHRX_ERROR_INVALID_FORMAT", 1%N)].
Definition python_constants : list (string * N) :=
  [("GPHRX_NO_ERROR", 0%N); ("GPHRX_ERROR_INVALID_FORMAT", 1%N)].
