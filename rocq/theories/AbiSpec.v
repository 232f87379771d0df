(** Vocabulary of the statements about the declarations in Abi.v: what a type means for the
    calling convention, and the types of returned values. *)
From Coq Require Import Ascii String.
From Verif Require Import Base F64 Numeric Sq Standard Compressed CApi CSpec Abi.
Local Open Scope string_scope.
Local Open Scope N_scope.

(** ** Types as the calling convention sees them *)

(** [AWord] is an unsigned integer as wide as a pointer. *)
Inductive abi : Type :=
| AU8 | AI8 | AU64 | AWord | ADouble | AChar | AVoid
| APtr (t : abi)
| AStruct (fields : list (string * abi)).

Fixpoint assoc {A} (k : string) (l : list (string * A)) : option A :=
  match l with
  | [] => None
  | (k', a) :: l => if String.eqb k k' then Some a else assoc k l
  end.

(** Fields are never structures themselves. *)
Fixpoint rust_plain (t : rust_type) : abi :=
  match t with
  | r_u8 => AU8 | r_i8 => AI8 | r_u64 => AU64 | r_usize => AWord | r_f64 => ADouble
  | r_c_char => AChar | r_c_void => AVoid
  | r_mut t | r_const t => APtr (rust_plain t)
  | r_struct _ => AVoid
  end.
Fixpoint rust_abi (t : rust_type) : abi :=
  match t with
  | r_struct s => match assoc s rust_structs with
                  | Some fs => AStruct ((fun '(f, t) => (f, rust_plain t)) <$> fs)
                  | None => AVoid
                  end
  | r_mut t | r_const t => APtr (rust_abi t)
  | t => rust_plain t
  end.

Fixpoint header_plain (t : h_type) : abi :=
  match t with
  | h_uint8_t => AU8 | h_int8_t => AI8 | h_uint64_t => AU64 | h_size_t => AWord
  | h_double => ADouble | h_char => AChar | h_void => AVoid
  | h_const t => header_plain t
  | h_ptr t => APtr (header_plain t)
  | h_struct _ => AVoid
  end.
Fixpoint header_abi (t : h_type) : abi :=
  match t with
  | h_struct s => match assoc s header_structs with
                  | Some fs => AStruct ((fun '(f, t) => (f, header_plain t)) <$> fs)
                  | None => AVoid
                  end
  | h_const t => header_abi t
  | h_ptr t => APtr (header_abi t)
  | t => header_plain t
  end.

Fixpoint python_plain (t : py_type) : abi :=
  match t with
  | p_uint8 | p_ubyte => AU8 | p_int8 => AI8 | p_uint64 => AU64 | p_size_t => AWord
  | p_double => ADouble | p_void_p => APtr AVoid
  | p_POINTER t => APtr (python_plain t)
  | p_struct _ => AVoid
  end.
Fixpoint python_abi (t : py_type) : abi :=
  match t with
  | p_struct s => match assoc s python_structs with
                  | Some fs => AStruct ((fun '(f, t) => (f, python_plain t)) <$> fs)
                  | None => AVoid
                  end
  | p_POINTER t => APtr (python_abi t)
  | t => python_plain t
  end.

(** The same type, except that a pointer to anything can be declared as a pointer to void. *)
Inductive same_abi : abi -> abi -> Prop :=
| same_refl a : a <> AVoid -> same_abi a a
| same_ptr a b : same_abi a b -> same_abi (APtr a) (APtr b)
| same_void_l a : same_abi (APtr AVoid) (APtr a)
| same_void_r a : same_abi (APtr a) (APtr AVoid)
| same_struct fs gs : same_fields fs gs -> same_abi (AStruct fs) (AStruct gs)
with same_fields : list (string * abi) -> list (string * abi) -> Prop :=
| same_nil : same_fields [] []
| same_cons f a b fs gs : same_abi a b -> same_fields fs gs ->
    same_fields ((f, a) :: fs) ((f, b) :: gs).

Inductive same_result {S T} (f : S -> abi) (g : T -> abi) : option S -> option T -> Prop :=
| same_none : same_result f g None None
| same_some s t : same_abi (f s) (g t) -> same_result f g (Some s) (Some t).

(** [d] declares the function that [r] defines.  Parameters left open fit a function
    without parameters. *)
Definition declares {T} (g : T -> abi) (d : fn_decl T) (r : fn_decl rust_type) : Prop :=
  (exists rs, fn_params r = Some rs /\
     match fn_params d with
     | Some ts => Forall2 (fun t s => same_abi (rust_abi s) (g t)) ts rs
     | None => rs = []
     end) /\
  same_result rust_abi g (fn_result r) (fn_result d).

(** ** Memory layout of structures (C's rule, which repr(C) and ctypes follow): each field
    at the next multiple of its alignment; [w] is the size of a pointer. *)
Definition size_of (w : N) (a : abi) : N :=
  match a with
  | AU8 | AI8 | AChar => 1
  | AU64 | ADouble => 8
  | AWord | APtr _ => w
  | AVoid | AStruct _ => 0
  end.
Definition align_up (n k : N) : N := (n + (k - 1)) / k * k.
Fixpoint offsets (w pos : N) (fs : list (string * abi)) : list (string * N * N) :=
  match fs with
  | [] => []
  | (f, a) :: fs => let o := align_up pos (size_of w a) in
                    (f, o, size_of w a) :: offsets w (o + size_of w a) fs
  end.
Definition layout (w : N) (a : abi) : list (string * N * N) :=
  match a with AStruct fs => offsets w 0 fs | _ => [] end.

(** ** The calls of CApi.v *)

(** The function a call runs. *)
Definition name_of (c : ccall) : string :=
  match c with
  | CFreeString _ => "free_gphrx_string_buffer"
  | CFreeBytes _ _ => "free_gphrx_bytes_buffer"
  | CFreeGraph _ => "free_gphrx_graph"
  | CFreeEdges _ _ => "free_gphrx_edge_list"
  | CFreeVertices _ _ => "free_gphrx_vertex_list"
  | CNew true => "gphrx_new_undirected"
  | CNew false => "gphrx_new_directed"
  | CFromBytes _ _ _ => "gphrx_from_bytes"
  | CDuplicate _ => "gphrx_duplicate"
  | CMatrixString _ => "gphrx_matrix_string"
  | CToBytes _ _ => "gphrx_to_bytes"
  | CIsUndirected _ => "gphrx_is_undirected"
  | CVertexCount _ => "gphrx_vertex_count"
  | CEdgeCount _ => "gphrx_edge_count"
  | CDoesEdgeExist _ _ _ => "gphrx_does_edge_exist"
  | CFindAvgPool _ _ => "gphrx_find_avg_pool_matrix"
  | CApproximate _ _ _ => "gphrx_approximate"
  | CCompress _ _ => "gphrx_compress"
  | CEdgeList _ _ => "gphrx_get_edge_list"
  | CAddVertex _ _ _ _ => "gphrx_add_vertex"
  | CAddEdge _ _ _ => "gphrx_add_edge"
  | CDeleteEdge _ _ _ => "gphrx_delete_edge"
  | CInEdges _ _ _ => "gphrx_get_vertex_in_edges_list"
  | COutEdges _ _ _ => "gphrx_get_vertex_out_edges_list"
  | CInDegree _ _ => "gphrx_get_vertex_in_degree"
  | COutDegree _ _ => "gphrx_get_vertex_out_degree"
  | CFreeCompressed _ => "free_gphrx_compressed_graph"
  | CCompressedDuplicate _ => "gphrx_compressed_graph_duplicate"
  | CCompressedLevel _ => "gphrx_compressed_graph_compression_level"
  | CCompressedIsUndirected _ => "gphrx_compressed_graph_is_undirected"
  | CCompressedVertexCount _ => "gphrx_compressed_graph_vertex_count"
  | CCompressedEdgeCount _ => "gphrx_compressed_graph_edge_count"
  | CCompressedDoesEdgeExist _ _ _ => "gphrx_compressed_graph_does_edge_exist"
  | CCompressedEntry _ _ _ => "gphrx_get_compressed_matrix_entry"
  | CCompressedMatrixString _ => "gphrx_compressed_graph_matrix_string"
  | CCompressedToBytes _ _ => "gphrx_compressed_graph_to_bytes"
  | CCompressedFromBytes _ _ _ => "gphrx_compressed_graph_from_bytes"
  | CDecompress _ => "gphrx_decompress"
  | CFreeMatrix _ => "free_gphrx_matrix"
  | CMatrixDuplicate _ => "gphrx_matrix_duplicate"
  | CFreeEntries _ _ => "free_gphrx_matrix_entry_list"
  | CMatrixDimension _ => "gphrx_matrix_dimension"
  | CMatrixEntryCount _ => "gphrx_matrix_entry_count"
  | CMatrixGetEntry _ _ _ => "gphrx_matrix_get_entry"
  | CMatrixToString _ => "gphrx_matrix_to_string"
  | CMatrixToStringPrecision _ _ => "gphrx_matrix_to_string_with_precision"
  | CMatrixEntries _ _ => "gphrx_matrix_get_entry_list"
  end.

(** A pointer that is null, or the aligned address standing for an empty array, or points
    to an object accepted by [ok]. *)
Definition points_to (h : cheap) (empty : addr) (ok : cobj -> bool) (v : cval) : Prop :=
  exists a, v = VPtr a /\ (a = null \/ a = empty \/ exists x, h !! a = Some x /\ ok x = true).

(** The value [v] returned with the heap [h] is one of the declared result type.  Handles
    are modelled by the pointer inside the structure. *)
Definition returns_type (h : cheap) (t : option rust_type) (v : cval) : Prop :=
  match t with
  | None => v = VUnit
  | Some r_u8 => exists n, v = VNum n /\ n < 256
  | Some r_i8 => exists n, v = VNum n /\ n < 128
  | Some r_u64 => exists n, v = VNum n /\ n < two64
  | Some r_f64 => exists x, v = VDouble x /\ is_f64 x = true
  | Some (r_mut r_c_char) =>
      points_to h null (fun x => match x with OString _ => true | _ => false end) v
  | Some (r_mut r_u8) =>
      points_to h 1 (fun x => match x with OBytes _ => true | _ => false end) v
  | Some (r_mut (r_struct s)) =>
      points_to h 8 (fun x => match x with
        | OEdges _ => String.eqb s "GphrxGraphEdge"
        | OVertices _ => String.eqb s "GphrxGraphVertex"
        | OEntries _ => String.eqb s "GphrxMatrixEntry"
        | _ => false
        end) v
  | Some (r_struct s) =>
      points_to h null (fun x => match x with
        | OGraph _ => String.eqb s "GphrxGraph"
        | OCompressed _ => String.eqb s "GphrxCompressedGraph"
        | OMatrix _ => String.eqb s "GphrxCsrSquareMatrix"
        | _ => false
        end) v
  | Some _ => False
  end.

(** What ctypes makes of a returned integer of the declared type: the bits of the register,
    read as a value of that type. *)
Definition ctypes_int (t : option py_type) (n : N) : option Z :=
  match t with
  | Some p_uint8 => Some (Z.of_N (n mod 256))
  | Some p_int8 => Some (if n mod 256 <? 128 then Z.of_N (n mod 256)
                         else (Z.of_N (n mod 256) - 256)%Z)
  | Some p_uint64 => Some (Z.of_N (n mod two64))
  | _ => None
  end.
