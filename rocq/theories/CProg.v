(** What a C program has to observe: the contract of every function of gphrx.h, and how the
    objects of the library follow from what the program has called. *)
From Verif Require Import Base F64 Numeric Adj Sq Standard Compressed Spec Api CApi CSpec.

(** The kinds of handles. *)
Inductive ckind := KGraph | KCompressed | KMatrix | KString.
Definition of_kind (k : ckind) (x : cobj) : Prop :=
  match k, x with
  | KGraph, OGraph _ | KCompressed, OCompressed _ | KMatrix, OMatrix _ | KString, OString _ => True
  | _, _ => False
  end.

(** The kind of handle a function takes first, graphrox-c/gphrx.h; null is allowed. *)
Definition takes (c : ccall) : option (ckind * addr) :=
  match c with
  | CFreeString a => Some (KString, a)
  | CFreeGraph a | CDuplicate a | CMatrixString a | CToBytes a _ | CIsUndirected a
  | CVertexCount a | CEdgeCount a | CDoesEdgeExist a _ _ | CFindAvgPool a _ | CApproximate a _ _
  | CCompress a _ | CEdgeList a _ | CAddVertex a _ _ _ | CAddEdge a _ _ | CDeleteEdge a _ _
  | CInEdges a _ _ | COutEdges a _ _ | CInDegree a _ | COutDegree a _ => Some (KGraph, a)
  | CFreeCompressed a | CCompressedDuplicate a | CCompressedLevel a | CCompressedIsUndirected a
  | CCompressedVertexCount a | CCompressedEdgeCount a | CCompressedDoesEdgeExist a _ _
  | CCompressedEntry a _ _ | CCompressedMatrixString a | CCompressedToBytes a _ | CDecompress a =>
      Some (KCompressed, a)
  | CFreeMatrix a | CMatrixDuplicate a | CMatrixDimension a | CMatrixEntryCount a
  | CMatrixGetEntry a _ _ | CMatrixToString a | CMatrixToStringPrecision a _ | CMatrixEntries a _ =>
      Some (KMatrix, a)
  | CNew _ | CFromBytes _ _ _ | CCompressedFromBytes _ _ _
  | CFreeBytes _ _ | CFreeEdges _ _ | CFreeVertices _ _ | CFreeEntries _ _ => None
  end.

(** The kind of handle a function returns (null aside); lists and byte buffers are told apart
    by their length. *)
Definition returns (c : ccall) : option ckind :=
  match c with
  | CNew _ | CFromBytes _ _ _ | CDuplicate _ | CApproximate _ _ _ | CDecompress _ => Some KGraph
  | CCompress _ _ | CCompressedDuplicate _ | CCompressedFromBytes _ _ _ => Some KCompressed
  | CFindAvgPool _ _ | CMatrixDuplicate _ => Some KMatrix
  | CMatrixString _ | CCompressedMatrixString _ | CMatrixToString _ | CMatrixToStringPrecision _ _ =>
      Some KString
  | _ => None
  end.

(** The array [a] of [n] elements is the whole of a list the library handed out. *)
Definition whole_list (h : cheap) (a n : N) (len_of : cobj -> option nat) : Prop :=
  a = null \/ n = 0 \/ exists x, h !! a = Some x /\ len_of x = Some (N.to_nat n).
Definition bytes_len (x : cobj) := match x with OBytes l => Some (length l) | _ => None end.
Definition edges_len (x : cobj) := match x with OEdges l => Some (length l) | _ => None end.
Definition vertices_len (x : cobj) := match x with OVertices l => Some (length l) | _ => None end.
Definition entries_len (x : cobj) := match x with OEntries l => Some (length l) | _ => None end.

(** At least [n] readable elements at [a]. *)
Definition readable {A} (arrays : cobj -> option (list A)) (h : cheap) (a n : N) : Prop :=
  a = null \/ n = 0 \/ exists x l, h !! a = Some x /\ arrays x = Some l /\ n <= N.of_nat (length l).
Definition byte_array (x : cobj) : option (list N) :=
  match x with OInputBytes l | OBytes l => Some l | _ => None end.
Definition id_array (x : cobj) : option (list N) :=
  match x with OInputIds l | OVertices l => Some l | _ => None end.

(** The contract of a call: handles are null or alive and of the right kind, output parameters
    are null or point to a variable of the program, arrays that are read are long enough, lists
    are freed with their length. *)
Definition contract (h : cheap) (c : ccall) : Prop :=
  (forall k a, takes c = Some (k, a) -> a = null \/ exists x, h !! a = Some x /\ of_kind k x) /\
  size_param h (size_cell c) /\ error_param h (error_cell c) /\
  match c with
  | CFreeBytes a n => whole_list h a n bytes_len
  | CFreeEdges a n => whole_list h a n edges_len
  | CFreeVertices a n => whole_list h a n vertices_len
  | CFreeEntries a n => whole_list h a n entries_len
  | CFromBytes a n _ | CCompressedFromBytes a n _ => readable byte_array h a n
  | CAddVertex g _ a n => g <> null -> readable id_array h a n
  | _ => True
  end.

(** How to free what a call returned that hands out a list or bytes of [n] elements. *)
Definition free_list (c : ccall) (a n : N) : option ccall :=
  match c with
  | CToBytes _ _ | CCompressedToBytes _ _ => Some (CFreeBytes a n)
  | CEdgeList _ _ => Some (CFreeEdges a n)
  | CInEdges _ _ _ | COutEdges _ _ _ => Some (CFreeVertices a n)
  | CMatrixEntries _ _ => Some (CFreeEntries a n)
  | _ => None
  end.
