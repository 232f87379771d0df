(** Vocabulary of the statements about the C interface: tables describing the calls, C
    programs, and the heaps they can produce. *)
From Coq Require Import Ascii.
From Verif Require Import Base F64 Numeric Adj Sq Standard Compressed Spec Api CApi.

(** The handle (or buffer) a call acts through; calls that make a handle from nothing or
    from bytes have none. *)
Definition handle_of (c : ccall) : option addr :=
  match c with
  | CNew _ | CFromBytes _ _ _ | CCompressedFromBytes _ _ _ => None
  | CFreeString a | CFreeBytes a _ | CFreeGraph a | CFreeEdges a _ | CFreeVertices a _
  | CDuplicate a | CMatrixString a | CToBytes a _ | CIsUndirected a | CVertexCount a
  | CEdgeCount a | CDoesEdgeExist a _ _ | CFindAvgPool a _ | CApproximate a _ _
  | CCompress a _ | CEdgeList a _ | CAddVertex a _ _ _ | CAddEdge a _ _ | CDeleteEdge a _ _
  | CInEdges a _ _ | COutEdges a _ _ | CInDegree a _ | COutDegree a _ | CFreeCompressed a
  | CCompressedDuplicate a | CCompressedLevel a | CCompressedIsUndirected a
  | CCompressedVertexCount a | CCompressedEdgeCount a | CCompressedDoesEdgeExist a _ _
  | CCompressedEntry a _ _ | CCompressedMatrixString a | CCompressedToBytes a _
  | CDecompress a | CFreeMatrix a | CMatrixDuplicate a | CFreeEntries a _
  | CMatrixDimension a | CMatrixEntryCount a | CMatrixGetEntry a _ _ | CMatrixToString a
  | CMatrixToStringPrecision a _ | CMatrixEntries a _ => Some a
  end.

(** The neutral value of a call's return type. *)
Definition neutral (c : ccall) : cval :=
  match c with
  | CFreeString _ | CFreeBytes _ _ | CFreeGraph _ | CFreeEdges _ _ | CFreeVertices _ _
  | CAddVertex _ _ _ _ | CAddEdge _ _ _ | CDeleteEdge _ _ _ | CFreeCompressed _
  | CFreeMatrix _ | CFreeEntries _ _ => VUnit
  | CIsUndirected _ | CVertexCount _ | CEdgeCount _ | CDoesEdgeExist _ _ _ | CInDegree _ _
  | COutDegree _ _ | CCompressedLevel _ | CCompressedIsUndirected _
  | CCompressedVertexCount _ | CCompressedEdgeCount _ | CCompressedDoesEdgeExist _ _ _
  | CCompressedEntry _ _ _ | CMatrixDimension _ | CMatrixEntryCount _ => VNum 0
  | CMatrixGetEntry _ _ _ => VDouble f64_zero
  | CNew _ | CFromBytes _ _ _ | CDuplicate _ | CMatrixString _ | CToBytes _ _
  | CFindAvgPool _ _ | CApproximate _ _ _ | CCompress _ _ | CEdgeList _ _ | CInEdges _ _ _
  | COutEdges _ _ _ | CCompressedDuplicate _ | CCompressedMatrixString _
  | CCompressedToBytes _ _ | CCompressedFromBytes _ _ _ | CDecompress _ | CMatrixDuplicate _
  | CMatrixToString _ | CMatrixToStringPrecision _ _ | CMatrixEntries _ _ => VPtr null
  end.

(** The output parameter for a length (null if the call has none). *)
Definition size_cell (c : ccall) : addr :=
  match c with
  | CToBytes _ n | CEdgeList _ n | CInEdges _ _ n | COutEdges _ _ n | CCompressedToBytes _ n
  | CMatrixEntries _ n => n
  | _ => null
  end.

(** The output parameter for the error number. *)
Definition error_cell (c : ccall) : addr :=
  match c with
  | CFromBytes _ _ e | CCompressedFromBytes _ _ e => e
  | _ => null
  end.

(** The object a call frees. *)
Definition frees (c : ccall) : addr :=
  match c with
  | CFreeString a | CFreeBytes a _ | CFreeGraph a | CFreeEdges a _ | CFreeVertices a _
  | CFreeCompressed a | CFreeMatrix a | CFreeEntries a _ => a
  | _ => null
  end.

(** The graph a call changes. *)
Definition mutates (c : ccall) : addr :=
  match c with
  | CAddVertex a _ _ _ | CAddEdge a _ _ | CDeleteEdge a _ _ => a
  | _ => null
  end.

(** The object a call makes: the one at the returned address, if that was free before. *)
Definition new_object (h h' : cheap) (v : cval) : option cobj :=
  match v with
  | VPtr a => match h !! a with None => h' !! a | Some _ => None end
  | _ => None
  end.

(** Memory of the C program itself. *)
Definition is_client (x : cobj) : bool :=
  match x with
  | OSizeCell _ | OErrorCell _ | OInputBytes _ | OInputIds _ => true
  | _ => false
  end.

(** C programs: calls and changes to their own memory. *)
Inductive cevent : Type :=
| ECall (e : cenv) (c : ccall)
| EClientNew (a : addr) (x : cobj)
| EClientWrite (a : addr) (x : cobj)
| EClientFree (a : addr).

Definition cstep (ev : cevent) (h : cheap) : cresult cval :=
  match ev with
  | ECall e c => cexec e c h
  | EClientNew a x =>
      if is_client x && negb (a =? null) && negb (bool_decide (is_Some (h !! a)))
      then Done VUnit (<[a := x]> h) else UB
  | EClientWrite a x =>
      match h !! a with
      | Some y => if is_client x && is_client y then Done VUnit (<[a := x]> h) else UB
      | None => UB
      end
  | EClientFree a =>
      match h !! a with
      | Some y => if is_client y then Done VUnit (delete a h) else UB
      | None => UB
      end
  end.

Fixpoint crun (evs : list cevent) (h : cheap) : cresult (list cval) :=
  match evs with
  | [] => Done [] h
  | ev :: evs' =>
      match cstep ev h with
      | Done v h' => match crun evs' h' with
                     | Done vs h'' => Done (v :: vs) h''
                     | Abort => Abort
                     | UB => UB
                     end
      | Abort => Abort
      | UB => UB
      end
  end.

(** The addresses an event may change. *)
Definition touches (ev : cevent) : list addr :=
  match ev with
  | ECall _ c => [size_cell c; error_cell c; frees c; mutates c]
  | EClientNew a _ | EClientWrite a _ | EClientFree a => [a]
  end.

(** What the C types and the machine guarantee of the arguments of a call: integers are in
    range, doubles are doubles, what is read from input arrays are bytes resp. 64-bit
    integers. *)
Definition args_ok (p : platform) (h : cheap) (c : ccall) : Prop :=
  match c with
  | CFromBytes a n _ | CCompressedFromBytes a n _ =>
      n <= usize_max p /\
      forall l, h !! a = Some (OInputBytes l) \/ h !! a = Some (OBytes l) -> is_slice p l
  | CFindAvgPool _ b => is_u64 b
  | CApproximate _ b t => is_u64 b /\ is_f64 t = true
  | CCompress _ l => is_byte l
  | CAddVertex _ v a n => is_u64 v /\ n <= usize_max p /\
      forall l, h !! a = Some (OInputIds l) \/ h !! a = Some (OVertices l) -> is_u64_slice l
  | CAddEdge _ u v | CDeleteEdge _ u v => is_u64 u /\ is_u64 v
  | _ => True
  end.

(** Heaps that C programs without undefined behaviour can produce on platform [p]. *)
Inductive c_reach (p : platform) : cheap -> Prop :=
| ch_start : c_reach p ∅
| ch_call e c v h h' : c_reach p h -> ce_platform e = p -> wf_alloc_fn (ce_alloc e) ->
    args_ok p h c -> cexec e c h = Done v h' -> c_reach p h'
| ch_client ev v h h' : c_reach p h -> (forall e c, ev <> ECall e c) ->
    cstep ev h = Done v h' -> c_reach p h'.

(** ** Results of calls *)

(** The heap after writing an output parameter. *)
Definition wrote_size (cell : addr) (n : N) (h : cheap) : cheap :=
  if cell =? null then h else <[cell := OSizeCell n]> h.
Definition wrote_error (cell : addr) (n : N) (h : cheap) : cheap :=
  if cell =? null then h else <[cell := OErrorCell n]> h.

(** Output parameters are null or point to a cell of the C program. *)
Definition size_param (h : cheap) (cell : addr) : Prop :=
  cell = null \/ exists n, h !! cell = Some (OSizeCell n).
Definition error_param (h : cheap) (cell : addr) : Prop :=
  cell = null \/ exists n, h !! cell = Some (OErrorCell n).

(** The call returned and handed out object [x] at a new address; [h] is the heap it left
    without that object. *)
Definition hands_out (h : cheap) (x : cobj) (r : cresult cval) : Prop :=
  exists a, r = Done (VPtr a) (<[a := x]> h) /\ a <> null /\ h !! a = None.

(** The same for arrays: an empty one takes no memory, but its address is not null. *)
Definition hands_out_list {A} (h : cheap) (obj : list A -> cobj) (l : list A)
    (r : cresult cval) : Prop :=
  match l with
  | [] => exists a, r = Done (VPtr a) h /\ a <> null
  | _ => hands_out h (obj l) r
  end.

(** The call handed out what the Rust function returned, or aborted because it panicked. *)
Definition makes {A} (h : cheap) (obj : A -> cobj) (x : outcome A) (r : cresult cval) : Prop :=
  match x with Ret y => hands_out h (obj y) r | _ => r = Abort end.

(** The call handed out what the Rust function returned, or null if that was an error. *)
Definition makes_or_null {A} (h : cheap) (obj : A -> cobj) (x : result A) (r : cresult cval) : Prop :=
  match x with Ok y => hands_out h (obj y) r | Err _ => r = Done (VPtr null) h end.

(** [buffer] and [size] describe the bytes [bytes] to a function that reads them. *)
Definition bytes_param (h : cheap) (buffer size : N) (bytes : list N) : Prop :=
  size = 0 /\ bytes = [] \/
  size <> 0 /\ buffer <> null /\ exists l, (h !! buffer = Some (OInputBytes l) \/ h !! buffer = Some (OBytes l)) /\
    size <= N.of_nat (length l) /\ bytes = take (N.to_nat size) l.

(** The same for texts, which C strings can hold if they contain no NUL. *)
Definition makes_text (h : cheap) (x : result text) (r : cresult cval) : Prop :=
  match x with
  | Ok s => if existsb (fun c => N_of_ascii c =? 0) s then r = Done (VPtr null) h
            else hands_out h (OString s) r
  | Err _ => r = Done (VPtr null) h
  end.

(** The call that frees an object of the library. *)
Definition free_call (a : addr) (x : cobj) : option ccall :=
  match x with
  | OGraph _ => Some (CFreeGraph a)
  | OCompressed _ => Some (CFreeCompressed a)
  | OMatrix _ => Some (CFreeMatrix a)
  | OBytes l => Some (CFreeBytes a (N.of_nat (length l)))
  | OString _ => Some (CFreeString a)
  | OEdges l => Some (CFreeEdges a (N.of_nat (length l)))
  | OVertices l => Some (CFreeVertices a (N.of_nat (length l)))
  | OEntries l => Some (CFreeEntries a (N.of_nat (length l)))
  | _ => None
  end.
