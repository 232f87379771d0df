(** Model of graphrox-py/graphrox/__init__.py called with arguments of any type: what Python
    and ctypes do with the arguments before the methods of Py.v run.

    Simplifications: an argument is one of the values below; tuples are lists, subclasses and
    objects with their own conversions ([__index__], [__len__], [_as_parameter_]) are not
    modelled.  [self] is always an object of the class. *)
From Coq Require Import ZArith Ascii String.
From Verif Require Import Base F64 Numeric Sq Standard Compressed CApi Py.

(** [AOther]: an object without length, items, order or conversion to a number. *)
Inductive pyarg : Type :=
| ANone
| ABool (b : bool)
| AInt (z : Z)
| AFloat (x : spec_float)
| AStr (s : text)
| ABytes (l : list N)
| AList (l : list pyarg)
| AOther.

(** ** Python *)

(** [bool(x)]; NaN is true. *)
Definition truthy (x : pyarg) : bool :=
  match x with
  | ANone => false
  | ABool b => b
  | AInt z => negb (z =? 0)%Z
  | AFloat (S754_zero _) => false
  | AStr [] | ABytes [] | AList [] => false
  | _ => true
  end.

(** The integers among the arguments: [bool] is a subclass of [int]. *)
Definition arg_int (x : pyarg) : option Z :=
  match x with
  | ABool b => Some (if b then 1%Z else 0%Z)
  | AInt z => Some z
  | _ => None
  end.

(** [len(x)]; None stands for TypeError. *)
Definition arg_len (x : pyarg) : option nat :=
  match x with
  | AStr s => Some (length s)
  | ABytes l => Some (length l)
  | AList l => Some (length l)
  | _ => None
  end.
(** The arguments of a call [f( *x)]. *)
Definition arg_items (x : pyarg) : option (list pyarg) :=
  match x with
  | AStr s => Some ((fun c => AStr [c]) <$> s)
  | ABytes l => Some ((fun n => AInt (Z.of_N n)) <$> l)
  | AList l => Some l
  | _ => None
  end.

(** Comparing a double with an integer is exact; None: not comparable (NaN). *)
Definition float_vs_int (x : spec_float) (z : Z) : option comparison :=
  match x with
  | S754_nan => None
  | S754_infinity s => Some (if s then Lt else Gt)
  | S754_zero _ => Some (0 ?= z)%Z
  | S754_finite s m e =>
      let m := if s then Zneg m else Zpos m in
      Some (match e with
            | Zneg k => m ?= z * 2 ^ Zpos k
            | _ => m * 2 ^ e ?= z
            end)%Z
  end.
(** [x < z], [x > z] with an integer on the right; None stands for TypeError. *)
Definition arg_vs_int (x : pyarg) (z : Z) : option (option comparison) :=
  match x with
  | AFloat f => Some (float_vs_int f z)
  | _ => (fun i => Some (i ?= z)%Z) <$> arg_int x
  end.
Definition arg_lt (x : pyarg) (z : Z) : option bool :=
  (fun c => match c with Some Lt => true | _ => false end) <$> arg_vs_int x z.
Definition arg_gt (x : pyarg) (z : Z) : option bool :=
  (fun c => match c with Some Gt => true | _ => false end) <$> arg_vs_int x z.

(** [float(z)] for an integer; None stands for OverflowError. *)
Definition int_to_double (z : Z) : option spec_float :=
  match binary_normalize 53 1024 z 0 false with
  | S754_infinity _ => None
  | x => Some x
  end.

(** [bytearray(x)] of a value with a length: a text needs an encoding (TypeError), the items
    of a list must be integers (TypeError) from 0 to 255 (ValueError). *)
Fixpoint byte_items (l : list pyarg) : sum pyexc (list N) :=
  match l with
  | [] => inr []
  | x :: l =>
      match arg_int x with
      | None => inl TypeError
      | Some z =>
          if ((z <? 0) || (255 <? z))%Z then inl ValueError
          else match byte_items l with
               | inl exc => inl exc
               | inr bytes => inr (Z.to_N z :: bytes)
               end
      end
  end.
Definition arg_bytes (x : pyarg) : sum pyexc (list N) :=
  match x with
  | ABytes l => inr l
  | AList l => byte_items l
  | _ => inl TypeError
  end.

(** ** ctypes *)

(** An argument declared as c_uint64, c_uint8 or c_size_t takes integers only; whatever goes
    wrong is reported as ArgumentError. *)
Definition want_int (x : pyarg) : pm Z :=
  match arg_int x with Some z => pret z | None => praise ArgumentError end.
(** An argument declared as c_double takes floats and integers. *)
Definition arg_double (x : pyarg) : option spec_float :=
  match x with
  | AFloat f => Some f
  | _ => z ← arg_int x; int_to_double z
  end.
Definition want_double (x : pyarg) : pm spec_float :=
  match arg_double x with Some f => pret f | None => praise ArgumentError end.
(** [EdgesArray( *x)]: TypeError for an item that is not an integer. *)
Definition want_ids (x : pyarg) : pm (list Z) :=
  match (l ← arg_items x; mapM arg_int l) with
  | Some l => pret l
  | None => praise TypeError
  end.

(** ** Methods *)

Inductive pyargcall : Type :=
(** 253-267: Graph(is_undirected) and Graph(_c_graph=x) with x not a _GphrxGraph_c *)
| XNew (is_undirected : option pyarg)
| XNewFrom (is_undirected : option pyarg) (c_graph : pyarg)
| XFromBytes (bytes : pyarg)
| XDoesEdgeExist (self : addr) (from to : pyarg)
| XAddVertex (self : addr) (vertex : pyarg) (to_vertexs : option pyarg)
| XAddEdge (self : addr) (from to : pyarg)
| XDeleteEdge (self : addr) (from to : pyarg)
| XFindAvgPool (self : addr) (block_dimension : pyarg)
| XApproximate (self : addr) (block_dimension threshold : pyarg)
| XCompress (self : addr) (level : pyarg)
| XInEdges (self : addr) (vertex : pyarg)
| XOutEdges (self : addr) (vertex : pyarg)
| XInDegree (self : addr) (vertex : pyarg)
| XOutDegree (self : addr) (vertex : pyarg)
(** 577-582, 678-688: the constructors with something else than the C structure *)
| XCompressedNew (c_compressed_graph : pyarg)
| XMatrixNew (c_csr_matrix : pyarg)
| XCFromBytes (bytes : pyarg)
| XCDoesEdgeExist (self : addr) (from to : pyarg)
| XCEntry (self : addr) (col row : pyarg)
| XMGetEntry (self : addr) (col row : pyarg)
| XMToString (self : addr) (decimal_digits : option pyarg).

(** Two arguments declared as integers. *)
Definition with_ints (x y : pyarg) (f : Z -> Z -> pm pyval) : pm pyval :=
  pbind (want_int x) (fun i => pbind (want_int y) (fun j => f i j)).

(** 282-296, 597-611: [len] before [bytearray]. *)
Definition with_bytes (x : pyarg) (f : list N -> pm pyval) : pm pyval :=
  match arg_len x with
  | None => praise TypeError
  | Some _ => match arg_bytes x with inl exc => praise exc | inr l => f l end
  end.

Definition pyexec_args (e : cenv) (c : pyargcall) : pm pyval :=
  match c with
  | XNew u => pyexec e (PNew (truthy <$> u))
  (* 261-264: no parameter stands for None here *)
  | XNewFrom u ANone => pyexec e (PNew (truthy <$> u))
  | XNewFrom _ _ => praise TypeError
  | XFromBytes x => with_bytes x (fun l => pyexec e (PFromBytes l))
  | XDoesEdgeExist a x y => with_ints x y (fun i j => pyexec e (PDoesEdgeExist a i j))
  (* 333-345: the array is made before the vertex is looked at *)
  | XAddVertex a v None | XAddVertex a v (Some ANone) =>
      pbind (want_int v) (fun i => pyexec e (PAddVertex a i None))
  | XAddVertex a v (Some x) =>
      match arg_len x with
      | None => praise TypeError
      | Some O => pbind (want_int v) (fun i => pyexec e (PAddVertex a i (Some [])))
      | Some _ =>
          pbind (want_ids x) (fun ids =>
          pbind (want_int v) (fun i => pyexec e (PAddVertex a i (Some ids))))
      end
  | XAddEdge a x y => with_ints x y (fun i j => pyexec e (PAddEdge a i j))
  | XDeleteEdge a x y => with_ints x y (fun i j => pyexec e (PDeleteEdge a i j))
  | XFindAvgPool a x => pbind (want_int x) (fun b => pyexec e (PFindAvgPool a b))
  | XApproximate a x t =>
      pbind (want_int x) (fun b => pbind (want_double t) (fun f => pyexec e (PApproximate a b f)))
  (* 412-418: clamping replaces the argument by an integer *)
  | XCompress a x =>
      match arg_gt x 64, arg_lt x 1 with
      | Some gt, Some lt =>
          let x := if gt : bool then AInt 64 else if lt : bool then AInt 1 else x in
          pbind (want_int x) (fun l => pyexec e (PCompress a l))
      | _, _ => praise TypeError
      end
  | XInEdges a x => pbind (want_int x) (fun v => pyexec e (PInEdges a v))
  | XOutEdges a x => pbind (want_int x) (fun v => pyexec e (POutEdges a v))
  | XInDegree a x => pbind (want_int x) (fun v => pyexec e (PInDegree a v))
  | XOutDegree a x => pbind (want_int x) (fun v => pyexec e (POutDegree a v))
  | XCompressedNew _ | XMatrixNew _ => praise TypeError
  | XCFromBytes x => with_bytes x (fun l => pyexec e (PCFromBytes l))
  | XCDoesEdgeExist a x y => with_ints x y (fun i j => pyexec e (PCDoesEdgeExist a i j))
  | XCEntry a x y => with_ints x y (fun i j => pyexec e (PCEntry a i j))
  | XMGetEntry a x y => with_ints x y (fun i j => pyexec e (PMGetEntry a i j))
  | XMToString a None => pyexec e (PMToString a None)
  | XMToString a (Some x) => pbind (want_int x) (fun d => pyexec e (PMToString a (Some d)))
  end.

(** ** Indexing the list objects: 477-485, 533-541, 748-756 *)

(** Whether [x % y < 1] for finite positive doubles; [%] on doubles is exact. *)
Definition float_mod_below_1 (m : positive) (e : Z) (y : spec_float) : bool :=
  match y with
  | S754_finite false m' e' =>
      let k := Z.min (Z.min e e') 0 in
      ((Zpos m * 2 ^ (e - k)) mod (Zpos m' * 2 ^ (e' - k)) <? 2 ^ (- k))%Z
  | _ => false
  end.

(** [l[idx]].  A float can only get through when the arithmetic on it gives an integer:
    [max(x, 1)] is the integer 1 when [x] is below 1. *)
Definition getitem_arg {A} (list_of : cobj -> option (list A)) (ptr : addr) (size : N) (idx : pyarg)
  : pm A :=
  match idx with
  | AFloat x =>
      match float_vs_int x (Z.of_N size) with
      | Some Gt | Some Eq => praise IndexError
      | _ =>
          match float_vs_int x 0 with
          | Some Lt =>
              if size =? 0 then praise ZeroDivisionError
              else match x with
                   | S754_finite _ m e =>
                       if float_mod_below_1 m e (f64_of_N size)
                       then ptr_item list_of ptr (Z.of_N size - 1)
                       else praise TypeError
                   | _ => praise TypeError  (* inf % n is NaN *)
                   end
          | _ => praise TypeError
          end
      end
  | _ =>
      match arg_int idx with
      | Some i => py_getitem list_of ptr size i
      | None => praise TypeError
      end
  end.
