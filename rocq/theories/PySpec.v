(** Vocabulary of the statements about the Python binding. *)
From Coq Require Import ZArith.
From Verif Require Import Base F64 Numeric Sq Standard Compressed CApi Py.

(** The call returned a new Python object wrapping [x], which is all it added to the heap. *)
Definition py_hands (h : cheap) (wrap : addr -> pyval) (x : cobj) (r : pyresult pyval) : Prop :=
  exists a, r = PyDone (wrap a) (<[a := x]> h) /\ a <> null /\ h !! a = None.

(** The same for a list object; empty lists take no memory. *)
Definition py_hands_list {A} (h : cheap) (wrap : addr -> N -> pyval) (obj : list A -> cobj)
    (l : list A) (r : pyresult pyval) : Prop :=
  exists a, a <> null /\ (l <> [] -> h !! a = None) /\
    r = PyDone (wrap a (N.of_nat (length l))) (match l with [] => h | _ => <[a := obj l]> h end).

(** The list object with address [ptr] and length [size] holds [l]. *)
Definition holds_list {A} (h : cheap) (list_of : cobj -> option (list A)) (ptr : addr) (size : N)
    (l : list A) : Prop :=
  size = N.of_nat (length l) /\ (l = [] \/ exists x, h !! ptr = Some x /\ list_of x = Some l).

(** What a Python method that returns a text does with the result of the Rust method. *)
Definition py_text (h : cheap) (r : outcome (result text)) : pyresult pyval :=
  match r with
  | Ret (Ok s) => PyDone (PyStr s) h
  | Ret (Err _) => PyRaise AttributeError h
  | _ => PyAbort
  end.

(** Python integers that fit. *)
Definition fits_u64 (z : Z) : Prop := (0 <= z < 2 ^ 64)%Z.

(** A method returned what the Rust function made, or the process aborted because that
    panicked. *)
Definition py_makes {A} (h : cheap) (wrap : addr -> pyval) (obj : A -> cobj) (x : outcome A)
    (r : pyresult pyval) : Prop :=
  match x with Ret y => py_hands h wrap (obj y) r | _ => r = PyAbort end.
