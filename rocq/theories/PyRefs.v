(** Python programs with variables: objects stay as long as something refers to them.

    PyProg.v takes for granted that a list stays as long as one of its iterators.  Here the
    reference that each iterator holds to its list (graphrox-py/graphrox/__init__.py:504-507,
    560-563, 775-778) is modelled, and an object goes away at any time after the last reference
    to it: at once where references are counted, later or never with other collectors. *)
From Coq Require Import ZArith.
From Verif Require Import Base F64 Numeric Sq Standard Compressed Api CApi CSpec Py PySpec PyProg.

(** What a variable can refer to, besides numbers, texts, and so on, which hold no memory. *)
Inductive robj : Type :=
(** An object of one of the six classes that hold memory of the library. *)
| RObject (v : pyval)
(** An iterator, 494-516, 550-572, 765-787: it copies pointer and size of its list, here [l], has
    a position, and refers to the list by its identity. *)
| RIterator (l : pyval) (pos : N) (list_ref : option nat).

(** The objects, by identity; None where the object has gone away.  The variables of the program,
    each with the identity of what it refers to. *)
Record rworld := RWorld { r_heap : cheap; r_objs : list (option robj); r_vars : list nat }.

Inductive rstep :=
(** A method or constructor; a new variable refers to the object it makes. *)
| RCall (e : cenv) (c : pycall)
(** [y = x] for a variable that refers to [i]. *)
| RCopy (i : nat)
(** A variable that refers to [i] goes out of scope or is assigned to. *)
| RForget (i : nat)
(** [iter(l)] *)
| RIter (i : nat)
(** [it._list_ref] *)
| RListRef (i : nat)
(** [l[idx]] *)
| RItem (i : nat) (idx : Z)
(** [next(it)] *)
| RNext (i : nat)
(** The object [i] goes away: its [__del__] runs. *)
| RFinalize (e : cenv) (i : nat).

Inductive rresult := ROk (w : rworld) | RAbort | RUB.

(** The elements of the list [l], and the state of an iterator after the element at [pos]. *)
Definition list_item (l : pyval) (idx : Z) : pm unit :=
  match l with
  | PyEdgeList a n => pbind (py_getitem edges_of a n idx) (fun _ => pret tt)
  | PyVertexList a n => pbind (py_getitem vertices_of a n idx) (fun _ => pret tt)
  | PyEntryList a n => pbind (py_getitem entries_of a n idx) (fun _ => pret tt)
  | _ => praise TypeError
  end.
Definition list_next (l : pyval) (pos : N) : pm N :=
  match l with
  | PyEdgeList a n => pbind (py_next edges_of a n pos) (fun '(_, pos) => pret pos)
  | PyVertexList a n => pbind (py_next vertices_of a n pos) (fun '(_, pos) => pret pos)
  | PyEntryList a n => pbind (py_next entries_of a n pos) (fun '(_, pos) => pret pos)
  | _ => praise TypeError
  end.

(** Exceptions are caught and the program goes on. *)
Definition rkeep {A} (w : rworld) (f : A -> rworld -> rworld) (r : pyresult A) : rresult :=
  match r with
  | PyDone v h => ROk (f v (RWorld h (r_objs w) (r_vars w)))
  | PyRaise _ h => ROk (RWorld h (r_objs w) (r_vars w))
  | PyAbort => RAbort
  | PyUB => RUB
  end.

(** A new object and a variable for it. *)
Definition new_object (x : robj) (w : rworld) : rworld :=
  RWorld (r_heap w) (r_objs w ++ [Some x]) (length (r_objs w) :: r_vars w).
Definition set_object (i : nat) (x : option robj) (w : rworld) : rworld :=
  RWorld (r_heap w) (<[i := x]> (r_objs w)) (r_vars w).
Definition object (w : rworld) (i : nat) : option robj := r_objs w !! i ≫= id.

Fixpoint forget (i : nat) (vars : list nat) : list nat :=
  match vars with
  | [] => []
  | j :: vars => if decide (i = j) then vars else j :: forget i vars
  end.

(** __iter__, 487-488, 543-544, 758-759, and __init__ of the iterator, 495-507, 551-563, 766-778,
    where [keeps_ref] is true; false is for the code without the assignment to [_list_ref].
    Pointers of lists are not null (465-472), so that __init__ does not raise. *)
Definition make_iterator (keeps_ref : bool) (i : nat) (l : pyval) : robj :=
  RIterator l 0 (if keeps_ref then Some i else None).

Definition run_rstep (keeps_ref : bool) (w : rworld) (s : rstep) : rresult :=
  match s with
  | RCall e c =>
      rkeep w (fun v w => if is_object v then new_object (RObject v) w else w) (pyexec e c (r_heap w))
  | RCopy i => ROk (RWorld (r_heap w) (r_objs w) (i :: r_vars w))
  | RForget i => ROk (RWorld (r_heap w) (r_objs w) (forget i (r_vars w)))
  | RIter i =>
      match object w i with
      | Some (RObject l) => ROk (new_object (make_iterator keeps_ref i l) w)
      | _ => ROk w
      end
  | RListRef i =>
      match object w i with
      | Some (RIterator _ _ (Some j)) => ROk (RWorld (r_heap w) (r_objs w) (j :: r_vars w))
      | _ => ROk w
      end
  | RItem i idx =>
      match object w i with
      | Some (RObject l) => rkeep w (fun _ w => w) (list_item l idx (r_heap w))
      | _ => ROk w
      end
  | RNext i =>
      match object w i with
      | Some (RIterator l pos r) =>
          rkeep w (fun pos => set_object i (Some (RIterator l pos r))) (list_next l pos (r_heap w))
      | _ => ROk w
      end
  | RFinalize e i =>
      match object w i with
      | Some (RObject v) =>
          match del_call v with
          | Some c => rkeep w (fun _ => set_object i None) (pyexec e c (r_heap w))
          | None => ROk w
          end
      | _ => ROk (set_object i None w)
      end
  end.

(** The program can still get at the object [i]: by a variable, or by an iterator that a variable
    refers to.  Lists and graphs refer to no objects. *)
Definition reachable (w : rworld) (i : nat) : Prop :=
  i ∈ r_vars w \/
  exists j l pos, j ∈ r_vars w /\ object w j = Some (RIterator l pos (Some i)).

(** What a program can do: calls on what its variables refer to, never [__del__] itself.  What a
    collector can do: run [__del__] on an object that is there and that the program cannot get
    at any more. *)
Definition rstep_ok (p : platform) (w : rworld) (s : rstep) : Prop :=
  match s with
  | RCall e c => ce_platform e = p /\ wf_alloc_fn (ce_alloc e) /\ is_del c = false /\ pyargs_ok p c /\
      (forall v, self_of c = Some v -> exists i, i ∈ r_vars w /\ object w i = Some (RObject v))
  | RCopy i | RForget i | RListRef i | RNext i => i ∈ r_vars w
  | RIter i | RItem i _ => i ∈ r_vars w /\ exists l, object w i = Some (RObject l) /\ is_list l
  | RFinalize e i => ce_platform e = p /\ wf_alloc_fn (ce_alloc e) /\
      is_Some (object w i) /\ ~ reachable w i
  end.

Inductive py_refs (keeps_ref : bool) (p : platform) : rworld -> Prop :=
| pr_start : py_refs keeps_ref p (RWorld ∅ [] [])
| pr_step w s w' : py_refs keeps_ref p w -> rstep_ok p w s -> run_rstep keeps_ref w s = ROk w' ->
    py_refs keeps_ref p w'.
