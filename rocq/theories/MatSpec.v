(** Specification vocabulary for the two matrix types: what a matrix is as a mathematical
    object, and call histories of the modelled code. *)
From Verif Require Import Base F64 Numeric Adj Sq Spec.

(** ** Square matrices as finite maps *)

(** A dimension and a partial map from (column, row) to values. *)
Record smap (T : Type) : Type := SMap {
  sm_dim : N;
  sm_cells : gmap (N * N) T;
}.
Arguments SMap {T}.
Arguments sm_dim {T}.
Arguments sm_cells {T}.

(** One mutating call. *)
Inductive mop (T : Type) : Type :=
| MSet (e : T) (c r : N)
| MZero (c r : N)
| MInc (c r : N).
Arguments MSet {T}.
Arguments MZero {T}.
Arguments MInc {T}.

Definition grow_dim (d c r : N) : N := N.max d (N.max (c + 1) (r + 1)).

(** The effect of a call; [None] is a panic (incrementing a value that has no
    successor).  Setting a cell to zero only makes sure that the cell is within the
    dimension. *)
Definition sm_step {T} (is_zero : T -> bool) (one : T) (succ : T -> option T)
    (s : smap T) (op : mop T) : option (smap T) :=
  match op with
  | MSet e c r =>
    Some (if valid_id c && valid_id r then
            SMap (grow_dim (sm_dim s) c r)
              (if is_zero e then sm_cells s else <[(c, r) := e]> (sm_cells s))
          else s)
  | MZero c r => Some (SMap (sm_dim s) (delete (c, r) (sm_cells s)))
  | MInc c r =>
    if valid_id c && valid_id r then
      match sm_cells s !! (c, r) with
      | None => Some (SMap (grow_dim (sm_dim s) c r) (<[(c, r) := one]> (sm_cells s)))
      | Some e =>
        match succ e with
        | Some e' => Some (SMap (grow_dim (sm_dim s) c r) (<[(c, r) := e']> (sm_cells s)))
        | None => None
        end
      end
    else Some s
  end.

Fixpoint sm_run {T} (is_zero : T -> bool) (one : T) (succ : T -> option T)
    (s : smap T) (ops : list (mop T)) : option (smap T) :=
  match ops with
  | [] => Some s
  | op :: ops' =>
    match sm_step is_zero one succ s op with
    | Some s' => sm_run is_zero one succ s' ops'
    | None => None
    end
  end.

(** ** Adjacency matrices as sets of cells *)

Record sset : Type := SSet {
  ss_dim : N;
  ss_cells : gset (N * N);
}.

Inductive aop : Type :=
| ASet (e c r : N)
| AZero (c r : N).

Definition ss_step (s : sset) (op : aop) : sset :=
  match op with
  | ASet e c r =>
    if valid_id c && valid_id r then
      SSet (grow_dim (ss_dim s) c r)
        (if e =? 0 then ss_cells s else {[(c, r)]} ∪ ss_cells s)
    else s
  | AZero c r => SSet (ss_dim s) (ss_cells s ∖ {[(c, r)]})
  end.

Definition ss_run (ops : list aop) : sset := fold_left ss_step ops (SSet 0 ∅).

(** ** Histories of calls on the modelled code *)

Definition mstep {T} (p : platform) (num : numeric T) (m : sq T) (op : mop T)
  : outcome (sq T) :=
  match op with
  | MSet e c r => Ret (sq_set_entry num m e c r)
  | MZero c r => Ret (sq_zero_entry m c r)
  | MInc c r => sq_increment_entry p num m c r
  end.

(** Matrices obtained by a history of calls on a new matrix. *)
Definition mrun {T} (p : platform) (num : numeric T) (ops : list (mop T)) : outcome (sq T) :=
  ofold (mstep p num) ops sq_new.

Definition astep (m : adj) (op : aop) : adj :=
  match op with
  | ASet e c r => adj_set_entry m e c r
  | AZero c r => adj_zero_entry m c r
  end.

Definition arun (ops : list aop) : adj := fold_left astep ops adj_new.
