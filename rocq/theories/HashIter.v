(** The two matrix iterators, which are the same state machine over a table of tables:
    graphrox-rs/src/matrix/csr_adjacency_matrix.rs:329-417 (CsrAdjacencyMatrixIter) and
    graphrox-rs/src/matrix/csr_square_matrix.rs:445-533 (CsrSquareMatrixIter). *)
From Verif Require Import Base.

(** Iterator state (csr_adjacency_matrix.rs:371-376, csr_square_matrix.rs:487-492).
    [it_dim] is the dimension of the borrowed matrix; [it_cols] what the outer hash
    iterator has still to yield, each column paired with the items its inner iterator
    will yield once started; [it_row] the running inner iterator. *)
Record hiter (V : Type) : Type := HIter {
  it_dim : N;
  it_cols : list (N * list V);
  it_row : option (list V);
  it_cur : N;
}.
Arguments HIter {V}.
Arguments it_dim {V}.
Arguments it_cols {V}.
Arguments it_row {V}.
Arguments it_cur {V}.

(** The [loop] in [next] (csr_adjacency_matrix.rs:386-415, csr_square_matrix.rs:502-531).
    Each turn of the loop consumes one column, so it is structural in [cols]. *)
Fixpoint hiter_loop {V} (dim : N) (cols : list (N * list V)) (row : option (list V))
    (cur : N) : option (N * V) * hiter V :=
  match row with
  | Some (r :: rs) => (Some (cur, r), HIter dim cols (Some rs) cur)
  | _ =>
    match cols with
    | (c, items) :: cols' => hiter_loop dim cols' (Some items) c
    | [] => (None, HIter dim [] row cur)
    end
  end.

(** [next] (csr_adjacency_matrix.rs:381-416, csr_square_matrix.rs:497-532). *)
Definition hiter_next {V} (it : hiter V) : option (N * V) * hiter V :=
  if it_dim it =? 0 then (None, it)
  else hiter_loop (it_dim it) (it_cols it) (it_row it) (it_cur it).

(** Calling [next] until it returns [None], collecting the items; [None] when the fuel
    runs out first. *)
Fixpoint hiter_run {V} (fuel : nat) (it : hiter V) : option (list (N * V)) :=
  match fuel with
  | O => None
  | S fuel' =>
    match hiter_next it with
    | (None, _) => Some []
    | (Some x, it') =>
      match hiter_run fuel' it' with
      | Some l => Some (x :: l)
      | None => None
      end
    end
  end.

(** Number of items the tables can yield, plus one for the final [None]. *)
Definition hiter_fuel {V} (it : hiter V) : nat :=
  S (length (from_option id [] (it_row it)) + sum_list (length ∘ snd <$> it_cols it)).

(** What a [for] loop over the iterator sees.  The default is never used:
    [HashIterProofs.hiter_items_run]. *)
Definition hiter_items {V} (it : hiter V) : list (N * V) :=
  default [] (hiter_run (hiter_fuel it) it).
