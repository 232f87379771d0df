(** Model of graphrox-rs/src/matrix/csr_adjacency_matrix.rs. *)
From Coq Require Import Ascii String.
From Verif Require Import Base HashIter.

(** csr_adjacency_matrix.rs:26-30, struct CsrAdjacencyMatrix. *)
Record adj : Type := Adj {
  adj_dim : N;
  adj_tab : gmap N (gset N);
  adj_cnt : N;
}.

(** csr_adjacency_matrix.rs:48-54, new (also Default, 32-36). *)
Definition adj_new : adj := Adj 0 ∅ 0.

(** csr_adjacency_matrix.rs:242-248, dimension and entry_count. *)
Definition adj_dimension (m : adj) : N := adj_dim m.
Definition adj_entry_count (m : adj) : N := adj_cnt m.

(** csr_adjacency_matrix.rs:250-257, get_entry (a u8: 0 or 1). *)
Definition adj_get_entry (m : adj) (col row : N) : N :=
  match adj_tab m !! col with
  | None => 0
  | Some row_set => if bool_decide (row ∈ row_set) then 1 else 0
  end.

(** csr_adjacency_matrix.rs:259-285, set_entry. *)
Definition adj_set_entry (m : adj) (entry col row : N) : adj :=
  match checked_add64 col 1 with
  | None => m
  | Some col_dimension =>
    match checked_add64 row 1 with
    | None => m
    | Some row_dimension =>
      let d1 := if adj_dim m <? col_dimension then col_dimension else adj_dim m in
      let d2 := if d1 <? row_dimension then row_dimension else d1 in
      if entry =? 0 then Adj d2 (adj_tab m) (adj_cnt m)
      else
        let row_set := default ∅ (adj_tab m !! col) in
        let was_added := bool_decide (row ∉ row_set) in
        Adj d2
          (<[col := {[row]} ∪ row_set]> (adj_tab m))
          (if was_added then wrapping_inc64 (adj_cnt m) else adj_cnt m)
    end
  end.

(** csr_adjacency_matrix.rs:287-298, zero_entry.  An emptied set stays in the table. *)
Definition adj_zero_entry (m : adj) (col row : N) : adj :=
  match adj_tab m !! col with
  | None => m
  | Some row_set =>
    let was_removed := bool_decide (row ∈ row_set) in
    Adj (adj_dim m)
      (<[col := row_set ∖ {[row]}]> (adj_tab m))
      (if was_removed then wrapping_dec64 (adj_cnt m) else adj_cnt m)
  end.

(** csr_adjacency_matrix.rs:75-85, get_sparse_col_vector. *)
Definition adj_sparse_col (o : hash_order) (m : adj) (col : N) : list N :=
  match adj_tab m !! col with
  | None => []
  | Some row_set => ord_set o col row_set
  end.

(** csr_adjacency_matrix.rs:114-126, get_sparse_row_vector. *)
Definition adj_sparse_row (o : hash_order) (m : adj) (row : N) : list N :=
  fold_left
    (fun vector '(col, row_set) =>
       if bool_decide (row ∈ (row_set : gset N)) then vector ++ [col] else vector)
    (ord_map o _ None (adj_tab m)) [].

(** csr_adjacency_matrix.rs:142-149, col_nonzero_entry_count. *)
Definition adj_col_count (o : hash_order) (m : adj) (col : N) : N :=
  match adj_tab m !! col with
  | None => 0
  | Some row_set => N.of_nat (length (ord_set o col row_set)) mod two64
  end.

(** csr_adjacency_matrix.rs:173-178, row_nonzero_entry_count. *)
Definition adj_row_count (o : hash_order) (m : adj) (row : N) : N :=
  N.of_nat (length
    (filter (fun '(_, row_set) => row ∈ (row_set : gset N))
       (ord_map o _ None (adj_tab m)))) mod two64.

(** csr_adjacency_matrix.rs:329-341, into_iter. *)
Definition adj_into_iter (o : hash_order) (m : adj) : hiter N :=
  HIter (adj_dim m)
    ((fun '(c, s) => (c, ord_set o c s)) <$> ord_map o _ None (adj_tab m))
    None 0.

(** The (col, row) items seen by [for (col, row) in &matrix]. *)
Definition adj_items (o : hash_order) (m : adj) : list (N * N) :=
  hiter_items (adj_into_iter o m).

(** csr_adjacency_matrix.rs:217-235, the text-producing loops of try_to_string. *)
Definition adj_render (m : adj) : text :=
  fold_left
    (fun buffer row =>
       let buffer := buffer ++ txt "[ " in
       let buffer :=
         fold_left
           (fun buffer col =>
              let buffer :=
                buffer ++ (if adj_get_entry m col row =? 0 then txt "0" else txt "1") in
              if negb (col =? adj_dim m - 1) then buffer ++ txt ", " else buffer ++ txt " ")
           (range (adj_dim m)) buffer in
       let buffer := buffer ++ txt "]" in
       if negb (row =? adj_dim m - 1) then buffer ++ [cr; lf] else buffer)
    (range (adj_dim m)) [].

(** csr_adjacency_matrix.rs:192-210, the buffer size computation of try_to_string. *)
Definition adj_text_size (p : platform) (m : adj) : result N :=
  rbind (ok_or (CapacityOverflow "Matrix dimension does not fit in platform usize")
           (usize_try_from p (adj_dim m))) (fun dimension =>
  rbind (ok_or (CapacityOverflow "Matrix string size overflowed")
           (checked_mulU p dimension dimension)) (fun matrix_entry_count =>
  ok_or (CapacityOverflow "Matrix string size overflowed")
    (rows ← checked_mulU p 4 dimension;
     cells ← checked_mulU p 3 matrix_entry_count;
     size ← checked_addU p cells rows;
     checked_subU size 2))).

(** csr_adjacency_matrix.rs:181-238, try_to_string. *)
Definition adj_try_to_string (p : platform) (m : adj) : result text :=
  if adj_dim m =? 0 then Ok []
  else
    rbind (adj_text_size p m) (fun buffer_size =>
    if can_alloc p buffer_size then Ok (adj_render m)
    else Err (CapacityOverflow "Unable to allocate matrix string")).

(** csr_adjacency_matrix.rs:324-326, Display::fmt (None stands for fmt::Error). *)
Definition adj_display (p : platform) (m : adj) : option text :=
  match adj_try_to_string p m with
  | Ok s => Some s
  | Err _ => None
  end.
