(** Model of graphrox-rs/src/graph/standard.rs (except compress, which is in
    Compressed.v because it needs the builder). *)
From Coq Require Import Ascii String.
From Verif Require Import Base HashIter F64 Numeric Adj Sq.

(** standard.rs:10-12. *)
Definition GRAPH_BYTES_MAGIC_NUMBER : N := 0x7ae71ffd.
Definition GRAPH_BYTES_VERSION : N := 1.
Definition GRAPH_BYTES_HEADER_SIZE : N := 26.

(** standard.rs:42-45, struct StandardGraph. *)
Record graph : Type := Graph {
  g_und : bool;
  g_adj : adj;
}.

(** standard.rs:61-66 and 80-85. *)
Definition new_undirected : graph := Graph true adj_new.
Definition new_directed : graph := Graph false adj_new.

(** standard.rs:671-691: is_undirected, vertex_count, edge_count, does_edge_exist. *)
Definition is_undirected (g : graph) : bool := g_und g.
Definition vertex_count (g : graph) : N := adj_dimension (g_adj g).
Definition edge_count (g : graph) : N := adj_entry_count (g_adj g).
Definition does_edge_exist (g : graph) (from to : N) : bool :=
  negb (adj_get_entry (g_adj g) from to =? 0).

(** standard.rs:683-685, matrix_string. *)
Definition matrix_string (p : platform) (g : graph) : result text :=
  adj_try_to_string p (g_adj g).

(** standard.rs:104-109, directed_from. *)
Definition directed_from (m : adj) : graph := Graph false m.

(** standard.rs:132-145, undirected_from: the loop returns at the first asymmetric
    entry. *)
Definition undirected_from (o : hash_order) (m : adj) : result graph :=
  if forallb (fun '(col, row) => adj_get_entry m row col =? 1) (adj_items o m)
  then Ok (Graph true m)
  else Err (InvalidFormat "The adjacency matrix does not represent an undirected graph").

(** standard.rs:172-177, undirected_from_unchecked (unsafe). *)
Definition undirected_from_unchecked (m : adj) : graph := Graph true m.

(** standard.rs:245-253, add_edge. *)
Definition add_edge (g : graph) (from to : N) : graph :=
  let m := adj_set_entry (g_adj g) 1 from to in
  Graph (g_und g) (if g_und g then adj_set_entry m 1 to from else m).

(** standard.rs:210-226, add_vertex. *)
Definition add_vertex (g : graph) (vertex_id : N) (to_vertexs : option (list N)) : graph :=
  let g' :=
    match to_vertexs with
    | Some l => fold_left (fun g edge => add_edge g vertex_id edge) l g
    | None => g
    end in
  let added_edge :=
    match to_vertexs with
    | Some l => negb (length l =? 0)%nat
    | None => false
    end in
  if negb added_edge && (vertex_count g' <=? vertex_id)
  then Graph (g_und g') (adj_set_entry (g_adj g') 0 vertex_id 0)
  else g'.

(** standard.rs:276-284, delete_edge. *)
Definition delete_edge (g : graph) (from to : N) : graph :=
  let m := adj_zero_entry (g_adj g) from to in
  Graph (g_und g) (if g_und g then adj_zero_entry m to from else m).

(** standard.rs:315-321, get_vertex_in_edges. *)
Definition get_vertex_in_edges (o : hash_order) (g : graph) (v : N) : list N :=
  if g_und g then adj_sparse_col o (g_adj g) v else adj_sparse_row o (g_adj g) v.

(** standard.rs:342-344, get_vertex_out_edges. *)
Definition get_vertex_out_edges (o : hash_order) (g : graph) (v : N) : list N :=
  adj_sparse_col o (g_adj g) v.

(** standard.rs:370-376, get_vertex_in_degree. *)
Definition get_vertex_in_degree (o : hash_order) (g : graph) (v : N) : N :=
  if g_und g then adj_col_count o (g_adj g) v else adj_row_count o (g_adj g) v.

(** standard.rs:392-394, get_vertex_out_degree. *)
Definition get_vertex_out_degree (o : hash_order) (g : graph) (v : N) : N :=
  adj_col_count o (g_adj g) v.

(** standard.rs:860-908: iterating a graph is iterating its adjacency matrix. *)
Definition graph_into_iter (o : hash_order) (g : graph) : hiter N :=
  adj_into_iter o (g_adj g).
Definition graph_items (o : hash_order) (g : graph) : list (N * N) :=
  adj_items o (g_adj g).

(** standard.rs:454-460 and 549-555: blocks_per_row. *)
Definition blocks_per_row (n block_dimension : N) : N :=
  n / block_dimension + (if n mod block_dimension =? 0 then 0 else 1).

(** standard.rs:446-452: the clamped block dimension. *)
Definition clamp_block (n block_dimension : N) : N :=
  if block_dimension <? 1 then 1 else if n <? block_dimension then n else block_dimension.

(** standard.rs:441-476, find_avg_pool_matrix. *)
Definition find_avg_pool_matrix (p : platform) (o : hash_order) (g : graph)
    (block_dimension : N) : outcome (sq spec_float) :=
  if vertex_count g =? 0 then Ret sq_new
  else
    let b := clamp_block (vertex_count g) block_dimension in
    let blocks := blocks_per_row (vertex_count g) b in
    obind (ofold (fun m '(col, row) => sq_increment_entry p f64_numeric m (col / b) (row / b))
             (adj_items o (g_adj g)) sq_new) (fun occurrence_matrix =>
    obind (u64_mul p b b) (fun square =>
    let block_multiplier := f64_div f64_one (f64_of_N square) in
    Ret (sq_multiply_entries_by (sq_set_minimum_dimension occurrence_matrix blocks)
           block_multiplier))).

(** standard.rs:536-575, approximate.  [o1] orders the graph's table, [o2] the pooled
    matrix's. *)
Definition approximate (p : platform) (o1 o2 : hash_order) (g : graph)
    (block_dimension : N) (threshold : f64) : outcome graph :=
  if (block_dimension <=? 1) || (vertex_count g <=? 1) then Ret g
  else
    let threshold := clamp_threshold threshold in
    let b := if vertex_count g <? block_dimension then vertex_count g
             else block_dimension in
    let blocks := blocks_per_row (vertex_count g) b in
    obind (find_avg_pool_matrix p o1 g b) (fun avg_pool_matrix =>
    let approx_graph := if g_und g then new_undirected else new_directed in
    let approx_graph := add_vertex approx_graph (blocks - 1) None in
    Ret (fold_left
           (fun acc '(entry, col, row) =>
              if f64_ge entry threshold then add_edge acc col row else acc)
           (sq_items o2 avg_pool_matrix) approx_graph)).

(** ** Bytes *)

(** standard.rs:694-706: the size of the encoding. *)
Definition graph_bytes_size (p : platform) (g : graph) : result N :=
  rbind (ok_or (CapacityOverflow "Graph byte size overflowed")
    (count ← usize_try_from p (adj_entry_count (g_adj g));
     count2 ← checked_mulU p count 2;
     checked_mulU p count2 8)) (fun edge_bytes =>
  ok_or (CapacityOverflow "Graph byte size overflowed")
    (checked_addU p GRAPH_BYTES_HEADER_SIZE edge_bytes)).

(** standard.rs:693-725, to_bytes. *)
Definition graph_to_bytes (p : platform) (o : hash_order) (g : graph) : result (list N) :=
  rbind (graph_bytes_size p g) (fun buffer_size =>
  if can_alloc p buffer_size then
    Ok (fold_left
          (fun buffer '(col, row) => buffer ++ to_be_bytes 8 col ++ to_be_bytes 8 row)
          (adj_items o (g_adj g))
          (to_be_bytes 4 GRAPH_BYTES_MAGIC_NUMBER
           ++ to_be_bytes 4 GRAPH_BYTES_VERSION
           ++ to_be_bytes 8 (adj_dimension (g_adj g))
           ++ to_be_bytes 8 (adj_entry_count (g_adj g))
           ++ [if g_und g then 1 else 0]
           ++ [0]))
  else Err (CapacityOverflow "Unable to allocate graph bytes")).

(** standard.rs:832-858, read_u32_be (k = 4) and read_u64_be (k = 8).  The slice returned
    by [get] always has [k] bytes, so [try_into] cannot fail. *)
Definition read_be (p : platform) (k : nat) (bytes : list N) (offset : N) : result N :=
  rbind (ok_or (InvalidFormat "Graph byte offset overflowed")
           (checked_addU p offset (N.of_nat k))) (fun _ =>
  rbind (ok_or (InvalidFormat "Slice is too short for Graph field")
           (slice_get bytes offset k)) (fun slice =>
  Ok (from_be_bytes slice))).

(** standard.rs:775-782: the size announced by a header. *)
Definition graph_expected_size (p : platform) (entry_count : N) : result N :=
  ok_or (InvalidFormat "Graph byte size overflowed")
    (count ← usize_try_from p entry_count;
     count2 ← checked_mulU p count 2;
     size ← checked_mulU p count2 8;
     checked_addU p size GRAPH_BYTES_HEADER_SIZE).

(** standard.rs:803-816, the edge reading loop.  [pos += 8] is unchecked [usize]
    arithmetic. *)
Fixpoint graph_read_loop (p : platform) (fuel : nat) (bytes : list N)
    (expected dimension pos : N) (g : graph) : outcome (result graph) :=
  if pos <? expected then
    match fuel with
    | O => OutOfFuel
    | S fuel' =>
      orbind (Ret (read_be p 8 bytes pos)) (fun col =>
      obind (usize_add p pos 8) (fun pos =>
      orbind (Ret (read_be p 8 bytes pos)) (fun row =>
      obind (usize_add p pos 8) (fun pos =>
      if (dimension <=? col) || (dimension <=? row)
      then Ret (Err (InvalidFormat "Graph edge exceeds matrix dimension"))
      else graph_read_loop p fuel' bytes expected dimension pos (add_edge g col row)))))
    end
  else Ret (Ok g).

(** standard.rs:731-829, try_from. *)
Definition graph_try_from (p : platform) (bytes : list N) : outcome (result graph) :=
  let len := N.of_nat (length bytes) in
  if len <? GRAPH_BYTES_HEADER_SIZE
  then Ret (Err (InvalidFormat "Slice is too short to contain Graph header"))
  else
    orbind (Ret (read_be p 4 bytes 0)) (fun magic_number =>
    orbind (Ret (read_be p 4 bytes 4)) (fun version =>
    orbind (Ret (read_be p 8 bytes 8)) (fun dimension =>
    orbind (Ret (read_be p 8 bytes 16)) (fun entry_count =>
    obind (byte_at bytes 24) (fun undirected_flag =>
    obind (byte_at bytes 25) (fun is_weighted =>
    if negb (magic_number =? GRAPH_BYTES_MAGIC_NUMBER)
    then Ret (Err (InvalidFormat "Incorrect magic number"))
    else if negb (version =? GRAPH_BYTES_VERSION)
    then Ret (Err (InvalidFormat "Unrecognized Graph version"))
    else if 1 <? undirected_flag
    then Ret (Err (InvalidFormat "Invalid graph direction flag"))
    else if negb (is_weighted =? 0)
    then Ret (Err (InvalidFormat "Weighted graphs are not supported"))
    else if (dimension =? 0) && negb (entry_count =? 0)
    then Ret (Err (InvalidFormat "Graph with zero dimension cannot contain edges"))
    else
      orbind (Ret (graph_expected_size p entry_count)) (fun expected =>
      if len <? expected
      then Ret (Err (InvalidFormat
             "Slice is too short to contain all expected graph edges"))
      else if expected <? len
      then Ret (Err (InvalidFormat
             "Slice is too long represent the expected graph edges"))
      else
        let graph0 := if undirected_flag =? 0 then new_directed else new_undirected in
        orbind (graph_read_loop p (length bytes) bytes expected dimension
                  GRAPH_BYTES_HEADER_SIZE graph0) (fun g =>
        if negb (edge_count g =? entry_count)
        then Ret (Err (InvalidFormat "Graph edge count does not match header"))
        else
          Ret (Ok (if 0 <? dimension then add_vertex g (dimension - 1) None else g))))
    )))))).
