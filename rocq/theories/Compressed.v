(** Model of graphrox-rs/src/graph/compressed.rs, and of Graph::compress
    (graphrox-rs/src/graph/standard.rs:624-667). *)
From Coq Require Import Ascii String.
From Verif Require Import Base HashIter F64 Numeric Adj Sq Standard.

(** compressed.rs:10-12. *)
Definition COMPRESSED_GRAPH_BYTES_MAGIC_NUMBER : N := 0x71ff7aed.
Definition COMPRESSED_GRAPH_BYTES_VERSION : N := 2.
Definition COMPRESSED_GRAPH_BYTES_HEADER_SIZE : N := 42.

(** compressed.rs:51-57, struct CompressedGraph. *)
Record cgraph : Type := CGraph {
  cg_edge_count : N;
  cg_vertex_count : N;
  cg_mat : sq N;
  cg_und : bool;
  cg_level : N;
}.

(** compressed.rs:129-131, compression_level. *)
Definition compression_level (g : cgraph) : N := cg_level g.

(** compressed.rs:162-164, get_compressed_matrix_entry. *)
Definition get_compressed_matrix_entry (g : cgraph) (col row : N) : N :=
  sq_get_entry u64_numeric (cg_mat g) col row.

(** compressed.rs:168-178: is_undirected, vertex_count, edge_count. *)
Definition c_is_undirected (g : cgraph) : bool := cg_und g.
Definition c_vertex_count (g : cgraph) : N := cg_vertex_count g.
Definition c_edge_count (g : cgraph) : N := cg_edge_count g.

(** compressed.rs:180-182, matrix_string. *)
Definition c_matrix_string (p : platform) (o : hash_order) (g : cgraph)
  : outcome (result text) :=
  sq_to_string_with_precision p u64_numeric o (cg_mat g) 0.

(** compressed.rs:184-201, does_edge_exist. *)
Definition c_does_edge_exist (g : cgraph) (from to : N) : bool :=
  let col := from / COMPRESSION_BLOCK_DIMENSION in
  let row := to / COMPRESSION_BLOCK_DIMENSION in
  let entry := sq_get_entry u64_numeric (cg_mat g) col row in
  if entry =? 0 then false
  else
    let col_pos := from mod COMPRESSION_BLOCK_DIMENSION in
    let row_pos := to mod COMPRESSION_BLOCK_DIMENSION in
    let pos := COMPRESSION_BLOCK_DIMENSION * row_pos + col_pos in
    N.land (N.shiftr entry pos) 1 =? 1.

(** compressed.rs:92-108: the decompression of one stored entry.  [curr] is a wrapping
    u64. *)
Definition decompress_entry (p : platform) (g : graph) (item : N * N * N) : outcome graph :=
  let '(entry, col, row) := item in
  obind
    (ofold (fun '(g, curr) i =>
       obind
         (if N.land entry curr =? curr then
            obind (obind (u64_mul p col COMPRESSION_BLOCK_DIMENSION) (fun base =>
                   u64_add p base (i mod COMPRESSION_BLOCK_DIMENSION))) (fun absolute_col =>
            obind (obind (u64_mul p row COMPRESSION_BLOCK_DIMENSION) (fun base =>
                   u64_add p base (i / COMPRESSION_BLOCK_DIMENSION))) (fun absolute_row =>
            Ret (add_edge g absolute_col absolute_row)))
          else Ret g) (fun g =>
       Ret (g, N.shiftl curr 1 mod two64)))
      (range 64) (g, 1))
    (fun st => Ret st.1).

(** compressed.rs:80-111, decompress. *)
Definition decompress (p : platform) (o : hash_order) (cg : cgraph) : outcome graph :=
  let g := if cg_und cg then new_undirected else new_directed in
  let g := if 0 <? cg_vertex_count cg
           then add_vertex g (cg_vertex_count cg - 1) None else g in
  ofold (decompress_entry p) (sq_items o (cg_mat cg)) g.

(** u64::count_ones. *)
Fixpoint pos_ones (x : positive) : N :=
  match x with
  | xH => 1
  | xO x' => pos_ones x'
  | xI x' => pos_ones x' + 1
  end.
Definition count_ones (x : N) : N :=
  match x with
  | N0 => 0
  | Npos x' => pos_ones x'
  end.

(** compressed.rs:644-647, find_hamming_weight. *)
Definition find_hamming_weight (num : N) : N := count_ones num.

(** compressed.rs:515-540, CompressedGraphBuilder::new.  The builder (495-497) only wraps
    the graph under construction. *)
Definition builder_new (und : bool) (vertex_count level : N) : cgraph :=
  let c0 := vertex_count / COMPRESSION_BLOCK_DIMENSION in
  let column_count :=
    if (vertex_count mod COMPRESSION_BLOCK_DIMENSION =? 0) && negb (c0 =? 0)
    then c0 - 1 else c0 in
  CGraph 0 vertex_count
    (sq_set_entry u64_numeric sq_new 0 column_count 0)
    und (clamp_compression_level level).

(** compressed.rs:592-607, add_compressed_matrix_entry. *)
Definition builder_add (b : cgraph) (entry col row : N) (hamming_weight : option N)
  : cgraph :=
  let additional := match hamming_weight with
                    | Some w => w
                    | None => find_hamming_weight entry
                    end in
  CGraph (saturating_add64 (cg_edge_count b) additional)
    (cg_vertex_count b)
    (sq_set_entry u64_numeric (cg_mat b) entry col row)
    (cg_und b) (cg_level b).

(** compressed.rs:639-641, finish (unsafe). *)
Definition builder_finish (b : cgraph) : cgraph := b.

(** ** Graph::compress *)

(** standard.rs:629: threshold of a (clamped) level. *)
Definition compress_threshold (level : N) : f64 :=
  f64_sub (f64_div (f64_of_N level) f64_64) f64_1em5.

(** standard.rs:637-655: encoding one 8x8 block; returns (compressed_entry,
    nodes_in_entry). *)
Definition encode_block (p : platform) (g : graph) (col row : N) : outcome (N * N) :=
  obind (u64_mul p row COMPRESSION_BLOCK_DIMENSION) (fun row_base =>
  obind (u64_mul p col COMPRESSION_BLOCK_DIMENSION) (fun col_base =>
  obind
    (ofold (fun st row =>
       ofold (fun '(entry, nodes, pos) col =>
         obind (u64_add p col_base col) (fun from =>
         obind (u64_add p row_base row) (fun to =>
         let '(entry, nodes) :=
           if does_edge_exist g from to then (N.lor entry pos, nodes + 1)
           else (entry, nodes) in
         Ret (entry, nodes,
              if negb (pos =? 0x8000000000000000) then N.shiftl pos 1 mod two64
              else pos))))
         (range COMPRESSION_BLOCK_DIMENSION) st)
      (range COMPRESSION_BLOCK_DIMENSION) (0, 0, 1))
    (fun '(entry, nodes, _) => Ret (entry, nodes)))).

(** standard.rs:624-667, compress.  [o1] orders the graph's table, [o2] the pooled
    matrix's. *)
Definition compress (p : platform) (o1 o2 : hash_order) (g : graph) (level : N)
  : outcome cgraph :=
  let level := clamp_compression_level level in
  let threshold := compress_threshold level in
  let builder := builder_new (g_und g) (vertex_count g) level in
  obind (find_avg_pool_matrix p o1 g COMPRESSION_BLOCK_DIMENSION) (fun avg_pool_matrix =>
  obind
    (ofold (fun builder '(entry, col, row) =>
       if f64_ge entry threshold then
         obind (encode_block p g col row) (fun '(compressed_entry, nodes_in_entry) =>
         Ret (builder_add builder compressed_entry col row (Some nodes_in_entry)))
       else Ret builder)
      (sq_items o2 avg_pool_matrix) builder)
    (fun builder => Ret (builder_finish builder))).

(** ** Bytes *)

(** compressed.rs:204-219: the size of the encoding. *)
Definition cgraph_bytes_size (p : platform) (g : cgraph) : result N :=
  rbind (ok_or (CapacityOverflow "CompressedGraph byte size overflowed")
    (count ← usize_try_from p (sq_entry_count (cg_mat g));
     count3 ← checked_mulU p count 3;
     checked_mulU p count3 8)) (fun entry_bytes =>
  ok_or (CapacityOverflow "CompressedGraph byte size overflowed")
    (checked_addU p COMPRESSED_GRAPH_BYTES_HEADER_SIZE entry_bytes)).

(** compressed.rs:203-244, to_bytes. *)
Definition cgraph_to_bytes (p : platform) (o : hash_order) (g : cgraph) : result (list N) :=
  rbind (cgraph_bytes_size p g) (fun buffer_size =>
  if can_alloc p buffer_size then
    Ok (fold_left
          (fun buffer '(entry, col, row) =>
             buffer ++ to_be_bytes 8 entry ++ to_be_bytes 8 col ++ to_be_bytes 8 row)
          (sq_items o (cg_mat g))
          (to_be_bytes 4 COMPRESSED_GRAPH_BYTES_MAGIC_NUMBER
           ++ to_be_bytes 4 COMPRESSED_GRAPH_BYTES_VERSION
           ++ to_be_bytes 8 (sq_dimension (cg_mat g))
           ++ to_be_bytes 8 (sq_entry_count (cg_mat g))
           ++ to_be_bytes 8 (cg_edge_count g)
           ++ to_be_bytes 8 (cg_vertex_count g)
           ++ [if cg_und g then 1 else 0]
           ++ [cg_level g]))
  else Err (CapacityOverflow "Unable to allocate compressed graph bytes")).

(** compressed.rs:383-409, read_u32_be (k = 4) and read_u64_be (k = 8). *)
Definition c_read_be (p : platform) (k : nat) (bytes : list N) (offset : N) : result N :=
  rbind (ok_or (InvalidFormat "CompressedGraph byte offset overflowed")
           (checked_addU p offset (N.of_nat k))) (fun _ =>
  rbind (ok_or (InvalidFormat "Slice is too short for CompressedGraph field")
           (slice_get bytes offset k)) (fun slice =>
  Ok (from_be_bytes slice))).

(** compressed.rs:411-417, compressed_matrix_dimension. *)
Definition compressed_matrix_dimension (vertex_count : N) : N :=
  let dimension := vertex_count / COMPRESSION_BLOCK_DIMENSION in
  if negb (vertex_count mod COMPRESSION_BLOCK_DIMENSION =? 0) || (dimension =? 0)
  then dimension + 1 else dimension.

(** compressed.rs:425-452: the check of one bit. *)
Definition validate_bit (entry col row vertex_count bit : N) : result unit :=
  if N.land (N.shiftr entry bit) 1 =? 0 then Ok tt
  else
    rbind (ok_or (InvalidFormat "CompressedGraph column coordinate overflowed")
             (base ← checked_mul64 col COMPRESSION_BLOCK_DIMENSION;
              checked_add64 base (bit mod COMPRESSION_BLOCK_DIMENSION)))
      (fun absolute_col =>
    rbind (ok_or (InvalidFormat "CompressedGraph row coordinate overflowed")
             (base ← checked_mul64 row COMPRESSION_BLOCK_DIMENSION;
              checked_add64 base (bit / COMPRESSION_BLOCK_DIMENSION)))
      (fun absolute_row =>
    if (vertex_count <=? absolute_col) || (vertex_count <=? absolute_row)
    then Err (InvalidFormat "CompressedGraph entry contains edge outside vertex count")
    else Ok tt)).

(** compressed.rs:419-455, validate_compressed_entry_bounds. *)
Definition validate_compressed_entry_bounds (entry col row vertex_count : N)
  : result unit :=
  fold_left (fun acc bit => rbind acc (fun _ => validate_bit entry col row vertex_count bit))
    (range 64) (Ok tt).

(** compressed.rs:307-314: the size announced by a header. *)
Definition cgraph_expected_size (p : platform) (entry_count : N) : result N :=
  ok_or (InvalidFormat "CompressedGraph byte size overflowed")
    (count ← usize_try_from p entry_count;
     count3 ← checked_mulU p count 3;
     size ← checked_mulU p count3 8;
     checked_addU p size COMPRESSED_GRAPH_BYTES_HEADER_SIZE).

(** compressed.rs:333-371, the entry reading loop; the state is the builder and
    parsed_edge_count. *)
Fixpoint cgraph_read_loop (p : platform) (fuel : nat) (bytes : list N)
    (expected dimension vertex_count pos : N) (b : cgraph) (parsed : N)
  : outcome (result (cgraph * N)) :=
  if pos <? expected then
    match fuel with
    | O => OutOfFuel
    | S fuel' =>
      orbind (Ret (c_read_be p 8 bytes pos)) (fun entry =>
      obind (usize_add p pos 8) (fun pos =>
      orbind (Ret (c_read_be p 8 bytes pos)) (fun col =>
      obind (usize_add p pos 8) (fun pos =>
      orbind (Ret (c_read_be p 8 bytes pos)) (fun row =>
      obind (usize_add p pos 8) (fun pos =>
      if entry =? 0
      then Ret (Err (InvalidFormat "CompressedGraph entry cannot be zero"))
      else if (dimension <=? col) || (dimension <=? row)
      then Ret (Err (InvalidFormat "CompressedGraph entry exceeds matrix dimension"))
      else
        orbind (Ret (validate_compressed_entry_bounds entry col row vertex_count))
          (fun _ =>
        let hamming_weight := count_ones entry in
        orbind (Ret (ok_or (InvalidFormat "CompressedGraph edge count overflowed")
                       (checked_add64 parsed hamming_weight))) (fun parsed =>
        cgraph_read_loop p fuel' bytes expected dimension vertex_count pos
          (builder_add b entry col row (Some hamming_weight)) parsed))))))))
    end
  else Ret (Ok (b, parsed)).

(** compressed.rs:250-380, try_from. *)
Definition cgraph_try_from (p : platform) (bytes : list N) : outcome (result cgraph) :=
  let len := N.of_nat (length bytes) in
  if len <? COMPRESSED_GRAPH_BYTES_HEADER_SIZE
  then Ret (Err (InvalidFormat "Slice is too short to contain CompressedGraph header"))
  else
    orbind (Ret (c_read_be p 4 bytes 0)) (fun magic_number =>
    orbind (Ret (c_read_be p 4 bytes 4)) (fun version =>
    orbind (Ret (c_read_be p 8 bytes 8)) (fun dimension =>
    orbind (Ret (c_read_be p 8 bytes 16)) (fun entry_count =>
    orbind (Ret (c_read_be p 8 bytes 24)) (fun edge_count =>
    orbind (Ret (c_read_be p 8 bytes 32)) (fun vertex_count =>
    obind (byte_at bytes 40) (fun undirected_flag =>
    obind (byte_at bytes 41) (fun level =>
    if negb (magic_number =? COMPRESSED_GRAPH_BYTES_MAGIC_NUMBER)
    then Ret (Err (InvalidFormat "Incorrect magic number"))
    else if version <? COMPRESSED_GRAPH_BYTES_VERSION
    then Ret (Err (InvalidFormat "Outdated CompressedGraph version"))
    else if negb (version =? COMPRESSED_GRAPH_BYTES_VERSION)
    then Ret (Err (InvalidFormat "Unrecognized CompressedGraph version"))
    else if 1 <? undirected_flag
    then Ret (Err (InvalidFormat "Invalid compressed graph direction flag"))
    else if negb ((1 <=? level) && (level <=? 64))
    then Ret (Err (InvalidFormat "Invalid compression level"))
    else if negb (dimension =? compressed_matrix_dimension vertex_count)
    then Ret (Err (InvalidFormat
           "CompressedGraph matrix dimension does not match vertex count"))
    else if (dimension =? 0) && negb (entry_count =? 0)
    then Ret (Err (InvalidFormat
           "CompressedGraph with zero matrix dimension cannot contain entries"))
    else
      orbind (Ret (cgraph_expected_size p entry_count)) (fun expected =>
      if len <? expected
      then Ret (Err (InvalidFormat
             "Slice is too short to contain all expected graph edges"))
      else if expected <? len
      then Ret (Err (InvalidFormat
             "Slice is too long represent the expected graph edges"))
      else
        orbind (cgraph_read_loop p (length bytes) bytes expected dimension vertex_count
                  COMPRESSED_GRAPH_BYTES_HEADER_SIZE
                  (builder_new (undirected_flag =? 1) vertex_count level) 0)
          (fun '(b, parsed) =>
        if negb (parsed =? edge_count)
        then Ret (Err (InvalidFormat "CompressedGraph edge count does not match header"))
        else Ret (Ok (builder_finish b))))
    )))))))).
