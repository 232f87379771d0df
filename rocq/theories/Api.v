(** Vocabulary about the public API used by the theorem statements: call histories,
    observable equality, and the states reachable through safe code. *)
From Verif Require Import Base F64 Numeric Adj Sq Standard Compressed Spec.

(** One mutating call on a Graph. *)
Definition step (g : graph) (op : gop) : graph :=
  match op with
  | OpAddVertex v ts => add_vertex g v ts
  | OpAddEdge u v => add_edge g u v
  | OpDeleteEdge u v => delete_edge g u v
  end.

(** A history of calls on a new graph. *)
Definition run (und : bool) (ops : list gop) : graph :=
  fold_left step ops (if und then new_undirected else new_directed).

(** Two graphs that no observer method of the API can tell apart (up to order of
    iteration). *)
Definition same_graph (g g' : graph) : Prop :=
  is_undirected g = is_undirected g' /\ vertex_count g = vertex_count g' /\
  edge_count g = edge_count g' /\
  forall u v, does_edge_exist g u v = does_edge_exist g' u v.

(** The same for compressed graphs. *)
Definition same_cgraph (g g' : cgraph) : Prop :=
  c_is_undirected g = c_is_undirected g' /\ c_vertex_count g = c_vertex_count g' /\
  c_edge_count g = c_edge_count g' /\ compression_level g = compression_level g' /\
  (forall c r, get_compressed_matrix_entry g c r = get_compressed_matrix_entry g' c r) /\
  (forall u v, c_does_edge_exist g u v = c_does_edge_exist g' u v).

(** The block of size [b] at block column [c] and block row [r] (cells (u, v) with
    u/b = c and v/b = r) contains exactly [k] edges. *)
Definition block_has (g : graph) (b c r : N) (k : N) : Prop :=
  has_card (fun '(u, v) => does_edge_exist g u v = true /\ u / b = c /\ v / b = r) k.

(** What Rust guarantees of every platform: [usize] has at least 16 and at most 64 bits,
    and no allocation exceeds [isize::MAX] bytes. *)
Record wf_platform (p : platform) : Prop := WfPlatform {
  wf_usize_min : 65535 <= usize_max p;
  wf_usize_max : usize_max p < two64;
  wf_alloc : forall n, can_alloc p n = true -> 2 * n <= usize_max p;
}.

(** A byte slice. *)
Definition is_slice (p : platform) (bytes : list N) : Prop :=
  Forall is_byte bytes /\ 2 * N.of_nat (length bytes) <= usize_max p.

(** A u64 slice. *)
Definition is_u64_slice (l : list N) : Prop := Forall is_u64 l.

(** Adjacency matrices built through the public API. *)
Inductive adj_reach : adj -> Prop :=
| ar_new : adj_reach adj_new
| ar_set m e c r : adj_reach m -> is_byte e -> is_u64 c -> is_u64 r ->
    adj_reach (adj_set_entry m e c r)
| ar_zero m c r : adj_reach m -> is_u64 c -> is_u64 r -> adj_reach (adj_zero_entry m c r).

(** Graphs and compressed graphs obtainable through any history of safe API calls.  Each
    step may see different hash orders. *)
Inductive reach (p : platform) : graph -> Prop :=
| r_new_directed : reach p new_directed
| r_new_undirected : reach p new_undirected
| r_directed_from m : adj_reach m -> reach p (directed_from m)
| r_undirected_from o m g : adj_reach m -> undirected_from o m = Ok g -> reach p g
| r_add_vertex g v ts : reach p g -> is_u64 v -> is_u64_slice (default [] ts) ->
    reach p (add_vertex g v ts)
| r_add_edge g u v : reach p g -> is_u64 u -> is_u64 v -> reach p (add_edge g u v)
| r_delete_edge g u v : reach p g -> is_u64 u -> is_u64 v -> reach p (delete_edge g u v)
| r_try_from bytes g : is_slice p bytes -> graph_try_from p bytes = Ret (Ok g) -> reach p g
| r_approximate o1 o2 g b t g' : reach p g -> is_u64 b -> is_f64 t = true ->
    approximate p o1 o2 g b t = Ret g' -> reach p g'
| r_decompress o cg g : creach p cg -> decompress p o cg = Ret g -> reach p g
with creach (p : platform) : cgraph -> Prop :=
| cr_compress o1 o2 g l cg : reach p g -> is_byte l -> compress p o1 o2 g l = Ret cg ->
    creach p cg
| cr_try_from bytes cg : is_slice p bytes -> cgraph_try_from p bytes = Ret (Ok cg) ->
    creach p cg.

(** A compressed graph made by hand: CompressedGraphBuilder::new, any number of
    add_compressed_matrix_entry calls (entry, col, row, hamming_weight), then the unsafe
    finish. *)
Definition build (und : bool) (n level : N) (calls : list (N * N * N * option N)) : cgraph :=
  builder_finish (fold_left (fun b '(e, c, r, h) => builder_add b e c r h) calls
    (builder_new und n level)).
