(** Specification vocabulary for the property theorems.  Nothing here refers to the model
    of the code; only integer and text types from Base.v are used. *)
From Coq Require Import Ascii String.
From Verif Require Import Base.

(** ** Counting: exactly [k] objects satisfy [P]. *)
Definition has_card {A} (P : A -> Prop) (k : N) : Prop :=
  exists l : list A, NoDup l /\ (forall x, x ∈ l <-> P x) /\ N.of_nat (length l) = k.

(** ** Mathematical graphs: a direction flag, a number of vertices, a set of ordered
    pairs. *)
Record sgraph : Type := SGraph {
  sg_und : bool;
  sg_n : N;
  sg_E : gset (N * N);
}.

Definition s_empty (und : bool) : sgraph := SGraph und 0 ∅.

(** u64::MAX cannot be a vertex id, because the vertex count would not fit in a u64. *)
Definition valid_id (v : N) : bool := v <? u64_max.

Definition s_add_edge (g : sgraph) (u v : N) : sgraph :=
  if valid_id u && valid_id v then
    SGraph (sg_und g) (N.max (sg_n g) (N.max (u + 1) (v + 1)))
      ({[(u, v)]} ∪ (if sg_und g then {[(v, u)]} else ∅) ∪ sg_E g)
  else g.

Definition s_delete_edge (g : sgraph) (u v : N) : sgraph :=
  SGraph (sg_und g) (sg_n g)
    (sg_E g ∖ ({[(u, v)]} ∪ (if sg_und g then {[(v, u)]} else ∅))).

Definition s_add_vertex (g : sgraph) (v : N) (ts : option (list N)) : sgraph :=
  match ts with
  | Some (t :: ts') => fold_left (fun g t => s_add_edge g v t) (t :: ts') g
  | _ => if valid_id v then SGraph (sg_und g) (N.max (sg_n g) (v + 1)) (sg_E g) else g
  end.

(** One call of a mutating method of Graph. *)
Inductive gop : Type :=
| OpAddVertex (v : N) (ts : option (list N))
| OpAddEdge (u v : N)
| OpDeleteEdge (u v : N).

Definition s_step (g : sgraph) (op : gop) : sgraph :=
  match op with
  | OpAddVertex v ts => s_add_vertex g v ts
  | OpAddEdge u v => s_add_edge g u v
  | OpDeleteEdge u v => s_delete_edge g u v
  end.

Definition s_run (und : bool) (ops : list gop) : sgraph := fold_left s_step ops (s_empty und).

(** ** Text *)

(** Items separated by [sep]. *)
Fixpoint join (sep : text) (l : list text) : text :=
  match l with
  | [] => []
  | [x] => x
  | x :: l' => x ++ sep ++ join sep l'
  end.

(** A matrix of [n] rows and columns; [cell col row] is the text of one cell. *)
Definition matrix_text (n : N) (cell : N -> N -> text) : text :=
  join [cr; lf]
    ((fun row => txt "[ " ++ join (txt ", ") ((fun col => cell col row) <$> range n)
                 ++ txt " ]") <$> range n).

(** ** File formats *)

(** Big-endian encoding of a 64-bit word. *)
Definition be64 (x : N) : list N :=
  [x / 2^56 mod 256; x / 2^48 mod 256; x / 2^40 mod 256; x / 2^32 mod 256;
   x / 2^24 mod 256; x / 2^16 mod 256; x / 2^8 mod 256; x mod 256].

(** A Graph file with the given direction flag, vertex count, edge-count field and edge
    list. *)
Definition graph_file (und : bool) (n count : N) (edges : list (N * N)) : list N :=
  [0x7a; 0xe7; 0x1f; 0xfd] ++ [0; 0; 0; 1] ++ be64 n ++ be64 count
  ++ [if und then 1 else 0] ++ [0]
  ++ (edges ≫= fun '(u, v) => be64 u ++ be64 v).

(** A CompressedGraph file: matrix dimension, entry-count field, edge-count field, vertex
    count, flag, level and (word, column, row) triples. *)
Definition cgraph_file (und : bool) (dim count ecount n level : N)
    (entries : list (N * N * N)) : list N :=
  [0x71; 0xff; 0x7a; 0xed] ++ [0; 0; 0; 2] ++ be64 dim ++ be64 count ++ be64 ecount
  ++ be64 n ++ [if und then 1 else 0] ++ [level]
  ++ (entries ≫= fun '(w, c, r) => be64 w ++ be64 c ++ be64 r).

(** The edges a list of pairs describes: the pairs, and their mirrors when undirected. *)
Definition described (und : bool) (edges : list (N * N)) (e : N * N) : Prop :=
  e ∈ edges \/ (und = true /\ (e.2, e.1) ∈ edges).

(** A Graph file is valid when every id is below the vertex count and the number of
    distinct edges it describes is the number of pairs. *)
Record valid_graph_file (und : bool) (n : N) (edges : list (N * N)) : Prop := ValidGraphFile {
  vg_count : n < two64;
  vg_ids : forall u v, (u, v) ∈ edges -> u < n /\ v < n;
  vg_edges : has_card (described und edges) (N.of_nat (length edges));
}.

(** Number of ones of a 64-bit word, and of all words of a list of entries. *)
Definition popcount (w : N) : N :=
  N.of_nat (length (filter (fun i => N.testbit w i = true) (range 64))).
Definition popcount_total (entries : list (N * N * N)) : N :=
  fold_right (fun '(w, _, _) total => popcount w + total) 0 entries.

(** Number of 8x8 blocks per row of the adjacency matrix, at least one. *)
Definition blocks_of (n : N) : N := N.max 1 ((n + 7) / 8).

(** A CompressedGraph file is valid when its level is between 1 and 64, every word is
    non-zero and lies inside the block matrix, and every bit that is set stands for an
    edge between ids below the vertex count (bit i of the word at column c and row r is
    the edge from 8c + i mod 8 to 8r + i/8). *)
Record valid_cgraph_file (n level : N) (entries : list (N * N * N)) : Prop := ValidCgraphFile {
  vc_count : n < two64;
  vc_level : 1 <= level <= 64;
  vc_words : forall w c r, (w, c, r) ∈ entries -> 0 < w < two64;
  vc_keys : forall w c r, (w, c, r) ∈ entries -> c < blocks_of n /\ r < blocks_of n;
  vc_bits : forall w c r i, (w, c, r) ∈ entries -> i < 64 -> N.testbit w i = true ->
    8 * c + i mod 8 < n /\ 8 * r + i / 8 < n;
  vc_total : popcount_total entries < two64;
}.

(** The word the last entry for block (c, r) gives, 0 when there is none. *)
Definition last_word (entries : list (N * N * N)) (c r : N) : N :=
  fold_left (fun acc '(w, c', r') => if (c =? c') && (r =? r') then w else acc) entries 0.

(** Entries that mention every block at most once. *)
Definition distinct_blocks (entries : list (N * N * N)) : Prop :=
  NoDup ((fun '(_, c, r) => (c, r)) <$> entries : list (N * N)).

(** ** Compressed graphs made by hand.  A call adds a word at a block (column, row) with an
    optional number of edges. *)

(** The word the last call that stores something at block (c, r) leaves there. *)
Definition last_stored (calls : list (N * N * N * option N)) (c r : N) : N :=
  fold_left (fun acc '(e, c', r', _) =>
    if (c =? c') && (r =? r') && valid_id c' && valid_id r' && negb (e =? 0) then e else acc)
    calls 0.

(** The dimension of the block matrix after the calls. *)
Definition built_dim (n : N) (calls : list (N * N * N * option N)) : N :=
  fold_left (fun d '(_, c, r, _) =>
    if valid_id c && valid_id r then N.max d (N.max (c + 1) (r + 1)) else d) calls (blocks_of n).

(** The number of edges the calls announce. *)
Definition call_weight (call : N * N * N * option N) : N :=
  let '(e, _, _, h) := call in default (popcount e) h.
Definition weight_total (calls : list (N * N * N * option N)) : N :=
  fold_right (fun call total => call_weight call + total) 0 calls.
