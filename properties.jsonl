{"id": "C01", "title": "Graph behaves as a set of edges plus a vertex count", "statement": "After any sequence of add_vertex / add_edge / delete_edge calls on a new directed or undirected Graph, is_undirected, vertex_count, edge_count and does_edge_exist(u,v) for every u,v return what a mathematical graph (a flag, a number, a set of ordered pairs) would after the same sequence. An edge counts as 2^64-representable only: edge_count is the number of edges modulo 2^64.", "quantifier": "every direction flag, every finite sequence of calls with any u64 arguments and any to_vertexs slices, every queried pair", "why_tests_cant": "histories are unbounded; a test fixes one short sequence", "anchors": ["graphrox-rs/src/graph/standard.rs:StandardGraph::{new_directed,new_undirected,add_vertex,add_edge,delete_edge,does_edge_exist,edge_count,vertex_count}", "graphrox-rs/src/matrix/csr_adjacency_matrix.rs:CsrAdjacencyMatrix::{set_entry,zero_entry,get_entry}"]}
{"id": "C02", "title": "vertex_count growth", "statement": "add_edge(u,v) with u,v != u64::MAX sets vertex_count to max(old, u+1, v+1); delete_edge never changes vertex_count; add_vertex(v, None) or with an empty slice sets it to max(old, v+1); no call ever lowers it.", "quantifier": "every graph reachable through the safe API and every u64 argument", "why_tests_cant": "boundary cases (largest id, already covered id, zero) are infinitely many combinations with graph state", "anchors": ["graphrox-rs/src/graph/standard.rs:add_edge,add_vertex,delete_edge,vertex_count", "graphrox-rs/src/matrix/csr_adjacency_matrix.rs:set_entry"]}
{"id": "C03", "title": "Undirected graphs stay symmetric", "statement": "In every undirected Graph obtainable through the safe API (constructors, mutation, undirected_from, decoding bytes, approximate, decompress), does_edge_exist(u,v) = does_edge_exist(v,u).", "quantifier": "every safely reachable graph and every pair of ids", "why_tests_cant": "reachability goes through six kinds of constructors and unbounded histories", "anchors": ["graphrox-rs/src/graph/standard.rs:StandardGraph", "graphrox-rs/src/graph/compressed.rs:CompressedGraph::decompress"]}
{"id": "C04", "title": "Edges only join existing vertices", "statement": "If does_edge_exist(u,v) then u < vertex_count() and v < vertex_count(), and vertex_count() fits in u64, for every Graph obtainable through the safe API.", "quantifier": "every safely reachable graph and every pair", "why_tests_cant": "an invariant over all histories", "anchors": ["graphrox-rs/src/graph/standard.rs:StandardGraph", "graphrox-rs/src/matrix/csr_adjacency_matrix.rs:set_entry"]}
{"id": "C05", "title": "edge_count is the number of edges", "statement": "For every safely reachable Graph, edge_count() is the number of distinct ordered pairs (u,v) with does_edge_exist(u,v), modulo 2^64 (so exactly that number whenever it is representable).", "quantifier": "every safely reachable graph", "why_tests_cant": "double counting or missed decrements only show on particular histories", "anchors": ["graphrox-rs/src/graph/standard.rs:edge_count", "graphrox-rs/src/matrix/csr_adjacency_matrix.rs:entry_count,set_entry,zero_entry"]}
{"id": "C06", "title": "Graph iteration visits each edge exactly once", "statement": "Iterating a Graph (for any hash iteration order) yields a list without repetition whose members are exactly the existing edges, whose length is edge_count() (mod 2^64), also after deletions have left empty columns; after the last edge the iterator returns None.", "quantifier": "every safely reachable graph, every iteration order of the hash tables", "why_tests_cant": "hash order is random per process; empty columns can occur in any pattern", "anchors": ["graphrox-rs/src/graph/standard.rs:StandardGraphIter::next", "graphrox-rs/src/matrix/csr_adjacency_matrix.rs:CsrAdjacencyMatrixIter::next"]}
{"id": "C07", "title": "In-edge and out-edge lists and degrees", "statement": "get_vertex_out_edges(v) lists exactly once each w with edge v->w; get_vertex_in_edges(v) exactly once each w with edge w->v; get_vertex_out_degree / get_vertex_in_degree are the lengths of those lists.", "quantifier": "every safely reachable graph, every vertex id, every hash order", "why_tests_cant": "directed and undirected graphs take different code paths; undirected correctness depends on a global invariant", "anchors": ["graphrox-rs/src/graph/standard.rs:get_vertex_in_edges,get_vertex_out_edges,get_vertex_in_degree,get_vertex_out_degree", "graphrox-rs/src/matrix/csr_adjacency_matrix.rs:get_sparse_col_vector,get_sparse_row_vector,col_nonzero_entry_count,row_nonzero_entry_count"]}
{"id": "C08", "title": "Degree sums equal the edge count", "statement": "The sum over all vertices below vertex_count of out-degrees equals the number of edges, and so does the sum of in-degrees.", "quantifier": "every safely reachable graph", "why_tests_cant": "a global counting identity over unbounded graphs", "anchors": ["graphrox-rs/src/graph/standard.rs:get_vertex_in_degree,get_vertex_out_degree,edge_count"]}
{"id": "C09", "title": "undirected_from validates exactly symmetry", "statement": "undirected_from(m) succeeds iff m's nonzero entries are symmetric, for every hash order; on success the graph is undirected with exactly m's entries, dimension and entry count; otherwise it returns InvalidFormat. directed_from(m) always yields a directed graph with exactly m's entries.", "quantifier": "every adjacency matrix reachable by set_entry/zero_entry, every hash order", "why_tests_cant": "the asymmetric pair may be anywhere and be visited at any time", "anchors": ["graphrox-rs/src/graph/standard.rs:undirected_from,directed_from"]}
{"id": "C10", "title": "Algebra of edge insertion and removal", "statement": "add_edge is idempotent and add_edge calls commute; delete_edge calls commute; add_edge(u,v) then delete_edge(u,v) gives the edges of delete_edge(u,v) alone; deleting an absent edge changes nothing observable; operations touching other pairs do not affect does_edge_exist of a pair.", "quantifier": "every safely reachable graph and all u64 arguments", "why_tests_cant": "laws quantify over all states and arguments", "anchors": ["graphrox-rs/src/graph/standard.rs:add_edge,delete_edge"]}
{"id": "C11", "title": "add_vertex with a target list", "statement": "add_vertex(v, Some(ts)) adds exactly the edges v->t (and t->v when undirected) for every t in ts, and afterwards v < vertex_count() (the vertex exists).", "quantifier": "every safely reachable graph, every v and every slice of u64", "why_tests_cant": "the slice is arbitrary; the failing slices contain only u64::MAX", "anchors": ["graphrox-rs/src/graph/standard.rs:add_vertex"]}
{"id": "C12", "title": "matrix_string of a Graph is the adjacency matrix", "statement": "When matrix_string() succeeds it is, for vertex_count n>0, n rows joined by CR LF, row j being '[ ' + entries (0,j)..(n-1,j) joined by ', ' + ' ]' with '1' iff edge i->j; empty for n=0; its length is exactly the reserved 3n^2+4n-2 bytes; it fails only with CapacityOverflow, when that size overflows usize or cannot be allocated.", "quantifier": "every adjacency matrix / safely reachable graph, every platform word size and allocator outcome", "why_tests_cant": "size is unbounded and the capacity formula must match the text for every n", "anchors": ["graphrox-rs/src/matrix/csr_adjacency_matrix.rs:try_to_string", "graphrox-rs/src/graph/standard.rs:matrix_string"]}
{"id": "C13", "title": "matrix_string determines the graph", "statement": "Two graphs whose matrix_string() succeed with equal strings have the same vertex count and the same edges.", "quantifier": "every pair of safely reachable graphs", "why_tests_cant": "a two-graph universally quantified statement", "anchors": ["graphrox-rs/src/matrix/csr_adjacency_matrix.rs:try_to_string"]}
{"id": "C14", "title": "Matrix set_entry overwrites", "statement": "After set_entry(e,c,r) with c,r != u64::MAX, get_entry(c,r) is the value just set (for the adjacency matrix: nonzero iff e nonzero), including e = 0 over an existing nonzero entry; every other cell is unchanged.", "quantifier": "every reachable matrix (both kinds), every value and position", "why_tests_cant": "needs all prior states of the overwritten cell", "anchors": ["graphrox-rs/src/matrix/csr_adjacency_matrix.rs:set_entry", "graphrox-rs/src/matrix/csr_square_matrix.rs:set_entry", "graphrox-rs/src/matrix/mod.rs:MatrixRepresentation::set_entry"]}
{"id": "C15", "title": "Identifiers equal to u64::MAX are ignored without corruption", "statement": "add_edge, add_vertex(v,None), set_entry and increment_entry with an index equal to u64::MAX leave the structure unchanged, never overflow and never panic; all other u64 indices are honoured.", "quantifier": "every reachable graph/matrix and every argument", "why_tests_cant": "single extreme value combined with all states", "anchors": ["graphrox-rs/src/matrix/csr_adjacency_matrix.rs:set_entry", "graphrox-rs/src/matrix/csr_square_matrix.rs:set_entry,increment_entry", "graphrox-rs/src/graph/standard.rs:add_edge,add_vertex"]}
{"id": "C16", "title": "Graph byte round trip", "statement": "For every safely reachable Graph with fewer than 2^64 edges, if to_bytes() succeeds then Graph::try_from of those bytes succeeds and gives a graph with the same direction flag, vertex count, edge count and edges, whatever hash order was used for writing.", "quantifier": "every safely reachable graph, every hash order, every platform word size and allocator", "why_tests_cant": "unbounded graphs and arbitrary write order", "anchors": ["graphrox-rs/src/graph/standard.rs:to_bytes,TryFrom<&[u8]>"]}
{"id": "C17", "title": "Graph file layout", "statement": "to_bytes() succeeds exactly when 26+16*edge_count fits usize and can be allocated (otherwise CapacityOverflow) and then returns exactly: magic 7a e7 1f fd, version 0 0 0 1, big-endian u64 vertex count, big-endian u64 edge count, direction byte, a 0 byte, then each edge once as two big-endian u64s; 26+16*edge_count bytes in total.", "quantifier": "every safely reachable graph, hash order, platform", "why_tests_cant": "byte layout for all field values", "anchors": ["graphrox-rs/src/graph/standard.rs:to_bytes"]}
{"id": "C18", "title": "Graph decoding accepts exactly the documented files", "statement": "Graph::try_from(bytes) returns Ok iff the bytes are a header followed by exactly edge-count pairs, correct magic/version/flags, all ids below the stated vertex count, and the number of distinct edges (after mirroring when undirected) equals the header count; the result is the graph those pairs describe. Every other byte string gives InvalidFormat. Decoding never panics and never loops.", "quantifier": "every byte string of any length, every platform word size", "why_tests_cant": "all byte strings", "anchors": ["graphrox-rs/src/graph/standard.rs:TryFrom<&[u8]>,read_u32_be,read_u64_be"]}
{"id": "C19", "title": "Decoded graphs re-encode to themselves", "statement": "If Graph::try_from(b) = Ok(g) and g.to_bytes() = Ok(b') then Graph::try_from(b') = Ok(g') with g' observably equal to g.", "quantifier": "every accepted byte string", "why_tests_cant": "quantifies over all accepted inputs", "anchors": ["graphrox-rs/src/graph/standard.rs:TryFrom<&[u8]>,to_bytes"]}
{"id": "C20", "title": "Truncated or extended graph files are rejected", "statement": "If b is accepted by Graph::try_from then no proper prefix of b and no proper extension of b is accepted (same for CompressedGraph::try_from).", "quantifier": "every accepted byte string and every cut/extension", "why_tests_cant": "every cut point of every file", "anchors": ["graphrox-rs/src/graph/standard.rs:TryFrom<&[u8]>", "graphrox-rs/src/graph/compressed.rs:TryFrom<&[u8]>"]}
{"id": "C21", "title": "Undirected graph files are canonical", "statement": "An accepted graph file lists every edge of the resulting graph exactly once.", "quantifier": "every accepted byte string", "why_tests_cant": "all byte strings", "anchors": ["graphrox-rs/src/graph/standard.rs:TryFrom<&[u8]>"]}
{"id": "C22", "title": "Compression keeps a block iff it has at least compression_level edges", "statement": "For every safely reachable Graph and level l (clamped to 1..64), compress(l).does_edge_exist(u,v) iff the graph has edge (u,v) and the 8x8 block of the adjacency matrix containing it holds at least l edges.", "quantifier": "every safely reachable graph, every u8 level, every pair, every hash order", "why_tests_cant": "floating point threshold and all block fill patterns", "anchors": ["graphrox-rs/src/graph/standard.rs:compress,find_avg_pool_matrix", "graphrox-rs/src/graph/compressed.rs:does_edge_exist"]}
{"id": "C23", "title": "Exact retention rule of compress for every graph size", "statement": "With n = vertex_count >= 1 and b = min(8,n), compress(l) keeps an 8x8 block with k edges iff 64*k >= clamp(l)*b^2; kept blocks keep all their edges, dropped blocks keep none.", "quantifier": "every safely reachable graph, every level, every pair, every hash order", "why_tests_cant": "all block patterns, IEEE-754 arithmetic", "anchors": ["graphrox-rs/src/graph/standard.rs:compress,find_avg_pool_matrix"]}
{"id": "C24", "title": "Level 1 compression is lossless", "statement": "For every safely reachable Graph g and level 0 or 1, compress(level) has the same direction, vertex count, edge count and edges as g, and decompress() of it gives a graph observably equal to g.", "quantifier": "every safely reachable graph, every hash order", "why_tests_cant": "all graphs", "anchors": ["graphrox-rs/src/graph/standard.rs:compress", "graphrox-rs/src/graph/compressed.rs:decompress"]}
{"id": "C25", "title": "Decompressing a compressed graph restores exactly the kept edges", "statement": "For every safely reachable Graph and every level, compress(l).decompress() succeeds without overflow and has the same direction flag and vertex count as the original, and exactly the edges of the compressed graph.", "quantifier": "every safely reachable graph, level, hash orders, build profile", "why_tests_cant": "all graphs and levels", "anchors": ["graphrox-rs/src/graph/compressed.rs:decompress", "graphrox-rs/src/graph/standard.rs:compress"]}
{"id": "C26", "title": "Compressed edge_count is the number of its edges", "statement": "For every CompressedGraph obtainable through the safe API (compress or try_from), edge_count() is the number of ordered pairs (u,v) with does_edge_exist(u,v).", "quantifier": "every graph and level; every accepted byte string", "why_tests_cant": "all inputs", "anchors": ["graphrox-rs/src/graph/standard.rs:compress", "graphrox-rs/src/graph/compressed.rs:TryFrom<&[u8]>,edge_count,does_edge_exist"]}
{"id": "C27", "title": "Compressed undirected graphs are symmetric", "statement": "For every undirected CompressedGraph obtainable through the safe API, does_edge_exist(u,v) = does_edge_exist(v,u).", "quantifier": "every graph and level; every accepted byte string", "why_tests_cant": "all inputs", "anchors": ["graphrox-rs/src/graph/standard.rs:compress", "graphrox-rs/src/graph/compressed.rs:TryFrom<&[u8]>"]}
{"id": "C28", "title": "Higher compression levels keep fewer edges", "statement": "If l1 <= l2 then every edge of compress(l2) is an edge of compress(l1), and every edge of either is an edge of the graph; vertex count, direction are unchanged; compression_level() is l clamped to 1..64.", "quantifier": "every safely reachable graph, all levels", "why_tests_cant": "all pairs of levels and graphs", "anchors": ["graphrox-rs/src/graph/standard.rs:compress", "graphrox-rs/src/util/mod.rs:clamp_compression_level"]}
{"id": "C29", "title": "Compressed matrix entries encode 8x8 blocks bit by bit", "statement": "get_compressed_matrix_entry(c,r) has bit 8*j+i set iff does_edge_exist(8c+i, 8r+j), for i,j<8, for every compressed graph obtainable through the safe API or the builder; so two compressed graphs with the same entries have the same edges and conversely.", "quantifier": "every compressed graph, every block, every bit", "why_tests_cant": "64 bits times all blocks times all graphs", "anchors": ["graphrox-rs/src/graph/compressed.rs:get_compressed_matrix_entry,does_edge_exist"]}
{"id": "C30", "title": "CompressedGraph byte round trip", "statement": "For every CompressedGraph produced by Graph::compress on a safely reachable graph (with fewer than 2^64 edges), if to_bytes() succeeds then CompressedGraph::try_from of the bytes succeeds and gives the same direction, level, vertex count, edge count and matrix entries.", "quantifier": "every safely reachable graph, level, hash order, platform", "why_tests_cant": "unbounded graphs", "anchors": ["graphrox-rs/src/graph/compressed.rs:to_bytes,TryFrom<&[u8]>", "graphrox-rs/src/graph/standard.rs:compress"]}
{"id": "C31", "title": "CompressedGraph file layout", "statement": "CompressedGraph::to_bytes() succeeds exactly when 42+24*entries fits usize and can be allocated and then returns magic 71 ff 7a ed, version 2, big-endian matrix dimension, entry count, edge count, vertex count, direction byte, level byte, then (entry,col,row) triples of big-endian u64s, each stored entry exactly once.", "quantifier": "every compressed graph built by the public API, hash order, platform", "why_tests_cant": "byte layout for all values", "anchors": ["graphrox-rs/src/graph/compressed.rs:to_bytes"]}
{"id": "C32", "title": "CompressedGraph decoding accepts exactly the documented files", "statement": "CompressedGraph::try_from(bytes) returns Ok iff magic, version, flag, level are right, the matrix dimension matches the vertex count, exactly entry-count triples follow, every triple has a nonzero word whose edges lie below the vertex count, and the popcounts sum to the header edge count; every other byte string gives InvalidFormat; decoding never panics, overflows or loops.", "quantifier": "every byte string, every platform word size", "why_tests_cant": "all byte strings", "anchors": ["graphrox-rs/src/graph/compressed.rs:TryFrom<&[u8]>,validate_compressed_entry_bounds,compressed_matrix_dimension"]}
{"id": "C33", "title": "Decoded compressed graphs can be re-encoded", "statement": "If CompressedGraph::try_from(b) = Ok(g) and g.to_bytes() = Ok(b') then CompressedGraph::try_from(b') = Ok(g') with g' observably equal to g.", "quantifier": "every accepted byte string", "why_tests_cant": "all accepted inputs; failing ones repeat a block", "anchors": ["graphrox-rs/src/graph/compressed.rs:TryFrom<&[u8]>,to_bytes"]}
{"id": "C34", "title": "Average pool matrix dimensions and cells", "statement": "find_avg_pool_matrix(b) of a graph with n>0 vertices has dimension ceil(n/b') with b' = clamp(b,1,n), stores exactly the blocks that contain an edge, and entry_count is the number of such blocks; for n=0 the matrix is empty. This holds for every hash order and the result does not depend on it.", "quantifier": "every safely reachable graph, every block dimension below 2^32, every hash order", "why_tests_cant": "all graphs and block sizes", "anchors": ["graphrox-rs/src/graph/standard.rs:find_avg_pool_matrix", "graphrox-rs/src/matrix/csr_square_matrix.rs:increment_entry,set_minimum_dimension,multiply_entries_by"]}
{"id": "C35", "title": "Average pool entries are the block averages", "statement": "For block dimension b' = clamp(b,1,n) below 2^32, entry (c,r) of find_avg_pool_matrix(b) is a finite double in [0,1], zero iff the block has no edge, within relative error 2^-51 of min(k,2^53)/b'^2 where k is the number of edges in the block (the counter is a double and saturates), and exactly that value when b' is a power of two.", "quantifier": "every safely reachable graph, every block dimension below 2^32, every cell", "why_tests_cant": "IEEE rounding over all k and b", "anchors": ["graphrox-rs/src/graph/standard.rs:find_avg_pool_matrix"]}
{"id": "C36", "title": "Average pooling works for every block dimension", "statement": "find_avg_pool_matrix(b) and approximate(b,t) return block averages in [0,1] without panicking for every u64 block dimension.", "quantifier": "every safely reachable graph, every u64 block dimension, both build profiles", "why_tests_cant": "only block dimensions >= 2^32 on graphs with that many vertices misbehave", "anchors": ["graphrox-rs/src/graph/standard.rs:find_avg_pool_matrix (block_dimension * block_dimension)"]}
{"id": "C37", "title": "approximate applies the threshold to block averages", "statement": "approximate(b,t) for b>=2 and n>=2 keeps direction, has ceil(n/min(b,n)) vertices, and has edge (c,r) iff the double-precision average of block (c,r) is >= the clamped threshold; for power-of-two block dimensions this is exactly k/b^2 >= t over the reals.", "quantifier": "every safely reachable graph, block dimension below 2^32, every double threshold, every hash order", "why_tests_cant": "all graphs, thresholds, roundings", "anchors": ["graphrox-rs/src/graph/standard.rs:approximate", "graphrox-rs/src/util/mod.rs:clamp_threshold"]}
{"id": "C38", "title": "A completely full block always survives approximate", "statement": "If every cell of an (unpadded) block is an edge then approximate(b,t) has the corresponding edge for every threshold t, because the average is 1.0 and thresholds are clamped to at most 1.0.", "quantifier": "every graph, every block dimension, every threshold", "why_tests_cant": "depends on the rounding of b^2 * (1/b^2)", "anchors": ["graphrox-rs/src/graph/standard.rs:approximate,find_avg_pool_matrix"]}
{"id": "C39", "title": "Threshold clamping", "statement": "The threshold is clamped to [10^-18, 1.0]: thresholds above 1.0 act as 1.0, thresholds below 10^-18 act as 10^-18.", "quantifier": "every double including NaN, infinities, subnormals", "why_tests_cant": "all doubles", "anchors": ["graphrox-rs/src/util/mod.rs:clamp_threshold", "graphrox-rs/src/graph/standard.rs:approximate (doc)"]}
{"id": "C40", "title": "approximate with block dimension 0 or 1, or at most one vertex, is a copy", "statement": "In those cases approximate returns a graph observably equal to the original, whatever the threshold.", "quantifier": "every safely reachable graph, every threshold", "why_tests_cant": "all graphs", "anchors": ["graphrox-rs/src/graph/standard.rs:approximate"]}
{"id": "C41", "title": "approximate is monotone in the threshold", "statement": "If t1 <= t2 (as doubles) then every edge of approximate(b,t2) is an edge of approximate(b,t1); with a NaN threshold (b,n >= 2) the approximation has no edges.", "quantifier": "every safely reachable graph, block dimension below 2^32, all doubles", "why_tests_cant": "all pairs of thresholds", "anchors": ["graphrox-rs/src/graph/standard.rs:approximate"]}
{"id": "C42", "title": "Square matrix behaves as a finite map from cells to values", "statement": "After any sequence of set_entry / zero_entry / increment_entry, get_entry, dimension and entry_count agree with a partial map from cells to values; zero_entry makes exactly its cell read zero; increment_entry adds one to exactly its cell; all other cells are untouched.", "quantifier": "every element type, every finite call sequence and u64 positions", "why_tests_cant": "unbounded histories", "anchors": ["graphrox-rs/src/matrix/csr_square_matrix.rs:set_entry,zero_entry,increment_entry,get_entry,dimension,entry_count"]}
{"id": "C43", "title": "Square matrix entry_count counts non-zero entries", "statement": "entry_count() is the number of cells whose get_entry is non-zero.", "quantifier": "every element type, every reachable matrix", "why_tests_cant": "all histories; incrementing -1 stores a zero", "anchors": ["graphrox-rs/src/matrix/csr_square_matrix.rs:entry_count,increment_entry", "graphrox-rs/src/matrix/mod.rs:entry_count (doc)"]}
{"id": "C44", "title": "Square matrix iteration visits each stored cell exactly once", "statement": "Iterating a CsrSquareMatrix yields each stored (value,col,row) exactly once for any hash order; entry_count of them; values agree with get_entry.", "quantifier": "every reachable matrix, every element type, every hash order", "why_tests_cant": "hash order; empty columns", "anchors": ["graphrox-rs/src/matrix/csr_square_matrix.rs:CsrSquareMatrixIter::next"]}
{"id": "C45", "title": "Integer matrix text layout", "statement": "For unsigned and signed integer matrices (8 to 64 bits, u128), to_string_with_precision(0) (when it succeeds) is the rows joined by CR LF, each '[ ' + cells joined by ', ' + ' ]', each cell being the decimal value right-aligned to one common width which is large enough for every entry; it never writes outside its buffer. In particular for CompressedGraph::matrix_string.", "quantifier": "every reachable integer matrix, every hash order, every platform", "why_tests_cant": "in-place buffer arithmetic for all sizes and values", "anchors": ["graphrox-rs/src/matrix/csr_square_matrix.rs:to_string_with_precision", "graphrox-rs/src/graph/compressed.rs:matrix_string"]}
{"id": "C46", "title": "Matrix text shows every entry with the requested precision", "statement": "to_string_with_precision(d) prints every cell right-aligned with d decimals in its own column, for every element type and every d.", "quantifier": "every matrix, element type and precision", "why_tests_cant": "misprints need particular magnitudes, signs or precisions", "anchors": ["graphrox-rs/src/matrix/csr_square_matrix.rs:to_string_with_precision", "graphrox-rs/src/util/mod.rs:Numeric for i128 has_decimal"]}
{"id": "C47", "title": "Printing a matrix never panics", "statement": "to_string_with_precision(d) returns a string or a CapacityOverflow error, never panics, for every matrix of every element type.", "quantifier": "every matrix and precision", "why_tests_cant": "panic needs values above 1.7e38", "anchors": ["graphrox-rs/src/matrix/csr_square_matrix.rs:to_string_with_precision"]}
{"id": "C48", "title": "increment_entry is exact counting for doubles", "statement": "Calling increment_entry k times on an empty cell of a CsrSquareMatrix<f64> makes it read exactly min(k, 2^53).", "quantifier": "every matrix, cell and k", "why_tests_cant": "all k up to 2^53 and beyond", "anchors": ["graphrox-rs/src/matrix/csr_square_matrix.rs:increment_entry", "graphrox-rs/src/util/mod.rs:Numeric for f64 add_one"]}
{"id": "C49", "title": "Builder semantics", "statement": "CompressedGraphBuilder::new(u,n,l).finish() is an edgeless compressed graph with n vertices, level clamped, matrix dimension max(1,ceil(n/8)); adding entries with distinct positions and None weights gives edge_count = sum of popcounts (saturating) and does_edge_exist reads exactly the bits of the last entry stored at each block.", "quantifier": "every sequence of add_compressed_matrix_entry calls", "why_tests_cant": "unbounded sequences", "anchors": ["graphrox-rs/src/graph/compressed.rs:CompressedGraphBuilder::{new,add_compressed_matrix_entry,finish}"]}
{"id": "C50", "title": "C API null handles are inert", "statement": "Every C function given a null handle returns the documented neutral value (0, false, null, zero length) and changes nothing; from_bytes reports error 1 and a null handle iff decoding fails, 0 and a non-null handle otherwise.", "quantifier": "every C heap state and every argument", "why_tests_cant": "all heap states", "anchors": ["graphrox-c/src/lib.rs:gphrx_*"]}
{"id": "C51", "title": "C API handles are independent", "statement": "A call through one graph handle changes only the object behind it: duplicates, compressed graphs and matrices made from it and all other handles keep their observable state; freeing one handle does not affect others.", "quantifier": "every C heap state, every call sequence that never uses freed handles", "why_tests_cant": "aliasing over all histories", "anchors": ["graphrox-c/src/lib.rs:gphrx_duplicate,gphrx_add_edge,gphrx_delete_edge,gphrx_add_vertex,free_*"]}
{"id": "C52", "title": "C API refines the Rust API", "statement": "Each C function on a live handle returns what the corresponding Rust method returns on the object behind it, and out-parameters receive the list lengths.", "quantifier": "every heap state, handle and argument", "why_tests_cant": "all states", "anchors": ["graphrox-c/src/lib.rs:gphrx_*"]}
{"id": "C53", "title": "C matrix-to-string reports failure instead of aborting", "statement": "gphrx_matrix_to_string returns null when the text cannot be produced (as gphrx_matrix_to_string_with_precision does), never panics across the FFI boundary.", "quantifier": "every matrix", "why_tests_cant": "needs matrices whose text size overflows", "anchors": ["graphrox-c/src/lib.rs:gphrx_matrix_to_string", "graphrox-rs/src/matrix/csr_square_matrix.rs:Display"]}
{"id": "C54", "title": "Python sequence indexing", "statement": "For the edge/vertex/entry lists of the Python binding, l[i] for 0<=i<len is the i-th element, l[-i] for 1<=i<=len is the i-th from the end, anything else raises IndexError.", "quantifier": "every list length and every integer index", "why_tests_cant": "all lengths and indices", "anchors": ["graphrox-py/graphrox/__init__.py:_GraphEdgeList.__getitem__,_GraphVertexList.__getitem__,_CsrSquareMatrixEntryList.__getitem__"]}
{"id": "C55", "title": "Adjacency matrix behaves as a set of cells", "statement": "After any sequence of set_entry and zero_entry calls on an adjacency matrix, the matrix behaves as the set of cells (col,row) obtained by inserting a cell on set_entry with a non-zero value and removing it on zero_entry: get_entry is 1 exactly on the cells of the set and 0 elsewhere, the dimension is one more than the largest index ever passed to set_entry (it never shrinks), entry_count is the number of cells in the set, iteration and the sparse row and column vectors list exactly its cells, each once.", "quantifier": "every sequence of set_entry/zero_entry calls, every order in which the hash tables enumerate", "why_tests_cant": "unbounded call sequences and every hash order", "anchors": ["graphrox-rs/src/matrix/csr_adjacency_matrix.rs:CsrAdjacencyMatrix::set_entry,get_entry,entry_count,get_sparse_row_vector"]}
{"id": "C56", "title": "The text of a pooled matrix shows the block averages", "statement": "to_string_with_precision on the matrix find_avg_pool_matrix returns, with 1 to 65491 decimals, is a text with one row per block row in which the cell of each block shows the entry of that block correctly rounded to the requested number of decimals, right aligned in cells of equal width; it never panics and reports CapacityOverflow only when the text does not fit the platform.", "quantifier": "every reachable graph, every block dimension below 2^32 after clamping, every precision from 1 to 65491, every hash order", "why_tests_cant": "every graph, block dimension and precision", "anchors": ["graphrox-rs/src/graph/standard.rs:StandardGraph::find_avg_pool_matrix", "graphrox-rs/src/matrix/csr_square_matrix.rs:CsrSquareMatrix::to_string_with_precision"]}
{"id": "C57", "title": "C API objects can be freed exactly", "statement": "Every graph, compressed graph, matrix, byte buffer, string and list handed out by a C function is released by the matching free function called with the length that was reported, which removes that object and nothing else, so that creating and freeing leaves the heap as it was; lists of length 0 may be freed as well and freeing them changes nothing.", "quantifier": "every heap state, every object handed out", "why_tests_cant": "all heap states; leaks and double frees do not show in results", "anchors": ["graphrox-c/src/lib.rs:free_gphrx_graph,free_gphrx_edge_list,free_gphrx_vertex_list,free_gphrx_bytes_buffer,free_gphrx_string_buffer,free_gphrx_matrix,free_gphrx_matrix_entry_list,free_gphrx_compressed_graph"]}
{"id": "C58", "title": "Iterating a Python list object yields its elements", "statement": "iter() over the edge, vertex and entry lists of the Python binding yields exactly the elements of the underlying C list in order, each once, then raises StopIteration; it never reads outside the list and changes nothing.", "quantifier": "every list length and content", "why_tests_cant": "all list lengths; out-of-bounds reads do not show", "anchors": ["graphrox-py/graphrox/__init__.py:_GraphEdgeListIterator.__next__,_GraphVertexListIterator.__next__,_CsrSquareMatrixEntryListIterator.__next__"]}
{"id": "C59", "title": "The Python methods refine the Rust API and do not leak", "statement": "Every method of Graph, CompressedGraph and CsrSquareMatrix, applied to a live object, returns what the Rust method returns (converted as documented), never aborts or leaves defined behaviour where the Rust method does not panic, and leaves the heap as the Rust method does: temporaries and C buffers are released, list and graph objects handed to Python are fresh, and collecting a list object removes exactly its C list.", "quantifier": "every heap, every live object, every integer argument that fits the C parameter, every hash order", "why_tests_cant": "all heaps and histories; leaks and invalid frees do not show in results", "anchors": ["graphrox-py/graphrox/__init__.py:Graph,CompressedGraph,CsrSquareMatrix"]}
{"id": "C60", "title": "Python from_bytes accepts exactly the valid files", "statement": "Graph.from_bytes and CompressedGraph.from_bytes return the graph the Rust decoder returns when it accepts the bytes, and raise ValueError with the error description when it rejects them; in that case nothing is leaked.", "quantifier": "every bytes object", "why_tests_cant": "all byte strings", "anchors": ["graphrox-py/graphrox/__init__.py:Graph.from_bytes,CompressedGraph.from_bytes"]}
{"id": "C61", "title": "Python bytes round trip", "statement": "Graph.from_bytes(bytes(g)) is a graph equal to g, and likewise for CompressedGraph.", "quantifier": "every graph, every platform", "why_tests_cant": "every graph and platform", "anchors": ["graphrox-py/graphrox/__init__.py:Graph.__bytes__,Graph.from_bytes,CompressedGraph.__bytes__,CompressedGraph.from_bytes"]}
{"id": "C62", "title": "Graph() is undirected by default", "statement": "As its documentation says, Graph() without parameters constructs an undirected graph.", "quantifier": "every heap", "why_tests_cant": "documentation and code disagree silently", "anchors": ["graphrox-py/graphrox/__init__.py:Graph.__init__"]}
{"id": "C63", "title": "The Rust, C and Python declarations agree", "statement": "gphrx.h and the ctypes declarations of graphrox-py list exactly the functions graphrox-c exports, with parameter and result types of the same representation; the structures have the same fields at the same offsets; the error constants are equal; every call returns a value of its declared type, so Python reads returned integers unchanged.", "quantifier": "every function, every structure, every pointer size; every call on every reachable heap", "why_tests_cant": "a mismatch shows only for some values, platforms or calls, often as silent corruption", "anchors": ["graphrox-c/src/lib.rs", "graphrox-c/gphrx.h", "graphrox-py/graphrox/__init__.py:40-248"]}
{"id": "C64", "title": "Behaviour depends only on flag, vertex count and edges", "statement": "Two graphs with the same direction flag, vertex count and edges give the same results in every method, whatever their histories and hash orders: equal counts, degrees and matrix text, equal next states, edge lists and iterations up to order, compress/approximate/find_avg_pool_matrix both return indistinguishable results or both panic, encoded files differ only in record order. Likewise for compressed graphs.", "quantifier": "every pair of reachable graphs, every hash order, every argument", "why_tests_cant": "hidden state (stale counters, order dependence) shows only for some histories and hash seeds", "anchors": ["graphrox-rs/src/graph/standard.rs", "graphrox-rs/src/graph/compressed.rs"]}
{"id": "C65", "title": "The order of records in a file does not matter", "statement": "Permuting the records of a Graph or CompressedGraph file does not change whether it is accepted nor the graph decoded.", "quantifier": "every file, every permutation", "why_tests_cant": "the number of permutations; repeated blocks", "anchors": ["graphrox-rs/src/graph/standard.rs:try_from", "graphrox-rs/src/graph/compressed.rs:try_from"]}
{"id": "C66", "title": "Recompression", "statement": "Compressing at level l, decompressing and compressing at level l' keeps exactly the edges kept by compressing once at max(l, l'); with l' = l the result is indistinguishable from the first compressed graph.", "quantifier": "every reachable graph, all levels, all hash orders", "why_tests_cant": "interaction of three operations and floating-point thresholds", "anchors": ["graphrox-rs/src/graph/standard.rs:compress", "graphrox-rs/src/graph/compressed.rs:decompress"]}
{"id": "C67", "title": "Compression and approximation are monotone in the graph", "statement": "With the same number of vertices, adding edges never removes an edge from the compressed or approximated graph.", "quantifier": "every pair of reachable graphs, all levels, thresholds and block dimensions below 2^32", "why_tests_cant": "rounding could break monotonicity for rare counts", "anchors": ["graphrox-rs/src/graph/standard.rs:compress", "graphrox-rs/src/graph/standard.rs:approximate"]}
{"id": "C68", "title": "Columns and rows are treated alike", "statement": "Compressing, pooling or approximating the reversed graph gives the reverse of the result for the graph; in- and out-degrees swap.", "quantifier": "every reachable graph, all arguments", "why_tests_cant": "row/column confusion cancels in symmetric test data", "anchors": ["graphrox-rs/src/graph/standard.rs"]}
{"id": "C69", "title": "Extreme thresholds", "statement": "Thresholds that are zero or negative keep exactly the blocks with at least one edge (block dimension up to 10^9); thresholds of 1.0 or more keep exactly the full blocks when the block dimension is a power of two up to 2^26.", "quantifier": "every reachable graph, every threshold in range", "why_tests_cant": "floating-point boundary cases", "anchors": ["graphrox-rs/src/graph/standard.rs:approximate", "graphrox-rs/src/util/mod.rs:clamp_threshold"]}
{"id": "C70", "title": "Decoding reports the first defect", "statement": "Both decoders return Err(InvalidFormat(msg)) with msg the message of the first defect, in the documented order of checks, that the bytes have, and Ok exactly when they have none.", "quantifier": "every byte slice on every platform", "why_tests_cant": "tests check a handful of malformed files and only that an error is returned", "anchors": ["graphrox-rs/src/graph/standard.rs:try_from", "graphrox-rs/src/graph/compressed.rs:try_from"]}
{"id": "C71", "title": "Writing and printing report why they fail", "statement": "to_bytes, matrix_string and to_string_with_precision fail only with CapacityOverflow, whose message says whether the dimension, the size or the allocation was the obstacle; undirected_from names its reason; Display prefixes the message with 'GraphRoxError: '.", "quantifier": "every reachable graph, compressed graph and matrix on every platform", "why_tests_cant": "capacity failures need huge graphs or a failing allocator", "anchors": ["graphrox-rs/src/graph/standard.rs:to_bytes", "graphrox-rs/src/matrix/csr_square_matrix.rs:to_string_with_precision", "graphrox-rs/src/error/mod.rs"]}
{"id": "C72", "title": "Graphs generated from edge lists", "statement": "graph_from_text_file writes the undirected graph of the edges the text file lists, vertices renumbered in increasing order without gaps.", "quantifier": "every text file of comments, blank lines and pairs of non-negative numbers", "why_tests_cant": "the scripts have no tests; whether an edge is lost depends on which numbers occur in the first column", "anchors": ["scripts/generate_graph.py:10-52"]}
{"id": "C73", "title": "Validation of generated graphs", "statement": "validate_graph prints one message for exactly the edges of the text file that the graph file lacks.", "quantifier": "every text file and every graph file", "why_tests_cant": "the function looks at the variables left by the reading loop, which no single example shows", "anchors": ["scripts/generate_graph.py:55-91"]}
{"id": "C74", "title": "Compressing graph files", "statement": "compress_gphrx_file writes bytes that decode to the graph with exactly the blocks the threshold (clamped to 1..64) keeps; an empty file only for want of memory; invalid input raises TypeError; all library objects are freed.", "quantifier": "every byte string of the graph file, every integer threshold, every platform and heap", "why_tests_cant": "all graphs and thresholds, allocation failures", "anchors": ["scripts/generate_graph.py:94-99", "graphrox-py/graphrox/__init__.py:compress", "graphrox-c/src/lib.rs"]}
{"id": "C75", "title": "Choice of the library", "statement": "The library loaded is the one for the operating system and the processor: x86-64 or 64-bit ARM on Linux, Windows and Darwin, whatever the case of the machine's name; everything else raises ImportError.", "quantifier": "every platform name and machine name", "why_tests_cant": "tests run on one machine", "anchors": ["graphrox-py/graphrox/__init__.py:5-35"]}
{"id": "C76", "title": "The compressed sample graphs load", "statement": "The files sample-graphs/*.cgphrx are accepted by the decoder.", "quantifier": "the two files shipped", "why_tests_cant": "no test loads them", "anchors": ["sample-graphs/", "graphrox-rs/src/graph/compressed.rs:try_from"]}
{"id": "C77", "title": "Arguments of other types", "statement": "A call of the Python binding with an argument of another type than documented raises an exception and changes nothing.", "quantifier": "every method, every argument value (None, booleans, integers, floats, strings, bytes, lists, other objects), every heap", "why_tests_cant": "tests only pass documented types", "anchors": ["graphrox-py/graphrox/__init__.py:251-787"]}
{"id": "C78", "title": "The demonstration", "statement": "scripts/demo.py prints, for each sample graph it loads, its vertex and edge counts and the matrix text of its approximation, frees what it no longer needs, and runs to its end with the files of the repository.", "quantifier": "every content of the graph files, every environment, every block dimension below 2^32", "why_tests_cant": "no test runs the script", "anchors": ["scripts/demo.py", "sample-graphs/"]}
{"id": "C79", "title": "The header beside the library", "statement": "The build script of the C library puts a copy of gphrx.h into the directory where Cargo puts the library and changes nothing else.", "quantifier": "every crate directory, target directory, target triple, profile and file system", "why_tests_cant": "a build uses one layout", "anchors": ["graphrox-c/build.rs"]}
{"id": "C80", "title": "Python programs are memory safe", "statement": "However a Python program combines the methods of the binding, in any order and with objects going away at any time, no memory is read, written or freed that the program does not own, each object keeps its own memory untouched by the others, and when the objects are gone no memory is in use; the process ends early only for block dimensions and graphs of 2^32 or more in builds with overflow checks, or for texts with more than 65491 decimals.", "quantifier": "every program (sequence of calls, drops, index and iterator steps), every allocator and platform", "why_tests_cant": "tests run a few sequences of calls; leaks and use after free show only for particular orders", "anchors": ["graphrox-py/graphrox/__init__.py", "graphrox-c/src/lib.rs"]}
{"id": "C81", "title": "The contract of the C interface", "statement": "A call of the C interface is undefined exactly if it breaks the contract: handles are null or alive and of the right kind, output parameters are null or variables of the program, arrays that are read are long enough, lists are freed with their length. A handle stays valid and of its kind until it is passed to a freeing function, the length written beside a list is the one to free it with, every object in memory was returned to the program and not freed since, and apart from named cases no call aborts the process.", "quantifier": "every heap, call, allocator and C program", "why_tests_cant": "undefined behaviour does not show reliably in tests, and they run few sequences of calls", "anchors": ["graphrox-c/src/lib.rs", "graphrox-c/gphrx.h"]}
{"id": "C82", "title": "The unsafe constructor undirected_from_unchecked", "statement": "On a symmetric matrix undirected_from_unchecked gives the graph that undirected_from returns, so no later call can tell them apart. On any other matrix reading answers as on the directed graph of the matrix, except that in-edges are out-edges; compressing stores the same words; approximating and decompressing give every edge both ways; to_bytes writes bytes that try_from refuses; and adding every edge once more gives a proper undirected graph.", "quantifier": "every adjacency matrix reachable by set_entry/zero_entry, every hash order, platform, level, block dimension and threshold", "why_tests_cant": "the documentation leaves this case undefined and the asymmetric entries may be anywhere", "anchors": ["graphrox-rs/src/graph/standard.rs:undirected_from_unchecked"]}
{"id": "C83", "title": "Compressed graphs are smaller", "statement": "As the documentation says, compression gives a space-efficient form: the file of a compressed graph is never longer than the file of the graph. It stores one word of 24 bytes for each block kept, at least compression_level edges in each, so at most edges/compression_level words, and never more than there are blocks.", "quantifier": "every reachable graph, level, hash order and platform", "why_tests_cant": "the sizes depend on how the edges are spread over the blocks", "anchors": ["graphrox-rs/src/graph/standard.rs:compress", "graphrox-rs/src/graph/compressed.rs:to_bytes", "graphrox-rs/src/graph/standard.rs:to_bytes"]}
{"id": "C84", "title": "The two kinds of files are not confused", "statement": "No bytes are accepted both as a Graph and as a CompressedGraph. A file of one kind given to the other decoder is refused with the message about the magic number, or as too short for the header.", "quantifier": "every byte slice and platform", "why_tests_cant": "all byte strings", "anchors": ["graphrox-rs/src/graph/standard.rs:try_from", "graphrox-rs/src/graph/compressed.rs:try_from"]}
{"id": "C85", "title": "Undirected graphs count every link twice", "statement": "In an undirected graph the edge count is twice the number of links between different vertices plus the number of vertices linked to themselves (modulo 2^64). The same holds of the edge count of the compressed graph made from it, which stops at 2^64 - 1.", "quantifier": "every reachable undirected graph, level, hash order and platform", "why_tests_cant": "every history of calls and every graph", "anchors": ["graphrox-rs/src/graph/standard.rs:edge_count", "graphrox-rs/src/graph/standard.rs:add_edge", "graphrox-rs/src/graph/compressed.rs:edge_count"]}
{"id": "C86", "title": "Approximations are smaller", "statement": "With a block dimension of at least 2 and at least 2 vertices, approximate returns a graph with at most half the vertices (rounded up) and at least one, with no more edges than the original, where every edge stands for an edge inside its block. The file of an approximation is never longer than the file of the graph.", "quantifier": "every reachable graph, block dimension, threshold, hash order and platform, also where the square of the block dimension wraps", "why_tests_cant": "every graph, block dimension and threshold", "anchors": ["graphrox-rs/src/graph/standard.rs:approximate", "graphrox-rs/src/graph/standard.rs:to_bytes"]}
{"id": "C87", "title": "Approximating in steps", "statement": "With thresholds of zero or less, approximating with block dimension b1 and the result with b2 gives the same graph as approximating once with b1 * b2.", "quantifier": "every reachable graph, positive block dimensions whose product does not exceed 10^9 or the number of vertices is at most 10^9, thresholds not above zero, hash orders and platforms", "why_tests_cant": "two unbounded block dimensions and every graph", "anchors": ["graphrox-rs/src/graph/standard.rs:approximate", "graphrox-rs/src/graph/standard.rs:find_avg_pool_matrix"]}
{"id": "C88", "title": "Compression keeps the blocks that approximation marks", "statement": "For every level l from 1 to 64, compress(l) stores a block exactly when approximate(8, l/64) has the corresponding edge.", "quantifier": "every reachable graph with at least two vertices, every level from 1 to 64, every double equal to l/64, hash orders and platforms", "why_tests_cant": "the two functions decide by different double computations; they agree for all graphs but one", "anchors": ["graphrox-rs/src/graph/standard.rs:compress", "graphrox-rs/src/graph/standard.rs:approximate"]}
{"id": "C89", "title": "Average pooling keeps the number of edges", "statement": "The entries of the average pool matrix multiplied by the size of a block add up to the number of edges, exactly when the block dimension is a power of two and up to a relative error of 2^-51 otherwise.", "quantifier": "every reachable graph, block dimensions whose effective square is at most 2^53, hash orders and platforms", "why_tests_cant": "accumulated rounding over an unbounded number of blocks", "anchors": ["graphrox-rs/src/graph/standard.rs:find_avg_pool_matrix"]}
{"id": "C90", "title": "Files hold everything that is read from them", "statement": "A Graph file of k edges has 26 + 16 k bytes, and a CompressedGraph file of r records has 42 + 24 r bytes, at most r blocks and at most 64 r edges; its edge count lies between the number of its edges and 64 r.", "quantifier": "every byte slice that is accepted, every platform", "why_tests_cant": "all byte strings, among them hostile ones with repeated records", "anchors": ["graphrox-rs/src/graph/standard.rs:try_from", "graphrox-rs/src/graph/compressed.rs:try_from"]}
{"id": "C91", "title": "The text of a matrix depends on its dimension and entries only", "statement": "Two square matrices with the same dimension and the same entries have the same text at the same precision, whatever changes led to them and in whatever order their hash tables are read.", "quantifier": "every element type, every sequence of changes, every precision, every pair of hash orders, every platform", "why_tests_cant": "all histories and all hash orders; the failures need numbers beyond 10^41 or an entry that was set and removed again", "anchors": ["graphrox-rs/src/matrix/csr_square_matrix.rs:to_string_with_precision"]}
{"id": "C92", "title": "What wrong weights given to a CompressedGraphBuilder can break", "statement": "Whatever words, positions and Hamming weights a CompressedGraphBuilder is given, the bytes of the finished graph are 42 + 24k long for k stored words and depend on the weights only in the eight bytes of the edge count. Decoding them gives the same graph back when the block matrix has the dimension the vertex count asks for, every bit stands for vertices of the graph and the weights add up to the number of edges, and an error in every other case, never a panic. Decompressing panics only with overflow checks and a bit that stands for an id of 2^64 or more, and otherwise gives the edges of the bits with the least vertex count that covers them.", "quantifier": "every list of calls to the builder with any weights, every vertex count and level, every hash order, every platform for encoding and another for decoding", "why_tests_cant": "all words, positions and weights, including saturated totals and blocks beyond 2^61 that no test would allocate for", "anchors": ["graphrox-rs/src/graph/compressed.rs:add_compressed_matrix_entry", "graphrox-rs/src/graph/compressed.rs:finish", "graphrox-rs/src/graph/compressed.rs:to_bytes", "graphrox-rs/src/graph/compressed.rs:decompress"]}
{"id": "C93", "title": "Whole Python and C programs compute what the calls on each graph say", "statement": "Make a graph in a Python or C program and let the program go on in any way in which the graph is not dropped or freed. Then the graph is the mathematical graph that results from the calls made on it, in turn; calls on other objects, objects made and dropped in between and exceptions that are caught make no difference. Compressed graphs, matrices and lists made from a graph stay as they were when they were made.", "quantifier": "every Python program over the binding and every C program over the library: any number of objects, calls, drops and exceptions; every platform, hash order and allocator", "why_tests_cant": "all interleavings of calls on any number of objects, with every reuse of addresses by the allocator", "anchors": ["graphrox-py/graphrox/__init__.py:Graph", "graphrox-c/src/lib.rs:gphrx_add_vertex", "graphrox-c/src/lib.rs:gphrx_add_edge", "graphrox-c/src/lib.rs:gphrx_delete_edge"]}
{"id": "C94", "title": "From a list of edges to a compressed file and back", "statement": "Let a text file list pairs of non-negative numbers such that every target is also a source. graph_from_text_file turns it into a graph file, validate_graph then reports nothing missing, compress_gphrx_file turns the graph file into a compressed file, and loading that file in Python and decompressing it gives the undirected graph of the list, with the vertices renumbered in increasing order, without the edges of 8 by 8 blocks that hold too few listed edges for the threshold. With a threshold of at most 1 no edge is lost. A file written is empty only when there is no memory for it.", "quantifier": "every text file in the format with fewer than 2^63 pairs, every threshold, platform, hash order, allocator and heap", "why_tests_cant": "every list of edges and every threshold; needs the two file formats, the renumbering, the compression rule and the binding to agree for all inputs", "anchors": ["scripts/generate_graph.py:graph_from_text_file", "scripts/generate_graph.py:validate_graph", "scripts/generate_graph.py:compress_gphrx_file", "graphrox-py/graphrox/__init__.py:CompressedGraph.decompress"]}
{"id": "C95", "title": "Numbering the vertices differently", "statement": "Give the vertices of a graph other numbers by a bijection. The edge count stays the same, and the renamed graph can be made by adding the renamed edges to a new graph. If the bijection keeps together the vertices of each block of the average pooling, the entries of the pooling matrix and the edges of the approximation move with the blocks; in particular they stay as they are when vertices only change places inside their blocks. If it keeps blocks of eight together, compression keeps the renamed edges and stores equally many words. A renaming that takes vertices to other blocks can change what compression keeps.", "quantifier": "every graph reachable through the API, every bijection of the vertex numbers that maps blocks to blocks, every block dimension, threshold, compression level, platform and pair of hash orders", "why_tests_cant": "all graphs and all permutations; holds for unbounded sizes and needs counting edges block by block", "anchors": ["graphrox-rs/src/graph/standard.rs:find_avg_pool_matrix", "graphrox-rs/src/graph/standard.rs:approximate", "graphrox-rs/src/graph/standard.rs:compress", "graphrox-rs/src/graph/standard.rs:add_edge"]}
{"id": "C96", "title": "Graphs and matrices can be rebuilt from what they list", "statement": "Adding any list of the edges of a graph, in any order and with repetitions, to a new graph with as many vertices gives the same graph; so does adding the vertices one at a time with their lists of outgoing edges, and their lists of incoming edges give the transposed graph. A matrix without stored zeros is rebuilt by setting its entries in any order on a matrix with the same dimension. A compressed graph is rebuilt by the builder from its words, except for the edge count when the stored one was not the number of edges.", "quantifier": "every graph, compressed graph and matrix reachable through the API, every order of the listed elements, every platform and hash order", "why_tests_cant": "all graphs and matrices and all orders of their elements, including isolated vertices and trailing vertices without edges", "anchors": ["graphrox-rs/src/graph/standard.rs:get_vertex_out_edges", "graphrox-rs/src/graph/standard.rs:add_vertex", "graphrox-rs/src/matrix/csr_square_matrix.rs:set_entry", "graphrox-rs/src/graph/compressed.rs:add_compressed_matrix_entry"]}
{"id": "C97", "title": "What reading a damaged file can give", "statement": "Take a file the decoder accepts and change the bytes of one field. For graphs: any change to the magic number, the version, the edge count or the last byte of the header is refused; another vertex count is refused exactly when an edge does not fit below it, and otherwise only the vertex count differs; another flag is refused unless it is 0 or 1 and all edges go both ways, and otherwise the graph is of the other kind with the same edges. In the file of a written graph a changed id is refused or, when the graph is undirected, gives the same graph; when it is directed, exactly one edge is replaced by one the graph did not have. For compressed graphs: any change to the magic number, the version, the dimension, the number of entries or the edge count is refused; another flag 0 or 1 and another level from 1 to 64 is accepted and only that differs; another word is accepted only if it has as many set bits, so that every single flipped bit in a word is refused, and only its block differs; another position changes at most two blocks.", "quantifier": "every accepted file (every file of a graph reachable through the API for the flag and the ids), every damaged field and every other content of it, every platform and hash order", "why_tests_cant": "all files and all changes of a field; the undirected case rests on a counting argument about mirrored edges that sampling does not establish", "anchors": ["graphrox-rs/src/graph/standard.rs:try_from", "graphrox-rs/src/graph/standard.rs:to_bytes", "graphrox-rs/src/graph/compressed.rs:try_from"]}
{"id": "C98", "title": "From the build script to the library that is loaded", "statement": "The library of a target is built by build-dlls.sh exactly when the tests, the builds before it and its own build succeed; nothing is built when the tests fail; the status of the script is that of its last cd and does not depend on the tests and builds. The targets the script can build are exactly those whose libraries the Python package asks for on Linux and macOS, under the name of the target; no library asked for on Windows is one of them. Every library the package asks for, on whatever system and machine, matches a pattern of the packaged files, which are those ending in .dylib, .dll or .so.", "quantifier": "every outcome of the commands, every operating system and machine name, every file name", "why_tests_cant": "all names and all combinations of failing commands; the scripts are not run by any test", "anchors": ["graphrox-py/build-dlls.sh", "graphrox-py/pyproject.toml", "graphrox-py/graphrox/__init__.py:_load_gphrx_lib"]}
{"id": "C99", "title": "Counting in every numeric type", "statement": "Calling increment_entry k times on a cell changes no other cell. For an unsigned type the cell reads v + k as long as that fits; beyond it the calls panic in builds with overflow checks and the cell reads v + k modulo 2^bits in the others. For a signed type likewise with two's complement. For f32 and f64 every increment of a finite entry gives the number nearest to its value plus one, ties to even, and never an infinity; infinities and NaN stay as they are. Counting from zero in f32 gives exactly min(k, 2^24).", "quantifier": "every width, matrix made by calls, cell, value and k; both kinds of builds", "why_tests_cant": "all values and all k, beyond 2^24 and beyond the range of the wider types", "anchors": ["graphrox-rs/src/matrix/csr_square_matrix.rs:increment_entry", "graphrox-rs/src/util/mod.rs:add_one"]}
{"id": "C100", "title": "The memory that is asked for is exactly filled", "statement": "Graph::to_bytes, CompressedGraph::to_bytes, CsrAdjacencyMatrix::try_to_string and CsrSquareMatrix::to_string_with_precision ask the allocator once, for exactly the number of bytes they then write. With memory for that many bytes they give the same result, and with memory for any other number of bytes only they report that the allocation failed.", "quantifier": "every graph and compressed graph made through the interfaces with fewer than 2^64 entries; every adjacency matrix and every square matrix of every numeric type whatever its contents; every precision, platform and hash order", "why_tests_cant": "the size of the request is not visible in the result", "anchors": ["graphrox-rs/src/graph/standard.rs:to_bytes", "graphrox-rs/src/graph/compressed.rs:to_bytes", "graphrox-rs/src/matrix/csr_adjacency_matrix.rs:try_to_string", "graphrox-rs/src/matrix/csr_square_matrix.rs:to_string_with_precision"]}
{"id": "C101", "title": "Iterators keep their list alive", "statement": "As the comments in the source say, the reference an iterator of an edge, vertex or entry list holds to its list keeps the list alive at least as long as the iterator, and without the reference Python might free the memory the iterator needs: however a program assigns and forgets its variables, and whenever objects go away after the last reference to them, no memory is touched that has been given back, every iterator finds all elements of its list in order, and when all objects are gone no memory is in use; with iterators that hold no reference there are programs that read freed memory.", "quantifier": "every program (sequence of calls, assignments, variables going out of scope, iterators made and advanced, indexing), every time at which unreachable objects go away, every allocator and platform", "why_tests_cant": "whether a list is freed under its iterator depends on when the collector runs and what the allocator does with the memory", "anchors": ["graphrox-py/graphrox/__init__.py:_GraphEdgeListIterator", "graphrox-py/graphrox/__init__.py:_GraphVertexListIterator", "graphrox-py/graphrox/__init__.py:_CsrSquareMatrixEntryListIterator"]}
{"id": "C102", "title": "Edges and vertices can be added to or removed from a graph", "statement": "As the introduction of the crate says, edges and vertices can be added to a graph and removed from it. Precisely: deleting any list of edges, one call each, leaves exactly the other edges (in an undirected graph an edge goes with its reverse) and all vertices; deleting what an iterator yields leaves no edge; add_edge and add_vertex add what they name. The part about removing vertices is false of the code: no call, and no sequence of calls, makes the number of vertices smaller.", "quantifier": "every graph made through the interface, every list of edges, every sequence of calls, every hash order", "why_tests_cant": "that nothing removes a vertex is a statement about all sequences of calls", "anchors": ["graphrox-rs/src/lib.rs:Graph Basics", "graphrox-rs/src/graph/standard.rs:delete_edge", "graphrox-rs/src/graph/standard.rs:add_vertex"]}
{"id": "C103", "title": "Which way the edges of Python's add_vertex go", "statement": "The documentation of Graph.add_vertex in Python says that it optionally creates edges to the new vertex. In a directed graph it does not: the edges go from the vertex to the listed ones. In an undirected graph they go both ways. All other edges and all other objects stay as they are, and vertex 2^64 - 1 gets no edges.", "quantifier": "every graph made through the interface, every vertex and list of vertices a u64 can hold, every allocator and platform", "why_tests_cant": "all graphs, ids and lists", "anchors": ["graphrox-py/graphrox/__init__.py:add_vertex", "graphrox-rs/src/graph/standard.rs:add_vertex"]}
{"id": "C104", "title": "The numeric types", "statement": "For every integer type and for f32 and f64, min() and max() are the least and the greatest (finite) value of the type, zero() and one() are 0 and 1, the comparisons are those of numbers (NaN is neither below, above nor equal to anything, infinities lie outside all finite values), and integral_digit_count is the number of decimal digits of the value, of its integer part cut to 128 bits for f32 and f64, plus one if it is negative. has_decimal() says whether the text of a value with at least one decimal has a decimal point, except for i128, where it is true although no text has one.", "quantifier": "every width, value and precision; every f32 and f64 including infinities and NaN", "why_tests_cant": "all values of all types", "anchors": ["graphrox-rs/src/util/mod.rs:Numeric"]}
{"id": "C105", "title": "The iterators call by call", "statement": "Iterating a Graph goes source by source: the vertices with outgoing edges come each once, in some order, and each is followed by its outgoing edges in the order get_vertex_out_edges lists them. The first calls of next return these edges in turn and every later call returns None. The same holds of CsrAdjacencyMatrix with columns and get_sparse_col_vector, and of CsrSquareMatrix with columns and the values get_entry reads, entry_count of them modulo 2^64.", "quantifier": "every safely reachable graph, every matrix history and element type, every hash order, every number of calls", "why_tests_cant": "all graphs, orders and numbers of calls", "anchors": ["graphrox-rs/src/matrix/csr_adjacency_matrix.rs:CsrAdjacencyMatrixIter::next", "graphrox-rs/src/matrix/csr_square_matrix.rs:CsrSquareMatrixIter::next", "graphrox-rs/src/graph/standard.rs:StandardGraphIter::next"]}
{"id": "C106", "title": "The order of records and lists", "statement": "The records of a Graph file are the edges in the order the iterator of the graph gives them: source by source, the edges of each source in the order of get_vertex_out_edges. The records of a CompressedGraph file come column by column, one for each non-zero word. The edge list of the C interface has the order of the iterator, and gphrx_get_vertex_out_edges_list gives the part of it that belongs to the vertex, in the same order.", "quantifier": "every safely reachable graph and compressed graph, every hash order, platform, heap and allocator", "why_tests_cant": "all graphs and orders", "anchors": ["graphrox-rs/src/graph/standard.rs:to_bytes", "graphrox-rs/src/graph/compressed.rs:to_bytes", "graphrox-c/src/lib.rs:gphrx_get_edge_list", "graphrox-c/src/lib.rs:gphrx_get_vertex_out_edges_list"]}
