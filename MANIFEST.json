{
 "claims": [
  {
   "property": "C01",
   "status": "proved",
   "theorems": [
    "C01_graph_refines_set_of_edges"
   ],
   "note": ""
  },
  {
   "property": "C02",
   "status": "proved",
   "theorems": [
    "C02_vertex_count_growth"
   ],
   "note": ""
  },
  {
   "property": "C03",
   "status": "proved",
   "theorems": [
    "C03_undirected_symmetric"
   ],
   "note": ""
  },
  {
   "property": "C04",
   "status": "proved",
   "theorems": [
    "C04_edges_join_existing_vertices"
   ],
   "note": ""
  },
  {
   "property": "C05",
   "status": "proved",
   "theorems": [
    "C05_edge_count"
   ],
   "note": ""
  },
  {
   "property": "C06",
   "status": "proved",
   "theorems": [
    "C06_iteration"
   ],
   "note": ""
  },
  {
   "property": "C07",
   "status": "proved",
   "theorems": [
    "C07_degrees_order_free",
    "C07_edge_lists_and_degrees"
   ],
   "note": ""
  },
  {
   "property": "C08",
   "status": "proved",
   "theorems": [
    "C08_degree_sums"
   ],
   "note": ""
  },
  {
   "property": "C09",
   "status": "proved",
   "theorems": [
    "C09_from_matrix"
   ],
   "note": ""
  },
  {
   "property": "C10",
   "status": "proved",
   "theorems": [
    "C10_edge_algebra"
   ],
   "note": ""
  },
  {
   "property": "C11",
   "status": "partial",
   "theorems": [
    "C11_add_vertex_partial",
    "C11_add_vertex_refuted"
   ],
   "note": "False of the code as stated: with u64::MAX as the only target the vertex is not added (C11_add_vertex_refuted). C11_add_vertex_partial says exactly which edges are added and when the vertex exists; missing is only the case where every target is u64::MAX."
  },
  {
   "property": "C12",
   "status": "proved",
   "theorems": [
    "C12_matrix_string_layout"
   ],
   "note": ""
  },
  {
   "property": "C13",
   "status": "proved",
   "theorems": [
    "C13_matrix_string_injective"
   ],
   "note": ""
  },
  {
   "property": "C14",
   "status": "partial",
   "theorems": [
    "C14_set_entry_partial",
    "C14_set_entry_refuted"
   ],
   "note": "False of the code for the value 0: set_entry with 0 leaves an existing non-zero entry in place (C14_set_entry_refuted); proved for every non-zero value (C14_set_entry_partial)."
  },
  {
   "property": "C15",
   "status": "proved",
   "theorems": [
    "C15_max_id_ignored",
    "C15_other_ids_honoured"
   ],
   "note": ""
  },
  {
   "property": "C16",
   "status": "proved",
   "theorems": [
    "C16_graph_round_trip"
   ],
   "note": ""
  },
  {
   "property": "C17",
   "status": "proved",
   "theorems": [
    "C17_graph_layout"
   ],
   "note": ""
  },
  {
   "property": "C18",
   "status": "proved",
   "theorems": [
    "C18_graph_decoding",
    "C18_valid_files_accepted"
   ],
   "note": ""
  },
  {
   "property": "C19",
   "status": "proved",
   "theorems": [
    "C19_graph_reencoding"
   ],
   "note": ""
  },
  {
   "property": "C20",
   "status": "proved",
   "theorems": [
    "C20_no_truncation_or_extension"
   ],
   "note": ""
  },
  {
   "property": "C21",
   "status": "partial",
   "theorems": [
    "C21_canonical_partial",
    "C21_canonical_refuted",
    "C21_exact"
   ],
   "note": "False of the code for undirected files: a repeated pair can stand in for its mirror (C21_canonical_refuted). Proved for directed files; for undirected files every edge is listed in at least one direction and nothing else is listed (C21_canonical_partial). C21_exact: an accepted file of either kind lists exactly the edges exactly when it repeats no pair."
  },
  {
   "property": "C22",
   "status": "partial",
   "theorems": [
    "C22_level_is_edge_count_partial",
    "C22_level_is_edge_count_refuted"
   ],
   "note": "False of the code for graphs with fewer than 8 vertices, where the level is scaled down (C22_level_is_edge_count_refuted; C23 has the exact rule). Proved from 8 vertices on (C22_level_is_edge_count_partial)."
  },
  {
   "property": "C23",
   "status": "proved",
   "theorems": [
    "C23_retention"
   ],
   "note": ""
  },
  {
   "property": "C24",
   "status": "proved",
   "theorems": [
    "C24_level_1_lossless"
   ],
   "note": ""
  },
  {
   "property": "C25",
   "status": "proved",
   "theorems": [
    "C25_decompress",
    "C25_decompress_any"
   ],
   "note": ""
  },
  {
   "property": "C26",
   "status": "partial",
   "theorems": [
    "C26_edge_count_partial",
    "C26_edge_count_refuted",
    "C26_files_exact",
    "C26_never_less"
   ],
   "note": "False of the code for files that repeat a block (C26_edge_count_refuted). Proved for every graph made by compress (saturating at u64::MAX) and every file mentioning each block at most once (C26_edge_count_partial). C26_files_exact says what the count is for every file: exact exactly when no block is repeated; C26_never_less: the count is never below the number of edges."
  },
  {
   "property": "C27",
   "status": "partial",
   "theorems": [
    "C27_files_exact",
    "C27_symmetric_partial",
    "C27_symmetric_refuted"
   ],
   "note": "False of the code for undirected files containing a word without its mirror (C27_symmetric_refuted). Proved for every graph made by compress (C27_symmetric_partial). C27_files_exact gives the exact condition on a file for the decoded graph to be symmetric."
  },
  {
   "property": "C28",
   "status": "proved",
   "theorems": [
    "C28_levels"
   ],
   "note": ""
  },
  {
   "property": "C29",
   "status": "proved",
   "theorems": [
    "C29_entries_determined",
    "C29_entry_bits"
   ],
   "note": ""
  },
  {
   "property": "C30",
   "status": "proved",
   "theorems": [
    "C30_cgraph_round_trip"
   ],
   "note": ""
  },
  {
   "property": "C31",
   "status": "proved",
   "theorems": [
    "C31_builder_layout",
    "C31_cgraph_layout"
   ],
   "note": ""
  },
  {
   "property": "C32",
   "status": "proved",
   "theorems": [
    "C32_cgraph_decoding",
    "C32_valid_files_accepted"
   ],
   "note": ""
  },
  {
   "property": "C33",
   "status": "partial",
   "theorems": [
    "C33_cgraph_reencoding_partial",
    "C33_cgraph_reencoding_refuted",
    "C33_exact",
    "C33_files_exact"
   ],
   "note": "False of the code for files that repeat a block: the re-encoded file is rejected (C33_cgraph_reencoding_refuted). Proved for every file mentioning each block at most once (C33_cgraph_reencoding_partial). C33_exact and C33_files_exact say exactly when the re-encoded file is accepted."
  },
  {
   "property": "C34",
   "status": "proved",
   "theorems": [
    "C34_pool_dimensions_and_cells",
    "C34_pool_order_free"
   ],
   "note": ""
  },
  {
   "property": "C35",
   "status": "proved",
   "theorems": [
    "C35_exact_value",
    "C35_pool_entries"
   ],
   "note": ""
  },
  {
   "property": "C36",
   "status": "partial",
   "theorems": [
    "C36_every_block_dimension_partial",
    "C36_every_block_dimension_refuted",
    "C36_panics_exactly",
    "C36_wide_blocks"
   ],
   "note": "False of the code for block dimensions from 2^32 on when the graph has as many vertices: the square overflows u64 (panic in debug builds, wrong averages in release builds; C36_every_block_dimension_refuted). Proved for all block dimensions with min(b,n) < 2^32 (C36_every_block_dimension_partial). C36_panics_exactly says when exactly the calls panic; C36_wide_blocks gives the entries without overflow checks."
  },
  {
   "property": "C37",
   "status": "proved",
   "theorems": [
    "C37_approximate_threshold",
    "C37_exact_rule"
   ],
   "note": ""
  },
  {
   "property": "C38",
   "status": "partial",
   "theorems": [
    "C38_exact",
    "C38_full_block_survives_partial",
    "C38_full_block_survives_refuted"
   ],
   "note": "False of the code: with b = 7 the average of a full block rounds to just below 1.0 and thresholds close to 1.0 drop it (C38_full_block_survives_refuted). Proved for power-of-two block dimensions up to 2^26 and for every b when the threshold is at most 1 - 2^-51, for b^2 <= 2^53 and non-NaN thresholds (C38_full_block_survives_partial). C38_exact says for every b below 2^32 and every threshold exactly when a full block survives."
  },
  {
   "property": "C39",
   "status": "partial",
   "theorems": [
    "C39_exact",
    "C39_threshold_clamping_partial",
    "C39_threshold_clamping_refuted"
   ],
   "note": "False of the code: positive thresholds below 10^-18 are not raised, which shows with block dimension 2^31 (C39_threshold_clamping_refuted). Proved: thresholds above 1.0 act as 1.0, zero and negative ones act as 10^-18, and for block dimensions up to 10^9 all thresholds below 10^-18 do (C39_threshold_clamping_partial). C39_exact: exactly when such a threshold differs from 10^-18."
  },
  {
   "property": "C40",
   "status": "proved",
   "theorems": [
    "C40_approximate_copies"
   ],
   "note": ""
  },
  {
   "property": "C41",
   "status": "partial",
   "theorems": [
    "C41_exact",
    "C41_monotone_partial",
    "C41_monotone_refuted"
   ],
   "note": "False of the code for t1 <= 0 < t2 < 10^-18 with block dimensions above 10^9 (C41_monotone_refuted). Proved for positive t1, for t2 >= 10^-18 and for all thresholds with block dimension up to 10^9, together with the NaN case (C41_monotone_partial). C41_exact: exactly when the larger threshold keeps an edge that the smaller one drops."
  },
  {
   "property": "C42",
   "status": "proved",
   "theorems": [
    "C42_integer_increment_exact",
    "C42_square_matrix_calls",
    "C42_square_matrix_is_finite_map",
    "C42_unsigned_increment"
   ],
   "note": ""
  },
  {
   "property": "C43",
   "status": "partial",
   "theorems": [
    "C43_entry_count_partial",
    "C43_entry_count_refuted",
    "C43_exact"
   ],
   "note": "False of the code: incrementing -1 (or the maximum of an unsigned type in a release build) stores a counted zero (C43_entry_count_refuted); proved for calls whose increments never produce zero (C43_entry_count_partial). C43_exact: the count is the number of entries iteration visits, and the number of non-zero cells exactly when none of these is zero."
  },
  {
   "property": "C44",
   "status": "proved",
   "theorems": [
    "C44_square_iteration"
   ],
   "note": ""
  },
  {
   "property": "C45",
   "status": "proved",
   "theorems": [
    "C45_display",
    "C45_matrix_string",
    "C45_signed_text",
    "C45_unsigned_text"
   ],
   "note": ""
  },
  {
   "property": "C46",
   "status": "partial",
   "theorems": [
    "C46_display",
    "C46_display_partial",
    "C46_float_exact",
    "C46_float_partial",
    "C46_i128_exact",
    "C46_i128_partial",
    "C46_precision_refuted",
    "C46_signed_exact",
    "C46_signed_partial",
    "C46_unit_partial",
    "C46_unsigned_partial"
   ],
   "note": "False of the code in four ways: negative integers with decimals, doubles between -1 and 0, zero precision of float matrices, i128 with decimals (C46_precision_refuted). Proved for unsigned integers with every precision (C46_unsigned_partial). For signed integers, i128 and floats it is proved exactly when the text is right: C46_signed_exact (no decimals, no negative entry, or the least entry one character longer than the greatest), C46_i128_exact (no decimals and all cells stored, or decimals and no cell stored), C46_float_exact (every rounded value fits the widest integer part plus decimals, and with no decimals every cell is stored)."
  },
  {
   "property": "C47",
   "status": "partial",
   "theorems": [
    "C47_float_exact",
    "C47_float_partial",
    "C47_huge",
    "C47_i128_exact",
    "C47_no_panic_partial",
    "C47_no_panic_refuted",
    "C47_pool_exact"
   ],
   "note": "False of the code: 1e54 as f64 panics, and so do more than 65535 decimals of a float matrix (C47_no_panic_refuted). C47_float_exact gives the panics of f64 and f32 matrices exactly. Proved not to panic for all integer types except i128 with any precision up to usize::MAX - 44, for i128 up to 65491, and up to 65491 decimals for every f32 matrix and every f64 matrix whose finite values are below 10^41 in absolute value (C47_float_partial), or whose rounded values take at most two characters more than some integer part plus decimals (C47_no_panic_partial). C47_pool_exact gives the panics for pooled matrices with every number of decimals. C47_huge says what happens for every element type with decimals within 43 of usize::MAX, where the cell width leaves usize (a panic with overflow checks, without them a wrapped width), C47_i128_exact when i128 matrices panic."
  },
  {
   "property": "C48",
   "status": "proved",
   "theorems": [
    "C48_counting"
   ],
   "note": ""
  },
  {
   "property": "C49",
   "status": "proved",
   "theorems": [
    "C49_builder",
    "C49_builder_distinct"
   ],
   "note": ""
  },
  {
   "property": "C50",
   "status": "proved",
   "theorems": [
    "C50_from_bytes",
    "C50_from_null",
    "C50_null_handles"
   ],
   "note": ""
  },
  {
   "property": "C51",
   "status": "proved",
   "theorems": [
    "C51_duplicates",
    "C51_frame",
    "C51_observations",
    "C51_programs"
   ],
   "note": ""
  },
  {
   "property": "C52",
   "status": "proved",
   "theorems": [
    "C52_graph_changes",
    "C52_graph_queries",
    "C52_lists",
    "C52_makers",
    "C52_matrix_texts",
    "C52_other_queries",
    "C52_reachable",
    "C52_texts_and_bytes"
   ],
   "note": ""
  },
  {
   "property": "C53",
   "status": "partial",
   "theorems": [
    "C53_exact",
    "C53_partial",
    "C53_refuted"
   ],
   "note": "False of the code: gphrx_matrix_to_string aborts on a pooled matrix of a graph with 2^40 + 1 vertices, where the function with precision returns null (C53_refuted). Proved for the matrices C programs can obtain: with up to 65491 decimals the function with precision never aborts, and gphrx_matrix_to_string aborts only where it returns null (C53_partial). C53_exact: it aborts exactly where the function with precision returns null, and hands out the same text otherwise."
  },
  {
   "property": "C54",
   "status": "partial",
   "theorems": [
    "C54_below",
    "C54_negative_exact",
    "C54_partial",
    "C54_refuted"
   ],
   "note": "False of the code: l[-len] is the last element instead of the first, lower indices do not raise, and a negative index into an empty list raises ZeroDivisionError (C54_refuted). Proved from -len + 1 up (C54_partial); C54_below says what happens below. C54_negative_exact gives the element for every negative index."
  },
  {
   "property": "C55",
   "status": "proved",
   "theorems": [
    "C55_adjacency_matrix_is_set",
    "C55_display",
    "C55_sparse_vectors"
   ],
   "note": ""
  },
  {
   "property": "C56",
   "status": "proved",
   "theorems": [
    "C56_pooled_text"
   ],
   "note": ""
  },
  {
   "property": "C57",
   "status": "proved",
   "theorems": [
    "C57_free"
   ],
   "note": ""
  },
  {
   "property": "C58",
   "status": "proved",
   "theorems": [
    "C58_iteration"
   ],
   "note": ""
  },
  {
   "property": "C59",
   "status": "proved",
   "theorems": [
    "C59_bytes",
    "C59_graph_changes",
    "C59_graph_queries",
    "C59_integers",
    "C59_list_del",
    "C59_lists",
    "C59_makers",
    "C59_other_queries",
    "C59_texts"
   ],
   "note": ""
  },
  {
   "property": "C60",
   "status": "partial",
   "theorems": [
    "C60_partial",
    "C60_refuted"
   ],
   "note": "False of the code: rejected bytes raise TypeError, because the code building the message calls the string Graph.__name__ (C60_refuted). Proved: accepted bytes give the decoded graph, rejected ones always raise TypeError and leave the heap as it was (C60_partial)."
  },
  {
   "property": "C61",
   "status": "partial",
   "theorems": [
    "C61_compressed_exact",
    "C61_compressed_partial",
    "C61_partial",
    "C61_refuted"
   ],
   "note": "False of the code when the bytes cannot be allocated: bytes(g) is then empty, without an exception (C61_refuted). Proved whenever encoding succeeds, for graphs and for compressed graphs made by compress (C61_partial, C61_compressed_partial). C61_compressed_exact says for every reachable compressed graph exactly when from_bytes(bytes(g)) works."
  },
  {
   "property": "C62",
   "status": "partial",
   "theorems": [
    "C62_refuted"
   ],
   "note": "False of the code: Graph() always makes a directed graph (C62_refuted). What Graph(True) and Graph(False) make is part of C59_makers."
  },
  {
   "property": "C63",
   "status": "proved",
   "theorems": [
    "C63_all_functions",
    "C63_constants_agree",
    "C63_ctypes_results",
    "C63_interfaces_agree",
    "C63_layouts_agree",
    "C63_results_typed"
   ],
   "note": "The declarations are transcribed into Abi.v with line numbers. C63_results_typed and C63_ctypes_results are about the calls of CApi.v; C63_all_functions says these are exactly the exported functions."
  },
  {
   "property": "C64",
   "status": "proved",
   "theorems": [
    "C64_cgraph_congruence",
    "C64_graph_congruence",
    "C64_graph_files"
   ],
   "note": ""
  },
  {
   "property": "C65",
   "status": "partial",
   "theorems": [
    "C65_cgraph_exact",
    "C65_cgraph_record_order_partial",
    "C65_cgraph_record_order_refuted",
    "C65_graph_record_order"
   ],
   "note": "Proved for Graph files. False of the code for CompressedGraph files that give a block twice: the later word wins (C65_cgraph_record_order_refuted); proved when every block is given once (_partial). C65_cgraph_exact: two files decode to the same compressed graph exactly when the last words for every block agree."
  },
  {
   "property": "C66",
   "status": "proved",
   "theorems": [
    "C66_recompression"
   ],
   "note": ""
  },
  {
   "property": "C67",
   "status": "proved",
   "theorems": [
    "C67_approximate_monotone",
    "C67_compress_monotone"
   ],
   "note": ""
  },
  {
   "property": "C68",
   "status": "proved",
   "theorems": [
    "C68_transposition"
   ],
   "note": ""
  },
  {
   "property": "C69",
   "status": "proved",
   "theorems": [
    "C69_extreme_thresholds"
   ],
   "note": ""
  },
  {
   "property": "C70",
   "status": "proved",
   "theorems": [
    "C70_cgraph_decoding",
    "C70_graph_decoding",
    "C70_one_report"
   ],
   "note": ""
  },
  {
   "property": "C71",
   "status": "proved",
   "theorems": [
    "C71_asymmetric",
    "C71_cgraph_bytes",
    "C71_display",
    "C71_graph_bytes",
    "C71_graph_text",
    "C71_matrix_text"
   ],
   "note": ""
  },
  {
   "property": "C72",
   "status": "partial",
   "theorems": [
    "C72_exact",
    "C72_none",
    "C72_output",
    "C72_partial",
    "C72_reading",
    "C72_refuted"
   ],
   "note": "False of the code: an edge whose target never occurs in the first column is dropped (C72_refuted), and a target more than one above the largest source raises IndexError. C72_output says exactly what is written for non-negative ids, C72_exact for every text file with a pair (negative ids count from the end of the array), C72_none for files without pairs, C72_reading what is taken from any text file; C72_partial: the property, when every target is also a source."
  },
  {
   "property": "C73",
   "status": "partial",
   "theorems": [
    "C73_exact",
    "C73_output",
    "C73_refuted"
   ],
   "note": "False of the code: only the last pair of the file is looked at, once for every pair, and files accepted by graph_from_text_file can raise IndexError here (C73_refuted). C73_output says exactly what is printed for non-negative ids, C73_exact for every text file with a pair (the first number looked for may come from a line whose second word is no number), C72_none for files without pairs."
  },
  {
   "property": "C74",
   "status": "proved",
   "theorems": [
    "C74_compress_file"
   ],
   "note": ""
  },
  {
   "property": "C75",
   "status": "partial",
   "theorems": [
    "C75_partial",
    "C75_refuted"
   ],
   "note": "False of the code for ARM machines that are not 64-bit (C75_refuted). C75_partial is the exact table for every system and machine name."
  },
  {
   "property": "C76",
   "status": "partial",
   "theorems": [
    "C76_refuted",
    "C76_sample_graph"
   ],
   "note": "False: both compressed sample files have version 1, which the decoder rejects whatever follows the header (C76_refuted). C76_sample_graph says what the header of the sample graph that is not compressed gives."
  },
  {
   "property": "C77",
   "status": "partial",
   "theorems": [
    "C77_add_vertex",
    "C77_constructors",
    "C77_from_bytes",
    "C77_index",
    "C77_integers",
    "C77_level",
    "C77_no_structure",
    "C77_partial",
    "C77_refuted",
    "C77_threshold"
   ],
   "note": "False of the code: compress accepts floats below 1 and above 64 (they are clamped), and some negative floats are accepted as indices of lists (C77_refuted). C77_partial: every other call with an undocumented argument raises and changes nothing; exact: C77_integers, C77_add_vertex, C77_from_bytes, C77_constructors, C77_no_structure, C77_threshold, C77_level, C77_index."
  },
  {
   "property": "C78",
   "status": "partial",
   "theorems": [
    "C78_example",
    "C78_file",
    "C78_refuted",
    "C78_whole"
   ],
   "note": "False: sample-graphs/ has no ca-AstroPh.gphrx, so the script ends with FileNotFoundError (C78_refuted). C78_file says exactly what is printed and freed for a file, whatever its content; C78_example gives every text of the first part on every platform; C78_whole gives the whole output when both files are there."
  },
  {
   "property": "C79",
   "status": "partial",
   "theorems": [
    "C79_any_path",
    "C79_exact",
    "C79_partial",
    "C79_refuted",
    "C79_texts"
   ],
   "note": "False of the code with CARGO_TARGET_DIR (the header goes into the target directory itself) and for target directories not named target (panic) (C79_refuted). C79_partial: the property otherwise; C79_exact: what happens for every layout; C79_any_path: for any texts in the environment variables, also relative paths and paths with dots."
  },
  {
   "property": "C80",
   "status": "proved",
   "theorems": [
    "C80_empty_again",
    "C80_ends",
    "C80_gone",
    "C80_gone_elements",
    "C80_no_leak",
    "C80_objects",
    "C80_others_untouched",
    "C80_safe",
    "C80_shared_handle"
   ],
   "note": "Over sequences of steps by programs that use only objects alive; the garbage collector may drop an object at any step, at most once. C80_ends says exactly which calls end the process early (to_string with decimals within 44 of the greatest size_t only if size_t has at least 17 bits). C80_shared_handle says what the restriction to one going away excludes: where copy.copy, _c_graph or an explicit __del__ lets two objects share a handle, every use of one after the other is gone is undefined behaviour."
  },
  {
   "property": "C81",
   "status": "proved",
   "theorems": [
    "C81_abort",
    "C81_contract",
    "C81_handles",
    "C81_no_leak",
    "C81_results",
    "C81_text_abort"
   ],
   "note": "Undefined behaviour in the sense of the model: memory is a map from addresses to whole objects (DESIGN.md, CApi.v). C81_abort says exactly when pooling, approximating and gphrx_matrix_to_string abort; C81_text_abort does so for gphrx_matrix_to_string_with_precision."
  },
  {
   "property": "C82",
   "status": "proved",
   "theorems": [
    "C82_approximate",
    "C82_bytes",
    "C82_changing",
    "C82_compress",
    "C82_contract",
    "C82_decompress",
    "C82_history",
    "C82_mending",
    "C82_reading"
   ],
   "note": ""
  },
  {
   "property": "C83",
   "status": "partial",
   "theorems": [
    "C83_exact",
    "C83_partial",
    "C83_refuted",
    "C83_words"
   ],
   "note": "False at level 1 and for fewer than four edges: a block with a single edge takes 24 bytes instead of 16 (C83_refuted). C83_partial covers all other graphs and levels; C83_words and C83_exact give the numbers of words and bytes for every graph and level."
  },
  {
   "property": "C84",
   "status": "proved",
   "theorems": [
    "C84_compressed_as_graph",
    "C84_graph_as_compressed",
    "C84_kinds"
   ],
   "note": ""
  },
  {
   "property": "C85",
   "status": "proved",
   "theorems": [
    "C85_compressed_links",
    "C85_links"
   ],
   "note": ""
  },
  {
   "property": "C86",
   "status": "proved",
   "theorems": [
    "C86_files",
    "C86_smaller"
   ],
   "note": ""
  },
  {
   "property": "C87",
   "status": "proved",
   "theorems": [
    "C87_two_steps"
   ],
   "note": ""
  },
  {
   "property": "C88",
   "status": "partial",
   "theorems": [
    "C88_exact",
    "C88_partial",
    "C88_refuted"
   ],
   "note": "False for the graph with 7 vertices and all 49 edges at level 64, whose average is rounded below 1 (C88_refuted). C88_partial covers graphs with at least 8 vertices; C88_exact shows that this graph and level are the only exception."
  },
  {
   "property": "C89",
   "status": "proved",
   "theorems": [
    "C89_total"
   ],
   "note": ""
  },
  {
   "property": "C90",
   "status": "proved",
   "theorems": [
    "C90_cgraph",
    "C90_graph"
   ],
   "note": ""
  },
  {
   "property": "C91",
   "status": "partial",
   "theorems": [
    "C91_floats_partial",
    "C91_huge",
    "C91_integers",
    "C91_pool",
    "C91_refuted"
   ],
   "note": "False in two ways (C91_refuted): a double of 10^41 or more runs into the next cell, so the hash order decides which is seen; and a signed matrix whose only entry was removed is printed wider than one that never had it. True for integers with an entry (C91_integers), doubles below 10^41 (C91_floats_partial), pooled matrices (C91_pool), and at precisions that wrap (C91_huge)."
  },
  {
   "property": "C92",
   "status": "proved",
   "theorems": [
    "C92_decompress",
    "C92_files",
    "C92_weights"
   ],
   "note": "The documentation of the builder says that a wrong weight makes the buffer too small or too large; C92_files and C92_weights show that it never does."
  },
  {
   "property": "C93",
   "status": "proved",
   "theorems": [
    "C93_c",
    "C93_python",
    "C93_snapshots"
   ],
   "note": ""
  },
  {
   "property": "C94",
   "status": "proved",
   "theorems": [
    "C94_lossless",
    "C94_pipeline"
   ],
   "note": ""
  },
  {
   "property": "C95",
   "status": "proved",
   "theorems": [
    "C95_approximate",
    "C95_compress",
    "C95_edge_count",
    "C95_other_renamings",
    "C95_pool",
    "C95_renaming",
    "C95_within"
   ],
   "note": ""
  },
  {
   "property": "C96",
   "status": "proved",
   "theorems": [
    "C96_compressed",
    "C96_from_edges",
    "C96_from_iterator",
    "C96_from_out_edges",
    "C96_matrix",
    "C96_transposed"
   ],
   "note": ""
  },
  {
   "property": "C97",
   "status": "proved",
   "theorems": [
    "C97_cgraph_bit",
    "C97_cgraph_entry",
    "C97_cgraph_fixed",
    "C97_cgraph_flag_level",
    "C97_cgraph_header",
    "C97_graph_fixed",
    "C97_graph_flag",
    "C97_graph_record",
    "C97_graph_vertices",
    "C97_wider"
   ],
   "note": ""
  },
  {
   "property": "C98",
   "status": "proved",
   "theorems": [
    "C98_built",
    "C98_loaded_is_packaged",
    "C98_packaged",
    "C98_status",
    "C98_targets",
    "C98_tested",
    "C98_windows"
   ],
   "note": ""
  },
  {
   "property": "C99",
   "status": "proved",
   "theorems": [
    "C99_float_special",
    "C99_float_step",
    "C99_signed",
    "C99_single",
    "C99_unsigned"
   ],
   "note": ""
  },
  {
   "property": "C100",
   "status": "proved",
   "theorems": [
    "C100_adjacency",
    "C100_cgraph",
    "C100_graph",
    "C100_square"
   ],
   "note": ""
  },
  {
   "property": "C101",
   "status": "proved",
   "theorems": [
    "C101_end",
    "C101_iterators",
    "C101_lists_stay",
    "C101_no_leak",
    "C101_ref_needed",
    "C101_safe",
    "C101_steps"
   ],
   "note": "Over the values with memory; C101_ref_needed is the program that goes wrong without the reference."
  },
  {
   "property": "C102",
   "status": "partial",
   "theorems": [
    "C102_edges_partial",
    "C102_vertices_refuted"
   ],
   "note": "Removing vertices is false of the code: C102_vertices_refuted shows that no list of calls makes the vertex count smaller. C102_edges_partial is the rest, exactly."
  },
  {
   "property": "C103",
   "status": "partial",
   "theorems": [
    "C103_edges_from_partial",
    "C103_edges_to_refuted"
   ],
   "note": "The sentence in the documentation is false for directed graphs (C103_edges_to_refuted); C103_edges_from_partial says exactly which edges are there afterwards."
  },
  {
   "property": "C104",
   "status": "proved",
   "theorems": [
    "C104_floats",
    "C104_signed",
    "C104_unsigned"
   ],
   "note": "C104_unsigned and C104_signed for every width, C104_floats for f32 and f64; i128's has_decimal is part of C104_signed."
  },
  {
   "property": "C105",
   "status": "proved",
   "theorems": [
    "C105_adjacency",
    "C105_graph",
    "C105_square"
   ],
   "note": "C105_graph, C105_adjacency and C105_square: the results of any number of calls of next, in order."
  },
  {
   "property": "C106",
   "status": "proved",
   "theorems": [
    "C106_c_lists",
    "C106_compressed_file",
    "C106_graph_file"
   ],
   "note": "Under one hash order, as for a graph that is not changed in between."
  }
 ]
}