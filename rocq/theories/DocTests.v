(** The examples in the documentation comments of graphrox-rs/src (the doc tests), run on the
    model: their assertions, and the texts their comments say they print.  Examples whose
    result does not depend on the hash order are run with two opposite orders.  The example
    programs that only differ in the comments around them are run once. *)
From Coq Require Import Ascii String.
From Verif Require Import Base HashIter F64 Numeric Adj Sq Standard Compressed Spec Api
  PropCommon ModelTests.

(** ** lib.rs *)

(** lib.rs:14-41. *)
Example doc_lib_basics :
  let g1 := add_edge new_directed 3 5 in
  let g2 := add_vertex g1 2 (Some [4; 0; 5; 1]) in
  let g3 := add_vertex g2 8 None in
  let g4 := delete_edge g3 2 5 in
  passes [vertex_count g1 =? 6; does_edge_exist g1 3 5; edge_count g2 =? 5;
          vertex_count g3 =? 9; edge_count g3 =? 5;
          edge_count g4 =? 4; negb (does_edge_exist g4 2 5)] = true.
Proof. vm_compute. reflexivity. Qed.

Definition doc_graph : graph :=
  fold_left (fun g '(v, ts) => add_vertex g v (Some ts))
    [(0, [1; 2; 6]); (1, [1; 2]); (2, [0; 1]); (3, [1; 2; 4]); (5, [6; 7]); (6, [6]); (7, [6])]
    new_directed.
Definition doc_matrix : text :=
  lines ["[ 0, 0, 1, 0, 0, 0, 0, 0 ]"; "[ 1, 1, 1, 1, 0, 0, 0, 0 ]";
         "[ 1, 1, 0, 1, 0, 0, 0, 0 ]"; "[ 0, 0, 0, 0, 0, 0, 0, 0 ]";
         "[ 0, 0, 0, 1, 0, 0, 0, 0 ]"; "[ 0, 0, 0, 0, 0, 0, 0, 0 ]";
         "[ 1, 0, 0, 0, 0, 1, 1, 1 ]"; "[ 0, 0, 0, 0, 0, 1, 0, 0 ]"]%string.

(** lib.rs:50-89, standard.rs:499-535. *)
Example doc_lib_approximate :
  both (fun o =>
    [is_text (matrix_string plat64 doc_graph) doc_matrix;
     ret (approximate plat64 o reversed_order doc_graph 2 (lit 5 10)) (fun g =>
       [is_text (matrix_string plat64 g)
          (lines ["[ 1, 1, 0, 0 ]"; "[ 1, 0, 0, 0 ]"; "[ 0, 0, 0, 0 ]"; "[ 0, 0, 1, 1 ]"]%string)])])
  = true.
Proof. vm_compute. reflexivity. Qed.

(** lib.rs:93-129, standard.rs:404-440. *)
Example doc_lib_avg_pool :
  both (fun o =>
    [is_text (matrix_string plat64 doc_graph) doc_matrix;
     ret (find_avg_pool_matrix plat64 o doc_graph 2) (fun m =>
       [shows (sq_display plat64 f64_numeric o m)
          (lines ["[ 0.50, 0.75, 0.00, 0.00 ]"; "[ 0.50, 0.25, 0.00, 0.00 ]";
                  "[ 0.00, 0.25, 0.00, 0.00 ]"; "[ 0.25, 0.00, 0.50, 0.50 ]"]%string)])])
  = true.
Proof. vm_compute. reflexivity. Qed.

(** lib.rs:146-177, standard.rs:592-623. *)
Example doc_lib_compress :
  both (fun o =>
    [ret (compress plat64 o reversed_order comp_dir 4) (fun c =>
       [c_vertex_count c =? 24; c_edge_count c =? 96;
        get_compressed_matrix_entry c 0 0 =? 0x00000000ffffffff;
        get_compressed_matrix_entry c 1 1 =? u64MAX])]) = true.
Proof. vm_compute. reflexivity. Qed.

Definition doc_und : graph :=
  add_vertex (add_vertex new_undirected 0 (Some [1; 2; 6])) 3 (Some [1; 2]).

(** lib.rs:182-199. *)
Example doc_lib_decompress :
  both (fun o =>
    [ret (obind (compress plat64 o reversed_order doc_und 4) (decompress plat64 o)) (fun g =>
       [edge_count doc_und =? edge_count g; vertex_count doc_und =? vertex_count g;
        all_edges doc_und (graph_items o g)])]) = true.
Proof. vm_compute. reflexivity. Qed.

(** lib.rs:208-247, without the files in between; graph/mod.rs:84-100. *)
Example doc_lib_bytes :
  both (fun o =>
    [ok (graph_to_bytes plat64 o doc_und) (fun bytes =>
       [ret_ok (graph_try_from plat64 bytes) (fun g =>
          [edge_count doc_und =? edge_count g; all_edges doc_und (graph_items o g)])]);
     ret (compress plat64 o reversed_order doc_und 2) (fun c =>
       [ok (cgraph_to_bytes plat64 o c) (fun bytes =>
          [ret_ok (cgraph_try_from plat64 bytes) (fun c' =>
             [c_edge_count c' =? c_edge_count c])])])]) = true.
Proof. vm_compute. reflexivity. Qed.

(** ** graph/mod.rs *)

(** graph/mod.rs:16-24, 32-38, 45-52. *)
Example doc_trait_counts :
  passes [is_undirected new_undirected; negb (is_undirected new_directed);
          vertex_count (add_vertex new_undirected 41 None) =? 42;
          edge_count (edges new_directed [(0, 3); (1, 7)]) =? 2] = true.
Proof. vm_compute. reflexivity. Qed.

(** graph/mod.rs:57-66, 71-78. *)
Example doc_trait_matrix_string :
  passes [is_text (matrix_string plat64 (edges new_directed [(1, 0); (1, 1)]))
            (lines ["[ 0, 1 ]"; "[ 0, 1 ]"]%string);
          does_edge_exist (add_edge new_directed 1 0) 1 0;
          negb (does_edge_exist (add_edge new_directed 1 0) 0 0)] = true.
Proof. vm_compute. reflexivity. Qed.

(** ** graph/standard.rs *)

(** standard.rs:21-40, 50-60, 70-79. *)
Example doc_graph_struct :
  let u := add_edge new_undirected 3 5 in
  let d := add_edge new_directed 3 5 in
  passes [is_undirected u; all_edges u [(3, 5); (5, 3)]; negb (is_undirected d);
          all_edges d [(3, 5)]; no_edges d [(5, 3)]] = true.
Proof. vm_compute. reflexivity. Qed.

(** standard.rs:89-103, 116-131, 156-171. *)
Example doc_graph_from :
  let d := directed_from (cells adj_new [(0, 0); (1, 2)]) in
  let m := cells adj_new [(0, 0); (1, 2); (2, 1)] in
  let u := undirected_from_unchecked m in
  both (fun o =>
    [negb (is_undirected d); edge_count d =? 2; vertex_count d =? 3;
     ok (undirected_from o m) (fun g =>
       [is_undirected g; edge_count g =? 3; vertex_count g =? 3]);
     is_undirected u; edge_count u =? 3; vertex_count u =? 3]) = true.
Proof. vm_compute. reflexivity. Qed.

(** standard.rs:192-209, 234-244, 259-275. *)
Example doc_graph_mutators :
  let g := add_vertex new_undirected 3 (Some [3; 5; 6]) in
  let e := add_edge new_undirected 3 5 in
  let d := delete_edge e 5 3 in
  passes [vertex_count g =? 7; all_edges g [(3, 3); (3, 5); (5, 3); (3, 6); (6, 3)];
          vertex_count (add_vertex g 100 None) =? 101;
          vertex_count e =? 6; all_edges e [(3, 5); (5, 3)]; edge_count e =? 2;
          edge_count d =? 0; no_edges d [(3, 5); (5, 3)]] = true.
Proof. vm_compute. reflexivity. Qed.

(** standard.rs:298-314, 325-341, 358-369, 380-391. *)
Example doc_graph_edges_of_vertex :
  let g := edges new_directed [(2, 5); (10, 5); (11, 5); (5, 9)] in
  let h := edges new_directed [(5, 2); (5, 10); (5, 11); (9, 5)] in
  both (fun o =>
    let i := get_vertex_in_edges o g 5 in
    let u := get_vertex_out_edges o h 5 in
    [len i =? 3; has 2 i; has 10 i; has 11 i; len u =? 3; has 2 u; has 10 u; has 11 u;
     get_vertex_in_degree o g 5 =? 3; get_vertex_out_degree o h 5 =? 3]) = true.
Proof. vm_compute. reflexivity. Qed.

(** standard.rs:873-897. *)
Example doc_graph_iter :
  let g := edges new_directed [(0, 0); (1, 2)] in
  both (fun o =>
    let l := graph_items o g in
    [len l =? edge_count g; has2 (0, 0) l; has2 (1, 2) l]) = true.
Proof. vm_compute. reflexivity. Qed.

(** ** graph/compressed.rs *)

Definition doc_two : graph :=
  add_vertex (add_vertex new_directed 0 (Some [1; 2; 6])) 1 (Some [1; 2]).

(** compressed.rs:34-49, 62-79, 116-128. *)
Example doc_cgraph :
  both (fun o =>
    let comp := compress plat64 o reversed_order doc_two in
    [ret (comp 3) (fun c => [compression_level c =? 3; c_does_edge_exist c 0 1;
       c_does_edge_exist c 0 2]);
     ret (obind (comp 1) (decompress plat64 o)) (fun g =>
       [vertex_count g =? vertex_count doc_two; all_edges doc_two (graph_items o g)]);
     ret (comp 42) (fun c => [compression_level c =? 42])]) = true.
Proof. vm_compute. reflexivity. Qed.

(** compressed.rs:136-161. *)
Example doc_cgraph_entry :
  let g := edges (edges (add_vertex new_directed 23 None) (rect 8 16 8 16)) (rect 0 8 0 4) in
  both (fun o =>
    [ret (compress plat64 o reversed_order g 2) (fun c =>
       [get_compressed_matrix_entry c 0 0 =? 0x00000000ffffffff;
        get_compressed_matrix_entry c 1 1 =? u64MAX])]) = true.
Proof. vm_compute. reflexivity. Qed.

(** compressed.rs:472-494, 504-514, 569-591, 628-638. *)
Example doc_builder :
  let c level := builder_finish (builder_add (builder_new false 10 level) u64MAX 1 1 None) in
  let e := builder_finish (builder_new true 70 42) in
  passes [block11 (c 7); block11 (c 60); c_is_undirected e; c_vertex_count e =? 70;
          compression_level e =? 42] = true.
Proof. vm_compute. reflexivity. Qed.

(** ** matrix/mod.rs *)

(** matrix/mod.rs:21-35, 40-51, 57-69. *)
Example doc_matrix_trait :
  let m1 := adj_set_entry adj_new 1 0 0 in
  let m2 := adj_set_entry m1 1 4 7 in
  let m3 := adj_set_entry m2 0 100 1 in
  let n1 := adj_set_entry adj_new 1 5 8 in
  let n2 := adj_set_entry n1 1 7 5 in
  passes [adj_dimension adj_new =? 0; adj_dimension m1 =? 1; adj_dimension m2 =? 8;
          adj_dimension m3 =? 101;
          adj_entry_count adj_new =? 0; adj_entry_count m1 =? 1; adj_entry_count m2 =? 2;
          adj_get_entry adj_new 5 8 =? 0; adj_get_entry n1 5 8 =? 1; adj_get_entry n1 7 5 =? 0;
          adj_get_entry n2 7 5 =? 1] = true.
Proof. vm_compute. reflexivity. Qed.

(** matrix/mod.rs:74-87, 92-100. *)
Example doc_matrix_trait_float :
  let m1 := sset sq_new (lit 21 10) 5 8 in
  let m2 := sset m1 (neg (lit 35 10)) 7 5 in
  let m3 := sset m2 (lit 15 100) 7 5 in
  passes [f64_eq (sget m1 5 8) (lit 21 10); f64_eq (sget m2 7 5) (neg (lit 35 10));
          f64_eq (sget m3 7 5) (lit 15 100);
          f64_eq (sget (sq_zero_entry m1 5 8) 7 5) f64_zero] = true.
Proof. vm_compute. reflexivity. Qed.

(** ** matrix/csr_adjacency_matrix.rs *)

(** csr_adjacency_matrix.rs:13-24, 41-47, 304-323. *)
Example doc_adj :
  let m := cells adj_new [(0, 0); (1, 2)] in
  passes [adj_get_entry m 0 0 =? 1; adj_get_entry m 1 2 =? 1; adj_get_entry m 2 2 =? 0;
          adj_dimension adj_new =? 0; adj_entry_count adj_new =? 0;
          match adj_display plat64 (cells m [(2, 1); (1, 0)]) with
          | Some t => text_eqb t (lines ["[ 1, 1, 0 ]"; "[ 0, 0, 1 ]"; "[ 0, 1, 0 ]"]%string)
          | None => false
          end] = true.
Proof. vm_compute. reflexivity. Qed.

(** csr_adjacency_matrix.rs:58-74, 97-113, 130-141, 161-172. *)
Example doc_adj_vectors :
  let m := cells adj_new [(5, 2); (5, 10); (5, 11); (9, 5)] in
  let n := cells adj_new [(2, 5); (10, 5); (11, 5); (5, 9)] in
  both (fun o =>
    let c := adj_sparse_col o m 5 in
    let r := adj_sparse_row o n 5 in
    [len c =? 3; has 2 c; has 10 c; has 11 c; len r =? 3; has 2 r; has 10 r; has 11 r;
     adj_col_count o m 5 =? 3; adj_row_count o n 5 =? 3]) = true.
Proof. vm_compute. reflexivity. Qed.

(** csr_adjacency_matrix.rs:346-370. *)
Example doc_adj_iter :
  let m := cells adj_new [(0, 0); (1, 2)] in
  both (fun o =>
    let l := adj_items o m in
    [len l =? adj_entry_count m; has2 (0, 0) l; has2 (1, 2) l]) = true.
Proof. vm_compute. reflexivity. Qed.

(** ** matrix/csr_square_matrix.rs *)

(** csr_square_matrix.rs:15-26, 43-49. *)
Example doc_sq :
  let m := vals f64_numeric sq_new [(lit 57 10, 0, 0); (neg (lit 171 10), 1, 2)] in
  passes [f64_eq (sget m 0 0) (lit 57 10); f64_eq (sget m 1 2) (neg (lit 171 10));
          f64_eq (sget m 2 2) f64_zero;
          sq_dimension (@sq_new f64) =? 0; sq_entry_count (@sq_new f64) =? 0] = true.
Proof. vm_compute. reflexivity. Qed.

(** csr_square_matrix.rs:60-78. *)
Example doc_sq_increment :
  let inc := sq_increment_entry plat64 f64_numeric in
  ret (inc sq_new 3 4) (fun m1 =>
  [f64_eq (sget m1 3 4) f64_one;
   ret (inc m1 3 4) (fun m2 =>
   [f64_eq (sget m2 3 4) (lit 2 1); sq_entry_count m2 =? 1; sq_dimension m2 =? 5;
    ret (inc (sset m2 (lit 32 10) 0 1) 0 1) (fun m3 =>
    [f64_eq (sget m3 0 1) (lit 42 10)])])]) = true.
Proof. vm_compute. reflexivity. Qed.

Definition doc_floats (x : f64) : sq f64 :=
  vals f64_numeric sq_new
    [(lit 13 10, 0, 0); (lit 1 1, 1, 2); (lit 847724 1000000, 2, 1); (x, 1, 0)].

(** csr_square_matrix.rs:118-149. *)
Example doc_sq_precision :
  let m := doc_floats (lit 17 10) in
  both (fun o =>
    [gives_text (sq_to_string_with_precision plat64 f64_numeric o m 3)
       (lines ["[ 1.300, 1.700, 0.000 ]"; "[ 0.000, 0.000, 0.848 ]";
               "[ 0.000, 1.000, 0.000 ]"]%string);
     gives_text (sq_to_string_with_precision plat64 f64_numeric o
         (sset m (neg (lit 1012 100)) 2 2) 1)
       (lines ["[   1.3,   1.7,   0.0 ]"; "[   0.0,   0.0,   0.8 ]";
               "[   0.0,   1.0, -10.1 ]"]%string)]) = true.
Proof. vm_compute. reflexivity. Qed.

(** csr_square_matrix.rs:399-435. *)
Example doc_sq_display :
  both (fun o =>
    [shows (sq_display plat64 f64_numeric o (doc_floats (lit 107 10)))
       (lines ["[  1.30, 10.70,  0.00 ]"; "[  0.00,  0.00,  0.85 ]";
               "[  0.00,  1.00,  0.00 ]"]%string);
     shows (sq_display plat64 i32n o
         (vals i32n sq_new [(1%Z, 0, 0); (7%Z, 1, 2); ((-5)%Z, 2, 1); (10%Z, 1, 0)]))
       (lines ["[  1, 10,  0 ]"; "[  0,  0, -5 ]"; "[  0,  7,  0 ]"]%string)]) = true.
Proof. vm_compute. reflexivity. Qed.

(** csr_square_matrix.rs:462-486. *)
Example doc_sq_iter :
  let m := vals f64_numeric sq_new [(lit 55 10, 0, 0); (neg (lit 78 10), 1, 2)] in
  both (fun o =>
    let l := sq_items o m in
    let holds x := existsb (fun '(e, c, r) => f64_eq e x.1.1 && (c =? x.1.2) && (r =? x.2)) l in
    [len l =? sq_entry_count m; holds (lit 55 10, 0, 0); holds (neg (lit 78 10), 1, 2)]) = true.
Proof. vm_compute. reflexivity. Qed.
