(** The unit tests of graphrox-c/src/lib.rs (lines 785-2300), run on the model of the C
    interface by computation.  Besides the assertions of a test this checks that it does
    not abort, that it stays within defined behaviour and, where the test frees everything
    it made, that nothing is left on the heap. *)
From Coq Require Import Ascii String.
From Verif Require Import Base HashIter F64 Numeric Adj Sq Standard Compressed Spec Api CApi CSpec
  PropCommon PropC ModelTests.

Local Notation "'let*' x := c 'in' k" := (cbind c (fun x => k))
  (at level 200, x pattern, k at level 200).
Local Notation "c ;; k" := (cbind c (fun _ => k)) (at level 100, k at level 200, only parsing).

(** A failed assertion. *)
Definition check (b : bool) : cm unit := fun h => if b then Done tt h else Abort.
Definition expect (c : cm N) (n : N) : cm unit := cbind c (fun x => check (x =? n)).
Definition expect_same (c d : cm N) : cm unit :=
  cbind c (fun x => cbind d (fun y => check (x =? y))).
Definition expect_all (f : N -> N -> cm N) (l : list (N * N)) (n : N) : cm unit :=
  fold_right (fun '(u, v) k => cbind (expect (f u v) n) (fun _ => k)) (cret tt) l.

(** The test's local variables: a [usize], a [u8] and the two arrays several tests use. *)
Definition size_var : addr := 1.
Definition error_var : addr := 2.
Definition arr_a : addr := 3.
Definition arr_b : addr := 4.
Definition arr_c : addr := 5.
Definition stack : cheap :=
  <[1 := OSizeCell 0]> (<[2 := OErrorCell 0]> (<[3 := OInputIds [0; 2; 4; 7; 3]]>
    (<[4 := OInputIds [6; 8; 0; 1; 5; 4; 2]]>
      (<[5 := OInputIds [0; 2; 3; 500; 2; 500]]> ∅)))).
Definition load_size (a : addr) : cm N := fun h =>
  match h !! a with Some (OSizeCell n) => Done n h | _ => UB end.
Definition load_error (a : addr) : cm N := fun h =>
  match h !! a with Some (OErrorCell n) => Done n h | _ => UB end.
(** [CString::from_raw] and [to_str]: takes the string back. *)
Definition take_string (a : addr) : cm text := fun h =>
  match h !! a with Some (OString s) => Done s (delete a h) | _ => UB end.
(** [slice::from_raw_parts(list, size)]. *)
Definition load_edges (a : addr) : cm (list (N * N)) := fun h =>
  match h !! a with Some (OEdges l) => Done l h | _ => UB end.
Definition load_vertices (a : addr) : cm (list N) := fun h =>
  match h !! a with Some (OVertices l) => Done l h | _ => UB end.
Definition load_entries (a : addr) : cm (list (spec_float * N * N)) := fun h =>
  match h !! a with Some (OEntries l) => Done l h | _ => UB end.

(** The test passes and leaves [left] objects on the heap. *)
Definition passes_leaving (left : N) (t : cenv -> cm unit) : bool :=
  let run o1 o2 := match t (CEnv plat64 bump_alloc o1 o2) stack with
                   | Done _ h => N.of_nat (size h) =? 5 + left
                   | _ => false
                   end in
  run plain_order reversed_order && run reversed_order plain_order.

Definition add_all (g : addr) (l : list (N * N)) : cm unit :=
  fold_right (fun '(u, v) k => cbind (gphrx_add_edge g u v) (fun _ => k)) (cret tt) l.
Definition six : list (N * N) := [(3, 9); (200, 30); (15, 39); (10, 20); (200, 31); (588, 1039)].
Definition dense : list (N * N) := rect 8 16 8 16 ++ rect 0 8 0 4.
Definition mirrored : list (N * N) := rect 8 16 8 16 ++ rect 8 16 0 4.
(** The graph most pooling tests start from. *)
Definition pool_graph (e : cenv) : cm addr :=
  let* g := gphrx_new_undirected e in
  gphrx_add_vertex g 1 arr_a 5;;
  gphrx_add_vertex g 5 arr_b 7;;
  gphrx_add_edge g 7 8;;
  cret g.
(** The graph most compression tests start from. *)
Definition dense_graph (e : cenv) (more : list (N * N)) : cm addr :=
  let* g := gphrx_new_directed e in
  gphrx_add_vertex g 23 null 0;;
  add_all g dense;;
  add_all g more;;
  cret g.
Definition lone : list (N * N) := [(22, 18); (15, 18)].

(** lib.rs:789-803. The test has vertex 200 where this has 20, to keep the text short. *)
Example c_test_free_gphrx_string_buffer :
  passes_leaving 0 (fun e =>
  let* g := gphrx_new_undirected e in
  add_all g [(3, 9); (20, 30)];;
  let* s := gphrx_matrix_string e g in
  free_gphrx_string_buffer s;;
  free_gphrx_graph g) = true.
Proof. vm_compute. reflexivity. Qed.

(** lib.rs:805-822. *)
Example c_test_free_gphrx_bytes_buffer :
  passes_leaving 0 (fun e =>
  let* g := gphrx_new_undirected e in
  add_all g [(3, 9); (200, 30)];;
  let* bytes := gphrx_to_bytes e g size_var in
  let* size := load_size size_var in
  check (negb (size =? 0));;
  free_gphrx_bytes_buffer bytes size;;
  free_gphrx_graph g) = true.
Proof. vm_compute. reflexivity. Qed.

(** lib.rs:824-851. *)
Example c_test_null_safe_ffi_inputs :
  passes_leaving 0 (fun e =>
  free_gphrx_string_buffer null;;
  free_gphrx_bytes_buffer null 0;;
  free_gphrx_graph null;;
  free_gphrx_compressed_graph null;;
  free_gphrx_edge_list null 0;;
  free_gphrx_vertex_list null 0;;
  free_gphrx_matrix_entry_list null 0;;
  let* g := gphrx_from_bytes e null 1 error_var in
  check (g =? null);;
  expect (load_error error_var) GPHRX_ERROR_INVALID_FORMAT;;
  let* g := gphrx_new_directed e in
  gphrx_add_vertex g 0 null 0;;
  expect (gphrx_vertex_count g) 1;;
  gphrx_add_vertex g 0 null 1;;
  expect (gphrx_edge_count g) 0;;
  free_gphrx_graph g) = true.
Proof. vm_compute. reflexivity. Qed.

(** lib.rs:853-870. *)
Example c_test_free_gphrx_graph :
  passes_leaving 0 (fun e =>
  let* g := gphrx_new_undirected e in
  add_all g [(3, 9); (200, 30); (15, 39); (100000, 200020); (200, 31); (588, 10399)];;
  free_gphrx_graph g;;
  let* g := gphrx_new_undirected e in
  free_gphrx_graph g) = true.
Proof. vm_compute. reflexivity. Qed.

(** lib.rs:872-897. *)
Example c_test_free_gphrx_edge_list :
  passes_leaving 0 (fun e =>
  let* g := gphrx_new_directed e in
  add_all g six;;
  let* l := gphrx_get_edge_list e g size_var in
  let* size := load_size size_var in
  free_gphrx_edge_list l size;;
  free_gphrx_graph g) = true.
Proof. vm_compute. reflexivity. Qed.

(** lib.rs:899-928. *)
Example c_test_free_gphrx_vertex_list :
  passes_leaving 0 (fun e =>
  let* g := gphrx_new_undirected e in
  add_all g ([(3, 9); (3, 8); (3, 7); (3, 6); (3, 5)] ++ [(200, 30); (15, 39); (10, 20);
             (200, 31); (588, 1039)]);;
  let* l := gphrx_get_vertex_in_edges_list e g 3 size_var in
  let* size := load_size size_var in
  free_gphrx_vertex_list l size;;
  free_gphrx_graph g) = true.
Proof. vm_compute. reflexivity. Qed.

(** lib.rs:930-941. *)
Example c_test_gphrx_new_undirected :
  passes_leaving 0 (fun e =>
  let* g := gphrx_new_undirected e in
  expect (gphrx_is_undirected g) 1;;
  expect (gphrx_edge_count g) 0;;
  expect (gphrx_vertex_count g) 0;;
  free_gphrx_graph g) = true.
Proof. vm_compute. reflexivity. Qed.

(** lib.rs:943-954. *)
Example c_test_gphrx_new_directed :
  passes_leaving 0 (fun e =>
  let* g := gphrx_new_directed e in
  expect (gphrx_is_undirected g) 0;;
  expect (gphrx_edge_count g) 0;;
  expect (gphrx_vertex_count g) 0;;
  free_gphrx_graph g) = true.
Proof. vm_compute. reflexivity. Qed.

(** lib.rs:956-1002. *)
Example c_test_gphrx_to_from_bytes :
  passes_leaving 0 (fun e =>
  let* g := gphrx_new_undirected e in
  add_all g [(3, 9); (200, 30)];;
  let* bytes := gphrx_to_bytes e g size_var in
  let* size := load_size size_var in
  let* n := gphrx_edge_count g in
  check (size =? 26 + 8 * 2 * n);;
  let* g' := gphrx_from_bytes e bytes size error_var in
  expect (load_error error_var) 0;;
  expect_same (gphrx_is_undirected g') (gphrx_is_undirected g);;
  expect (gphrx_is_undirected g') 1;;
  expect_same (gphrx_edge_count g') (gphrx_edge_count g);;
  expect (gphrx_edge_count g') 4;;
  expect_same (gphrx_vertex_count g') (gphrx_vertex_count g);;
  expect (gphrx_vertex_count g') 201;;
  expect_all (gphrx_does_edge_exist g') [(3, 9); (9, 3); (200, 30); (30, 200)] 1;;
  free_gphrx_bytes_buffer bytes size;;
  free_gphrx_graph g;;
  free_gphrx_graph g') = true.
Proof. vm_compute. reflexivity. Qed.

(** lib.rs:1004-1032. *)
Example c_test_gphrx_duplicate :
  passes_leaving 0 (fun e =>
  let* g := gphrx_new_undirected e in
  add_all g [(3, 9); (200, 30)];;
  let* g' := gphrx_duplicate e g in
  expect_same (gphrx_is_undirected g') (gphrx_is_undirected g);;
  expect_same (gphrx_edge_count g') (gphrx_edge_count g);;
  expect_same (gphrx_vertex_count g') (gphrx_vertex_count g);;
  expect_all (gphrx_does_edge_exist g') [(3, 9); (9, 3); (200, 30); (30, 200)] 1;;
  free_gphrx_graph g;;
  free_gphrx_graph g') = true.
Proof. vm_compute. reflexivity. Qed.

(** lib.rs:1034-1062. *)
Example c_test_gphrx_matrix_string :
  passes_leaving 0 (fun e =>
  let* g := gphrx_new_directed e in
  add_all g [(1, 2); (1, 0); (0, 2); (2, 2)];;
  let* p := gphrx_matrix_string e g in
  let* s := take_string p in
  check (text_eqb s (lines ["[ 0, 1, 0 ]"; "[ 0, 0, 0 ]"; "[ 1, 1, 1 ]"]%string));;
  gphrx_add_vertex g 3 null 0;;
  let* p := gphrx_matrix_string e g in
  let* s := take_string p in
  check (text_eqb s (lines ["[ 0, 1, 0, 0 ]"; "[ 0, 0, 0, 0 ]"; "[ 1, 1, 1, 0 ]";
                            "[ 0, 0, 0, 0 ]"]%string));;
  free_gphrx_graph g) = true.
Proof. vm_compute. reflexivity. Qed.

(** lib.rs:1064-1077. *)
Example c_test_gphrx_is_undirected :
  passes_leaving 0 (fun e =>
  let* g := gphrx_new_undirected e in
  expect (gphrx_is_undirected g) 1;;
  free_gphrx_graph g;;
  let* g := gphrx_new_directed e in
  expect (gphrx_is_undirected g) 0;;
  free_gphrx_graph g) = true.
Proof. vm_compute. reflexivity. Qed.

(** lib.rs:1079-1094. *)
Example c_test_gphrx_vertex_count :
  passes_leaving 0 (fun e =>
  let* g := gphrx_new_undirected e in
  expect (gphrx_vertex_count g) 0;;
  gphrx_add_edge g 1 4;;
  expect (gphrx_vertex_count g) 5;;
  gphrx_add_vertex g 101 null 0;;
  expect (gphrx_vertex_count g) 102;;
  free_gphrx_graph g) = true.
Proof. vm_compute. reflexivity. Qed.

(** lib.rs:1096-1143. *)
Example c_test_gphrx_edge_count :
  passes_leaving 0 (fun e =>
  let* g := gphrx_new_undirected e in
  expect (gphrx_edge_count g) 0;;
  gphrx_add_edge g 1 4;;
  expect (gphrx_edge_count g) 2;;
  gphrx_add_edge g 1 4;;
  expect (gphrx_edge_count g) 2;;
  gphrx_add_edge g 1 5;;
  expect (gphrx_edge_count g) 4;;
  gphrx_add_edge g 5 5;;
  expect (gphrx_edge_count g) 5;;
  gphrx_add_vertex g 101 null 0;;
  expect (gphrx_edge_count g) 5;;
  free_gphrx_graph g;;
  let* g := gphrx_new_directed e in
  expect (gphrx_edge_count g) 0;;
  gphrx_add_edge g 1 4;;
  expect (gphrx_edge_count g) 1;;
  gphrx_add_edge g 1 4;;
  expect (gphrx_edge_count g) 1;;
  gphrx_add_edge g 1 5;;
  expect (gphrx_edge_count g) 2;;
  gphrx_add_edge g 5 5;;
  expect (gphrx_edge_count g) 3;;
  gphrx_add_vertex g 101 null 0;;
  expect (gphrx_edge_count g) 3;;
  free_gphrx_graph g) = true.
Proof. vm_compute. reflexivity. Qed.

(** lib.rs:1145-1160. *)
Example c_test_gphrx_does_edge_exist :
  passes_leaving 0 (fun e =>
  let* g := gphrx_new_undirected e in
  expect_all (gphrx_does_edge_exist g) [(2, 3); (3, 2)] 0;;
  gphrx_add_edge g 3 2;;
  expect_all (gphrx_does_edge_exist g) [(2, 3); (3, 2)] 1;;
  free_gphrx_graph g) = true.
Proof. vm_compute. reflexivity. Qed.

(** lib.rs:1162-1199. *)
Example c_test_gphrx_find_avg_pool_matrix :
  passes_leaving 0 (fun e =>
  let* g := pool_graph e in
  let* m := gphrx_find_avg_pool_matrix e g 5 in
  expect (gphrx_matrix_dimension m) 2;;
  expect (gphrx_matrix_entry_count m) 4;;
  let near c r n := cbind (gphrx_matrix_get_entry m c r) (fun x =>
                      check (f64_eq (round100 x) (lit n 100))) in
  near 0 0 32;; near 0 1 20;; near 1 0 20;; near 1 1 28;;
  free_gphrx_graph g;;
  free_gphrx_matrix m) = true.
Proof. vm_compute. reflexivity. Qed.

(** lib.rs:1201-1228. *)
Example c_test_gphrx_approximate :
  passes_leaving 0 (fun e =>
  let* g := pool_graph e in
  let* a := gphrx_approximate e g 5 (lit 25 100) in
  expect_same (gphrx_is_undirected a) (gphrx_is_undirected g);;
  expect (gphrx_vertex_count a) 2;;
  expect (gphrx_edge_count a) 2;;
  expect_all (gphrx_does_edge_exist a) [(0, 0); (1, 1)] 1;;
  free_gphrx_graph g;;
  free_gphrx_graph a) = true.
Proof. vm_compute. reflexivity. Qed.

(** lib.rs:1230-1281. *)
Example c_test_gphrx_compress :
  passes_leaving 0 (fun e =>
  let* g := dense_graph e lone in
  let* c := gphrx_compress e g 9 in
  expect_same (gphrx_compressed_graph_is_undirected c) (gphrx_is_undirected g);;
  expect (gphrx_compressed_graph_compression_level c) 9;;
  expect_same (gphrx_compressed_graph_vertex_count c) (gphrx_vertex_count g);;
  expect (gphrx_compressed_graph_vertex_count c) 24;;
  expect (gphrx_compressed_graph_edge_count c) 96;;
  expect (gphrx_get_compressed_matrix_entry c 0 0) 0x00000000ffffffff;;
  expect (gphrx_get_compressed_matrix_entry c 1 1) u64MAX;;
  free_gphrx_graph g;;
  free_gphrx_compressed_graph c) = true.
Proof. vm_compute. reflexivity. Qed.

(** lib.rs:1283-1318. *)
Example c_test_gphrx_get_edge_list :
  passes_leaving 0 (fun e =>
  let* g := gphrx_new_directed e in
  add_all g six;;
  let* l := gphrx_get_edge_list e g size_var in
  let* size := load_size size_var in
  check (size =? len six);;
  let* s := load_edges l in
  check (len s =? size);;
  check (forallb (fun x => has2 x s) six);;
  free_gphrx_edge_list l size;;
  free_gphrx_graph g) = true.
Proof. vm_compute. reflexivity. Qed.

(** lib.rs:1320-1358. *)
Example c_test_gphrx_add_vertex :
  passes_leaving 0 (fun e =>
  let* g := gphrx_new_undirected e in
  gphrx_add_vertex g 500 arr_c 6;;
  expect (gphrx_vertex_count g) 501;;
  expect (gphrx_edge_count g) 7;;
  expect_all (gphrx_does_edge_exist g) 
    [(0, 500); (500, 0); (2, 500); (500, 2); (3, 500); (500, 3); (500, 500)] 1;;
  free_gphrx_graph g;;
  let* g := gphrx_new_directed e in
  gphrx_add_vertex g 500 arr_c 6;;
  expect (gphrx_vertex_count g) 501;;
  expect (gphrx_edge_count g) 4;;
  expect_all (gphrx_does_edge_exist g) [(500, 0); (500, 2); (500, 3); (500, 500)] 1;;
  free_gphrx_graph g) = true.
Proof. vm_compute. reflexivity. Qed.

(** lib.rs:1360-1402. *)
Example c_test_gphrx_add_edge :
  passes_leaving 0 (fun e =>
  let* g := gphrx_new_undirected e in
  add_all g [(500, 0); (500, 2); (500, 3); (500, 500)];;
  expect (gphrx_vertex_count g) 501;;
  expect (gphrx_edge_count g) 7;;
  expect_all (gphrx_does_edge_exist g) 
    [(0, 500); (500, 0); (2, 500); (500, 2); (3, 500); (500, 3); (500, 500)] 1;;
  free_gphrx_graph g;;
  let* g := gphrx_new_directed e in
  add_all g [(500, 0); (500, 2); (500, 3); (500, 500)];;
  expect (gphrx_vertex_count g) 501;;
  expect (gphrx_edge_count g) 4;;
  expect_all (gphrx_does_edge_exist g) [(500, 0); (500, 2); (500, 3); (500, 500)] 1;;
  free_gphrx_graph g) = true.
Proof. vm_compute. reflexivity. Qed.

(** lib.rs:1404-1453. *)
Example c_test_gphrx_delete_edge :
  passes_leaving 0 (fun e =>
  let* g := gphrx_new_undirected e in
  add_all g [(500, 0); (500, 2); (500, 3); (500, 500)];;
  expect (gphrx_edge_count g) 7;;
  gphrx_delete_edge g 500 3;;
  expect (gphrx_edge_count g) 5;;
  expect_all (gphrx_does_edge_exist g) [(3, 500); (500, 3)] 0;;
  expect (gphrx_does_edge_exist g 500 500) 1;;
  gphrx_delete_edge g 500 500;;
  expect (gphrx_edge_count g) 4;;
  expect (gphrx_does_edge_exist g 500 500) 0;;
  gphrx_delete_edge g 500 3;;
  expect (gphrx_edge_count g) 4;;
  free_gphrx_graph g;;
  let* g := gphrx_new_directed e in
  add_all g [(500, 0); (500, 2); (500, 3); (500, 500)];;
  expect (gphrx_edge_count g) 4;;
  expect (gphrx_does_edge_exist g 500 3) 1;;
  gphrx_delete_edge g 500 3;;
  expect (gphrx_edge_count g) 3;;
  expect (gphrx_does_edge_exist g 500 3) 0;;
  free_gphrx_graph g) = true.
Proof. vm_compute. reflexivity. Qed.

(** lib.rs:1455-1507. *)
Example c_test_gphrx_get_vertex_in_edges_list :
  passes_leaving 0 (fun e =>
  let* g := gphrx_new_directed e in
  add_all g to5;;
  let* l := gphrx_get_vertex_in_edges_list e g 5 size_var in
  let* size := load_size size_var in
  check (size =? 3);;
  let* s := load_vertices l in
  check (size =? len s);;
  check (forallb (fun v => has v s) [2; 10; 11]);;
  free_gphrx_graph g;;
  free_gphrx_vertex_list l size;;
  let* g := gphrx_new_undirected e in
  add_all g to5;;
  let* l := gphrx_get_vertex_in_edges_list e g 5 size_var in
  let* size := load_size size_var in
  check (size =? 4);;
  let* s := load_vertices l in
  check (size =? len s);;
  check (forallb (fun v => has v s) [2; 10; 11; 9]);;
  free_gphrx_graph g;;
  free_gphrx_vertex_list l size) = true.
Proof. vm_compute. reflexivity. Qed.

(** lib.rs:1563-1590. *)
Example c_test_gphrx_get_vertex_in_degree :
  passes_leaving 0 (fun e =>
  let* g := gphrx_new_directed e in
  add_all g to5;;
  expect (gphrx_get_vertex_in_degree e g 5) 3;;
  free_gphrx_graph g;;
  let* g := gphrx_new_undirected e in
  add_all g to5;;
  expect (gphrx_get_vertex_in_degree e g 5) 4;;
  free_gphrx_graph g) = true.
Proof. vm_compute. reflexivity. Qed.

(** lib.rs:1509-1561. *)
Example c_test_gphrx_get_vertex_out_edges_list :
  passes_leaving 0 (fun e =>
  let* g := gphrx_new_directed e in
  add_all g from5;;
  let* l := gphrx_get_vertex_out_edges_list e g 5 size_var in
  let* size := load_size size_var in
  check (size =? 3);;
  let* s := load_vertices l in
  check (size =? len s);;
  check (forallb (fun v => has v s) [2; 10; 11]);;
  free_gphrx_graph g;;
  free_gphrx_vertex_list l size;;
  let* g := gphrx_new_undirected e in
  add_all g from5;;
  let* l := gphrx_get_vertex_out_edges_list e g 5 size_var in
  let* size := load_size size_var in
  check (size =? 4);;
  let* s := load_vertices l in
  check (size =? len s);;
  check (forallb (fun v => has v s) [2; 10; 11; 9]);;
  free_gphrx_graph g;;
  free_gphrx_vertex_list l size) = true.
Proof. vm_compute. reflexivity. Qed.

(** lib.rs:1592-1619. *)
Example c_test_gphrx_get_vertex_out_degree :
  passes_leaving 0 (fun e =>
  let* g := gphrx_new_directed e in
  add_all g from5;;
  expect (gphrx_get_vertex_out_degree e g 5) 3;;
  free_gphrx_graph g;;
  let* g := gphrx_new_undirected e in
  add_all g from5;;
  expect (gphrx_get_vertex_out_degree e g 5) 4;;
  free_gphrx_graph g) = true.
Proof. vm_compute. reflexivity. Qed.

(** lib.rs:1621-1650. *)
Example c_test_free_gphrx_compressed_graph :
  passes_leaving 0 (fun e =>
  let* g := dense_graph e lone in
  let* c := gphrx_compress e g 4 in
  free_gphrx_graph g;;
  free_gphrx_compressed_graph c) = true.
Proof. vm_compute. reflexivity. Qed.

(** lib.rs:1652-1708. *)
Example c_test_gphrx_compressed_graph_duplicate :
  passes_leaving 0 (fun e =>
  let* g := dense_graph e lone in
  let* c := gphrx_compress e g 6 in
  let* d := gphrx_compressed_graph_duplicate e c in
  expect_same (gphrx_compressed_graph_is_undirected d) (gphrx_is_undirected g);;
  expect (gphrx_compressed_graph_compression_level d) 6;;
  expect_same (gphrx_compressed_graph_vertex_count d) (gphrx_vertex_count g);;
  expect (gphrx_compressed_graph_vertex_count d) 24;;
  expect (gphrx_compressed_graph_edge_count d) 96;;
  expect (gphrx_get_compressed_matrix_entry d 0 0) 0x00000000ffffffff;;
  expect (gphrx_get_compressed_matrix_entry d 1 1) u64MAX;;
  free_gphrx_graph g;;
  free_gphrx_compressed_graph c;;
  free_gphrx_compressed_graph d) = true.
Proof. vm_compute. reflexivity. Qed.

(** lib.rs:1710-1727. *)
Example c_test_gphrx_compressed_graph_compression_level :
  passes_leaving 0 (fun e =>
  let* g := gphrx_new_directed e in
  gphrx_add_edge g 10 1;;
  let* c := gphrx_compress e g 42 in
  expect (gphrx_compressed_graph_compression_level c) 42;;
  free_gphrx_graph g;;
  free_gphrx_compressed_graph c) = true.
Proof. vm_compute. reflexivity. Qed.

(** lib.rs:1729-1750. *)
Example c_test_gphrx_compressed_graph_is_undirected :
  passes_leaving 4 (fun e =>
  let* g := gphrx_new_undirected e in
  let* c := gphrx_compress e g 2 in
  expect (gphrx_compressed_graph_is_undirected c) 1;;
  let* g := gphrx_new_directed e in
  let* c := gphrx_compress e g 10 in
  expect (gphrx_compressed_graph_is_undirected c) 0) = true.
Proof. vm_compute. reflexivity. Qed.

(** lib.rs:1752-1766. *)
Example c_test_gphrx_compressed_graph_vertex_count :
  passes_leaving 0 (fun e =>
  let* g := gphrx_new_undirected e in
  gphrx_add_edge g 10 1;;
  let* c := gphrx_compress e g 0 in
  expect (gphrx_compressed_graph_vertex_count c) 11;;
  free_gphrx_graph g;;
  free_gphrx_compressed_graph c) = true.
Proof. vm_compute. reflexivity. Qed.

(** lib.rs:1768-1795. *)
Example c_test_gphrx_compressed_graph_edge_count :
  passes_leaving 0 (fun e =>
  let* g := gphrx_new_undirected e in
  gphrx_add_edge g 10 1;;
  let* c := gphrx_compress e g 0 in
  expect (gphrx_compressed_graph_edge_count c) 2;;
  free_gphrx_graph g;;
  free_gphrx_compressed_graph c;;
  let* g := gphrx_new_directed e in
  gphrx_add_edge g 10 1;;
  let* c := gphrx_compress e g 0 in
  expect (gphrx_compressed_graph_edge_count c) 1;;
  free_gphrx_graph g;;
  free_gphrx_compressed_graph c) = true.
Proof. vm_compute. reflexivity. Qed.

(** lib.rs:1797-1851. *)
Example c_test_gphrx_compressed_graph_does_edge_exist :
  passes_leaving 0 (fun e =>
  let* g := dense_graph e lone in
  let* c := gphrx_compress e g 7 in
  expect_all (gphrx_compressed_graph_does_edge_exist c) dense 1;;
  expect_all (gphrx_compressed_graph_does_edge_exist c) lone 0;;
  free_gphrx_graph g;;
  free_gphrx_compressed_graph c) = true.
Proof. vm_compute. reflexivity. Qed.

(** lib.rs:1853-1893. *)
Example c_test_gphrx_get_compressed_matrix_entry :
  passes_leaving 0 (fun e =>
  let* g := gphrx_new_undirected e in
  gphrx_add_vertex g 23 null 0;;
  add_all g mirrored;;
  let* c := gphrx_compress e g 13 in
  let entry := gphrx_get_compressed_matrix_entry c in
  expect (entry 0 0) 0;;
  expect (entry 1 0) 0x00000000ffffffff;;
  expect (entry 0 1) 0x0f0f0f0f0f0f0f0f;;
  expect (entry 1 1) u64MAX;;
  expect (entry 1 2) 0;;
  expect (entry 5 7) 0;;
  free_gphrx_graph g;;
  free_gphrx_compressed_graph c) = true.
Proof. vm_compute. reflexivity. Qed.

(** lib.rs:1895-1925. *)
Example c_test_gphrx_compressed_graph_matrix_string :
  passes_leaving 0 (fun e =>
  let* g := gphrx_new_undirected e in
  add_all g mirrored;;
  let* c := gphrx_compress e g 4 in
  let* p := gphrx_compressed_graph_matrix_string e c in
  let* s := take_string p in
  check (text_eqb s (lines ["[                    0,           4294967295 ]";
                            "[  1085102592571150095, 18446744073709551615 ]"]%string));;
  free_gphrx_graph g;;
  free_gphrx_compressed_graph c) = true.
Proof. vm_compute. reflexivity. Qed.

(** lib.rs:1927-1998. *)
Example c_test_gphrx_compressed_graph_to_from_bytes :
  passes_leaving 0 (fun e =>
  let* g := dense_graph e [] in
  let* c := gphrx_compress e g 25 in
  let* bytes := gphrx_compressed_graph_to_bytes e c size_var in
  let* size := load_size size_var in
  check (size =? 42 + 8 * 3 * 2);;
  let* d := gphrx_compressed_graph_from_bytes e bytes size error_var in
  expect (load_error error_var) 0;;
  expect_same (gphrx_compressed_graph_is_undirected d) (gphrx_is_undirected g);;
  expect (gphrx_compressed_graph_compression_level d) 25;;
  expect_same (gphrx_compressed_graph_vertex_count d) (gphrx_vertex_count g);;
  expect (gphrx_compressed_graph_vertex_count d) 24;;
  expect (gphrx_compressed_graph_edge_count d) 96;;
  expect (gphrx_get_compressed_matrix_entry d 0 0) 0x00000000ffffffff;;
  expect (gphrx_get_compressed_matrix_entry d 1 1) u64MAX;;
  free_gphrx_graph g;;
  free_gphrx_compressed_graph c;;
  free_gphrx_compressed_graph d;;
  free_gphrx_bytes_buffer bytes size) = true.
Proof. vm_compute. reflexivity. Qed.

(** lib.rs:2000-2051. *)
Example c_test_gphrx_decompress :
  passes_leaving 0 (fun e =>
  let* g := dense_graph e [] in
  let* c := gphrx_compress e g 23 in
  let* d := gphrx_decompress e c in
  expect_same (gphrx_is_undirected d) (gphrx_is_undirected g);;
  expect_same (gphrx_edge_count d) (gphrx_edge_count g);;
  expect_same (gphrx_vertex_count d) (gphrx_vertex_count g);;
  expect_all (gphrx_does_edge_exist d) dense 1;;
  free_gphrx_graph g;;
  free_gphrx_graph d;;
  free_gphrx_compressed_graph c) = true.
Proof. vm_compute. reflexivity. Qed.

(** lib.rs:2053-2071. *)
Example c_test_free_gphrx_matrix :
  passes_leaving 0 (fun e =>
  let* g := pool_graph e in
  let* m := gphrx_find_avg_pool_matrix e g 5 in
  free_gphrx_graph g;;
  free_gphrx_matrix m) = true.
Proof. vm_compute. reflexivity. Qed.

(** lib.rs:2144-2163. *)
Example c_test_gphrx_matrix_dimension :
  passes_leaving 0 (fun e =>
  let* g := pool_graph e in
  let* m := gphrx_find_avg_pool_matrix e g 5 in
  expect (gphrx_matrix_dimension m) 2;;
  free_gphrx_graph g;;
  free_gphrx_matrix m) = true.
Proof. vm_compute. reflexivity. Qed.

(** lib.rs:2165-2184. *)
Example c_test_gphrx_matrix_entry_count :
  passes_leaving 0 (fun e =>
  let* g := pool_graph e in
  let* m := gphrx_find_avg_pool_matrix e g 5 in
  expect (gphrx_matrix_entry_count m) 4;;
  free_gphrx_graph g;;
  free_gphrx_matrix m) = true.
Proof. vm_compute. reflexivity. Qed.

(** lib.rs:2186-2208. *)
Example c_test_gphrx_matrix_get_entry :
  passes_leaving 0 (fun e =>
  let* g := pool_graph e in
  let* m := gphrx_find_avg_pool_matrix e g 5 in
  let entry c r n := cbind (gphrx_matrix_get_entry m c r) (fun x => check (f64_eq x (lit n 100))) in
  entry 0 0 32;; entry 0 1 20;; entry 1 0 20;; entry 1 1 28;;
  free_gphrx_graph g;;
  free_gphrx_matrix m) = true.
Proof. vm_compute. reflexivity. Qed.

(** lib.rs:2210-2232. *)
Example c_test_gphrx_matrix_to_string :
  passes_leaving 0 (fun e =>
  let* g := pool_graph e in
  let* m := gphrx_find_avg_pool_matrix e g 5 in
  let* p := gphrx_matrix_to_string e m in
  let* s := take_string p in
  check (text_eqb s (lines ["[ 0.32, 0.20 ]"; "[ 0.20, 0.28 ]"]%string));;
  free_gphrx_graph g;;
  free_gphrx_matrix m) = true.
Proof. vm_compute. reflexivity. Qed.

(** lib.rs:2234-2257. *)
Example c_test_gphrx_matrix_to_string_with_precision :
  passes_leaving 0 (fun e =>
  let* g := pool_graph e in
  let* m := gphrx_find_avg_pool_matrix e g 5 in
  let* p := gphrx_matrix_to_string_with_precision e m 4 in
  let* s := take_string p in
  check (text_eqb s (lines ["[ 0.3200, 0.2000 ]"; "[ 0.2000, 0.2800 ]"]%string));;
  free_gphrx_graph g;;
  free_gphrx_matrix m) = true.
Proof. vm_compute. reflexivity. Qed.

(** lib.rs:2259-2293. *)
Example c_test_gphrx_matrix_get_entry_list :
  passes_leaving 0 (fun e =>
  let* g := pool_graph e in
  let* m := gphrx_find_avg_pool_matrix e g 5 in
  let* l := gphrx_matrix_get_entry_list e m size_var in
  let* size := load_size size_var in
  check (size =? 4);;
  let* s := load_entries l in
  check (len s =? size);;
  check (has3 (lit 32 100) 0 0 s && has3 (lit 20 100) 0 1 s && has3 (lit 20 100) 1 0 s
         && has3 (lit 28 100) 1 1 s);;
  free_gphrx_graph g;;
  free_gphrx_matrix m;;
  free_gphrx_matrix_entry_list l size) = true.
Proof. vm_compute. reflexivity. Qed.

(** lib.rs:2073-2118. *)
Example c_test_gphrx_matrix_duplicate :
  passes_leaving 0 (fun e =>
  let* g := pool_graph e in
  let* m := gphrx_find_avg_pool_matrix e g 5 in
  let* d := gphrx_matrix_duplicate e m in
  expect_same (gphrx_matrix_dimension d) (gphrx_matrix_dimension m);;
  expect_same (gphrx_matrix_entry_count d) (gphrx_matrix_entry_count m);;
  let same c r := cbind (gphrx_matrix_get_entry d c r) (fun x =>
                  cbind (gphrx_matrix_get_entry m c r) (fun y =>
                  check (f64_eq (round100 x) (round100 y)))) in
  same 0 0;; same 0 1;; same 1 0;; same 1 1;;
  free_gphrx_graph g;;
  free_gphrx_matrix m;;
  free_gphrx_matrix d) = true.
Proof. vm_compute. reflexivity. Qed.

(** lib.rs:2120-2142. *)
Example c_test_free_gphrx_matrix_entry_list :
  passes_leaving 0 (fun e =>
  let* g := pool_graph e in
  let* m := gphrx_find_avg_pool_matrix e g 5 in
  let* l := gphrx_matrix_get_entry_list e m size_var in
  let* size := load_size size_var in
  free_gphrx_graph g;;
  free_gphrx_matrix m;;
  free_gphrx_matrix_entry_list l size) = true.
Proof. vm_compute. reflexivity. Qed.
