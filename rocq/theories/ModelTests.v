(** The unit tests of the repository, run on the model: every assertion of the test
    functions in graphrox-rs/src (the #[cfg(test)] modules) is evaluated by computation.
    Assertions that compare a getter with the private field it reads and assertions on the
    private hash table sizes are included where the model has the same field.  Tests whose
    result does not depend on the hash order are run with two opposite orders. *)
From Coq Require Import Ascii String.
From Verif Require Import Base HashIter F64 Numeric Adj Sq Standard Compressed Spec Api
  PropCommon.

(** All assertions of a test. *)
Definition passes (l : list bool) : bool := forallb (fun b => b) l.
Definition both (f : hash_order -> list bool) : bool :=
  passes (f plain_order) && passes (f reversed_order).

Definition pair_eqb (a b : N * N) : bool := (a.1 =? b.1) && (a.2 =? b.2).
Definition has (x : N) (l : list N) : bool := existsb (N.eqb x) l.
Definition has2 (x : N * N) (l : list (N * N)) : bool := existsb (pair_eqb x) l.
Definition len {A} (l : list A) : N := N.of_nat (List.length l).
Definition text_eqb (a b : text) : bool := bool_decide (a = b).
(** Lines joined by CR LF. *)
Definition lines (l : list string) : text :=
  match l with
  | [] => []
  | s :: l => txt s ++ mjoin ((fun s => [cr; lf] ++ txt s) <$> l)
  end.
Definition is_text (r : result text) (t : text) : bool :=
  match r with Ok s => text_eqb s t | Err _ => false end.
Definition gives_text (r : outcome (result text)) (t : text) : bool :=
  match r with Ret r => is_text r t | _ => false end.
Definition shows (r : outcome (option text)) (t : text) : bool :=
  match r with Ret (Some s) => text_eqb s t | _ => false end.
Definition is_err {A} (r : result A) : bool := match r with Err _ => true | _ => false end.
Definition fails {A} (r : outcome (result A)) : bool :=
  match r with Ret r => is_err r | _ => false end.
(** [unwrap] followed by assertions on the value. *)
Definition ok {A} (r : result A) (f : A -> list bool) : bool :=
  match r with Ok a => passes (f a) | Err _ => false end.
Definition ret {A} (r : outcome A) (f : A -> list bool) : bool :=
  match r with Ret a => passes (f a) | _ => false end.
Definition ret_ok {A} (r : outcome (result A)) (f : A -> list bool) : bool :=
  match r with Ret r => ok r f | _ => false end.

(** Decimal literals: [n / d] correctly rounded. *)
Definition lit (n d : N) : f64 := f64_div (f64_of_N n) (f64_of_N d).
Definition neg (x : f64) : f64 := f64_sub f64_zero x.
(** [(x * 100.0).round() / 100.0] for non-negative x (ties away from zero). *)
Definition round100 (x : f64) : f64 :=
  match f64_mul x (f64_of_N 100) with
  | S754_finite false m e =>
      let n := match e with
               | Zneg k => (2 * N.pos m + 2 ^ N.pos k) / (2 * 2 ^ N.pos k)
               | Z0 => N.pos m
               | Zpos k => N.pos m * 2 ^ N.pos k
               end in
      f64_div (f64_of_N n) (f64_of_N 100)
  | x => x
  end.

Definition edges (g : graph) (l : list (N * N)) : graph :=
  fold_left (fun g '(u, v) => add_edge g u v) l g.
Definition cells (m : adj) (l : list (N * N)) : adj :=
  fold_left (fun m '(c, r) => adj_set_entry m 1 c r) l m.
Definition vals {T} (num : numeric T) (m : sq T) (l : list (T * N * N)) : sq T :=
  fold_left (fun m '(x, c, r) => sq_set_entry num m x c r) l m.
Definition all_edges (g : graph) (l : list (N * N)) : bool :=
  forallb (fun '(u, v) => does_edge_exist g u v) l.
Definition no_edges (g : graph) (l : list (N * N)) : bool :=
  forallb (fun '(u, v) => negb (does_edge_exist g u v)) l.
(** [for i in a..b { for j in c..d { .. } }]. *)
Definition span (a b : N) : list N := (fun i => a + i) <$> range (b - a).
Definition rect (a b c d : N) : list (N * N) :=
  i ← span a b; (fun j => (i, j)) <$> span c d.
Definition u64MAX : N := u64_max.

(** ** csr_adjacency_matrix.rs *)

(** csr_adjacency_matrix.rs:423-436, test_new_matrix. *)
Example adj_test_new_matrix : 
  passes [adj_dim adj_new =? 0; adj_cnt adj_new =? 0; N.of_nat (size (adj_tab adj_new)) =? 0] = true.
Proof. vm_compute. reflexivity. Qed.

(** csr_adjacency_matrix.rs:438-460, test_get_dimension. *)
Example adj_test_get_dimension : 
  let m1 := adj_set_entry adj_new 1 0 0 in
  let m2 := adj_set_entry (adj_set_entry m1 1 4 7) 1 4 7 in
  let m3 := adj_set_entry m2 0 100 1 in
  passes [adj_dimension adj_new =? 0; adj_dimension m1 =? 1; adj_dimension m2 =? 8;
          adj_dimension m3 =? 101] = true.
Proof. vm_compute. reflexivity. Qed.

(** csr_adjacency_matrix.rs:462-492, test_get_entry_count. *)
Example adj_test_get_entry_count : 
  let m1 := adj_set_entry (adj_set_entry (adj_set_entry adj_new 0 5 8) 0 0 0) 0 27 13 in
  let m2 := adj_set_entry m1 1 0 0 in
  let m3 := adj_set_entry (adj_set_entry m2 1 100 1) 1 100 1 in
  let m4 := adj_set_entry (adj_set_entry m3 1 100 2) 1 1 99 in
  passes [adj_entry_count adj_new =? 0; adj_entry_count m1 =? 0; adj_entry_count m2 =? 1;
          adj_entry_count m3 =? 2; adj_entry_count m4 =? 4] = true.
Proof. vm_compute. reflexivity. Qed.

(** csr_adjacency_matrix.rs:494-508, test_get_entry. *)
Example adj_test_get_entry : 
  let m1 := adj_set_entry adj_new 0 5 8 in
  let m2 := adj_set_entry m1 1 5 8 in
  let m3 := adj_set_entry m2 1 8 5 in
  passes [adj_get_entry adj_new 5 8 =? 0; adj_get_entry m1 5 8 =? 0;
          adj_get_entry m2 5 8 =? 1; adj_get_entry m2 8 5 =? 0; adj_get_entry m3 8 5 =? 1] = true.
Proof. vm_compute. reflexivity. Qed.

(** csr_adjacency_matrix.rs:510-529, test_get_sparse_col_vector. *)
Example adj_test_get_sparse_col_vector : 
  let m := cells adj_new [(3, 0); (3, 8); (3, 10); (3, 42); (3, 100); (9, 5)] in
  both (fun o => let v := adj_sparse_col o m 3 in
    [len v =? 5; has 0 v; has 8 v; has 10 v; has 42 v; has 100 v]) = true.
Proof. vm_compute. reflexivity. Qed.

(** csr_adjacency_matrix.rs:531-550, test_get_sparse_row_vector. *)
Example adj_test_get_sparse_row_vector : 
  let m := cells adj_new [(0, 3); (8, 3); (10, 3); (42, 3); (100, 3); (3, 9)] in
  both (fun o => let v := adj_sparse_row o m 3 in
    [len v =? 5; has 0 v; has 8 v; has 10 v; has 42 v; has 100 v]) = true.
Proof. vm_compute. reflexivity. Qed.

(** csr_adjacency_matrix.rs:552-562, test_col_nonzero_entry_count. *)
Example adj_test_col_nonzero_entry_count : 
  let m := cells adj_new [(5, 2); (5, 10); (5, 11); (9, 5)] in
  both (fun o => [adj_col_count o m 5 =? 3]) = true.
Proof. vm_compute. reflexivity. Qed.

(** csr_adjacency_matrix.rs:564-574, test_row_nonzero_entry_count. *)
Example adj_test_row_nonzero_entry_count : 
  let m := cells adj_new [(2, 5); (10, 5); (11, 5); (5, 9)] in
  both (fun o => [adj_row_count o m 5 =? 3]) = true.
Proof. vm_compute. reflexivity. Qed.

Definition tab_len (m : adj) : N := N.of_nat (size (adj_tab m)).
Definition col_len (m : adj) (c : N) : option N :=
  (fun s : gset N => N.of_nat (size s)) <$> adj_tab m !! c.
Definition oeqb (a b : option N) : bool := bool_decide (a = b).

(** csr_adjacency_matrix.rs:576-606, test_set_entry. *)
Example adj_test_set_entry : 
  let m0 := adj_new in
  let m1 := adj_set_entry m0 0 5 8 in
  let m2 := adj_set_entry m1 1 5 8 in
  let m3 := adj_set_entry m2 1 5 9 in
  passes [adj_get_entry m0 5 8 =? 0; adj_cnt m0 =? 0; adj_dim m0 =? 0; tab_len m0 =? 0;
          oeqb (col_len m0 5) None;
          adj_get_entry m1 5 8 =? 0; adj_cnt m1 =? 0; adj_dim m1 =? 9; tab_len m1 =? 0;
          oeqb (col_len m1 5) None;
          adj_get_entry m2 5 8 =? 1; adj_cnt m2 =? 1; adj_dim m2 =? 9; tab_len m2 =? 1;
          oeqb (col_len m2 5) (Some 1);
          adj_get_entry m3 5 9 =? 1; adj_cnt m3 =? 2; adj_dim m3 =? 10; tab_len m3 =? 1;
          oeqb (col_len m3 5) (Some 2)] = true.
Proof. vm_compute. reflexivity. Qed.

(** csr_adjacency_matrix.rs:608-625, test_zero_entry. *)
Example adj_test_zero_entry : 
  let m1 := adj_set_entry adj_new 1 5 8 in
  let m2 := adj_zero_entry m1 5 8 in
  passes [adj_get_entry m1 5 8 =? 1; adj_cnt m1 =? 1; adj_dim m1 =? 9; tab_len m1 =? 1;
          oeqb (col_len m1 5) (Some 1);
          adj_get_entry m2 5 8 =? 0; adj_cnt m2 =? 0; adj_dim m2 =? 9; tab_len m2 =? 1;
          oeqb (col_len m2 5) (Some 0)] = true.
Proof. vm_compute. reflexivity. Qed.

Definition five : list (N * N) := [(0, 0); (1, 1); (1, 2); (2, 1); (1, 0)].

(** csr_adjacency_matrix.rs:627-643, test_adjacency_matrix_to_string. *)
Example adj_test_to_string : 
  let m := cells adj_new five in
  passes [is_text (adj_try_to_string plat64 m)
            (lines ["[ 1, 1, 0 ]"; "[ 0, 1, 1 ]"; "[ 0, 1, 0 ]"]%string);
          is_text (adj_try_to_string plat64 (adj_zero_entry m 1 1))
            (lines ["[ 1, 1, 0 ]"; "[ 0, 0, 1 ]"; "[ 0, 1, 0 ]"]%string)] = true.
Proof. vm_compute. reflexivity. Qed.

(** csr_adjacency_matrix.rs:645-674, test_adjacency_matrix_ref_iterator. *)
Example adj_test_ref_iterator : 
  let m := cells adj_new five in
  let m' := adj_zero_entry m 1 1 in
  both (fun o =>
    let l := adj_items o m in
    let l' := adj_items o m' in
    [len l =? adj_entry_count m; has2 (0, 0) l; has2 (1, 1) l; has2 (1, 2) l; has2 (2, 1) l;
     has2 (1, 0) l;
     len l' =? adj_entry_count m'; negb (has2 (1, 1) l'); has2 (0, 0) l'; has2 (1, 2) l';
     has2 (2, 1) l'; has2 (1, 0) l']) = true.
Proof. vm_compute. reflexivity. Qed.

(** ** csr_square_matrix.rs *)

Definition sget := sq_get_entry f64_numeric.
Definition sset := sq_set_entry f64_numeric.
Definition iget := sq_get_entry (sint_numeric 32 false).
Definition iset := sq_set_entry (sint_numeric 32 false).
Definition stab_len {T} (m : sq T) : N := N.of_nat (size (sq_tab m)).
Definition scol_len {T} (m : sq T) (c : N) : option N :=
  (fun s : gmap N T => N.of_nat (size s)) <$> sq_tab m !! c.

(** csr_square_matrix.rs:539-552, test_new_matrix. *)
Example sq_test_new_matrix : 
  passes [sq_dim (@sq_new N) =? 0; sq_cnt (@sq_new N) =? 0; stab_len (@sq_new N) =? 0;
          sq_dim (@sq_new spec_float) =? 0; sq_cnt (@sq_new spec_float) =? 0;
          stab_len (@sq_new spec_float) =? 0] = true.
Proof. vm_compute. reflexivity. Qed.

(** csr_square_matrix.rs:554-576, test_get_dimension. *)
Example sq_test_get_dimension : 
  let m1 := sset sq_new (lit 25 10) 0 0 in
  let m2 := sset (sset m1 (lit 1 1) 4 7) (lit 11 10) 4 7 in
  let m3 := sset m2 f64_zero 100 1 in
  passes [sq_dimension (@sq_new f64) =? 0; sq_dimension m1 =? 1; sq_dimension m2 =? 8;
          sq_dimension m3 =? 101] = true.
Proof. vm_compute. reflexivity. Qed.

(** csr_square_matrix.rs:578-608, test_get_entry_count (i32). *)
Example sq_test_get_entry_count : 
  let m1 := iset (iset (iset sq_new 0%Z 5 8) 0%Z 0 0) 0%Z 27 13 in
  let m2 := iset m1 1%Z 0 0 in
  let m3 := iset (iset m2 1%Z 100 1) 1%Z 100 1 in
  let m4 := iset (iset m3 1%Z 100 2) 1%Z 1 99 in
  passes [sq_entry_count (@sq_new Z) =? 0; sq_entry_count m1 =? 0; sq_entry_count m2 =? 1;
          sq_entry_count m3 =? 2; sq_entry_count m4 =? 4] = true.
Proof. vm_compute. reflexivity. Qed.

(** csr_square_matrix.rs:610-624, test_get_entry. *)
Example sq_test_get_entry : 
  let m1 := sset sq_new f64_zero 5 8 in
  let m2 := sset m1 (lit 15 10) 5 8 in
  let m3 := sset m2 (lit 15 10) 8 5 in
  passes [f64_eq (sget sq_new 5 8) f64_zero; f64_eq (sget m1 5 8) f64_zero;
          f64_eq (sget m2 5 8) (lit 15 10); f64_eq (sget m2 8 5) f64_zero;
          f64_eq (sget m3 8 5) (lit 15 10)] = true.
Proof. vm_compute. reflexivity. Qed.

(** csr_square_matrix.rs:626-663, test_set_entry (i32). *)
Example sq_test_set_entry : 
  let m0 := sq_new in
  let m1 := iset m0 0%Z 5 8 in
  let m2 := iset m1 7%Z 5 8 in
  let m3 := iset m2 2%Z 5 9 in
  let m4 := iset m3 3%Z 5 9 in
  passes [(iget m0 5 8 =? 0)%Z; sq_cnt m0 =? 0; sq_dim m0 =? 0; stab_len m0 =? 0;
          oeqb (scol_len m0 5) None;
          (iget m1 5 8 =? 0)%Z; sq_cnt m1 =? 0; sq_dim m1 =? 9; stab_len m1 =? 0;
          oeqb (scol_len m1 5) None;
          (iget m2 5 8 =? 7)%Z; sq_cnt m2 =? 1; sq_dim m2 =? 9; stab_len m2 =? 1;
          oeqb (scol_len m2 5) (Some 1);
          (iget m3 5 9 =? 2)%Z; sq_cnt m3 =? 2; sq_dim m3 =? 10; stab_len m3 =? 1;
          oeqb (scol_len m3 5) (Some 2);
          (iget m4 5 9 =? 3)%Z; sq_cnt m4 =? 2; sq_dim m4 =? 10; stab_len m4 =? 1;
          oeqb (scol_len m4 5) (Some 2)] = true.
Proof. vm_compute. reflexivity. Qed.

(** csr_square_matrix.rs:665-696, test_increment_entry. *)
Example sq_test_increment_entry : 
  let m0 := sq_new in
  ret (sq_increment_entry plat64 f64_numeric m0 5 8) (fun m1 =>
  [f64_eq (sget m0 5 8) f64_zero; sq_cnt m0 =? 0; sq_dim m0 =? 0; stab_len m0 =? 0;
   oeqb (scol_len m0 5) None;
   f64_eq (sget m1 5 8) f64_one; sq_cnt m1 =? 1; sq_dim m1 =? 9; stab_len m1 =? 1;
   oeqb (scol_len m1 5) (Some 1);
   ret (sq_increment_entry plat64 f64_numeric m1 5 8) (fun m2 =>
   [f64_eq (sget m2 5 8) (lit 2 1); sq_cnt m2 =? 1; sq_dim m2 =? 9; stab_len m2 =? 1;
    oeqb (scol_len m2 5) (Some 1);
    ret (sq_increment_entry plat64 f64_numeric (sset m2 (lit 787 10) 100 20) 100 20) (fun m3 =>
    [f64_eq (sget m3 100 20) (lit 797 10); sq_cnt m3 =? 2; sq_dim m3 =? 101;
     stab_len m3 =? 2; oeqb (scol_len m3 100) (Some 1)])])]) = true.
Proof. vm_compute. reflexivity. Qed.

(** csr_square_matrix.rs:698-715, test_zero_entry (i32). *)
Example sq_test_zero_entry : 
  let m1 := iset sq_new 9%Z 5 8 in
  let m2 := sq_zero_entry m1 5 8 in
  passes [(iget m1 5 8 =? 9)%Z; sq_cnt m1 =? 1; sq_dim m1 =? 9; stab_len m1 =? 1;
          oeqb (scol_len m1 5) (Some 1);
          (iget m2 5 8 =? 0)%Z; sq_cnt m2 =? 0; sq_dim m2 =? 9; stab_len m2 =? 1;
          oeqb (scol_len m2 5) (Some 0)] = true.
Proof. vm_compute. reflexivity. Qed.

Definition i32n := sint_numeric 32 false.
Definition int_five : sq Z :=
  vals i32n sq_new [(1%Z, 0, 0); (1%Z, 1, 1); (9%Z, 1, 2); (1%Z, 2, 1); (1%Z, 1, 0)].
Definition flt_five : sq f64 :=
  vals f64_numeric sq_new [(lit 13 10, 0, 0); (lit 27 10, 1, 1); (lit 1 1, 1, 2);
    (lit 847324 1000000, 2, 1); (lit 17 10, 1, 0)].
Definition int_four : sq Z :=
  vals i32n sq_new [(10%Z, 0, 0); (11%Z, 0, 1); (12%Z, 1, 0); (13%Z, 1, 1)].

(** csr_square_matrix.rs:717-785, test_matrix_to_string (i32, f64, u64). *)
Example sq_test_to_string : 
  both (fun o =>
    let ishow m := shows (sq_display plat64 i32n o m) in
    let fshow m := shows (sq_display plat64 f64_numeric o m) in
    let f1 := sq_zero_entry flt_five 1 1 in
    [ishow int_five (lines ["[ 1, 1, 0 ]"; "[ 0, 1, 1 ]"; "[ 0, 9, 0 ]"]%string);
     ishow (sq_zero_entry int_five 1 1)
       (lines ["[ 1, 1, 0 ]"; "[ 0, 0, 1 ]"; "[ 0, 9, 0 ]"]%string);
     fshow flt_five
       (lines ["[ 1.30, 1.70, 0.00 ]"; "[ 0.00, 2.70, 0.85 ]"; "[ 0.00, 1.00, 0.00 ]"]%string);
     fshow f1
       (lines ["[ 1.30, 1.70, 0.00 ]"; "[ 0.00, 0.00, 0.85 ]"; "[ 0.00, 1.00, 0.00 ]"]%string);
     fshow (sset f1 (lit 1012 100) 2 2)
       (lines ["[  1.30,  1.70,  0.00 ]"; "[  0.00,  0.00,  0.85 ]";
               "[  0.00,  1.00, 10.12 ]"]%string);
     ishow (vals i32n sq_new [((-100)%Z, 1, 1); (8%Z, 2, 1)])
       (lines ["[    0,    0,    0 ]"; "[    0, -100,    8 ]"; "[    0,    0,    0 ]"]%string);
     ishow int_four (lines ["[ 10, 12 ]"; "[ 11, 13 ]"]%string);
     ishow (vals i32n sq_new [((-1)%Z, 1, 0)]) (lines ["[  0, -1 ]"; "[  0,  0 ]"]%string);
     fshow sq_new [];
     shows (sq_display plat64 u64_numeric o sq_new) []]) = true.
Proof. vm_compute. reflexivity. Qed.

(** csr_square_matrix.rs:787-883, test_matrix_to_string_with_precision. *)
Example sq_test_to_string_with_precision : 
  both (fun o =>
    let ishow m d := gives_text (sq_to_string_with_precision plat64 i32n o m d) in
    let fshow m d := gives_text (sq_to_string_with_precision plat64 f64_numeric o m d) in
    let f1 := sq_zero_entry flt_five 1 1 in
    [ishow int_five 1
       (lines ["[ 1.0, 1.0, 0.0 ]"; "[ 0.0, 1.0, 1.0 ]"; "[ 0.0, 9.0, 0.0 ]"]%string);
     ishow int_five 3
       (lines ["[ 1.000, 1.000, 0.000 ]"; "[ 0.000, 1.000, 1.000 ]";
               "[ 0.000, 9.000, 0.000 ]"]%string);
     ishow (sq_zero_entry int_five 1 1) 0
       (lines ["[ 1, 1, 0 ]"; "[ 0, 0, 1 ]"; "[ 0, 9, 0 ]"]%string);
     fshow flt_five 2
       (lines ["[ 1.30, 1.70, 0.00 ]"; "[ 0.00, 2.70, 0.85 ]"; "[ 0.00, 1.00, 0.00 ]"]%string);
     fshow f1 3
       (lines ["[ 1.300, 1.700, 0.000 ]"; "[ 0.000, 0.000, 0.847 ]";
               "[ 0.000, 1.000, 0.000 ]"]%string);
     fshow (sset f1 (neg (lit 1012 100)) 2 2) 1
       (lines ["[   1.3,   1.7,   0.0 ]"; "[   0.0,   0.0,   0.8 ]";
               "[   0.0,   1.0, -10.1 ]"]%string);
     ishow int_four 0 (lines ["[ 10, 12 ]"; "[ 11, 13 ]"]%string);
     ishow (vals i32n sq_new [((-1)%Z, 1, 0)]) 0
       (lines ["[  0, -1 ]"; "[  0,  0 ]"]%string);
     fshow sq_new 4 [];
     gives_text (sq_to_string_with_precision plat64 u64_numeric o sq_new 4) []]) = true.
Proof. vm_compute. reflexivity. Qed.

Definition has3 (x : f64) (c r : N) (l : list (f64 * N * N)) : bool :=
  existsb (fun '(y, c', r') => f64_eq x y && (c =? c') && (r =? r')) l.

(** csr_square_matrix.rs:885-913, test_matrix_ref_iterator. *)
Example sq_test_ref_iterator : 
  let m := vals f64_numeric sq_new [(lit 12 10, 0, 0); (lit 15 10, 1, 1); (lit 98 10, 1, 2);
             (lit 11 10, 2, 1); (lit 11 10, 1, 0)] in
  let m' := sq_zero_entry m 1 1 in
  both (fun o =>
    let l := sq_items o m in
    let l' := sq_items o m' in
    [len l =? sq_entry_count m; has3 (lit 12 10) 0 0 l; has3 (lit 15 10) 1 1 l;
     has3 (lit 98 10) 1 2 l; has3 (lit 11 10) 2 1 l; has3 (lit 11 10) 1 0 l;
     len l' =? sq_entry_count m'; has3 (lit 12 10) 0 0 l'; has3 (lit 98 10) 1 2 l';
     has3 (lit 11 10) 2 1 l'; has3 (lit 11 10) 1 0 l']) = true.
Proof. vm_compute. reflexivity. Qed.

(** ** standard.rs *)

(** standard.rs:914-921, test_standard_graph_new, and 983-990. *)
Example graph_test_new : 
  passes [g_und new_undirected; negb (g_und new_directed);
          eqb (is_undirected new_undirected) (g_und new_undirected);
          eqb (is_undirected new_directed) (g_und new_directed)] = true.
Proof. vm_compute. reflexivity. Qed.

(** standard.rs:923-939, test_standard_graph_directed_from. *)
Example graph_test_directed_from : 
  let m := cells adj_new [(0, 0); (1, 2)] in
  let g := directed_from m in
  both (fun o => [negb (is_undirected g); edge_count g =? 2; vertex_count g =? 3;
                  all_edges g (adj_items o m)]) = true.
Proof. vm_compute. reflexivity. Qed.

(** standard.rs:941-962, test_standard_graph_undirected_from. *)
Example graph_test_undirected_from : 
  let m := cells adj_new [(0, 0); (1, 2); (2, 1)] in
  both (fun o =>
    [ok (undirected_from o m) (fun g =>
       [is_undirected g; edge_count g =? 3; vertex_count g =? 3; all_edges g (adj_items o m)]);
     is_err (undirected_from o (adj_set_entry m 1 0 1))]) = true.
Proof. vm_compute. reflexivity. Qed.

(** standard.rs:964-981, test_standard_graph_undirected_from_unchecked. *)
Example graph_test_undirected_from_unchecked : 
  let m := cells adj_new [(0, 0); (1, 2); (2, 1)] in
  let g := undirected_from_unchecked m in
  both (fun o => [is_undirected g; edge_count g =? 3; vertex_count g =? 3;
                  all_edges g (adj_items o m)]) = true.
Proof. vm_compute. reflexivity. Qed.

(** standard.rs:992-1002, test_standard_graph_vertex_count. *)
Example graph_test_vertex_count : 
  let g1 := add_vertex new_undirected 10 None in
  passes [vertex_count new_undirected =? 0; vertex_count g1 =? 11;
          vertex_count (add_edge g1 12 13) =? 14] = true.
Proof. vm_compute. reflexivity. Qed.

(** standard.rs:1004-1026, test_standard_graph_edge_count. *)
Example graph_test_edge_count : 
  let u := edges new_undirected in
  let d := edges new_directed in
  passes [edge_count (u [(1, 3)]) =? 2; edge_count (u [(1, 3); (1, 3); (3, 1)]) =? 2;
          edge_count (u [(1, 3); (1, 3); (3, 1); (0, 3)]) =? 4;
          edge_count (d [(1, 3)]) =? 1; edge_count (d [(1, 3); (1, 3)]) =? 1;
          edge_count (d [(1, 3); (1, 3); (0, 3)]) =? 2] = true.
Proof. vm_compute. reflexivity. Qed.

Definition four : graph := edges new_directed [(1, 2); (1, 0); (0, 2); (2, 2)].

(** standard.rs:1028-1043, test_standard_graph_matrix_string. *)
Example graph_test_matrix_string : 
  passes [is_text (matrix_string plat64 four)
            (lines ["[ 0, 1, 0 ]"; "[ 0, 0, 0 ]"; "[ 1, 1, 1 ]"]%string);
          is_text (matrix_string plat64 (add_vertex four 3 None))
            (lines ["[ 0, 1, 0, 0 ]"; "[ 0, 0, 0, 0 ]"; "[ 1, 1, 1, 0 ]";
                    "[ 0, 0, 0, 0 ]"]%string)] = true.
Proof. vm_compute. reflexivity. Qed.

(** standard.rs:1045-1061, test_standard_graph_does_edge_exist. *)
Example graph_test_does_edge_exist : 
  let g := edges new_directed [(0, 0); (5, 1)] in
  let g' := delete_edge g 0 0 in
  passes [no_edges new_directed [(0, 0); (0, 1)]; all_edges g [(0, 0); (5, 1)];
          no_edges g' [(0, 0)]; all_edges g' [(5, 1)]] = true.
Proof. vm_compute. reflexivity. Qed.

(** standard.rs:1063-1091, test_standard_graph_to_from_bytes. *)
Example graph_test_to_from_bytes : 
  both (fun o =>
    [ok (graph_to_bytes plat64 o four) (fun bytes =>
       [len bytes =? GRAPH_BYTES_HEADER_SIZE + 8 * 2 * edge_count four;
        ret_ok (graph_try_from plat64 bytes) (fun g =>
          [eqb (g_und four) (g_und g);
           len (adj_items o (g_adj g)) =? len (adj_items o (g_adj four));
           forallb (fun x => has2 x (adj_items o (g_adj four))) (adj_items o (g_adj g))])])]) = true.
Proof. vm_compute. reflexivity. Qed.

(** standard.rs:1093-1113, test_standard_graph_from_invalid_bytes. *)
Example graph_test_from_invalid_bytes : 
  let bytes := to_be_bytes 4 GRAPH_BYTES_MAGIC_NUMBER ++ to_be_bytes 4 GRAPH_BYTES_VERSION
    ++ to_be_bytes 8 0 ++ to_be_bytes 8 1 ++ [0; 0] ++ to_be_bytes 8 0 ++ to_be_bytes 8 0 in
  both (fun o =>
    [fails (graph_try_from plat64 []); fails (graph_try_from plat64 bytes);
     ok (graph_to_bytes plat64 o (add_edge new_directed 0 0)) (fun bytes =>
       [fails (graph_try_from plat64 (<[24%nat := 2]> bytes))])]) = true.
Proof. vm_compute. reflexivity. Qed.

(** standard.rs:1115-1158, test_standard_graph_add_vertex. *)
Example graph_test_add_vertex : 
  let u := add_vertex new_undirected 3 (Some [2; 5; 3; 8; 1]) in
  let d := add_vertex new_directed 3 (Some [2; 5; 3; 8; 1]) in
  passes [adj_entry_count (g_adj u) =? 9; adj_dimension (g_adj u) =? 9;
          all_edges u [(3, 2); (2, 3); (3, 5); (5, 3); (3, 3); (3, 8); (8, 3); (3, 1); (1, 3)];
          adj_entry_count (g_adj (add_vertex u 100 None)) =? 9;
          adj_dimension (g_adj (add_vertex u 100 None)) =? 101;
          adj_entry_count (g_adj d) =? 5; adj_dimension (g_adj d) =? 9;
          all_edges d [(3, 2); (3, 5); (3, 3); (3, 8); (3, 1)];
          adj_entry_count (g_adj (add_vertex d 101 None)) =? 5;
          adj_dimension (g_adj (add_vertex d 101 None)) =? 102] = true.
Proof. vm_compute. reflexivity. Qed.

(** standard.rs:1160-1209, test_standard_graph_add_edge. *)
Example graph_test_add_edge : 
  let st g c n := (adj_entry_count (g_adj g) =? c) && (adj_dimension (g_adj g) =? n) in
  let u1 := add_edge new_undirected 0 7 in
  let u2 := add_edge u1 4 3 in
  let u3 := add_edge u2 9 9 in
  let d1 := add_edge new_directed 0 7 in
  let d2 := add_edge d1 4 3 in
  let d3 := add_edge d2 9 9 in
  passes [st new_undirected 0 0; all_edges u1 [(0, 7); (7, 0)]; st u1 2 8;
          all_edges u2 [(4, 3); (3, 4)]; st u2 4 8; all_edges u3 [(9, 9)]; st u3 5 10;
          st new_directed 0 0; all_edges d1 [(0, 7)]; st d1 1 8; all_edges d2 [(4, 3)];
          st d2 2 8; all_edges d3 [(9, 9)]; st d3 3 10] = true.
Proof. vm_compute. reflexivity. Qed.

(** standard.rs:1211-1282, test_standard_graph_delete_edge. *)
Example graph_test_delete_edge : 
  let st g c n := (adj_entry_count (g_adj g) =? c) && (adj_dimension (g_adj g) =? n) in
  let u1 := add_edge new_undirected 2 5 in
  let u2 := delete_edge u1 5 2 in
  let u3 := delete_edge (add_edge u2 1 5) 100 100 in
  let u4 := delete_edge u3 1 5 in
  let u5 := add_edge u4 8 8 in
  let u6 := delete_edge u5 8 8 in
  let d1 := add_edge new_directed 1 5 in
  let d2 := delete_edge (delete_edge d1 1 5) 100 100 in
  let d3 := add_edge d2 8 8 in
  let d4 := delete_edge d3 8 8 in
  passes [all_edges u1 [(2, 5); (5, 2)]; st u1 2 6; no_edges u2 [(2, 5); (5, 2)]; st u2 0 6;
          all_edges u3 [(1, 5); (5, 1)]; st u3 2 6; no_edges u4 [(1, 5); (5, 1)]; st u4 0 6;
          all_edges u5 [(8, 8)]; st u5 1 9; no_edges u6 [(8, 8)]; st u6 0 9;
          all_edges d1 [(1, 5)]; st d1 1 6; no_edges d2 [(1, 5)]; st d2 0 6;
          all_edges d3 [(8, 8)]; st d3 1 9; no_edges d4 [(8, 8)]; st d4 0 9] = true.
Proof. vm_compute. reflexivity. Qed.

Definition to5 : list (N * N) := [(2, 5); (10, 5); (11, 5); (5, 9)].
Definition from5 : list (N * N) := [(5, 2); (5, 10); (5, 11); (9, 5)].

(** standard.rs:1284-1314, test_get_vertex_in_edges, and 1348-1367, _in_degree. *)
Example graph_test_in_edges : 
  both (fun o =>
    let l := get_vertex_in_edges o (edges new_directed to5) 5 in
    let l' := get_vertex_in_edges o (edges new_undirected to5) 5 in
    [len l =? 3; has 2 l; has 10 l; has 11 l;
     len l' =? 4; has 2 l'; has 10 l'; has 11 l'; has 9 l';
     get_vertex_in_degree o (edges new_directed to5) 5 =? 3;
     get_vertex_in_degree o (edges new_undirected to5) 5 =? 4]) = true.
Proof. vm_compute. reflexivity. Qed.

(** standard.rs:1316-1346, test_get_vertex_out_edges, and 1369-1388, _out_degree. *)
Example graph_test_out_edges : 
  both (fun o =>
    let l := get_vertex_out_edges o (edges new_directed from5) 5 in
    let l' := get_vertex_out_edges o (edges new_undirected from5) 5 in
    [len l =? 3; has 2 l; has 10 l; has 11 l;
     len l' =? 4; has 2 l'; has 10 l'; has 11 l'; has 9 l';
     get_vertex_out_degree o (edges new_directed from5) 5 =? 3;
     get_vertex_out_degree o (edges new_undirected from5) 5 =? 4]) = true.
Proof. vm_compute. reflexivity. Qed.

Definition pool_und : graph :=
  add_edge (add_vertex (add_vertex new_undirected 1 (Some [0; 2; 4; 7; 3])) 5
    (Some [6; 8; 0; 1; 5; 4; 2])) 7 8.
Definition pool_dir : graph :=
  edges new_directed [(0, 1); (1, 1); (2, 1); (2, 0); (3, 2); (3, 1); (3, 4); (0, 6); (6, 6)].
(** [(m.get_entry(c, r) * 100.0).round() / 100.0 == n / 100]. *)
Definition near (m : sq f64) (c r n : N) : bool := f64_eq (round100 (sget m c r)) (lit n 100).
Definition sizes (m : sq f64) (d k : N) : bool := (sq_dimension m =? d) && (sq_entry_count m =? k).
Definition pool_dir_values (m : sq f64) : bool :=
  near m 0 0 44 && near m 0 2 11 && near m 1 0 22 && near m 1 1 11 && near m 2 2 11.

(** standard.rs:1390-1544, test_find_avg_pool_matrix. *)
Example graph_test_find_avg_pool_matrix : 
  both (fun o =>
    let pool := find_avg_pool_matrix plat64 o in
    let g8 := add_vertex pool_dir 8 None in
    let g9 := add_vertex g8 9 None in
    let pair := add_edge new_undirected 0 1 in
    [ret (pool pool_und 5) (fun m =>
       [sizes m 2 4; near m 0 0 32; near m 0 1 20; near m 1 0 20; near m 1 1 28]);
     ret (pool pool_dir 3) (fun m => [sizes m 3 5; pool_dir_values m]);
     ret (pool g8 3) (fun m => [sizes m 3 5; pool_dir_values m]);
     ret (pool g9 3) (fun m => [sizes m 4 5; pool_dir_values m]);
     ret (pool new_directed 4) (fun m => [sizes m 0 0]);
     ret (pool (add_vertex new_directed 5 None) 6) (fun m =>
       [sizes m 1 0; f64_eq (sget m 0 0) f64_zero]);
     ret (pool pair 0) (fun m =>
       [sq_dimension m =? adj_dimension (g_adj pair); sq_dimension m =? 2;
        sq_entry_count m =? adj_entry_count (g_adj pair); sq_entry_count m =? 2;
        f64_eq (sget m 0 1) f64_one; f64_eq (sget m 1 0) f64_one])]) = true.
Proof. vm_compute. reflexivity. Qed.

(** standard.rs:1546-1663, test_approximate. *)
Example graph_test_approximate : 
  both (fun o =>
    let approx := approximate plat64 o reversed_order in
    let st g g' n k := eqb (is_undirected g') (is_undirected g) && (vertex_count g' =? n)
                       && (edge_count g' =? k) in
    let g8 := add_vertex pool_dir 8 None in
    let g9 := add_vertex g8 9 None in
    let pair := add_edge new_undirected 0 1 in
    [ret (approx pool_und 5 (lit 25 100)) (fun g => [st pool_und g 2 2; all_edges g [(0, 0); (1, 1)]]);
     ret (approx pool_dir 3 (lit 2 10)) (fun g => [st pool_dir g 3 2; all_edges g [(0, 0); (1, 0)]]);
     ret (approx pool_dir 3 (lit 507 10)) (fun g => [st pool_dir g 3 0]);
     ret (approx pool_dir 3 (neg (lit 27174 100))) (fun g =>
       [st pool_dir g 3 5; all_edges g [(0, 0); (0, 2); (1, 0); (1, 1); (2, 2)]]);
     ret (approx g8 3 (lit 2 10)) (fun g => [st pool_dir g 3 2; all_edges g [(0, 0); (1, 0)]]);
     ret (approx g9 3 (lit 2 10)) (fun g => [st pool_dir g 4 2; all_edges g [(0, 0); (1, 0)]]);
     ret (approx g9 0 (lit 2 10)) (fun g =>
       [st g9 g (vertex_count g9) (edge_count g9); all_edges g (graph_items o g9)]);
     ret (approx new_directed 4 (lit 4 10)) (fun g => [st new_directed g 0 0]);
     ret (approx (add_vertex new_directed 5 None) 6 f64_zero) (fun g => [st new_directed g 1 0]);
     ret (approx pair 1 f64_one) (fun g =>
       [vertex_count g =? adj_dimension (g_adj pair); vertex_count g =? 2;
        edge_count g =? adj_entry_count (g_adj pair); edge_count g =? 2;
        all_edges g [(0, 1); (1, 0)]])]) = true.
Proof. vm_compute. reflexivity. Qed.

Definition comp_dir : graph :=
  edges (edges (edges (add_vertex new_directed 23 None) (rect 8 16 8 16)) (rect 0 8 0 4))
    [(22, 18); (15, 18)].
Definition comp_und : graph :=
  edges (edges (edges (add_vertex new_undirected 23 None) (rect 8 16 8 16)) (rect 8 16 0 4))
    [(22, 18); (15, 18)].
Definition cst (g : graph) (c : cgraph) (level k : N) : bool :=
  eqb (c_is_undirected c) (is_undirected g) && (compression_level c =? level)
  && (c_vertex_count c =? vertex_count g) && (c_vertex_count c =? 24) && (c_edge_count c =? k).

(** standard.rs:1665-1871, test_standard_graph_compress. *)
Example graph_test_compress : 
  both (fun o =>
    let comp := compress plat64 o reversed_order in
    let entry := get_compressed_matrix_entry in
    [ret (comp comp_dir 8) (fun c => [cst comp_dir c 8 96; entry c 0 0 =? 0x00000000ffffffff;
       entry c 1 1 =? u64MAX]);
     ret (comp comp_dir 4) (fun c => [cst comp_dir c 4 96; entry c 0 0 =? 0x00000000ffffffff;
       entry c 1 1 =? u64MAX]);
     ret (comp comp_dir 38) (fun c => [cst comp_dir c 38 64; entry c 1 1 =? u64MAX]);
     ret (comp comp_dir 64) (fun c => [cst comp_dir c 64 64; entry c 1 1 =? u64MAX]);
     ret (comp comp_dir 233) (fun c => [cst comp_dir c 64 64; entry c 1 1 =? u64MAX]);
     ret (comp comp_dir 0) (fun c => [cst comp_dir c 1 (edge_count comp_dir);
       entry c 1 1 =? u64MAX; c_does_edge_exist c 22 18; c_does_edge_exist c 15 18]);
     ret (comp (delete_edge comp_dir 10 10) 64) (fun c => [c_edge_count c =? 0]);
     ret (comp comp_und 32) (fun c => [cst comp_und c 32 128; entry c 1 0 =? 0x00000000ffffffff;
       entry c 0 1 =? 0x0f0f0f0f0f0f0f0f; entry c 1 1 =? u64MAX]);
     ret (obind (comp comp_dir 4) (decompress plat64 o)) (fun g =>
       [eqb (is_undirected comp_dir) (is_undirected g); edge_count comp_dir - 2 =? edge_count g;
        vertex_count comp_dir =? vertex_count g; all_edges g (rect 8 16 8 16);
        all_edges g (rect 0 8 0 4); no_edges g [(22, 18); (15, 18)]]);
     ret (obind (comp comp_und 4) (decompress plat64 o)) (fun g =>
       [eqb (is_undirected comp_und) (is_undirected g); edge_count comp_und - 4 =? edge_count g;
        vertex_count comp_und =? vertex_count g; all_edges g (rect 8 16 8 16);
        all_edges g (rect 8 16 0 4)])]) = true.
Proof. vm_compute. reflexivity. Qed.

(** standard.rs:1873-1908, test_standard_graph_ref_iterator. *)
Example graph_test_ref_iterator : 
  let g := edges new_directed five in
  let g' := delete_edge g 1 1 in
  both (fun o =>
    let l := graph_items o g in
    let l' := graph_items o g' in
    [len l =? adj_entry_count (g_adj g); has2 (0, 0) l; has2 (1, 1) l; has2 (1, 2) l;
     has2 (2, 1) l; has2 (1, 0) l;
     len l' =? adj_entry_count (g_adj g'); negb (has2 (1, 1) l'); has2 (0, 0) l';
     has2 (1, 2) l'; has2 (2, 1) l'; has2 (1, 0) l']) = true.
Proof. vm_compute. reflexivity. Qed.

(** ** compressed.rs *)

(** compressed.rs:653-689: _is_undirected, _vertex_count, _edge_count, _compression_level. *)
Example cgraph_test_getters : 
  passes [c_is_undirected (build true 8 7 []); negb (c_is_undirected (build false 9 8 []));
          c_vertex_count (build true 8 8 []) =? 8; c_vertex_count (build false 100 15 []) =? 100;
          c_edge_count (build false 15 42 [(u64MAX, 1, 1, None)]) =? 64;
          compression_level (build true 9 43 []) =? 43;
          compression_level (build true 9 0 []) =? 1;
          compression_level (build true 9 65 []) =? 64] = true.
Proof. vm_compute. reflexivity. Qed.

(** compressed.rs:691-702, test_compressed_graph_get_compressed_matrix_entry. *)
Example cgraph_test_get_entry : 
  let g := build false 15 5 [(42, 0, 0, None); (67, 0, 1, None); (u64MAX, 1, 1, None)] in
  passes [get_compressed_matrix_entry g 0 0 =? 42; get_compressed_matrix_entry g 0 1 =? 67;
          get_compressed_matrix_entry g 1 1 =? u64MAX] = true.
Proof. vm_compute. reflexivity. Qed.

(** compressed.rs:704-722, test_compressed_graph_matrix_string. *)
Example cgraph_test_matrix_string : 
  both (fun o =>
    [gives_text (c_matrix_string plat64 o
        (build false 16 9 [(300, 1, 1, None); (10, 2, 1, None)]))
       (lines ["[   0,   0,   0 ]"; "[   0, 300,  10 ]"; "[   0,   0,   0 ]"]%string);
     gives_text (c_matrix_string plat64 o (build false 27 6 [(9, 1, 1, None)]))
       (lines ["[ 0, 0, 0, 0 ]"; "[ 0, 9, 0, 0 ]"; "[ 0, 0, 0, 0 ]"; "[ 0, 0, 0, 0 ]"]%string)]) = true.
Proof. vm_compute. reflexivity. Qed.

Definition block11 (g : cgraph) : bool :=
  forallb (fun '(u, v) => negb (c_does_edge_exist g u v))
    [(8, 7); (7, 8); (15, 16); (16, 15); (7, 15); (8, 16); (15, 7); (16, 8)]
  && forallb (fun '(u, v) => c_does_edge_exist g u v)
    [(8, 8); (15, 15); (15, 8); (8, 15); (10, 8); (10, 10); (14, 15)].

(** compressed.rs:724-747, test_compressed_graph_does_edge_exist. *)
Example cgraph_test_does_edge_exist : 
  passes [block11 (build false 16 13 [(u64MAX, 1, 1, None)])] = true.
Proof. vm_compute. reflexivity. Qed.

(** compressed.rs:749-787, test_compressed_graph_to_from_bytes. *)
Example cgraph_test_to_from_bytes : 
  let g := build false 100 18 [(300, 1, 1, None); (10, 2, 1, None); (8, 4, 3, None)] in
  let three_eqb (a b : N * N * N) := pair_eqb a.1 b.1 && (a.2 =? b.2) in
  both (fun o =>
    [ok (cgraph_to_bytes plat64 o g) (fun bytes =>
       [ret_ok (cgraph_try_from plat64 bytes) (fun g' =>
          let l := sq_items o (cg_mat g) in
          let l' := sq_items o (cg_mat g') in
          [eqb (cg_und g) (cg_und g'); cg_level g =? cg_level g';
           cg_edge_count g =? cg_edge_count g'; cg_vertex_count g =? cg_vertex_count g';
           sq_dimension (cg_mat g) =? sq_dimension (cg_mat g');
           sq_entry_count (cg_mat g) =? sq_entry_count (cg_mat g');
           len l =? len l'; forallb (fun x => existsb (three_eqb x) l) l'])])]) = true.
Proof. vm_compute. reflexivity. Qed.

(** compressed.rs:789-809, test_compressed_graph_from_invalid_bytes. *)
Example cgraph_test_from_invalid_bytes : 
  let put (bytes l : list N) := take 24 bytes ++ l ++ drop 32 bytes in
  both (fun o =>
    [fails (cgraph_try_from plat64 []);
     ok (cgraph_to_bytes plat64 o (build false 16 18 [(1, 0, 0, None)])) (fun bytes =>
       [fails (cgraph_try_from plat64 (<[40%nat := 2]> bytes));
        fails (cgraph_try_from plat64 (put bytes (to_be_bytes 8 999)))]);
     ok (cgraph_to_bytes plat64 o (build false 1 18 [(2, 0, 0, None)])) (fun bytes =>
       [fails (cgraph_try_from plat64 bytes)])]) = true.
Proof. vm_compute. reflexivity. Qed.

(** compressed.rs:811-830, test_compressed_graph_decompress. *)
Example cgraph_test_decompress : 
  let c := build false 16 20 [(u64MAX, 1, 1, None)] in
  both (fun o =>
    [ret (decompress plat64 o c) (fun g =>
       [eqb (c_is_undirected c) (is_undirected g); c_vertex_count c =? vertex_count g;
        len (graph_items o g) =? cg_edge_count c;
        forallb (fun '(u, v) => c_does_edge_exist c u v) (graph_items o g)])]) = true.
Proof. vm_compute. reflexivity. Qed.

(** compressed.rs:832-849, test_compressed_graph_builder_new. *)
Example cgraph_test_builder_new : 
  let b := builder_new true 47 30 in
  passes [cg_und b; cg_level b =? 30; cg_edge_count b =? 0; c_vertex_count b =? 47;
          sq_dimension (cg_mat b) =? 47 / COMPRESSION_BLOCK_DIMENSION + 1;
          cg_level (builder_new true 47 200) =? 64; cg_level (builder_new true 47 0) =? 1] = true.
Proof. vm_compute. reflexivity. Qed.

(** compressed.rs:851-869, test_compressed_graph_builder_add_compressed_matrix_entry. *)
Example cgraph_test_builder_add : 
  let b1 := builder_add (builder_new false 10 29) 0xff 2 1 None in
  let b2 := builder_add b1 0xff001 0 1 (Some 9) in
  passes [cg_edge_count b1 =? 8; cg_edge_count b2 =? 17;
          sq_get_entry u64_numeric (cg_mat b2) 0 1 =? 0xff001;
          sq_get_entry u64_numeric (cg_mat b2) 2 1 =? 0xff] = true.
Proof. vm_compute. reflexivity. Qed.

(** compressed.rs:871-909, test_compressed_graph_builder_finish. *)
Example cgraph_test_builder_finish : 
  let b := builder_add (builder_new false 10 2) u64MAX 1 1 None in
  let g := builder_finish b in
  passes [eqb (cg_und b) (cg_und g); cg_level b =? cg_level g;
          cg_edge_count b =? cg_edge_count g; cg_vertex_count b =? cg_vertex_count g;
          sq_dimension (cg_mat b) =? sq_dimension (cg_mat g);
          sq_entry_count (cg_mat b) =? sq_entry_count (cg_mat g); block11 g] = true.
Proof. vm_compute. reflexivity. Qed.

(** compressed.rs:911-929, test_find_hamming_weight. *)
Example cgraph_test_hamming_weight : 
  forallb (fun '(x, k) => find_hamming_weight x =? k)
    [(0, 0); (1, 1); (2, 1); (3, 2); (4, 1); (5, 2); (6, 2); (7, 3); (8, 1); (9, 2);
     (0x1111111111111111, 16); (0x2222222222222222, 16); (0x3333333333333333, 32);
     (0x7777777777777777, 48); (0xeeeeeeeeeeeeeeee, 48); (u64MAX, 64)] = true.
Proof. vm_compute. reflexivity. Qed.
