(** Model of graphrox-rs/src/matrix/csr_square_matrix.rs. *)
From Coq Require Import Ascii String.
From Verif Require Import Base HashIter F64 Numeric.

(** csr_square_matrix.rs:28-32, struct CsrSquareMatrix<T>. *)
Record sq (T : Type) : Type := Sq {
  sq_dim : N;
  sq_tab : gmap N (gmap N T);
  sq_cnt : N;
}.
Arguments Sq {T}.
Arguments sq_dim {T}.
Arguments sq_tab {T}.
Arguments sq_cnt {T}.

(** csr_square_matrix.rs:50-56, new (also Default, 34-38). *)
Definition sq_new {T} : sq T := Sq 0 ∅ 0.

(** csr_square_matrix.rs:332-338, dimension and entry_count. *)
Definition sq_dimension {T} (m : sq T) : N := sq_dim m.
Definition sq_entry_count {T} (m : sq T) : N := sq_cnt m.

(** csr_square_matrix.rs:340-350, get_entry. *)
Definition sq_get_entry {T} (num : numeric T) (m : sq T) (col row : N) : T :=
  match sq_tab m !! col with
  | None => num_zero num
  | Some row_table =>
    match row_table !! row with
    | Some e => e
    | None => num_zero num
    end
  end.

(** csr_square_matrix.rs:352-378, set_entry. *)
Definition sq_set_entry {T} (num : numeric T) (m : sq T) (entry : T) (col row : N) : sq T :=
  match checked_add64 col 1 with
  | None => m
  | Some col_dimension =>
    match checked_add64 row 1 with
    | None => m
    | Some row_dimension =>
      let d1 := if sq_dim m <? col_dimension then col_dimension else sq_dim m in
      let d2 := if d1 <? row_dimension then row_dimension else d1 in
      if num_eq num entry (num_zero num) then Sq d2 (sq_tab m) (sq_cnt m)
      else
        let row_table := default ∅ (sq_tab m !! col) in
        Sq d2
          (<[col := <[row := entry]> row_table]> (sq_tab m))
          (match row_table !! row with
           | None => wrapping_inc64 (sq_cnt m)
           | Some _ => sq_cnt m
           end)
    end
  end.

(** csr_square_matrix.rs:380-391, zero_entry.  An emptied row table stays. *)
Definition sq_zero_entry {T} (m : sq T) (col row : N) : sq T :=
  match sq_tab m !! col with
  | None => m
  | Some row_table =>
    Sq (sq_dim m)
      (<[col := delete row row_table]> (sq_tab m))
      (match row_table !! row with
       | Some _ => wrapping_dec64 (sq_cnt m)
       | None => sq_cnt m
       end)
  end.

(** csr_square_matrix.rs:79-105, increment_entry.  Panics when add_one does. *)
Definition sq_increment_entry {T} (p : platform) (num : numeric T) (m : sq T) (col row : N)
  : outcome (sq T) :=
  match checked_add64 col 1 with
  | None => Ret m
  | Some col_dimension =>
    match checked_add64 row 1 with
    | None => Ret m
    | Some row_dimension =>
      let d1 := if sq_dim m <? col_dimension then col_dimension else sq_dim m in
      let d2 := if d1 <? row_dimension then row_dimension else d1 in
      let row_table := default ∅ (sq_tab m !! col) in
      match row_table !! row with
      | None =>
        Ret (Sq d2 (<[col := <[row := num_one num]> row_table]> (sq_tab m))
               (wrapping_inc64 (sq_cnt m)))
      | Some e =>
        obind (num_add_one num p e) (fun e' =>
        Ret (Sq d2 (<[col := <[row := e']> row_table]> (sq_tab m)) (sq_cnt m)))
      end
    end
  end.

(** csr_square_matrix.rs:107-112, set_minimum_dimension. *)
Definition sq_set_minimum_dimension {T} (m : sq T) (dimension : N) : sq T :=
  if sq_dim m <? dimension then Sq dimension (sq_tab m) (sq_cnt m) else m.

(** csr_square_matrix.rs:320-328, multiply_entries_by (every entry once, so the visiting
    order does not matter). *)
Definition sq_multiply_entries_by (m : sq spec_float) (multiplier : f64) : sq spec_float :=
  Sq (sq_dim m)
    ((fun row_table : gmap N spec_float => (fun e => f64_mul e multiplier) <$> row_table)
       <$> sq_tab m)
    (sq_cnt m).

(** csr_square_matrix.rs:445-457, into_iter. *)
Definition sq_into_iter {T} (o : hash_order) (m : sq T) : hiter (N * T) :=
  HIter (sq_dim m)
    ((fun '(c, t) => (c, ord_map o T (Some c) t)) <$> ord_map o _ None (sq_tab m))
    None 0.

(** The (entry, col, row) items seen by [for (entry, col, row) in &matrix]. *)
Definition sq_items {T} (o : hash_order) (m : sq T) : list (T * N * N) :=
  (fun '(c, (r, e)) => (e, c, r)) <$> hiter_items (sq_into_iter o m).

(** ** to_string_with_precision, csr_square_matrix.rs:150-317 *)

(** The nested loops [for .. in edges_table { for .. in row_table }] (170-171, 276-277):
    all stored cells, outer table order then inner table order. *)
Definition sq_cells {T} (o : hash_order) (m : sq T) : list (N * N * T) :=
  ord_map o _ None (sq_tab m) ≫= (fun '(c, t) =>
    (fun '(r, e) => (c, r, e)) <$> ord_map o T (Some c) t).

(** 162-181: the highest and lowest stored values. *)
Definition sq_extremes {T} (num : numeric T) (o : hash_order) (m : sq T) : T * T :=
  if (length (ord_map o _ None (sq_tab m)) =? 0)%nat then (num_zero num, num_max num)
  else
    fold_left
      (fun '(highest, lowest) '(_, _, val) =>
         (if num_gt num val highest then val else highest,
          if num_lt num val lowest then val else lowest))
      (sq_cells o m) (num_min num, num_max num).

(** [buffer[pos] = b; pos += 1;].  The index check precedes the increment, so [pos] never
    exceeds the buffer length and the increment cannot overflow. *)
Definition buf_put (st : list ascii * N) (b : ascii) : outcome (list ascii * N) :=
  let '(buffer, pos) := st in
  if pos <? N.of_nat (length buffer)
  then Ret (<[N.to_nat pos := b]> buffer, pos + 1)
  else Panic.

(** 240-259: one template cell followed by ", " or " ". *)
Definition sq_template_cell (p : platform) (dim entry_size left_padding col : N)
    (st : list ascii * N) : outcome (list ascii * N) :=
  obind (usize_add p left_padding 1) (fun dot_pos =>
  obind
    (ofold (fun st char_pos =>
       buf_put st (if char_pos <? left_padding then " "%char
                   else if char_pos =? dot_pos then "."%char
                   else "0"%char))
      (range entry_size) st) (fun st =>
  obind (if negb (col =? dim - 1) then buf_put st ","%char else Ret st) (fun st =>
  buf_put st " "%char))).

(** 233-271: one template row. *)
Definition sq_template_row (p : platform) (dim entry_size left_padding row : N)
    (st : list ascii * N) : outcome (list ascii * N) :=
  obind (buf_put st "["%char) (fun st =>
  obind (buf_put st " "%char) (fun st =>
  obind (ofold (fun st col => sq_template_cell p dim entry_size left_padding col st)
           (range dim) st) (fun st =>
  obind (buf_put st "]"%char) (fun st =>
  if negb (row =? dim - 1)
  then obind (buf_put st cr) (fun st => buf_put st lf)
  else Ret st)))).

(** A width or precision argument of [format!]: core::fmt panics on run-time counts above
    u16::MAX (since Rust 1.87, which is_multiple_of in graph/standard.rs:454 requires). *)
Definition fmt_count (n : N) : outcome N := if n <=? 65535 then Ret n else Panic.

(** 282-303: the text of one stored value. *)
Definition sq_cell_text {T} (num : numeric T) (highest lowest : T) (entry_size decimals : N)
    (value : T) : outcome text :=
  if negb (num_has_decimal num) && (0 <? decimals) then
    obind (fmt_count (if num_lt num lowest (num_zero num) then num_digits num highest + 1
                      else num_digits num highest)) (fun width =>
    Ret (pad_left width (num_text num 0 value) ++ ["."%char]
           ++ replicate (N.to_nat decimals) "0"%char))
  else
    obind (fmt_count entry_size) (fun width =>
    obind (fmt_count decimals) (fun precision =>
    Ret (pad_left width (num_text num precision value)))).

(** 278-310: overwriting the template with one stored value. *)
Definition sq_write_cell {T} (p : platform) (num : numeric T) (highest lowest : T)
    (entry_size decimals chars_per_entry chars_per_row : N)
    (buffer : list ascii) (cell : N * N * T) : outcome (list ascii) :=
  let '(col, row, value) := cell in
  obind (usize_mul p (row mod (usize_max p + 1)) chars_per_row) (fun row_start =>
  obind (usize_add p row_start 2) (fun cells_start =>
  obind (usize_mul p chars_per_entry (col mod (usize_max p + 1))) (fun col_off =>
  obind (usize_add p cells_start col_off) (fun pos =>
  obind (sq_cell_text num highest lowest entry_size decimals value) (fun number =>
  obind (ofold buf_put number (buffer, pos)) (fun st =>
  Ret st.1)))))).

(** 314-316: String::from_utf8.  Every byte written is ASCII, for which the check
    succeeds; bytes from 128 up are treated as invalid. *)
Definition utf8_ok (buffer : list ascii) : bool :=
  forallb (fun b => N_of_ascii b <? 128) buffer.

(** 206-224: the buffer size. *)
Definition sq_text_size (p : platform) (dim chars_per_entry : N) : result (N * N) :=
  rbind (ok_or (CapacityOverflow "Matrix dimension does not fit in platform usize")
           (usize_try_from p dim)) (fun dimension =>
  rbind (ok_or (CapacityOverflow "Matrix string size overflowed")
           (checked_mulU p dimension dimension)) (fun matrix_entry_count =>
  rbind (ok_or (CapacityOverflow "Matrix string size overflowed")
    (rows ← checked_mulU p 4 dimension;
     cells ← checked_mulU p chars_per_entry matrix_entry_count;
     size ← checked_addU p cells rows;
     checked_subU size 2)) (fun buffer_size =>
  Ok (dimension, buffer_size)))).

(** 150-317. *)
Definition sq_to_string_with_precision {T} (p : platform) (num : numeric T)
    (o : hash_order) (m : sq T) (decimals : N) : outcome (result text) :=
  if sq_dim m =? 0 then Ret (Ok [])
  else
    let '(highest, lowest) := sq_extremes num o m in
    let hd := num_digits num highest in
    let ld := num_digits num lowest in
    let size0 := if ld <? hd then hd else ld in
    let decimal_part := num_has_decimal num || (0 <? decimals) in
    obind (if decimal_part
           then obind (usize_add p 1 decimals) (usize_add p size0)
           else Ret size0) (fun entry_size =>
    obind (if decimal_part
           then obind (usize_add p 1 decimals) (usize_add p 1)
           else Ret 1) (fun smallest_entry_chars =>
    obind (usize_sub p entry_size smallest_entry_chars) (fun left_padding =>
    obind (usize_add p entry_size 2) (fun chars_per_entry =>
    match sq_text_size p (sq_dim m) chars_per_entry with
    | Err e => Ret (Err e)
    | Ok (dimension, buffer_size) =>
      if negb (can_alloc p buffer_size)
      then Ret (Err (CapacityOverflow "Unable to allocate matrix string"))
      else
        obind (ofold (fun st row =>
                        sq_template_row p (sq_dim m) entry_size left_padding row st)
                 (range (sq_dim m)) (replicate (N.to_nat buffer_size) "000"%char, 0))
          (fun st =>
        obind (obind (usize_mul p dimension chars_per_entry) (usize_add p 4))
          (fun chars_per_row =>
        obind (ofold (sq_write_cell p num highest lowest entry_size decimals
                        chars_per_entry chars_per_row)
                 (sq_cells o m) st.1) (fun buffer =>
        Ret (if utf8_ok buffer then Ok buffer
             else Err (InvalidFormat "Generated matrix string was not UTF-8")))))
    end)))).

(** csr_square_matrix.rs:436-442, Display::fmt (None stands for fmt::Error). *)
Definition sq_display {T} (p : platform) (num : numeric T) (o : hash_order) (m : sq T)
  : outcome (option text) :=
  obind (sq_to_string_with_precision p num o m (if num_has_decimal num then 2 else 0))
    (fun r => Ret (match r with Ok s => Some s | Err _ => None end)).
