(** Specification vocabulary for error reports.  Nothing here refers to the model of the
    code. *)
From Coq Require Import String.
From Verif Require Import Base Spec.

(** A list of defects to be looked for in order, each with its message; the report is the
    message of the first one that is there. *)
Inductive reports : list (Prop * string) -> option string -> Prop :=
| reports_nothing : reports [] None
| reports_defect (P : Prop) msg l : P -> reports ((P, msg) :: l) (Some msg)
| reports_next (P : Prop) msg l res : ~ P -> reports l res -> reports ((P, msg) :: l) res.

(** The result of a decoder that looks for the defects. *)
Definition reported {A} (defects : list (Prop * string)) (res : result A) : Prop :=
  match res with
  | Ok _ => reports defects None
  | Err e => exists msg, e = InvalidFormat msg /\ reports defects (Some msg)
  end.

(** The same for code that needs memory. *)
Definition overflow_reported {A} (defects : list (Prop * string)) (res : result A) : Prop :=
  match res with
  | Ok _ => reports defects None
  | Err e => exists msg, e = CapacityOverflow msg /\ reports defects (Some msg)
  end.

(** The big-endian number in [k] bytes from [off]. *)
Definition field (bytes : list N) (off k : nat) : N :=
  fold_left (fun n b => n * 256 + b) (take k (drop off bytes)) 0.

(** ** Graph files *)

(** Pair number [i]. *)
Definition pair_field (bytes : list N) (i : N) : N * N :=
  (field bytes (N.to_nat (26 + 16 * i)) 8, field bytes (N.to_nat (34 + 16 * i)) 8).

Definition graph_defects (p : platform) (bytes : list N) : list (Prop * string) :=
  let len := N.of_nat (length bytes) in
  let n := field bytes 8 8 in
  let count := field bytes 16 8 in
  let pairs := pair_field bytes <$> range count in
  [(len < 26, "Slice is too short to contain Graph header"%string);
   (field bytes 0 4 <> 0x7ae71ffd, "Incorrect magic number"%string);
   (field bytes 4 4 <> 1, "Unrecognized Graph version"%string);
   (1 < field bytes 24 1, "Invalid graph direction flag"%string);
   (field bytes 25 1 <> 0, "Weighted graphs are not supported"%string);
   (n = 0 /\ count <> 0, "Graph with zero dimension cannot contain edges"%string);
   (usize_max p < 26 + 16 * count, "Graph byte size overflowed"%string);
   (len < 26 + 16 * count, "Slice is too short to contain all expected graph edges"%string);
   (26 + 16 * count < len, "Slice is too long represent the expected graph edges"%string);
   ((exists u v, (u, v) ∈ pairs /\ (n <= u \/ n <= v)), "Graph edge exceeds matrix dimension"%string);
   (~ has_card (described (field bytes 24 1 =? 1) pairs) count,
    "Graph edge count does not match header"%string)].

(** ** CompressedGraph files *)

(** Entry number [i]. *)
Definition entry_field (bytes : list N) (i : N) : N * N * N :=
  (field bytes (N.to_nat (42 + 24 * i)) 8, field bytes (N.to_nat (50 + 24 * i)) 8,
   field bytes (N.to_nat (58 + 24 * i)) 8).

(** The defects of the entries; [total] is the number of edges of the earlier ones. *)
Fixpoint entry_defects (n total : N) (l : list (N * N * N)) : list (Prop * string) :=
  match l with
  | [] => []
  | (w, c, r) :: l' =>
    [(w = 0, "CompressedGraph entry cannot be zero"%string);
     (blocks_of n <= c \/ blocks_of n <= r, "CompressedGraph entry exceeds matrix dimension"%string);
     ((exists i, i < 64 /\ N.testbit w i = true /\ (n <= 8 * c + i mod 8 \/ n <= 8 * r + i / 8)),
      "CompressedGraph entry contains edge outside vertex count"%string);
     (two64 <= total + popcount w, "CompressedGraph edge count overflowed"%string)]
    ++ entry_defects n (total + popcount w) l'
  end.

Definition cgraph_defects (p : platform) (bytes : list N) : list (Prop * string) :=
  let len := N.of_nat (length bytes) in
  let count := field bytes 16 8 in
  let n := field bytes 32 8 in
  let entries := entry_field bytes <$> range count in
  [(len < 42, "Slice is too short to contain CompressedGraph header"%string);
   (field bytes 0 4 <> 0x71ff7aed, "Incorrect magic number"%string);
   (field bytes 4 4 < 2, "Outdated CompressedGraph version"%string);
   (2 < field bytes 4 4, "Unrecognized CompressedGraph version"%string);
   (1 < field bytes 40 1, "Invalid compressed graph direction flag"%string);
   (~ (1 <= field bytes 41 1 <= 64), "Invalid compression level"%string);
   (field bytes 8 8 <> blocks_of n,
    "CompressedGraph matrix dimension does not match vertex count"%string);
   (usize_max p < 42 + 24 * count, "CompressedGraph byte size overflowed"%string);
   (len < 42 + 24 * count, "Slice is too short to contain all expected graph edges"%string);
   (42 + 24 * count < len, "Slice is too long represent the expected graph edges"%string)]
  ++ entry_defects n 0 entries ++
  [(popcount_total entries <> field bytes 24 8,
    "CompressedGraph edge count does not match header"%string)].

(** ** Writing *)

(** A file of [size] bytes. *)
Definition file_defects (p : platform) (size : N) (overflow alloc : string) : list (Prop * string) :=
  [(usize_max p < size, overflow); (can_alloc p size = false, alloc)].

(** The number of characters of the text of an [n] by [n] matrix whose cells take [w]. *)
Definition matrix_chars (n w : N) : N := (w + 2) * (n * n) + 4 * n - 2.

Definition text_defects (p : platform) (n w : N) : list (Prop * string) :=
  if n =? 0 then [] else
  [(usize_max p < n, "Matrix dimension does not fit in platform usize"%string);
   (usize_max p < matrix_chars n w + 2, "Matrix string size overflowed"%string);
   (can_alloc p (matrix_chars n w) = false, "Unable to allocate matrix string"%string)].

(** The result of printing an [n] by [n] matrix with cells of [w] characters: a text, or a
    panic, only if there is nothing to report. *)
Definition text_reported (p : platform) (n w : N) (out : outcome (result text)) : Prop :=
  match out with
  | Ret (Ok s) => reports (text_defects p n w) None /\
      (n <> 0 -> N.of_nat (length s) = matrix_chars n w)
  | Ret (Err e) => exists msg, e = CapacityOverflow msg /\ reports (text_defects p n w) (Some msg)
  | Panic => reports (text_defects p n w) None
  | OutOfFuel => False
  end.
