(** Shared vocabulary of the model: machine integers, results, panics, platforms,
    hash-table iteration orders and big-endian bytes. *)
From Coq Require Import Ascii String.
From stdpp Require Export base numbers list gmap sets fin_sets.
Open Scope N_scope.

(** ** Panics

    [Ret a]: the Rust code returns [a].  [Panic]: it panics (index out of bounds, or
    arithmetic overflow in a build with overflow checks).  [OutOfFuel]: a [while] loop
    exceeded the bound the model gives to it; proved never to happen. *)
Inductive outcome (A : Type) : Type :=
| Ret (a : A)
| Panic
| OutOfFuel.
Arguments Ret {A} a.
Arguments Panic {A}.
Arguments OutOfFuel {A}.

(** Sequencing of possibly panicking code. *)
Definition obind {A B} (x : outcome A) (f : A -> outcome B) : outcome B :=
  match x with
  | Ret a => f a
  | Panic => Panic
  | OutOfFuel => OutOfFuel
  end.

(** A Rust [for] loop over the already known list of items, with a possibly
    panicking body acting on a mutable state. *)
Fixpoint ofold {A B} (f : B -> A -> outcome B) (l : list A) (b : B) : outcome B :=
  match l with
  | [] => Ret b
  | a :: l' => obind (f b a) (ofold f l')
  end.

(** ** Errors: graphrox-rs/src/error/mod.rs, enum GraphRoxError (the payload is the
    message). *)
Inductive gerror : Type :=
| InvalidFormat (msg : string)
| InvalidInput (msg : string)
| CapacityOverflow (msg : string).

(** Rust's [Result<A, GraphRoxError>]. *)
Inductive result (A : Type) : Type :=
| Ok (a : A)
| Err (e : gerror).
Arguments Ok {A} a.
Arguments Err {A} e.

(** The [?] operator. *)
Definition rbind {A B} (x : result A) (f : A -> result B) : result B :=
  match x with
  | Ok a => f a
  | Err e => Err e
  end.

(** The [?] operator in code that may also panic. *)
Definition orbind {A B} (x : outcome (result A)) (f : A -> outcome (result B))
  : outcome (result B) :=
  match x with
  | Ret (Ok a) => f a
  | Ret (Err e) => Ret (Err e)
  | Panic => Panic
  | OutOfFuel => OutOfFuel
  end.

(** [ok_or_else]. *)
Definition ok_or {A} (e : gerror) (x : option A) : result A :=
  match x with
  | Some a => Ok a
  | None => Err e
  end.

(** ** Machine integers.  A [u64], [u32], [u8] or [usize] is an [N]. *)
Definition two64 : N := 18446744073709551616.
Definition u64_max : N := 18446744073709551615.

(** What the generated code depends on beyond the source text: the platform's
    [usize::MAX], whether arithmetic overflow panics (debug profile) or wraps (release
    profile), and which buffer sizes the allocator grants ([try_reserve_exact]). *)
Record platform : Type := Platform {
  usize_max : N;
  overflow_checks : bool;
  can_alloc : N -> bool;
}.

(** [u64::checked_add], [u64::checked_mul] of the Rust standard library. *)
Definition checked_add64 (a b : N) : option N :=
  if a + b <? two64 then Some (a + b) else None.
Definition checked_mul64 (a b : N) : option N :=
  if a * b <? two64 then Some (a * b) else None.
(** [u64::saturating_add]. *)
Definition saturating_add64 (a b : N) : N :=
  if a + b <? two64 then a + b else u64_max.
(** [+= 1] and [-= 1] on the entry counters.  Modelled as wrapping (the release
    profile); with overflow checks the wrap would be a panic, but it needs 2^64 stored
    entries. *)
Definition wrapping_inc64 (a : N) : N := (a + 1) mod two64.
Definition wrapping_dec64 (a : N) : N := (a + u64_max) mod two64.
(** Unchecked [u64] [+] and [*]. *)
Definition u64_add (p : platform) (a b : N) : outcome N :=
  if a + b <? two64 then Ret (a + b)
  else if overflow_checks p then Panic else Ret ((a + b) mod two64).
Definition u64_mul (p : platform) (a b : N) : outcome N :=
  if a * b <? two64 then Ret (a * b)
  else if overflow_checks p then Panic else Ret ((a * b) mod two64).
(** Unchecked [usize] [+], [-] and [*]. *)
Definition usize_add (p : platform) (a b : N) : outcome N :=
  if a + b <=? usize_max p then Ret (a + b)
  else if overflow_checks p then Panic else Ret ((a + b) mod (usize_max p + 1)).
Definition usize_sub (p : platform) (a b : N) : outcome N :=
  if b <=? a then Ret (a - b)
  else if overflow_checks p then Panic
  else Ret ((a + (usize_max p + 1) - b) mod (usize_max p + 1)).
Definition usize_mul (p : platform) (a b : N) : outcome N :=
  if a * b <=? usize_max p then Ret (a * b)
  else if overflow_checks p then Panic else Ret ((a * b) mod (usize_max p + 1)).
(** [usize::try_from(u64)], [usize::checked_add], [checked_mul], [checked_sub]. *)
Definition usize_try_from (p : platform) (a : N) : option N :=
  if a <=? usize_max p then Some a else None.
Definition checked_addU (p : platform) (a b : N) : option N :=
  if a + b <=? usize_max p then Some (a + b) else None.
Definition checked_mulU (p : platform) (a b : N) : option N :=
  if a * b <=? usize_max p then Some (a * b) else None.
Definition checked_subU (a b : N) : option N :=
  if b <=? a then Some (a - b) else None.

(** [n as u8] range. *)
Definition is_byte (b : N) : Prop := b < 256.
Definition is_u64 (x : N) : Prop := x < two64.

(** ** Half-open integer ranges [0..n]. *)
Definition range (n : N) : list N := N.of_nat <$> seq 0 (N.to_nat n).

(** ** Hash tables

    [HashMap]/[HashSet] iterate in an arbitrary order which may differ between two tables
    with equal contents (per-table random seeds, insertion history).  A [hash_order] is a
    choice of order for one pass over one nested table: [ord_map None] orders the outer
    table, [ord_map (Some c)] / [ord_set c] the inner table at column [c].  Functions that
    make several passes take several orders. *)
Record hash_order : Type := HashOrder {
  ord_map : forall A : Type, option N -> gmap N A -> list (N * A);
  ord_set : N -> gset N -> list N;
  ord_map_perm : forall A t (m : gmap N A), ord_map A t m ≡ₚ map_to_list m;
  ord_set_perm : forall c (s : gset N), ord_set c s ≡ₚ elements s;
}.

(** One concrete order (used by examples). *)
Definition plain_order : hash_order := {|
  ord_map := fun A _ m => map_to_list m;
  ord_set := fun _ s => elements s;
  ord_map_perm := fun A _ m => reflexivity (map_to_list m);
  ord_set_perm := fun _ s => reflexivity (elements s);
|}.

(** Another one: everything backwards (used by examples). *)
Definition reversed_order : hash_order := {|
  ord_map := fun A _ m => reverse (map_to_list m);
  ord_set := fun _ s => reverse (elements s);
  ord_map_perm := fun A _ m => reverse_Permutation (map_to_list m);
  ord_set_perm := fun _ s => reverse_Permutation (elements s);
|}.

(** ** Bytes *)

(** [uN::to_be_bytes] for an integer of [k] bytes: most significant byte first. *)
Fixpoint to_be_bytes (k : nat) (x : N) : list N :=
  match k with
  | O => []
  | S k' => to_be_bytes k' (x / 256) ++ [x mod 256]
  end.

(** [uN::from_be_bytes]. *)
Definition from_be_bytes (bs : list N) : N :=
  fold_left (fun acc b => acc * 256 + b) bs 0.

(** [bytes.get(offset..end)] with [end - offset = k] (None when [end > len]). *)
Definition slice_get (bytes : list N) (offset : N) (k : nat) : option (list N) :=
  if offset + N.of_nat k <=? N.of_nat (length bytes)
  then Some (take k (drop (N.to_nat offset) bytes))
  else None.

(** [bytes[i]]: panics out of bounds. *)
Definition byte_at (bytes : list N) (i : nat) : outcome N :=
  match bytes !! i with
  | Some b => Ret b
  | None => Panic
  end.

(** Text literals as lists of characters ([String] contents, ASCII only). *)
Definition text := list ascii.
Definition txt (s : string) : text := list_ascii_of_string s.
Definition cr : ascii := "013"%char.
Definition lf : ascii := "010"%char.
