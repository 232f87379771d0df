(** graphrox-rs/src/error/mod.rs: what is done with an error besides returning it. *)
From Coq Require Import String.
From Verif Require Import Base.

(** error/mod.rs:15-24, into_inner. *)
Definition error_into_inner (e : gerror) : string :=
  match e with
  | InvalidFormat s => s
  | InvalidInput s => s
  | CapacityOverflow s => s
  end.

(** error/mod.rs:26-40, Display::fmt. *)
Definition error_display (e : gerror) : string :=
  String.append "GraphRoxError: "
    match e with
    | InvalidFormat s => s
    | InvalidInput s => s
    | CapacityOverflow s => s
    end.
