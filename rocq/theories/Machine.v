(** Machine arithmetic and build profiles.

    The other model files compute with unbounded numbers and treat every
    [debug_assert!] and every unsigned subtraction below zero as a panic.  That is
    what a debug build does as long as no sum or product reaches the size of
    [usize].  Here the same operations are given as the compiled program performs
    them: modulo the size of [usize], with or without the checks, which the
    Cargo profile selects ([overflow-checks], [debug-assertions]; both are on in
    the [dev] profile and off in [release]).  The two Cargo.toml files of the
    workspace set no profile. *)
From Coq Require Import NArith List Bool Arith.
From Verif Require Import Base.
Import ListNotations.
Local Open Scope nat_scope.

Record build := {
  usize_values : nat;        (* usize::MAX + 1: 2^64, 2^32 or 2^16 *)
  overflow_checks : bool;
  debug_assertions : bool
}.

(** [a + b], [a - b] and [a * b] on [usize] *)
Definition madd (bd : build) (a b : nat) : outcome nat :=
  if a + b <? usize_values bd then Val (a + b)
  else if overflow_checks bd then Panic else Val (a + b - usize_values bd).
Definition msub (bd : build) (a b : nat) : outcome nat :=
  if b <=? a then Val (a - b)
  else if overflow_checks bd then Panic else Val (a + usize_values bd - b).
Definition mmul (bd : build) (a b : nat) : outcome nat :=
  if a * b <? usize_values bd then Val (a * b)
  else if overflow_checks bd then Panic else Val ((a * b) mod usize_values bd).

(** [a - b] and [a + b] on [u8] *)
Definition msub8 (bd : build) (a b : N) : outcome N :=
  if (b <=? a)%N then Val (a - b)%N
  else if overflow_checks bd then Panic else Val (a + 256 - b)%N.
Definition madd8 (bd : build) (a b : N) : outcome N :=
  if (a + b <? 256)%N then Val (a + b)%N
  else if overflow_checks bd then Panic else Val (a + b - 256)%N.

(** [debug_assert!(c)], in helpers.rs 209 and sysex7.rs 604 for instance *)
Definition massert (bd : build) (c : bool) : outcome unit :=
  if c then Val tt else if debug_assertions bd then Panic else Val tt.
