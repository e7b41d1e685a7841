(** SPECIFICATION.  Builds of the library, and what it means that a call fits the
    machine.  Only the records of Machine.v and the arguments of SpecEdits.v are
    used. *)
From Coq Require Import NArith List Bool Arith.
From Verif Require Import Machine Splice SpecSysex SpecEdits.
Import ListNotations.
Local Open Scope nat_scope.

(** The two profiles Cargo knows by default, for a [usize] of [m] values. *)
Definition dev (m : nat) : build := {| usize_values := m; overflow_checks := true; debug_assertions := true |}.
Definition release (m : nat) : build := {| usize_values := m; overflow_checks := false; debug_assertions := false |}.

(** The numbers a caller hands to an edit: how many items there are, how many the
    iterator announces, and the positions. *)
Definition position (r : bound) : nat := match r with Included v | Excluded v => v | Unbounded => 0 end.
Definition items_and_hint (src : source) : nat := List.length (s_items src) + announced src.
Definition asked (e : edit) : nat :=
  match e with
  | SetPayload src | AppendPayload src => items_and_hint src
  | SplicePayload src lo hi => items_and_hint src + position lo + position hi
  | InsertPayload src i => items_and_hint src + i
  | AppendByte _ => 2
  | SetByte _ i => i
  | SetGroup _ => 0
  end.

(** A call on a buffer of [len] units fits: there is a thousand times as much
    address space as the buffer and the numbers take. *)
Definition fits_machine (bd : build) (len : nat) (e : edit) : Prop :=
  1024 * (len + asked e + 8) <= usize_values bd.

(** Every step of a history fits, given the payload before it; a message is at
    most 4 units longer than its payload. *)
Fixpoint history_fits (bd : build) (es : list edit) (l : list N) : Prop :=
  match es with
  | [] => True
  | e :: t => fits_machine bd (List.length l + 4) e /\ history_fits bd t (new_payload e l)
  end.
