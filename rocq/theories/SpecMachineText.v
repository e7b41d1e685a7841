(** SPECIFICATION.  When texts and iterator calls fit the machine. *)
From Coq Require Import NArith List Arith.
From Verif Require Import Machine SpecText SpecSysex SpecEdits.
Import ListNotations.
Local Open Scope nat_scope.

(** A text (or buffer) of [n] units fits: there is a hundred times as much address space. *)
Definition holds_units (bd : build) (n : nat) : Prop := 100 * (n + 16) <= usize_values bd.

Definition flex_edit_fits (bd : build) (e : flex_edit) : Prop :=
  match e with FText t => holds_units bd (length t) | _ => True end.
Definition stream_edit_fits (bd : build) (e : stream_edit) : Prop :=
  match e with SName t => holds_units bd (length t) | _ => True end.
Definition call_fits (bd : build) (c : call) : Prop :=
  match c with Next => True | Nth n => n + 16 <= usize_values bd end.
