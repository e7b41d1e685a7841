(** Bytes schemas for [u8] (schema.rs 195-210).  No message declares a field with one, so
    they are not in the tables of Schema.v. *)
From Coq Require Import NArith List.
From Verif Require Import Base Schema.
Import ListNotations.
Local Open Scope N_scope.

(** schema.rs 208-210: [u8_bytes_property_impl!] (no sub-index) *)
Definition u8_bytes : list (mask3 * nat) := [
  ((0xFF, 0, 0), 0%nat); ((0, 0xFF, 0), 1%nat); ((0, 0, 0xFF), 2%nat) ].

(** schema.rs 198-200: [read] of the [impl] with this buffer index *)
Definition u8_bytes_read (w : nat) (b : list N) : outcome N := idx b w.
(** schema.rs 201-203: [write] *)
Definition u8_bytes_write (w : nat) (b : list N) (v : N) : outcome (list N) := upd b w (fun _ => v).
