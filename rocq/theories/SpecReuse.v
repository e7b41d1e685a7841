(** SPECIFICATION.  Messages that are used again: the vocabulary of C70. *)
From Coq Require Import NArith List String Bool.
From Verif Require Import Base Values Message SpecLayout SpecFixed.
Import ListNotations.

(** The calls [g] set every field of the message type anew. *)
Definition sets_all (u : unit_id) (m : message) (g : history) : Prop :=
  forall f w, settable_field u m f w -> exists v, In (f, v) g.
(** None of the calls in [g] takes an attribute back. *)
Definition takes_nothing_back (g : history) : Prop := forall f, ~ In (f, VAttr None) g.
