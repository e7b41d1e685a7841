(** SPECIFICATION.  Histories of setter calls that differ in the order of calls of different setters only: the
    vocabulary of C60. *)
From Coq Require Import NArith List String Bool.
From Verif Require Import Base Values Message SpecLayout SpecFixed.
Import ListNotations.

(** The calls of [f]'s setter in a history, in their order. *)
Definition calls_of (f : string) (h : history) : history := filter (fun c => String.eqb (fst c) f) h.
(** Every setter is called with the same values in the same order; calls of different setters may change places. *)
Definition same_calls (h h' : history) : Prop := forall f, calls_of f h = calls_of f h'.
(** Every setter's last call is the same, whatever was called before. *)
Definition same_last (h h' : history) : Prop := forall f, last_set f h = last_set f h'.
