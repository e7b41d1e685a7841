(** Specification: what stands in the way of edits in place (C39). *)
From Coq Require Import NArith List Bool Arith.
From Verif Require Import SpecSysex SpecEdits.
Import ListNotations.
Local Open Scope nat_scope.

(** What an edit in place runs into behind the first [n] bytes: an examined packet
    that claims to be a partly filled part of a message, reached through packets
    that are all of this kind as far as they are examined. *)
Definition in_the_way (fm : form) (n : nat) (b : list N) : Prop :=
  exists p, packets_needed fm n <= p /\ packet_words fm * p + 4 <= List.length b /\ examined fm p
    /\ (status_nibble fm b p = 1%N \/ status_nibble fm b p = 2%N)
    /\ size_nibble fm b p <> (size_bias fm + N.of_nat (packet_room fm))%N
    /\ forall q, q <= p -> examined fm q -> type_of fm b q = type_code fm.

(** The edits of a growable buffer that work in place: they announce no more
    bytes than they replace. *)
Definition in_place (e : edit) (l : list N) : Prop :=
  match e with
  | SetPayload _ | SetByte _ _ | SetGroup _ => False
  | _ => room_made e l = 0
  end.
