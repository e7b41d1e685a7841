(** SPECIFICATION.  Messages some of whose bits or bytes were changed on the way.  The vocabulary of C65. *)
From Coq Require Import NArith List String Arith.
From Verif Require Import Base Values Props Message SpecLayout SpecSysex.
Import ListNotations.
Local Open Scope nat_scope.

(** The buffers agree in every bit that belongs to some field of the message. *)
Definition alike_in_fields (u : unit_id) (m : Message.message) (b b' : list N) : Prop :=
  List.length b' = List.length b /\
  forall f x s w j, In (f, x) (layout u (m_name m)) -> In s (occupies x) -> in_seg s w j ->
    N.testbit (nth w b' 0%N) j = N.testbit (nth w b 0%N) j.

(** Each combination of bits has a meaning of its own. *)
Definition exact (x : SpecLayout.wire) : bool :=
  match x with Number _ | Flag _ | Septets _ _ | Array _ => true | _ => false end.

(** One byte of a buffer of words, number [j], was changed. *)
Definition one_byte (j : nat) (b b' : list N) : Prop :=
  List.length b' = List.length b /\ byte b' j <> byte b j /\ forall i, i <> j -> byte b' i = byte b i.

(** Where the payload of packet [p] begins in the payload of the message. *)
Definition offset_of (fm : form) (b : list N) (p : nat) : nat :=
  List.length (flat_map (payload_of fm b) (seq 0 p)).

(** What the parser of system exclusive messages can accept of a message of [k] packets when byte [r] of packet [p] was
    changed: the type must be the same and the group must be that of the other packets, the mark must be the same and
    the number of bytes one that fits, the stream id must be that of the other packets.  Any data byte will do. *)
Definition tolerable (fm : form) (k : nat) (b b' : list N) (p r : nat) : Prop :=
  (r = 0 -> k = 1 /\ type_of fm b' p = type_code fm)
  /\ (r = 1 -> status_nibble fm b' p = status_nibble fm b p
        /\ (size_bias fm <= size_nibble fm b' p <= size_bias fm + N.of_nat (packet_room fm))%N)
  /\ (r = 2 -> fm = EightBit -> k = 1).
