(** SPECIFICATION.  Texts one byte of which was changed on the way.  More of the vocabulary of C65. *)
From Coq Require Import NArith List Arith.
From Verif Require Import SpecLayout SpecSysex SpecText SpecDamage.
Import ListNotations.
Local Open Scope nat_scope.

(** What the parsers of texts can accept of a message of [k] packets when byte [r] of packet [p] was changed.  Flex data:
    the type must be the same and the group must be that of the other packets, the mark must be the same while address and
    channel may be any, bank and status must be the same, and what can be read must still be UTF-8. *)
Definition flex_tolerable (k : nat) (b b' : list N) (p r : nat) : Prop :=
  (r = 0 -> k = 1 /\ bits b' (Seg (4 * p) 28 4) = 0xD%N)
  /\ (r = 1 -> bits b' (Seg (4 * p) 22 2) = bits b (Seg (4 * p) 22 2))
  /\ r <> 2 /\ r <> 3
  /\ (4 <= r -> is_string (flex_reading b')).

(** UMP stream: type, mark and status must be the same; where there is a block number ([off = 1]) it must be that of the
    other packets. *)
Definition stream_tolerable (off k : nat) (b' : list N) (r : nat) : Prop :=
  r <> 0 /\ r <> 1
  /\ (r = 2 -> off = 1 -> k = 1)
  /\ (2 + off <= r -> is_string (stream_reading off b')).
