(** SPECIFICATION.  What becomes of a payload when an iterator yields more items than it announced, in a fixed-size buffer. *)
From Coq Require Import NArith List Arith.
Import ListNotations.
Local Open Scope nat_scope.

(** Room is made for the number of items announced; when it is used up, for one, two, four, ... items more. *)
Definition room_after (announced k : nat) : nat := announced + (2 ^ k - 1).

(** The buffer has room for [K] items in place of the bytes [a..e) of [l], and that was too little for the room wanted when
    [w] items had been written: [p] is the payload the call reports success with.  Of the items [0..w), those from
    [K - (e - a)] on are overwritten, by what followed the range; of the bytes that followed the range, the first
    [e - a] are lost, and there are as many arbitrary ones at the end. *)
Definition spoilt_payload (l : list N) (a e : nat) (items : list N) (w K : nat) (p : list N) : Prop :=
  let behind := skipn e l in
  exists mixed junk,
    p = firstn a l ++ firstn (Nat.min w (K - (e - a))) items ++ mixed ++ skipn w items ++ skipn (e - a) behind ++ junk
    /\ List.length mixed = w - (K - (e - a))
    /\ firstn (List.length behind) mixed = firstn (List.length mixed) behind
    /\ List.length junk = Nat.min (e - a) (List.length behind).
