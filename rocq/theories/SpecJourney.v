(** SPECIFICATION.  One 7-bit system exclusive message on its way through buffers of
    all four kinds, seen as a list of bytes, a group and the length of the buffer. *)
From Coq Require Import NArith List Bool Arith.
From Verif Require Import SpecSysex SpecEdits.
Import ListNotations.
Local Open Scope nat_scope.

Inductive place := PacketVec | PacketArray | ByteVec | ByteArray.

(** What a client may do with the message it holds; [n] is the size of an array. *)
Inductive leg :=
| Edit (e : edit)
| ToBytes | ToByteArray (n : nat)
| ToPackets | ToPacketArray (n : nat)
| CopyToVec | CopyToArray (n : nat) | CopyData (n : nat).

(** What the client should see. *)
Record view := { v_place : place; v_length : nat; v_payload : list N; v_group : N }.

Definition in_packets (v : view) : bool :=
  match v_place v with PacketVec | PacketArray => true | _ => false end.

(** Words or bytes of a message of these payload bytes. *)
Definition length_in (p : place) (l : list N) : nat :=
  match p with
  | PacketVec | PacketArray => 2 * packets_needed SevenBit (List.length l)
  | ByteVec | ByteArray => List.length l + 2
  end.

(** A byte message has no group: it reads as 0. *)
Definition arrives (p : place) (n : nat) (v : view) (g : N) : view :=
  {| v_place := p; v_length := n; v_payload := v_payload v; v_group := g |}.
(** A message that does not fit stays where it is, and the call fails. *)
Definition if_fits (fits : bool) (v' v : view) : view * bool := if fits then (v', true) else (v, false).

Definition travels (s : leg) (v : view) : view * bool :=
  let l := v_payload v in
  match s with
  | Edit e =>
      let l' := new_payload e l in
      match v_place v with
      | PacketVec =>
          ({| v_place := PacketVec;
              v_length := match e with SetByte _ _ | SetGroup _ => v_length v | _ => length_in PacketVec l' end;
              v_payload := l'; v_group := new_group e (v_group v) |}, true)
      | ByteVec =>
          ({| v_place := ByteVec;
              v_length := match e with SetByte _ _ | SetGroup _ => v_length v | _ => length_in ByteVec l' end;
              v_payload := l'; v_group := 0%N |}, true)
      | PacketArray =>
          let '(l'', ok) := fixed_outcome (room_in SevenBit (v_length v)) e l in
          ({| v_place := PacketArray; v_length := v_length v; v_payload := l''; v_group := new_group e (v_group v) |}, ok)
      | ByteArray =>
          let '(l'', ok) := fixed_outcome (v_length v - 2) e l in
          ({| v_place := ByteArray; v_length := v_length v; v_payload := l''; v_group := 0%N |}, ok)
      end
  | ToBytes => (arrives ByteVec (length_in ByteVec l) v 0%N, true)
  | ToByteArray n => if_fits (length_in ByteArray l <=? n) (arrives ByteArray n v 0%N) v
  | ToPackets => (arrives PacketVec (length_in PacketVec l) v 0%N, true)
  | ToPacketArray n => if_fits (length_in PacketArray l <=? n) (arrives PacketArray n v 0%N) v
  | CopyToVec => (arrives (if in_packets v then PacketVec else ByteVec) (v_length v) v (v_group v), true)
  | CopyToArray n =>
      if_fits (v_length v <=? n) (arrives (if in_packets v then PacketArray else ByteArray) n v (v_group v)) v
  | CopyData n => (arrives (if in_packets v then PacketArray else ByteArray) n v (v_group v), true)
  end.

(** What the client must respect: what its edits are given (C21, C22); packet arrays
    hold whole packets; the rebuffering call that needs room has it; edits of byte
    arrays do not shorten the payload and fit (see [C22_stale_end_refuted]). *)
Definition permitted (s : leg) (v : view) : Prop :=
  match s with
  | Edit e => legal SevenBit e (v_payload v)
      /\ match v_place v with
         | PacketVec | ByteVec => True
         | PacketArray => announced_enough e (v_payload v)
         | ByteArray => not_shrinking e (v_payload v) /\ length_in ByteArray (new_payload e (v_payload v)) <= v_length v
         end
  | ToBytes | ToByteArray _ => in_packets v = true
  | ToPackets => in_packets v = false
  | ToPacketArray n => in_packets v = false /\ n mod 2 = 0
  | CopyToVec => True
  | CopyToArray n => in_packets v = true -> n mod 2 = 0
  | CopyData n => length_in (v_place v) (v_payload v) <= n /\ (in_packets v = true -> n mod 2 = 0)
  end.

Fixpoint itinerary (ss : list leg) (v : view) : view * list bool :=
  match ss with
  | [] => (v, [])
  | s :: t =>
      let '(v', ok) := travels s v in
      let '(v'', oks) := itinerary t v' in (v'', ok :: oks)
  end.
Fixpoint all_permitted (ss : list leg) (v : view) : Prop :=
  match ss with
  | [] => True
  | s :: t => permitted s v /\ all_permitted t (fst (travels s v))
  end.

(** An empty message in a new buffer. *)
Definition start (p : place) (n : nat) : view :=
  {| v_place := p;
     v_length := match p with PacketVec | ByteVec => 2 | PacketArray | ByteArray => n end;
     v_payload := []; v_group := 0%N |}.

(** The edits among the legs. *)
Definition edits_of (ss : list leg) : list edit :=
  flat_map (fun s => match s with Edit e => [e] | _ => [] end) ss.
