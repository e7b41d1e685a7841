(** SPECIFICATION.  System exclusive messages on the wire, written from the
    MIDI 1.0 and UMP formats, independently of the model's functions.

    UMP form: words are sent most significant byte first.  A packet of a 7-bit
    message (type 3) is 8 bytes: type and group nibbles, status and size nibbles,
    then up to 6 payload bytes.  A packet of an 8-bit message (type 5) is 16
    bytes: type and group, status and size, stream id, then up to 13 payload
    bytes; its size nibble also counts the stream id. *)
From Coq Require Import NArith List Arith.
Import ListNotations.
Local Open Scope nat_scope.

Inductive form := SevenBit | EightBit.

Definition type_code (fm : form) : N := match fm with SevenBit => 3 | EightBit => 5 end.
Definition packet_words (fm : form) : nat := match fm with SevenBit => 2 | EightBit => 4 end.
Definition packet_bytes (fm : form) : nat := match fm with SevenBit => 8 | EightBit => 16 end.
Definition header_bytes (fm : form) : nat := match fm with SevenBit => 2 | EightBit => 3 end.
Definition packet_room (fm : form) : nat := match fm with SevenBit => 6 | EightBit => 13 end.
Definition size_bias (fm : form) : N := match fm with SevenBit => 0 | EightBit => 1 end.

(** A payload unit: 7 or 8 bits. *)
Definition is_unit (fm : form) (v : N) : Prop :=
  match fm with SevenBit => (v < 128)%N | EightBit => (v < 256)%N end.
(** The unit in a byte: a 7-bit payload uses the low 7 bits. *)
Definition unit_of (fm : form) (v : N) : N :=
  match fm with SevenBit => (v mod 128)%N | EightBit => v end.

(** Byte [j] of a buffer of words. *)
Definition byte (b : list N) (j : nat) : N :=
  (nth (j / 4) b 0 / 2 ^ (8 * (3 - N.of_nat (j mod 4))) mod 256)%N.

(** Packet [p] of a buffer. *)
Definition type_of (fm : form) (b : list N) (p : nat) : N := (byte b (packet_bytes fm * p) / 16)%N.
Definition group_of (fm : form) (b : list N) (p : nat) : N := (byte b (packet_bytes fm * p) mod 16)%N.
Definition status_nibble (fm : form) (b : list N) (p : nat) : N := (byte b (packet_bytes fm * p + 1) / 16)%N.
Definition size_nibble (fm : form) (b : list N) (p : nat) : N := (byte b (packet_bytes fm * p + 1) mod 16)%N.
Definition stream_of (fm : form) (b : list N) (p : nat) : N := byte b (packet_bytes fm * p + 2).
Definition units_in (fm : form) (b : list N) (p : nat) : nat := N.to_nat (size_nibble fm b p - size_bias fm).
Definition payload_of (fm : form) (b : list N) (p : nat) : list N :=
  map (fun q => unit_of fm (byte b (packet_bytes fm * p + header_bytes fm + q)))
      (seq 0 (units_in fm b p)).

(** A packet's payload with its first byte, if any, replaced. *)
Definition first_to (v : N) (u : list N) : list N := match u with [] => [] | _ :: t => v :: t end.

(** The status nibble packet [p] of [k] must have: 0 complete, 1 start,
    2 continue, 3 end. *)
Definition status_code (k p : nat) : N :=
  if k =? 1 then 0 else if p =? 0 then 1 else if S p =? k then 3 else 2.

(** [Some i]: the stream id is [i].  [None]: it is not looked at. *)
Definition in_stream (s : option N) (v : N) : Prop :=
  match s with Some i => v = i | None => True end.

(** The first [k] packets of [b] are a message in group [g] (and stream [s])
    whose payload is [l]. *)
Record carries (fm : form) (k : nat) (g : N) (s : option N) (l : list N) (b : list N) : Prop := {
  ca_some : 1 <= k;
  ca_fits : packet_words fm * k <= List.length b;
  ca_type : forall p, p < k -> type_of fm b p = type_code fm;
  ca_group : forall p, p < k -> group_of fm b p = g;
  ca_stream : forall p, p < k -> fm = EightBit -> in_stream s (stream_of fm b p);
  ca_status : forall p, p < k -> status_nibble fm b p = status_code k p;
  ca_size : forall p, p < k ->
    (size_bias fm <= size_nibble fm b p <= size_bias fm + N.of_nat (packet_room fm))%N;
  ca_payload : flat_map (payload_of fm b) (seq 0 k) = l
}.

(** Every packet but the last is full, and there is no needless last packet. *)
Definition full_packets (fm : form) (k : nat) (b : list N) : Prop :=
  (forall p, S p < k -> units_in fm b p = packet_room fm)
  /\ (k = 1 \/ 0 < units_in fm b (k - 1)).

(** 7-bit form: the top bit of every byte after a packet header is 0. *)
Definition clean_bytes (fm : form) (b : list N) : Prop :=
  fm = SevenBit -> forall j, 2 <= j mod packet_bytes fm -> (byte b j < 128)%N.

(** A buffer that is exactly a well-packed message. *)
Definition message (fm : form) (g : N) (s : option N) (l : list N) (b : list N) : Prop :=
  exists k, carries fm k g s l b /\ full_packets fm k b
    /\ List.length b = packet_words fm * k.

(** What may follow the message in a fixed-size buffer: packets that do not
    claim to be an unfinished, partly filled part of a message of this kind, and
    that carry the stream id.  Zeroed space and what earlier, longer payloads
    left behind are like that. *)
Definition scrap (fm : form) (s : option N) (b : list N) : Prop :=
  forall p, p < List.length b / packet_words fm ->
    (type_of fm b p = type_code fm ->
     status_nibble fm b p = 1%N \/ status_nibble fm b p = 2%N ->
     units_in fm b p = packet_room fm /\ (size_bias fm <= size_nibble fm b p)%N)
    /\ (fm = EightBit -> in_stream s (stream_of fm b p)).

(** A well-packed message at the front of a buffer. *)
Definition message_in (fm : form) (g : N) (s : option N) (l : list N) (b : list N) : Prop :=
  (exists k, carries fm k g s l b /\ full_packets fm k b) /\ scrap fm s b.

(** Number of payload bytes a buffer of [len] words can hold. *)
Definition room_in (fm : form) (len : nat) : nat := len / packet_words fm * packet_room fm.

(** Byte-stream form: 0xF0, the payload, 0xF7. *)
Definition stream_bytes (l : list N) : list N := 0xF0%N :: l ++ [0xF7%N].

(** ** Edits *)

(** Replace positions [a..e) of [l] by [data]. *)
Definition replaced (l : list N) (a e : nat) (data : list N) : list N :=
  firstn a l ++ data ++ skipn e l.

(** Replace element [i]. *)
Definition with_unit (l : list N) (i : nat) (v : N) : list N := firstn i l ++ v :: skipn (S i) l.

(** ** Minimal framing *)

(** Number of packets for [n] payload bytes: one even if there are none. *)
Definition packets_needed (fm : form) (n : nat) : nat :=
  if n =? 0 then 1 else (n + packet_room fm - 1) / packet_room fm.
(** The size nibble of packet [p] of a message of [n] payload bytes. *)
Definition size_code (fm : form) (n p : nat) : N :=
  (size_bias fm + N.of_nat (Nat.min (packet_room fm) (n - packet_room fm * p)))%N.

(** ** Partly filled packets *)

(** The editing code tests every packet of an 8-bit message, but only every other
    packet of a 7-bit one, for being partly filled. *)
Definition examined (fm : form) (p : nat) : Prop := fm = SevenBit -> Nat.even p = true.

(** If one of the [k] packets but the last is partly filled, then so is one that
    is examined. *)
Definition noticed (fm : form) (k : nat) (b : list N) : Prop :=
  forall p, S p < k -> units_in fm b p <> packet_room fm ->
  exists q, S q < k /\ units_in fm b q <> packet_room fm /\ examined fm q.

(** A partly filled packet is left behind a message of [n] bytes written over the
    [k] packets. *)
Definition left_behind (fm : form) (k n : nat) (b : list N) : Prop :=
  exists p, packets_needed fm n <= p /\ S p < k /\ units_in fm b p <> packet_room fm /\ examined fm p.

(** Behind the [k] packets there is none. *)
Definition nothing_behind (fm : form) (k : nat) (b : list N) : Prop :=
  forall p, k <= p -> p < List.length b / packet_words fm -> examined fm p ->
    type_of fm b p = type_code fm ->
    status_nibble fm b p = 1%N \/ status_nibble fm b p = 2%N ->
    size_nibble fm b p = (size_bias fm + N.of_nat (packet_room fm))%N.
