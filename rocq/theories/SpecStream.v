(** SPECIFICATION.  Vocabulary for reading slices that hold several messages. *)
From Coq Require Import NArith List Arith.
From Verif Require Import Base Values Props Message SpecLayout Aggregate SpecAggregate Packet SpecPacket.
Import ListNotations.

(** The slice is one message of the given type, from its first to its last unit. *)
Definition whole (u : unit_id) (m : aggregate) : Prop :=
  accepted u (fst m) (snd m) /\ concrete_data u (fst m) (snd m) = Val (snd m).

(** The slices, one behind the other. *)
Definition stream_of_messages (l : list aggregate) : list N := List.concat (map snd l).
Definition stream_of_packets (l : list packet) : list N := List.concat (map snd l).

(** The families all of whose messages are one packet. *)
Definition one_packet (c : concrete) : Prop :=
  In c (types_of Utility ++ types_of SystemCommon ++ types_of ChannelVoice1 ++ types_of ChannelVoice2).

(** A packet of an assigned type, of its length, with system exclusive codes that exist. *)
Definition sound_packet (p : packet) : Prop :=
  exists f, fst p = variant f /\ ump_family (type_field (snd p)) = Some f
    /\ List.length (snd p) = family_words f /\ valid_codes f (snd p).
