(** SPECIFICATION.  Vocabulary for builds with some of the cargo features. *)
From Coq Require Import NArith List Bool.
From Verif Require Import Base Aggregate SpecAggregate Features.
Import ListNotations.

(** The message type belongs to a family whose feature is on. *)
Definition offered (on : features) (c : concrete) : Prop := exists f, on f = true /\ In c (types_of f).

(** The family of the MIDI 1.0 message that starts with a status byte. *)
Definition midi1_family (s : N) : option family :=
  if (s <? 0x80)%N then None else if (s <? 0xF0)%N then Some ChannelVoice1
  else if (s =? 0xF0)%N then Some Sysex7 else if (s =? 0xF7)%N then None else Some SystemCommon.
