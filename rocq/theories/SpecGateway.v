(** SPECIFICATION.  MIDI 1.0 messages that have a UMP form with the same content. *)
From Coq Require Import NArith List String.
From Verif Require Import Base Values Props Message SpecFixed SpecSysex Aggregate SpecAggregate SpecStream.
Import ListNotations.

(** One whole byte message: of 7-bit data bytes whose unused bits are zero, or a
    system exclusive message with a 7-bit payload.  Song position pointers are
    left out: their conversion panics (C14_song_position_refuted). *)
Definition midi1 (a : aggregate) : Prop :=
  In (fst a) byte_types /\ wf_buf U8 (snd a) /\ whole U8 a
  /\ match fst a with
     | CFixed m => m_name m <> "system_common::SongPositionPointer"%string /\ reserved_zero U8 m (snd a)
     | _ => exists l, Forall (is_unit SevenBit) l /\ snd a = stream_bytes l
     end.
