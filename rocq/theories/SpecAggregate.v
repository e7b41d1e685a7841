(** SPECIFICATION.  Vocabulary for the properties of the aggregate enums: which
    message types there are, which family a Universal MIDI Packet belongs to
    and which MIDI 1.0 message a byte stream starts with. *)
From Coq Require Import NArith List String Bool Arith.
From Verif Require Import Base Values Props Message MessageTable SpecLayout Text Aggregate.
Import ListNotations.
Local Open Scope string_scope.
Local Open Scope N_scope.

(** The message families of the standard. *)
Inductive family :=
| Utility | SystemCommon | ChannelVoice1 | Sysex7 | ChannelVoice2 | Sysex8 | FlexData | UmpStream.

(** The family of a packet, by the four most significant bits of its first word
    (M2-104-UM, table 4); the other types are reserved. *)
Definition ump_family (t : N) : option family :=
  match t with
  | 0x0 => Some Utility
  | 0x1 => Some SystemCommon
  | 0x2 => Some ChannelVoice1
  | 0x3 => Some Sysex7
  | 0x4 => Some ChannelVoice2
  | 0x5 => Some Sysex8
  | 0xD => Some FlexData
  | 0xF => Some UmpStream
  | _ => None
  end.

(** The message types of a family. *)
Definition types_of (f : family) : list concrete :=
  match f with
  | Utility => map CFixed utility_messages
  | SystemCommon => map CFixed system_common_messages
  | ChannelVoice1 => map CFixed channel_voice1_messages
  | Sysex7 => [CSysex7]
  | ChannelVoice2 => map CFixed channel_voice2_messages
  | Sysex8 => [CSysex8]
  | FlexData => map CFixed flex_data_messages ++ map CFlexText flex_texts
  | UmpStream => map CFixed ump_stream_messages ++ map CStreamText stream_texts
  end.
Definition families : list family :=
  [Utility; SystemCommon; ChannelVoice1; Sysex7; ChannelVoice2; Sysex8; FlexData; UmpStream].
Definition ump_types : list concrete := flat_map types_of families.

(** The message types that exist as byte streams. *)
Definition byte_types : list concrete :=
  CSysex7 :: map CFixed (system_common_messages ++ channel_voice1_messages).

(** The concrete type's own [try_from] accepts the slice. *)
Definition accepted (u : unit_id) (c : concrete) (b : list N) : Prop :=
  concrete_try_from u c b = Val (Ok b).

(** Three metadata texts that the flex data enum looks for under the wrong
    status: 0x10, 0x11, 0x12 instead of 0x0A, 0x0B, 0x0C. *)
Definition misrouted : list concrete := [
  flex_text_named 1 0x0A "AccompanyingPerformerName";
  flex_text_named 1 0x0B "RecordingDate";
  flex_text_named 1 0x0C "RecordingLocation" ].

(** The type's name. *)
Definition type_name (c : concrete) : string :=
  match c with
  | CFixed m => m_name m
  | CSysex7 => "sysex7::Sysex7"
  | CSysex8 => "sysex8::Sysex8"
  | CFlexText k => "flex_data::" ++ fk_name k
  | CStreamText k => "ump_stream::" ++ sk_name k
  end.

(** The MIDI 1.0 message that starts with status byte [s]. *)
Definition midi1_type (s : N) : option string :=
  if s <? 0x80 then None
  else if s <? 0x90 then Some "channel_voice1::NoteOff"
  else if s <? 0xA0 then Some "channel_voice1::NoteOn"
  else if s <? 0xB0 then Some "channel_voice1::KeyPressure"
  else if s <? 0xC0 then Some "channel_voice1::ControlChange"
  else if s <? 0xD0 then Some "channel_voice1::ProgramChange"
  else if s <? 0xE0 then Some "channel_voice1::ChannelPressure"
  else if s <? 0xF0 then Some "channel_voice1::PitchBend"
  else match s with
  | 0xF0 => Some "sysex7::Sysex7"
  | 0xF1 => Some "system_common::TimeCode"
  | 0xF2 => Some "system_common::SongPositionPointer"
  | 0xF3 => Some "system_common::SongSelect"
  | 0xF6 => Some "system_common::TuneRequest"
  | 0xF8 => Some "system_common::TimingClock"
  | 0xFA => Some "system_common::Start"
  | 0xFB => Some "system_common::Continue"
  | 0xFC => Some "system_common::Stop"
  | 0xFE => Some "system_common::ActiveSensing"
  | 0xFF => Some "system_common::Reset"
  | _ => None               (* 0xF4, 0xF5, 0xF9, 0xFD undefined; 0xF7 ends a message *)
  end.

(** Where the group is stored: bits 24 to 27 of the first word of every packet
    of the slice. *)
Definition group_places (f : family) (b : list N) : list seg :=
  map (fun p => Seg (match f with FlexData => 4 | ChannelVoice2 => 2 | _ => 1 end * p) 24 4)
      (seq 0 (List.length b)).
(** ... and the channel. *)
Definition channel_place (u : unit_id) : seg :=
  match u with U8 => Seg 0 0 4 | U32 => Seg 0 16 4 end.

(** Bytes a MIDI 1.0 message needs after its status byte [s]: what the type's
    minimum size says; a system exclusive message needs its end. *)
Definition enough (c : concrete) (t : list N) : Prop :=
  match c with CFixed m => (min_size U8 m <= S (List.length t))%nat | _ => In 0xF7 t end.
