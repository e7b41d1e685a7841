(** SPECIFICATION.  Where every field of every fixed-size message lives on the
    wire and what its bits mean, written from the MIDI 1.0 / UMP message formats
    (word 0 first, bit 31 most significant; bytes: bit 7 most significant),
    independently of the model's shifts, masks and tables.  Only the value
    types are shared with the model. *)
From Coq Require Import NArith List String Bool.
From Verif Require Import Base Values.
Import ListNotations.
Local Open Scope string_scope.
Local Open Scope N_scope.
Local Open Scope list_scope.

(** [Seg w lo n]: the [n] bits of unit [w] from bit [lo] upwards. *)
Record seg := Seg { sg_w : nat; sg_lo : N; sg_n : N }.

(** The number held by a segment. *)
Definition bits (b : list N) (s : seg) : N :=
  (nth (sg_w s) b 0 / 2 ^ sg_lo s) mod 2 ^ sg_n s.

Definition in_seg (s : seg) (w : nat) (j : N) : Prop :=
  w = sg_w s /\ sg_lo s <= j < sg_lo s + sg_n s.

(** Buffer [b'] differs from [b] at most in the bits of [segs]. *)
Definition only_changes (segs : list seg) (b b' : list N) : Prop :=
  List.length b' = List.length b /\
  forall w j, (forall s, In s segs -> ~ in_seg s w j) ->
    N.testbit (nth w b' 0) j = N.testbit (nth w b 0) j.

(** Enumerated field kinds and their assigned codes. *)
Inductive kind :=
| KTonic | KKeySF | KChordSF | KChordType | KAlteration | KUiHint | KPort | KDirection.

Definition degrees : list N := [0; 1; 2; 3; 4; 5; 6; 7; 8; 9; 10; 11; 12; 13; 14; 15].

Definition codes (k : kind) : list (N * value) :=
  match k with
  | KTonic => map (fun p => (fst p, VTonic (snd p)))
      [ (0, TNonStandard); (1, TA); (2, TB); (3, TC); (4, TD); (5, TE); (6, TF); (7, TG) ]
  | KKeySF =>                    (* four-bit two's complement, -8 = non standard *)
      map (fun n => (n, VKeySF (Sharps n))) [0; 1; 2; 3; 4; 5; 6; 7]
      ++ [(8, VKeySF KNonStandard)]
      ++ map (fun n => (16 - n, VKeySF (Flats n))) [1; 2; 3; 4; 5; 6; 7]
  | KChordSF => map (fun p => (fst p, VChordSF (snd p)))
      [ (0, Natural); (1, Sharp); (2, DoubleSharp); (15, Flat); (14, DoubleFlat) ]
  | KChordType => map (fun p => (fst p, VChordType (snd p)))
      [ (0x00, ClearChord); (0x01, Major); (0x02, Major6th); (0x03, Major7th);
        (0x04, Major9th); (0x05, Major11th); (0x06, Major13th); (0x07, Minor);
        (0x08, Minor6th); (0x09, Minor7th); (0x0A, Minor9th); (0x0B, Minor11th);
        (0x0C, Minor13th); (0x0D, Dominant); (0x0E, Dominant9th); (0x0F, Dominant11th);
        (0x10, Dominant13th); (0x11, Augmented); (0x12, Augmented7th); (0x13, Diminished);
        (0x14, Diminished7th); (0x15, HalfDiminished); (0x16, MajorMinor); (0x17, Pedal);
        (0x18, Power); (0x19, Suspended2nd); (0x1A, Suspended4th) ]
  | KAlteration =>               (* high nibble: operation, low nibble: degree *)
      map (fun d => (d, VAlt None)) degrees
      ++ map (fun d => (0x10 + d, VAlt (Some (Add d)))) degrees
      ++ map (fun d => (0x20 + d, VAlt (Some (Subtract d)))) degrees
      ++ map (fun d => (0x30 + d, VAlt (Some (Raise d)))) degrees
      ++ map (fun d => (0x40 + d, VAlt (Some (Lower d)))) degrees
  | KUiHint => map (fun p => (fst p, VUiHint (snd p)))
      [ (0, Undeclared); (1, Receiver); (2, Sender); (3, SenderReciever) ]
  | KPort => map (fun p => (fst p, VPort (snd p)))
      [ (0, None); (1, Some DontRestrictBandwidth); (2, Some RestrictBandwidth) ]
  | KDirection => map (fun p => (fst p, VDir (snd p)))
      [ (1, Input); (2, Output); (3, Bidirectional) ]
  end.

(** The value type of an enumeration. *)
Definition kind_ty (k : kind) : ty :=
  match k with
  | KTonic => TyTonic | KKeySF => TyKeySF | KChordSF => TyChordSF | KChordType => TyChordType
  | KAlteration => TyAlt | KUiHint => TyUiHint | KPort => TyPort | KDirection => TyDir
  end.

Fixpoint assoc {A} (n : N) (l : list (N * A)) : option A :=
  match l with
  | [] => None
  | (k, a) :: t => if n =? k then Some a else assoc n t
  end.

(** Registered per-note controllers (MIDI 2.0 RPNC numbers): the meaning of an
    index byte, given the 32 data bits. *)
Definition rpnc (d : N) : list (N * controller) :=
  [ (1, Modulation d); (2, Breath d); (3, Pitch7_25 d); (7, Volume d); (8, Balance d);
    (10, Pan d); (11, Expression d);
    (70, SoundController 1 d); (71, SoundController 2 d); (72, SoundController 3 d);
    (73, SoundController 4 d); (74, SoundController 5 d); (75, SoundController 6 d);
    (76, SoundController 7 d); (77, SoundController 8 d); (78, SoundController 9 d);
    (79, SoundController 10 d);
    (91, EffectDepth 1 d); (92, EffectDepth 2 d); (93, EffectDepth 3 d);
    (94, EffectDepth 4 d); (95, EffectDepth 5 d) ].

(** How a field is represented. *)
Inductive wire :=
| Number (s : seg)                 (* unsigned integer *)
| Flag (s : seg)                   (* one bit *)
| Septets (lsb msb : seg)          (* 14-bit number in two 7-bit groups *)
| Array (l : list seg)             (* array of small numbers *)
| Code (s : seg) (k : kind)        (* enumerated *)
| Attribute (ty data : seg)        (* type byte selects the meaning of the data *)
| Controller (index data : seg)
| Guarded (valid lsb msb : seg)    (* optional 14-bit number with a validity flag *)
| OptChannel (addr chan : seg)     (* address 0: the channel; otherwise the whole group *)
| GroupAddress (addr chan : seg)   (* address must not select a channel *)
| Fixed (s : seg) (c : N)          (* a constant of the message type *)
| Absent (v : value).              (* not represented; reads as a constant *)

(** The value of a field in a buffer; [None] when the bits have no meaning. *)
Definition decode (w : wire) (b : list N) : option value :=
  match w with
  | Number s => Some (VNum (bits b s))
  | Flag s => Some (VBool (bits b s =? 1))
  | Septets l h => Some (VNum (bits b l + 128 * bits b h))
  | Array l => Some (VNums (map (bits b) l))
  | Code s k => assoc (bits b s) (codes k)
  | Attribute t d =>
      assoc (bits b t)
        [ (0, VAttr None);
          (1, VAttr (Some (ManufacturerSpecific (bits b d))));
          (2, VAttr (Some (ProfileSpecific (bits b d))));
          (3, VAttr (Some (Pitch7_9 (bits b d)))) ]
  | Controller i d => option_map VCtl (assoc (bits b i) (rpnc (bits b d)))
  | Guarded v l h =>
      Some (VOptNum (if bits b v =? 1 then Some (bits b l + 128 * bits b h) else None))
  | OptChannel a c =>
      Some (VOptNum (if bits b a =? 0 then Some (bits b c) else None))
  | GroupAddress a _ => if bits b a =? 0 then None else Some VUnit
  | Fixed s c => if bits b s =? c then Some VUnit else None
  | Absent v => Some v
  end.

(** The bits a field owns.  A guarded number owns its whole data bytes. *)
Definition occupies (w : wire) : list seg :=
  match w with
  | Number s | Flag s | Code s _ | Fixed s _ => [s]
  | Septets l h => [l; h]
  | Array l => l
  | Attribute t d => [t; d]
  | Controller i d => [i; d]
  | Guarded v l h => [v; Seg (sg_w l) (sg_lo l) 8; Seg (sg_w h) (sg_lo h) 8]
  | OptChannel a c | GroupAddress a c => [a; c]
  | Absent _ => []
  end.

(** Fields that have a getter and a setter (the others are of type [()]; the
    group of a byte-stream message does not exist). *)
Definition settable (w : wire) : bool :=
  match w with Fixed _ _ | GroupAddress _ _ | Absent _ => false | _ => true end.

(** ** The layout table *)

Definition num (w : nat) (lo n : N) : wire := Number (Seg w lo n).
Definition flag (w : nat) (lo : N) : wire := Flag (Seg w lo 1).
Definition fixed (w : nat) (lo n c : N) : wire := Fixed (Seg w lo n) c.
Definition sept (w1 : nat) (lo1 : N) (w2 : nat) (lo2 : N) : wire :=
  Septets (Seg w1 lo1 7) (Seg w2 lo2 7).
Definition code (w : nat) (lo n : N) (k : kind) : wire := Code (Seg w lo n) k.

Definition fields := list (string * wire).

(** Utility: |type 4|group 4|status 4|...| *)
Definition utility (s : N) : fields :=
  [ ("ump_type", fixed 0 28 4 0); ("status", fixed 0 20 4 s) ].
(** System common and real time: |1|group|status 8|data1 8|data2 8| *)
Definition system (s : N) : fields :=
  [ ("ump_type", fixed 0 28 4 1); ("status", fixed 0 16 8 s); ("group", num 0 24 4) ].
Definition system_bytes (s : N) : fields :=
  [ ("ump_type", Absent VUnit); ("status", fixed 0 0 8 s); ("group", Absent (VNum 0)) ].
(** MIDI 1.0 channel voice: |2|group|status|channel|data1 8|data2 8| *)
Definition voice1 (s : N) : fields :=
  [ ("ump_type", fixed 0 28 4 2); ("status", fixed 0 20 4 s);
    ("channel", num 0 16 4); ("group", num 0 24 4) ].
Definition voice1_bytes (s : N) : fields :=
  [ ("ump_type", Absent VUnit); ("status", fixed 0 4 4 s);
    ("channel", num 0 0 4); ("group", Absent (VNum 0)) ].
(** MIDI 2.0 channel voice: |4|group|status|channel|index 16| data 32 | *)
Definition voice2 (s : N) : fields :=
  [ ("ump_type", fixed 0 28 4 4); ("status", fixed 0 20 4 s);
    ("channel", num 0 16 4); ("group", num 0 24 4) ].
(** Flex data: |D|group|format 2|address 2|channel|bank 8|status 8| data 96 | *)
Definition flex_group (s : N) : fields :=
  [ ("ump_type", fixed 0 28 4 0xD); ("group", num 0 24 4); ("format", fixed 0 22 2 0);
    ("bank", fixed 0 8 8 0); ("status", fixed 0 0 8 s);
    ("no_channel", GroupAddress (Seg 0 20 2) (Seg 0 16 4)) ].
Definition flex_channel (s : N) : fields :=
  [ ("ump_type", fixed 0 28 4 0xD); ("group", num 0 24 4);
    ("optional_channel", OptChannel (Seg 0 20 2) (Seg 0 16 4));
    ("format", fixed 0 22 2 0); ("bank", fixed 0 8 8 0); ("status", fixed 0 0 8 s) ].
(** UMP stream: |F|format 2|status 10|data 16| data 96 | *)
Definition stream (s : N) : fields :=
  [ ("ump_type", fixed 0 28 4 0xF); ("status", fixed 0 16 10 s);
    ("consistent_formats", fixed 0 26 2 0) ].

Definition layout_ump : list (string * fields) := [
  ("utility::NoOp", utility 0 ++ [("time_data", num 0 0 16)]);
  ("utility::Clock", utility 1 ++ [("time_data", num 0 0 16)]);
  ("utility::Timestamp", utility 2 ++ [("time_data", num 0 0 16)]);
  ("utility::DeltaClockstampTpq", utility 3 ++ [("time_data", num 0 0 16)]);
  ("utility::DeltaClockstamp", utility 4 ++ [("time_data", num 0 0 20)]);

  ("system_common::TimeCode", system 0xF1 ++ [("time_code", num 0 8 7)]);
  ("system_common::SongPositionPointer", system 0xF2 ++ [("position", sept 0 8 0 0)]);
  ("system_common::SongSelect", system 0xF3 ++ [("song", num 0 8 7)]);
  ("system_common::TuneRequest", system 0xF6);
  ("system_common::TimingClock", system 0xF8);
  ("system_common::Start", system 0xFA);
  ("system_common::Continue", system 0xFB);
  ("system_common::Stop", system 0xFC);
  ("system_common::ActiveSensing", system 0xFE);
  ("system_common::Reset", system 0xFF);

  ("channel_voice1::NoteOff", voice1 8 ++ [("note_number", num 0 8 7); ("velocity", num 0 0 7)]);
  ("channel_voice1::NoteOn", voice1 9 ++ [("note_number", num 0 8 7); ("velocity", num 0 0 7)]);
  ("channel_voice1::KeyPressure",
     voice1 10 ++ [("note_number", num 0 8 7); ("pressure", num 0 0 7)]);
  ("channel_voice1::ControlChange",
     voice1 11 ++ [("control", num 0 8 7); ("control_data", num 0 0 7)]);
  ("channel_voice1::ProgramChange", voice1 12 ++ [("program", num 0 8 7)]);
  ("channel_voice1::ChannelPressure", voice1 13 ++ [("pressure", num 0 8 7)]);
  ("channel_voice1::PitchBend", voice1 14 ++ [("bend", sept 0 8 0 0)]);

  ("channel_voice2::RegisteredPerNoteController",
     voice2 0 ++ [("note_number", num 0 8 7);
                  ("controller", Controller (Seg 0 0 8) (Seg 1 0 32))]);
  ("channel_voice2::AssignablePerNoteController",
     voice2 1 ++ [("note_number", num 0 8 7); ("index", num 0 0 8);
                  ("controller_data", num 1 0 32)]);
  ("channel_voice2::RegisteredController",
     voice2 2 ++ [("bank", num 0 8 7); ("index", num 0 0 7); ("controller_data", num 1 0 32)]);
  ("channel_voice2::AssignableController",
     voice2 3 ++ [("bank", num 0 8 7); ("index", num 0 0 7); ("controller_data", num 1 0 32)]);
  ("channel_voice2::RelativeRegisteredController",
     voice2 4 ++ [("bank", num 0 8 7); ("index", num 0 0 7); ("controller_data", num 1 0 32)]);
  ("channel_voice2::RelativeAssignableController",
     voice2 5 ++ [("bank", num 0 8 7); ("index", num 0 0 7); ("controller_data", num 1 0 32)]);
  ("channel_voice2::PerNotePitchBend",
     voice2 6 ++ [("note_number", num 0 8 7); ("pitch_bend_data", num 1 0 32)]);
  ("channel_voice2::NoteOff",
     voice2 8 ++ [("note_number", num 0 8 7); ("velocity", num 1 16 16);
                  ("attribute", Attribute (Seg 0 0 8) (Seg 1 0 16))]);
  ("channel_voice2::NoteOn",
     voice2 9 ++ [("note_number", num 0 8 7); ("velocity", num 1 16 16);
                  ("attribute", Attribute (Seg 0 0 8) (Seg 1 0 16))]);
  ("channel_voice2::KeyPressure",
     voice2 10 ++ [("note_number", num 0 8 7); ("key_pressure_data", num 1 0 32)]);
  ("channel_voice2::ControlChange",
     voice2 11 ++ [("control", num 0 8 7); ("control_change_data", num 1 0 32)]);
  ("channel_voice2::ProgramChange",
     voice2 12 ++ [("program", num 1 24 7);
                   ("bank", Guarded (Seg 0 0 1) (Seg 1 8 7) (Seg 1 0 7))]);
  ("channel_voice2::ChannelPressure",
     voice2 13 ++ [("bank", num 0 8 7); ("index", num 0 0 7);
                   ("channel_pressure_data", num 1 0 32)]);
  ("channel_voice2::ChannelPitchBend", voice2 14 ++ [("pitch_bend_data", num 1 0 32)]);
  ("channel_voice2::PerNoteManagement",
     voice2 15 ++ [("note_number", num 0 8 7); ("detach", flag 0 0); ("reset", flag 0 1)]);

  ("flex_data::SetTempo",
     flex_group 0 ++ [("number_of_10_nanosecond_units_per_quarter_note", num 1 0 32)]);
  ("flex_data::SetTimeSignature",
     flex_group 1 ++ [("numerator", num 1 24 8); ("denominator", num 1 16 8);
                      ("number_of_32nd_notes", num 1 8 8)]);
  ("flex_data::SetMetronome",
     flex_group 2 ++ [("number_of_clocks_per_primary_click", num 1 24 8);
                      ("bar_accent1", num 1 16 8); ("bar_accent2", num 1 8 8);
                      ("bar_accent3", num 1 0 8);
                      ("number_of_subdivision_clicks1", num 2 24 8);
                      ("number_of_subdivision_clicks2", num 2 16 8)]);
  ("flex_data::SetKeySignature",
     flex_channel 5 ++ [("tonic", code 1 24 4 KTonic); ("sharps_flats", code 1 28 4 KKeySF)]);
  ("flex_data::SetChordName",
     flex_channel 6 ++ [("tonic_sharps_flats", code 1 28 4 KChordSF);
                        ("tonic", code 1 24 4 KTonic);
                        ("chord_type", code 1 16 8 KChordType);
                        ("chord_alteration1", code 1 8 8 KAlteration);
                        ("chord_alteration2", code 1 0 8 KAlteration);
                        ("chord_alteration3", code 2 24 8 KAlteration);
                        ("chord_alteration4", code 2 16 8 KAlteration);
                        ("bass_sharps_flats", code 3 28 4 KChordSF);
                        ("bass_note", code 3 24 4 KTonic);
                        ("bass_chord_type", code 3 16 8 KChordType);
                        ("bass_alteration1", code 3 8 8 KAlteration);
                        ("bass_alteration2", code 3 0 8 KAlteration)]);

  ("ump_stream::EndpointDiscovery",
     stream 0 ++ [("ump_version_major", num 0 8 8); ("ump_version_minor", num 0 0 8);
                  ("request_endpoint_info", flag 1 0); ("request_device_identity", flag 1 1);
                  ("request_endpoint_name", flag 1 2);
                  ("request_product_instance_id", flag 1 3);
                  ("request_stream_configuration", flag 1 4)]);
  ("ump_stream::EndpointInfo",
     stream 1 ++ [("ump_version_major", num 0 8 8); ("ump_version_minor", num 0 0 8);
                  ("static_function_blocks", flag 1 31);
                  ("supports_midi2_protocol", flag 1 9);
                  ("supports_midi1_protocol", flag 1 8);
                  ("supports_receiving_jr_timestamps", flag 1 1);
                  ("supports_sending_jr_timestamps", flag 1 0);
                  ("number_of_function_blocks", num 1 24 7)]);
  ("ump_stream::DeviceIdentity",
     stream 2 ++ [("device_manufacturer", Array [Seg 1 16 7; Seg 1 8 7; Seg 1 0 7]);
                  ("device_family", sept 2 24 2 16);
                  ("device_family_model_number", sept 2 8 2 0);
                  ("software_version", Array [Seg 3 24 7; Seg 3 16 7; Seg 3 8 7; Seg 3 0 7])]);
  ("ump_stream::StreamConfigurationRequest",
     stream 5 ++ [("protocol", num 0 8 8); ("receive_jr_timestamps", flag 0 1);
                  ("send_jr_timestamps", flag 0 0)]);
  ("ump_stream::StreamConfigurationNotification",
     stream 6 ++ [("protocol", num 0 8 8); ("receive_jr_timestamps", flag 0 1);
                  ("send_jr_timestamps", flag 0 0)]);
  ("ump_stream::FunctionBlockDiscovery",
     stream 0x10 ++ [("function_block_number", num 0 8 8);
                     ("requesting_function_block_info", flag 0 1);
                     ("requesting_function_block_name", flag 0 0)]);
  ("ump_stream::FunctionBlockInfo",
     stream 0x11 ++ [("active", flag 0 15); ("function_block_number", num 0 8 7);
                     ("first_group", num 1 24 4); ("number_of_groups_spanned", num 1 16 8);
                     ("midi_ci_version", num 1 8 8);
                     ("max_number_of_midi_ci_streams", num 1 0 8);
                     ("ui_hint", code 0 4 2 KUiHint); ("midi1_port", code 0 2 2 KPort);
                     ("direction", code 0 0 2 KDirection)]);
  ("ump_stream::StartOfClip", stream 0x20);
  ("ump_stream::EndOfClip", stream 0x21) ].

(** The MIDI 1.0 byte stream forms. *)
Definition layout_bytes : list (string * fields) := [
  ("system_common::TimeCode", system_bytes 0xF1 ++ [("time_code", num 1 0 7)]);
  ("system_common::SongPositionPointer", system_bytes 0xF2 ++ [("position", sept 1 0 2 0)]);
  ("system_common::SongSelect", system_bytes 0xF3 ++ [("song", num 1 0 7)]);
  ("system_common::TuneRequest", system_bytes 0xF6);
  ("system_common::TimingClock", system_bytes 0xF8);
  ("system_common::Start", system_bytes 0xFA);
  ("system_common::Continue", system_bytes 0xFB);
  ("system_common::Stop", system_bytes 0xFC);
  ("system_common::ActiveSensing", system_bytes 0xFE);
  ("system_common::Reset", system_bytes 0xFF);
  ("channel_voice1::NoteOff",
     voice1_bytes 8 ++ [("note_number", num 1 0 7); ("velocity", num 2 0 7)]);
  ("channel_voice1::NoteOn",
     voice1_bytes 9 ++ [("note_number", num 1 0 7); ("velocity", num 2 0 7)]);
  ("channel_voice1::KeyPressure",
     voice1_bytes 10 ++ [("note_number", num 1 0 7); ("pressure", num 2 0 7)]);
  ("channel_voice1::ControlChange",
     voice1_bytes 11 ++ [("control", num 1 0 7); ("control_data", num 2 0 7)]);
  ("channel_voice1::ProgramChange", voice1_bytes 12 ++ [("program", num 1 0 7)]);
  ("channel_voice1::ChannelPressure", voice1_bytes 13 ++ [("pressure", num 1 0 7)]);
  ("channel_voice1::PitchBend", voice1_bytes 14 ++ [("bend", sept 1 0 2 0)]) ].

Fixpoint find_fields (name : string) (l : list (string * fields)) : fields :=
  match l with
  | [] => []
  | (n, f) :: t => if String.eqb name n then f else find_fields name t
  end.

(** The layout of message [name] over buffers of unit [u]. *)
Definition layout (u : unit_id) (name : string) : fields :=
  find_fields name (match u with U32 => layout_ump | U8 => layout_bytes end).

(** Values that have a wire code and are written under it.  [Flats 0] has no
    code of its own; of the per-note controllers, each index has one spelling
    that the getter returns, and [EffectDepth 5] cannot be written. *)
Definition representable (v : value) : bool :=
  match v with
  | VKeySF (Flats n) => negb (n =? 0)
  | VCtl (SoundController i _) => (1 <=? i) && (i <=? 10)
  | VCtl (EffectDepth i _) => (1 <=? i) && (i <=? 4)
  | VCtl (Modulation _ | Breath _ | Pitch7_25 _ | Volume _ | Balance _ | Pan _ | Expression _) =>
      true
  | VCtl _ => false
  | _ => true
  end.

(** The number of units of a message: 32-bit words by UMP message type, bytes
    by MIDI 1.0 status. *)
Definition units_ump (name : string) : nat :=
  if String.prefix "channel_voice2::" name then 2%nat
  else if String.prefix "flex_data::" name || String.prefix "ump_stream::" name then 4%nat
  else 1%nat.

Definition units_bytes : list (string * nat) := [
  ("system_common::TimeCode", 2%nat); ("system_common::SongPositionPointer", 3%nat);
  ("system_common::SongSelect", 2%nat); ("system_common::TuneRequest", 1%nat);
  ("system_common::TimingClock", 1%nat); ("system_common::Start", 1%nat);
  ("system_common::Continue", 1%nat); ("system_common::Stop", 1%nat);
  ("system_common::ActiveSensing", 1%nat); ("system_common::Reset", 1%nat);
  ("channel_voice1::NoteOff", 3%nat); ("channel_voice1::NoteOn", 3%nat);
  ("channel_voice1::KeyPressure", 3%nat); ("channel_voice1::ControlChange", 3%nat);
  ("channel_voice1::ProgramChange", 2%nat); ("channel_voice1::ChannelPressure", 2%nat);
  ("channel_voice1::PitchBend", 3%nat) ].

Definition units (u : unit_id) (name : string) : nat :=
  match u with
  | U32 => units_ump name
  | U8 => match find (fun p => String.eqb name (fst p)) units_bytes with
          | Some p => snd p
          | None => 0%nat
          end
  end.
