(** The fixed-size messages of the crate: one [message] per struct annotated
    with [generate_message(.., FixedSize, ..)] in midi2/src.  Field order,
    property types and schema masks are copied from the source. *)
From Coq Require Import NArith List String Bool.
From Verif Require Import Base Values Schema Props Message.
Import ListNotations.
Local Open Scope string_scope.
Local Open Scope N_scope.
Local Open Scope list_scope.

(** utility.rs 5-13 *)
Definition util_no_op : message := {|
  m_name := "utility::NoOp"; m_min_ump := 1%nat; m_min_bytes := None;
  m_fields := [
    ("ump_type", PUmpType 0x0);
    ("status", PCvStatus 0x0);
    ("time_data", PTime16) ] |}.

(** utility.rs 19-27 *)
Definition util_clock : message := {|
  m_name := "utility::Clock"; m_min_ump := 1%nat; m_min_bytes := None;
  m_fields := [
    ("ump_type", PUmpType 0x0);
    ("status", PCvStatus 0x1);
    ("time_data", PTime16) ] |}.

(** utility.rs 33-41 *)
Definition util_timestamp : message := {|
  m_name := "utility::Timestamp"; m_min_ump := 1%nat; m_min_bytes := None;
  m_fields := [
    ("ump_type", PUmpType 0x0);
    ("status", PCvStatus 0x2);
    ("time_data", PTime16) ] |}.

(** utility.rs 102-110 *)
Definition util_delta_clockstamp : message := {|
  m_name := "utility::DeltaClockstamp"; m_min_ump := 1%nat; m_min_bytes := None;
  m_fields := [
    ("ump_type", PUmpType 0x0);
    ("status", PCvStatus 0x4);
    ("time_data", PTime20) ] |}.

(** utility.rs 146-154 *)
Definition util_delta_clockstamp_tpq : message := {|
  m_name := "utility::DeltaClockstampTpq"; m_min_ump := 1%nat; m_min_bytes := None;
  m_fields := [
    ("ump_type", PUmpType 0x0);
    ("status", PCvStatus 0x3);
    ("time_data", PTime16) ] |}.

(** system_common.rs 19-32 *)
Definition sys_tune_request : message := {|
  m_name := "system_common::TuneRequest"; m_min_ump := 1%nat; m_min_bytes := Some 2%nat;
  m_fields := [
    ("ump_type", PUmpType 0x1);
    ("status", PSysStatus 0xF6);
    ("group", PUmp SU4 (0x0F000000, 0, 0, 0)) ] |}.

(** system_common.rs 43-56 *)
Definition sys_timing_clock : message := {|
  m_name := "system_common::TimingClock"; m_min_ump := 1%nat; m_min_bytes := Some 1%nat;
  m_fields := [
    ("ump_type", PUmpType 0x1);
    ("status", PSysStatus 0xF8);
    ("group", PUmp SU4 (0x0F000000, 0, 0, 0)) ] |}.

(** system_common.rs 67-80 *)
Definition sys_start : message := {|
  m_name := "system_common::Start"; m_min_ump := 1%nat; m_min_bytes := Some 1%nat;
  m_fields := [
    ("ump_type", PUmpType 0x1);
    ("status", PSysStatus 0xFA);
    ("group", PUmp SU4 (0x0F000000, 0, 0, 0)) ] |}.

(** system_common.rs 91-104 *)
Definition sys_continue : message := {|
  m_name := "system_common::Continue"; m_min_ump := 1%nat; m_min_bytes := Some 1%nat;
  m_fields := [
    ("ump_type", PUmpType 0x1);
    ("status", PSysStatus 0xFB);
    ("group", PUmp SU4 (0x0F000000, 0, 0, 0)) ] |}.

(** system_common.rs 115-128 *)
Definition sys_stop : message := {|
  m_name := "system_common::Stop"; m_min_ump := 1%nat; m_min_bytes := Some 1%nat;
  m_fields := [
    ("ump_type", PUmpType 0x1);
    ("status", PSysStatus 0xFC);
    ("group", PUmp SU4 (0x0F000000, 0, 0, 0)) ] |}.

(** system_common.rs 139-152 *)
Definition sys_active_sensing : message := {|
  m_name := "system_common::ActiveSensing"; m_min_ump := 1%nat; m_min_bytes := Some 1%nat;
  m_fields := [
    ("ump_type", PUmpType 0x1);
    ("status", PSysStatus 0xFE);
    ("group", PUmp SU4 (0x0F000000, 0, 0, 0)) ] |}.

(** system_common.rs 163-176 *)
Definition sys_reset : message := {|
  m_name := "system_common::Reset"; m_min_ump := 1%nat; m_min_bytes := Some 1%nat;
  m_fields := [
    ("ump_type", PUmpType 0x1);
    ("status", PSysStatus 0xFF);
    ("group", PUmp SU4 (0x0F000000, 0, 0, 0)) ] |}.

(** system_common/song_position_pointer.rs 11-30 *)
Definition sys_song_position_pointer : message := {|
  m_name := "system_common::SongPositionPointer"; m_min_ump := 1%nat; m_min_bytes := Some 2%nat;
  m_fields := [
    ("ump_type", PUmpType 0x1);
    ("status", PSysStatus 0xF2);
    ("group", PUmp SU4 (0x0F000000, 0, 0, 0));
    ("position", PHybrid SU14 (0, 0x7F, 0x7F) (0x7F7F, 0, 0, 0)) ] |}.

(** system_common/song_select.rs 11-30 *)
Definition sys_song_select : message := {|
  m_name := "system_common::SongSelect"; m_min_ump := 1%nat; m_min_bytes := Some 2%nat;
  m_fields := [
    ("ump_type", PUmpType 0x1);
    ("status", PSysStatus 0xF3);
    ("group", PUmp SU4 (0x0F000000, 0, 0, 0));
    ("song", PHybrid SU7 (0, 0x7F, 0) (0x7F00, 0, 0, 0)) ] |}.

(** system_common/time_code.rs 11-30 *)
Definition sys_time_code : message := {|
  m_name := "system_common::TimeCode"; m_min_ump := 1%nat; m_min_bytes := Some 3%nat;
  m_fields := [
    ("ump_type", PUmpType 0x1);
    ("status", PSysStatus 0xF1);
    ("group", PUmp SU4 (0x0F000000, 0, 0, 0));
    ("time_code", PHybrid SU7 (0, 0x7F, 0) (0x7F00, 0, 0, 0)) ] |}.

(** channel_voice1/channel_pressure.rs 11-32 *)
Definition cv1_channel_pressure : message := {|
  m_name := "channel_voice1::ChannelPressure"; m_min_ump := 1%nat; m_min_bytes := Some 2%nat;
  m_fields := [
    ("ump_type", PUmpType 0x2);
    ("status", PCvStatus 0xD);
    ("channel", PHybrid SU4 (0x0F, 0, 0) (0x000F0000, 0, 0, 0));
    ("group", PUmp SU4 (0x0F000000, 0, 0, 0));
    ("pressure", PHybrid SU7 (0, 0x7F, 0) (0x7F00, 0, 0, 0)) ] |}.

(** channel_voice1/control_change.rs 11-38 *)
Definition cv1_control_change : message := {|
  m_name := "channel_voice1::ControlChange"; m_min_ump := 1%nat; m_min_bytes := Some 3%nat;
  m_fields := [
    ("ump_type", PUmpType 0x2);
    ("status", PCvStatus 0xB);
    ("channel", PHybrid SU4 (0x0F, 0, 0) (0x000F0000, 0, 0, 0));
    ("group", PUmp SU4 (0x0F000000, 0, 0, 0));
    ("control", PHybrid SU7 (0, 0x7F, 0) (0x7F00, 0, 0, 0));
    ("control_data", PHybrid SU7 (0, 0, 0x7F) (0x7F, 0, 0, 0)) ] |}.

(** channel_voice1/key_pressure.rs 11-38 *)
Definition cv1_key_pressure : message := {|
  m_name := "channel_voice1::KeyPressure"; m_min_ump := 1%nat; m_min_bytes := Some 3%nat;
  m_fields := [
    ("ump_type", PUmpType 0x2);
    ("status", PCvStatus 0xA);
    ("channel", PHybrid SU4 (0x0F, 0, 0) (0x000F0000, 0, 0, 0));
    ("group", PUmp SU4 (0x0F000000, 0, 0, 0));
    ("note_number", PHybrid SU7 (0, 0x7F, 0) (0x7F00, 0, 0, 0));
    ("pressure", PHybrid SU7 (0, 0, 0x7F) (0x7F, 0, 0, 0)) ] |}.

(** channel_voice1/note_off.rs 11-38 *)
Definition cv1_note_off : message := {|
  m_name := "channel_voice1::NoteOff"; m_min_ump := 1%nat; m_min_bytes := Some 3%nat;
  m_fields := [
    ("ump_type", PUmpType 0x2);
    ("status", PCvStatus 0x8);
    ("channel", PHybrid SU4 (0x0F, 0, 0) (0x000F0000, 0, 0, 0));
    ("group", PUmp SU4 (0x0F000000, 0, 0, 0));
    ("note_number", PHybrid SU7 (0, 0x7F, 0) (0x7F00, 0, 0, 0));
    ("velocity", PHybrid SU7 (0, 0, 0x7F) (0x7F, 0, 0, 0)) ] |}.

(** channel_voice1/note_on.rs 11-38 *)
Definition cv1_note_on : message := {|
  m_name := "channel_voice1::NoteOn"; m_min_ump := 1%nat; m_min_bytes := Some 3%nat;
  m_fields := [
    ("ump_type", PUmpType 0x2);
    ("status", PCvStatus 0x9);
    ("channel", PHybrid SU4 (0x0F, 0, 0) (0x000F0000, 0, 0, 0));
    ("group", PUmp SU4 (0x0F000000, 0, 0, 0));
    ("note_number", PHybrid SU7 (0, 0x7F, 0) (0x7F00, 0, 0, 0));
    ("velocity", PHybrid SU7 (0, 0, 0x7F) (0x7F, 0, 0, 0)) ] |}.

(** channel_voice1/pitch_bend.rs 11-32 *)
Definition cv1_pitch_bend : message := {|
  m_name := "channel_voice1::PitchBend"; m_min_ump := 1%nat; m_min_bytes := Some 3%nat;
  m_fields := [
    ("ump_type", PUmpType 0x2);
    ("status", PCvStatus 0xE);
    ("channel", PHybrid SU4 (0x0F, 0, 0) (0x000F0000, 0, 0, 0));
    ("group", PUmp SU4 (0x0F000000, 0, 0, 0));
    ("bend", PHybrid SU14 (0, 0x7F, 0x7F) (0x7F7F, 0, 0, 0)) ] |}.

(** channel_voice1/program_change.rs 11-32 *)
Definition cv1_program_change : message := {|
  m_name := "channel_voice1::ProgramChange"; m_min_ump := 1%nat; m_min_bytes := Some 2%nat;
  m_fields := [
    ("ump_type", PUmpType 0x2);
    ("status", PCvStatus 0xC);
    ("channel", PHybrid SU4 (0x0F, 0, 0) (0x000F0000, 0, 0, 0));
    ("group", PUmp SU4 (0x0F000000, 0, 0, 0));
    ("program", PHybrid SU7 (0, 0x7F, 0) (0x7F00, 0, 0, 0)) ] |}.

(** channel_voice2/assignable_controller.rs 12-28 *)
Definition cv2_assignable_controller : message := {|
  m_name := "channel_voice2::AssignableController"; m_min_ump := 2%nat; m_min_bytes := None;
  m_fields := [
    ("ump_type", PUmpType 0x4);
    ("status", PCvStatus 0x3);
    ("channel", PUmp SU4 (0xF0000, 0, 0, 0));
    ("group", PUmp SU4 (0x0F000000, 0, 0, 0));
    ("bank", PUmp SU7 (0x7F00, 0, 0, 0));
    ("index", PUmp SU7 (0x7F, 0, 0, 0));
    ("controller_data", PUmp SU32 (0, 0xFFFFFFFF, 0, 0)) ] |}.

(** channel_voice2/assignable_per_note_controller.rs 12-28 *)
Definition cv2_assignable_per_note_controller : message := {|
  m_name := "channel_voice2::AssignablePerNoteController"; m_min_ump := 2%nat; m_min_bytes := 
None;
  m_fields := [
    ("ump_type", PUmpType 0x4);
    ("status", PCvStatus 0x1);
    ("channel", PUmp SU4 (0xF0000, 0, 0, 0));
    ("group", PUmp SU4 (0x0F000000, 0, 0, 0));
    ("note_number", PUmp SU7 (0x7F00, 0, 0, 0));
    ("index", PUmp SU8 (0xFF, 0, 0, 0));
    ("controller_data", PUmp SU32 (0, 0xFFFFFFFF, 0, 0)) ] |}.

(** channel_voice2/channel_pitch_bend.rs 12-24 *)
Definition cv2_channel_pitch_bend : message := {|
  m_name := "channel_voice2::ChannelPitchBend"; m_min_ump := 2%nat; m_min_bytes := None;
  m_fields := [
    ("ump_type", PUmpType 0x4);
    ("status", PCvStatus 0xE);
    ("channel", PUmp SU4 (0xF0000, 0, 0, 0));
    ("group", PUmp SU4 (0x0F000000, 0, 0, 0));
    ("pitch_bend_data", PUmp SU32 (0, 0xFFFFFFFF, 0, 0)) ] |}.

(** channel_voice2/channel_pressure.rs 12-28 *)
Definition cv2_channel_pressure : message := {|
  m_name := "channel_voice2::ChannelPressure"; m_min_ump := 2%nat; m_min_bytes := None;
  m_fields := [
    ("ump_type", PUmpType 0x4);
    ("status", PCvStatus 0xD);
    ("channel", PUmp SU4 (0xF0000, 0, 0, 0));
    ("group", PUmp SU4 (0x0F000000, 0, 0, 0));
    ("bank", PUmp SU7 (0x7F00, 0, 0, 0));
    ("index", PUmp SU7 (0x7F, 0, 0, 0));
    ("channel_pressure_data", PUmp SU32 (0, 0xFFFFFFFF, 0, 0)) ] |}.

(** channel_voice2/control_change.rs 12-26 *)
Definition cv2_control_change : message := {|
  m_name := "channel_voice2::ControlChange"; m_min_ump := 2%nat; m_min_bytes := None;
  m_fields := [
    ("ump_type", PUmpType 0x4);
    ("status", PCvStatus 0xB);
    ("channel", PUmp SU4 (0xF0000, 0, 0, 0));
    ("group", PUmp SU4 (0x0F000000, 0, 0, 0));
    ("control", PUmp SU7 (0x7F00, 0, 0, 0));
    ("control_change_data", PUmp SU32 (0, 0xFFFFFFFF, 0, 0)) ] |}.

(** channel_voice2/key_pressure.rs 12-26 *)
Definition cv2_key_pressure : message := {|
  m_name := "channel_voice2::KeyPressure"; m_min_ump := 2%nat; m_min_bytes := None;
  m_fields := [
    ("ump_type", PUmpType 0x4);
    ("status", PCvStatus 0xA);
    ("channel", PUmp SU4 (0xF0000, 0, 0, 0));
    ("group", PUmp SU4 (0x0F000000, 0, 0, 0));
    ("note_number", PUmp SU7 (0x7F00, 0, 0, 0));
    ("key_pressure_data", PUmp SU32 (0, 0xFFFFFFFF, 0, 0)) ] |}.

(** channel_voice2/note_off.rs 15-31 *)
Definition cv2_note_off : message := {|
  m_name := "channel_voice2::NoteOff"; m_min_ump := 2%nat; m_min_bytes := None;
  m_fields := [
    ("ump_type", PUmpType 0x4);
    ("status", PCvStatus 0x8);
    ("channel", PUmp SU4 (0xF0000, 0, 0, 0));
    ("group", PUmp SU4 (0x0F000000, 0, 0, 0));
    ("note_number", PUmp SU7 (0x7F00, 0, 0, 0));
    ("velocity", PUmp SU16 (0, 0xFFFF0000, 0, 0));
    ("attribute", PAttribute) ] |}.

(** channel_voice2/note_on.rs 15-31 *)
Definition cv2_note_on : message := {|
  m_name := "channel_voice2::NoteOn"; m_min_ump := 2%nat; m_min_bytes := None;
  m_fields := [
    ("ump_type", PUmpType 0x4);
    ("status", PCvStatus 0x9);
    ("channel", PUmp SU4 (0xF0000, 0, 0, 0));
    ("group", PUmp SU4 (0x0F000000, 0, 0, 0));
    ("note_number", PUmp SU7 (0x7F00, 0, 0, 0));
    ("velocity", PUmp SU16 (0, 0xFFFF0000, 0, 0));
    ("attribute", PAttribute) ] |}.

(** channel_voice2/per_note_management.rs 12-28 *)
Definition cv2_per_note_management : message := {|
  m_name := "channel_voice2::PerNoteManagement"; m_min_ump := 2%nat; m_min_bytes := None;
  m_fields := [
    ("ump_type", PUmpType 0x4);
    ("status", PCvStatus 0xF);
    ("channel", PUmp SU4 (0xF0000, 0, 0, 0));
    ("group", PUmp SU4 (0x0F000000, 0, 0, 0));
    ("note_number", PUmp SU7 (0x7F00, 0, 0, 0));
    ("detach", PUmp SBool (0x1, 0, 0, 0));
    ("reset", PUmp SBool (0x2, 0, 0, 0)) ] |}.

(** channel_voice2/per_note_pitch_bend.rs 12-26 *)
Definition cv2_per_note_pitch_bend : message := {|
  m_name := "channel_voice2::PerNotePitchBend"; m_min_ump := 2%nat; m_min_bytes := None;
  m_fields := [
    ("ump_type", PUmpType 0x4);
    ("status", PCvStatus 0x6);
    ("channel", PUmp SU4 (0xF0000, 0, 0, 0));
    ("group", PUmp SU4 (0x0F000000, 0, 0, 0));
    ("note_number", PUmp SU7 (0x7F00, 0, 0, 0));
    ("pitch_bend_data", PUmp SU32 (0, 0xFFFFFFFF, 0, 0)) ] |}.

(** channel_voice2/program_change.rs 12-26 *)
Definition cv2_program_change : message := {|
  m_name := "channel_voice2::ProgramChange"; m_min_ump := 2%nat; m_min_bytes := None;
  m_fields := [
    ("ump_type", PUmpType 0x4);
    ("status", PCvStatus 0xC);
    ("channel", PUmp SU4 (0xF0000, 0, 0, 0));
    ("group", PUmp SU4 (0x0F000000, 0, 0, 0));
    ("program", PUmp SU7 (0, 0x7F000000, 0, 0));
    ("bank", PProgramBank) ] |}.

(** channel_voice2/registered_controller.rs 12-28 *)
Definition cv2_registered_controller : message := {|
  m_name := "channel_voice2::RegisteredController"; m_min_ump := 2%nat; m_min_bytes := None;
  m_fields := [
    ("ump_type", PUmpType 0x4);
    ("status", PCvStatus 0x2);
    ("channel", PUmp SU4 (0xF0000, 0, 0, 0));
    ("group", PUmp SU4 (0x0F000000, 0, 0, 0));
    ("bank", PUmp SU7 (0x7F00, 0, 0, 0));
    ("index", PUmp SU7 (0x7F, 0, 0, 0));
    ("controller_data", PUmp SU32 (0, 0xFFFFFFFF, 0, 0)) ] |}.

(** channel_voice2/registered_per_note_controller.rs 12-26 *)
Definition cv2_registered_per_note_controller : message := {|
  m_name := "channel_voice2::RegisteredPerNoteController"; m_min_ump := 2%nat; m_min_bytes := 
None;
  m_fields := [
    ("ump_type", PUmpType 0x4);
    ("status", PCvStatus 0x0);
    ("channel", PUmp SU4 (0xF0000, 0, 0, 0));
    ("group", PUmp SU4 (0x0F000000, 0, 0, 0));
    ("note_number", PUmp SU7 (0x7F00, 0, 0, 0));
    ("controller", PController) ] |}.

(** channel_voice2/relative_assignable_controller.rs 12-28 *)
Definition cv2_relative_assignable_controller : message := {|
  m_name := "channel_voice2::RelativeAssignableController"; m_min_ump := 2%nat; m_min_bytes := 
None;
  m_fields := [
    ("ump_type", PUmpType 0x4);
    ("status", PCvStatus 0x5);
    ("channel", PUmp SU4 (0xF0000, 0, 0, 0));
    ("group", PUmp SU4 (0x0F000000, 0, 0, 0));
    ("bank", PUmp SU7 (0x7F00, 0, 0, 0));
    ("index", PUmp SU7 (0x7F, 0, 0, 0));
    ("controller_data", PUmp SU32 (0, 0xFFFFFFFF, 0, 0)) ] |}.

(** channel_voice2/relative_registered_controller.rs 12-28 *)
Definition cv2_relative_registered_controller : message := {|
  m_name := "channel_voice2::RelativeRegisteredController"; m_min_ump := 2%nat; m_min_bytes := 
None;
  m_fields := [
    ("ump_type", PUmpType 0x4);
    ("status", PCvStatus 0x4);
    ("channel", PUmp SU4 (0xF0000, 0, 0, 0));
    ("group", PUmp SU4 (0x0F000000, 0, 0, 0));
    ("bank", PUmp SU7 (0x7F00, 0, 0, 0));
    ("index", PUmp SU7 (0x7F, 0, 0, 0));
    ("controller_data", PUmp SU32 (0, 0xFFFFFFFF, 0, 0)) ] |}.

(** flex_data/set_chord_name.rs 12-50 *)
Definition flex_set_chord_name : message := {|
  m_name := "flex_data::SetChordName"; m_min_ump := 4%nat; m_min_bytes := None;
  m_fields := [
    ("ump_type", PUmpType 0xD);
    ("group", PUmp SU4 (0x0F000000, 0, 0, 0));
    ("optional_channel", POptChannel);
    ("format", PFlexFormat 0);
    ("bank", PFlexBank 0);
    ("status", PFlexStatus 0x6);
    ("tonic_sharps_flats", PChordSF (0, 0xF0000000, 0, 0));
    ("tonic", PTonic (0, 0xF000000, 0, 0));
    ("chord_type", PChordType (0, 0xFF0000, 0, 0));
    ("chord_alteration1", PAlteration (0, 0xFF00, 0, 0));
    ("chord_alteration2", PAlteration (0, 0xFF, 0, 0));
    ("chord_alteration3", PAlteration (0, 0, 0xFF000000, 0));
    ("chord_alteration4", PAlteration (0, 0, 0xFF0000, 0));
    ("bass_sharps_flats", PChordSF (0, 0, 0, 0xF0000000));
    ("bass_note", PTonic (0, 0, 0, 0xF000000));
    ("bass_chord_type", PChordType (0, 0, 0, 0xFF0000));
    ("bass_alteration1", PAlteration (0, 0, 0, 0xFF00));
    ("bass_alteration2", PAlteration (0, 0, 0, 0xFF)) ] |}.

(** flex_data/set_key_signature.rs 12-30 *)
Definition flex_set_key_signature : message := {|
  m_name := "flex_data::SetKeySignature"; m_min_ump := 4%nat; m_min_bytes := None;
  m_fields := [
    ("ump_type", PUmpType 0xD);
    ("group", PUmp SU4 (0x0F000000, 0, 0, 0));
    ("optional_channel", POptChannel);
    ("format", PFlexFormat 0);
    ("bank", PFlexBank 0);
    ("status", PFlexStatus 0x5);
    ("tonic", PTonic (0, 0xF000000, 0, 0));
    ("sharps_flats", PKeySF) ] |}.

(** flex_data/set_metronome.rs 11-55 *)
Definition flex_set_metronome : message := {|
  m_name := "flex_data::SetMetronome"; m_min_ump := 4%nat; m_min_bytes := None;
  m_fields := [
    ("ump_type", PUmpType 0xD);
    ("group", PUmp SU4 (0x0F000000, 0, 0, 0));
    ("format", PFlexFormat 0);
    ("bank", PFlexBank 0);
    ("status", PFlexStatus 0x2);
    ("no_channel", PNoChannel);
    ("number_of_clocks_per_primary_click", PUmp SU8 (0, 0xFF000000, 0, 0));
    ("bar_accent1", PUmp SU8 (0, 0xFF0000, 0, 0));
    ("bar_accent2", PUmp SU8 (0, 0xFF00, 0, 0));
    ("bar_accent3", PUmp SU8 (0, 0xFF, 0, 0));
    ("number_of_subdivision_clicks1", PUmp SU8 (0, 0, 0xFF000000, 0));
    ("number_of_subdivision_clicks2", PUmp SU8 (0, 0, 0xFF0000, 0)) ] |}.

(** flex_data/set_tempo.rs 11-30 *)
Definition flex_set_tempo : message := {|
  m_name := "flex_data::SetTempo"; m_min_ump := 4%nat; m_min_bytes := None;
  m_fields := [
    ("ump_type", PUmpType 0xD);
    ("group", PUmp SU4 (0x0F000000, 0, 0, 0));
    ("format", PFlexFormat 0);
    ("bank", PFlexBank 0);
    ("status", PFlexStatus 0x0);
    ("no_channel", PNoChannel);
    ("number_of_10_nanosecond_units_per_quarter_note", PUmp SU32 (0, 0xFFFFFFFF, 0, 0)) ] |}.

(** flex_data/set_time_signature.rs 11-40 *)
Definition flex_set_time_signature : message := {|
  m_name := "flex_data::SetTimeSignature"; m_min_ump := 4%nat; m_min_bytes := None;
  m_fields := [
    ("ump_type", PUmpType 0xD);
    ("group", PUmp SU4 (0x0F000000, 0, 0, 0));
    ("format", PFlexFormat 0);
    ("bank", PFlexBank 0);
    ("status", PFlexStatus 0x1);
    ("no_channel", PNoChannel);
    ("numerator", PUmp SU8 (0, 0xFF000000, 0, 0));
    ("denominator", PUmp SU8 (0, 0xFF0000, 0, 0));
    ("number_of_32nd_notes", PUmp SU8 (0, 0xFF00, 0, 0)) ] |}.

(** ump_stream/device_identity.rs 10-26 *)
Definition stream_device_identity : message := {|
  m_name := "ump_stream::DeviceIdentity"; m_min_ump := 4%nat; m_min_bytes := None;
  m_fields := [
    ("ump_type", PUmpType 0xF);
    ("status", PStreamStatus 0x2);
    ("consistent_formats", PStreamFormats);
    ("device_manufacturer", PUmp SU7x3 (0, 0x7F7F7F, 0, 0));
    ("device_family", PUmp SU14 (0, 0, 0x7F7F0000, 0));
    ("device_family_model_number", PUmp SU14 (0, 0, 0x7F7F, 0));
    ("software_version", PUmp SU7x4 (0, 0, 0, 0x7F7F7F7F)) ] |}.

(** ump_stream/end_of_clip.rs 5-13 *)
Definition stream_end_of_clip : message := {|
  m_name := "ump_stream::EndOfClip"; m_min_ump := 4%nat; m_min_bytes := None;
  m_fields := [
    ("ump_type", PUmpType 0xF);
    ("status", PStreamStatus 0x21);
    ("consistent_formats", PStreamFormats) ] |}.

(** ump_stream/endpoint_discovery.rs 9-31 *)
Definition stream_endpoint_discovery : message := {|
  m_name := "ump_stream::EndpointDiscovery"; m_min_ump := 4%nat; m_min_bytes := None;
  m_fields := [
    ("ump_type", PUmpType 0xF);
    ("status", PStreamStatus 0x0);
    ("consistent_formats", PStreamFormats);
    ("ump_version_major", PUmp SU8 (0xFF00, 0, 0, 0));
    ("ump_version_minor", PUmp SU8 (0xFF, 0, 0, 0));
    ("request_endpoint_info", PUmp SBool (0, 0x1, 0, 0));
    ("request_device_identity", PUmp SBool (0, 0x2, 0, 0));
    ("request_endpoint_name", PUmp SBool (0, 0x4, 0, 0));
    ("request_product_instance_id", PUmp SBool (0, 0x8, 0, 0));
    ("request_stream_configuration", PUmp SBool (0, 0x10, 0, 0)) ] |}.

(** ump_stream/endpoint_info.rs 10-34 *)
Definition stream_endpoint_info : message := {|
  m_name := "ump_stream::EndpointInfo"; m_min_ump := 4%nat; m_min_bytes := None;
  m_fields := [
    ("ump_type", PUmpType 0xF);
    ("status", PStreamStatus 0x1);
    ("consistent_formats", PStreamFormats);
    ("ump_version_major", PUmp SU8 (0xFF00, 0, 0, 0));
    ("ump_version_minor", PUmp SU8 (0xFF, 0, 0, 0));
    ("static_function_blocks", PUmp SBool (0, 0x80000000, 0, 0));
    ("supports_midi2_protocol", PUmp SBool (0, 0x200, 0, 0));
    ("supports_midi1_protocol", PUmp SBool (0, 0x100, 0, 0));
    ("supports_receiving_jr_timestamps", PUmp SBool (0, 0x2, 0, 0));
    ("supports_sending_jr_timestamps", PUmp SBool (0, 0x1, 0, 0));
    ("number_of_function_blocks", PUmp SU7 (0, 0x7F000000, 0, 0)) ] |}.

(** ump_stream/function_block_discovery.rs 9-24 *)
Definition stream_function_block_discovery : message := {|
  m_name := "ump_stream::FunctionBlockDiscovery"; m_min_ump := 1%nat; m_min_bytes := None;
  m_fields := [
    ("ump_type", PUmpType 0xF);
    ("status", PStreamStatus 0x10);
    ("consistent_formats", PStreamFormats);
    ("function_block_number", PUmp SU8 (0xFF00, 0, 0, 0));
    ("requesting_function_block_info", PUmp SBool (0x2, 0, 0, 0));
    ("requesting_function_block_name", PUmp SBool (0x1, 0, 0, 0)) ] |}.

(** ump_stream/function_block_info.rs 10-36 *)
Definition stream_function_block_info : message := {|
  m_name := "ump_stream::FunctionBlockInfo"; m_min_ump := 4%nat; m_min_bytes := None;
  m_fields := [
    ("ump_type", PUmpType 0xF);
    ("status", PStreamStatus 0x11);
    ("consistent_formats", PStreamFormats);
    ("active", PUmp SBool (0x8000, 0, 0, 0));
    ("function_block_number", PUmp SU7 (0x7F00, 0, 0, 0));
    ("first_group", PUmp SU4 (0, 0xF000000, 0, 0));
    ("number_of_groups_spanned", PUmp SU8 (0, 0xFF0000, 0, 0));
    ("midi_ci_version", PUmp SU8 (0, 0xFF00, 0, 0));
    ("max_number_of_midi_ci_streams", PUmp SU8 (0, 0xFF, 0, 0));
    ("ui_hint", PUiHint);
    ("midi1_port", PPort);
    ("direction", PDirection) ] |}.

(** ump_stream/start_of_clip.rs 5-13 *)
Definition stream_start_of_clip : message := {|
  m_name := "ump_stream::StartOfClip"; m_min_ump := 4%nat; m_min_bytes := None;
  m_fields := [
    ("ump_type", PUmpType 0xF);
    ("status", PStreamStatus 0x20);
    ("consistent_formats", PStreamFormats) ] |}.

(** ump_stream/stream_configuration_notification.rs 9-23 *)
Definition stream_stream_configuration_notification : message := {|
  m_name := "ump_stream::StreamConfigurationNotification"; m_min_ump := 4%nat; m_min_bytes := 
None;
  m_fields := [
    ("ump_type", PUmpType 0xF);
    ("status", PStreamStatus 0x6);
    ("consistent_formats", PStreamFormats);
    ("protocol", PUmp SU8 (0xFF00, 0, 0, 0));
    ("receive_jr_timestamps", PUmp SBool (0x2, 0, 0, 0));
    ("send_jr_timestamps", PUmp SBool (0x1, 0, 0, 0)) ] |}.

(** ump_stream/stream_configuration_request.rs 9-23 *)
Definition stream_stream_configuration_request : message := {|
  m_name := "ump_stream::StreamConfigurationRequest"; m_min_ump := 4%nat; m_min_bytes := None;
  m_fields := [
    ("ump_type", PUmpType 0xF);
    ("status", PStreamStatus 0x5);
    ("consistent_formats", PStreamFormats);
    ("protocol", PUmp SU8 (0xFF00, 0, 0, 0));
    ("receive_jr_timestamps", PUmp SBool (0x2, 0, 0, 0));
    ("send_jr_timestamps", PUmp SBool (0x1, 0, 0, 0)) ] |}.

(** midi2/src/utility.rs 211-217 *)
Definition utility_messages : list message := [
  util_no_op; util_clock; util_timestamp; util_delta_clockstamp; util_delta_clockstamp_tpq ].

(** midi2/src/system_common.rs 210-221 *)
Definition system_common_messages : list message := [
  sys_tune_request; sys_timing_clock; sys_start; sys_continue; sys_stop; sys_active_sensing; 
sys_reset; sys_song_position_pointer; sys_song_select; sys_time_code ].

(** midi2/src/channel_voice1.rs 44-52 *)
Definition channel_voice1_messages : list message := [
  cv1_channel_pressure; cv1_control_change; cv1_key_pressure; cv1_note_off; cv1_note_on; 
cv1_pitch_bend; cv1_program_change ].

(** midi2/src/channel_voice2.rs 58-74 *)
Definition channel_voice2_messages : list message := [
  cv2_assignable_controller; cv2_assignable_per_note_controller; cv2_channel_pitch_bend; 
cv2_channel_pressure; cv2_control_change; cv2_key_pressure; cv2_note_off; cv2_note_on; 
cv2_per_note_management; cv2_per_note_pitch_bend; cv2_program_change; 
cv2_registered_controller; cv2_registered_per_note_controller; 
cv2_relative_assignable_controller; cv2_relative_registered_controller ].

(** midi2/src/flex_data.rs 822-846 (the members of fixed size; the text messages are in [Text.v]) *)
Definition flex_data_messages : list message := [
  flex_set_chord_name; flex_set_key_signature; flex_set_metronome; flex_set_tempo; 
flex_set_time_signature ].

(** midi2/src/ump_stream.rs 53-68 (the members of fixed size) *)
Definition ump_stream_messages : list message := [
  stream_device_identity; stream_end_of_clip; stream_endpoint_discovery; stream_endpoint_info; 
stream_function_block_discovery; stream_function_block_info; stream_start_of_clip; 
stream_stream_configuration_notification; stream_stream_configuration_request ].

(** The message types generated by [generate_message] (generate_message.rs 37-39) with
    [FixedSize]. *)
Definition all_messages : list message :=
  utility_messages ++ system_common_messages ++ channel_voice1_messages ++
  channel_voice2_messages ++ flex_data_messages ++ ump_stream_messages.
