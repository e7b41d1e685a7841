(** Generated: the unit tests of /repo, channel_voice2, channel_voice2.rs, read as statements about the
    model.  They check that the model computes what the project's own tests
    expect of the code; they are tests, not proofs of a property. *)
From Coq Require Import NArith List String Bool.
From Verif Require Import Base BitOps Values Props Message MessageTable Text Sysex Splice SpecSysex SpecEdits SpecPacket SysexClient Aggregate Packet Receiver Ci RepoTests.
Import ListNotations.
Local Open Scope string_scope.

(** *** midi2/src/channel_voice2.rs *)

(* channel_voice2.rs 137 *)
Example t_channel_voice2_channel : passes (
  r1 <- cv2_try_from [0x4bac5900; 0xc0b83064]%N ;;
  x2 <- unwrapped (Val r1) ;;
  x3 <- agg_channel U32 x2 ;;
  Val (
    x3 = 12%N)).
Proof. run_test. Qed.

(* channel_voice2.rs 150 *)
Example t_channel_voice2_packets : passes (
  r1 <- cv2_try_from [0x4bac5900; 0xc0b83064]%N ;;
  x2 <- unwrapped (Val r1) ;;
  x3 <- agg_packets x2 ;;
  x4 <- packets_next x3 ;;
  x5 <- some_of (fst x4) ;;
  x6 <- packets_next (snd x4) ;;
  Val (
    (packet_data x5) = [0x4bac5900; 0xc0b83064]%N /\
    (fst x6) = None)).
Proof. run_test. Qed.

(* channel_voice2.rs 160 *)
Example t_channel_voice2_rebuffer_from_array : passes (
  r1 <- cv2_try_from [0x4bac5900; 0xc0b83064]%N ;;
  x2 <- unwrapped (Val r1) ;;
  x3 <- agg_array_rebuffer U32 x2 2 ;;
  Val (
    True)).
Proof. run_test. Qed.

(** *** midi2/src/channel_voice2/assignable_controller.rs *)

(* channel_voice2/assignable_controller.rs 35 *)
Example t_channel_voice2_assignable_controller_setters : passes (
  m1 <- array_new U32 cv2_assignable_controller 4 ;;
  m2 <- set U32 cv2_assignable_controller m1 "group" (VNum 12) ;;
  m3 <- set U32 cv2_assignable_controller m2 "channel" (VNum 8) ;;
  m4 <- set U32 cv2_assignable_controller m3 "bank" (VNum 81) ;;
  m5 <- set U32 cv2_assignable_controller m4 "index" (VNum 56) ;;
  m6 <- set U32 cv2_assignable_controller m5 "controller_data" (VNum 0x3f3add42) ;;
  Val (
    m6 = [0x4c385138; 0x3f3add42; 0; 0]%N)).
Proof. run_test. Qed.

(* channel_voice2/assignable_controller.rs 51 *)
Example t_channel_voice2_assignable_controller_group : passes (
  r1 <- concrete_try_from U32 (CFixed cv2_assignable_controller) [0x4c385138; 0x3f3add42]%N ;;
  x2 <- unwrapped (Val r1) ;;
  x3 <- get U32 cv2_assignable_controller x2 "group" ;;
  Val (
    x3 = VNum 12)).
Proof. run_test. Qed.

(* channel_voice2/assignable_controller.rs 63 *)
Example t_channel_voice2_assignable_controller_channel : passes (
  r1 <- concrete_try_from U32 (CFixed cv2_assignable_controller) [0x4c385138; 0x3f3add42]%N ;;
  x2 <- unwrapped (Val r1) ;;
  x3 <- get U32 cv2_assignable_controller x2 "channel" ;;
  Val (
    x3 = VNum 8)).
Proof. run_test. Qed.

(* channel_voice2/assignable_controller.rs 105 *)
Example t_channel_voice2_assignable_controller_packets : passes (
  r1 <- concrete_try_from U32 (CFixed cv2_assignable_controller) [0x4c385138; 0x3f3add42]%N ;;
  x2 <- unwrapped (Val r1) ;;
  x3 <- agg_packets ((CFixed cv2_assignable_controller), x2) ;;
  x4 <- packets_next x3 ;;
  x5 <- some_of (fst x4) ;;
  x6 <- packets_next (snd x4) ;;
  Val (
    (packet_data x5) = [0x4c385138; 0x3f3add42]%N /\
    (fst x6) = None)).
Proof. run_test. Qed.

(** *** midi2/src/channel_voice2/assignable_per_note_controller.rs *)

(* channel_voice2/assignable_per_note_controller.rs 35 *)
Example t_channel_voice2_assignable_per_note_controller_builder : passes (
  m1 <- array_new U32 cv2_assignable_per_note_controller 4 ;;
  m2 <- set U32 cv2_assignable_per_note_controller m1 "group" (VNum 2) ;;
  m3 <- set U32 cv2_assignable_per_note_controller m2 "channel" (VNum 4) ;;
  m4 <- set U32 cv2_assignable_per_note_controller m3 "note_number" (VNum 111) ;;
  m5 <- set U32 cv2_assignable_per_note_controller m4 "index" (VNum 177) ;;
  m6 <- set U32 cv2_assignable_per_note_controller m5 "controller_data" (VNum 0x46105ee5) ;;
  Val (
    m6 = [0x42146fb1; 0x46105ee5; 0; 0]%N)).
Proof. run_test. Qed.

(* channel_voice2/assignable_per_note_controller.rs 52 *)
Example t_channel_voice2_assignable_per_note_controller_group : passes (
  r1 <- concrete_try_from U32 (CFixed cv2_assignable_per_note_controller) [0x42146fb1; 0x46105ee5]%N ;;
  x2 <- unwrapped (Val r1) ;;
  x3 <- get U32 cv2_assignable_per_note_controller x2 "group" ;;
  Val (
    x3 = VNum 2)).
Proof. run_test. Qed.

(* channel_voice2/assignable_per_note_controller.rs 63 *)
Example t_channel_voice2_assignable_per_note_controller_channel : passes (
  r1 <- concrete_try_from U32 (CFixed cv2_assignable_per_note_controller) [0x42146fb1; 0x46105ee5]%N ;;
  x2 <- unwrapped (Val r1) ;;
  x3 <- get U32 cv2_assignable_per_note_controller x2 "channel" ;;
  Val (
    x3 = VNum 4)).
Proof. run_test. Qed.

(* channel_voice2/assignable_per_note_controller.rs 74 *)
Example t_channel_voice2_assignable_per_note_controller_note_number : passes (
  r1 <- concrete_try_from U32 (CFixed cv2_assignable_per_note_controller) [0x42146fb1; 0x46105ee5]%N ;;
  x2 <- unwrapped (Val r1) ;;
  x3 <- get U32 cv2_assignable_per_note_controller x2 "note_number" ;;
  Val (
    x3 = VNum 111)).
Proof. run_test. Qed.

(* channel_voice2/assignable_per_note_controller.rs 84 *)
Example t_channel_voice2_assignable_per_note_controller_index : passes (
  r1 <- concrete_try_from U32 (CFixed cv2_assignable_per_note_controller) [0x42146fb1; 0x46105ee5]%N ;;
  x2 <- unwrapped (Val r1) ;;
  x3 <- get U32 cv2_assignable_per_note_controller x2 "index" ;;
  Val (
    x3 = VNum 177)).
Proof. run_test. Qed.

(* channel_voice2/assignable_per_note_controller.rs 94 *)
Example t_channel_voice2_assignable_per_note_controller_controller_data : passes (
  r1 <- concrete_try_from U32 (CFixed cv2_assignable_per_note_controller) [0x42146fb1; 0x46105ee5]%N ;;
  x2 <- unwrapped (Val r1) ;;
  x3 <- get U32 cv2_assignable_per_note_controller x2 "controller_data" ;;
  Val (
    x3 = VNum 0x46105ee5)).
Proof. run_test. Qed.

(** *** midi2/src/channel_voice2/attribute.rs *)

(* channel_voice2/attribute.rs 105 *)
Example t_channel_voice2_attribute_from_packet_invalid : passes (
  x1 <- read_attribute [4]%N ;;
  Val (
    x1 = (Err "Couldn't interpret note attribute"))).
Proof. run_test. Qed.

(* channel_voice2/attribute.rs 113 *)
Example t_channel_voice2_attribute_from_packet_none : passes (
  x1 <- read_attribute [0; 0]%N ;;
  Val (
    x1 = Ok (VAttr None))).
Proof. run_test. Qed.

(* channel_voice2/attribute.rs 118 *)
Example t_channel_voice2_attribute_from_packet_generic : passes (
  x1 <- read_attribute [1; 0x1234]%N ;;
  Val (
    x1 = Ok (VAttr (Some (ManufacturerSpecific 0x1234))))).
Proof. run_test. Qed.

(* channel_voice2/attribute.rs 126 *)
Example t_channel_voice2_attribute_from_packet_pitch7_9 : passes (
  x1 <- read_attribute [3; 0x3333]%N ;;
  Val (
    x1 = Ok (VAttr (Some (Pitch7_9 0x3333))))).
Proof. run_test. Qed.

(* channel_voice2/attribute.rs 136 *)
Example t_channel_voice2_attribute_write_attribute_none : passes (
  x1 <- prop_write U32 PAttribute [0; 0]%N (VAttr None) ;;
  Val (
    x1 = [0; 0]%N)).
Proof. run_test. Qed.

(* channel_voice2/attribute.rs 141 *)
Example t_channel_voice2_attribute_write_attribute_generic : passes (
  x1 <- prop_write U32 PAttribute [0; 0]%N (VAttr (Some (ProfileSpecific 0x666))) ;;
  Val (
    x1 = [2; 0x666]%N)).
Proof. run_test. Qed.

(* channel_voice2/attribute.rs 149 *)
Example t_channel_voice2_attribute_write_attribute_pitch7_9 : passes (
  x1 <- prop_write U32 PAttribute [0; 0]%N (VAttr (Some (Pitch7_9 0xb917))) ;;
  Val (
    x1 = [3; 0xb917]%N)).
Proof. run_test. Qed.

(** *** midi2/src/channel_voice2/channel_pitch_bend.rs *)

(* channel_voice2/channel_pitch_bend.rs 31 *)
Example t_channel_voice2_channel_pitch_bend_builder : passes (
  m1 <- array_new U32 cv2_channel_pitch_bend 4 ;;
  m2 <- set U32 cv2_channel_pitch_bend m1 "group" (VNum 11) ;;
  m3 <- set U32 cv2_channel_pitch_bend m2 "channel" (VNum 9) ;;
  m4 <- set U32 cv2_channel_pitch_bend m3 "pitch_bend_data" (VNum 0x8306af8) ;;
  Val (
    m4 = [0x4be90000; 0x8306af8; 0; 0]%N)).
Proof. run_test. Qed.

(* channel_voice2/channel_pitch_bend.rs 46 *)
Example t_channel_voice2_channel_pitch_bend_pitch_bend_data : passes (
  r1 <- concrete_try_from U32 (CFixed cv2_channel_pitch_bend) [0x4be90000; 0x8306af8]%N ;;
  x2 <- unwrapped (Val r1) ;;
  x3 <- get U32 cv2_channel_pitch_bend x2 "pitch_bend_data" ;;
  Val (
    x3 = VNum 0x8306af8)).
Proof. run_test. Qed.

(** *** midi2/src/channel_voice2/channel_pressure.rs *)

(* channel_voice2/channel_pressure.rs 35 *)
Example t_channel_voice2_channel_pressure_setter : passes (
  m1 <- array_new U32 cv2_channel_pressure 4 ;;
  m2 <- set U32 cv2_channel_pressure m1 "group" (VNum 14) ;;
  m3 <- set U32 cv2_channel_pressure m2 "channel" (VNum 13) ;;
  m4 <- set U32 cv2_channel_pressure m3 "channel_pressure_data" (VNum 0xde0de0f2) ;;
  Val (
    m4 = [0x4edd0000; 0xde0de0f2; 0; 0]%N)).
Proof. run_test. Qed.

(* channel_voice2/channel_pressure.rs 50 *)
Example t_channel_voice2_channel_pressure_new_arr_3 : passes (
  m1 <- array_new U32 cv2_channel_pressure 3 ;;
  Val (
    m1 = [0x40d00000; 0; 0]%N)).
Proof. run_test. Qed.

(* channel_voice2/channel_pressure.rs 58 *)
Example t_channel_voice2_channel_pressure_new_arr_2 : passes (
  m1 <- array_new U32 cv2_channel_pressure 2 ;;
  Val (
    m1 = [0x40d00000; 0]%N)).
Proof. run_test. Qed.

(* channel_voice2/channel_pressure.rs 66 *)
Example t_channel_voice2_channel_pressure_channel_pressure_data : passes (
  r1 <- concrete_try_from U32 (CFixed cv2_channel_pressure) [0x4edd0000; 0xde0de0f2]%N ;;
  x2 <- unwrapped (Val r1) ;;
  x3 <- get U32 cv2_channel_pressure x2 "channel_pressure_data" ;;
  Val (
    x3 = VNum 0xde0de0f2)).
Proof. run_test. Qed.

(** *** midi2/src/channel_voice2/control_change.rs *)

(* channel_voice2/control_change.rs 33 *)
Example t_channel_voice2_control_change_setters : passes (
  m1 <- array_new U32 cv2_control_change 4 ;;
  m2 <- set U32 cv2_control_change m1 "group" (VNum 3) ;;
  m3 <- set U32 cv2_control_change m2 "channel" (VNum 9) ;;
  m4 <- set U32 cv2_control_change m3 "control" (VNum 48) ;;
  m5 <- set U32 cv2_control_change m4 "control_change_data" (VNum 0x24681012) ;;
  Val (
    m5 = [0x43b93000; 0x24681012; 0; 0]%N)).
Proof. run_test. Qed.

(* channel_voice2/control_change.rs 45 *)
Example t_channel_voice2_control_change_control : passes (
  r1 <- concrete_try_from U32 (CFixed cv2_control_change) [0x43b93000; 0x24681012]%N ;;
  x2 <- unwrapped (Val r1) ;;
  x3 <- get U32 cv2_control_change x2 "control" ;;
  Val (
    x3 = VNum 48)).
Proof. run_test. Qed.

(* channel_voice2/control_change.rs 55 *)
Example t_channel_voice2_control_change_control_change_data : passes (
  r1 <- concrete_try_from U32 (CFixed cv2_control_change) [0x43b93000; 0x24681012]%N ;;
  x2 <- unwrapped (Val r1) ;;
  x3 <- get U32 cv2_control_change x2 "control_change_data" ;;
  Val (
    x3 = VNum 0x24681012)).
Proof. run_test. Qed.

(** *** midi2/src/channel_voice2/key_pressure.rs *)

(* channel_voice2/key_pressure.rs 33 *)
Example t_channel_voice2_key_pressure_builder : passes (
  m1 <- array_new U32 cv2_key_pressure 4 ;;
  m2 <- set U32 cv2_key_pressure m1 "group" (VNum 11) ;;
  m3 <- set U32 cv2_key_pressure m2 "channel" (VNum 12) ;;
  m4 <- set U32 cv2_key_pressure m3 "note_number" (VNum 89) ;;
  m5 <- set U32 cv2_key_pressure m4 "key_pressure_data" (VNum 0xc0b83064) ;;
  Val (
    m5 = [0x4bac5900; 0xc0b83064; 0; 0]%N)).
Proof. run_test. Qed.

(* channel_voice2/key_pressure.rs 45 *)
Example t_channel_voice2_key_pressure_note_number : passes (
  r1 <- concrete_try_from U32 (CFixed cv2_key_pressure) [0x4bac5900; 0xc0b83064]%N ;;
  x2 <- unwrapped (Val r1) ;;
  x3 <- get U32 cv2_key_pressure x2 "note_number" ;;
  Val (
    x3 = VNum 89)).
Proof. run_test. Qed.

(* channel_voice2/key_pressure.rs 55 *)
Example t_channel_voice2_key_pressure_key_pressure_data : passes (
  r1 <- concrete_try_from U32 (CFixed cv2_key_pressure) [0x4bac5900; 0xc0b83064]%N ;;
  x2 <- unwrapped (Val r1) ;;
  x3 <- get U32 cv2_key_pressure x2 "key_pressure_data" ;;
  Val (
    x3 = VNum 0xc0b83064)).
Proof. run_test. Qed.

(** *** midi2/src/channel_voice2/note_off.rs *)

(* channel_voice2/note_off.rs 38 *)
Example t_channel_voice2_note_off_builder : passes (
  m1 <- array_new U32 cv2_note_off 4 ;;
  m2 <- set U32 cv2_note_off m1 "group" (VNum 2) ;;
  m3 <- set U32 cv2_note_off m2 "channel" (VNum 4) ;;
  m4 <- set U32 cv2_note_off m3 "note_number" (VNum 78) ;;
  m5 <- set U32 cv2_note_off m4 "velocity" (VNum 0x9de6) ;;
  m6 <- set U32 cv2_note_off m5 "attribute" (VAttr (Some (ManufacturerSpecific 0xcc6e))) ;;
  Val (
    m6 = [0x42844e01; 0x9de6cc6e; 0; 0]%N)).
Proof. run_test. Qed.

(* channel_voice2/note_off.rs 52 *)
Example t_channel_voice2_note_off_builder_no_attribute : passes (
  m1 <- array_new U32 cv2_note_off 4 ;;
  m2 <- set U32 cv2_note_off m1 "group" (VNum 2) ;;
  m3 <- set U32 cv2_note_off m2 "channel" (VNum 4) ;;
  m4 <- set U32 cv2_note_off m3 "note_number" (VNum 78) ;;
  m5 <- set U32 cv2_note_off m4 "velocity" (VNum 0x9de6) ;;
  Val (
    m5 = [0x42844e00; 0x9de60000; 0; 0]%N)).
Proof. run_test. Qed.

(* channel_voice2/note_off.rs 65 *)
Example t_channel_voice2_note_off_note_number : passes (
  r1 <- concrete_try_from U32 (CFixed cv2_note_off) [0x42844e01; 0x9de6cc6e]%N ;;
  x2 <- unwrapped (Val r1) ;;
  x3 <- get U32 cv2_note_off x2 "note_number" ;;
  Val (
    x3 = VNum 78)).
Proof. run_test. Qed.

(* channel_voice2/note_off.rs 75 *)
Example t_channel_voice2_note_off_volocity : passes (
  r1 <- concrete_try_from U32 (CFixed cv2_note_off) [0x42844e01; 0x9de6cc6e]%N ;;
  x2 <- unwrapped (Val r1) ;;
  x3 <- get U32 cv2_note_off x2 "velocity" ;;
  Val (
    x3 = VNum 0x9de6)).
Proof. run_test. Qed.

(* channel_voice2/note_off.rs 85 *)
Example t_channel_voice2_note_off_attribute : passes (
  r1 <- concrete_try_from U32 (CFixed cv2_note_off) [0x42844e01; 0x9de6cc6e]%N ;;
  x2 <- unwrapped (Val r1) ;;
  x3 <- get U32 cv2_note_off x2 "attribute" ;;
  Val (
    x3 = VAttr (Some (ManufacturerSpecific 0xcc6e)))).
Proof. run_test. Qed.

(** *** midi2/src/channel_voice2/note_on.rs *)

(* channel_voice2/note_on.rs 38 *)
Example t_channel_voice2_note_on_builder : passes (
  m1 <- array_new U32 cv2_note_on 4 ;;
  m2 <- set U32 cv2_note_on m1 "group" (VNum 8) ;;
  m3 <- set U32 cv2_note_on m2 "channel" (VNum 8) ;;
  m4 <- set U32 cv2_note_on m3 "note_number" (VNum 94) ;;
  m5 <- set U32 cv2_note_on m4 "velocity" (VNum 0x6a14) ;;
  m6 <- set U32 cv2_note_on m5 "attribute" (VAttr (Some (Pitch7_9 0xe98a))) ;;
  Val (
    m6 = [0x48985e03; 0x6a14e98a; 0; 0]%N)).
Proof. run_test. Qed.

(* channel_voice2/note_on.rs 55 *)
Example t_channel_voice2_note_on_builder_no_attribute : passes (
  m1 <- array_new U32 cv2_note_on 4 ;;
  m2 <- set U32 cv2_note_on m1 "group" (VNum 8) ;;
  m3 <- set U32 cv2_note_on m2 "channel" (VNum 8) ;;
  m4 <- set U32 cv2_note_on m3 "note_number" (VNum 94) ;;
  m5 <- set U32 cv2_note_on m4 "velocity" (VNum 0x6a14) ;;
  Val (
    m5 = [0x48985e00; 0x6a140000; 0; 0]%N)).
Proof. run_test. Qed.

(* channel_voice2/note_on.rs 68 *)
Example t_channel_voice2_note_on_note_number : passes (
  r1 <- concrete_try_from U32 (CFixed cv2_note_on) [0x48985e03; 0x6a14e98a]%N ;;
  x2 <- unwrapped (Val r1) ;;
  x3 <- get U32 cv2_note_on x2 "note_number" ;;
  Val (
    x3 = VNum 94)).
Proof. run_test. Qed.

(* channel_voice2/note_on.rs 78 *)
Example t_channel_voice2_note_on_volocity : passes (
  r1 <- concrete_try_from U32 (CFixed cv2_note_on) [0x48985e03; 0x6a14e98a]%N ;;
  x2 <- unwrapped (Val r1) ;;
  x3 <- get U32 cv2_note_on x2 "velocity" ;;
  Val (
    x3 = VNum 0x6a14)).
Proof. run_test. Qed.

(* channel_voice2/note_on.rs 88 *)
Example t_channel_voice2_note_on_attribute : passes (
  r1 <- concrete_try_from U32 (CFixed cv2_note_on) [0x48985e03; 0x6a14e98a]%N ;;
  x2 <- unwrapped (Val r1) ;;
  x3 <- get U32 cv2_note_on x2 "attribute" ;;
  Val (
    x3 = VAttr (Some (Pitch7_9 0xe98a)))).
Proof. run_test. Qed.

(** *** midi2/src/channel_voice2/packet.rs *)

(* channel_voice2/packet.rs 82 *)
Example t_channel_voice2_packet_construction : passes (
  r1 <- kind_try_from PVoice2 [0x40000000]%N ;;
  Val (
    (is_okay r1) = true)).
Proof. run_test. Qed.

(* channel_voice2/packet.rs 87 *)
Example t_channel_voice2_packet_construction_slice_size2 : passes (
  r1 <- kind_try_from PVoice2 [0x40000000; 0]%N ;;
  Val (
    (is_okay r1) = true)).
Proof. run_test. Qed.

(* channel_voice2/packet.rs 92 *)
Example t_channel_voice2_packet_construction_slice_size4 : passes (
  r1 <- kind_try_from PVoice2 [0x40000000; 0; 0; 0]%N ;;
  Val (
    (is_okay r1) = true)).
Proof. run_test. Qed.

(* channel_voice2/packet.rs 97 *)
Example t_channel_voice2_packet_construction_incorrect_ump_message_type : passes (
  r1 <- kind_try_from PVoice2 [0]%N ;;
  Val (
    r1 = (Err "Incorrect UMP message type"))).
Proof. run_test. Qed.

(* channel_voice2/packet.rs 107 *)
Example t_channel_voice2_packet_construction_short_slice : passes (
  r1 <- kind_try_from PVoice2 []%N ;;
  Val (
    r1 = (Err "Slice is too short"))).
Proof. run_test. Qed.

(* channel_voice2/packet.rs 117 *)
Example t_channel_voice2_packet_channel : passes (
  r1 <- kind_try_from PVoice2 [0x40080000]%N ;;
  x2 <- unwrapped (Val r1) ;;
  x3 <- packet_channel x2 ;;
  Val (
    x3 = 8%N)).
Proof. run_test. Qed.

(* channel_voice2/packet.rs 126 *)
Example t_channel_voice2_packet_set_channel : passes (
  r1 <- kind_try_from PVoice2 [0x40000000]%N ;;
  x2 <- unwrapped (Val r1) ;;
  x3 <- packet_set_channel x2 8 ;;
  Val (
    (packet_data x3) = [0x40080000; 0]%N)).
Proof. run_test. Qed.

(* channel_voice2/packet.rs 134 *)
Example t_channel_voice2_packet_group : passes (
  r1 <- kind_try_from PVoice2 [0x4a000000]%N ;;
  x2 <- unwrapped (Val r1) ;;
  x3 <- packet_group x2 ;;
  Val (
    x3 = 10%N)).
Proof. run_test. Qed.

(* channel_voice2/packet.rs 143 *)
Example t_channel_voice2_packet_set_group : passes (
  r1 <- kind_try_from PVoice2 [0x40000000]%N ;;
  x2 <- unwrapped (Val r1) ;;
  x3 <- packet_set_group x2 10 ;;
  Val (
    (packet_data x3) = [0x4a000000; 0]%N)).
Proof. run_test. Qed.

(** *** midi2/src/channel_voice2/per_note_management.rs *)

(* channel_voice2/per_note_management.rs 35 *)
Example t_channel_voice2_per_note_management_setters : passes (
  m1 <- array_new U32 cv2_per_note_management 4 ;;
  m2 <- set U32 cv2_per_note_management m1 "group" (VNum 11) ;;
  m3 <- set U32 cv2_per_note_management m2 "channel" (VNum 9) ;;
  m4 <- set U32 cv2_per_note_management m3 "note_number" (VNum 28) ;;
  m5 <- set U32 cv2_per_note_management m4 "detach" (VBool true) ;;
  m6 <- set U32 cv2_per_note_management m5 "reset" (VBool true) ;;
  Val (
    m6 = [0x4bf91c03; 0; 0; 0]%N)).
Proof. run_test. Qed.

(* channel_voice2/per_note_management.rs 49 *)
Example t_channel_voice2_per_note_management_note_number : passes (
  r1 <- concrete_try_from U32 (CFixed cv2_per_note_management) [0x4bf91c03; 0]%N ;;
  x2 <- unwrapped (Val r1) ;;
  x3 <- get U32 cv2_per_note_management x2 "note_number" ;;
  Val (
    x3 = VNum 28)).
Proof. run_test. Qed.

(* channel_voice2/per_note_management.rs 59 *)
Example t_channel_voice2_per_note_management_detach : passes (
  r1 <- concrete_try_from U32 (CFixed cv2_per_note_management) [0x4bf91c03; 0]%N ;;
  x2 <- unwrapped (Val r1) ;;
  x3 <- get U32 cv2_per_note_management x2 "detach" ;;
  Val (
    x3 = VBool true)).
Proof. run_test. Qed.

(* channel_voice2/per_note_management.rs 66 *)
Example t_channel_voice2_per_note_management_reset : passes (
  r1 <- concrete_try_from U32 (CFixed cv2_per_note_management) [0x4bf91c03; 0]%N ;;
  x2 <- unwrapped (Val r1) ;;
  x3 <- get U32 cv2_per_note_management x2 "reset" ;;
  Val (
    x3 = VBool true)).
Proof. run_test. Qed.

(** *** midi2/src/channel_voice2/per_note_pitch_bend.rs *)

(* channel_voice2/per_note_pitch_bend.rs 33 *)
Example t_channel_voice2_per_note_pitch_bend_builder : passes (
  m1 <- array_new U32 cv2_per_note_pitch_bend 4 ;;
  m2 <- set U32 cv2_per_note_pitch_bend m1 "group" (VNum 9) ;;
  m3 <- set U32 cv2_per_note_pitch_bend m2 "channel" (VNum 2) ;;
  m4 <- set U32 cv2_per_note_pitch_bend m3 "note_number" (VNum 118) ;;
  m5 <- set U32 cv2_per_note_pitch_bend m4 "pitch_bend_data" (VNum 0x2ad74672) ;;
  Val (
    m5 = [0x49627600; 0x2ad74672; 0; 0]%N)).
Proof. run_test. Qed.

(* channel_voice2/per_note_pitch_bend.rs 49 *)
Example t_channel_voice2_per_note_pitch_bend_note_number : passes (
  r1 <- concrete_try_from U32 (CFixed cv2_per_note_pitch_bend) [0x49627600; 0x2ad74672]%N ;;
  x2 <- unwrapped (Val r1) ;;
  x3 <- get U32 cv2_per_note_pitch_bend x2 "note_number" ;;
  Val (
    x3 = VNum 118)).
Proof. run_test. Qed.

(* channel_voice2/per_note_pitch_bend.rs 59 *)
Example t_channel_voice2_per_note_pitch_bend_pitch_bend_data : passes (
  r1 <- concrete_try_from U32 (CFixed cv2_per_note_pitch_bend) [0x49627600; 0x2ad74672]%N ;;
  x2 <- unwrapped (Val r1) ;;
  x3 <- get U32 cv2_per_note_pitch_bend x2 "pitch_bend_data" ;;
  Val (
    x3 = VNum 0x2ad74672)).
Proof. run_test. Qed.

(** *** midi2/src/channel_voice2/program_change.rs *)

(* channel_voice2/program_change.rs 82 *)
Example t_channel_voice2_program_change_builder : passes (
  m1 <- array_new U32 cv2_program_change 4 ;;
  m2 <- set U32 cv2_program_change m1 "group" (VNum 15) ;;
  m3 <- set U32 cv2_program_change m2 "channel" (VNum 14) ;;
  m4 <- set U32 cv2_program_change m3 "program" (VNum 117) ;;
  m5 <- set U32 cv2_program_change m4 "bank" (VOptNum (Some 0x1f5e%N)) ;;
  Val (
    m5 = [0x4fce0001; 0x75005e3e; 0; 0]%N)).
Proof. run_test. Qed.

(* channel_voice2/program_change.rs 95 *)
Example t_channel_voice2_program_change_builder_no_bank : passes (
  m1 <- array_new U32 cv2_program_change 4 ;;
  m2 <- set U32 cv2_program_change m1 "group" (VNum 15) ;;
  m3 <- set U32 cv2_program_change m2 "channel" (VNum 14) ;;
  m4 <- set U32 cv2_program_change m3 "program" (VNum 117) ;;
  Val (
    m4 = [0x4fce0000; 0x75000000; 0; 0]%N)).
Proof. run_test. Qed.

(* channel_voice2/program_change.rs 107 *)
Example t_channel_voice2_program_change_program : passes (
  r1 <- concrete_try_from U32 (CFixed cv2_program_change) [0x4fce0001; 0x75005e3e]%N ;;
  x2 <- unwrapped (Val r1) ;;
  x3 <- get U32 cv2_program_change x2 "program" ;;
  Val (
    x3 = VNum 117)).
Proof. run_test. Qed.

(* channel_voice2/program_change.rs 117 *)
Example t_channel_voice2_program_change_bank : passes (
  r1 <- concrete_try_from U32 (CFixed cv2_program_change) [0x4fce0001; 0x75005e3e]%N ;;
  x2 <- unwrapped (Val r1) ;;
  x3 <- get U32 cv2_program_change x2 "bank" ;;
  Val (
    x3 = VOptNum (Some 0x1f5e%N))).
Proof. run_test. Qed.

(* channel_voice2/program_change.rs 127 *)
Example t_channel_voice2_program_change_no_bank : passes (
  r1 <- concrete_try_from U32 (CFixed cv2_program_change) [0x4fce0000; 0x75000000]%N ;;
  x2 <- unwrapped (Val r1) ;;
  x3 <- get U32 cv2_program_change x2 "bank" ;;
  Val (
    x3 = VOptNum None)).
Proof. run_test. Qed.

(* channel_voice2/program_change.rs 137 *)
Example t_channel_voice2_program_change_rebuffer_mut_slice_to_slice : passes (
  r1 <- try_new_with_buffer U32 cv2_program_change [0; 0; 0; 0]%N ;;
  x2 <- unwrapped (Val r1) ;;
  m3 <- set U32 cv2_program_change x2 "program" (VNum 79) ;;
  d4 <- concrete_data U32 (CFixed cv2_program_change) m3 ;;
  Val (
    d4 = [0x40c00000; 0x4f000000]%N)).
Proof. run_test. Qed.

(** *** midi2/src/channel_voice2/registered_controller.rs *)

(* channel_voice2/registered_controller.rs 35 *)
Example t_channel_voice2_registered_controller_builder : passes (
  m1 <- array_new U32 cv2_registered_controller 4 ;;
  m2 <- set U32 cv2_registered_controller m1 "group" (VNum 10) ;;
  m3 <- set U32 cv2_registered_controller m2 "channel" (VNum 11) ;;
  m4 <- set U32 cv2_registered_controller m3 "bank" (VNum 125) ;;
  m5 <- set U32 cv2_registered_controller m4 "index" (VNum 100) ;;
  m6 <- set U32 cv2_registered_controller m5 "controller_data" (VNum 0x46845e00) ;;
  Val (
    m6 = [0x4a2b7d64; 0x46845e00; 0; 0]%N)).
Proof. run_test. Qed.

(** *** midi2/src/channel_voice2/registered_per_note_controller.rs *)

(* channel_voice2/registered_per_note_controller.rs 33 *)
Example t_channel_voice2_registered_per_note_controller_builder : passes (
  m1 <- array_new U32 cv2_registered_per_note_controller 4 ;;
  m2 <- set U32 cv2_registered_per_note_controller m1 "group" (VNum 4) ;;
  m3 <- set U32 cv2_registered_per_note_controller m2 "channel" (VNum 5) ;;
  m4 <- set U32 cv2_registered_per_note_controller m3 "note_number" (VNum 108) ;;
  m5 <- set U32 cv2_registered_per_note_controller m4 "controller" (VCtl (Volume 0xe1e35e92)) ;;
  Val (
    m5 = [0x44056c07; 0xe1e35e92; 0; 0]%N)).
Proof. run_test. Qed.

(* channel_voice2/registered_per_note_controller.rs 49 *)
Example t_channel_voice2_registered_per_note_controller_note_number : passes (
  r1 <- concrete_try_from U32 (CFixed cv2_registered_per_note_controller) [0x44056c07; 0xe1e35e92]%N ;;
  x2 <- unwrapped (Val r1) ;;
  x3 <- get U32 cv2_registered_per_note_controller x2 "note_number" ;;
  Val (
    x3 = VNum 108)).
Proof. run_test. Qed.

(* channel_voice2/registered_per_note_controller.rs 59 *)
Example t_channel_voice2_registered_per_note_controller_controller : passes (
  r1 <- concrete_try_from U32 (CFixed cv2_registered_per_note_controller) [0x44056c07; 0xe1e35e92]%N ;;
  x2 <- unwrapped (Val r1) ;;
  x3 <- get U32 cv2_registered_per_note_controller x2 "controller" ;;
  Val (
    x3 = VCtl (Volume 0xe1e35e92))).
Proof. run_test. Qed.

(** *** midi2/src/channel_voice2/relative_assignable_controller.rs *)

(* channel_voice2/relative_assignable_controller.rs 35 *)
Example t_channel_voice2_relative_assignable_controller_builder : passes (
  m1 <- array_new U32 cv2_relative_assignable_controller 4 ;;
  m2 <- set U32 cv2_relative_assignable_controller m1 "group" (VNum 3) ;;
  m3 <- set U32 cv2_relative_assignable_controller m2 "channel" (VNum 1) ;;
  m4 <- set U32 cv2_relative_assignable_controller m3 "bank" (VNum 36) ;;
  m5 <- set U32 cv2_relative_assignable_controller m4 "index" (VNum 82) ;;
  m6 <- set U32 cv2_relative_assignable_controller m5 "controller_data" (VNum 0x898874e4) ;;
  Val (
    m6 = [0x43512452; 0x898874e4; 0; 0]%N)).
Proof. run_test. Qed.

(** *** midi2/src/channel_voice2/relative_registered_controller.rs *)

(* channel_voice2/relative_registered_controller.rs 35 *)
Example t_channel_voice2_relative_registered_controller_builder : passes (
  m1 <- array_new U32 cv2_relative_registered_controller 4 ;;
  m2 <- set U32 cv2_relative_registered_controller m1 "group" (VNum 1) ;;
  m3 <- set U32 cv2_relative_registered_controller m2 "channel" (VNum 14) ;;
  m4 <- set U32 cv2_relative_registered_controller m3 "bank" (VNum 69) ;;
  m5 <- set U32 cv2_relative_registered_controller m4 "index" (VNum 2) ;;
  m6 <- set U32 cv2_relative_registered_controller m5 "controller_data" (VNum 0xaf525908) ;;
  Val (
    m6 = [0x414e4502; 0xaf525908; 0; 0]%N)).
Proof. run_test. Qed.
