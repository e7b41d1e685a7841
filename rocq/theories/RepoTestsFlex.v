(** Generated: the unit tests of /repo, flex_data, flex_data.rs, read as statements about the
    model.  They check that the model computes what the project's own tests
    expect of the code; they are tests, not proofs of a property. *)
From Coq Require Import NArith List String Bool.
From Verif Require Import Base BitOps Values Props Message MessageTable Text Sysex Splice SpecSysex SpecEdits SpecPacket SysexClient Aggregate Packet Receiver Ci RepoTests.
Import ListNotations.
Local Open Scope string_scope.

(** *** midi2/src/flex_data.rs *)

(* flex_data.rs 1196 *)
Example t_flex_data_try_from_empty : passes (
  r1 <- flexdata_try_from []%N ;;
  Val (
    r1 = (Err "Slice is too short"))).
Proof. run_test. Qed.

(* flex_data.rs 1205 *)
Example t_flex_data_try_from_text : passes (
  r1 <- flexdata_try_from [0xd0500106; 0x47696d6d; 0x6520736f; 0x6d652073; 0xd0d00106; 0x69676e61; 0x6c210000; 0]%N ;;
  r2 <- concrete_try_from U32 (CFlexText k_LyricistName) [0xd0500106; 0x47696d6d; 0x6520736f; 0x6d652073; 0xd0d00106; 0x69676e61; 0x6c210000; 0]%N ;;
  x3 <- unwrapped (Val r2) ;;
  Val (
    r1 = (Ok ((CFlexText k_LyricistName), x3)))).
Proof. run_test. Qed.

(* flex_data.rs 1225 *)
Example t_flex_data_try_from_set_tempo : passes (
  r1 <- flexdata_try_from [0xd7100000; 0xf751fe05; 0; 0]%N ;;
  r2 <- concrete_try_from U32 (CFixed flex_set_tempo) [0xd7100000; 0xf751fe05; 0; 0]%N ;;
  x3 <- unwrapped (Val r2) ;;
  Val (
    r1 = (Ok ((CFixed flex_set_tempo), x3)))).
Proof. run_test. Qed.

(* flex_data.rs 1236 *)
Example t_flex_data_read_bank : passes (
  r1 <- flexdata_try_from [0xd7100000; 0xf751fe05; 0; 0]%N ;;
  x2 <- unwrapped (Val r1) ;;
  x3 <- agg_bank x2 ;;
  Val (
    x3 = 0%N)).
Proof. run_test. Qed.

(* flex_data.rs 1247 *)
Example t_flex_data_packets : passes (
  r1 <- flexdata_try_from [0xd0500106; 0x47696d6d; 0x6520736f; 0x6d652073; 0xd0d00106; 0x69676e61; 0x6c210000; 0]%N ;;
  x2 <- unwrapped (Val r1) ;;
  x3 <- agg_packets x2 ;;
  x4 <- packets_next x3 ;;
  x5 <- some_of (fst x4) ;;
  x6 <- packets_next (snd x4) ;;
  x7 <- some_of (fst x6) ;;
  x8 <- packets_next (snd x6) ;;
  Val (
    (packet_data x5) = [0xd0500106; 0x47696d6d; 0x6520736f; 0x6d652073]%N /\
    (packet_data x7) = [0xd0d00106; 0x69676e61; 0x6c210000; 0]%N /\
    (fst x8) = None)).
Proof. run_test. Qed.

(* flex_data.rs 1277 *)
Example t_flex_data_try_from_set_chord_name_data : passes (
  r1 <- flexdata_try_from [0xd70b0006; 0xf7033519; 0x4b000000; 0x110a0020]%N ;;
  x2 <- unwrapped (Val r1) ;;
  Val (
    True)).
Proof. run_test. Qed.

(** *** midi2/src/flex_data/packet.rs *)

(* flex_data/packet.rs 93 *)
Example t_flex_data_packet_construction : passes (
  r1 <- kind_try_from PFlex [0xd0000000; 0]%N ;;
  Val (
    (is_okay r1) = true)).
Proof. run_test. Qed.

(* flex_data/packet.rs 98 *)
Example t_flex_data_packet_construction_long_slice : passes (
  r1 <- kind_try_from PFlex [0xd0000000; 0; 0; 0]%N ;;
  Val (
    (is_okay r1) = true)).
Proof. run_test. Qed.

(* flex_data/packet.rs 103 *)
Example t_flex_data_packet_construction_very_long_slice : passes (
  r1 <- kind_try_from PFlex [0xd0000000; 0; 0; 0; 0]%N ;;
  Val (
    (is_okay r1) = true)).
Proof. run_test. Qed.

(* flex_data/packet.rs 108 *)
Example t_flex_data_packet_construction_short_slice : passes (
  r1 <- kind_try_from PFlex [0xd0000000]%N ;;
  Val (
    r1 = (Err "Slice is too short"))).
Proof. run_test. Qed.

(* flex_data/packet.rs 118 *)
Example t_flex_data_packet_construction_incorrect_ump_message_type : passes (
  r1 <- kind_try_from PFlex [0; 0; 0; 0]%N ;;
  Val (
    r1 = (Err "Incorrect UMP message type"))).
Proof. run_test. Qed.

(* flex_data/packet.rs 128 *)
Example t_flex_data_packet_complete_format : passes (
  r1 <- kind_try_from PFlex [0xd0000000; 0; 0; 0]%N ;;
  x2 <- unwrapped (Val r1) ;;
  x3 <- flex_packet_format x2 ;;
  Val (
    x3 = Complete)).
Proof. run_test. Qed.

(* flex_data/packet.rs 138 *)
Example t_flex_data_packet_start_format : passes (
  r1 <- kind_try_from PFlex [0xd0400000; 0; 0; 0]%N ;;
  x2 <- unwrapped (Val r1) ;;
  x3 <- flex_packet_format x2 ;;
  Val (
    x3 = Start)).
Proof. run_test. Qed.

(* flex_data/packet.rs 148 *)
Example t_flex_data_packet_continue_format : passes (
  r1 <- kind_try_from PFlex [0xd0800000; 0; 0; 0]%N ;;
  x2 <- unwrapped (Val r1) ;;
  x3 <- flex_packet_format x2 ;;
  Val (
    x3 = Continue)).
Proof. run_test. Qed.

(* flex_data/packet.rs 158 *)
Example t_flex_data_packet_end_format : passes (
  r1 <- kind_try_from PFlex [0xd0c00000; 0; 0; 0]%N ;;
  x2 <- unwrapped (Val r1) ;;
  x3 <- flex_packet_format x2 ;;
  Val (
    x3 = End)).
Proof. run_test. Qed.

(** *** midi2/src/flex_data/set_chord_name.rs *)

(* flex_data/set_chord_name.rs 409 *)
Example t_flex_data_set_chord_name_setters : passes (
  m1 <- array_new U32 flex_set_chord_name 4 ;;
  m2 <- set U32 flex_set_chord_name m1 "group" (VNum 7) ;;
  m3 <- set U32 flex_set_chord_name m2 "optional_channel" (VOptNum (Some 11%N)) ;;
  m4 <- set U32 flex_set_chord_name m3 "tonic_sharps_flats" (VChordSF Flat) ;;
  m5 <- set U32 flex_set_chord_name m4 "tonic" (VTonic TG) ;;
  m6 <- set U32 flex_set_chord_name m5 "chord_type" (VChordType Major7th) ;;
  m7 <- set U32 flex_set_chord_name m6 "chord_alteration1" (VAlt (Some (Raise 5))) ;;
  m8 <- set U32 flex_set_chord_name m7 "chord_alteration2" (VAlt (Some (Add 9))) ;;
  m9 <- set U32 flex_set_chord_name m8 "chord_alteration3" (VAlt (Some (Lower 11))) ;;
  m10 <- set U32 flex_set_chord_name m9 "chord_alteration4" (VAlt None) ;;
  m11 <- set U32 flex_set_chord_name m10 "bass_sharps_flats" (VChordSF Sharp) ;;
  m12 <- set U32 flex_set_chord_name m11 "bass_note" (VTonic TA) ;;
  m13 <- set U32 flex_set_chord_name m12 "bass_chord_type" (VChordType Minor9th) ;;
  m14 <- set U32 flex_set_chord_name m13 "bass_alteration1" (VAlt None) ;;
  m15 <- set U32 flex_set_chord_name m14 "bass_alteration2" (VAlt (Some (Subtract 0))) ;;
  Val (
    m15 = [0xd70b0006; 0xf7033519; 0x4b000000; 0x110a0020]%N)).
Proof. run_test. Qed.

(* flex_data/set_chord_name.rs 432 *)
Example t_flex_data_set_chord_name_channel : passes (
  r1 <- concrete_try_from U32 (CFixed flex_set_chord_name) [0xd70b0006; 0xf7033519; 0x4b000000; 0x110a0020]%N ;;
  x2 <- unwrapped (Val r1) ;;
  x3 <- get U32 flex_set_chord_name x2 "optional_channel" ;;
  Val (
    x3 = VOptNum (Some 11%N))).
Proof. run_test. Qed.

(* flex_data/set_chord_name.rs 442 *)
Example t_flex_data_set_chord_name_tonic_sharps_flats : passes (
  r1 <- concrete_try_from U32 (CFixed flex_set_chord_name) [0xd70b0006; 0xf7033519; 0x4b000000; 0x110a0020]%N ;;
  x2 <- unwrapped (Val r1) ;;
  x3 <- get U32 flex_set_chord_name x2 "tonic_sharps_flats" ;;
  Val (
    x3 = VChordSF Flat)).
Proof. run_test. Qed.

(* flex_data/set_chord_name.rs 452 *)
Example t_flex_data_set_chord_name_tonic : passes (
  r1 <- concrete_try_from U32 (CFixed flex_set_chord_name) [0xd70b0006; 0xf7033519; 0x4b000000; 0x110a0020]%N ;;
  x2 <- unwrapped (Val r1) ;;
  x3 <- get U32 flex_set_chord_name x2 "tonic" ;;
  Val (
    x3 = VTonic TG)).
Proof. run_test. Qed.

(* flex_data/set_chord_name.rs 462 *)
Example t_flex_data_set_chord_name_chord_type : passes (
  r1 <- concrete_try_from U32 (CFixed flex_set_chord_name) [0xd70b0006; 0xf7033519; 0x4b000000; 0x110a0020]%N ;;
  x2 <- unwrapped (Val r1) ;;
  x3 <- get U32 flex_set_chord_name x2 "chord_type" ;;
  Val (
    x3 = VChordType Major7th)).
Proof. run_test. Qed.

(* flex_data/set_chord_name.rs 472 *)
Example t_flex_data_set_chord_name_chord_alteration1 : passes (
  r1 <- concrete_try_from U32 (CFixed flex_set_chord_name) [0xd70b0006; 0xf7033519; 0x4b000000; 0x110a0020]%N ;;
  x2 <- unwrapped (Val r1) ;;
  x3 <- get U32 flex_set_chord_name x2 "chord_alteration1" ;;
  Val (
    x3 = VAlt (Some (Raise 5)))).
Proof. run_test. Qed.

(* flex_data/set_chord_name.rs 482 *)
Example t_flex_data_set_chord_name_chord_alteration2 : passes (
  r1 <- concrete_try_from U32 (CFixed flex_set_chord_name) [0xd70b0006; 0xf7033519; 0x4b000000; 0x110a0020]%N ;;
  x2 <- unwrapped (Val r1) ;;
  x3 <- get U32 flex_set_chord_name x2 "chord_alteration2" ;;
  Val (
    x3 = VAlt (Some (Add 9)))).
Proof. run_test. Qed.

(* flex_data/set_chord_name.rs 492 *)
Example t_flex_data_set_chord_name_chord_alteration3 : passes (
  r1 <- concrete_try_from U32 (CFixed flex_set_chord_name) [0xd70b0006; 0xf7033519; 0x4b000000; 0x110a0020]%N ;;
  x2 <- unwrapped (Val r1) ;;
  x3 <- get U32 flex_set_chord_name x2 "chord_alteration3" ;;
  Val (
    x3 = VAlt (Some (Lower 11)))).
Proof. run_test. Qed.

(* flex_data/set_chord_name.rs 502 *)
Example t_flex_data_set_chord_name_chord_alteration4 : passes (
  r1 <- concrete_try_from U32 (CFixed flex_set_chord_name) [0xd70b0006; 0xf7033519; 0x4b000000; 0x110a0020]%N ;;
  x2 <- unwrapped (Val r1) ;;
  x3 <- get U32 flex_set_chord_name x2 "chord_alteration4" ;;
  Val (
    x3 = VAlt None)).
Proof. run_test. Qed.

(* flex_data/set_chord_name.rs 512 *)
Example t_flex_data_set_chord_name_bass_sharps_flats : passes (
  r1 <- concrete_try_from U32 (CFixed flex_set_chord_name) [0xd70b0006; 0xf7033519; 0x4b000000; 0x110a0020]%N ;;
  x2 <- unwrapped (Val r1) ;;
  x3 <- get U32 flex_set_chord_name x2 "bass_sharps_flats" ;;
  Val (
    x3 = VChordSF Sharp)).
Proof. run_test. Qed.

(* flex_data/set_chord_name.rs 522 *)
Example t_flex_data_set_chord_name_bass_note : passes (
  r1 <- concrete_try_from U32 (CFixed flex_set_chord_name) [0xd70b0006; 0xf7033519; 0x4b000000; 0x110a0020]%N ;;
  x2 <- unwrapped (Val r1) ;;
  x3 <- get U32 flex_set_chord_name x2 "bass_note" ;;
  Val (
    x3 = VTonic TA)).
Proof. run_test. Qed.

(* flex_data/set_chord_name.rs 532 *)
Example t_flex_data_set_chord_name_bass_chord_type : passes (
  r1 <- concrete_try_from U32 (CFixed flex_set_chord_name) [0xd70b0006; 0xf7033519; 0x4b000000; 0x110a0020]%N ;;
  x2 <- unwrapped (Val r1) ;;
  x3 <- get U32 flex_set_chord_name x2 "bass_chord_type" ;;
  Val (
    x3 = VChordType Minor9th)).
Proof. run_test. Qed.

(* flex_data/set_chord_name.rs 542 *)
Example t_flex_data_set_chord_name_bass_alteration1 : passes (
  r1 <- concrete_try_from U32 (CFixed flex_set_chord_name) [0xd70b0006; 0xf7033519; 0x4b000000; 0x110a0020]%N ;;
  x2 <- unwrapped (Val r1) ;;
  x3 <- get U32 flex_set_chord_name x2 "bass_alteration1" ;;
  Val (
    x3 = VAlt None)).
Proof. run_test. Qed.

(* flex_data/set_chord_name.rs 552 *)
Example t_flex_data_set_chord_name_bass_alteration2 : passes (
  r1 <- concrete_try_from U32 (CFixed flex_set_chord_name) [0xd70b0006; 0xf7033519; 0x4b000000; 0x110a0020]%N ;;
  x2 <- unwrapped (Val r1) ;;
  x3 <- get U32 flex_set_chord_name x2 "bass_alteration2" ;;
  Val (
    x3 = VAlt (Some (Subtract 0)))).
Proof. run_test. Qed.

(** *** midi2/src/flex_data/set_key_signature.rs *)

(* flex_data/set_key_signature.rs 98 *)
Example t_flex_data_set_key_signature_setters : passes (
  m1 <- array_new U32 flex_set_key_signature 4 ;;
  m2 <- set U32 flex_set_key_signature m1 "group" (VNum 4) ;;
  m3 <- set U32 flex_set_key_signature m2 "tonic" (VTonic TD) ;;
  m4 <- set U32 flex_set_key_signature m3 "sharps_flats" (VKeySF (Sharps 5)) ;;
  Val (
    m4 = [0xd4100005; 0x54000000; 0; 0]%N)).
Proof. run_test. Qed.

(* flex_data/set_key_signature.rs 110 *)
Example t_flex_data_set_key_signature_set_flats : passes (
  m1 <- array_new U32 flex_set_key_signature 4 ;;
  m2 <- set U32 flex_set_key_signature m1 "group" (VNum 4) ;;
  m3 <- set U32 flex_set_key_signature m2 "tonic" (VTonic TD) ;;
  m4 <- set U32 flex_set_key_signature m3 "sharps_flats" (VKeySF (Flats 5)) ;;
  Val (
    m4 = [0xd4100005; 0xb4000000; 0; 0]%N)).
Proof. run_test. Qed.

(* flex_data/set_key_signature.rs 122 *)
Example t_flex_data_set_key_signature_builder_non_standard : passes (
  m1 <- array_new U32 flex_set_key_signature 4 ;;
  m2 <- set U32 flex_set_key_signature m1 "group" (VNum 4) ;;
  m3 <- set U32 flex_set_key_signature m2 "tonic" (VTonic TNonStandard) ;;
  m4 <- set U32 flex_set_key_signature m3 "sharps_flats" (VKeySF KNonStandard) ;;
  Val (
    m4 = [0xd4100005; 0x80000000; 0; 0]%N)).
Proof. run_test. Qed.

(* flex_data/set_key_signature.rs 134 *)
Example t_flex_data_set_key_signature_builder_channel : passes (
  m1 <- array_new U32 flex_set_key_signature 4 ;;
  m2 <- set U32 flex_set_key_signature m1 "group" (VNum 4) ;;
  m3 <- set U32 flex_set_key_signature m2 "tonic" (VTonic TNonStandard) ;;
  m4 <- set U32 flex_set_key_signature m3 "sharps_flats" (VKeySF KNonStandard) ;;
  m5 <- set U32 flex_set_key_signature m4 "optional_channel" (VOptNum (Some 13%N)) ;;
  Val (
    m5 = [0xd40d0005; 0x80000000; 0; 0]%N)).
Proof. run_test. Qed.

(* flex_data/set_key_signature.rs 147 *)
Example t_flex_data_set_key_signature_tonic : passes (
  r1 <- concrete_try_from U32 (CFixed flex_set_key_signature) [0xd4100005; 0x54000000; 0; 0]%N ;;
  x2 <- unwrapped (Val r1) ;;
  x3 <- get U32 flex_set_key_signature x2 "tonic" ;;
  Val (
    x3 = VTonic TD)).
Proof. run_test. Qed.

(* flex_data/set_key_signature.rs 157 *)
Example t_flex_data_set_key_signature_sharps_flats : passes (
  r1 <- concrete_try_from U32 (CFixed flex_set_key_signature) [0xd4100005; 0x54000000; 0; 0]%N ;;
  x2 <- unwrapped (Val r1) ;;
  x3 <- get U32 flex_set_key_signature x2 "sharps_flats" ;;
  Val (
    x3 = VKeySF (Sharps 5))).
Proof. run_test. Qed.

(* flex_data/set_key_signature.rs 167 *)
Example t_flex_data_set_key_signature_sharps_flats_with_flats : passes (
  r1 <- concrete_try_from U32 (CFixed flex_set_key_signature) [0xd4100005; 0xb4000000; 0; 0]%N ;;
  x2 <- unwrapped (Val r1) ;;
  x3 <- get U32 flex_set_key_signature x2 "sharps_flats" ;;
  Val (
    x3 = VKeySF (Flats 5))).
Proof. run_test. Qed.

(* flex_data/set_key_signature.rs 177 *)
Example t_flex_data_set_key_signature_sharps_flats_non_standard : passes (
  r1 <- concrete_try_from U32 (CFixed flex_set_key_signature) [0xd4100005; 0x80000000; 0; 0]%N ;;
  x2 <- unwrapped (Val r1) ;;
  x3 <- get U32 flex_set_key_signature x2 "sharps_flats" ;;
  Val (
    x3 = VKeySF KNonStandard)).
Proof. run_test. Qed.

(* flex_data/set_key_signature.rs 187 *)
Example t_flex_data_set_key_signature_channel : passes (
  r1 <- concrete_try_from U32 (CFixed flex_set_key_signature) [0xd40d0005; 0x80000000; 0; 0]%N ;;
  x2 <- unwrapped (Val r1) ;;
  x3 <- get U32 flex_set_key_signature x2 "optional_channel" ;;
  Val (
    x3 = VOptNum (Some 13%N))).
Proof. run_test. Qed.

(* flex_data/set_key_signature.rs 197 *)
Example t_flex_data_set_key_signature_no_channel : passes (
  r1 <- concrete_try_from U32 (CFixed flex_set_key_signature) [0xd4100005; 0x80000000; 0; 0]%N ;;
  x2 <- unwrapped (Val r1) ;;
  x3 <- get U32 flex_set_key_signature x2 "optional_channel" ;;
  Val (
    x3 = VOptNum None)).
Proof. run_test. Qed.

(** *** midi2/src/flex_data/set_metronome.rs *)

(* flex_data/set_metronome.rs 65 *)
Example t_flex_data_set_metronome_setters : passes (
  m1 <- array_new U32 flex_set_metronome 4 ;;
  m2 <- set U32 flex_set_metronome m1 "group" (VNum 1) ;;
  m3 <- set U32 flex_set_metronome m2 "number_of_clocks_per_primary_click" (VNum 155) ;;
  m4 <- set U32 flex_set_metronome m3 "bar_accent1" (VNum 74) ;;
  m5 <- set U32 flex_set_metronome m4 "bar_accent2" (VNum 254) ;;
  m6 <- set U32 flex_set_metronome m5 "bar_accent3" (VNum 86) ;;
  m7 <- set U32 flex_set_metronome m6 "number_of_subdivision_clicks1" (VNum 184) ;;
  m8 <- set U32 flex_set_metronome m7 "number_of_subdivision_clicks2" (VNum 27) ;;
  Val (
    m8 = [0xd1100002; 0x9b4afe56; 0xb81b0000; 0]%N)).
Proof. run_test. Qed.

(* flex_data/set_metronome.rs 81 *)
Example t_flex_data_set_metronome_number_of_clocks_per_primary_click : passes (
  r1 <- concrete_try_from U32 (CFixed flex_set_metronome) [0xd1100002; 0x9b4afe56; 0xb81b0000; 0]%N ;;
  x2 <- unwrapped (Val r1) ;;
  x3 <- get U32 flex_set_metronome x2 "number_of_clocks_per_primary_click" ;;
  Val (
    x3 = VNum 155)).
Proof. run_test. Qed.

(* flex_data/set_metronome.rs 91 *)
Example t_flex_data_set_metronome_bar_accent1 : passes (
  r1 <- concrete_try_from U32 (CFixed flex_set_metronome) [0xd1100002; 0x9b4afe56; 0xb81b0000; 0]%N ;;
  x2 <- unwrapped (Val r1) ;;
  x3 <- get U32 flex_set_metronome x2 "bar_accent1" ;;
  Val (
    x3 = VNum 74)).
Proof. run_test. Qed.

(* flex_data/set_metronome.rs 101 *)
Example t_flex_data_set_metronome_bar_accent2 : passes (
  r1 <- concrete_try_from U32 (CFixed flex_set_metronome) [0xd1100002; 0x9b4afe56; 0xb81b0000; 0]%N ;;
  x2 <- unwrapped (Val r1) ;;
  x3 <- get U32 flex_set_metronome x2 "bar_accent2" ;;
  Val (
    x3 = VNum 254)).
Proof. run_test. Qed.

(* flex_data/set_metronome.rs 111 *)
Example t_flex_data_set_metronome_bar_accent3 : passes (
  r1 <- concrete_try_from U32 (CFixed flex_set_metronome) [0xd1100002; 0x9b4afe56; 0xb81b0000; 0]%N ;;
  x2 <- unwrapped (Val r1) ;;
  x3 <- get U32 flex_set_metronome x2 "bar_accent3" ;;
  Val (
    x3 = VNum 86)).
Proof. run_test. Qed.

(* flex_data/set_metronome.rs 121 *)
Example t_flex_data_set_metronome_number_of_subdivision_clicks1 : passes (
  r1 <- concrete_try_from U32 (CFixed flex_set_metronome) [0xd1100002; 0x9b4afe56; 0xb81b0000; 0]%N ;;
  x2 <- unwrapped (Val r1) ;;
  x3 <- get U32 flex_set_metronome x2 "number_of_subdivision_clicks1" ;;
  Val (
    x3 = VNum 184)).
Proof. run_test. Qed.

(* flex_data/set_metronome.rs 131 *)
Example t_flex_data_set_metronome_number_of_subdivision_clicks2 : passes (
  r1 <- concrete_try_from U32 (CFixed flex_set_metronome) [0xd1100002; 0x9b4afe56; 0xb81b0000; 0]%N ;;
  x2 <- unwrapped (Val r1) ;;
  x3 <- get U32 flex_set_metronome x2 "number_of_subdivision_clicks2" ;;
  Val (
    x3 = VNum 27)).
Proof. run_test. Qed.

(** *** midi2/src/flex_data/set_tempo.rs *)

(* flex_data/set_tempo.rs 40 *)
Example t_flex_data_set_tempo_builder : passes (
  m1 <- array_new U32 flex_set_tempo 4 ;;
  m2 <- set U32 flex_set_tempo m1 "group" (VNum 7) ;;
  m3 <- set U32 flex_set_tempo m2 "number_of_10_nanosecond_units_per_quarter_note" (VNum 0xf751fe05) ;;
  Val (
    m3 = [0xd7100000; 0xf751fe05; 0; 0]%N)).
Proof. run_test. Qed.

(* flex_data/set_tempo.rs 48 *)
Example t_flex_data_set_tempo_number_of_10_nanosecond_units_per_quarter_note : passes (
  r1 <- concrete_try_from U32 (CFixed flex_set_tempo) [0xd7100000; 0xf751fe05; 0; 0]%N ;;
  x2 <- unwrapped (Val r1) ;;
  x3 <- get U32 flex_set_tempo x2 "number_of_10_nanosecond_units_per_quarter_note" ;;
  Val (
    x3 = VNum 0xf751fe05)).
Proof. run_test. Qed.

(** *** midi2/src/flex_data/set_time_signature.rs *)

(* flex_data/set_time_signature.rs 50 *)
Example t_flex_data_set_time_signature_builder : passes (
  m1 <- array_new U32 flex_set_time_signature 4 ;;
  m2 <- set U32 flex_set_time_signature m1 "group" (VNum 10) ;;
  m3 <- set U32 flex_set_time_signature m2 "numerator" (VNum 205) ;;
  m4 <- set U32 flex_set_time_signature m3 "denominator" (VNum 144) ;;
  m5 <- set U32 flex_set_time_signature m4 "number_of_32nd_notes" (VNum 126) ;;
  Val (
    m5 = [0xda100001; 0xcd907e00; 0; 0]%N)).
Proof. run_test. Qed.

(* flex_data/set_time_signature.rs 63 *)
Example t_flex_data_set_time_signature_numerator : passes (
  r1 <- concrete_try_from U32 (CFixed flex_set_time_signature) [0xda100001; 0xcd907e00; 0; 0]%N ;;
  x2 <- unwrapped (Val r1) ;;
  x3 <- get U32 flex_set_time_signature x2 "numerator" ;;
  Val (
    x3 = VNum 205)).
Proof. run_test. Qed.

(* flex_data/set_time_signature.rs 73 *)
Example t_flex_data_set_time_signature_denominator : passes (
  r1 <- concrete_try_from U32 (CFixed flex_set_time_signature) [0xda100001; 0xcd907e00; 0; 0]%N ;;
  x2 <- unwrapped (Val r1) ;;
  x3 <- get U32 flex_set_time_signature x2 "denominator" ;;
  Val (
    x3 = VNum 144)).
Proof. run_test. Qed.

(* flex_data/set_time_signature.rs 83 *)
Example t_flex_data_set_time_signature_number_of_32nd_notes : passes (
  r1 <- concrete_try_from U32 (CFixed flex_set_time_signature) [0xda100001; 0xcd907e00; 0; 0]%N ;;
  x2 <- unwrapped (Val r1) ;;
  x3 <- get U32 flex_set_time_signature x2 "number_of_32nd_notes" ;;
  Val (
    x3 = VNum 126)).
Proof. run_test. Qed.

(* flex_data/set_time_signature.rs 93 *)
Example t_flex_data_set_time_signature_bank : passes (
  r1 <- concrete_try_from U32 (CFixed flex_set_time_signature) [0xda100001; 0xcd907e00; 0; 0]%N ;;
  x2 <- unwrapped (Val r1) ;;
  x3 <- agg_bank ((CFixed flex_set_time_signature), x2) ;;
  Val (
    x3 = 0%N)).
Proof. run_test. Qed.

(* flex_data/set_time_signature.rs 103 *)
Example t_flex_data_set_time_signature_status : passes (
  r1 <- concrete_try_from U32 (CFixed flex_set_time_signature) [0xda100001; 0xcd907e00; 0; 0]%N ;;
  x2 <- unwrapped (Val r1) ;;
  x3 <- agg_status ((CFixed flex_set_time_signature), x2) ;;
  Val (
    x3 = 1%N)).
Proof. run_test. Qed.

(** *** midi2/src/flex_data/unknown_metadata_text.rs *)

(* flex_data/unknown_metadata_text.rs 56 *)
Example t_flex_data_unknown_metadata_text_text_bytes : passes (
  m1 <- flex_new k_UnknownMetadataText ;;
  x2 <- flex_set_text m1 [71; 105; 109; 109; 101; 32; 115; 111; 109; 101; 32; 115; 105; 103; 110; 97; 108; 33]%N ;;
  Val (
    True)).
Proof. run_test. Qed.

(* flex_data/unknown_metadata_text.rs 63 *)
Example t_flex_data_unknown_metadata_text_new : passes (
  m1 <- flex_new k_UnknownMetadataText ;;
  Val (
    m1 = [0xd0100100; 0; 0; 0]%N)).
Proof. run_test. Qed.

(* flex_data/unknown_metadata_text.rs 71 *)
Example t_flex_data_unknown_metadata_text_set_text : passes (
  m1 <- flex_new k_UnknownMetadataText ;;
  x2 <- flex_set_text m1 [71; 105; 109; 109; 101; 32; 115; 111; 109; 101; 32; 115; 105; 103; 110; 97; 108; 33]%N ;;
  Val (
    x2 = [0xd0500100; 0x47696d6d; 0x6520736f; 0x6d652073; 0xd0d00100; 0x69676e61; 0x6c210000; 0]%N)).
Proof. run_test. Qed.

(* flex_data/unknown_metadata_text.rs 90 *)
Example t_flex_data_unknown_metadata_text_set_long_text : passes (
  m1 <- flex_new k_UnknownMetadataText ;;
  x2 <- flex_set_text m1 [83; 121; 110; 116; 104; 32; 119; 105; 122; 97; 114; 100; 114; 121; 58; 32; 116; 117; 114; 110; 105; 110; 103; 32; 107; 110; 111; 98; 115; 32; 97; 110; 100; 32; 102; 108; 105; 112; 112; 105; 110; 103; 32; 115; 119; 105; 116; 99; 104; 101; 115; 32; 117; 110; 116; 105; 108; 32; 105; 116; 32; 115; 111; 117; 110; 100; 115; 32; 108; 105; 107; 101; 32; 97; 32; 108; 97; 115; 101; 114; 32; 98; 97; 116; 116; 108; 101; 32; 105; 110; 32; 115; 112; 97; 99; 101; 33; 32; 240; 159; 146; 171; 240; 159; 148; 138; 240; 159; 154; 128]%N ;;
  Val (
    x2 = [0xd0500100; 0x53796e74; 0x68207769; 0x7a617264; 0xd0900100; 0x72793a20; 0x7475726e; 0x696e6720; 0xd0900100; 0x6b6e6f62; 0x7320616e; 0x6420666c; 0xd0900100; 0x69707069; 0x6e672073; 0x77697463; 0xd0900100; 0x68657320; 0x756e7469; 0x6c206974; 0xd0900100; 0x20736f75; 0x6e647320; 0x6c696b65; 0xd0900100; 0x2061206c; 0x61736572; 0x20626174; 0xd0900100; 0x746c6520; 0x696e2073; 0x70616365; 0xd0900100; 0x2120f09f; 0x92abf09f; 0x948af09f; 0xd0d00100; 0x9a800000; 0; 0]%N)).
Proof. run_test. Qed.

(* flex_data/unknown_metadata_text.rs 141 *)
Example t_flex_data_unknown_metadata_text_set_long_text_and_reset_to_short : passes (
  m1 <- flex_new k_UnknownMetadataText ;;
  x2 <- flex_set_text m1 [83; 121; 110; 116; 104; 32; 119; 105; 122; 97; 114; 100; 114; 121; 58; 32; 116; 117; 114; 110; 105; 110; 103; 32; 107; 110; 111; 98; 115; 32; 97; 110; 100; 32; 102; 108; 105; 112; 112; 105; 110; 103; 32; 115; 119; 105; 116; 99; 104; 101; 115; 32; 117; 110; 116; 105; 108; 32; 105; 116; 32; 115; 111; 117; 110; 100; 115; 32; 108; 105; 107; 101; 32; 97; 32; 108; 97; 115; 101; 114; 32; 98; 97; 116; 116; 108; 101; 32; 105; 110; 32; 115; 112; 97; 99; 101; 33; 32; 240; 159; 146; 171; 240; 159; 148; 138; 240; 159; 154; 128]%N ;;
  x3 <- flex_set_text x2 [71; 105; 109; 109; 101; 32; 115; 111; 109; 101; 32; 115; 105; 103; 110; 97; 108; 33]%N ;;
  Val (
    x3 = [0xd0500100; 0x47696d6d; 0x6520736f; 0x6d652073; 0xd0d00100; 0x69676e61; 0x6c210000; 0]%N)).
Proof. run_test. Qed.

(* flex_data/unknown_metadata_text.rs 161 *)
Example t_flex_data_unknown_metadata_text_set_group : passes (
  m1 <- flex_new k_UnknownMetadataText ;;
  x2 <- flex_set_text m1 [71; 105; 109; 109; 101; 32; 115; 111; 109; 101; 32; 115; 105; 103; 110; 97; 108; 33]%N ;;
  x3 <- flex_set_group x2 10 ;;
  Val (
    x3 = [0xda500100; 0x47696d6d; 0x6520736f; 0x6d652073; 0xdad00100; 0x69676e61; 0x6c210000; 0]%N)).
Proof. run_test. Qed.

(* flex_data/unknown_metadata_text.rs 181 *)
Example t_flex_data_unknown_metadata_text_try_set_text : passes (
  m1 <- unwrapped (flex_try_new k_UnknownMetadataText 8) ;;
  x2 <- flex_try_set_text m1 [71; 105; 109; 109; 101; 32; 115; 111; 109; 101; 32; 115; 105; 103; 110; 97; 108; 33]%N ;;
  _ <- check (snd x2) ;;
  Val (
    (fst x2) = [0xd0500100; 0x47696d6d; 0x6520736f; 0x6d652073; 0xd0d00100; 0x69676e61; 0x6c210000; 0]%N)).
Proof. run_test. Qed.

(* flex_data/unknown_metadata_text.rs 202 *)
Example t_flex_data_unknown_metadata_text_try_from : passes (
  r1 <- concrete_try_from U32 (CFlexText k_UnknownMetadataText) [0xd0500100; 0x47696d6d; 0x6520736f; 0x6d652073; 0xd0d00100; 0x69676e61; 0x6c210000; 0]%N ;;
  Val (
    r1 = (Ok [0xd0500100; 0x47696d6d; 0x6520736f; 0x6d652073; 0xd0d00100; 0x69676e61; 0x6c210000; 0]%N))).
Proof. run_test. Qed.

(* flex_data/unknown_metadata_text.rs 232 *)
Example t_flex_data_unknown_metadata_text_try_from_inconsistent_status : passes (
  r1 <- concrete_try_from U32 (CFlexText k_UnknownMetadataText) [0xd0500100; 0x47696d6d; 0x6520736f; 0x6d652073; 0xd0d00101; 0x69676e61; 0x6c210000; 0]%N ;;
  Val (
    r1 = (Err "Incorrect message status"))).
Proof. run_test. Qed.

(* flex_data/unknown_metadata_text.rs 251 *)
Example t_flex_data_unknown_metadata_text_try_from_inconsistent_bank : passes (
  r1 <- concrete_try_from U32 (CFlexText k_UnknownMetadataText) [0xd0500100; 0x47696d6d; 0x6520736f; 0x6d652073; 0xd0d00200; 0x69676e61; 0x6c210000; 0]%N ;;
  Val (
    r1 = (Err "Incorrect message bank"))).
Proof. run_test. Qed.

(* flex_data/unknown_metadata_text.rs 270 *)
Example t_flex_data_unknown_metadata_text_try_from_inconsistent_groups : passes (
  r1 <- concrete_try_from U32 (CFlexText k_UnknownMetadataText) [0xda100100; 0x47696d6d; 0x6520736f; 0x6d652073; 0xdbd00100; 0x69676e61; 0x6c210000; 0]%N ;;
  Val (
    r1 = (Err "Inconsistent groups across packets"))).
Proof. run_test. Qed.

(* flex_data/unknown_metadata_text.rs 291 *)
Example t_flex_data_unknown_metadata_text_try_from_expected_start : passes (
  r1 <- concrete_try_from U32 (CFlexText k_UnknownMetadataText) [0xd0100100; 0x47696d6d; 0x6520736f; 0x6d652073; 0xd0d00100; 0x69676e61; 0x6c210000; 0]%N ;;
  Val (
    r1 = (Err "Expected Begin packet"))).
Proof. run_test. Qed.

(* flex_data/unknown_metadata_text.rs 312 *)
Example t_flex_data_unknown_metadata_text_try_from_expected_end : passes (
  r1 <- concrete_try_from U32 (CFlexText k_UnknownMetadataText) [0xd0500100; 0x47696d6d; 0x6520736f; 0x6d652073; 0xd0900100; 0x69676e61; 0x6c210000; 0]%N ;;
  Val (
    r1 = (Err "Expected End packet"))).
Proof. run_test. Qed.

(* flex_data/unknown_metadata_text.rs 333 *)
Example t_flex_data_unknown_metadata_text_try_from_expected_complete : passes (
  r1 <- concrete_try_from U32 (CFlexText k_UnknownMetadataText) [0xd0500100; 0x47696d6d; 0x6520736f; 0x6d652073]%N ;;
  Val (
    r1 = (Err "Expected Complete packet"))).
Proof. run_test. Qed.

(* flex_data/unknown_metadata_text.rs 345 *)
Example t_flex_data_unknown_metadata_text_try_from_expected_continue : passes (
  r1 <- concrete_try_from U32 (CFlexText k_UnknownMetadataText) [0xd0500100; 0x47696d6d; 0x6520736f; 0x6d652073; 0xd0500100; 0x47696d6d; 0x6520736f; 0x6d652073; 0xd0900100; 0x47696d6d; 0x6520736f; 0x6d652073]%N ;;
  Val (
    r1 = (Err "Expected Continue packet"))).
Proof. run_test. Qed.

(* flex_data/unknown_metadata_text.rs 370 *)
Example t_flex_data_unknown_metadata_text_read_text_bytes : passes (
  r1 <- concrete_try_from U32 (CFlexText k_UnknownMetadataText) [0xd0500100; 0x47696d6d; 0x6520736f; 0x6d652073; 0xd0d00100; 0x69676e61; 0x6c210000; 0]%N ;;
  x2 <- unwrapped (Val r1) ;;
  l3 <- ti_collect flex_form (text_bytes x2) ;;
  Val (
    l3 = [71; 105; 109; 109; 101; 32; 115; 111; 109; 101; 32; 115; 105; 103; 110; 97; 108; 33]%N)).
Proof. run_test. Qed.

(* flex_data/unknown_metadata_text.rs 395 *)
Example t_flex_data_unknown_metadata_text_read_empty_text_bytes : passes (
  m1 <- flex_new k_UnknownMetadataText ;;
  l2 <- ti_collect flex_form (text_bytes m1) ;;
  Val (
    l2 = [])).
Proof. run_test. Qed.

(* flex_data/unknown_metadata_text.rs 405 *)
Example t_flex_data_unknown_metadata_text_read_string : passes (
  r1 <- concrete_try_from U32 (CFlexText k_UnknownMetadataText) [0xd0500100; 0x47696d6d; 0x6520736f; 0x6d652073; 0xd0d00100; 0x69676e61; 0x6c210000; 0]%N ;;
  x2 <- unwrapped (Val r1) ;;
  x3 <- flex_text x2 ;;
  Val (
    x3 = [71; 105; 109; 109; 101; 32; 115; 111; 109; 101; 32; 115; 105; 103; 110; 97; 108; 33]%N)).
Proof. run_test. Qed.

(* flex_data/unknown_metadata_text.rs 427 *)
Example t_flex_data_unknown_metadata_text_set_string_multiple_of_12_length : passes (
  m1 <- flex_new k_UnknownMetadataText ;;
  x2 <- flex_set_text m1 [68; 105; 103; 105; 116; 97; 108; 32; 65; 117; 100; 105; 111; 32; 87; 111; 114; 107; 115; 116; 97; 116; 105; 111; 110; 32; 45; 32; 68; 65; 87; 51; 54; 45; 49; 54]%N ;;
  Val (
    x2 = [0xd0500100; 0x44696769; 0x74616c20; 0x41756469; 0xd0900100; 0x6f20576f; 0x726b7374; 0x6174696f; 0xd0d00100; 0x6e202d20; 0x44415733; 0x362d3136]%N)).
Proof. run_test. Qed.

(* flex_data/unknown_metadata_text.rs 450 *)
Example t_flex_data_unknown_metadata_text_data : passes (
  r1 <- concrete_try_from U32 (CFlexText k_UnknownMetadataText) [0xd0500100; 0x44696769; 0x74616c20; 0x41756469; 0xd0900100; 0x6f20576f; 0x726b7374; 0x6174696f; 0xd0d00100; 0x6e202d20; 0x44415733; 0x362d3136]%N ;;
  x2 <- unwrapped (Val r1) ;;
  d3 <- concrete_data U32 (CFlexText k_UnknownMetadataText) x2 ;;
  Val (
    d3 = [0xd0500100; 0x44696769; 0x74616c20; 0x41756469; 0xd0900100; 0x6f20576f; 0x726b7374; 0x6174696f; 0xd0d00100; 0x6e202d20; 0x44415733; 0x362d3136]%N)).
Proof. run_test. Qed.

(* flex_data/unknown_metadata_text.rs 488 *)
Example t_flex_data_unknown_metadata_text_packets : passes (
  r1 <- concrete_try_from U32 (CFlexText k_UnknownMetadataText) [0xd0500100; 0x44696769; 0x74616c20; 0x41756469; 0xd0900100; 0x6f20576f; 0x726b7374; 0x6174696f; 0xd0d00100; 0x6e202d20; 0x44415733; 0x362d3136]%N ;;
  x2 <- unwrapped (Val r1) ;;
  x3 <- agg_packets ((CFlexText k_UnknownMetadataText), x2) ;;
  x4 <- packets_next x3 ;;
  x5 <- some_of (fst x4) ;;
  x6 <- packets_next (snd x4) ;;
  x7 <- some_of (fst x6) ;;
  x8 <- packets_next (snd x6) ;;
  x9 <- some_of (fst x8) ;;
  x10 <- packets_next (snd x8) ;;
  Val (
    (packet_data x5) = [0xd0500100; 0x44696769; 0x74616c20; 0x41756469]%N /\
    (packet_data x7) = [0xd0900100; 0x6f20576f; 0x726b7374; 0x6174696f]%N /\
    (packet_data x9) = [0xd0d00100; 0x6e202d20; 0x44415733; 0x362d3136]%N /\
    (fst x10) = None)).
Proof. run_test. Qed.
