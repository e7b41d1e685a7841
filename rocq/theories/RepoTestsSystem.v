(** Generated: the unit tests of /repo, system_common, system_common.rs, utility, utility.rs, read as statements about the
    model.  They check that the model computes what the project's own tests
    expect of the code; they are tests, not proofs of a property. *)
From Coq Require Import NArith List String Bool.
From Verif Require Import Base BitOps Values Props Message MessageTable Text Sysex Splice SpecSysex SpecEdits SpecPacket SysexClient Aggregate Packet Receiver Ci RepoTests.
Import ListNotations.
Local Open Scope string_scope.

(** *** midi2/src/system_common.rs *)

(* system_common.rs 314 *)
Example t_system_common_timing_clock_bytes_data : passes (
  r1 <- concrete_try_from U8 (CFixed sys_timing_clock) [248]%N ;;
  x2 <- unwrapped (Val r1) ;;
  d3 <- concrete_data U8 (CFixed sys_timing_clock) x2 ;;
  Val (
    d3 = [248]%N)).
Proof. run_test. Qed.

(* system_common.rs 323 *)
Example t_system_common_start_bytes_data : passes (
  r1 <- concrete_try_from U8 (CFixed sys_start) [250]%N ;;
  x2 <- unwrapped (Val r1) ;;
  d3 <- concrete_data U8 (CFixed sys_start) x2 ;;
  Val (
    d3 = [250]%N)).
Proof. run_test. Qed.

(* system_common.rs 332 *)
Example t_system_common_continue_bytes_data : passes (
  r1 <- concrete_try_from U8 (CFixed sys_continue) [251]%N ;;
  x2 <- unwrapped (Val r1) ;;
  d3 <- concrete_data U8 (CFixed sys_continue) x2 ;;
  Val (
    d3 = [251]%N)).
Proof. run_test. Qed.

(* system_common.rs 341 *)
Example t_system_common_stop_bytes_data : passes (
  r1 <- concrete_try_from U8 (CFixed sys_stop) [252]%N ;;
  x2 <- unwrapped (Val r1) ;;
  d3 <- concrete_data U8 (CFixed sys_stop) x2 ;;
  Val (
    d3 = [252]%N)).
Proof. run_test. Qed.

(* system_common.rs 350 *)
Example t_system_common_active_sensing_bytes_data : passes (
  r1 <- concrete_try_from U8 (CFixed sys_active_sensing) [254]%N ;;
  x2 <- unwrapped (Val r1) ;;
  d3 <- concrete_data U8 (CFixed sys_active_sensing) x2 ;;
  Val (
    d3 = [254]%N)).
Proof. run_test. Qed.

(* system_common.rs 359 *)
Example t_system_common_reset_bytes_data : passes (
  r1 <- concrete_try_from U8 (CFixed sys_reset) [255]%N ;;
  x2 <- unwrapped (Val r1) ;;
  d3 <- concrete_data U8 (CFixed sys_reset) x2 ;;
  Val (
    d3 = [255]%N)).
Proof. run_test. Qed.

(* system_common.rs 368 *)
Example t_system_common_from_byte_data : passes (
  r1 <- sys_try_from U8 [243; 77]%N ;;
  r2 <- concrete_try_from U8 (CFixed sys_song_select) [243; 77]%N ;;
  Val (
    r1 = (map_res (fun b => ((CFixed sys_song_select), b)) r2))).
Proof. run_test. Qed.

(* system_common.rs 376 *)
Example t_system_common_from_ump_data : passes (
  r1 <- sys_try_from U32 [0x15f15f00]%N ;;
  r2 <- concrete_try_from U32 (CFixed sys_time_code) [0x15f15f00]%N ;;
  Val (
    r1 = (map_res (fun b => ((CFixed sys_time_code), b)) r2))).
Proof. run_test. Qed.

(* system_common.rs 384 *)
Example t_system_common_packets : passes (
  r1 <- sys_try_from U32 [0x15f15f00]%N ;;
  x2 <- unwrapped (Val r1) ;;
  x3 <- agg_packets x2 ;;
  x4 <- packets_next x3 ;;
  x5 <- some_of (fst x4) ;;
  x6 <- packets_next (snd x4) ;;
  Val (
    (packet_data x5) = [0x15f15f00]%N /\
    (fst x6) = None)).
Proof. run_test. Qed.

(* system_common.rs 395 *)
Example t_system_common_rebuffer_from_array : passes (
  r1 <- sys_try_from U32 [0x15f15f00]%N ;;
  x2 <- unwrapped (Val r1) ;;
  x3 <- agg_array_rebuffer U32 x2 1 ;;
  Val (
    True)).
Proof. run_test. Qed.

(* system_common.rs 403 *)
Example t_system_common_rebuffer_from_array_bytes : passes (
  r1 <- sys_try_from U8 [243; 77]%N ;;
  x2 <- unwrapped (Val r1) ;;
  x3 <- agg_array_rebuffer U8 x2 3 ;;
  Val (
    True)).
Proof. run_test. Qed.

(** *** midi2/src/system_common/packet.rs *)

(* system_common/packet.rs 68 *)
Example t_system_common_packet_construction : passes (
  r1 <- kind_try_from PSystem [0x10000000]%N ;;
  Val (
    (is_okay r1) = true)).
Proof. run_test. Qed.

(* system_common/packet.rs 73 *)
Example t_system_common_packet_construction_long_slice : passes (
  r1 <- kind_try_from PSystem [0x10000000; 0]%N ;;
  Val (
    (is_okay r1) = true)).
Proof. run_test. Qed.

(* system_common/packet.rs 78 *)
Example t_system_common_packet_construction_incorrect_ump_message_type : passes (
  r1 <- kind_try_from PSystem [0]%N ;;
  Val (
    r1 = (Err "Incorrect UMP message type"))).
Proof. run_test. Qed.

(* system_common/packet.rs 88 *)
Example t_system_common_packet_construction_short_slice : passes (
  r1 <- kind_try_from PSystem []%N ;;
  Val (
    r1 = (Err "Slice is too short"))).
Proof. run_test. Qed.

(* system_common/packet.rs 98 *)
Example t_system_common_packet_group : passes (
  r1 <- kind_try_from PSystem [0x1a000000]%N ;;
  x2 <- unwrapped (Val r1) ;;
  x3 <- packet_group x2 ;;
  Val (
    x3 = 10%N)).
Proof. run_test. Qed.

(** *** midi2/src/system_common/song_position_pointer.rs *)

(* system_common/song_position_pointer.rs 38 *)
Example t_system_common_song_position_pointer_setters : passes (
  m1 <- array_new U32 sys_song_position_pointer 4 ;;
  m2 <- set U32 sys_song_position_pointer m1 "group" (VNum 10) ;;
  m3 <- set U32 sys_song_position_pointer m2 "position" (VNum 0x367d) ;;
  Val (
    m3 = [0x1af27d6c; 0; 0; 0]%N)).
Proof. run_test. Qed.

(* system_common/song_position_pointer.rs 46 *)
Example t_system_common_song_position_pointer_setters_bytes : passes (
  m1 <- array_new U8 sys_song_position_pointer 3 ;;
  m2 <- set U8 sys_song_position_pointer m1 "position" (VNum 0x367d) ;;
  Val (
    m2 = [242; 125; 108]%N)).
Proof. run_test. Qed.

(* system_common/song_position_pointer.rs 53 *)
Example t_system_common_song_position_pointer_group : passes (
  r1 <- concrete_try_from U32 (CFixed sys_song_position_pointer) [0x1af27d6c]%N ;;
  x2 <- unwrapped (Val r1) ;;
  x3 <- get U32 sys_song_position_pointer x2 "group" ;;
  Val (
    x3 = VNum 10)).
Proof. run_test. Qed.

(* system_common/song_position_pointer.rs 63 *)
Example t_system_common_song_position_pointer_position : passes (
  r1 <- concrete_try_from U32 (CFixed sys_song_position_pointer) [0x1af27d6c]%N ;;
  x2 <- unwrapped (Val r1) ;;
  x3 <- get U32 sys_song_position_pointer x2 "position" ;;
  Val (
    x3 = VNum 0x367d)).
Proof. run_test. Qed.

(* system_common/song_position_pointer.rs 73 *)
Example t_system_common_song_position_pointer_position_bytes : passes (
  r1 <- concrete_try_from U8 (CFixed sys_song_position_pointer) [242; 125; 108]%N ;;
  x2 <- unwrapped (Val r1) ;;
  x3 <- get U8 sys_song_position_pointer x2 "position" ;;
  Val (
    x3 = VNum 0x367d)).
Proof. run_test. Qed.

(* system_common/song_position_pointer.rs 83 *)
Example t_system_common_song_position_pointer_packets : passes (
  r1 <- concrete_try_from U32 (CFixed sys_song_position_pointer) [0x1af27d6c]%N ;;
  x2 <- unwrapped (Val r1) ;;
  x3 <- agg_packets ((CFixed sys_song_position_pointer), x2) ;;
  x4 <- packets_next x3 ;;
  x5 <- some_of (fst x4) ;;
  x6 <- packets_next (snd x4) ;;
  Val (
    (packet_data x5) = [0x1af27d6c]%N /\
    (fst x6) = None)).
Proof. run_test. Qed.

(** *** midi2/src/system_common/song_select.rs *)

(* system_common/song_select.rs 38 *)
Example t_system_common_song_select_setter : passes (
  m1 <- array_new U32 sys_song_select 4 ;;
  m2 <- set U32 sys_song_select m1 "group" (VNum 10) ;;
  m3 <- set U32 sys_song_select m2 "song" (VNum 79) ;;
  Val (
    m3 = [0x1af34f00; 0; 0; 0]%N)).
Proof. run_test. Qed.

(* system_common/song_select.rs 46 *)
Example t_system_common_song_select_setters_bytes : passes (
  m1 <- array_new U8 sys_song_select 3 ;;
  m2 <- set U8 sys_song_select m1 "song" (VNum 79) ;;
  Val (
    m2 = [243; 79; 0]%N)).
Proof. run_test. Qed.

(* system_common/song_select.rs 53 *)
Example t_system_common_song_select_group : passes (
  r1 <- concrete_try_from U32 (CFixed sys_song_select) [0x1af34f00]%N ;;
  x2 <- unwrapped (Val r1) ;;
  x3 <- get U32 sys_song_select x2 "group" ;;
  Val (
    x3 = VNum 10)).
Proof. run_test. Qed.

(* system_common/song_select.rs 63 *)
Example t_system_common_song_select_song : passes (
  r1 <- concrete_try_from U32 (CFixed sys_song_select) [0x1af34f00]%N ;;
  x2 <- unwrapped (Val r1) ;;
  x3 <- get U32 sys_song_select x2 "song" ;;
  Val (
    x3 = VNum 79)).
Proof. run_test. Qed.

(* system_common/song_select.rs 71 *)
Example t_system_common_song_select_song_bytes : passes (
  r1 <- concrete_try_from U8 (CFixed sys_song_select) [243; 79]%N ;;
  x2 <- unwrapped (Val r1) ;;
  x3 <- get U8 sys_song_select x2 "song" ;;
  Val (
    x3 = VNum 79)).
Proof. run_test. Qed.

(** *** midi2/src/system_common/time_code.rs *)

(* system_common/time_code.rs 38 *)
Example t_system_common_time_code_setter : passes (
  m1 <- array_new U32 sys_time_code 4 ;;
  m2 <- set U32 sys_time_code m1 "group" (VNum 5) ;;
  m3 <- set U32 sys_time_code m2 "time_code" (VNum 95) ;;
  Val (
    m3 = [0x15f15f00; 0; 0; 0]%N)).
Proof. run_test. Qed.

(* system_common/time_code.rs 46 *)
Example t_system_common_time_code_setters_bytes : passes (
  m1 <- array_new U8 sys_time_code 3 ;;
  m2 <- set U8 sys_time_code m1 "time_code" (VNum 95) ;;
  Val (
    m2 = [241; 95; 0]%N)).
Proof. run_test. Qed.

(* system_common/time_code.rs 53 *)
Example t_system_common_time_code_group : passes (
  r1 <- concrete_try_from U32 (CFixed sys_time_code) [0x15f15f00]%N ;;
  x2 <- unwrapped (Val r1) ;;
  x3 <- get U32 sys_time_code x2 "group" ;;
  Val (
    x3 = VNum 5)).
Proof. run_test. Qed.

(* system_common/time_code.rs 61 *)
Example t_system_common_time_code_time_code : passes (
  r1 <- concrete_try_from U32 (CFixed sys_time_code) [0x15f15f00]%N ;;
  x2 <- unwrapped (Val r1) ;;
  x3 <- get U32 sys_time_code x2 "time_code" ;;
  Val (
    x3 = VNum 95)).
Proof. run_test. Qed.

(** *** midi2/src/utility.rs *)

(* utility.rs 49 *)
Example t_utility_from_data : passes (
  r1 <- concrete_try_from U32 (CFixed util_timestamp) [0x201234]%N ;;
  Val (
    r1 = (Ok [0x201234]%N))).
Proof. run_test. Qed.

(* utility.rs 57 *)
Example t_utility_time_data : passes (
  r1 <- concrete_try_from U32 (CFixed util_timestamp) [0x201234]%N ;;
  x2 <- unwrapped (Val r1) ;;
  x3 <- get U32 util_timestamp x2 "time_data" ;;
  Val (
    x3 = VNum 0x1234)).
Proof. run_test. Qed.

(* utility.rs 65 *)
Example t_utility_new : passes (
  m1 <- new U32 util_timestamp ;;
  Val (
    m1 = [0x200000]%N)).
Proof. run_test. Qed.

(* utility.rs 71 *)
Example t_utility_try_new : passes (
  r1 <- try_new U32 util_timestamp 1 ;;
  Val (
    r1 = (Ok [0x200000]%N))).
Proof. run_test. Qed.

(* utility.rs 77 *)
Example t_utility_try_new_fail : passes (
  r1 <- try_new U32 util_timestamp 0 ;;
  Val (
    r1 = (Err "BufferOverflow"))).
Proof. run_test. Qed.

(* utility.rs 83 *)
Example t_utility_new_arr : passes (
  m1 <- array_new U32 util_timestamp 4 ;;
  Val (
    m1 = [0x200000; 0; 0; 0]%N)).
Proof. run_test. Qed.

(* utility.rs 89 *)
Example t_utility_rebuffer_into : passes (
  m1 <- array_new U32 util_timestamp 4 ;;
  d2 <- concrete_data U32 (CFixed util_timestamp) (rebuffer_vec m1) ;;
  d3 <- concrete_data U32 (CFixed util_timestamp) [0x200000]%N ;;
  Val (
    d2 = d3)).
Proof. run_test. Qed.

(* utility.rs 260 *)
Example t_utility_from_data_ : passes (
  r1 <- util_try_from [0x101234]%N ;;
  r2 <- concrete_try_from U32 (CFixed util_clock) [0x101234]%N ;;
  x3 <- unwrapped (Val r2) ;;
  Val (
    r1 = (Ok ((CFixed util_clock), x3)))).
Proof. run_test. Qed.

(* utility.rs 270 *)
Example t_utility_packets : passes (
  r1 <- util_try_from [0x101234]%N ;;
  x2 <- unwrapped (Val r1) ;;
  x3 <- agg_packets x2 ;;
  x4 <- packets_next x3 ;;
  x5 <- some_of (fst x4) ;;
  x6 <- packets_next (snd x4) ;;
  Val (
    (packet_data x5) = [0x101234]%N /\
    (fst x6) = None)).
Proof. run_test. Qed.

(* utility.rs 281 *)
Example t_utility_rebuffer_from : passes (
  r1 <- util_try_from [0x101234]%N ;;
  x2 <- unwrapped (Val r1) ;;
  x3 <- agg_array_rebuffer U32 x2 1 ;;
  Val (
    True)).
Proof. run_test. Qed.

(* utility.rs 289 *)
Example t_utility_delta_clock_stamp_try_from : passes (
  r1 <- concrete_try_from U32 (CFixed util_delta_clockstamp) [0x400000]%N ;;
  x2 <- unwrapped (Val r1) ;;
  Val (
    True)).
Proof. run_test. Qed.

(* utility.rs 294 *)
Example t_utility_delta_clock_stamp_u20 : passes (
  r1 <- concrete_try_from U32 (CFixed util_delta_clockstamp) [0x4abcde]%N ;;
  x2 <- unwrapped (Val r1) ;;
  x3 <- get U32 util_delta_clockstamp x2 "time_data" ;;
  r4 <- try_new_with_buffer U32 util_delta_clockstamp [0; 0; 0; 0]%N ;;
  x5 <- unwrapped (Val r4) ;;
  m6 <- set U32 util_delta_clockstamp x5 "time_data" (VNum 0x12345) ;;
  x7 <- get U32 util_delta_clockstamp m6 "time_data" ;;
  Val (
    x3 = VNum 0xabcde /\
    x7 = VNum 0x12345)).
Proof. run_test. Qed.

(* utility.rs 307 *)
Example t_utility_delta_clock_stamp_tpq_try_from : passes (
  r1 <- concrete_try_from U32 (CFixed util_delta_clockstamp_tpq) [0x300000]%N ;;
  x2 <- unwrapped (Val r1) ;;
  Val (
    True)).
Proof. run_test. Qed.

(* utility.rs 312 *)
Example t_utility_time_stamp_try_from : passes (
  r1 <- concrete_try_from U32 (CFixed util_timestamp) [0x200000]%N ;;
  x2 <- unwrapped (Val r1) ;;
  Val (
    True)).
Proof. run_test. Qed.

(** *** midi2/src/utility/packet.rs *)

(* utility/packet.rs 54 *)
Example t_utility_packet_construction : passes (
  r1 <- kind_try_from PUtility [0]%N ;;
  Val (
    (is_okay r1) = true)).
Proof. run_test. Qed.

(* utility/packet.rs 59 *)
Example t_utility_packet_construction_long_slice : passes (
  r1 <- kind_try_from PUtility [0; 0]%N ;;
  Val (
    (is_okay r1) = true)).
Proof. run_test. Qed.

(* utility/packet.rs 64 *)
Example t_utility_packet_construction_incorrect_ump_message_type : passes (
  r1 <- kind_try_from PUtility [0x10000000]%N ;;
  Val (
    r1 = (Err "Incorrect UMP message type"))).
Proof. run_test. Qed.

(* utility/packet.rs 74 *)
Example t_utility_packet_construction_short_slice : passes (
  r1 <- kind_try_from PUtility []%N ;;
  Val (
    r1 = (Err "Slice is too short"))).
Proof. run_test. Qed.
