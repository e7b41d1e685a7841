(** Generated: the unit tests of /repo, channel_voice1, channel_voice1.rs, read as statements about the
    model.  They check that the model computes what the project's own tests
    expect of the code; they are tests, not proofs of a property. *)
From Coq Require Import NArith List String Bool.
From Verif Require Import Base BitOps Values Props Message MessageTable Text Sysex Splice SpecSysex SpecEdits SpecPacket SysexClient Aggregate Packet Receiver Ci RepoTests.
Import ListNotations.
Local Open Scope string_scope.

(** *** midi2/src/channel_voice1.rs *)

(* channel_voice1.rs 102 *)
Example t_channel_voice1_channel : passes (
  r1 <- cv1_try_from U32 [0x2fd60900]%N ;;
  x2 <- unwrapped (Val r1) ;;
  x3 <- agg_channel U32 x2 ;;
  Val (
    x3 = 6%N)).
Proof. run_test. Qed.

(* channel_voice1.rs 112 *)
Example t_channel_voice1_channel_bytes : passes (
  r1 <- cv1_try_from U8 [214; 9]%N ;;
  x2 <- unwrapped (Val r1) ;;
  x3 <- agg_channel U8 x2 ;;
  Val (
    x3 = 6%N)).
Proof. run_test. Qed.

(* channel_voice1.rs 122 *)
Example t_channel_voice1_group : passes (
  r1 <- cv1_try_from U32 [0x2fd60900]%N ;;
  x2 <- unwrapped (Val r1) ;;
  x3 <- agg_group x2 ;;
  Val (
    x3 = 15%N)).
Proof. run_test. Qed.

(* channel_voice1.rs 132 *)
Example t_channel_voice1_from_bytes : passes (
  r1 <- cv1_try_from U8 [214; 9]%N ;;
  x2 <- unwrapped (Val r1) ;;
  x3 <- agg_from_bytes x2 ;;
  d4 <- agg_data U32 x3 ;;
  Val (
    d4 = [0x20d60900]%N)).
Proof. run_test. Qed.

(* channel_voice1.rs 140 *)
Example t_channel_voice1_from_ump : passes (
  r1 <- cv1_try_from U32 [0x20d60900]%N ;;
  x2 <- unwrapped (Val r1) ;;
  x3 <- agg_from_ump x2 ;;
  d4 <- agg_data U8 x3 ;;
  Val (
    d4 = [214; 9]%N)).
Proof. run_test. Qed.

(* channel_voice1.rs 148 *)
Example t_channel_voice1_try_from_bytes : passes (
  r1 <- cv1_try_from U8 [214; 9]%N ;;
  x2 <- unwrapped (Val r1) ;;
  r3 <- agg_try_from_bytes x2 5 ;;
  x4 <- unwrapped (Val r3) ;;
  d5 <- agg_data U32 x4 ;;
  Val (
    d5 = [0x20d60900]%N)).
Proof. run_test. Qed.

(* channel_voice1.rs 156 *)
Example t_channel_voice1_try_from_ump : passes (
  r1 <- cv1_try_from U32 [0x20d60900]%N ;;
  x2 <- unwrapped (Val r1) ;;
  r3 <- agg_try_from_ump x2 3 ;;
  x4 <- unwrapped (Val r3) ;;
  d5 <- agg_data U8 x4 ;;
  Val (
    d5 = [214; 9]%N)).
Proof. run_test. Qed.

(* channel_voice1.rs 164 *)
Example t_channel_voice1_copy : passes (
  r1 <- cv1_try_from U32 [0x20d60900]%N ;;
  x2 <- unwrapped (Val r1) ;;
  d3 <- agg_data U32 x2 ;;
  d4 <- agg_data U32 x2 ;;
  Val (
    d3 = d4)).
Proof. run_test. Qed.

(* channel_voice1.rs 172 *)
Example t_channel_voice1_rebuffer_into : passes (
  r1 <- cv1_try_from U32 [0x2fd60900]%N ;;
  x2 <- unwrapped (Val r1) ;;
  d3 <- agg_data U32 (agg_rebuffer_vec x2) ;;
  Val (
    d3 = [0x2fd60900]%N)).
Proof. run_test. Qed.

(* channel_voice1.rs 181 *)
Example t_channel_voice1_try_rebuffer_into : passes (
  r1 <- cv1_try_from U32 [0x2fd60900]%N ;;
  x2 <- unwrapped (Val r1) ;;
  x3 <- unwrapped (Val (agg_try_rebuffer_array x2 4)) ;;
  d4 <- agg_data U32 x3 ;;
  Val (
    d4 = [0x2fd60900]%N)).
Proof. run_test. Qed.

(* channel_voice1.rs 190 *)
Example t_channel_voice1_packets : passes (
  r1 <- cv1_try_from U32 [0x2fd60900]%N ;;
  x2 <- unwrapped (Val r1) ;;
  x3 <- agg_packets x2 ;;
  x4 <- packets_next x3 ;;
  x5 <- some_of (fst x4) ;;
  x6 <- packets_next (snd x4) ;;
  Val (
    (packet_data x5) = [0x2fd60900]%N /\
    (fst x6) = None)).
Proof. run_test. Qed.

(* channel_voice1.rs 198 *)
Example t_channel_voice1_rebuffer_from_array : passes (
  r1 <- cv1_try_from U32 [0x2fd60900]%N ;;
  x2 <- unwrapped (Val r1) ;;
  x3 <- agg_array_rebuffer U32 x2 4 ;;
  Val (
    True)).
Proof. run_test. Qed.

(* channel_voice1.rs 204 *)
Example t_channel_voice1_rebuffer_from_array_small : passes (
  r1 <- cv1_try_from U32 [0x2fd60900]%N ;;
  x2 <- unwrapped (Val r1) ;;
  x3 <- agg_array_rebuffer U32 x2 1 ;;
  Val (
    True)).
Proof. run_test. Qed.

(* channel_voice1.rs 210 *)
Example t_channel_voice1_rebuffer_from_array_bytes : passes (
  r1 <- cv1_try_from U8 [214; 9]%N ;;
  x2 <- unwrapped (Val r1) ;;
  x3 <- agg_array_rebuffer U8 x2 3 ;;
  Val (
    True)).
Proof. run_test. Qed.

(** *** midi2/src/channel_voice1/channel_pressure.rs *)

(* channel_voice1/channel_pressure.rs 43 *)
Example t_channel_voice1_channel_pressure_new_arr : passes (
  m1 <- array_new U32 cv1_channel_pressure 1 ;;
  Val (
    m1 = [0x20d00000]%N)).
Proof. run_test. Qed.

(* channel_voice1/channel_pressure.rs 51 *)
Example t_channel_voice1_channel_pressure_new_arr_bytes : passes (
  m1 <- array_new U8 cv1_channel_pressure 2 ;;
  Val (
    m1 = [208; 0]%N)).
Proof. run_test. Qed.

(* channel_voice1/channel_pressure.rs 59 *)
Example t_channel_voice1_channel_pressure_setters : passes (
  m1 <- array_new U32 cv1_channel_pressure 4 ;;
  m2 <- set U32 cv1_channel_pressure m1 "group" (VNum 15) ;;
  m3 <- set U32 cv1_channel_pressure m2 "channel" (VNum 6) ;;
  m4 <- set U32 cv1_channel_pressure m3 "pressure" (VNum 9) ;;
  Val (
    m4 = [0x2fd60900; 0; 0; 0]%N)).
Proof. run_test. Qed.

(* channel_voice1/channel_pressure.rs 68 *)
Example t_channel_voice1_channel_pressure_setters_bytes : passes (
  m1 <- array_new U8 cv1_channel_pressure 3 ;;
  m2 <- set U8 cv1_channel_pressure m1 "channel" (VNum 6) ;;
  m3 <- set U8 cv1_channel_pressure m2 "pressure" (VNum 9) ;;
  Val (
    m3 = [214; 9; 0]%N)).
Proof. run_test. Qed.

(* channel_voice1/channel_pressure.rs 76 *)
Example t_channel_voice1_channel_pressure_group : passes (
  r1 <- concrete_try_from U32 (CFixed cv1_channel_pressure) [0x2fd60900]%N ;;
  x2 <- unwrapped (Val r1) ;;
  x3 <- get U32 cv1_channel_pressure x2 "group" ;;
  Val (
    x3 = VNum 15)).
Proof. run_test. Qed.

(* channel_voice1/channel_pressure.rs 86 *)
Example t_channel_voice1_channel_pressure_from_outsized_data : passes (
  r1 <- concrete_try_from U32 (CFixed cv1_channel_pressure) [0x20d00000; 0]%N ;;
  Val (
    r1 = (Ok [0x20d00000; 0]%N))).
Proof. run_test. Qed.

(* channel_voice1/channel_pressure.rs 94 *)
Example t_channel_voice1_channel_pressure_from_empty_data : passes (
  r1 <- concrete_try_from U32 (CFixed cv1_channel_pressure) [] ;;
  Val (
    r1 = (Err "Slice is too short"))).
Proof. run_test. Qed.

(* channel_voice1/channel_pressure.rs 104 *)
Example t_channel_voice1_channel_pressure_channel : passes (
  r1 <- concrete_try_from U32 (CFixed cv1_channel_pressure) [0x2fd60900]%N ;;
  x2 <- unwrapped (Val r1) ;;
  x3 <- get U32 cv1_channel_pressure x2 "channel" ;;
  Val (
    x3 = VNum 6)).
Proof. run_test. Qed.

(* channel_voice1/channel_pressure.rs 114 *)
Example t_channel_voice1_channel_pressure_pressure : passes (
  r1 <- concrete_try_from U32 (CFixed cv1_channel_pressure) [0x2fd60900]%N ;;
  x2 <- unwrapped (Val r1) ;;
  x3 <- get U32 cv1_channel_pressure x2 "pressure" ;;
  Val (
    x3 = VNum 9)).
Proof. run_test. Qed.

(* channel_voice1/channel_pressure.rs 124 *)
Example t_channel_voice1_channel_pressure_channel_bytes : passes (
  r1 <- concrete_try_from U8 (CFixed cv1_channel_pressure) [214; 9]%N ;;
  x2 <- unwrapped (Val r1) ;;
  x3 <- get U8 cv1_channel_pressure x2 "channel" ;;
  Val (
    x3 = VNum 6)).
Proof. run_test. Qed.

(* channel_voice1/channel_pressure.rs 134 *)
Example t_channel_voice1_channel_pressure_pressure_bytes : passes (
  r1 <- concrete_try_from U8 (CFixed cv1_channel_pressure) [214; 9]%N ;;
  x2 <- unwrapped (Val r1) ;;
  x3 <- get U8 cv1_channel_pressure x2 "pressure" ;;
  Val (
    x3 = VNum 9)).
Proof. run_test. Qed.

(* channel_voice1/channel_pressure.rs 144 *)
Example t_channel_voice1_channel_pressure_data : passes (
  r1 <- concrete_try_from U32 (CFixed cv1_channel_pressure) [0x2fd60900]%N ;;
  x2 <- unwrapped (Val r1) ;;
  d3 <- concrete_data U32 (CFixed cv1_channel_pressure) x2 ;;
  Val (
    d3 = [0x2fd60900]%N)).
Proof. run_test. Qed.

(* channel_voice1/channel_pressure.rs 154 *)
Example t_channel_voice1_channel_pressure_data_bytes : passes (
  r1 <- concrete_try_from U8 (CFixed cv1_channel_pressure) [214; 9]%N ;;
  x2 <- unwrapped (Val r1) ;;
  d3 <- concrete_data U8 (CFixed cv1_channel_pressure) x2 ;;
  Val (
    d3 = [214; 9]%N)).
Proof. run_test. Qed.

(* channel_voice1/channel_pressure.rs 164 *)
Example t_channel_voice1_channel_pressure_data_with_outsized_buffer : passes (
  m1 <- array_new U32 cv1_channel_pressure 2 ;;
  d2 <- concrete_data U32 (CFixed cv1_channel_pressure) m1 ;;
  Val (
    d2 = [0x20d00000]%N)).
Proof. run_test. Qed.

(* channel_voice1/channel_pressure.rs 169 *)
Example t_channel_voice1_channel_pressure_from_bytes : passes (
  r1 <- concrete_try_from U8 (CFixed cv1_channel_pressure) [214; 9]%N ;;
  x2 <- unwrapped (Val r1) ;;
  x3 <- from_bytes cv1_channel_pressure x2 ;;
  Val (
    x3 = [0x20d60900]%N)).
Proof. run_test. Qed.

(* channel_voice1/channel_pressure.rs 179 *)
Example t_channel_voice1_channel_pressure_from_ump : passes (
  r1 <- concrete_try_from U32 (CFixed cv1_channel_pressure) [0x2fd60900]%N ;;
  x2 <- unwrapped (Val r1) ;;
  x3 <- from_ump cv1_channel_pressure x2 ;;
  Val (
    x3 = [214; 9]%N)).
Proof. run_test. Qed.

(* channel_voice1/channel_pressure.rs 189 *)
Example t_channel_voice1_channel_pressure_try_from_bytes : passes (
  r1 <- concrete_try_from U8 (CFixed cv1_channel_pressure) [214; 9]%N ;;
  x2 <- unwrapped (Val r1) ;;
  r3 <- try_from_bytes cv1_channel_pressure x2 1 ;;
  Val (
    r3 = (Ok [0x20d60900]%N))).
Proof. run_test. Qed.

(* channel_voice1/channel_pressure.rs 199 *)
Example t_channel_voice1_channel_pressure_from_bytes_array : passes (
  r1 <- concrete_try_from U8 (CFixed cv1_channel_pressure) [214; 9]%N ;;
  x2 <- unwrapped (Val r1) ;;
  x3 <- from_bytes_array cv1_channel_pressure x2 1 ;;
  Val (
    x3 = [0x20d60900]%N)).
Proof. run_test. Qed.

(* channel_voice1/channel_pressure.rs 209 *)
Example t_channel_voice1_channel_pressure_try_from_ump : passes (
  r1 <- concrete_try_from U32 (CFixed cv1_channel_pressure) [0x2fd60900]%N ;;
  x2 <- unwrapped (Val r1) ;;
  r3 <- try_from_ump cv1_channel_pressure x2 2 ;;
  Val (
    r3 = (Ok [214; 9]%N))).
Proof. run_test. Qed.

(* channel_voice1/channel_pressure.rs 219 *)
Example t_channel_voice1_channel_pressure_from_ump_array : passes (
  r1 <- concrete_try_from U32 (CFixed cv1_channel_pressure) [0x2fd60900]%N ;;
  x2 <- unwrapped (Val r1) ;;
  x3 <- from_ump_array cv1_channel_pressure x2 2 ;;
  Val (
    x3 = [214; 9]%N)).
Proof. run_test. Qed.

(* channel_voice1/channel_pressure.rs 229 *)
Example t_channel_voice1_channel_pressure_new_with_custom_buffer : passes (
  m1 <- new U32 cv1_channel_pressure ;;
  m2 <- array_new U32 cv1_channel_pressure 4 ;;
  d3 <- concrete_data U32 (CFixed cv1_channel_pressure) m1 ;;
  d4 <- concrete_data U32 (CFixed cv1_channel_pressure) m2 ;;
  Val (
    d3 = d4)).
Proof. run_test. Qed.

(* channel_voice1/channel_pressure.rs 236 *)
Example t_channel_voice1_channel_pressure_new_with_custom_buffer_bytes : passes (
  m1 <- new U8 cv1_channel_pressure ;;
  Val (
    m1 = [208; 0]%N)).
Proof. run_test. Qed.

(* channel_voice1/channel_pressure.rs 244 *)
Example t_channel_voice1_channel_pressure_new_with_arr : passes (
  m1 <- array_new U32 cv1_channel_pressure 2 ;;
  Val (
    m1 = [0x20d00000; 0]%N)).
Proof. run_test. Qed.

(* channel_voice1/channel_pressure.rs 252 *)
Example t_channel_voice1_channel_pressure_new_with_arr_bytes : passes (
  m1 <- array_new U8 cv1_channel_pressure 3 ;;
  Val (
    m1 = [208; 0; 0]%N)).
Proof. run_test. Qed.

(* channel_voice1/channel_pressure.rs 260 *)
Example t_channel_voice1_channel_pressure_try_new_with_custom_buffer_fail : passes (
  r1 <- try_new U32 cv1_channel_pressure 0 ;;
  Val (
    r1 = (Err "BufferOverflow"))).
Proof. run_test. Qed.

(* channel_voice1/channel_pressure.rs 268 *)
Example t_channel_voice1_channel_pressure_try_new_with_custom_buffer_bytes_fail : passes (
  r1 <- try_new U8 cv1_channel_pressure 1 ;;
  Val (
    r1 = (Err "BufferOverflow"))).
Proof. run_test. Qed.

(* channel_voice1/channel_pressure.rs 285 *)
Example t_channel_voice1_channel_pressure_rebuffer_from : passes (
  r1 <- concrete_try_from U32 (CFixed cv1_channel_pressure) [0x2fd60900]%N ;;
  x2 <- unwrapped (Val r1) ;;
  Val (
    (rebuffer_vec x2) = [0x2fd60900]%N)).
Proof. run_test. Qed.

(* channel_voice1/channel_pressure.rs 295 *)
Example t_channel_voice1_channel_pressure_rebuffer_from_bytes : passes (
  r1 <- concrete_try_from U8 (CFixed cv1_channel_pressure) [214; 9]%N ;;
  x2 <- unwrapped (Val r1) ;;
  Val (
    (rebuffer_vec x2) = [214; 9]%N)).
Proof. run_test. Qed.

(* channel_voice1/channel_pressure.rs 305 *)
Example t_channel_voice1_channel_pressure_try_rebuffer_from : passes (
  r1 <- concrete_try_from U32 (CFixed cv1_channel_pressure) [0x2fd60900]%N ;;
  x2 <- unwrapped (Val r1) ;;
  Val (
    (try_rebuffer_array x2 1) = (Ok [0x2fd60900]%N))).
Proof. run_test. Qed.

(* channel_voice1/channel_pressure.rs 315 *)
Example t_channel_voice1_channel_pressure_rebuffer_from_array : passes (
  r1 <- concrete_try_from U32 (CFixed cv1_channel_pressure) [0x2fd60900]%N ;;
  x2 <- unwrapped (Val r1) ;;
  x3 <- array_rebuffer U32 cv1_channel_pressure x2 1 ;;
  Val (
    x3 = [0x2fd60900]%N)).
Proof. run_test. Qed.

(* channel_voice1/channel_pressure.rs 325 *)
Example t_channel_voice1_channel_pressure_try_rebuffer_from_fail : passes (
  r1 <- concrete_try_from U32 (CFixed cv1_channel_pressure) [0x2fd60900]%N ;;
  x2 <- unwrapped (Val r1) ;;
  Val (
    (try_rebuffer_array x2 0) = (Err "BufferOverflow"))).
Proof. run_test. Qed.

(* channel_voice1/channel_pressure.rs 335 *)
Example t_channel_voice1_channel_pressure_try_rebuffer_from_bytes : passes (
  r1 <- concrete_try_from U8 (CFixed cv1_channel_pressure) [214; 9]%N ;;
  x2 <- unwrapped (Val r1) ;;
  Val (
    (try_rebuffer_array x2 2) = (Ok [214; 9]%N))).
Proof. run_test. Qed.

(* channel_voice1/channel_pressure.rs 345 *)
Example t_channel_voice1_channel_pressure_try_rebuffer_from_bytes_fail : passes (
  r1 <- concrete_try_from U8 (CFixed cv1_channel_pressure) [214; 9]%N ;;
  x2 <- unwrapped (Val r1) ;;
  Val (
    (try_rebuffer_array x2 0) = (Err "BufferOverflow"))).
Proof. run_test. Qed.

(* channel_voice1/channel_pressure.rs 355 *)
Example t_channel_voice1_channel_pressure_rebuffer_into : passes (
  r1 <- concrete_try_from U32 (CFixed cv1_channel_pressure) [0x2fd60900]%N ;;
  x2 <- unwrapped (Val r1) ;;
  Val (
    (rebuffer_vec x2) = [0x2fd60900]%N)).
Proof. run_test. Qed.

(* channel_voice1/channel_pressure.rs 363 *)
Example t_channel_voice1_channel_pressure_rebuffer_into_bytes : passes (
  r1 <- concrete_try_from U8 (CFixed cv1_channel_pressure) [214; 9]%N ;;
  x2 <- unwrapped (Val r1) ;;
  Val (
    (rebuffer_vec x2) = [214; 9]%N)).
Proof. run_test. Qed.

(* channel_voice1/channel_pressure.rs 371 *)
Example t_channel_voice1_channel_pressure_try_rebuffer_into : passes (
  r1 <- concrete_try_from U32 (CFixed cv1_channel_pressure) [0x2fd60900]%N ;;
  x2 <- unwrapped (Val r1) ;;
  Val (
    (try_rebuffer_array x2 1) = (Ok [0x2fd60900]%N))).
Proof. run_test. Qed.

(* channel_voice1/channel_pressure.rs 380 *)
Example t_channel_voice1_channel_pressure_try_rebuffer_into_bytes : passes (
  r1 <- concrete_try_from U8 (CFixed cv1_channel_pressure) [214; 9]%N ;;
  x2 <- unwrapped (Val r1) ;;
  Val (
    (try_rebuffer_array x2 2) = (Ok [214; 9]%N))).
Proof. run_test. Qed.

(* channel_voice1/channel_pressure.rs 389 *)
Example t_channel_voice1_channel_pressure_try_rebuffer_into_fail : passes (
  r1 <- concrete_try_from U32 (CFixed cv1_channel_pressure) [0x2fd60900]%N ;;
  x2 <- unwrapped (Val r1) ;;
  Val (
    (try_rebuffer_array x2 0) = (Err "BufferOverflow"))).
Proof. run_test. Qed.

(* channel_voice1/channel_pressure.rs 398 *)
Example t_channel_voice1_channel_pressure_try_rebuffer_into_bytes_fail : passes (
  r1 <- concrete_try_from U8 (CFixed cv1_channel_pressure) [214; 9]%N ;;
  x2 <- unwrapped (Val r1) ;;
  Val (
    (try_rebuffer_array x2 0) = (Err "BufferOverflow"))).
Proof. run_test. Qed.

(* channel_voice1/channel_pressure.rs 407 *)
Example t_channel_voice1_channel_pressure_clone : passes (
  m1 <- new U32 cv1_channel_pressure ;;
  Val (
    m1 = m1)).
Proof. run_test. Qed.

(* channel_voice1/channel_pressure.rs 414 *)
Example t_channel_voice1_channel_pressure_copy : passes (
  r1 <- concrete_try_from U32 (CFixed cv1_channel_pressure) [0x2fd60900]%N ;;
  x2 <- unwrapped (Val r1) ;;
  Val (
    x2 = x2)).
Proof. run_test. Qed.

(** *** midi2/src/channel_voice1/control_change.rs *)

(* channel_voice1/control_change.rs 46 *)
Example t_channel_voice1_control_change_setters : passes (
  m1 <- array_new U32 cv1_control_change 4 ;;
  m2 <- set U32 cv1_control_change m1 "group" (VNum 10) ;;
  m3 <- set U32 cv1_control_change m2 "channel" (VNum 7) ;;
  m4 <- set U32 cv1_control_change m3 "control" (VNum 54) ;;
  m5 <- set U32 cv1_control_change m4 "control_data" (VNum 55) ;;
  Val (
    m5 = [0x2ab73637; 0; 0; 0]%N)).
Proof. run_test. Qed.

(* channel_voice1/control_change.rs 56 *)
Example t_channel_voice1_control_change_setters_bytes : passes (
  m1 <- array_new U8 cv1_control_change 3 ;;
  m2 <- set U8 cv1_control_change m1 "channel" (VNum 7) ;;
  m3 <- set U8 cv1_control_change m2 "control" (VNum 54) ;;
  m4 <- set U8 cv1_control_change m3 "control_data" (VNum 55) ;;
  Val (
    m4 = [183; 54; 55]%N)).
Proof. run_test. Qed.

(* channel_voice1/control_change.rs 65 *)
Example t_channel_voice1_control_change_group : passes (
  r1 <- concrete_try_from U32 (CFixed cv1_control_change) [0x2ab73637]%N ;;
  x2 <- unwrapped (Val r1) ;;
  x3 <- get U32 cv1_control_change x2 "group" ;;
  Val (
    x3 = VNum 10)).
Proof. run_test. Qed.

(* channel_voice1/control_change.rs 75 *)
Example t_channel_voice1_control_change_channel : passes (
  r1 <- concrete_try_from U32 (CFixed cv1_control_change) [0x2ab73637]%N ;;
  x2 <- unwrapped (Val r1) ;;
  x3 <- get U32 cv1_control_change x2 "channel" ;;
  Val (
    x3 = VNum 7)).
Proof. run_test. Qed.

(* channel_voice1/control_change.rs 85 *)
Example t_channel_voice1_control_change_channel_bytes : passes (
  r1 <- concrete_try_from U8 (CFixed cv1_control_change) [183; 54; 55]%N ;;
  x2 <- unwrapped (Val r1) ;;
  x3 <- get U8 cv1_control_change x2 "channel" ;;
  Val (
    x3 = VNum 7)).
Proof. run_test. Qed.

(* channel_voice1/control_change.rs 95 *)
Example t_channel_voice1_control_change_control : passes (
  r1 <- concrete_try_from U32 (CFixed cv1_control_change) [0x2ab73637]%N ;;
  x2 <- unwrapped (Val r1) ;;
  x3 <- get U32 cv1_control_change x2 "control" ;;
  Val (
    x3 = VNum 54)).
Proof. run_test. Qed.

(* channel_voice1/control_change.rs 105 *)
Example t_channel_voice1_control_change_control_bytes : passes (
  r1 <- concrete_try_from U8 (CFixed cv1_control_change) [183; 54; 55]%N ;;
  x2 <- unwrapped (Val r1) ;;
  x3 <- get U8 cv1_control_change x2 "control" ;;
  Val (
    x3 = VNum 54)).
Proof. run_test. Qed.

(* channel_voice1/control_change.rs 115 *)
Example t_channel_voice1_control_change_control_data : passes (
  r1 <- concrete_try_from U32 (CFixed cv1_control_change) [0x2ab73637]%N ;;
  x2 <- unwrapped (Val r1) ;;
  x3 <- get U32 cv1_control_change x2 "control_data" ;;
  Val (
    x3 = VNum 55)).
Proof. run_test. Qed.

(* channel_voice1/control_change.rs 125 *)
Example t_channel_voice1_control_change_control_data_bytes : passes (
  r1 <- concrete_try_from U8 (CFixed cv1_control_change) [183; 54; 55]%N ;;
  x2 <- unwrapped (Val r1) ;;
  x3 <- get U8 cv1_control_change x2 "control_data" ;;
  Val (
    x3 = VNum 55)).
Proof. run_test. Qed.

(* channel_voice1/control_change.rs 135 *)
Example t_channel_voice1_control_change_packets : passes (
  r1 <- concrete_try_from U32 (CFixed cv1_control_change) [0x2ab73637]%N ;;
  x2 <- unwrapped (Val r1) ;;
  x3 <- agg_packets ((CFixed cv1_control_change), x2) ;;
  x4 <- packets_next x3 ;;
  x5 <- some_of (fst x4) ;;
  x6 <- packets_next (snd x4) ;;
  Val (
    (packet_data x5) = [0x2ab73637]%N /\
    (fst x6) = None)).
Proof. run_test. Qed.

(** *** midi2/src/channel_voice1/key_pressure.rs *)

(* channel_voice1/key_pressure.rs 49 *)
Example t_channel_voice1_key_pressure_setters : passes (
  m1 <- array_new U32 cv1_key_pressure 4 ;;
  m2 <- set U32 cv1_key_pressure m1 "group" (VNum 10) ;;
  m3 <- set U32 cv1_key_pressure m2 "channel" (VNum 3) ;;
  m4 <- set U32 cv1_key_pressure m3 "note_number" (VNum 127) ;;
  m5 <- set U32 cv1_key_pressure m4 "pressure" (VNum 92) ;;
  Val (
    m5 = [0x2aa37f5c; 0; 0; 0]%N)).
Proof. run_test. Qed.

(* channel_voice1/key_pressure.rs 59 *)
Example t_channel_voice1_key_pressure_group : passes (
  r1 <- concrete_try_from U32 (CFixed cv1_key_pressure) [0x2aa37f5c]%N ;;
  x2 <- unwrapped (Val r1) ;;
  x3 <- get U32 cv1_key_pressure x2 "group" ;;
  Val (
    x3 = VNum 10)).
Proof. run_test. Qed.

(* channel_voice1/key_pressure.rs 69 *)
Example t_channel_voice1_key_pressure_channel : passes (
  r1 <- concrete_try_from U32 (CFixed cv1_key_pressure) [0x2aa37f5c]%N ;;
  x2 <- unwrapped (Val r1) ;;
  x3 <- get U32 cv1_key_pressure x2 "channel" ;;
  Val (
    x3 = VNum 3)).
Proof. run_test. Qed.

(* channel_voice1/key_pressure.rs 79 *)
Example t_channel_voice1_key_pressure_note_number : passes (
  r1 <- concrete_try_from U32 (CFixed cv1_key_pressure) [0x2aa37f5c]%N ;;
  x2 <- unwrapped (Val r1) ;;
  x3 <- get U32 cv1_key_pressure x2 "note_number" ;;
  Val (
    x3 = VNum 127)).
Proof. run_test. Qed.

(* channel_voice1/key_pressure.rs 89 *)
Example t_channel_voice1_key_pressure_pressure : passes (
  r1 <- concrete_try_from U32 (CFixed cv1_key_pressure) [0x2aa37f5c]%N ;;
  x2 <- unwrapped (Val r1) ;;
  x3 <- get U32 cv1_key_pressure x2 "pressure" ;;
  Val (
    x3 = VNum 92)).
Proof. run_test. Qed.

(** *** midi2/src/channel_voice1/note_off.rs *)

(* channel_voice1/note_off.rs 49 *)
Example t_channel_voice1_note_off_builder : passes (
  m1 <- array_new U32 cv1_note_off 4 ;;
  m2 <- set U32 cv1_note_off m1 "group" (VNum 1) ;;
  m3 <- set U32 cv1_note_off m2 "channel" (VNum 10) ;;
  m4 <- set U32 cv1_note_off m3 "note_number" (VNum 104) ;;
  m5 <- set U32 cv1_note_off m4 "velocity" (VNum 27) ;;
  Val (
    m5 = [0x218a681b; 0; 0; 0]%N)).
Proof. run_test. Qed.

(* channel_voice1/note_off.rs 59 *)
Example t_channel_voice1_note_off_group : passes (
  r1 <- concrete_try_from U32 (CFixed cv1_note_off) [0x218a681b]%N ;;
  x2 <- unwrapped (Val r1) ;;
  x3 <- get U32 cv1_note_off x2 "group" ;;
  Val (
    x3 = VNum 1)).
Proof. run_test. Qed.

(* channel_voice1/note_off.rs 67 *)
Example t_channel_voice1_note_off_channel : passes (
  r1 <- concrete_try_from U32 (CFixed cv1_note_off) [0x218a681b]%N ;;
  x2 <- unwrapped (Val r1) ;;
  x3 <- get U32 cv1_note_off x2 "channel" ;;
  Val (
    x3 = VNum 10)).
Proof. run_test. Qed.

(* channel_voice1/note_off.rs 75 *)
Example t_channel_voice1_note_off_note_number : passes (
  r1 <- concrete_try_from U32 (CFixed cv1_note_off) [0x218a681b]%N ;;
  x2 <- unwrapped (Val r1) ;;
  x3 <- get U32 cv1_note_off x2 "note_number" ;;
  Val (
    x3 = VNum 104)).
Proof. run_test. Qed.

(* channel_voice1/note_off.rs 85 *)
Example t_channel_voice1_note_off_velocity : passes (
  r1 <- concrete_try_from U32 (CFixed cv1_note_off) [0x218a681b]%N ;;
  x2 <- unwrapped (Val r1) ;;
  x3 <- get U32 cv1_note_off x2 "velocity" ;;
  Val (
    x3 = VNum 27)).
Proof. run_test. Qed.

(** *** midi2/src/channel_voice1/note_on.rs *)

(* channel_voice1/note_on.rs 52 *)
Example t_channel_voice1_note_on_setters : passes (
  m1 <- array_new U32 cv1_note_on 4 ;;
  m2 <- set U32 cv1_note_on m1 "group" (VNum 13) ;;
  m3 <- set U32 cv1_note_on m2 "channel" (VNum 14) ;;
  m4 <- set U32 cv1_note_on m3 "note_number" (VNum 117) ;;
  m5 <- set U32 cv1_note_on m4 "velocity" (VNum 61) ;;
  Val (
    m5 = [0x2d9e753d; 0; 0; 0]%N)).
Proof. run_test. Qed.

(* channel_voice1/note_on.rs 62 *)
Example t_channel_voice1_note_on_setters_bytes : passes (
  m1 <- array_new U8 cv1_note_on 3 ;;
  m2 <- set U8 cv1_note_on m1 "channel" (VNum 14) ;;
  m3 <- set U8 cv1_note_on m2 "note_number" (VNum 117) ;;
  m4 <- set U8 cv1_note_on m3 "velocity" (VNum 61) ;;
  Val (
    m4 = [158; 117; 61]%N)).
Proof. run_test. Qed.

(* channel_voice1/note_on.rs 73 *)
Example t_channel_voice1_note_on_group : passes (
  r1 <- concrete_try_from U32 (CFixed cv1_note_on) [0x2d9e753d]%N ;;
  x2 <- unwrapped (Val r1) ;;
  x3 <- get U32 cv1_note_on x2 "group" ;;
  Val (
    x3 = VNum 13)).
Proof. run_test. Qed.

(* channel_voice1/note_on.rs 81 *)
Example t_channel_voice1_note_on_channel : passes (
  r1 <- concrete_try_from U32 (CFixed cv1_note_on) [0x2d9e753d]%N ;;
  x2 <- unwrapped (Val r1) ;;
  x3 <- get U32 cv1_note_on x2 "channel" ;;
  Val (
    x3 = VNum 14)).
Proof. run_test. Qed.

(* channel_voice1/note_on.rs 89 *)
Example t_channel_voice1_note_on_note : passes (
  r1 <- concrete_try_from U32 (CFixed cv1_note_on) [0x2d9e753d]%N ;;
  x2 <- unwrapped (Val r1) ;;
  x3 <- get U32 cv1_note_on x2 "note_number" ;;
  Val (
    x3 = VNum 117)).
Proof. run_test. Qed.

(* channel_voice1/note_on.rs 99 *)
Example t_channel_voice1_note_on_velocity : passes (
  r1 <- concrete_try_from U32 (CFixed cv1_note_on) [0x2d9e753d]%N ;;
  x2 <- unwrapped (Val r1) ;;
  x3 <- get U32 cv1_note_on x2 "velocity" ;;
  Val (
    x3 = VNum 61)).
Proof. run_test. Qed.

(** *** midi2/src/channel_voice1/packet.rs *)

(* channel_voice1/packet.rs 82 *)
Example t_channel_voice1_packet_construction : passes (
  r1 <- kind_try_from PVoice1 [0x20000000]%N ;;
  Val (
    (is_okay r1) = true)).
Proof. run_test. Qed.

(* channel_voice1/packet.rs 87 *)
Example t_channel_voice1_packet_construction_long_slice : passes (
  r1 <- kind_try_from PVoice1 [0x20000000; 0; 0; 0]%N ;;
  Val (
    (is_okay r1) = true)).
Proof. run_test. Qed.

(* channel_voice1/packet.rs 92 *)
Example t_channel_voice1_packet_construction_very_long_slice : passes (
  r1 <- kind_try_from PVoice1 [0x20000000; 0; 0; 0; 0; 0; 0; 0]%N ;;
  Val (
    (is_okay r1) = true)).
Proof. run_test. Qed.

(* channel_voice1/packet.rs 97 *)
Example t_channel_voice1_packet_construction_incorrect_ump_message_type : passes (
  r1 <- kind_try_from PVoice1 [0]%N ;;
  Val (
    r1 = (Err "Incorrect UMP message type"))).
Proof. run_test. Qed.

(* channel_voice1/packet.rs 107 *)
Example t_channel_voice1_packet_channel : passes (
  r1 <- kind_try_from PVoice1 [0x20080000]%N ;;
  x2 <- unwrapped (Val r1) ;;
  x3 <- packet_channel x2 ;;
  Val (
    x3 = 8%N)).
Proof. run_test. Qed.

(* channel_voice1/packet.rs 116 *)
Example t_channel_voice1_packet_set_channel : passes (
  r1 <- kind_try_from PVoice1 [0x20000000]%N ;;
  x2 <- unwrapped (Val r1) ;;
  x3 <- packet_set_channel x2 8 ;;
  Val (
    (packet_data x3) = [0x20080000]%N)).
Proof. run_test. Qed.

(* channel_voice1/packet.rs 124 *)
Example t_channel_voice1_packet_group : passes (
  r1 <- kind_try_from PVoice1 [0x2a000000]%N ;;
  x2 <- unwrapped (Val r1) ;;
  x3 <- packet_group x2 ;;
  Val (
    x3 = 10%N)).
Proof. run_test. Qed.

(* channel_voice1/packet.rs 133 *)
Example t_channel_voice1_packet_set_group : passes (
  r1 <- kind_try_from PVoice1 [0x20000000]%N ;;
  x2 <- unwrapped (Val r1) ;;
  x3 <- packet_set_group x2 10 ;;
  Val (
    (packet_data x3) = [0x2a000000]%N)).
Proof. run_test. Qed.

(* channel_voice1/packet.rs 141 *)
Example t_channel_voice1_packet_construction_short_slice : passes (
  r1 <- kind_try_from PVoice1 []%N ;;
  Val (
    r1 = (Err "Slice is too short"))).
Proof. run_test. Qed.

(** *** midi2/src/channel_voice1/pitch_bend.rs *)

(* channel_voice1/pitch_bend.rs 43 *)
Example t_channel_voice1_pitch_bend_builder : passes (
  m1 <- array_new U32 cv1_pitch_bend 4 ;;
  m2 <- set U32 cv1_pitch_bend m1 "group" (VNum 1) ;;
  m3 <- set U32 cv1_pitch_bend m2 "channel" (VNum 14) ;;
  m4 <- set U32 cv1_pitch_bend m3 "bend" (VNum 0x147) ;;
  Val (
    m4 = [0x21ee4702; 0; 0; 0]%N)).
Proof. run_test. Qed.

(* channel_voice1/pitch_bend.rs 52 *)
Example t_channel_voice1_pitch_bend_group : passes (
  r1 <- concrete_try_from U32 (CFixed cv1_pitch_bend) [0x21ee4702]%N ;;
  x2 <- unwrapped (Val r1) ;;
  x3 <- get U32 cv1_pitch_bend x2 "group" ;;
  Val (
    x3 = VNum 1)).
Proof. run_test. Qed.

(* channel_voice1/pitch_bend.rs 60 *)
Example t_channel_voice1_pitch_bend_channel : passes (
  r1 <- concrete_try_from U32 (CFixed cv1_pitch_bend) [0x21ee4702]%N ;;
  x2 <- unwrapped (Val r1) ;;
  x3 <- get U32 cv1_pitch_bend x2 "channel" ;;
  Val (
    x3 = VNum 14)).
Proof. run_test. Qed.

(* channel_voice1/pitch_bend.rs 70 *)
Example t_channel_voice1_pitch_bend_bend : passes (
  r1 <- concrete_try_from U32 (CFixed cv1_pitch_bend) [0x21ee4702]%N ;;
  x2 <- unwrapped (Val r1) ;;
  x3 <- get U32 cv1_pitch_bend x2 "bend" ;;
  Val (
    x3 = VNum 0x147)).
Proof. run_test. Qed.

(** *** midi2/src/channel_voice1/program_change.rs *)

(* channel_voice1/program_change.rs 43 *)
Example t_channel_voice1_program_change_builder : passes (
  m1 <- array_new U32 cv1_program_change 4 ;;
  m2 <- set U32 cv1_program_change m1 "group" (VNum 4) ;;
  m3 <- set U32 cv1_program_change m2 "channel" (VNum 7) ;;
  m4 <- set U32 cv1_program_change m3 "program" (VNum 99) ;;
  Val (
    m4 = [0x24c76300; 0; 0; 0]%N)).
Proof. run_test. Qed.
