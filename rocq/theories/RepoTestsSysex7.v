(** Generated: the unit tests of /repo, sysex7, sysex7.rs, read as statements about the
    model.  They check that the model computes what the project's own tests
    expect of the code; they are tests, not proofs of a property. *)
From Coq Require Import NArith List String Bool.
From Verif Require Import Base BitOps Values Props Message MessageTable Text Sysex Splice SpecSysex SpecEdits SpecPacket SysexClient Aggregate Packet Receiver Ci RepoTests.
Import ListNotations.
Local Open Scope string_scope.

(** *** midi2/src/sysex7.rs *)

(* sysex7.rs 1027 *)
Example t_sysex7_new_bytes : passes (
  m1 <- new_b ;;
  Val (
    m1 = [240; 247]%N)).
Proof. run_test. Qed.

(* sysex7.rs 1033 *)
Example t_sysex7_bytes_try_new_with_buffer : passes (
  r1 <- try_new_with_buffer_b [0; 0; 0; 0; 0; 0; 0; 0; 0; 0; 0; 0; 0; 0; 0; 0; 0; 0; 0; 0; 0; 0; 0; 0; 0; 0; 0; 0; 0; 0; 0; 0; 0; 0; 0; 0; 0; 0; 0; 0; 0; 0; 0; 0; 0; 0; 0; 0; 0; 0]%N ;;
  x2 <- unwrapped (Val r1) ;;
  d3 <- concrete_data U8 CSysex7 x2 ;;
  Val (
    d3 = [240; 247]%N)).
Proof. run_test. Qed.

(* sysex7.rs 1040 *)
Example t_sysex7_bytes_try_new_with_buffer_write_payload_data : passes (
  r1 <- try_new_with_buffer_b [0; 0; 0; 0; 0; 0; 0; 0; 0; 0; 0; 0; 0; 0; 0; 0; 0; 0; 0; 0; 0; 0; 0; 0; 0; 0; 0; 0; 0; 0; 0; 0; 0; 0; 0; 0; 0; 0; 0; 0; 0; 0; 0; 0; 0; 0; 0; 0; 0; 0]%N ;;
  x2 <- unwrapped (Val r1) ;;
  x3 <- try_edit_b (SetPayload (listed (ints 0 10))) x2 ;;
  _ <- check (snd x3) ;;
  d4 <- concrete_data U8 CSysex7 (fst x3) ;;
  Val (
    d4 = [240; 0; 1; 2; 3; 4; 5; 6; 7; 8; 9; 247]%N)).
Proof. run_test. Qed.

(* sysex7.rs 1051 *)
Example t_sysex7_try_new_bytes : passes (
  r1 <- try_new_b 2 ;;
  x2 <- unwrapped (Val r1) ;;
  Val (
    x2 = [240; 247]%N)).
Proof. run_test. Qed.

(* sysex7.rs 1057 *)
Example t_sysex7_data_bytes : passes (
  m1 <- new_b ;;
  d2 <- concrete_data U8 CSysex7 m1 ;;
  Val (
    d2 = [240; 247]%N)).
Proof. run_test. Qed.

(* sysex7.rs 1063 *)
Example t_sysex7_try_from_bytes : passes (
  r1 <- concrete_try_from U8 CSysex7 [240; 0; 1; 2; 247]%N ;;
  Val (
    r1 = (Ok [240; 0; 1; 2; 247]%N))).
Proof. run_test. Qed.

(* sysex7.rs 1071 *)
Example t_sysex7_try_from_oversized_bytes : passes (
  r1 <- concrete_try_from U8 CSysex7 [240; 0; 1; 2; 247; 0]%N ;;
  Val (
    r1 = (Ok [240; 0; 1; 2; 247; 0]%N))).
Proof. run_test. Qed.

(* sysex7.rs 1079 *)
Example t_sysex7_data_oversized_bytes : passes (
  r1 <- concrete_try_from U8 CSysex7 [240; 0; 1; 2; 247; 0]%N ;;
  x2 <- unwrapped (Val r1) ;;
  d3 <- concrete_data U8 CSysex7 x2 ;;
  Val (
    d3 = [240; 0; 1; 2; 247]%N)).
Proof. run_test. Qed.

(* sysex7.rs 1089 *)
Example t_sysex7_try_from_bytes_with_no_end_byte : passes (
  r1 <- concrete_try_from U8 CSysex7 [240; 0; 1; 2]%N ;;
  Val (
    r1 = (Err "Sysex messages should end 0xF7"))).
Proof. run_test. Qed.

(* sysex7.rs 1097 *)
Example t_sysex7_try_from_bytes_with_no_begin_byte : passes (
  r1 <- concrete_try_from U8 CSysex7 [0; 1; 2; 247]%N ;;
  Val (
    r1 = (Err "Sysex messages should begin 0xF0"))).
Proof. run_test. Qed.

(* sysex7.rs 1105 *)
Example t_sysex7_new_ump : passes (
  m1 <- sx_new fmt7 ;;
  Val (
    m1 = [0x30000000; 0]%N)).
Proof. run_test. Qed.

(* sysex7.rs 1111 *)
Example t_sysex7_data_ump : passes (
  m1 <- sx_new fmt7 ;;
  d2 <- concrete_data U32 CSysex7 m1 ;;
  Val (
    d2 = [0x30000000; 0]%N)).
Proof. run_test. Qed.

(* sysex7.rs 1117 *)
Example t_sysex7_try_from_ump : passes (
  r1 <- concrete_try_from U32 CSysex7 [0x34160001; 0x2030405; 0x34260607; 0x8090a0b; 0x34330c0d; 0xe000000]%N ;;
  Val (
    r1 = (Ok [0x34160001; 0x2030405; 0x34260607; 0x8090a0b; 0x34330c0d; 0xe000000]%N))).
Proof. run_test. Qed.

(* sysex7.rs 1143 *)
Example t_sysex7_set_group_ump : passes (
  r1 <- concrete_try_from U32 CSysex7 [0x34160001; 0x2030405; 0x34260607; 0x8090a0b; 0x34330c0d; 0xe000000]%N ;;
  x2 <- unwrapped (Val r1) ;;
  m3 <- apply_edit SevenBit (SetGroup 5) (rebuffer_vec x2) ;;
  Val (
    m3 = [0x35160001; 0x2030405; 0x35260607; 0x8090a0b; 0x35330c0d; 0xe000000]%N)).
Proof. run_test. Qed.

(* sysex7.rs 1171 *)
Example t_sysex7_try_from_oversized_ump : passes (
  r1 <- concrete_try_from U32 CSysex7 [0x34160001; 0x2030405; 0x34260607; 0x8090a0b; 0x34330c0d; 0xe000000; 0; 0]%N ;;
  Val (
    r1 = (Ok [0x34160001; 0x2030405; 0x34260607; 0x8090a0b; 0x34330c0d; 0xe000000; 0; 0]%N))).
Proof. run_test. Qed.

(* sysex7.rs 1201 *)
Example t_sysex7_data_oversized_ump : passes (
  r1 <- concrete_try_from U32 CSysex7 [0x34160001; 0x2030405; 0x34260607; 0x8090a0b; 0x34330c0d; 0xe000000; 0; 0]%N ;;
  x2 <- unwrapped (Val r1) ;;
  d3 <- concrete_data U32 CSysex7 x2 ;;
  Val (
    d3 = [0x34160001; 0x2030405; 0x34260607; 0x8090a0b; 0x34330c0d; 0xe000000]%N)).
Proof. run_test. Qed.

(* sysex7.rs 1229 *)
Example t_sysex7_data_odd_sized_buffer_ump : passes (
  r1 <- concrete_try_from U32 CSysex7 [0x34160001; 0x2030405; 0x34260607; 0x8090a0b; 0x34330c0d; 0xe000000; 0]%N ;;
  x2 <- unwrapped (Val r1) ;;
  d3 <- concrete_data U32 CSysex7 x2 ;;
  Val (
    d3 = [0x34160001; 0x2030405; 0x34260607; 0x8090a0b; 0x34330c0d; 0xe000000]%N)).
Proof. run_test. Qed.

(* sysex7.rs 1256 *)
Example t_sysex7_try_from_ump_inconsistent_groups : passes (
  r1 <- concrete_try_from U32 CSysex7 [0x34160001; 0x2030405; 0x33260607; 0x8090a0b; 0x34330c0d; 0xe000000]%N ;;
  Val (
    r1 = (Err "Inconsistent groups across packets"))).
Proof. run_test. Qed.

(* sysex7.rs 1275 *)
Example t_sysex7_try_from_ump_incorrect_end_status : passes (
  r1 <- concrete_try_from U32 CSysex7 [0x34160001; 0x2030405; 0x34260607; 0x8090a0b; 0x34030c0d; 0xe000000]%N ;;
  Val (
    r1 = (Err "Expected End packet"))).
Proof. run_test. Qed.

(* sysex7.rs 1294 *)
Example t_sysex7_try_from_ump_incorrect_complete_status : passes (
  r1 <- concrete_try_from U32 CSysex7 [0x34160001; 0x2030405]%N ;;
  Val (
    r1 = (Err "Expected Complete packet"))).
Proof. run_test. Qed.

(* sysex7.rs 1304 *)
Example t_sysex7_try_from_ump_incorrect_begin_status : passes (
  r1 <- concrete_try_from U32 CSysex7 [0x34060001; 0x2030405; 0x34260607; 0x8090a0b; 0x34330c0d; 0xe000000]%N ;;
  Val (
    r1 = (Err "Expected Begin packet"))).
Proof. run_test. Qed.

(* sysex7.rs 1323 *)
Example t_sysex7_try_from_ump_incorrect_continue_status : passes (
  r1 <- concrete_try_from U32 CSysex7 [0x34160001; 0x2030405; 0x34560607; 0x8090a0b; 0x34330c0d; 0xe000000]%N ;;
  Val (
    r1 = (Err "Expected Continue packet"))).
Proof. run_test. Qed.

(* sysex7.rs 1342 *)
Example t_sysex7_try_from_ump_invalid_packet_sizes : passes (
  r1 <- concrete_try_from U32 CSysex7 [0x34160001; 0x2030405; 0x34270607; 0x8090a0b; 0x34330c0d; 0xe000000]%N ;;
  Val (
    r1 = (Err "Size field can not exceed 6"))).
Proof. run_test. Qed.

(* sysex7.rs 1359 *)
Example t_sysex7_set_payload_bytes : passes (
  m1 <- new_b ;;
  m2 <- apply_edit_b (SetPayload (listed (ints 0 20))) m1 ;;
  Val (
    m2 = [240; 0; 1; 2; 3; 4; 5; 6; 7; 8; 9; 10; 11; 12; 13; 14; 15; 16; 17; 18; 19; 247]%N)).
Proof. run_test. Qed.

(* sysex7.rs 1372 *)
Example t_sysex7_try_set_payload_bytes : passes (
  m1 <- unwrapped (try_new_b 22) ;;
  x2 <- try_edit_b (SetPayload (listed (ints 0 20))) m1 ;;
  _ <- check (snd x2) ;;
  Val (
    (fst x2) = [240; 0; 1; 2; 3; 4; 5; 6; 7; 8; 9; 10; 11; 12; 13; 14; 15; 16; 17; 18; 19; 247]%N)).
Proof. run_test. Qed.

(* sysex7.rs 1385 *)
Example t_sysex7_try_set_payload_bytes_fail : passes (
  m1 <- unwrapped (try_new_b 22) ;;
  x2 <- try_edit_b (SetPayload (listed (ints 0 30))) m1 ;;
  Val (
    (snd x2) = false)).
Proof. run_test. Qed.

(* sysex7.rs 1394 *)
Example t_sysex7_set_payload_ump : passes (
  m1 <- sx_new fmt7 ;;
  m2 <- apply_edit SevenBit (SetPayload (listed (ints 0 30))) m1 ;;
  Val (
    m2 = [0x30160001; 0x2030405; 0x30260607; 0x8090a0b; 0x30260c0d; 0xe0f1011; 0x30261213; 0x14151617; 0x30361819; 0x1a1b1c1d]%N)).
Proof. run_test. Qed.

(* sysex7.rs 1415 *)
Example t_sysex7_set_rubbish_payload_ump : passes (
  m1 <- sx_new fmt7 ;;
  m2 <- apply_edit SevenBit (SetPayload rubbish) m1 ;;
  Val (
    m2 = [0x30160001; 0x2030405; 0x30260607; 0x8090a0b; 0x30260c0d; 0xe0f1011; 0x30261213; 0x14151617; 0x30261819; 0x1a1b1c1d; 0x30261e1f; 0x20212223; 0x30262425; 0x26272829; 0x30262a2b; 0x2c2d2e2f; 0x30323031; 0]%N)).
Proof. run_test. Qed.

(* sysex7.rs 1445 *)
Example t_sysex7_try_set_rubbish_payload_to_fixed_size_buffer_ump : passes (
  m1 <- unwrapped (sx_try_new fmt7 18) ;;
  x2 <- try_edit SevenBit (SetPayload rubbish) m1 ;;
  _ <- check (snd x2) ;;
  Val (
    (fst x2) = [0x30160001; 0x2030405; 0x30260607; 0x8090a0b; 0x30260c0d; 0xe0f1011; 0x30261213; 0x14151617; 0x30261819; 0x1a1b1c1d; 0x30261e1f; 0x20212223; 0x30262425; 0x26272829; 0x30262a2b; 0x2c2d2e2f; 0x30323031; 0]%N)).
Proof. run_test. Qed.

(* sysex7.rs 1477 *)
Example t_sysex7_reset_smaller_payload_bytes : passes (
  m1 <- new_b ;;
  m2 <- apply_edit_b (SetPayload (listed (ints 0 20))) m1 ;;
  m3 <- apply_edit_b (SetPayload (listed (ints 0 10))) m2 ;;
  Val (
    m3 = [240; 0; 1; 2; 3; 4; 5; 6; 7; 8; 9; 247]%N)).
Proof. run_test. Qed.

(* sysex7.rs 1490 *)
Example t_sysex7_reset_larger_payload_bytes : passes (
  m1 <- new_b ;;
  m2 <- apply_edit_b (SetPayload (listed (ints 0 20))) m1 ;;
  m3 <- apply_edit_b (SetPayload (listed (ints 0 30))) m2 ;;
  Val (
    m3 = [240; 0; 1; 2; 3; 4; 5; 6; 7; 8; 9; 10; 11; 12; 13; 14; 15; 16; 17; 18; 19; 20; 21; 22; 23; 24; 25; 26; 27; 28; 29; 247]%N)).
Proof. run_test. Qed.

(* sysex7.rs 1505 *)
Example t_sysex7_set_rubbish_payload_bytes : passes (
  m1 <- new_b ;;
  m2 <- apply_edit_b (SetPayload rubbish) m1 ;;
  Val (
    m2 = [240; 0; 1; 2; 3; 4; 5; 6; 7; 8; 9; 10; 11; 12; 13; 14; 15; 16; 17; 18; 19; 20; 21; 22; 23; 24; 25; 26; 27; 28; 29; 30; 31; 32; 33; 34; 35; 36; 37; 38; 39; 40; 41; 42; 43; 44; 45; 46; 47; 48; 49; 247]%N)).
Proof. run_test. Qed.

(* sysex7.rs 1521 *)
Example t_sysex7_try_set_rubbish_payload_to_fixed_size_buffer : passes (
  m1 <- unwrapped (try_new_b 52) ;;
  x2 <- try_edit_b (SetPayload rubbish) m1 ;;
  _ <- check (snd x2) ;;
  Val (
    (fst x2) = [240; 0; 1; 2; 3; 4; 5; 6; 7; 8; 9; 10; 11; 12; 13; 14; 15; 16; 17; 18; 19; 20; 21; 22; 23; 24; 25; 26; 27; 28; 29; 30; 31; 32; 33; 34; 35; 36; 37; 38; 39; 40; 41; 42; 43; 44; 45; 46; 47; 48; 49; 247]%N)).
Proof. run_test. Qed.

(* sysex7.rs 1539 *)
Example t_sysex7_payload_bytes : passes (
  r1 <- concrete_try_from U8 CSysex7 [240; 0; 1; 2; 3; 4; 5; 6; 7; 8; 9; 10; 11; 12; 13; 14; 15; 16; 17; 18; 19; 20; 21; 22; 23; 24; 25; 26; 27; 28; 29; 247]%N ;;
  x2 <- unwrapped (Val r1) ;;
  x3 <- payload_b x2 ;;
  l4 <- ib_collect 200 x3 ;;
  Val (
    [0; 1; 2; 3; 4; 5; 6; 7; 8; 9; 10; 11; 12; 13; 14; 15; 16; 17; 18; 19; 20; 21; 22; 23; 24; 25; 26; 27; 28; 29]%N = l4)).
Proof. run_test. Qed.

(* sysex7.rs 1561 *)
Example t_sysex7_payload_bytes_nth : passes (
  r1 <- concrete_try_from U8 CSysex7 [240; 0; 1; 2; 3; 4; 5; 6; 7; 8; 9; 10; 11; 12; 13; 14; 15; 16; 17; 18; 19; 20; 21; 22; 23; 24; 25; 26; 27; 28; 29; 247]%N ;;
  x2 <- unwrapped (Val r1) ;;
  x3 <- payload_b x2 ;;
  x4 <- ib_nth x3 0 ;;
  x5 <- ib_nth (snd x4) 4 ;;
  x6 <- ib_nth (snd x5) 12 ;;
  x7 <- ib_nth (snd x6) 10 ;;
  x8 <- ib_nth (snd x7) 0 ;;
  Val (
    (fst x4) = (Some 0%N) /\
    (fst x5) = (Some 5%N) /\
    (fst x6) = (Some 18%N) /\
    (fst x7) = (Some 29%N) /\
    (fst x8) = None)).
Proof. run_test. Qed.

(* sysex7.rs 1578 *)
Example t_sysex7_payload_bytes_nth_with_empty_packets : passes (
  r1 <- concrete_try_from U32 CSysex7 [0x30100000; 0; 0x30210000; 0; 0x30220102; 0; 0x30200000; 0; 0x30200000; 0; 0x30230304; 0x5000000; 0x30240607; 0x8090000; 0x30250a0b; 0xc0d0e00; 0x30260f10; 0x11121314; 0x30251516; 0x17181900; 0x30341a1b; 0x1c1d0000; 0; 0; 0; 0; 0]%N ;;
  x2 <- unwrapped (Val r1) ;;
  x3 <- payload fmt7 x2 ;;
  x4 <- it_next fmt7 x3 ;;
  x5 <- it_nth fmt7 (snd x4) 4 ;;
  x6 <- it_nth fmt7 (snd x5) 12 ;;
  x7 <- it_nth fmt7 (snd x6) 10 ;;
  x8 <- it_next fmt7 (snd x7) ;;
  Val (
    (it_len x3) = 30 /\
    (fst x4) = (Some 0%N) /\
    (it_len (snd x4)) = 29 /\
    (fst x5) = (Some 5%N) /\
    (it_len (snd x5)) = 24 /\
    (fst x6) = (Some 18%N) /\
    (it_len (snd x6)) = 11 /\
    (fst x7) = (Some 29%N) /\
    (it_len (snd x7)) = 0 /\
    (fst x8) = None /\
    (it_len (snd x8)) = 0)).
Proof. run_test. Qed.

(* sysex7.rs 1624 *)
Example t_sysex7_payload_bytes_len : passes (
  r1 <- concrete_try_from U8 CSysex7 [240; 0; 1; 2; 3; 4; 5; 6; 7; 8; 9; 10; 11; 12; 13; 14; 15; 16; 17; 18; 19; 20; 21; 22; 23; 24; 25; 26; 27; 28; 29; 247]%N ;;
  x2 <- unwrapped (Val r1) ;;
  x3 <- payload_b x2 ;;
  x4 <- ib_len x3 ;;
  Val (
    x4 = 30)).
Proof. run_test. Qed.

(* sysex7.rs 1641 *)
Example t_sysex7_payload_ump : passes (
  r1 <- concrete_try_from U32 CSysex7 [0x30160001; 0x2030405; 0x30260607; 0x8090a0b; 0x30260c0d; 0xe0f1011; 0x30261213; 0x14151617; 0x30361819; 0x1a1b1c1d]%N ;;
  x2 <- unwrapped (Val r1) ;;
  x3 <- payload fmt7 x2 ;;
  l4 <- it_collect 200 fmt7 x3 ;;
  Val (
    l4 = [0; 1; 2; 3; 4; 5; 6; 7; 8; 9; 10; 11; 12; 13; 14; 15; 16; 17; 18; 19; 20; 21; 22; 23; 24; 25; 26; 27; 28; 29]%N)).
Proof. run_test. Qed.

(* sysex7.rs 1670 *)
Example t_sysex7_payload_ump_nth : passes (
  r1 <- concrete_try_from U32 CSysex7 [0x30160001; 0x2030405; 0x30260607; 0x8090a0b; 0x30260c0d; 0xe0f1011; 0x30261213; 0x14151617; 0x30361819; 0x1a1b1c1d]%N ;;
  x2 <- unwrapped (Val r1) ;;
  x3 <- payload fmt7 x2 ;;
  x4 <- it_nth fmt7 x3 0 ;;
  x5 <- it_nth fmt7 (snd x4) 4 ;;
  x6 <- it_nth fmt7 (snd x5) 12 ;;
  x7 <- it_nth fmt7 (snd x6) 10 ;;
  x8 <- it_nth fmt7 (snd x7) 0 ;;
  Val (
    (it_len x3) = 30 /\
    (fst x4) = (Some 0%N) /\
    (it_len (snd x4)) = 29 /\
    (fst x5) = (Some 5%N) /\
    (it_len (snd x5)) = 24 /\
    (fst x6) = (Some 18%N) /\
    (it_len (snd x6)) = 11 /\
    (fst x7) = (Some 29%N) /\
    (it_len (snd x7)) = 0 /\
    (fst x8) = None /\
    (it_len (snd x8)) = 0)).
Proof. run_test. Qed.

(* sysex7.rs 1700 *)
Example t_sysex7_payload_ump_nth_non_contiguous_oversized : passes (
  r1 <- concrete_try_from U32 CSysex7 [0x30100000; 0; 0x30210000; 0; 0x30220102; 0; 0x30230304; 0x5000000; 0x30240607; 0x8090000; 0x30250a0b; 0xc0d0e00; 0x30260f10; 0x11121314; 0x30251516; 0x17181900; 0x30341a1b; 0x1c1d0000; 0; 0; 0; 0; 0]%N ;;
  x2 <- unwrapped (Val r1) ;;
  x3 <- payload fmt7 x2 ;;
  x4 <- it_nth fmt7 x3 0 ;;
  x5 <- it_nth fmt7 (snd x4) 4 ;;
  x6 <- it_nth fmt7 (snd x5) 12 ;;
  x7 <- it_nth fmt7 (snd x6) 10 ;;
  x8 <- it_nth fmt7 (snd x7) 0 ;;
  Val (
    (it_len x3) = 30 /\
    (fst x4) = (Some 0%N) /\
    (it_len (snd x4)) = 29 /\
    (fst x5) = (Some 5%N) /\
    (it_len (snd x5)) = 24 /\
    (fst x6) = (Some 18%N) /\
    (it_len (snd x6)) = 11 /\
    (fst x7) = (Some 29%N) /\
    (it_len (snd x7)) = 0 /\
    (fst x8) = None /\
    (it_len (snd x8)) = 0)).
Proof. run_test. Qed.

(* sysex7.rs 1743 *)
Example t_sysex7_from_bytes : passes (
  r1 <- concrete_try_from U8 CSysex7 [240; 0; 1; 2; 3; 4; 5; 6; 7; 8; 9; 10; 11; 12; 13; 14; 15; 16; 17; 18; 19; 20; 21; 22; 23; 24; 25; 26; 27; 28; 29; 247]%N ;;
  x2 <- unwrapped (Val r1) ;;
  x3 <- sysex7_from_bytes x2 ;;
  Val (
    x3 = [0x30160001; 0x2030405; 0x30260607; 0x8090a0b; 0x30260c0d; 0xe0f1011; 0x30261213; 0x14151617; 0x30361819; 0x1a1b1c1d]%N)).
Proof. run_test. Qed.

(* sysex7.rs 1768 *)
Example t_sysex7_from_ump : passes (
  r1 <- concrete_try_from U32 CSysex7 [0x30160001; 0x2030405; 0x30260607; 0x8090a0b; 0x30260c0d; 0xe0f1011; 0x30261213; 0x14151617; 0x30361819; 0x1a1b1c1d]%N ;;
  x2 <- unwrapped (Val r1) ;;
  x3 <- sysex7_from_ump x2 ;;
  Val (
    x3 = [240; 0; 1; 2; 3; 4; 5; 6; 7; 8; 9; 10; 11; 12; 13; 14; 15; 16; 17; 18; 19; 20; 21; 22; 23; 24; 25; 26; 27; 28; 29; 247]%N)).
Proof. run_test. Qed.

(* sysex7.rs 1793 *)
Example t_sysex7_set_payload_to_fixed_size_buffer_with_overflow : passes (
  m1 <- unwrapped (sx_try_new fmt7 8) ;;
  x2 <- try_edit SevenBit (SetPayload (listed (ints 0 30))) m1 ;;
  Val (
    (snd x2) = false)).
Proof. run_test. Qed.

(* sysex7.rs 1802 *)
Example t_sysex7_empty_payload_ump : passes (
  m1 <- sx_new fmt7 ;;
  x2 <- payload fmt7 m1 ;;
  l3 <- it_collect 200 fmt7 x2 ;;
  Val (
    l3 = []%N)).
Proof. run_test. Qed.

(* sysex7.rs 1812 *)
Example t_sysex7_packets : passes (
  r1 <- concrete_try_from U32 CSysex7 [0x30160001; 0x2030405; 0x30260607; 0x8090a0b; 0x30260c0d; 0xe0f1011; 0x30261213; 0x14151617; 0x30361819; 0x1a1b1c1d]%N ;;
  x2 <- unwrapped (Val r1) ;;
  x3 <- agg_packets (CSysex7, x2) ;;
  x4 <- packets_next x3 ;;
  x5 <- some_of (fst x4) ;;
  x6 <- packets_next (snd x4) ;;
  x7 <- some_of (fst x6) ;;
  x8 <- packets_next (snd x6) ;;
  x9 <- some_of (fst x8) ;;
  x10 <- packets_next (snd x8) ;;
  x11 <- some_of (fst x10) ;;
  x12 <- packets_next (snd x10) ;;
  x13 <- some_of (fst x12) ;;
  x14 <- packets_next (snd x12) ;;
  Val (
    (packet_data x5) = [0x30160001; 0x2030405]%N /\
    (packet_data x7) = [0x30260607; 0x8090a0b]%N /\
    (packet_data x9) = [0x30260c0d; 0xe0f1011]%N /\
    (packet_data x11) = [0x30261213; 0x14151617]%N /\
    (packet_data x13) = [0x30361819; 0x1a1b1c1d]%N /\
    (fst x14) = None)).
Proof. run_test. Qed.

(* sysex7.rs 1839 *)
Example t_sysex7_packets_empty : passes (
  m1 <- unwrapped (sx_try_new fmt7 2) ;;
  x2 <- agg_packets (CSysex7, m1) ;;
  x3 <- packets_next x2 ;;
  x4 <- some_of (fst x3) ;;
  x5 <- packets_next (snd x3) ;;
  Val (
    (packet_data x4) = [0x30000000; 0]%N /\
    (fst x5) = None)).
Proof. run_test. Qed.

(* sysex7.rs 1850 *)
Example t_sysex7_empty_message_is_compact : passes (
  Val (
    (is_compact fmt7 [0x30000000; 0]%N) = true)).
Proof. run_test. Qed.

(* sysex7.rs 1855 *)
Example t_sysex7_message_with_two_empty_packets_is_not_compact : passes (
  Val (
    (negb (is_compact fmt7 [0x30100000; 0; 0x30300000; 0]%N)) = true)).
Proof. run_test. Qed.

(* sysex7.rs 1865 *)
Example t_sysex7_message_with_non_contiguous_payload_is_not_compact : passes (
  Val (
    (negb (is_compact fmt7 [0x30100000; 0; 0x30210000; 0; 0x30220102; 0; 0x30230304; 0x5000000; 0x30240607; 0x8090000; 0x30250a0b; 0xc0d0e00; 0x30260f10; 0x11121314; 0x30251516; 0x17181900; 0x30341a1b; 0x1c1d0000; 0; 0; 0; 0; 0]%N)) = true)).
Proof. run_test. Qed.

(* sysex7.rs 1894 *)
Example t_sysex7_message_with_empty_packets_is_not_compact : passes (
  Val (
    (negb (is_compact fmt7 [0x30100000; 0; 0x30210000; 0; 0x30220102; 0; 0x30200000; 0; 0x30200000; 0; 0x30230304; 0x5000000; 0x30240607; 0x8090000; 0x30250a0b; 0xc0d0e00; 0x30260f10; 0x11121314; 0x30251516; 0x17181900; 0x30341a1b; 0x1c1d0000; 0; 0; 0; 0; 0]%N)) = true)).
Proof. run_test. Qed.

(* sysex7.rs 1927 *)
Example t_sysex7_large_message_with_contiguous_payload_is_compact : passes (
  Val (
    (is_compact fmt7 [0x30160001; 0x2030405; 0x30260607; 0x8090a0b; 0x30260c0d; 0xe0f1011; 0x30261213; 0x14151617; 0x30261819; 0x1a1b1c1d; 0x30261e1f; 0x20212223; 0x30262425; 0x26272829; 0x30262a2b; 0x2c2d2e2f; 0x30323031; 0]%N) = true)).
Proof. run_test. Qed.

(* sysex7.rs 1951 *)
Example t_sysex7_compact_a_complete_message_is_no_op : passes (
  x1 <- compact fmt7 [0x30050102; 0x3040500]%N ;;
  d2 <- concrete_data U32 CSysex7 x1 ;;
  Val (
    d2 = [0x30050102; 0x3040500]%N)).
Proof. run_test. Qed.

(* sysex7.rs 1958 *)
Example t_sysex7_message_of_two_empty_packets_compacts_down_to_one_empty_packet : passes (
  x1 <- compact fmt7 [0x30100000; 0; 0x30300000; 0]%N ;;
  d2 <- concrete_data U32 CSysex7 x1 ;;
  Val (
    d2 = [0x30000000; 0]%N)).
Proof. run_test. Qed.

(* sysex7.rs 1965 *)
Example t_sysex7_message_with_non_contiguous_payload_compacts_down : passes (
  x1 <- compact fmt7 [0x30100000; 0; 0x30210000; 0; 0x30220102; 0; 0x30230304; 0x5000000; 0x30240607; 0x8090000; 0x30250a0b; 0xc0d0e00; 0x30260f10; 0x11121314; 0x30251516; 0x17181900; 0x30241a1b; 0x1c1d0000; 0x30231e1f; 0x20000000; 0x30222122; 0; 0x30212300; 0; 0x30200000; 0; 0x30212400; 0; 0x30222526; 0; 0x30232728; 0x29000000; 0x30242a2b; 0x2c2d0000; 0x30342e2f; 0x30310000]%N ;;
  d2 <- concrete_data U32 CSysex7 x1 ;;
  Val (
    d2 = [0x30160001; 0x2030405; 0x30260607; 0x8090a0b; 0x30260c0d; 0xe0f1011; 0x30261213; 0x14151617; 0x30261819; 0x1a1b1c1d; 0x30261e1f; 0x20212223; 0x30262425; 0x26272829; 0x30262a2b; 0x2c2d2e2f; 0x30323031; 0]%N)).
Proof. run_test. Qed.

(* sysex7.rs 2041 *)
Example t_sysex7_move_payload_tail_ump_no_op : passes (
  m1 <- sx_new fmt7 ;;
  m2 <- apply_edit SevenBit (SetPayload (listed (ints 0 30))) m1 ;;
  x3 <- move_tail fmt7 m2 0 0 ;;
  x4 <- payload fmt7 x3 ;;
  l5 <- it_collect 200 fmt7 x4 ;;
  Val (
    l5 = (s_items (listed (ints 0 30))))).
Proof. run_test. Qed.

(* sysex7.rs 2046 *)
Example t_sysex7_move_payload_tail_bytes_no_op : passes (
  m1 <- new_b ;;
  m2 <- apply_edit_b (SetPayload (listed (ints 0 30))) m1 ;;
  x3 <- move_tail_b m2 0 0 ;;
  x4 <- payload_b x3 ;;
  l5 <- ib_collect 200 x4 ;;
  Val (
    l5 = (s_items (listed (ints 0 30))))).
Proof. run_test. Qed.

(* sysex7.rs 2068 *)
Example t_sysex7_move_payload_tail_ump_one_place : passes (
  m1 <- sx_new fmt7 ;;
  m2 <- apply_edit SevenBit (SetPayload (listed (ints 0 30))) m1 ;;
  x3 <- move_tail fmt7 m2 0 1 ;;
  x4 <- payload fmt7 x3 ;;
  l5 <- it_collect 200 fmt7 x4 ;;
  Val (
    l5 = [0; 0; 1; 2; 3; 4; 5; 6; 7; 8; 9; 10; 11; 12; 13; 14; 15; 16; 17; 18; 19; 20; 21; 22; 23; 24; 25; 26; 27; 28]%N)).
Proof. run_test. Qed.

(* sysex7.rs 2073 *)
Example t_sysex7_move_payload_tail_bytes_one_place : passes (
  m1 <- new_b ;;
  m2 <- apply_edit_b (SetPayload (listed (ints 0 30))) m1 ;;
  x3 <- move_tail_b m2 0 1 ;;
  x4 <- payload_b x3 ;;
  l5 <- ib_collect 200 x4 ;;
  Val (
    l5 = [0; 0; 1; 2; 3; 4; 5; 6; 7; 8; 9; 10; 11; 12; 13; 14; 15; 16; 17; 18; 19; 20; 21; 22; 23; 24; 25; 26; 27; 28]%N)).
Proof. run_test. Qed.

(* sysex7.rs 2095 *)
Example t_sysex7_move_payload_tail_ump_ten_places : passes (
  m1 <- sx_new fmt7 ;;
  m2 <- apply_edit SevenBit (SetPayload (listed (ints 0 30))) m1 ;;
  x3 <- move_tail fmt7 m2 0 10 ;;
  x4 <- payload fmt7 x3 ;;
  l5 <- it_collect 200 fmt7 x4 ;;
  Val (
    l5 = [0; 1; 2; 3; 4; 5; 6; 7; 8; 9; 0; 1; 2; 3; 4; 5; 6; 7; 8; 9; 10; 11; 12; 13; 14; 15; 16; 17; 18; 19]%N)).
Proof. run_test. Qed.

(* sysex7.rs 2100 *)
Example t_sysex7_move_payload_tail_bytes_ten_places : passes (
  m1 <- new_b ;;
  m2 <- apply_edit_b (SetPayload (listed (ints 0 30))) m1 ;;
  x3 <- move_tail_b m2 0 10 ;;
  x4 <- payload_b x3 ;;
  l5 <- ib_collect 200 x4 ;;
  Val (
    l5 = [0; 1; 2; 3; 4; 5; 6; 7; 8; 9; 0; 1; 2; 3; 4; 5; 6; 7; 8; 9; 10; 11; 12; 13; 14; 15; 16; 17; 18; 19]%N)).
Proof. run_test. Qed.

(* sysex7.rs 2122 *)
Example t_sysex7_move_payload_tail_ump_ten_places_back : passes (
  m1 <- sx_new fmt7 ;;
  m2 <- apply_edit SevenBit (SetPayload (listed (ints 0 30))) m1 ;;
  x3 <- move_tail fmt7 m2 10 0 ;;
  x4 <- payload fmt7 x3 ;;
  l5 <- it_collect 200 fmt7 x4 ;;
  Val (
    l5 = [10; 11; 12; 13; 14; 15; 16; 17; 18; 19; 20; 21; 22; 23; 24; 25; 26; 27; 28; 29; 20; 21; 22; 23; 24; 25; 26; 27; 28; 29]%N)).
Proof. run_test. Qed.

(* sysex7.rs 2127 *)
Example t_sysex7_move_payload_tail_bytes_ten_places_back : passes (
  m1 <- new_b ;;
  m2 <- apply_edit_b (SetPayload (listed (ints 0 30))) m1 ;;
  x3 <- move_tail_b m2 10 0 ;;
  x4 <- payload_b x3 ;;
  l5 <- ib_collect 200 x4 ;;
  Val (
    l5 = [10; 11; 12; 13; 14; 15; 16; 17; 18; 19; 20; 21; 22; 23; 24; 25; 26; 27; 28; 29; 20; 21; 22; 23; 24; 25; 26; 27; 28; 29]%N)).
Proof. run_test. Qed.

(* sysex7.rs 2152 *)
Example t_sysex7_insert_rubbish_payload_front_ump : passes (
  m1 <- sx_new fmt7 ;;
  m2 <- apply_edit SevenBit (SetPayload (listed (ints 0 30))) m1 ;;
  m3 <- apply_edit SevenBit (InsertPayload rubbish 0) m2 ;;
  x4 <- payload fmt7 m3 ;;
  l5 <- it_collect 200 fmt7 x4 ;;
  Val (
    l5 = [0; 1; 2; 3; 4; 5; 6; 7; 8; 9; 10; 11; 12; 13; 14; 15; 16; 17; 18; 19; 20; 21; 22; 23; 24; 25; 26; 27; 28; 29; 30; 31; 32; 33; 34; 35; 36; 37; 38; 39; 40; 41; 42; 43; 44; 45; 46; 47; 48; 49; 0; 1; 2; 3; 4; 5; 6; 7; 8; 9; 10; 11; 12; 13; 14; 15; 16; 17; 18; 19; 20; 21; 22; 23; 24; 25; 26; 27; 28; 29]%N)).
Proof. run_test. Qed.

(* sysex7.rs 2157 *)
Example t_sysex7_insert_rubbish_payload_front_bytes : passes (
  m1 <- new_b ;;
  m2 <- apply_edit_b (SetPayload (listed (ints 0 30))) m1 ;;
  m3 <- apply_edit_b (InsertPayload rubbish 0) m2 ;;
  x4 <- payload_b m3 ;;
  l5 <- ib_collect 200 x4 ;;
  Val (
    l5 = [0; 1; 2; 3; 4; 5; 6; 7; 8; 9; 10; 11; 12; 13; 14; 15; 16; 17; 18; 19; 20; 21; 22; 23; 24; 25; 26; 27; 28; 29; 30; 31; 32; 33; 34; 35; 36; 37; 38; 39; 40; 41; 42; 43; 44; 45; 46; 47; 48; 49; 0; 1; 2; 3; 4; 5; 6; 7; 8; 9; 10; 11; 12; 13; 14; 15; 16; 17; 18; 19; 20; 21; 22; 23; 24; 25; 26; 27; 28; 29]%N)).
Proof. run_test. Qed.

(* sysex7.rs 2182 *)
Example t_sysex7_insert_rubbish_payload_back_ump : passes (
  m1 <- sx_new fmt7 ;;
  m2 <- apply_edit SevenBit (SetPayload (listed (ints 0 30))) m1 ;;
  m3 <- apply_edit SevenBit (InsertPayload rubbish 30) m2 ;;
  x4 <- payload fmt7 m3 ;;
  l5 <- it_collect 200 fmt7 x4 ;;
  Val (
    l5 = [0; 1; 2; 3; 4; 5; 6; 7; 8; 9; 10; 11; 12; 13; 14; 15; 16; 17; 18; 19; 20; 21; 22; 23; 24; 25; 26; 27; 28; 29; 0; 1; 2; 3; 4; 5; 6; 7; 8; 9; 10; 11; 12; 13; 14; 15; 16; 17; 18; 19; 20; 21; 22; 23; 24; 25; 26; 27; 28; 29; 30; 31; 32; 33; 34; 35; 36; 37; 38; 39; 40; 41; 42; 43; 44; 45; 46; 47; 48; 49]%N)).
Proof. run_test. Qed.

(* sysex7.rs 2187 *)
Example t_sysex7_insert_rubbish_payload_back_bytes : passes (
  m1 <- new_b ;;
  m2 <- apply_edit_b (SetPayload (listed (ints 0 30))) m1 ;;
  m3 <- apply_edit_b (InsertPayload rubbish 30) m2 ;;
  x4 <- payload_b m3 ;;
  l5 <- ib_collect 200 x4 ;;
  Val (
    l5 = [0; 1; 2; 3; 4; 5; 6; 7; 8; 9; 10; 11; 12; 13; 14; 15; 16; 17; 18; 19; 20; 21; 22; 23; 24; 25; 26; 27; 28; 29; 0; 1; 2; 3; 4; 5; 6; 7; 8; 9; 10; 11; 12; 13; 14; 15; 16; 17; 18; 19; 20; 21; 22; 23; 24; 25; 26; 27; 28; 29; 30; 31; 32; 33; 34; 35; 36; 37; 38; 39; 40; 41; 42; 43; 44; 45; 46; 47; 48; 49]%N)).
Proof. run_test. Qed.

(* sysex7.rs 2212 *)
Example t_sysex7_insert_rubbish_payload_middle_ump : passes (
  m1 <- sx_new fmt7 ;;
  m2 <- apply_edit SevenBit (SetPayload (listed (ints 0 30))) m1 ;;
  m3 <- apply_edit SevenBit (InsertPayload rubbish 15) m2 ;;
  x4 <- payload fmt7 m3 ;;
  l5 <- it_collect 200 fmt7 x4 ;;
  Val (
    l5 = [0; 1; 2; 3; 4; 5; 6; 7; 8; 9; 10; 11; 12; 13; 14; 0; 1; 2; 3; 4; 5; 6; 7; 8; 9; 10; 11; 12; 13; 14; 15; 16; 17; 18; 19; 20; 21; 22; 23; 24; 25; 26; 27; 28; 29; 30; 31; 32; 33; 34; 35; 36; 37; 38; 39; 40; 41; 42; 43; 44; 45; 46; 47; 48; 49; 15; 16; 17; 18; 19; 20; 21; 22; 23; 24; 25; 26; 27; 28; 29]%N)).
Proof. run_test. Qed.

(* sysex7.rs 2217 *)
Example t_sysex7_insert_rubbish_payload_middle_bytes : passes (
  m1 <- new_b ;;
  m2 <- apply_edit_b (SetPayload (listed (ints 0 30))) m1 ;;
  m3 <- apply_edit_b (InsertPayload rubbish 15) m2 ;;
  x4 <- payload_b m3 ;;
  l5 <- ib_collect 200 x4 ;;
  Val (
    l5 = [0; 1; 2; 3; 4; 5; 6; 7; 8; 9; 10; 11; 12; 13; 14; 0; 1; 2; 3; 4; 5; 6; 7; 8; 9; 10; 11; 12; 13; 14; 15; 16; 17; 18; 19; 20; 21; 22; 23; 24; 25; 26; 27; 28; 29; 30; 31; 32; 33; 34; 35; 36; 37; 38; 39; 40; 41; 42; 43; 44; 45; 46; 47; 48; 49; 15; 16; 17; 18; 19; 20; 21; 22; 23; 24; 25; 26; 27; 28; 29]%N)).
Proof. run_test. Qed.

(* sysex7.rs 2247 *)
Example t_sysex7_set_bytes_ump : passes (
  m1 <- sx_new fmt7 ;;
  m2 <- apply_edit SevenBit (SetPayload (listed (ints 0 30))) m1 ;;
  m3 <- apply_edit SevenBit (SetByte 127 4) m2 ;;
  m4 <- apply_edit SevenBit (SetByte 126 8) m3 ;;
  m5 <- apply_edit SevenBit (SetByte 125 12) m4 ;;
  m6 <- apply_edit SevenBit (SetByte 124 16) m5 ;;
  m7 <- apply_edit SevenBit (SetByte 123 17) m6 ;;
  m8 <- apply_edit SevenBit (SetByte 122 21) m7 ;;
  m9 <- apply_edit SevenBit (SetByte 121 25) m8 ;;
  m10 <- apply_edit SevenBit (SetByte 120 29) m9 ;;
  x11 <- payload fmt7 m10 ;;
  l12 <- it_collect 200 fmt7 x11 ;;
  x13 <- idx l12 4 ;;
  x14 <- idx l12 8 ;;
  x15 <- idx l12 12 ;;
  x16 <- idx l12 16 ;;
  x17 <- idx l12 17 ;;
  x18 <- idx l12 21 ;;
  x19 <- idx l12 25 ;;
  x20 <- idx l12 29 ;;
  Val (
    x13 = 127%N /\
    x14 = 126%N /\
    x15 = 125%N /\
    x16 = 124%N /\
    x17 = 123%N /\
    x18 = 122%N /\
    x19 = 121%N /\
    x20 = 120%N)).
Proof. run_test. Qed.

(* sysex7.rs 2252 *)
Example t_sysex7_set_bytes_bytes : passes (
  m1 <- new_b ;;
  m2 <- apply_edit_b (SetPayload (listed (ints 0 30))) m1 ;;
  m3 <- apply_edit_b (SetByte 127 4) m2 ;;
  m4 <- apply_edit_b (SetByte 126 8) m3 ;;
  m5 <- apply_edit_b (SetByte 125 12) m4 ;;
  m6 <- apply_edit_b (SetByte 124 16) m5 ;;
  m7 <- apply_edit_b (SetByte 123 17) m6 ;;
  m8 <- apply_edit_b (SetByte 122 21) m7 ;;
  m9 <- apply_edit_b (SetByte 121 25) m8 ;;
  m10 <- apply_edit_b (SetByte 120 29) m9 ;;
  x11 <- payload_b m10 ;;
  l12 <- ib_collect 200 x11 ;;
  x13 <- idx l12 4 ;;
  x14 <- idx l12 8 ;;
  x15 <- idx l12 12 ;;
  x16 <- idx l12 16 ;;
  x17 <- idx l12 17 ;;
  x18 <- idx l12 21 ;;
  x19 <- idx l12 25 ;;
  x20 <- idx l12 29 ;;
  Val (
    x13 = 127%N /\
    x14 = 126%N /\
    x15 = 125%N /\
    x16 = 124%N /\
    x17 = 123%N /\
    x18 = 122%N /\
    x19 = 121%N /\
    x20 = 120%N)).
Proof. run_test. Qed.

(* sysex7.rs 2278 *)
Example t_sysex7_insert_payload_front_fixed_size_buffer_ump : passes (
  m1 <- unwrapped (sx_try_new fmt7 18) ;;
  x2 <- try_edit SevenBit (SetPayload (listed (ints 0 30))) m1 ;;
  _ <- check (snd x2) ;;
  x3 <- try_edit SevenBit (InsertPayload (listed (ints 0 20)) 0) (fst x2) ;;
  _ <- check (snd x3) ;;
  x4 <- payload fmt7 (fst x3) ;;
  l5 <- it_collect 200 fmt7 x4 ;;
  Val (
    l5 = [0; 1; 2; 3; 4; 5; 6; 7; 8; 9; 10; 11; 12; 13; 14; 15; 16; 17; 18; 19; 0; 1; 2; 3; 4; 5; 6; 7; 8; 9; 10; 11; 12; 13; 14; 15; 16; 17; 18; 19; 20; 21; 22; 23; 24; 25; 26; 27; 28; 29]%N)).
Proof. run_test. Qed.

(* sysex7.rs 2283 *)
Example t_sysex7_insert_payload_front_fixed_size_buffer_bytes : passes (
  m1 <- unwrapped (try_new_b 52) ;;
  x2 <- try_edit_b (SetPayload (listed (ints 0 30))) m1 ;;
  _ <- check (snd x2) ;;
  x3 <- try_edit_b (InsertPayload (listed (ints 0 20)) 0) (fst x2) ;;
  _ <- check (snd x3) ;;
  x4 <- payload_b (fst x3) ;;
  l5 <- ib_collect 200 x4 ;;
  Val (
    l5 = [0; 1; 2; 3; 4; 5; 6; 7; 8; 9; 10; 11; 12; 13; 14; 15; 16; 17; 18; 19; 0; 1; 2; 3; 4; 5; 6; 7; 8; 9; 10; 11; 12; 13; 14; 15; 16; 17; 18; 19; 20; 21; 22; 23; 24; 25; 26; 27; 28; 29]%N)).
Proof. run_test. Qed.

(* sysex7.rs 2309 *)
Example t_sysex7_insert_payload_back_fixed_size_buffer_ump : passes (
  m1 <- unwrapped (sx_try_new fmt7 18) ;;
  x2 <- try_edit SevenBit (SetPayload (listed (ints 0 30))) m1 ;;
  _ <- check (snd x2) ;;
  x3 <- try_edit SevenBit (InsertPayload (listed (ints 0 20)) 30) (fst x2) ;;
  _ <- check (snd x3) ;;
  x4 <- payload fmt7 (fst x3) ;;
  l5 <- it_collect 200 fmt7 x4 ;;
  Val (
    l5 = [0; 1; 2; 3; 4; 5; 6; 7; 8; 9; 10; 11; 12; 13; 14; 15; 16; 17; 18; 19; 20; 21; 22; 23; 24; 25; 26; 27; 28; 29; 0; 1; 2; 3; 4; 5; 6; 7; 8; 9; 10; 11; 12; 13; 14; 15; 16; 17; 18; 19]%N)).
Proof. run_test. Qed.

(* sysex7.rs 2314 *)
Example t_sysex7_insert_payload_back_fixed_size_buffer_bytes : passes (
  m1 <- unwrapped (try_new_b 52) ;;
  x2 <- try_edit_b (SetPayload (listed (ints 0 30))) m1 ;;
  _ <- check (snd x2) ;;
  x3 <- try_edit_b (InsertPayload (listed (ints 0 20)) 30) (fst x2) ;;
  _ <- check (snd x3) ;;
  x4 <- payload_b (fst x3) ;;
  l5 <- ib_collect 200 x4 ;;
  Val (
    l5 = [0; 1; 2; 3; 4; 5; 6; 7; 8; 9; 10; 11; 12; 13; 14; 15; 16; 17; 18; 19; 20; 21; 22; 23; 24; 25; 26; 27; 28; 29; 0; 1; 2; 3; 4; 5; 6; 7; 8; 9; 10; 11; 12; 13; 14; 15; 16; 17; 18; 19]%N)).
Proof. run_test. Qed.

(* sysex7.rs 2340 *)
Example t_sysex7_insert_payload_middle_fixed_size_buffer_ump : passes (
  m1 <- unwrapped (sx_try_new fmt7 18) ;;
  x2 <- try_edit SevenBit (SetPayload (listed (ints 0 30))) m1 ;;
  _ <- check (snd x2) ;;
  x3 <- try_edit SevenBit (InsertPayload (listed (ints 0 20)) 15) (fst x2) ;;
  _ <- check (snd x3) ;;
  x4 <- payload fmt7 (fst x3) ;;
  l5 <- it_collect 200 fmt7 x4 ;;
  Val (
    l5 = [0; 1; 2; 3; 4; 5; 6; 7; 8; 9; 10; 11; 12; 13; 14; 0; 1; 2; 3; 4; 5; 6; 7; 8; 9; 10; 11; 12; 13; 14; 15; 16; 17; 18; 19; 15; 16; 17; 18; 19; 20; 21; 22; 23; 24; 25; 26; 27; 28; 29]%N)).
Proof. run_test. Qed.

(* sysex7.rs 2345 *)
Example t_sysex7_insert_payload_middle_fixed_size_buffer_bytes : passes (
  m1 <- unwrapped (try_new_b 52) ;;
  x2 <- try_edit_b (SetPayload (listed (ints 0 30))) m1 ;;
  _ <- check (snd x2) ;;
  x3 <- try_edit_b (InsertPayload (listed (ints 0 20)) 15) (fst x2) ;;
  _ <- check (snd x3) ;;
  x4 <- payload_b (fst x3) ;;
  l5 <- ib_collect 200 x4 ;;
  Val (
    l5 = [0; 1; 2; 3; 4; 5; 6; 7; 8; 9; 10; 11; 12; 13; 14; 0; 1; 2; 3; 4; 5; 6; 7; 8; 9; 10; 11; 12; 13; 14; 15; 16; 17; 18; 19; 15; 16; 17; 18; 19; 20; 21; 22; 23; 24; 25; 26; 27; 28; 29]%N)).
Proof. run_test. Qed.

(* sysex7.rs 2359 *)
Example t_sysex7_insert_payload_fixed_size_buffer_fail_ump : passes (
  m1 <- unwrapped (sx_try_new fmt7 13) ;;
  x2 <- try_edit SevenBit (SetPayload (listed (ints 0 20))) m1 ;;
  _ <- check (snd x2) ;;
  x3 <- try_edit SevenBit (InsertPayload (listed (ints 0 20)) 15) (fst x2) ;;
  Val (
    (snd x3) = false)).
Proof. run_test. Qed.

(* sysex7.rs 2364 *)
Example t_sysex7_insert_payload_fixed_size_buffer_fail_bytes : passes (
  m1 <- unwrapped (try_new_b 41) ;;
  x2 <- try_edit_b (SetPayload (listed (ints 0 20))) m1 ;;
  _ <- check (snd x2) ;;
  x3 <- try_edit_b (InsertPayload (listed (ints 0 20)) 15) (fst x2) ;;
  Val (
    (snd x3) = false)).
Proof. run_test. Qed.

(* sysex7.rs 2388 *)
Example t_sysex7_append_byte_ump : passes (
  m1 <- sx_new fmt7 ;;
  m2 <- apply_edit SevenBit (SetPayload (listed (ints 0 20))) m1 ;;
  m3 <- apply_edit SevenBit (AppendByte 0) m2 ;;
  m4 <- apply_edit SevenBit (AppendByte 1) m3 ;;
  m5 <- apply_edit SevenBit (AppendByte 2) m4 ;;
  m6 <- apply_edit SevenBit (AppendByte 3) m5 ;;
  m7 <- apply_edit SevenBit (AppendByte 4) m6 ;;
  m8 <- apply_edit SevenBit (AppendByte 5) m7 ;;
  m9 <- apply_edit SevenBit (AppendByte 6) m8 ;;
  m10 <- apply_edit SevenBit (AppendByte 7) m9 ;;
  m11 <- apply_edit SevenBit (AppendByte 8) m10 ;;
  m12 <- apply_edit SevenBit (AppendByte 9) m11 ;;
  m13 <- apply_edit SevenBit (AppendByte 10) m12 ;;
  m14 <- apply_edit SevenBit (AppendByte 11) m13 ;;
  m15 <- apply_edit SevenBit (AppendByte 12) m14 ;;
  m16 <- apply_edit SevenBit (AppendByte 13) m15 ;;
  m17 <- apply_edit SevenBit (AppendByte 14) m16 ;;
  m18 <- apply_edit SevenBit (AppendByte 15) m17 ;;
  m19 <- apply_edit SevenBit (AppendByte 16) m18 ;;
  m20 <- apply_edit SevenBit (AppendByte 17) m19 ;;
  m21 <- apply_edit SevenBit (AppendByte 18) m20 ;;
  m22 <- apply_edit SevenBit (AppendByte 19) m21 ;;
  x23 <- payload fmt7 m22 ;;
  l24 <- it_collect 200 fmt7 x23 ;;
  Val (
    l24 = [0; 1; 2; 3; 4; 5; 6; 7; 8; 9; 10; 11; 12; 13; 14; 15; 16; 17; 18; 19; 0; 1; 2; 3; 4; 5; 6; 7; 8; 9; 10; 11; 12; 13; 14; 15; 16; 17; 18; 19]%N)).
Proof. run_test. Qed.

(* sysex7.rs 2393 *)
Example t_sysex7_append_byte_bytes : passes (
  m1 <- new_b ;;
  m2 <- apply_edit_b (SetPayload (listed (ints 0 20))) m1 ;;
  m3 <- apply_edit_b (AppendByte 0) m2 ;;
  m4 <- apply_edit_b (AppendByte 1) m3 ;;
  m5 <- apply_edit_b (AppendByte 2) m4 ;;
  m6 <- apply_edit_b (AppendByte 3) m5 ;;
  m7 <- apply_edit_b (AppendByte 4) m6 ;;
  m8 <- apply_edit_b (AppendByte 5) m7 ;;
  m9 <- apply_edit_b (AppendByte 6) m8 ;;
  m10 <- apply_edit_b (AppendByte 7) m9 ;;
  m11 <- apply_edit_b (AppendByte 8) m10 ;;
  m12 <- apply_edit_b (AppendByte 9) m11 ;;
  m13 <- apply_edit_b (AppendByte 10) m12 ;;
  m14 <- apply_edit_b (AppendByte 11) m13 ;;
  m15 <- apply_edit_b (AppendByte 12) m14 ;;
  m16 <- apply_edit_b (AppendByte 13) m15 ;;
  m17 <- apply_edit_b (AppendByte 14) m16 ;;
  m18 <- apply_edit_b (AppendByte 15) m17 ;;
  m19 <- apply_edit_b (AppendByte 16) m18 ;;
  m20 <- apply_edit_b (AppendByte 17) m19 ;;
  m21 <- apply_edit_b (AppendByte 18) m20 ;;
  m22 <- apply_edit_b (AppendByte 19) m21 ;;
  x23 <- payload_b m22 ;;
  l24 <- ib_collect 200 x23 ;;
  Val (
    l24 = [0; 1; 2; 3; 4; 5; 6; 7; 8; 9; 10; 11; 12; 13; 14; 15; 16; 17; 18; 19; 0; 1; 2; 3; 4; 5; 6; 7; 8; 9; 10; 11; 12; 13; 14; 15; 16; 17; 18; 19]%N)).
Proof. run_test. Qed.

(* sysex7.rs 2415 *)
Example t_sysex7_append_payload_ump : passes (
  m1 <- sx_new fmt7 ;;
  m2 <- apply_edit SevenBit (SetPayload (listed (ints 0 20))) m1 ;;
  m3 <- apply_edit SevenBit (AppendPayload (listed (ints 0 20))) m2 ;;
  x4 <- payload fmt7 m3 ;;
  l5 <- it_collect 200 fmt7 x4 ;;
  Val (
    l5 = [0; 1; 2; 3; 4; 5; 6; 7; 8; 9; 10; 11; 12; 13; 14; 15; 16; 17; 18; 19; 0; 1; 2; 3; 4; 5; 6; 7; 8; 9; 10; 11; 12; 13; 14; 15; 16; 17; 18; 19]%N)).
Proof. run_test. Qed.

(* sysex7.rs 2420 *)
Example t_sysex7_append_payload_bytes : passes (
  m1 <- new_b ;;
  m2 <- apply_edit_b (SetPayload (listed (ints 0 20))) m1 ;;
  m3 <- apply_edit_b (AppendPayload (listed (ints 0 20))) m2 ;;
  x4 <- payload_b m3 ;;
  l5 <- ib_collect 200 x4 ;;
  Val (
    l5 = [0; 1; 2; 3; 4; 5; 6; 7; 8; 9; 10; 11; 12; 13; 14; 15; 16; 17; 18; 19; 0; 1; 2; 3; 4; 5; 6; 7; 8; 9; 10; 11; 12; 13; 14; 15; 16; 17; 18; 19]%N)).
Proof. run_test. Qed.

(* sysex7.rs 2443 *)
Example t_sysex7_splice_payload_ump : passes (
  m1 <- sx_new fmt7 ;;
  m2 <- apply_edit SevenBit (SetPayload (listed (ints 0 20))) m1 ;;
  m3 <- apply_edit SevenBit (SplicePayload (listed (repeat 127%N 30)) (Included 5) (Excluded 10)) m2 ;;
  x4 <- payload fmt7 m3 ;;
  l5 <- it_collect 200 fmt7 x4 ;;
  Val (
    l5 = [0; 1; 2; 3; 4; 127; 127; 127; 127; 127; 127; 127; 127; 127; 127; 127; 127; 127; 127; 127; 127; 127; 127; 127; 127; 127; 127; 127; 127; 127; 127; 127; 127; 127; 127; 10; 11; 12; 13; 14; 15; 16; 17; 18; 19]%N)).
Proof. run_test. Qed.

(* sysex7.rs 2448 *)
Example t_sysex7_splice_payload_bytes : passes (
  m1 <- new_b ;;
  m2 <- apply_edit_b (SetPayload (listed (ints 0 20))) m1 ;;
  m3 <- apply_edit_b (SplicePayload (listed (repeat 127%N 30)) (Included 5) (Excluded 10)) m2 ;;
  x4 <- payload_b m3 ;;
  l5 <- ib_collect 200 x4 ;;
  Val (
    l5 = [0; 1; 2; 3; 4; 127; 127; 127; 127; 127; 127; 127; 127; 127; 127; 127; 127; 127; 127; 127; 127; 127; 127; 127; 127; 127; 127; 127; 127; 127; 127; 127; 127; 127; 127; 10; 11; 12; 13; 14; 15; 16; 17; 18; 19]%N)).
Proof. run_test. Qed.

(* sysex7.rs 2472 *)
Example t_sysex7_splice_rubbish_payload_ump : passes (
  m1 <- sx_new fmt7 ;;
  m2 <- apply_edit SevenBit (SetPayload (listed (ints 0 20))) m1 ;;
  m3 <- apply_edit SevenBit (SplicePayload rubbish (Included 7) (Excluded 16)) m2 ;;
  x4 <- payload fmt7 m3 ;;
  l5 <- it_collect 200 fmt7 x4 ;;
  Val (
    l5 = [0; 1; 2; 3; 4; 5; 6; 0; 1; 2; 3; 4; 5; 6; 7; 8; 9; 10; 11; 12; 13; 14; 15; 16; 17; 18; 19; 20; 21; 22; 23; 24; 25; 26; 27; 28; 29; 30; 31; 32; 33; 34; 35; 36; 37; 38; 39; 40; 41; 42; 43; 44; 45; 46; 47; 48; 49; 16; 17; 18; 19]%N)).
Proof. run_test. Qed.

(* sysex7.rs 2477 *)
Example t_sysex7_splice_rubbish_payload_bytes : passes (
  m1 <- new_b ;;
  m2 <- apply_edit_b (SetPayload (listed (ints 0 20))) m1 ;;
  m3 <- apply_edit_b (SplicePayload rubbish (Included 7) (Excluded 16)) m2 ;;
  x4 <- payload_b m3 ;;
  l5 <- ib_collect 200 x4 ;;
  Val (
    l5 = [0; 1; 2; 3; 4; 5; 6; 0; 1; 2; 3; 4; 5; 6; 7; 8; 9; 10; 11; 12; 13; 14; 15; 16; 17; 18; 19; 20; 21; 22; 23; 24; 25; 26; 27; 28; 29; 30; 31; 32; 33; 34; 35; 36; 37; 38; 39; 40; 41; 42; 43; 44; 45; 46; 47; 48; 49; 16; 17; 18; 19]%N)).
Proof. run_test. Qed.

(* sysex7.rs 2502 *)
Example t_sysex7_splice_rubbish_payload_front_ump : passes (
  m1 <- sx_new fmt7 ;;
  m2 <- apply_edit SevenBit (SetPayload (listed (ints 0 20))) m1 ;;
  m3 <- apply_edit SevenBit (SplicePayload rubbish (Included 0) (Excluded 2)) m2 ;;
  x4 <- payload fmt7 m3 ;;
  l5 <- it_collect 200 fmt7 x4 ;;
  Val (
    l5 = [0; 1; 2; 3; 4; 5; 6; 7; 8; 9; 10; 11; 12; 13; 14; 15; 16; 17; 18; 19; 20; 21; 22; 23; 24; 25; 26; 27; 28; 29; 30; 31; 32; 33; 34; 35; 36; 37; 38; 39; 40; 41; 42; 43; 44; 45; 46; 47; 48; 49; 2; 3; 4; 5; 6; 7; 8; 9; 10; 11; 12; 13; 14; 15; 16; 17; 18; 19]%N)).
Proof. run_test. Qed.

(* sysex7.rs 2507 *)
Example t_sysex7_splice_rubbish_payload_front_bytes : passes (
  m1 <- new_b ;;
  m2 <- apply_edit_b (SetPayload (listed (ints 0 20))) m1 ;;
  m3 <- apply_edit_b (SplicePayload rubbish (Included 0) (Excluded 2)) m2 ;;
  x4 <- payload_b m3 ;;
  l5 <- ib_collect 200 x4 ;;
  Val (
    l5 = [0; 1; 2; 3; 4; 5; 6; 7; 8; 9; 10; 11; 12; 13; 14; 15; 16; 17; 18; 19; 20; 21; 22; 23; 24; 25; 26; 27; 28; 29; 30; 31; 32; 33; 34; 35; 36; 37; 38; 39; 40; 41; 42; 43; 44; 45; 46; 47; 48; 49; 2; 3; 4; 5; 6; 7; 8; 9; 10; 11; 12; 13; 14; 15; 16; 17; 18; 19]%N)).
Proof. run_test. Qed.

(* sysex7.rs 2532 *)
Example t_sysex7_splice_rubbish_payload_end_ump : passes (
  m1 <- sx_new fmt7 ;;
  m2 <- apply_edit SevenBit (SetPayload (listed (ints 0 20))) m1 ;;
  m3 <- apply_edit SevenBit (SplicePayload rubbish (Included 19) (Excluded 20)) m2 ;;
  x4 <- payload fmt7 m3 ;;
  l5 <- it_collect 200 fmt7 x4 ;;
  Val (
    l5 = [0; 1; 2; 3; 4; 5; 6; 7; 8; 9; 10; 11; 12; 13; 14; 15; 16; 17; 18; 0; 1; 2; 3; 4; 5; 6; 7; 8; 9; 10; 11; 12; 13; 14; 15; 16; 17; 18; 19; 20; 21; 22; 23; 24; 25; 26; 27; 28; 29; 30; 31; 32; 33; 34; 35; 36; 37; 38; 39; 40; 41; 42; 43; 44; 45; 46; 47; 48; 49]%N)).
Proof. run_test. Qed.

(* sysex7.rs 2537 *)
Example t_sysex7_splice_rubbish_payload_end_bytes : passes (
  m1 <- new_b ;;
  m2 <- apply_edit_b (SetPayload (listed (ints 0 20))) m1 ;;
  m3 <- apply_edit_b (SplicePayload rubbish (Included 19) (Excluded 20)) m2 ;;
  x4 <- payload_b m3 ;;
  l5 <- ib_collect 200 x4 ;;
  Val (
    l5 = [0; 1; 2; 3; 4; 5; 6; 7; 8; 9; 10; 11; 12; 13; 14; 15; 16; 17; 18; 0; 1; 2; 3; 4; 5; 6; 7; 8; 9; 10; 11; 12; 13; 14; 15; 16; 17; 18; 19; 20; 21; 22; 23; 24; 25; 26; 27; 28; 29; 30; 31; 32; 33; 34; 35; 36; 37; 38; 39; 40; 41; 42; 43; 44; 45; 46; 47; 48; 49]%N)).
Proof. run_test. Qed.

(** *** midi2/src/sysex7/packet.rs *)

(* sysex7/packet.rs 162 *)
Example t_sysex7_packet_construction : passes (
  r1 <- kind_try_from PSysex7 [0x30000000; 0]%N ;;
  x2 <- unwrapped (Val r1) ;;
  Val (
    (packet_data x2) = [0x30000000; 0]%N)).
Proof. run_test. Qed.

(* sysex7/packet.rs 170 *)
Example t_sysex7_packet_construction_long_slice : passes (
  r1 <- kind_try_from PSysex7 [0x30000000; 0; 0; 0]%N ;;
  x2 <- unwrapped (Val r1) ;;
  Val (
    (packet_data x2) = [0x30000000; 0]%N)).
Proof. run_test. Qed.

(* sysex7/packet.rs 178 *)
Example t_sysex7_packet_construction_short_slice : passes (
  r1 <- kind_try_from PSysex7 [0x30000000]%N ;;
  Val (
    r1 = (Err "Slice is too short"))).
Proof. run_test. Qed.

(* sysex7/packet.rs 188 *)
Example t_sysex7_packet_construction_wrong_ump_type : passes (
  r1 <- kind_try_from PSysex7 [0; 0]%N ;;
  Val (
    r1 = (Err "Incorrect UMP message type"))).
Proof. run_test. Qed.

(* sysex7/packet.rs 198 *)
Example t_sysex7_packet_construction_invalid_payload_size : passes (
  r1 <- kind_try_from PSysex7 [0x30070000; 0; 0; 0]%N ;;
  Val (
    r1 = (Err "Size field can not exceed 6"))).
Proof. run_test. Qed.

(* sysex7/packet.rs 206 *)
Example t_sysex7_packet_construction_complete : passes (
  r1 <- kind_try_from PSysex7 [0x30000000; 0]%N ;;
  x2 <- unwrapped (Val r1) ;;
  x3 <- status7 x2 ;;
  Val (
    x3 = Complete)).
Proof. run_test. Qed.

(* sysex7/packet.rs 216 *)
Example t_sysex7_packet_construction_start : passes (
  r1 <- kind_try_from PSysex7 [0x30100000; 0]%N ;;
  x2 <- unwrapped (Val r1) ;;
  x3 <- status7 x2 ;;
  Val (
    x3 = Start)).
Proof. run_test. Qed.

(* sysex7/packet.rs 226 *)
Example t_sysex7_packet_construction_continue : passes (
  r1 <- kind_try_from PSysex7 [0x30200000; 0]%N ;;
  x2 <- unwrapped (Val r1) ;;
  x3 <- status7 x2 ;;
  Val (
    x3 = Continue)).
Proof. run_test. Qed.

(* sysex7/packet.rs 236 *)
Example t_sysex7_packet_construction_end : passes (
  r1 <- kind_try_from PSysex7 [0x30300000; 0]%N ;;
  x2 <- unwrapped (Val r1) ;;
  x3 <- status7 x2 ;;
  Val (
    x3 = End)).
Proof. run_test. Qed.

(* sysex7/packet.rs 246 *)
Example t_sysex7_packet_payload_empty : passes (
  r1 <- kind_try_from PSysex7 [0x30000000; 0]%N ;;
  x2 <- unwrapped (Val r1) ;;
  l3 <- drain SevenBit 14 (packet_payload x2) ;;
  Val (
    l3 = [])).
Proof. run_test. Qed.

(* sysex7/packet.rs 257 *)
Example t_sysex7_packet_payload_one_item : passes (
  r1 <- kind_try_from PSysex7 [0x30017f00; 0]%N ;;
  x2 <- unwrapped (Val r1) ;;
  l3 <- drain SevenBit 14 (packet_payload x2) ;;
  Val (
    l3 = [127]%N)).
Proof. run_test. Qed.

(* sysex7/packet.rs 268 *)
Example t_sysex7_packet_payload_two_items : passes (
  r1 <- kind_try_from PSysex7 [0x30020102; 0]%N ;;
  x2 <- unwrapped (Val r1) ;;
  l3 <- drain SevenBit 14 (packet_payload x2) ;;
  Val (
    l3 = [1; 2]%N)).
Proof. run_test. Qed.

(* sysex7/packet.rs 279 *)
Example t_sysex7_packet_payload_full_payload : passes (
  r1 <- kind_try_from PSysex7 [0x30060102; 0x3040506]%N ;;
  x2 <- unwrapped (Val r1) ;;
  l3 <- drain SevenBit 14 (packet_payload x2) ;;
  Val (
    l3 = [1; 2; 3; 4; 5; 6]%N)).
Proof. run_test. Qed.

(* sysex7/packet.rs 297 *)
Example t_sysex7_packet_payload_nth_0 : passes (
  r1 <- kind_try_from PSysex7 [0x30060102; 0x3040506]%N ;;
  x2 <- unwrapped (Val r1) ;;
  x3 <- pi_nth7 (packet_payload x2) 0 ;;
  Val (
    (fst x3) = (Some 1%N))).
Proof. run_test. Qed.

(* sysex7/packet.rs 309 *)
Example t_sysex7_packet_payload_nth_1 : passes (
  r1 <- kind_try_from PSysex7 [0x30060102; 0x3040506]%N ;;
  x2 <- unwrapped (Val r1) ;;
  x3 <- pi_nth7 (packet_payload x2) 1 ;;
  Val (
    (fst x3) = (Some 2%N))).
Proof. run_test. Qed.

(* sysex7/packet.rs 320 *)
Example t_sysex7_packet_payload_nth_5 : passes (
  r1 <- kind_try_from PSysex7 [0x30060102; 0x3040506]%N ;;
  x2 <- unwrapped (Val r1) ;;
  x3 <- pi_nth7 (packet_payload x2) 5 ;;
  Val (
    (fst x3) = (Some 6%N))).
Proof. run_test. Qed.

(* sysex7/packet.rs 331 *)
Example t_sysex7_packet_payload_nth_6 : passes (
  r1 <- kind_try_from PSysex7 [0x30060102; 0x3040506]%N ;;
  x2 <- unwrapped (Val r1) ;;
  x3 <- pi_nth7 (packet_payload x2) 6 ;;
  Val (
    (fst x3) = None)).
Proof. run_test. Qed.

(* sysex7/packet.rs 342 *)
Example t_sysex7_packet_payload_nth_6_followed_by_next_should_return_none : passes (
  r1 <- kind_try_from PSysex7 [0x30060102; 0x3040506]%N ;;
  x2 <- unwrapped (Val r1) ;;
  x3 <- pi_nth7 (packet_payload x2) 6 ;;
  x4 <- pi_next7 (snd x3) ;;
  Val (
    (fst x3) = None /\
    (fst x4) = None)).
Proof. run_test. Qed.

(* sysex7/packet.rs 351 *)
Example t_sysex7_packet_payload_call_next_and_the_iterator_length_should_be_one_fewer : passes (
  r1 <- kind_try_from PSysex7 [0x30060102; 0x3040506]%N ;;
  x2 <- unwrapped (Val r1) ;;
  x3 <- pi_len7 (packet_payload x2) ;;
  x4 <- pi_next7 (packet_payload x2) ;;
  x5 <- pi_len7 (snd x4) ;;
  Val (
    x3 = 6 /\
    x5 = 5)).
Proof. run_test. Qed.

(* sysex7/packet.rs 361 *)
Example t_sysex7_packet_payload_exhaustive_nth_should_leave_iter_length_0 : passes (
  r1 <- kind_try_from PSysex7 [0x30060102; 0x3040506]%N ;;
  x2 <- unwrapped (Val r1) ;;
  x3 <- pi_len7 (packet_payload x2) ;;
  x4 <- pi_nth7 (packet_payload x2) 6 ;;
  x5 <- pi_len7 (snd x4) ;;
  Val (
    x3 = 6 /\
    x5 = 0)).
Proof. run_test. Qed.

(* sysex7/packet.rs 371 *)
Example t_sysex7_packet_payload_over_exhaustive_nth_should_leave_iter_length_0 : passes (
  r1 <- kind_try_from PSysex7 [0x30060102; 0x3040506]%N ;;
  x2 <- unwrapped (Val r1) ;;
  x3 <- pi_len7 (packet_payload x2) ;;
  x4 <- pi_nth7 (packet_payload x2) 7 ;;
  x5 <- pi_len7 (snd x4) ;;
  Val (
    x3 = 6 /\
    x5 = 0)).
Proof. run_test. Qed.

(* sysex7/packet.rs 381 *)
Example t_sysex7_packet_payload_nth_should_leave_iter_with_n_fewer_length : passes (
  r1 <- kind_try_from PSysex7 [0x30060102; 0x3040506]%N ;;
  x2 <- unwrapped (Val r1) ;;
  x3 <- pi_len7 (packet_payload x2) ;;
  x4 <- pi_nth7 (packet_payload x2) 2 ;;
  x5 <- pi_len7 (snd x4) ;;
  Val (
    x3 = 6 /\
    x5 = 3)).
Proof. run_test. Qed.
