(** Generated: the unit tests of /repo, sysex8, sysex8.rs, read as statements about the
    model.  They check that the model computes what the project's own tests
    expect of the code; they are tests, not proofs of a property. *)
From Coq Require Import NArith List String Bool.
From Verif Require Import Base BitOps Values Props Message MessageTable Text Sysex Splice SpecSysex SpecEdits SpecPacket SysexClient Aggregate Packet Receiver Ci RepoTests.
Import ListNotations.
Local Open Scope string_scope.

(** *** midi2/src/sysex8.rs *)

(* sysex8.rs 653 *)
Example t_sysex8_new : passes (
  m1 <- sx_new fmt8 ;;
  Val (
    m1 = [0x50010000; 0; 0; 0]%N)).
Proof. run_test. Qed.

(* sysex8.rs 661 *)
Example t_sysex8_try_new_with_buffer : passes (
  r1 <- sx_try_new_with_buffer fmt8 [0; 0; 0; 0; 0; 0; 0; 0; 0; 0; 0; 0; 0; 0; 0; 0]%N ;;
  x2 <- unwrapped (Val r1) ;;
  d3 <- concrete_data U32 CSysex8 x2 ;;
  Val (
    d3 = [0x50010000; 0; 0; 0]%N)).
Proof. run_test. Qed.

(* sysex8.rs 671 *)
Example t_sysex8_try_new_with_buffer_undersized_buffer : passes (
  r1 <- sx_try_new_with_buffer fmt8 [0; 0]%N ;;
  Val (
    r1 = (Err "BufferOverflow"))).
Proof. run_test. Qed.

(* sysex8.rs 678 *)
Example t_sysex8_try_new_with_buffer_write_payload : passes (
  r1 <- sx_try_new_with_buffer fmt8 [0; 0; 0; 0; 0; 0; 0; 0; 0; 0; 0; 0; 0; 0; 0; 0]%N ;;
  x2 <- unwrapped (Val r1) ;;
  x3 <- try_edit EightBit (SetPayload (listed (ints 0 10))) x2 ;;
  _ <- check (snd x3) ;;
  d4 <- concrete_data U32 CSysex8 (fst x3) ;;
  Val (
    d4 = [0x500b0000; 0x1020304; 0x5060708; 0x9000000]%N)).
Proof. run_test. Qed.

(* sysex8.rs 689 *)
Example t_sysex8_new_with_buffer_buffer_is_zeroed : passes (
  m1 <- sx_new_with_buffer fmt8 (s_items (listed (ints 0 4))) ;;
  Val (
    m1 = [0x50010000; 0; 0; 0]%N)).
Proof. run_test. Qed.

(* sysex8.rs 696 *)
Example t_sysex8_new_set_group : passes (
  m1 <- sx_new fmt8 ;;
  m2 <- apply_edit EightBit (SetGroup 12) m1 ;;
  Val (
    m2 = [0x5c010000; 0; 0; 0]%N)).
Proof. run_test. Qed.

(* sysex8.rs 706 *)
Example t_sysex8_try_from_slice : passes (
  r1 <- concrete_try_from U32 CSysex8 [0x541ebb00; 0x1020304; 0x5060708; 0x90a0b0c; 0x542ebb0d; 0xe0f1011; 0x12131415; 0x16171819; 0x542ebb1a; 0x1b1c1d1e; 0x1f202122; 0x23242526; 0x543cbb27; 0x28292a2b; 0x2c2d2e2f; 0x30310000]%N ;;
  Val (
    r1 = (Ok [0x541ebb00; 0x1020304; 0x5060708; 0x90a0b0c; 0x542ebb0d; 0xe0f1011; 0x12131415; 0x16171819; 0x542ebb1a; 0x1b1c1d1e; 0x1f202122; 0x23242526; 0x543cbb27; 0x28292a2b; 0x2c2d2e2f; 0x30310000]%N))).
Proof. run_test. Qed.

(* sysex8.rs 752 *)
Example t_sysex8_try_from_slice_invalid_packet_size : passes (
  r1 <- concrete_try_from U32 CSysex8 [0x541ebb00; 0x1020304; 0x5060708; 0x90a0b0c; 0x542fbb0d; 0xe0f1011; 0x12131415; 0x16171819; 0x542ebb1a; 0x1b1c1d1e; 0x1f202122; 0x23242526; 0x543cbb27; 0x28292a2b; 0x2c2d2e2f; 0x30310000]%N ;;
  Val (
    r1 = (Err "Invalid number of payload bytes in packet"))).
Proof. run_test. Qed.

(* sysex8.rs 781 *)
Example t_sysex8_try_from_slice_inconsistent_groups : passes (
  r1 <- concrete_try_from U32 CSysex8 [0x541ebb00; 0x1020304; 0x5060708; 0x90a0b0c; 0x512ebb0d; 0xe0f1011; 0x12131415; 0x16171819; 0x542ebb1a; 0x1b1c1d1e; 0x1f202122; 0x23242526; 0x543cbb27; 0x28292a2b; 0x2c2d2e2f; 0x30310000]%N ;;
  Val (
    r1 = (Err "Inconsistent groups across packets"))).
Proof. run_test. Qed.

(* sysex8.rs 810 *)
Example t_sysex8_try_from_slice_inconsistent_stream_id : passes (
  r1 <- concrete_try_from U32 CSysex8 [0x541ebb00; 0x1020304; 0x5060708; 0x90a0b0c; 0x542ecc0d; 0xe0f1011; 0x12131415; 0x16171819; 0x542ebb1a; 0x1b1c1d1e; 0x1f202122; 0x23242526; 0x543cbb27; 0x28292a2b; 0x2c2d2e2f; 0x30310000]%N ;;
  Val (
    r1 = (Err "Inconsistent stream id fields across packets"))).
Proof. run_test. Qed.

(* sysex8.rs 837 *)
Example t_sysex8_try_from_slice_expected_start : passes (
  r1 <- concrete_try_from U32 CSysex8 [0x540ebb00; 0x1020304; 0x5060708; 0x90a0b0c; 0x542ebb0d; 0xe0f1011; 0x12131415; 0x16171819; 0x542ebb1a; 0x1b1c1d1e; 0x1f202122; 0x23242526; 0x543cbb27; 0x28292a2b; 0x2c2d2e2f; 0x30310000]%N ;;
  Val (
    r1 = (Err "Expected Begin packet"))).
Proof. run_test. Qed.

(* sysex8.rs 866 *)
Example t_sysex8_try_from_slice_expected_continue : passes (
  r1 <- concrete_try_from U32 CSysex8 [0x541ebb00; 0x1020304; 0x5060708; 0x90a0b0c; 0x541ebb0d; 0xe0f1011; 0x12131415; 0x16171819; 0x542ebb1a; 0x1b1c1d1e; 0x1f202122; 0x23242526; 0x543cbb27; 0x28292a2b; 0x2c2d2e2f; 0x30310000]%N ;;
  Val (
    r1 = (Err "Expected Continue packet"))).
Proof. run_test. Qed.

(* sysex8.rs 895 *)
Example t_sysex8_try_from_slice_expected_end : passes (
  r1 <- concrete_try_from U32 CSysex8 [0x541ebb00; 0x1020304; 0x5060708; 0x90a0b0c; 0x542ebb0d; 0xe0f1011; 0x12131415; 0x16171819; 0x542ebb1a; 0x1b1c1d1e; 0x1f202122; 0x23242526; 0x542cbb27; 0x28292a2b; 0x2c2d2e2f; 0x30310000]%N ;;
  Val (
    r1 = (Err "Expected End packet"))).
Proof. run_test. Qed.

(* sysex8.rs 924 *)
Example t_sysex8_try_from_slice_expected_complete : passes (
  r1 <- concrete_try_from U32 CSysex8 [0x541cbb00; 0x1020304; 0x5060708; 0x90a0b00]%N ;;
  Val (
    r1 = (Err "Expected Complete packet"))).
Proof. run_test. Qed.

(* sysex8.rs 934 *)
Example t_sysex8_group : passes (
  r1 <- concrete_try_from U32 CSysex8 [0x541ebb00; 0x1020304; 0x5060708; 0x90a0b0c; 0x542ebb0d; 0xe0f1011; 0x12131415; 0x16171819; 0x542ebb1a; 0x1b1c1d1e; 0x1f202122; 0x23242526; 0x543cbb27; 0x28292a2b; 0x2c2d2e2f; 0x30310000]%N ;;
  x2 <- unwrapped (Val r1) ;;
  x3 <- Sysex.group x2 ;;
  Val (
    x3 = 4%N)).
Proof. run_test. Qed.

(* sysex8.rs 965 *)
Example t_sysex8_stream_id : passes (
  r1 <- concrete_try_from U32 CSysex8 [0x541ebb00; 0x1020304; 0x5060708; 0x90a0b0c; 0x542ebb0d; 0xe0f1011; 0x12131415; 0x16171819; 0x542ebb1a; 0x1b1c1d1e; 0x1f202122; 0x23242526; 0x543cbb27; 0x28292a2b; 0x2c2d2e2f; 0x30310000]%N ;;
  x2 <- unwrapped (Val r1) ;;
  x3 <- stream_id x2 ;;
  Val (
    x3 = 187%N)).
Proof. run_test. Qed.

(* sysex8.rs 994 *)
Example t_sysex8_payload : passes (
  r1 <- concrete_try_from U32 CSysex8 [0x541ebb00; 0x1020304; 0x5060708; 0x90a0b0c; 0x542ebb0d; 0xe0f1011; 0x12131415; 0x16171819; 0x542ebb1a; 0x1b1c1d1e; 0x1f202122; 0x23242526; 0x543cbb27; 0x28292a2b; 0x2c2d2e2f; 0x30310000]%N ;;
  x2 <- unwrapped (Val r1) ;;
  x3 <- payload fmt8 x2 ;;
  l4 <- it_collect 200 fmt8 x3 ;;
  Val (
    l4 = [0; 1; 2; 3; 4; 5; 6; 7; 8; 9; 10; 11; 12; 13; 14; 15; 16; 17; 18; 19; 20; 21; 22; 23; 24; 25; 26; 27; 28; 29; 30; 31; 32; 33; 34; 35; 36; 37; 38; 39; 40; 41; 42; 43; 44; 45; 46; 47; 48; 49]%N)).
Proof. run_test. Qed.

(* sysex8.rs 1029 *)
Example t_sysex8_payload_nth : passes (
  r1 <- concrete_try_from U32 CSysex8 [0x541ebb00; 0x1020304; 0x5060708; 0x90a0b0c; 0x542ebb0d; 0xe0f1011; 0x12131415; 0x16171819; 0x542ebb1a; 0x1b1c1d1e; 0x1f202122; 0x23242526; 0x543cbb27; 0x28292a2b; 0x2c2d2e2f; 0x30310000]%N ;;
  x2 <- unwrapped (Val r1) ;;
  x3 <- payload fmt8 x2 ;;
  x4 <- it_nth fmt8 x3 13 ;;
  x5 <- it_nth fmt8 (snd x4) 11 ;;
  x6 <- it_nth fmt8 (snd x5) 11 ;;
  x7 <- it_nth fmt8 (snd x6) 4 ;;
  x8 <- it_nth fmt8 (snd x7) 5 ;;
  x9 <- it_next fmt8 (snd x8) ;;
  x10 <- it_next fmt8 (snd x9) ;;
  Val (
    (it_len x3) = 50 /\
    (fst x4) = (Some 13%N) /\
    (it_len (snd x4)) = 36 /\
    (fst x5) = (Some 25%N) /\
    (it_len (snd x5)) = 24 /\
    (fst x6) = (Some 37%N) /\
    (it_len (snd x6)) = 12 /\
    (fst x7) = (Some 42%N) /\
    (it_len (snd x7)) = 7 /\
    (fst x8) = (Some 48%N) /\
    (it_len (snd x8)) = 1 /\
    (fst x9) = (Some 49%N) /\
    (it_len (snd x9)) = 0 /\
    (fst x10) = None)).
Proof. run_test. Qed.

(* sysex8.rs 1069 *)
Example t_sysex8_payload_nth_non_contiguous_payload : passes (
  r1 <- concrete_try_from U32 CSysex8 [0x5411bb00; 0; 0; 0; 0x5422bb00; 0; 0; 0; 0x5423bb01; 0x2000000; 0; 0; 0x5421bb00; 0; 0; 0; 0x5421bb00; 0; 0; 0; 0x5424bb03; 0x4050000; 0; 0; 0x5425bb06; 0x7080900; 0; 0; 0x5426bb0a; 0xb0c0d0e; 0; 0; 0x5427bb0f; 0x10111213; 0x14000000; 0; 0x5428bb15; 0x16171819; 0x1a1b0000; 0; 0x5429bb1c; 0x1d1e1f20; 0x21222300; 0; 0x542abb24; 0x25262728; 0x292a2b2c; 0; 0x5436bb2d; 0x2e2f3031; 0; 0]%N ;;
  x2 <- unwrapped (Val r1) ;;
  x3 <- payload fmt8 x2 ;;
  x4 <- it_nth fmt8 x3 13 ;;
  x5 <- it_nth fmt8 (snd x4) 11 ;;
  x6 <- it_nth fmt8 (snd x5) 11 ;;
  x7 <- it_nth fmt8 (snd x6) 4 ;;
  x8 <- it_nth fmt8 (snd x7) 5 ;;
  x9 <- it_next fmt8 (snd x8) ;;
  x10 <- it_next fmt8 (snd x9) ;;
  Val (
    (it_len x3) = 50 /\
    (fst x4) = (Some 13%N) /\
    (it_len (snd x4)) = 36 /\
    (fst x5) = (Some 25%N) /\
    (it_len (snd x5)) = 24 /\
    (fst x6) = (Some 37%N) /\
    (it_len (snd x6)) = 12 /\
    (fst x7) = (Some 42%N) /\
    (it_len (snd x7)) = 7 /\
    (fst x8) = (Some 48%N) /\
    (it_len (snd x8)) = 1 /\
    (fst x9) = (Some 49%N) /\
    (it_len (snd x9)) = 0 /\
    (fst x10) = None)).
Proof. run_test. Qed.

(* sysex8.rs 1148 *)
Example t_sysex8_payload_next_non_contiguous_payload : passes (
  r1 <- concrete_try_from U32 CSysex8 [0x5411bb00; 0; 0; 0; 0x5422bb00; 0; 0; 0; 0x5423bb01; 0x2000000; 0; 0; 0x5421bb00; 0; 0; 0; 0x5421bb00; 0; 0; 0; 0x5424bb03; 0x4050000; 0; 0; 0x5425bb06; 0x7080900; 0; 0; 0x5426bb0a; 0xb0c0d0e; 0; 0; 0x5427bb0f; 0x10111213; 0x14000000; 0; 0x5428bb15; 0x16171819; 0x1a1b0000; 0; 0x5429bb1c; 0x1d1e1f20; 0x21222300; 0; 0x542abb24; 0x25262728; 0x292a2b2c; 0; 0x5436bb2d; 0x2e2f3031; 0; 0]%N ;;
  x2 <- unwrapped (Val r1) ;;
  x3 <- payload fmt8 x2 ;;
  x4 <- it_next fmt8 x3 ;;
  x5 <- it_next fmt8 (snd x4) ;;
  x6 <- it_next fmt8 (snd x5) ;;
  x7 <- it_next fmt8 (snd x6) ;;
  x8 <- it_next fmt8 (snd x7) ;;
  x9 <- it_next fmt8 (snd x8) ;;
  x10 <- it_next fmt8 (snd x9) ;;
  x11 <- it_next fmt8 (snd x10) ;;
  x12 <- it_next fmt8 (snd x11) ;;
  x13 <- it_next fmt8 (snd x12) ;;
  x14 <- it_next fmt8 (snd x13) ;;
  x15 <- it_next fmt8 (snd x14) ;;
  x16 <- it_next fmt8 (snd x15) ;;
  x17 <- it_next fmt8 (snd x16) ;;
  x18 <- it_next fmt8 (snd x17) ;;
  x19 <- it_next fmt8 (snd x18) ;;
  x20 <- it_next fmt8 (snd x19) ;;
  x21 <- it_next fmt8 (snd x20) ;;
  x22 <- it_next fmt8 (snd x21) ;;
  x23 <- it_next fmt8 (snd x22) ;;
  x24 <- it_next fmt8 (snd x23) ;;
  x25 <- it_next fmt8 (snd x24) ;;
  x26 <- it_next fmt8 (snd x25) ;;
  x27 <- it_next fmt8 (snd x26) ;;
  x28 <- it_next fmt8 (snd x27) ;;
  x29 <- it_next fmt8 (snd x28) ;;
  x30 <- it_next fmt8 (snd x29) ;;
  x31 <- it_next fmt8 (snd x30) ;;
  x32 <- it_next fmt8 (snd x31) ;;
  x33 <- it_next fmt8 (snd x32) ;;
  x34 <- it_next fmt8 (snd x33) ;;
  x35 <- it_next fmt8 (snd x34) ;;
  x36 <- it_next fmt8 (snd x35) ;;
  x37 <- it_next fmt8 (snd x36) ;;
  x38 <- it_next fmt8 (snd x37) ;;
  x39 <- it_next fmt8 (snd x38) ;;
  x40 <- it_next fmt8 (snd x39) ;;
  x41 <- it_next fmt8 (snd x40) ;;
  x42 <- it_next fmt8 (snd x41) ;;
  x43 <- it_next fmt8 (snd x42) ;;
  x44 <- it_next fmt8 (snd x43) ;;
  x45 <- it_next fmt8 (snd x44) ;;
  x46 <- it_next fmt8 (snd x45) ;;
  x47 <- it_next fmt8 (snd x46) ;;
  x48 <- it_next fmt8 (snd x47) ;;
  x49 <- it_next fmt8 (snd x48) ;;
  x50 <- it_next fmt8 (snd x49) ;;
  x51 <- it_next fmt8 (snd x50) ;;
  x52 <- it_next fmt8 (snd x51) ;;
  x53 <- it_next fmt8 (snd x52) ;;
  Val (
    (it_len x3) = 50 /\
    (fst x4) = (Some 0%N) /\
    (it_len (snd x4)) = 49 /\
    (fst x5) = (Some 1%N) /\
    (it_len (snd x5)) = 48 /\
    (fst x6) = (Some 2%N) /\
    (it_len (snd x6)) = 47 /\
    (fst x7) = (Some 3%N) /\
    (it_len (snd x7)) = 46 /\
    (fst x8) = (Some 4%N) /\
    (it_len (snd x8)) = 45 /\
    (fst x9) = (Some 5%N) /\
    (it_len (snd x9)) = 44 /\
    (fst x10) = (Some 6%N) /\
    (it_len (snd x10)) = 43 /\
    (fst x11) = (Some 7%N) /\
    (it_len (snd x11)) = 42 /\
    (fst x12) = (Some 8%N) /\
    (it_len (snd x12)) = 41 /\
    (fst x13) = (Some 9%N) /\
    (it_len (snd x13)) = 40 /\
    (fst x14) = (Some 10%N) /\
    (it_len (snd x14)) = 39 /\
    (fst x15) = (Some 11%N) /\
    (it_len (snd x15)) = 38 /\
    (fst x16) = (Some 12%N) /\
    (it_len (snd x16)) = 37 /\
    (fst x17) = (Some 13%N) /\
    (it_len (snd x17)) = 36 /\
    (fst x18) = (Some 14%N) /\
    (it_len (snd x18)) = 35 /\
    (fst x19) = (Some 15%N) /\
    (it_len (snd x19)) = 34 /\
    (fst x20) = (Some 16%N) /\
    (it_len (snd x20)) = 33 /\
    (fst x21) = (Some 17%N) /\
    (it_len (snd x21)) = 32 /\
    (fst x22) = (Some 18%N) /\
    (it_len (snd x22)) = 31 /\
    (fst x23) = (Some 19%N) /\
    (it_len (snd x23)) = 30 /\
    (fst x24) = (Some 20%N) /\
    (it_len (snd x24)) = 29 /\
    (fst x25) = (Some 21%N) /\
    (it_len (snd x25)) = 28 /\
    (fst x26) = (Some 22%N) /\
    (it_len (snd x26)) = 27 /\
    (fst x27) = (Some 23%N) /\
    (it_len (snd x27)) = 26 /\
    (fst x28) = (Some 24%N) /\
    (it_len (snd x28)) = 25 /\
    (fst x29) = (Some 25%N) /\
    (it_len (snd x29)) = 24 /\
    (fst x30) = (Some 26%N) /\
    (it_len (snd x30)) = 23 /\
    (fst x31) = (Some 27%N) /\
    (it_len (snd x31)) = 22 /\
    (fst x32) = (Some 28%N) /\
    (it_len (snd x32)) = 21 /\
    (fst x33) = (Some 29%N) /\
    (it_len (snd x33)) = 20 /\
    (fst x34) = (Some 30%N) /\
    (it_len (snd x34)) = 19 /\
    (fst x35) = (Some 31%N) /\
    (it_len (snd x35)) = 18 /\
    (fst x36) = (Some 32%N) /\
    (it_len (snd x36)) = 17 /\
    (fst x37) = (Some 33%N) /\
    (it_len (snd x37)) = 16 /\
    (fst x38) = (Some 34%N) /\
    (it_len (snd x38)) = 15 /\
    (fst x39) = (Some 35%N) /\
    (it_len (snd x39)) = 14 /\
    (fst x40) = (Some 36%N) /\
    (it_len (snd x40)) = 13 /\
    (fst x41) = (Some 37%N) /\
    (it_len (snd x41)) = 12 /\
    (fst x42) = (Some 38%N) /\
    (it_len (snd x42)) = 11 /\
    (fst x43) = (Some 39%N) /\
    (it_len (snd x43)) = 10 /\
    (fst x44) = (Some 40%N) /\
    (it_len (snd x44)) = 9 /\
    (fst x45) = (Some 41%N) /\
    (it_len (snd x45)) = 8 /\
    (fst x46) = (Some 42%N) /\
    (it_len (snd x46)) = 7 /\
    (fst x47) = (Some 43%N) /\
    (it_len (snd x47)) = 6 /\
    (fst x48) = (Some 44%N) /\
    (it_len (snd x48)) = 5 /\
    (fst x49) = (Some 45%N) /\
    (it_len (snd x49)) = 4 /\
    (fst x50) = (Some 46%N) /\
    (it_len (snd x50)) = 3 /\
    (fst x51) = (Some 47%N) /\
    (it_len (snd x51)) = 2 /\
    (fst x52) = (Some 48%N) /\
    (it_len (snd x52)) = 1 /\
    (fst x53) = (Some 49%N))).
Proof. run_test. Qed.

(* sysex8.rs 1217 *)
Example t_sysex8_collect_payload_non_contiguous : passes (
  r1 <- concrete_try_from U32 CSysex8 [0x5411bb00; 0; 0; 0; 0x5422bb00; 0; 0; 0; 0x5423bb01; 0x2000000; 0; 0; 0x5421bb00; 0; 0; 0; 0x5421bb00; 0; 0; 0; 0x5424bb03; 0x4050000; 0; 0; 0x5425bb06; 0x7080900; 0; 0; 0x5426bb0a; 0xb0c0d0e; 0; 0; 0x5427bb0f; 0x10111213; 0x14000000; 0; 0x5428bb15; 0x16171819; 0x1a1b0000; 0; 0x5429bb1c; 0x1d1e1f20; 0x21222300; 0; 0x542abb24; 0x25262728; 0x292a2b2c; 0; 0x5436bb2d; 0x2e2f3031; 0; 0]%N ;;
  x2 <- unwrapped (Val r1) ;;
  x3 <- payload fmt8 x2 ;;
  l4 <- it_collect 200 fmt8 x3 ;;
  Val (
    l4 = [0; 1; 2; 3; 4; 5; 6; 7; 8; 9; 10; 11; 12; 13; 14; 15; 16; 17; 18; 19; 20; 21; 22; 23; 24; 25; 26; 27; 28; 29; 30; 31; 32; 33; 34; 35; 36; 37; 38; 39; 40; 41; 42; 43; 44; 45; 46; 47; 48; 49]%N)).
Proof. run_test. Qed.

(* sysex8.rs 1289 *)
Example t_sysex8_set_payload : passes (
  m1 <- sx_new fmt8 ;;
  m2 <- apply_edit EightBit (SetPayload (listed (ints 0 20))) m1 ;;
  Val (
    m2 = [0x501e0000; 0x1020304; 0x5060708; 0x90a0b0c; 0x5038000d; 0xe0f1011; 0x12130000; 0]%N)).
Proof. run_test. Qed.

(* sysex8.rs 1308 *)
Example t_sysex8_set_rubbish_payload : passes (
  m1 <- sx_new fmt8 ;;
  m2 <- apply_edit EightBit (SetPayload rubbish) m1 ;;
  Val (
    m2 = [0x501e0000; 0x1020304; 0x5060708; 0x90a0b0c; 0x502e000d; 0xe0f1011; 0x12131415; 0x16171819; 0x502e001a; 0x1b1c1d1e; 0x1f202122; 0x23242526; 0x503c0027; 0x28292a2b; 0x2c2d2e2f; 0x30310000]%N)).
Proof. run_test. Qed.

(* sysex8.rs 1336 *)
Example t_sysex8_set_rubbish_payload_to_fixed_size_buffer : passes (
  m1 <- unwrapped (sx_try_new fmt8 16) ;;
  x2 <- try_edit EightBit (SetPayload rubbish) m1 ;;
  Val (
    (snd x2) = true /\
    (fst x2) = [0x501e0000; 0x1020304; 0x5060708; 0x90a0b0c; 0x502e000d; 0xe0f1011; 0x12131415; 0x16171819; 0x502e001a; 0x1b1c1d1e; 0x1f202122; 0x23242526; 0x503c0027; 0x28292a2b; 0x2c2d2e2f; 0x30310000]%N)).
Proof. run_test. Qed.

(* sysex8.rs 1367 *)
Example t_sysex8_set_and_reset_payload_decreasing : passes (
  m1 <- sx_new fmt8 ;;
  m2 <- apply_edit EightBit (SetPayload (listed (ints 0 30))) m1 ;;
  m3 <- apply_edit EightBit (SetPayload (listed (ints 0 20))) m2 ;;
  Val (
    m3 = [0x501e0000; 0x1020304; 0x5060708; 0x90a0b0c; 0x5038000d; 0xe0f1011; 0x12130000; 0]%N)).
Proof. run_test. Qed.

(* sysex8.rs 1387 *)
Example t_sysex8_set_and_reset_payload_fixed_size_buffer : passes (
  m1 <- unwrapped (sx_try_new fmt8 13) ;;
  x2 <- try_edit EightBit (SetPayload (listed (ints 0 30))) m1 ;;
  x3 <- try_edit EightBit (SetPayload (listed (ints 0 20))) (fst x2) ;;
  d4 <- concrete_data U32 CSysex8 (fst x3) ;;
  Val (
    (snd x2) = true /\
    (snd x3) = true /\
    d4 = [0x501e0000; 0x1020304; 0x5060708; 0x90a0b0c; 0x5038000d; 0xe0f1011; 0x12130000; 0]%N)).
Proof. run_test. Qed.

(* sysex8.rs 1407 *)
Example t_sysex8_insert_payload : passes (
  m1 <- sx_new fmt8 ;;
  m2 <- apply_edit EightBit (SetPayload (listed (ints 0 20))) m1 ;;
  m3 <- apply_edit EightBit (InsertPayload (listed (ints 0 10)) 10) m2 ;;
  x4 <- payload fmt8 m3 ;;
  l5 <- it_collect 200 fmt8 x4 ;;
  Val (
    l5 = [0; 1; 2; 3; 4; 5; 6; 7; 8; 9; 0; 1; 2; 3; 4; 5; 6; 7; 8; 9; 10; 11; 12; 13; 14; 15; 16; 17; 18; 19]%N)).
Proof. run_test. Qed.

(* sysex8.rs 1421 *)
Example t_sysex8_insert_rubbish_payload : passes (
  m1 <- sx_new fmt8 ;;
  m2 <- apply_edit EightBit (SetPayload (listed (ints 0 20))) m1 ;;
  m3 <- apply_edit EightBit (InsertPayload rubbish 10) m2 ;;
  x4 <- payload fmt8 m3 ;;
  l5 <- it_collect 200 fmt8 x4 ;;
  Val (
    l5 = [0; 1; 2; 3; 4; 5; 6; 7; 8; 9; 0; 1; 2; 3; 4; 5; 6; 7; 8; 9; 10; 11; 12; 13; 14; 15; 16; 17; 18; 19; 20; 21; 22; 23; 24; 25; 26; 27; 28; 29; 30; 31; 32; 33; 34; 35; 36; 37; 38; 39; 40; 41; 42; 43; 44; 45; 46; 47; 48; 49; 10; 11; 12; 13; 14; 15; 16; 17; 18; 19]%N)).
Proof. run_test. Qed.

(* sysex8.rs 1438 *)
Example t_sysex8_insert_rubbish_payload_front : passes (
  m1 <- sx_new fmt8 ;;
  m2 <- apply_edit EightBit (SetPayload (listed (ints 0 20))) m1 ;;
  m3 <- apply_edit EightBit (InsertPayload rubbish 0) m2 ;;
  x4 <- payload fmt8 m3 ;;
  l5 <- it_collect 200 fmt8 x4 ;;
  Val (
    l5 = [0; 1; 2; 3; 4; 5; 6; 7; 8; 9; 10; 11; 12; 13; 14; 15; 16; 17; 18; 19; 20; 21; 22; 23; 24; 25; 26; 27; 28; 29; 30; 31; 32; 33; 34; 35; 36; 37; 38; 39; 40; 41; 42; 43; 44; 45; 46; 47; 48; 49; 0; 1; 2; 3; 4; 5; 6; 7; 8; 9; 10; 11; 12; 13; 14; 15; 16; 17; 18; 19]%N)).
Proof. run_test. Qed.

(* sysex8.rs 1455 *)
Example t_sysex8_insert_rubbish_payload_back : passes (
  m1 <- sx_new fmt8 ;;
  m2 <- apply_edit EightBit (SetPayload (listed (ints 0 20))) m1 ;;
  m3 <- apply_edit EightBit (InsertPayload rubbish 20) m2 ;;
  x4 <- payload fmt8 m3 ;;
  l5 <- it_collect 200 fmt8 x4 ;;
  Val (
    l5 = [0; 1; 2; 3; 4; 5; 6; 7; 8; 9; 10; 11; 12; 13; 14; 15; 16; 17; 18; 19; 0; 1; 2; 3; 4; 5; 6; 7; 8; 9; 10; 11; 12; 13; 14; 15; 16; 17; 18; 19; 20; 21; 22; 23; 24; 25; 26; 27; 28; 29; 30; 31; 32; 33; 34; 35; 36; 37; 38; 39; 40; 41; 42; 43; 44; 45; 46; 47; 48; 49]%N)).
Proof. run_test. Qed.

(* sysex8.rs 1472 *)
Example t_sysex8_set_payload_to_fixed_size_buffer_with_overflow : passes (
  m1 <- unwrapped (sx_try_new fmt8 16) ;;
  x2 <- try_edit EightBit (SetPayload (listed (ints 0 60))) m1 ;;
  Val (
    (snd x2) = false)).
Proof. run_test. Qed.

(* sysex8.rs 1481 *)
Example t_sysex8_default_constructed_message : passes (
  m1 <- sx_new fmt8 ;;
  Val (
    m1 = [0x50010000; 0; 0; 0]%N)).
Proof. run_test. Qed.

(* sysex8.rs 1489 *)
Example t_sysex8_payload_of_empty_message : passes (
  m1 <- sx_new fmt8 ;;
  x2 <- payload fmt8 m1 ;;
  l3 <- it_collect 200 fmt8 x2 ;;
  Val (
    l3 = [])).
Proof. run_test. Qed.

(* sysex8.rs 1496 *)
Example t_sysex8_packets : passes (
  r1 <- concrete_try_from U32 CSysex8 [0x501e0000; 0x1020304; 0x5060708; 0x90a0b0c; 0x502e000d; 0xe0f1011; 0x12131415; 0x16171819; 0x502e001a; 0x1b1c1d1e; 0x1f202122; 0x23242526; 0x503c0027; 0x28292a2b; 0x2c2d2e2f; 0x30310000]%N ;;
  x2 <- unwrapped (Val r1) ;;
  x3 <- agg_packets (CSysex8, x2) ;;
  x4 <- packets_next x3 ;;
  x5 <- some_of (fst x4) ;;
  x6 <- packets_next (snd x4) ;;
  x7 <- some_of (fst x6) ;;
  x8 <- packets_next (snd x6) ;;
  x9 <- some_of (fst x8) ;;
  x10 <- packets_next (snd x8) ;;
  x11 <- some_of (fst x10) ;;
  x12 <- packets_next (snd x10) ;;
  Val (
    (packet_data x5) = [0x501e0000; 0x1020304; 0x5060708; 0x90a0b0c]%N /\
    (packet_data x7) = [0x502e000d; 0xe0f1011; 0x12131415; 0x16171819]%N /\
    (packet_data x9) = [0x502e001a; 0x1b1c1d1e; 0x1f202122; 0x23242526]%N /\
    (packet_data x11) = [0x503c0027; 0x28292a2b; 0x2c2d2e2f; 0x30310000]%N /\
    (fst x12) = None)).
Proof. run_test. Qed.

(* sysex8.rs 1542 *)
Example t_sysex8_packets_empty : passes (
  m1 <- unwrapped (sx_try_new fmt8 4) ;;
  x2 <- agg_packets (CSysex8, m1) ;;
  x3 <- packets_next x2 ;;
  x4 <- some_of (fst x3) ;;
  x5 <- packets_next (snd x3) ;;
  Val (
    (packet_data x4) = [0x50010000; 0; 0; 0]%N /\
    (fst x5) = None)).
Proof. run_test. Qed.

(* sysex8.rs 1552 *)
Example t_sysex8_reformat_empty_packet_is_noop : passes (
  x1 <- compact fmt8 [0x5001bb00; 0; 0; 0]%N ;;
  d2 <- concrete_data U32 CSysex8 x1 ;;
  Val (
    d2 = [0x5001bb00; 0; 0; 0]%N)).
Proof. run_test. Qed.

(* sysex8.rs 1567 *)
Example t_sysex8_reformat_complete_packet_is_noop : passes (
  x1 <- compact fmt8 [0x5003bb00; 0x1000000; 0; 0]%N ;;
  d2 <- concrete_data U32 CSysex8 x1 ;;
  Val (
    d2 = [0x5003bb00; 0x1000000; 0; 0]%N)).
Proof. run_test. Qed.

(* sysex8.rs 1582 *)
Example t_sysex8_reformat_two_empty_packets_to_one_empty_packet : passes (
  x1 <- compact fmt8 [0x5011bb00; 0x1000000; 0; 0; 0x5031bb00; 0x1000000; 0; 0]%N ;;
  d2 <- concrete_data U32 CSysex8 x1 ;;
  Val (
    d2 = [0x5001bb00; 0x1000000; 0; 0]%N)).
Proof. run_test. Qed.

(* sysex8.rs 1601 *)
Example t_sysex8_empty_packet_is_compact : passes (
  Val (
    (is_compact fmt8 [0x5001bb00; 0; 0; 0]%N) = true)).
Proof. run_test. Qed.

(* sysex8.rs 1611 *)
Example t_sysex8_two_empty_packets_are_not_compact : passes (
  Val (
    (negb (is_compact fmt8 [0x5011bb00; 0; 0; 0; 0x5031bb00; 0; 0; 0]%N)) = true)).
Proof. run_test. Qed.

(* sysex8.rs 1625 *)
Example t_sysex8_non_full_complete_message_is_compact : passes (
  Val (
    (is_compact fmt8 [0x5002bb00; 0; 0; 0]%N) = true)).
Proof. run_test. Qed.

(* sysex8.rs 1635 *)
Example t_sysex8_two_full_packets_is_compact : passes (
  Val (
    (is_compact fmt8 [0x501ebb00; 0; 0; 0; 0x503ebb00; 0; 0; 0]%N) = true)).
Proof. run_test. Qed.

(* sysex8.rs 1649 *)
Example t_sysex8_non_full_start_is_not_compact : passes (
  Val (
    (negb (is_compact fmt8 [0x5012bb00; 0; 0; 0; 0x503ebb00; 0; 0; 0]%N)) = true)).
Proof. run_test. Qed.

(* sysex8.rs 1663 *)
Example t_sysex8_compact_non_contiguous_payload : passes (
  x1 <- compact fmt8 [0x5412bb00; 0; 0; 0; 0x5423bb01; 0x2000000; 0; 0; 0x5421bb00; 0; 0; 0; 0x5421bb00; 0; 0; 0; 0x5424bb03; 0x4050000; 0; 0; 0x5425bb06; 0x7080900; 0; 0; 0x5421bb00; 0; 0; 0; 0x5426bb0a; 0xb0c0d0e; 0; 0; 0x5421bb00; 0; 0; 0; 0x5421bb00; 0; 0; 0; 0x5421bb00; 0; 0; 0; 0x5427bb0f; 0x10111213; 0x14000000; 0; 0x5428bb15; 0x16171819; 0x1a1b0000; 0; 0x5429bb1c; 0x1d1e1f20; 0x21222300; 0; 0x542abb24; 0x25262728; 0x292a2b2c; 0; 0x5436bb2d; 0x2e2f3031; 0; 0]%N ;;
  d2 <- concrete_data U32 CSysex8 x1 ;;
  Val (
    d2 = [0x541ebb00; 0x1020304; 0x5060708; 0x90a0b0c; 0x542ebb0d; 0xe0f1011; 0x12131415; 0x16171819; 0x542ebb1a; 0x1b1c1d1e; 0x1f202122; 0x23242526; 0x543cbb27; 0x28292a2b; 0x2c2d2e2f; 0x30310000]%N)).
Proof. run_test. Qed.

(* sysex8.rs 1761 *)
Example t_sysex8_move_payload_tail_no_op : passes (
  m1 <- sx_new fmt8 ;;
  m2 <- apply_edit EightBit (SetPayload (chained (listed (ints 0 20)) (listed (repeat 0%N 20)))) m1 ;;
  x3 <- move_tail fmt8 m2 0 0 ;;
  x4 <- payload fmt8 x3 ;;
  l5 <- it_collect 200 fmt8 x4 ;;
  Val (
    (List.length l5) = 40 /\
    l5 = [0; 1; 2; 3; 4; 5; 6; 7; 8; 9; 10; 11; 12; 13; 14; 15; 16; 17; 18; 19; 0; 0; 0; 0; 0; 0; 0; 0; 0; 0; 0; 0; 0; 0; 0; 0; 0; 0; 0; 0]%N)).
Proof. run_test. Qed.

(* sysex8.rs 1777 *)
Example t_sysex8_move_entire_payload_one_place : passes (
  m1 <- sx_new fmt8 ;;
  m2 <- apply_edit EightBit (SetPayload (chained (listed (ints 0 20)) (listed (repeat 0%N 20)))) m1 ;;
  x3 <- move_tail fmt8 m2 0 1 ;;
  x4 <- payload fmt8 x3 ;;
  l5 <- it_collect 200 fmt8 x4 ;;
  Val (
    (List.length l5) = 40 /\
    l5 = [0; 0; 1; 2; 3; 4; 5; 6; 7; 8; 9; 10; 11; 12; 13; 14; 15; 16; 17; 18; 19; 0; 0; 0; 0; 0; 0; 0; 0; 0; 0; 0; 0; 0; 0; 0; 0; 0; 0; 0]%N)).
Proof. run_test. Qed.

(* sysex8.rs 1793 *)
Example t_sysex8_move_half_payload_one_place : passes (
  m1 <- sx_new fmt8 ;;
  m2 <- apply_edit EightBit (SetPayload (chained (listed (ints 0 20)) (listed (repeat 0%N 20)))) m1 ;;
  x3 <- move_tail fmt8 m2 10 11 ;;
  x4 <- payload fmt8 x3 ;;
  l5 <- it_collect 200 fmt8 x4 ;;
  Val (
    (List.length l5) = 40 /\
    l5 = [0; 1; 2; 3; 4; 5; 6; 7; 8; 9; 10; 10; 11; 12; 13; 14; 15; 16; 17; 18; 19; 0; 0; 0; 0; 0; 0; 0; 0; 0; 0; 0; 0; 0; 0; 0; 0; 0; 0; 0]%N)).
Proof. run_test. Qed.

(* sysex8.rs 1809 *)
Example t_sysex8_move_half_payload_one_place_back : passes (
  m1 <- sx_new fmt8 ;;
  m2 <- apply_edit EightBit (SetPayload (chained (listed (ints 0 20)) (listed (repeat 0%N 20)))) m1 ;;
  x3 <- move_tail fmt8 m2 10 9 ;;
  x4 <- payload fmt8 x3 ;;
  l5 <- it_collect 200 fmt8 x4 ;;
  Val (
    (List.length l5) = 40 /\
    l5 = [0; 1; 2; 3; 4; 5; 6; 7; 8; 10; 11; 12; 13; 14; 15; 16; 17; 18; 19; 0; 0; 0; 0; 0; 0; 0; 0; 0; 0; 0; 0; 0; 0; 0; 0; 0; 0; 0; 0; 0]%N)).
Proof. run_test. Qed.

(* sysex8.rs 1825 *)
Example t_sysex8_move_half_payload_to_front : passes (
  m1 <- sx_new fmt8 ;;
  m2 <- apply_edit EightBit (SetPayload (chained (listed (ints 0 20)) (listed (repeat 0%N 20)))) m1 ;;
  x3 <- move_tail fmt8 m2 10 0 ;;
  x4 <- payload fmt8 x3 ;;
  l5 <- it_collect 200 fmt8 x4 ;;
  Val (
    (List.length l5) = 40 /\
    l5 = [10; 11; 12; 13; 14; 15; 16; 17; 18; 19; 0; 0; 0; 0; 0; 0; 0; 0; 0; 0; 0; 0; 0; 0; 0; 0; 0; 0; 0; 0; 0; 0; 0; 0; 0; 0; 0; 0; 0; 0]%N)).
Proof. run_test. Qed.

(* sysex8.rs 1841 *)
Example t_sysex8_move_end_to_front : passes (
  m1 <- sx_new fmt8 ;;
  m2 <- apply_edit EightBit (SetPayload (chained (listed (ints 0 20)) (listed (repeat 0%N 20)))) m1 ;;
  x3 <- move_tail fmt8 m2 30 0 ;;
  x4 <- payload fmt8 x3 ;;
  l5 <- it_collect 200 fmt8 x4 ;;
  Val (
    (List.length l5) = 40 /\
    l5 = [0; 0; 0; 0; 0; 0; 0; 0; 0; 0; 10; 11; 12; 13; 14; 15; 16; 17; 18; 19; 0; 0; 0; 0; 0; 0; 0; 0; 0; 0; 0; 0; 0; 0; 0; 0; 0; 0; 0; 0]%N)).
Proof. run_test. Qed.

(* sysex8.rs 1857 *)
Example t_sysex8_set_byte_non_compact_payload : passes (
  m1 <- apply_edit EightBit (SetByte 255 0) [0x5411bb00; 0; 0; 0; 0x5422bb00; 0; 0; 0; 0x5423bb01; 0x2000000; 0; 0; 0x5421bb00; 0; 0; 0; 0x5421bb00; 0; 0; 0; 0x5424bb03; 0x4050000; 0; 0; 0x5425bb06; 0x7080900; 0; 0; 0x5426bb0a; 0xb0c0d0e; 0; 0; 0x5427bb0f; 0x10111213; 0x14000000; 0; 0x5428bb15; 0x16171819; 0x1a1b0000; 0; 0x5429bb1c; 0x1d1e1f20; 0x21222300; 0; 0x542abb24; 0x25262728; 0x292a2b2c; 0; 0x5436bb2d; 0x2e2f3031; 0; 0]%N ;;
  m2 <- apply_edit EightBit (SetByte 254 10) m1 ;;
  m3 <- apply_edit EightBit (SetByte 253 20) m2 ;;
  m4 <- apply_edit EightBit (SetByte 252 30) m3 ;;
  x5 <- payload fmt8 m4 ;;
  l6 <- it_collect 200 fmt8 x5 ;;
  x7 <- idx l6 0 ;;
  x8 <- idx l6 10 ;;
  x9 <- idx l6 20 ;;
  x10 <- idx l6 30 ;;
  Val (
    x7 = 255%N /\
    x8 = 254%N /\
    x9 = 253%N /\
    x10 = 252%N)).
Proof. run_test. Qed.

(* sysex8.rs 1928 *)
Example t_sysex8_append_byte : passes (
  m1 <- sx_new fmt8 ;;
  m2 <- apply_edit EightBit (SetPayload (listed (ints 0 20))) m1 ;;
  m3 <- apply_edit EightBit (AppendByte 0) m2 ;;
  m4 <- apply_edit EightBit (AppendByte 1) m3 ;;
  m5 <- apply_edit EightBit (AppendByte 2) m4 ;;
  m6 <- apply_edit EightBit (AppendByte 3) m5 ;;
  m7 <- apply_edit EightBit (AppendByte 4) m6 ;;
  m8 <- apply_edit EightBit (AppendByte 5) m7 ;;
  m9 <- apply_edit EightBit (AppendByte 6) m8 ;;
  m10 <- apply_edit EightBit (AppendByte 7) m9 ;;
  m11 <- apply_edit EightBit (AppendByte 8) m10 ;;
  m12 <- apply_edit EightBit (AppendByte 9) m11 ;;
  m13 <- apply_edit EightBit (AppendByte 10) m12 ;;
  m14 <- apply_edit EightBit (AppendByte 11) m13 ;;
  m15 <- apply_edit EightBit (AppendByte 12) m14 ;;
  m16 <- apply_edit EightBit (AppendByte 13) m15 ;;
  m17 <- apply_edit EightBit (AppendByte 14) m16 ;;
  m18 <- apply_edit EightBit (AppendByte 15) m17 ;;
  m19 <- apply_edit EightBit (AppendByte 16) m18 ;;
  m20 <- apply_edit EightBit (AppendByte 17) m19 ;;
  m21 <- apply_edit EightBit (AppendByte 18) m20 ;;
  m22 <- apply_edit EightBit (AppendByte 19) m21 ;;
  x23 <- payload fmt8 m22 ;;
  l24 <- it_collect 200 fmt8 x23 ;;
  Val (
    l24 = [0; 1; 2; 3; 4; 5; 6; 7; 8; 9; 10; 11; 12; 13; 14; 15; 16; 17; 18; 19; 0; 1; 2; 3; 4; 5; 6; 7; 8; 9; 10; 11; 12; 13; 14; 15; 16; 17; 18; 19]%N)).
Proof. run_test. Qed.

(* sysex8.rs 1944 *)
Example t_sysex8_append_payload : passes (
  m1 <- sx_new fmt8 ;;
  m2 <- apply_edit EightBit (SetPayload (listed (ints 0 20))) m1 ;;
  m3 <- apply_edit EightBit (AppendPayload (listed (ints 0 20))) m2 ;;
  x4 <- payload fmt8 m3 ;;
  l5 <- it_collect 200 fmt8 x4 ;;
  Val (
    l5 = [0; 1; 2; 3; 4; 5; 6; 7; 8; 9; 10; 11; 12; 13; 14; 15; 16; 17; 18; 19; 0; 1; 2; 3; 4; 5; 6; 7; 8; 9; 10; 11; 12; 13; 14; 15; 16; 17; 18; 19]%N)).
Proof. run_test. Qed.

(* sysex8.rs 1958 *)
Example t_sysex8_try_append_payload : passes (
  m1 <- unwrapped (sx_try_new fmt8 16) ;;
  x2 <- try_edit EightBit (SetPayload (listed (ints 0 20))) m1 ;;
  _ <- check (snd x2) ;;
  x3 <- try_edit EightBit (AppendPayload (listed (ints 0 20))) (fst x2) ;;
  _ <- check (snd x3) ;;
  x4 <- payload fmt8 (fst x3) ;;
  l5 <- it_collect 200 fmt8 x4 ;;
  Val (
    l5 = [0; 1; 2; 3; 4; 5; 6; 7; 8; 9; 10; 11; 12; 13; 14; 15; 16; 17; 18; 19; 0; 1; 2; 3; 4; 5; 6; 7; 8; 9; 10; 11; 12; 13; 14; 15; 16; 17; 18; 19]%N)).
Proof. run_test. Qed.

(* sysex8.rs 1972 *)
Example t_sysex8_try_append_payload_fail : passes (
  m1 <- unwrapped (sx_try_new fmt8 15) ;;
  x2 <- try_edit EightBit (SetPayload (listed (ints 0 20))) m1 ;;
  _ <- check (snd x2) ;;
  x3 <- try_edit EightBit (AppendPayload (listed (ints 0 20))) (fst x2) ;;
  Val (
    (snd x3) = false)).
Proof. run_test. Qed.

(* sysex8.rs 1982 *)
Example t_sysex8_fill_and_empty_payload_then_payload_size_should_be_zero : passes (
  m1 <- unwrapped (sx_try_new fmt8 16) ;;
  x2 <- try_edit EightBit (SetPayload (listed (ints 0 40))) m1 ;;
  _ <- check (snd x2) ;;
  x3 <- try_edit EightBit (SetPayload (listed [])) (fst x2) ;;
  _ <- check (snd x3) ;;
  x4 <- payload_size fmt8 (fst x3) ;;
  Val (
    x4 = 0)).
Proof. run_test. Qed.

(* sysex8.rs 1990 *)
Example t_sysex8_splice_payload_inserted_data_exceeds_replaced : passes (
  m1 <- sx_new fmt8 ;;
  m2 <- apply_edit EightBit (SetPayload (listed (ints 0 20))) m1 ;;
  m3 <- apply_edit EightBit (SplicePayload (listed (repeat 6%N 10)) (Included 5) (Excluded 10)) m2 ;;
  x4 <- payload fmt8 m3 ;;
  l5 <- it_collect 200 fmt8 x4 ;;
  Val (
    l5 = [0; 1; 2; 3; 4; 6; 6; 6; 6; 6; 6; 6; 6; 6; 6; 10; 11; 12; 13; 14; 15; 16; 17; 18; 19]%N)).
Proof. run_test. Qed.

(* sysex8.rs 2004 *)
Example t_sysex8_splice_payload_inserted_data_less_than_replaced : passes (
  m1 <- sx_new fmt8 ;;
  m2 <- apply_edit EightBit (SetPayload (listed (ints 0 20))) m1 ;;
  m3 <- apply_edit EightBit (SplicePayload (listed (repeat 6%N 3)) (Included 5) (Excluded 10)) m2 ;;
  x4 <- payload fmt8 m3 ;;
  l5 <- it_collect 200 fmt8 x4 ;;
  Val (
    l5 = [0; 1; 2; 3; 4; 6; 6; 6; 10; 11; 12; 13; 14; 15; 16; 17; 18; 19]%N)).
Proof. run_test. Qed.

(* sysex8.rs 2015 *)
Example t_sysex8_splice_payload_inserted_data_equal_in_length_to_replaced : passes (
  m1 <- sx_new fmt8 ;;
  m2 <- apply_edit EightBit (SetPayload (listed (ints 0 20))) m1 ;;
  m3 <- apply_edit EightBit (SplicePayload (listed (repeat 6%N 5)) (Included 5) (Excluded 10)) m2 ;;
  x4 <- payload fmt8 m3 ;;
  l5 <- it_collect 200 fmt8 x4 ;;
  Val (
    l5 = [0; 1; 2; 3; 4; 6; 6; 6; 6; 6; 10; 11; 12; 13; 14; 15; 16; 17; 18; 19]%N)).
Proof. run_test. Qed.

(* sysex8.rs 2026 *)
Example t_sysex8_splice_rubbish_payload : passes (
  m1 <- sx_new fmt8 ;;
  m2 <- apply_edit EightBit (SetPayload (listed (ints 0 20))) m1 ;;
  m3 <- apply_edit EightBit (SplicePayload rubbish (Included 5) (Excluded 10)) m2 ;;
  x4 <- payload fmt8 m3 ;;
  l5 <- it_collect 200 fmt8 x4 ;;
  Val (
    l5 = [0; 1; 2; 3; 4; 0; 1; 2; 3; 4; 5; 6; 7; 8; 9; 10; 11; 12; 13; 14; 15; 16; 17; 18; 19; 20; 21; 22; 23; 24; 25; 26; 27; 28; 29; 30; 31; 32; 33; 34; 35; 36; 37; 38; 39; 40; 41; 42; 43; 44; 45; 46; 47; 48; 49; 10; 11; 12; 13; 14; 15; 16; 17; 18; 19]%N)).
Proof. run_test. Qed.

(* sysex8.rs 2042 *)
Example t_sysex8_splice_rubbish_payload_at_the_end : passes (
  m1 <- sx_new fmt8 ;;
  m2 <- apply_edit EightBit (SetPayload (listed (ints 0 20))) m1 ;;
  m3 <- apply_edit EightBit (SplicePayload rubbish (Included 15) (Excluded 20)) m2 ;;
  x4 <- payload fmt8 m3 ;;
  l5 <- it_collect 200 fmt8 x4 ;;
  Val (
    l5 = [0; 1; 2; 3; 4; 5; 6; 7; 8; 9; 10; 11; 12; 13; 14; 0; 1; 2; 3; 4; 5; 6; 7; 8; 9; 10; 11; 12; 13; 14; 15; 16; 17; 18; 19; 20; 21; 22; 23; 24; 25; 26; 27; 28; 29; 30; 31; 32; 33; 34; 35; 36; 37; 38; 39; 40; 41; 42; 43; 44; 45; 46; 47; 48; 49]%N)).
Proof. run_test. Qed.

(* sysex8.rs 2058 *)
Example t_sysex8_splice_rubbish_payload_at_the_start : passes (
  m1 <- sx_new fmt8 ;;
  m2 <- apply_edit EightBit (SetPayload (listed (ints 0 20))) m1 ;;
  m3 <- apply_edit EightBit (SplicePayload rubbish (Included 0) (Excluded 5)) m2 ;;
  x4 <- payload fmt8 m3 ;;
  l5 <- it_collect 200 fmt8 x4 ;;
  Val (
    l5 = [0; 1; 2; 3; 4; 5; 6; 7; 8; 9; 10; 11; 12; 13; 14; 15; 16; 17; 18; 19; 20; 21; 22; 23; 24; 25; 26; 27; 28; 29; 30; 31; 32; 33; 34; 35; 36; 37; 38; 39; 40; 41; 42; 43; 44; 45; 46; 47; 48; 49; 5; 6; 7; 8; 9; 10; 11; 12; 13; 14; 15; 16; 17; 18; 19]%N)).
Proof. run_test. Qed.

(** *** midi2/src/sysex8/packet.rs *)

(* sysex8/packet.rs 180 *)
Example t_sysex8_packet_construction : passes (
  r1 <- kind_try_from PSysex8 [0x50010000; 0; 0; 0]%N ;;
  Val (
    (is_okay r1) = true)).
Proof. run_test. Qed.

(* sysex8/packet.rs 187 *)
Example t_sysex8_packet_construction_long_slice : passes (
  r1 <- kind_try_from PSysex8 [0x50010000; 0; 0; 0; 0]%N ;;
  Val (
    (is_okay r1) = true)).
Proof. run_test. Qed.

(* sysex8/packet.rs 195 *)
Example t_sysex8_packet_construction_short_slice : passes (
  r1 <- kind_try_from PSysex8 [0x50010000; 0; 0]%N ;;
  Val (
    r1 = (Err "Slice is too short"))).
Proof. run_test. Qed.

(* sysex8/packet.rs 205 *)
Example t_sysex8_packet_construction_incorrect_ump_type : passes (
  r1 <- kind_try_from PSysex8 [0x10000; 0; 0; 0]%N ;;
  Val (
    r1 = (Err "Incorrect UMP message type"))).
Proof. run_test. Qed.

(* sysex8/packet.rs 215 *)
Example t_sysex8_packet_complete : passes (
  r1 <- kind_try_from PSysex8 [0x50010000; 0; 0; 0]%N ;;
  x2 <- unwrapped (Val r1) ;;
  x3 <- status8 x2 ;;
  Val (
    x3 = (Status Complete))).
Proof. run_test. Qed.

(* sysex8/packet.rs 225 *)
Example t_sysex8_packet_start : passes (
  r1 <- kind_try_from PSysex8 [0x50110000; 0; 0; 0]%N ;;
  x2 <- unwrapped (Val r1) ;;
  x3 <- status8 x2 ;;
  Val (
    x3 = (Status Start))).
Proof. run_test. Qed.

(* sysex8/packet.rs 235 *)
Example t_sysex8_packet_cont : passes (
  r1 <- kind_try_from PSysex8 [0x50210000; 0; 0; 0]%N ;;
  x2 <- unwrapped (Val r1) ;;
  x3 <- status8 x2 ;;
  Val (
    x3 = (Status Continue))).
Proof. run_test. Qed.

(* sysex8/packet.rs 245 *)
Example t_sysex8_packet_end : passes (
  r1 <- kind_try_from PSysex8 [0x50320001; 0; 0; 0]%N ;;
  x2 <- unwrapped (Val r1) ;;
  x3 <- status8 x2 ;;
  Val (
    x3 = (Status End))).
Proof. run_test. Qed.

(* sysex8/packet.rs 255 *)
Example t_sysex8_packet_unexpected_end_valid_data : passes (
  r1 <- kind_try_from PSysex8 [0x50310000; 0; 0; 0]%N ;;
  x2 <- unwrapped (Val r1) ;;
  x3 <- status8 x2 ;;
  Val (
    x3 = (UnexpectedEnd true))).
Proof. run_test. Qed.

(* sysex8/packet.rs 265 *)
Example t_sysex8_packet_unexpected_end_invalid_data : passes (
  r1 <- kind_try_from PSysex8 [0x503f0000; 0; 0; 0]%N ;;
  x2 <- unwrapped (Val r1) ;;
  x3 <- status8 x2 ;;
  Val (
    x3 = (UnexpectedEnd false))).
Proof. run_test. Qed.

(* sysex8/packet.rs 275 *)
Example t_sysex8_packet_stream_id : passes (
  r1 <- kind_try_from PSysex8 [0x50010100; 0; 0; 0]%N ;;
  x2 <- unwrapped (Val r1) ;;
  x3 <- packet_stream_id x2 ;;
  Val (
    x3 = 1%N)).
Proof. run_test. Qed.

(* sysex8/packet.rs 285 *)
Example t_sysex8_packet_group : passes (
  r1 <- kind_try_from PSysex8 [0x5a010000; 0; 0; 0]%N ;;
  x2 <- unwrapped (Val r1) ;;
  x3 <- packet_group x2 ;;
  Val (
    x3 = 10%N)).
Proof. run_test. Qed.

(* sysex8/packet.rs 297 *)
Example t_sysex8_packet_payload_empty : passes (
  r1 <- kind_try_from PSysex8 [0x50010000; 0; 0; 0]%N ;;
  x2 <- unwrapped (Val r1) ;;
  l3 <- drain EightBit 14 (packet_payload x2) ;;
  Val (
    l3 = [])).
Proof. run_test. Qed.

(* sysex8/packet.rs 308 *)
Example t_sysex8_packet_payload_one_item : passes (
  r1 <- kind_try_from PSysex8 [0x50020001; 0; 0; 0]%N ;;
  x2 <- unwrapped (Val r1) ;;
  l3 <- drain EightBit 14 (packet_payload x2) ;;
  Val (
    l3 = [1]%N)).
Proof. run_test. Qed.

(* sysex8/packet.rs 319 *)
Example t_sysex8_packet_payload_two_items : passes (
  r1 <- kind_try_from PSysex8 [0x50030001; 0x2000000; 0; 0]%N ;;
  x2 <- unwrapped (Val r1) ;;
  l3 <- drain EightBit 14 (packet_payload x2) ;;
  Val (
    l3 = [1; 2]%N)).
Proof. run_test. Qed.

(* sysex8/packet.rs 330 *)
Example t_sysex8_packet_payload_full : passes (
  r1 <- kind_try_from PSysex8 [0x500e0001; 0x2030405; 0x6070809; 0xa0b0c0d]%N ;;
  x2 <- unwrapped (Val r1) ;;
  l3 <- drain EightBit 14 (packet_payload x2) ;;
  Val (
    l3 = [1; 2; 3; 4; 5; 6; 7; 8; 9; 10; 11; 12; 13]%N)).
Proof. run_test. Qed.

(* sysex8/packet.rs 343 *)
Example t_sysex8_packet_payload_nth_0 : passes (
  r1 <- kind_try_from PSysex8 [0x500e0001; 0x2030405; 0x6070809; 0xa0b0c0d]%N ;;
  x2 <- unwrapped (Val r1) ;;
  x3 <- pi_nth8 (packet_payload x2) 0 ;;
  Val (
    (fst x3) = (Some 1%N))).
Proof. run_test. Qed.

(* sysex8/packet.rs 355 *)
Example t_sysex8_packet_payload_nth_1 : passes (
  r1 <- kind_try_from PSysex8 [0x500e0001; 0x2030405; 0x6070809; 0xa0b0c0d]%N ;;
  x2 <- unwrapped (Val r1) ;;
  x3 <- pi_nth8 (packet_payload x2) 1 ;;
  Val (
    (fst x3) = (Some 2%N))).
Proof. run_test. Qed.

(* sysex8/packet.rs 366 *)
Example t_sysex8_packet_payload_nth_5 : passes (
  r1 <- kind_try_from PSysex8 [0x500e0001; 0x2030405; 0x6070809; 0xa0b0c0d]%N ;;
  x2 <- unwrapped (Val r1) ;;
  x3 <- pi_nth8 (packet_payload x2) 5 ;;
  Val (
    (fst x3) = (Some 6%N))).
Proof. run_test. Qed.

(* sysex8/packet.rs 377 *)
Example t_sysex8_packet_payload_nth_8 : passes (
  r1 <- kind_try_from PSysex8 [0x500e0001; 0x2030405; 0x6070809; 0xa0b0c0d]%N ;;
  x2 <- unwrapped (Val r1) ;;
  x3 <- pi_nth8 (packet_payload x2) 8 ;;
  Val (
    (fst x3) = (Some 9%N))).
Proof. run_test. Qed.

(* sysex8/packet.rs 388 *)
Example t_sysex8_packet_payload_nth_11 : passes (
  r1 <- kind_try_from PSysex8 [0x500e0001; 0x2030405; 0x6070809; 0xa0b0c0d]%N ;;
  x2 <- unwrapped (Val r1) ;;
  x3 <- pi_nth8 (packet_payload x2) 11 ;;
  Val (
    (fst x3) = (Some 12%N))).
Proof. run_test. Qed.

(* sysex8/packet.rs 399 *)
Example t_sysex8_packet_payload_nth_12 : passes (
  r1 <- kind_try_from PSysex8 [0x500e0001; 0x2030405; 0x6070809; 0xa0b0c0d]%N ;;
  x2 <- unwrapped (Val r1) ;;
  x3 <- pi_nth8 (packet_payload x2) 12 ;;
  Val (
    (fst x3) = (Some 13%N))).
Proof. run_test. Qed.

(* sysex8/packet.rs 410 *)
Example t_sysex8_packet_payload_nth_13 : passes (
  r1 <- kind_try_from PSysex8 [0x500e0001; 0x2030405; 0x6070809; 0xa0b0c0d]%N ;;
  x2 <- unwrapped (Val r1) ;;
  x3 <- pi_nth8 (packet_payload x2) 13 ;;
  Val (
    (fst x3) = None)).
Proof. run_test. Qed.

(* sysex8/packet.rs 421 *)
Example t_sysex8_packet_payload_nth_13_followed_by_next_should_return_none : passes (
  r1 <- kind_try_from PSysex8 [0x500e0001; 0x2030405; 0x6070809; 0xa0b0c0d]%N ;;
  x2 <- unwrapped (Val r1) ;;
  x3 <- pi_nth8 (packet_payload x2) 13 ;;
  x4 <- pi_next8 (snd x3) ;;
  Val (
    (fst x3) = None /\
    (fst x4) = None)).
Proof. run_test. Qed.

(* sysex8/packet.rs 430 *)
Example t_sysex8_packet_payload_call_next_and_the_iterator_length_should_be_one_fewer : passes (
  r1 <- kind_try_from PSysex8 [0x500e0001; 0x2030405; 0x6070809; 0xa0b0c0d]%N ;;
  x2 <- unwrapped (Val r1) ;;
  x3 <- pi_len8 (packet_payload x2) ;;
  x4 <- pi_next8 (packet_payload x2) ;;
  x5 <- pi_len8 (snd x4) ;;
  Val (
    x3 = 13 /\
    x5 = 12)).
Proof. run_test. Qed.
