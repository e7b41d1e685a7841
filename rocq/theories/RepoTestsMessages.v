(** Generated: the unit tests of /repo, detail, message.rs, packet.rs, read as statements about the
    model.  They check that the model computes what the project's own tests
    expect of the code; they are tests, not proofs of a property. *)
From Coq Require Import NArith List String Bool.
From Verif Require Import Base BitOps Values Props Message MessageTable Text Sysex Splice SpecSysex SpecEdits SpecPacket SysexClient Aggregate Packet Receiver Ci RepoTests.
Import ListNotations.
Local Open Scope string_scope.

(** *** midi2/src/detail/bit_ops.rs *)

(* detail/bit_ops.rs 203 *)
Example t_detail_bit_ops_bit : passes (
  Val (
    (bit8 130%N 0) = true /\
    (negb (bit8 130%N 1)) = true /\
    (bit8 130%N 6) = true /\
    (negb (bit8 130%N 7)) = true)).
Proof. run_test. Qed.

(* detail/bit_ops.rs 212 *)
Example t_detail_bit_ops_set_bit : passes (
  Val (
    (set_bit8 128%N 0 false) = 0%N /\
    (set_bit8 0%N 0 true) = 128%N /\
    (set_bit8 0%N 4 true) = 8%N)).
Proof. run_test. Qed.

(* detail/bit_ops.rs 219 *)
Example t_detail_bit_ops_bit_u7 : passes (
  Val (
    (bit7 66%N 0) = true /\
    (negb (bit7 66%N 1)) = true /\
    (negb (bit7 66%N 2)) = true /\
    (negb (bit7 66%N 3)) = true /\
    (negb (bit7 66%N 4)) = true /\
    (bit7 66%N 5) = true /\
    (negb (bit7 66%N 6)) = true)).
Proof. run_test. Qed.

(* detail/bit_ops.rs 231 *)
Example t_detail_bit_ops_set_bit_u7 : passes (
  Val (
    (set_bit7 64%N 0 false) = 0%N /\
    (set_bit7 0%N 0 true) = 64%N /\
    (set_bit7 0%N 4 true) = 4%N)).
Proof. run_test. Qed.

(* detail/bit_ops.rs 238 *)
Example t_detail_bit_ops_nibble : passes (
  Val (
    (nibble8 171%N 0) = 10%N /\
    (nibble8 171%N 1) = 11%N)).
Proof. run_test. Qed.

(* detail/bit_ops.rs 245 *)
Example t_detail_bit_ops_set_nibble : passes (
  Val (
    (set_nibble8 1%N 1 6) = 6%N /\
    (set_nibble8 0%N 0 11) = 176%N /\
    (set_nibble8 0%N 1 11) = 11%N)).
Proof. run_test. Qed.

(* detail/bit_ops.rs 252 *)
Example t_detail_bit_ops_octet : passes (
  Val (
    252%N = 252%N)).
Proof. run_test. Qed.

(* detail/bit_ops.rs 258 *)
Example t_detail_bit_ops_set_octet : passes (
  Val (
    6%N = 6%N /\
    190%N = 190%N)).
Proof. run_test. Qed.

(* detail/bit_ops.rs 264 *)
Example t_detail_bit_ops_septet : passes (
  Val (
    (septet8 127%N) = 127%N /\
    (septet8 255%N) = 127%N)).
Proof. run_test. Qed.

(* detail/bit_ops.rs 275 *)
Example t_detail_bit_ops_bit_ : passes (
  Val (
    (bit32 0x80000002%N 0) = true /\
    (negb (bit32 0x80000002%N 1)) = true /\
    (bit32 0x80000002%N 30) = true /\
    (negb (bit32 0x80000002%N 31)) = true)).
Proof. run_test. Qed.

(* detail/bit_ops.rs 284 *)
Example t_detail_bit_ops_set_bit_ : passes (
  Val (
    (set_bit32 0%N 0 true) = 0x80000000%N /\
    (set_bit32 0%N 10 true) = 0x200000%N)).
Proof. run_test. Qed.

(* detail/bit_ops.rs 296 *)
Example t_detail_bit_ops_crumb : passes (
  Val (
    ((crumb32 0xd9000039%N 0) =? 3%N)%N = true /\
    ((crumb32 0xd9000039%N 1) =? 1%N)%N = true /\
    ((crumb32 0xd9000039%N 2) =? 2%N)%N = true /\
    ((crumb32 0xd9000039%N 3) =? 1%N)%N = true /\
    ((crumb32 0xd9000039%N 13) =? 3%N)%N = true /\
    ((crumb32 0xd9000039%N 14) =? 2%N)%N = true /\
    ((crumb32 0xd9000039%N 15) =? 1%N)%N = true)).
Proof. run_test. Qed.

(* detail/bit_ops.rs 308 *)
Example t_detail_bit_ops_set_crumb : passes (
  Val (
    (set_crumb32 0%N 0 3) = 0xc0000000%N /\
    (set_crumb32 0%N 4 2) = 0x800000%N /\
    (set_crumb32 0%N 15 1) = 1%N)).
Proof. run_test. Qed.

(* detail/bit_ops.rs 324 *)
Example t_detail_bit_ops_nibble_ : passes (
  Val (
    (nibble32 0x2468ace0%N 0) = 2%N /\
    (nibble32 0x2468ace0%N 3) = 8%N /\
    (nibble32 0x2468ace0%N 5) = 12%N /\
    (nibble32 0x2468ace0%N 7) = 0%N)).
Proof. run_test. Qed.

(* detail/bit_ops.rs 333 *)
Example t_detail_bit_ops_set_nibble_ : passes (
  Val (
    (set_nibble32 0x5a21c612%N 3 6) = 0x5a26c612%N /\
    (set_nibble32 0%N 0 11) = 0xb0000000%N /\
    (set_nibble32 0%N 5 11) = 0xb00%N /\
    (set_nibble32 0%N 7 4) = 4%N)).
Proof. run_test. Qed.

(* detail/bit_ops.rs 341 *)
Example t_detail_bit_ops_octet_ : passes (
  Val (
    (octet32 0x1234567%N 0) = 1%N /\
    (octet32 0x1234567%N 1) = 35%N /\
    (octet32 0x1234567%N 2) = 69%N /\
    (octet32 0x1234567%N 3) = 103%N)).
Proof. run_test. Qed.

(* detail/bit_ops.rs 350 *)
Example t_detail_bit_ops_set_octet_ : passes (
  Val (
    (set_octet32 0%N 0 190) = 0xbe000000%N /\
    (set_octet32 0%N 2 190) = 0xbe00%N /\
    (set_octet32 0%N 3 190) = 190%N)).
Proof. run_test. Qed.

(* detail/bit_ops.rs 357 *)
Example t_detail_bit_ops_word : passes (
  Val (
    (word32 0x1234567%N 0) = 0x123%N /\
    (word32 0x1234567%N 1) = 0x4567%N)).
Proof. run_test. Qed.

(* detail/bit_ops.rs 364 *)
Example t_detail_bit_ops_set_word : passes (
  Val (
    (set_word32 0%N 0 0xabe) = 0xabe0000%N /\
    (set_word32 0%N 1 0xabe) = 0xabe%N)).
Proof. run_test. Qed.

(** *** midi2/src/message.rs *)

(* message.rs 154 *)
Example t_message_from_byte_data : passes (
  r1 <- bytes_try_from [171; 96; 51]%N ;;
  x2 <- unwrapped (Val r1) ;;
  Val (
    (fst x2) = (CFixed cv1_key_pressure))).
Proof. run_test. Qed.

(* message.rs 167 *)
Example t_message_rebuffer_slice_from_mut_slice_impl : passes (
  r1 <- try_new_with_buffer U32 cv1_channel_pressure [0; 0]%N ;;
  x2 <- unwrapped (Val r1) ;;
  d3 <- agg_data U32 ((CFixed cv1_channel_pressure), x2) ;;
  Val (
    d3 = [0x20d00000]%N)).
Proof. run_test. Qed.

(* message.rs 184 *)
Example t_message_ump_stream : passes (
  r1 <- ump_try_from [0xf4120556; 0x69627261; 0x746f5661; 0x6e677561; 0xf8120572; 0x643a204c; 0x65616469; 0x6e672057; 0xf8120561; 0x76657320; 0x6f662045; 0x7570686f; 0xf812056e; 0x79f09f9a; 0x80f09f8e; 0xb6f09f8c; 0xfc12058a; 0; 0; 0]%N ;;
  x2 <- unwrapped (Val r1) ;;
  Val (
    (fst x2) = (CStreamText k_FunctionBlockName))).
Proof. run_test. Qed.

(* message.rs 217 *)
Example t_message_sysex8 : passes (
  r1 <- ump_try_from [0x5e1ebe00; 0x1020304; 0x5060708; 0x90a0b0c; 0x5e2ebe0d; 0xe0f1011; 0x12131415; 0x16171819; 0x5e2ebe1a; 0x1b1c1d1e; 0x1f202122; 0x23242526; 0x5e3cbe27; 0x28292a2b; 0x2c2d2e2f; 0x30310000]%N ;;
  x2 <- unwrapped (Val r1) ;;
  Val (
    (fst x2) = CSysex8)).
Proof. run_test. Qed.

(* message.rs 244 *)
Example t_message_sysex7 : passes (
  r1 <- ump_try_from [0x3e160001; 0x2030405; 0x3e260607; 0x8090a0b; 0x3e260c0d; 0xe0f1011; 0x3e261213; 0x14151617; 0x3e261819; 0x1a1b1c1d; 0x3e261e1f; 0x20212223; 0x3e262425; 0x26272829; 0x3e262a2b; 0x2c2d2e2f; 0x3e323031; 0]%N ;;
  x2 <- unwrapped (Val r1) ;;
  Val (
    (fst x2) = CSysex7)).
Proof. run_test. Qed.

(* message.rs 273 *)
Example t_message_packets : passes (
  r1 <- ump_try_from [0x3e160001; 0x2030405; 0x3e260607; 0x8090a0b; 0x3e260c0d; 0xe0f1011; 0x3e261213; 0x14151617; 0x3e261819; 0x1a1b1c1d; 0x3e261e1f; 0x20212223; 0x3e262425; 0x26272829; 0x3e262a2b; 0x2c2d2e2f; 0x3e323031; 0]%N ;;
  x2 <- unwrapped (Val r1) ;;
  x3 <- agg_packets x2 ;;
  x4 <- packets_next x3 ;;
  x5 <- some_of (fst x4) ;;
  x6 <- packets_next (snd x4) ;;
  x7 <- some_of (fst x6) ;;
  x8 <- packets_next (snd x6) ;;
  x9 <- some_of (fst x8) ;;
  x10 <- packets_next (snd x8) ;;
  x11 <- some_of (fst x10) ;;
  x12 <- packets_next (snd x10) ;;
  x13 <- some_of (fst x12) ;;
  x14 <- packets_next (snd x12) ;;
  x15 <- some_of (fst x14) ;;
  x16 <- packets_next (snd x14) ;;
  x17 <- some_of (fst x16) ;;
  x18 <- packets_next (snd x16) ;;
  x19 <- some_of (fst x18) ;;
  x20 <- packets_next (snd x18) ;;
  x21 <- some_of (fst x20) ;;
  x22 <- packets_next (snd x20) ;;
  Val (
    (packet_data x5) = [0x3e160001; 0x2030405]%N /\
    (packet_data x7) = [0x3e260607; 0x8090a0b]%N /\
    (packet_data x9) = [0x3e260c0d; 0xe0f1011]%N /\
    (packet_data x11) = [0x3e261213; 0x14151617]%N /\
    (packet_data x13) = [0x3e261819; 0x1a1b1c1d]%N /\
    (packet_data x15) = [0x3e261e1f; 0x20212223]%N /\
    (packet_data x17) = [0x3e262425; 0x26272829]%N /\
    (packet_data x19) = [0x3e262a2b; 0x2c2d2e2f]%N /\
    (packet_data x21) = [0x3e323031; 0]%N /\
    (fst x22) = None)).
Proof. run_test. Qed.

(* message.rs 313 *)
Example t_message_flex_data : passes (
  r1 <- ump_try_from [0xd4100105; 0x54c3a172; 0; 0]%N ;;
  x2 <- unwrapped (Val r1) ;;
  Val (
    (fst x2) = (CFlexText k_ComposerName))).
Proof. run_test. Qed.

(* message.rs 325 *)
Example t_message_utility : passes (
  r1 <- ump_try_from [0x201234; 0; 0; 0]%N ;;
  x2 <- unwrapped (Val r1) ;;
  Val (
    (fst x2) = (CFixed util_timestamp))).
Proof. run_test. Qed.

(* message.rs 337 *)
Example t_message_from_level2 : passes (
  m1 <- array_new U32 cv1_channel_pressure 4 ;;
  Val (
    True)).
Proof. run_test. Qed.

(* message.rs 346 *)
Example t_message_from_level2_flex_data : passes (
  m1 <- unwrapped (flex_try_new k_Lyrics 4) ;;
  Val (
    True)).
Proof. run_test. Qed.

(* message.rs 355 *)
Example t_message_from_level2_bytes : passes (
  m1 <- array_new U8 cv1_channel_pressure 3 ;;
  Val (
    True)).
Proof. run_test. Qed.

(* message.rs 364 *)
Example t_message_from_level2_channel_voice2 : passes (
  m1 <- array_new U32 cv2_channel_pressure 4 ;;
  Val (
    True)).
Proof. run_test. Qed.

(* message.rs 373 *)
Example t_message_from_level2_ump_stream : passes (
  m1 <- array_new U32 stream_end_of_clip 4 ;;
  Val (
    True)).
Proof. run_test. Qed.

(* message.rs 382 *)
Example t_message_from_level2_utility : passes (
  m1 <- array_new U32 util_delta_clockstamp_tpq 4 ;;
  Val (
    True)).
Proof. run_test. Qed.

(* message.rs 391 *)
Example t_message_from_level2_system_common : passes (
  m1 <- array_new U32 sys_stop 4 ;;
  Val (
    True)).
Proof. run_test. Qed.

(** *** midi2/src/packet.rs *)

(* packet.rs 80 *)
Example t_packet_construction : passes (
  r1 <- packet_try_from [0]%N ;;
  x2 <- unwrapped (Val r1) ;;
  Val (
    (packet_data x2) = [0]%N)).
Proof. run_test. Qed.

(* packet.rs 87 *)
Example t_packet_construction_from_long_slice : passes (
  r1 <- packet_try_from [0x50010000; 0; 0; 0; 0]%N ;;
  x2 <- unwrapped (Val r1) ;;
  Val (
    (packet_data x2) = [0x50010000; 0; 0; 0]%N)).
Proof. run_test. Qed.

(* packet.rs 97 *)
Example t_packet_construction_from_empty_data : passes (
  r1 <- packet_try_from []%N ;;
  Val (
    r1 = (Err "Slice is too short"))).
Proof. run_test. Qed.

(* packet.rs 106 *)
Example t_packet_construction_from_reserved_ump_type_field : passes (
  r1 <- packet_try_from [0xe0000000; 0; 0; 0]%N ;;
  Val (
    r1 = (Err "Incorrect UMP message type"))).
Proof. run_test. Qed.
