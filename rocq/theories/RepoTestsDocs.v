(** Generated: the documentation examples of /repo, README.md, midi2/src/buffer.rs, midi2/src/packets.rs, midi2/src/traits.rs, read as statements about the
    model.  They check that the model computes what the project's own tests
    expect of the code; they are tests, not proofs of a property. *)
From Coq Require Import NArith List String Bool.
From Verif Require Import Base BitOps Values Props Message MessageTable Text Sysex Splice SpecSysex SpecEdits SpecPacket SysexClient Aggregate Packet Receiver Ci RepoTests.
Import ListNotations.
Local Open Scope string_scope.

(** *** midi2/src/traits.rs *)

(* doc midi2/src/traits.rs 7 *)
Example t_doc_midi2_src_traits_line7 : passes (
  m1 <- array_new U32 cv1_note_on 4 ;;
  d2 <- concrete_data U32 (CFixed cv1_note_on) m1 ;;
  Val (
    d2 = [0x20900000]%N)).
Proof. run_test. Qed.

(* doc midi2/src/traits.rs 17 *)
Example t_doc_midi2_src_traits_line17 : passes (
  m1 <- array_new U8 cv1_note_on 3 ;;
  d2 <- concrete_data U8 (CFixed cv1_note_on) m1 ;;
  Val (
    d2 = [144; 0; 0]%N)).
Proof. run_test. Qed.

(* doc midi2/src/traits.rs 30 *)
Example t_doc_midi2_src_traits_line30 : passes (
  m1 <- array_new U32 cv2_note_on 4 ;;
  m2 <- set U32 cv2_note_on m1 "group" (VNum 10) ;;
  x3 <- get U32 cv2_note_on m2 "group" ;;
  d4 <- concrete_data U32 (CFixed cv2_note_on) m2 ;;
  Val (
    x3 = VNum 10 /\
    d4 = [0x4a900000; 0]%N)).
Proof. run_test. Qed.

(* doc midi2/src/traits.rs 49 *)
Example t_doc_midi2_src_traits_line49 : passes (
  m1 <- array_new U32 cv2_note_on 4 ;;
  m2 <- set U32 cv2_note_on m1 "channel" (VNum 5) ;;
  x3 <- get U32 cv2_note_on m2 "channel" ;;
  d4 <- concrete_data U32 (CFixed cv2_note_on) m2 ;;
  Val (
    x3 = VNum 5 /\
    d4 = [0x40950000; 0]%N)).
Proof. run_test. Qed.

(* doc midi2/src/traits.rs 68 *)
Example t_doc_midi2_src_traits_line68 : passes (
  r1 <- concrete_try_from U32 (CFixed cv1_note_on) [0x2d9e753d]%N ;;
  x2 <- unwrapped (Val r1) ;;
  d3 <- concrete_data U32 (CFixed cv1_note_on) (rebuffer_vec x2) ;;
  Val (
    d3 = [0x2d9e753d]%N)).
Proof. run_test. Qed.

(* doc midi2/src/traits.rs 82 *)
Example t_doc_midi2_src_traits_line82 : passes (
  r1 <- concrete_try_from U32 (CFixed cv1_note_on) [0x2d9e753d]%N ;;
  x2 <- unwrapped (Val r1) ;;
  d3 <- concrete_data U32 (CFixed cv1_note_on) (rebuffer_vec x2) ;;
  Val (
    d3 = [0x2d9e753d]%N)).
Proof. run_test. Qed.

(* doc midi2/src/traits.rs 112 *)
Example t_doc_midi2_src_traits_line112 : passes (
  r1 <- concrete_try_from U32 (CFixed cv1_note_on) [0x2d9e753d]%N ;;
  x2 <- unwrapped (Val r1) ;;
  x3 <- array_rebuffer U32 cv1_note_on x2 4 ;;
  d4 <- concrete_data U32 (CFixed cv1_note_on) x3 ;;
  Val (
    d4 = [0x2d9e753d]%N)).
Proof. run_test. Qed.

(* doc midi2/src/traits.rs 130 *)
Example t_doc_midi2_src_traits_line130 : passes (
  r1 <- concrete_try_from U32 (CFixed cv1_note_on) [0x2d9e753d]%N ;;
  x2 <- unwrapped (Val r1) ;;
  x3 <- array_rebuffer U32 cv1_note_on x2 4 ;;
  d4 <- concrete_data U32 (CFixed cv1_note_on) x3 ;;
  Val (
    d4 = [0x2d9e753d]%N)).
Proof. run_test. Qed.

(* doc midi2/src/traits.rs 158 *)
Example t_doc_midi2_src_traits_line158 : passes (
  r1 <- concrete_try_from U32 CSysex7 [0x30160001; 0x2030405; 0x30350607; 0x8090a00]%N ;;
  x2 <- unwrapped (Val r1) ;;
  Val (
    (is_okay (try_rebuffer_array x2 4)) = true /\
    (negb (is_okay (try_rebuffer_array x2 2))) = true)).
Proof. run_test. Qed.

(* doc midi2/src/traits.rs 180 *)
Example t_doc_midi2_src_traits_line180 : passes (
  r1 <- concrete_try_from U32 CSysex7 [0x30160001; 0x2030405; 0x30350607; 0x8090a00]%N ;;
  x2 <- unwrapped (Val r1) ;;
  x3 <- unwrapped (Val (try_rebuffer_array x2 4)) ;;
  Val (
    (is_okay (try_rebuffer_array x2 2)) = false)).
Proof. run_test. Qed.

(* doc midi2/src/traits.rs 218 *)
Example t_doc_midi2_src_traits_line218 : passes (
  r1 <- concrete_try_from U8 (CFixed cv1_note_on) [158; 117; 61]%N ;;
  x2 <- unwrapped (Val r1) ;;
  x3 <- from_bytes_array cv1_note_on x2 4 ;;
  d4 <- concrete_data U32 (CFixed cv1_note_on) x3 ;;
  Val (
    d4 = [0x209e753d]%N)).
Proof. run_test. Qed.

(* doc midi2/src/traits.rs 232 *)
Example t_doc_midi2_src_traits_line232 : passes (
  r1 <- concrete_try_from U8 (CFixed cv1_note_on) [158; 117; 61]%N ;;
  x2 <- unwrapped (Val r1) ;;
  x3 <- from_bytes_array cv1_note_on x2 4 ;;
  d4 <- concrete_data U32 (CFixed cv1_note_on) x3 ;;
  Val (
    d4 = [0x209e753d]%N)).
Proof. run_test. Qed.

(* doc midi2/src/traits.rs 264 *)
Example t_doc_midi2_src_traits_line264 : passes (
  r1 <- concrete_try_from U32 (CFixed cv1_note_on) [0x279e753d]%N ;;
  x2 <- unwrapped (Val r1) ;;
  x3 <- from_ump_array cv1_note_on x2 3 ;;
  d4 <- concrete_data U8 (CFixed cv1_note_on) x3 ;;
  Val (
    d4 = [158; 117; 61]%N)).
Proof. run_test. Qed.

(* doc midi2/src/traits.rs 282 *)
Example t_doc_midi2_src_traits_line282 : passes (
  r1 <- concrete_try_from U32 (CFixed cv1_note_on) [0x279e753d]%N ;;
  x2 <- unwrapped (Val r1) ;;
  x3 <- from_ump_array cv1_note_on x2 3 ;;
  d4 <- concrete_data U8 (CFixed cv1_note_on) x3 ;;
  Val (
    d4 = [158; 117; 61]%N)).
Proof. run_test. Qed.

(* doc midi2/src/traits.rs 312 *)
Example t_doc_midi2_src_traits_line312 : passes (
  r1 <- concrete_try_from U8 CSysex7 [240; 0; 1; 2; 3; 4; 5; 6; 7; 8; 9; 247]%N ;;
  x2 <- unwrapped (Val r1) ;;
  r3 <- sysex7_try_from_bytes x2 4 ;;
  x4 <- unwrapped (Val r3) ;;
  d5 <- concrete_data U32 CSysex7 x4 ;;
  r6 <- sysex7_try_from_bytes x2 2 ;;
  Val (
    d5 = [0x30160001; 0x2030405; 0x30340607; 0x8090000]%N /\
    (is_okay r6) = false)).
Proof. run_test. Qed.

(* doc midi2/src/traits.rs 340 *)
Example t_doc_midi2_src_traits_line340 : passes (
  r1 <- concrete_try_from U8 CSysex7 [240; 0; 1; 2; 3; 4; 5; 6; 7; 8; 9; 247]%N ;;
  x2 <- unwrapped (Val r1) ;;
  r3 <- sysex7_try_from_bytes x2 4 ;;
  x4 <- unwrapped (Val r3) ;;
  d5 <- concrete_data U32 CSysex7 x4 ;;
  r6 <- sysex7_try_from_bytes x2 2 ;;
  Val (
    d5 = [0x30160001; 0x2030405; 0x30340607; 0x8090000]%N /\
    (is_okay r6) = false)).
Proof. run_test. Qed.

(* doc midi2/src/traits.rs 390 *)
Example t_doc_midi2_src_traits_line390 : passes (
  r1 <- concrete_try_from U32 CSysex7 [0x30160001; 0x2030405; 0x30340607; 0x8090000]%N ;;
  x2 <- unwrapped (Val r1) ;;
  r3 <- sysex7_try_from_ump x2 12 ;;
  x4 <- unwrapped (Val r3) ;;
  d5 <- concrete_data U8 CSysex7 x4 ;;
  r6 <- sysex7_try_from_ump x2 10 ;;
  Val (
    d5 = [240; 0; 1; 2; 3; 4; 5; 6; 7; 8; 9; 247]%N /\
    (is_okay r6) = false)).
Proof. run_test. Qed.

(* doc midi2/src/traits.rs 422 *)
Example t_doc_midi2_src_traits_line422 : passes (
  r1 <- concrete_try_from U32 CSysex7 [0x30160001; 0x2030405; 0x30340607; 0x8090000]%N ;;
  x2 <- unwrapped (Val r1) ;;
  r3 <- sysex7_try_from_ump x2 12 ;;
  x4 <- unwrapped (Val r3) ;;
  d5 <- concrete_data U8 CSysex7 x4 ;;
  r6 <- sysex7_try_from_ump x2 10 ;;
  Val (
    d5 = [240; 0; 1; 2; 3; 4; 5; 6; 7; 8; 9; 247]%N /\
    (is_okay r6) = false)).
Proof. run_test. Qed.

(* doc midi2/src/traits.rs 466 *)
Example t_doc_midi2_src_traits_line466 : passes (
  r1 <- concrete_try_from U32 CSysex8 [0x501e0000; 0x1020304; 0x5060708; 0x90a0b0c; 0x5038000d; 0xe0f1011; 0x12130000; 0]%N ;;
  x2 <- unwrapped (Val r1) ;;
  x3 <- payload fmt8 x2 ;;
  l4 <- it_collect 200 fmt8 x3 ;;
  Val (
    l4 = (s_items (listed (ints 0 20))))).
Proof. run_test. Qed.

(* doc midi2/src/traits.rs 486 *)
Example t_doc_midi2_src_traits_line486 : passes (
  m1 <- sx_new fmt8 ;;
  m2 <- apply_edit EightBit (SetPayload (listed (ints 0 20))) m1 ;;
  d3 <- concrete_data U32 CSysex8 m2 ;;
  Val (
    d3 = [0x501e0000; 0x1020304; 0x5060708; 0x90a0b0c; 0x5038000d; 0xe0f1011; 0x12130000; 0]%N)).
Proof. run_test. Qed.

(* doc midi2/src/traits.rs 507 *)
Example t_doc_midi2_src_traits_line507 : passes (
  m1 <- unwrapped (sx_try_new fmt8 8) ;;
  x2 <- try_edit EightBit (SetPayload (listed (ints 0 20))) m1 ;;
  d3 <- concrete_data U32 CSysex8 (fst x2) ;;
  x4 <- try_edit EightBit (SetPayload (listed (ints 0 30))) (fst x2) ;;
  Val (
    (snd x2) = true /\
    d3 = [0x501e0000; 0x1020304; 0x5060708; 0x90a0b0c; 0x5038000d; 0xe0f1011; 0x12130000; 0]%N /\
    (negb (snd x4)) = true)).
Proof. run_test. Qed.

(** *** midi2/src/packets.rs *)

(* doc midi2/src/packets.rs 41 *)
Example t_doc_midi2_src_packets_line41 : passes (
  m1 <- flex_new k_ProjectName ;;
  x2 <- flex_set_text m1 [83; 104; 97; 100; 111; 119; 115; 32; 111; 102; 32; 116; 104; 101; 32; 70; 111; 114; 103; 111; 116; 116; 101; 110; 32; 67; 97; 116; 104; 101; 100; 114; 97; 108]%N ;;
  x3 <- agg_packets ((CFlexText k_ProjectName), x2) ;;
  x4 <- packets_next x3 ;;
  x5 <- some_of (fst x4) ;;
  x6 <- packets_next (snd x4) ;;
  x7 <- some_of (fst x6) ;;
  x8 <- packets_next (snd x6) ;;
  x9 <- some_of (fst x8) ;;
  x10 <- packets_next (snd x8) ;;
  Val (
    (packet_data x5) = [0xd0500101; 0x53686164; 0x6f777320; 0x6f662074]%N /\
    (packet_data x7) = [0xd0900101; 0x68652046; 0x6f72676f; 0x7474656e]%N /\
    (packet_data x9) = [0xd0d00101; 0x20436174; 0x68656472; 0x616c0000]%N /\
    (fst x10) = None)).
Proof. run_test. Qed.

(* doc midi2/src/packets.rs 58 *)
Example t_doc_midi2_src_packets_line58 : passes (
  m1 <- sx_new fmt7 ;;
  m2 <- apply_edit SevenBit (SetPayload (listed (ints 0 20))) m1 ;;
  x3 <- agg_packets (CSysex7, m2) ;;
  x4 <- packets_next x3 ;;
  x5 <- some_of (fst x4) ;;
  x6 <- packets_next (snd x4) ;;
  x7 <- some_of (fst x6) ;;
  x8 <- packets_next (snd x6) ;;
  x9 <- some_of (fst x8) ;;
  x10 <- packets_next (snd x8) ;;
  x11 <- some_of (fst x10) ;;
  x12 <- packets_next (snd x10) ;;
  Val (
    (packet_data x5) = [0x30160001; 0x2030405]%N /\
    (packet_data x7) = [0x30260607; 0x8090a0b]%N /\
    (packet_data x9) = [0x30260c0d; 0xe0f1011]%N /\
    (packet_data x11) = [0x30321213; 0]%N /\
    (fst x12) = None)).
Proof. run_test. Qed.

(** *** midi2/src/buffer.rs *)

(* doc midi2/src/buffer.rs 5 *)
Example t_doc_midi2_src_buffer_line5 : passes (
  r1 <- ump_try_from [0x3e160001; 0x2030405; 0x3e260607; 0x8090a0b; 0x3e260c0d; 0xe0f1011; 0x3e261213; 0x14151617; 0x3e261819; 0x1a1b1c1d; 0x3e261e1f; 0x20212223; 0x3e262425; 0x26272829; 0x3e262a2b; 0x2c2d2e2f; 0x3e323031; 0]%N ;;
  x2 <- unwrapped (Val r1) ;;
  x3 <- unwrapped (Val (agg_try_rebuffer_array (agg_rebuffer_vec x2) 18)) ;;
  Val (
    True)).
Proof. run_test. Qed.

(* doc midi2/src/buffer.rs 76 *)
Example t_doc_midi2_src_buffer_line76 : passes (
  m1 <- unwrapped (sx_try_new fmt8 64) ;;
  x2 <- try_edit EightBit (SetPayload (listed (ints 0 20))) m1 ;;
  Val (
    (snd x2) = true)).
Proof. run_test. Qed.

(* doc midi2/src/buffer.rs 85 *)
Example t_doc_midi2_src_buffer_line85 : passes (
  m1 <- sx_new fmt8 ;;
  m2 <- apply_edit EightBit (SetPayload (listed (ints 0 20))) m1 ;;
  Val (
    True)).
Proof. run_test. Qed.

(** *** README.md *)

(* doc README.md 28 *)
Example t_doc_README_line28 : passes (
  m1 <- array_new U32 cv2_note_on 4 ;;
  m2 <- set U32 cv2_note_on m1 "group" (VNum 8) ;;
  m3 <- set U32 cv2_note_on m2 "channel" (VNum 10) ;;
  m4 <- set U32 cv2_note_on m3 "note_number" (VNum 94) ;;
  m5 <- set U32 cv2_note_on m4 "velocity" (VNum 0x6a14) ;;
  x6 <- get U32 cv2_note_on m5 "group" ;;
  x7 <- get U32 cv2_note_on m5 "channel" ;;
  x8 <- get U32 cv2_note_on m5 "note_number" ;;
  x9 <- get U32 cv2_note_on m5 "velocity" ;;
  d10 <- concrete_data U32 (CFixed cv2_note_on) m5 ;;
  m11 <- flex_new k_ComposerName ;;
  x12 <- flex_set_text m11 [80; 105; 110; 99; 104; 32; 98; 50; 98; 32; 80; 101; 118; 101; 114; 101; 108; 105; 115; 116]%N ;;
  d13 <- concrete_data U32 (CFlexText k_ComposerName) x12 ;;
  Val (
    x6 = VNum 8 /\
    x7 = VNum 10 /\
    x8 = VNum 94 /\
    x9 = VNum 0x6a14 /\
    d10 = [0x489a5e00; 0x6a140000]%N /\
    d13 = [0xd0500105; 0x50696e63; 0x68206232; 0x62205065; 0xd0d00105; 0x76657265; 0x6c697374; 0]%N)).
Proof. run_test. Qed.

(* doc README.md 114 *)
Example t_doc_README_line114 : passes (
  m1 <- sx_new fmt7 ;;
  m2 <- apply_edit SevenBit (SetPayload (listed (ints 0 30))) m1 ;;
  m3 <- apply_edit SevenBit (SetGroup 10) m2 ;;
  d4 <- concrete_data U32 CSysex7 m3 ;;
  Val (
    d4 = [0x3a160001; 0x2030405; 0x3a260607; 0x8090a0b; 0x3a260c0d; 0xe0f1011; 0x3a261213; 0x14151617; 0x3a361819; 0x1a1b1c1d]%N)).
Proof. run_test. Qed.

(* doc README.md 140 *)
Example t_doc_README_line140 : passes (
  m1 <- new_b ;;
  m2 <- apply_edit_b (SetPayload (listed (ints 0 30))) m1 ;;
  d3 <- concrete_data U8 CSysex7 m2 ;;
  Val (
    d3 = [240; 0; 1; 2; 3; 4; 5; 6; 7; 8; 9; 10; 11; 12; 13; 14; 15; 16; 17; 18; 19; 20; 21; 22; 23; 24; 25; 26; 27; 28; 29; 247]%N)).
Proof. run_test. Qed.

(* doc README.md 175 *)
Example t_doc_README_line175 : passes (
  m1 <- unwrapped (sx_try_new fmt8 16) ;;
  x2 <- try_edit EightBit (SetPayload (listed (ints 0 50))) m1 ;;
  x3 <- try_edit EightBit (SetPayload (listed (ints 0 60))) (fst x2) ;;
  Val (
    (snd x2) = true /\
    (snd x3) = false)).
Proof. run_test. Qed.

(* doc README.md 199 *)
Example t_doc_README_line199 : passes (
  r1 <- ump_try_from [0xd0500100; 0x44696769; 0x74616c20; 0x41756469; 0xd0900100; 0x6f20576f; 0x726b7374; 0x6174696f; 0xd0d00100; 0x6e202d20; 0x44415733; 0x362d3136]%N ;;
  x2 <- unwrapped (Val r1) ;;
  Val (
    True)).
Proof. run_test. Qed.

(* doc README.md 225 *)
Example t_doc_README_line225 : passes (
  r1 <- concrete_try_from U32 (CFixed cv2_note_on) [0x48985e03; 0x6a14e98a]%N ;;
  x2 <- unwrapped (Val r1) ;;
  x3 <- array_rebuffer U32 cv2_note_on x2 4 ;;
  m4 <- set U32 cv2_note_on x3 "channel" (VNum 9) ;;
  d5 <- concrete_data U32 (CFixed cv2_note_on) m4 ;;
  Val (
    d5 = [0x48995e03; 0x6a14e98a]%N)).
Proof. run_test. Qed.

(* doc README.md 248 *)
Example t_doc_README_line248 : passes (
  m1 <- array_new U8 cv1_channel_pressure 3 ;;
  m2 <- set U8 cv1_channel_pressure m1 "channel" (VNum 6) ;;
  m3 <- set U8 cv1_channel_pressure m2 "pressure" (VNum 9) ;;
  d4 <- concrete_data U8 (CFixed cv1_channel_pressure) m3 ;;
  Val (
    d4 = [214; 9]%N)).
Proof. run_test. Qed.

(* doc README.md 260 *)
Example t_doc_README_line260 : passes (
  m1 <- array_new U8 cv1_channel_pressure 3 ;;
  x2 <- from_bytes_array cv1_channel_pressure m1 4 ;;
  d3 <- concrete_data U32 (CFixed cv1_channel_pressure) x2 ;;
  Val (
    d3 = [0x20d00000]%N)).
Proof. run_test. Qed.
