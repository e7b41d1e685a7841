(** Generated: the unit tests of /repo, ump_stream, ump_stream.rs, read as statements about the
    model.  They check that the model computes what the project's own tests
    expect of the code; they are tests, not proofs of a property. *)
From Coq Require Import NArith List String Bool.
From Verif Require Import Base BitOps Values Props Message MessageTable Text Sysex Splice SpecSysex SpecEdits SpecPacket SysexClient Aggregate Packet Receiver Ci RepoTests.
Import ListNotations.
Local Open Scope string_scope.

(** *** midi2/src/ump_stream.rs *)

(* ump_stream.rs 442 *)
Example t_ump_stream_try_from_data : passes (
  r1 <- umpstream_try_from [0xf4035268; 0x7974686d; 0x52657665; 0x6c617469; 0xf8036f6e; 0x3a204265; 0x61747320; 0x4265796f; 0xf8036e64; 0x20426f75; 0x6e646172; 0x696573f0; 0xfc039f8c; 0x8df09fa5; 0x81f09f9a; 0x80000000]%N ;;
  r2 <- concrete_try_from U32 (CStreamText k_EndpointName) [0xf4035268; 0x7974686d; 0x52657665; 0x6c617469; 0xf8036f6e; 0x3a204265; 0x61747320; 0x4265796f; 0xf8036e64; 0x20426f75; 0x6e646172; 0x696573f0; 0xfc039f8c; 0x8df09fa5; 0x81f09f9a; 0x80000000]%N ;;
  x3 <- unwrapped (Val r2) ;;
  Val (
    r1 = (Ok ((CStreamText k_EndpointName), x3)))).
Proof. run_test. Qed.

(* ump_stream.rs 491 *)
Example t_ump_stream_packets : passes (
  r1 <- umpstream_try_from [0xf4035268; 0x7974686d; 0x52657665; 0x6c617469; 0xf8036f6e; 0x3a204265; 0x61747320; 0x4265796f; 0xf8036e64; 0x20426f75; 0x6e646172; 0x696573f0; 0xfc039f8c; 0x8df09fa5; 0x81f09f9a; 0x80000000]%N ;;
  x2 <- unwrapped (Val r1) ;;
  x3 <- agg_packets x2 ;;
  x4 <- packets_next x3 ;;
  x5 <- some_of (fst x4) ;;
  x6 <- packets_next (snd x4) ;;
  x7 <- some_of (fst x6) ;;
  x8 <- packets_next (snd x6) ;;
  x9 <- some_of (fst x8) ;;
  x10 <- packets_next (snd x8) ;;
  x11 <- some_of (fst x10) ;;
  x12 <- packets_next (snd x10) ;;
  Val (
    (packet_data x5) = [0xf4035268; 0x7974686d; 0x52657665; 0x6c617469]%N /\
    (packet_data x7) = [0xf8036f6e; 0x3a204265; 0x61747320; 0x4265796f]%N /\
    (packet_data x9) = [0xf8036e64; 0x20426f75; 0x6e646172; 0x696573f0]%N /\
    (packet_data x11) = [0xfc039f8c; 0x8df09fa5; 0x81f09f9a; 0x80000000]%N /\
    (fst x12) = None)).
Proof. run_test. Qed.

(** *** midi2/src/ump_stream/device_identity.rs *)

(* ump_stream/device_identity.rs 69 *)
Example t_ump_stream_device_identity_builder : passes (
  m1 <- array_new U32 stream_device_identity 4 ;;
  m2 <- set U32 stream_device_identity m1 "device_manufacturer" (VNums [15; 51; 40]%N) ;;
  m3 <- set U32 stream_device_identity m2 "device_family" (VNum 0xf4a) ;;
  m4 <- set U32 stream_device_identity m3 "device_family_model_number" (VNum 0x3818) ;;
  m5 <- set U32 stream_device_identity m4 "software_version" (VNums [67; 84; 50; 1]%N) ;;
  Val (
    m5 = [0xf0020000; 0xf3328; 0x4a1e1870; 0x43543201]%N)).
Proof. run_test. Qed.

(* ump_stream/device_identity.rs 82 *)
Example t_ump_stream_device_identity_device_manufacturer : passes (
  r1 <- concrete_try_from U32 (CFixed stream_device_identity) [0xf0020000; 0xf3328; 0x4a1e1870; 0x43543201]%N ;;
  x2 <- unwrapped (Val r1) ;;
  x3 <- get U32 stream_device_identity x2 "device_manufacturer" ;;
  Val (
    x3 = VNums [15; 51; 40]%N)).
Proof. run_test. Qed.

(* ump_stream/device_identity.rs 92 *)
Example t_ump_stream_device_identity_device_family : passes (
  r1 <- concrete_try_from U32 (CFixed stream_device_identity) [0xf0020000; 0xf3328; 0x4a1e1870; 0x43543201]%N ;;
  x2 <- unwrapped (Val r1) ;;
  x3 <- get U32 stream_device_identity x2 "device_family" ;;
  Val (
    x3 = VNum 0xf4a)).
Proof. run_test. Qed.

(* ump_stream/device_identity.rs 102 *)
Example t_ump_stream_device_identity_device_family_model_number : passes (
  r1 <- concrete_try_from U32 (CFixed stream_device_identity) [0xf0020000; 0xf3328; 0x4a1e1870; 0x43543201]%N ;;
  x2 <- unwrapped (Val r1) ;;
  x3 <- get U32 stream_device_identity x2 "device_family_model_number" ;;
  Val (
    x3 = VNum 0x3818)).
Proof. run_test. Qed.

(* ump_stream/device_identity.rs 112 *)
Example t_ump_stream_device_identity_software_version : passes (
  r1 <- concrete_try_from U32 (CFixed stream_device_identity) [0xf0020000; 0xf3328; 0x4a1e1870; 0x43543201]%N ;;
  x2 <- unwrapped (Val r1) ;;
  x3 <- get U32 stream_device_identity x2 "software_version" ;;
  Val (
    x3 = VNums [67; 84; 50; 1]%N)).
Proof. run_test. Qed.

(* ump_stream/device_identity.rs 122 *)
Example t_ump_stream_device_identity_packets : passes (
  r1 <- concrete_try_from U32 (CFixed stream_device_identity) [0xf0020000; 0xf3328; 0x4a1e1870; 0x43543201]%N ;;
  x2 <- unwrapped (Val r1) ;;
  x3 <- agg_packets ((CFixed stream_device_identity), x2) ;;
  x4 <- packets_next x3 ;;
  x5 <- some_of (fst x4) ;;
  x6 <- packets_next (snd x4) ;;
  Val (
    (packet_data x5) = [0xf0020000; 0xf3328; 0x4a1e1870; 0x43543201]%N /\
    (fst x6) = None)).
Proof. run_test. Qed.

(** *** midi2/src/ump_stream/end_of_clip.rs *)

(* ump_stream/end_of_clip.rs 20 *)
Example t_ump_stream_end_of_clip_setters : passes (
  m1 <- array_new U32 stream_end_of_clip 4 ;;
  Val (
    m1 = [0xf0210000; 0; 0; 0]%N)).
Proof. run_test. Qed.

(* ump_stream/end_of_clip.rs 28 *)
Example t_ump_stream_end_of_clip_from_data : passes (
  r1 <- concrete_try_from U32 (CFixed stream_end_of_clip) [0xf0210000; 0; 0; 0]%N ;;
  Val (
    r1 = (Ok [0xf0210000; 0; 0; 0]%N))).
Proof. run_test. Qed.

(** *** midi2/src/ump_stream/endpoint_discovery.rs *)

(* ump_stream/endpoint_discovery.rs 38 *)
Example t_ump_stream_endpoint_discovery_builder : passes (
  m1 <- array_new U32 stream_endpoint_discovery 4 ;;
  m2 <- set U32 stream_endpoint_discovery m1 "ump_version_major" (VNum 1) ;;
  m3 <- set U32 stream_endpoint_discovery m2 "ump_version_minor" (VNum 1) ;;
  m4 <- set U32 stream_endpoint_discovery m3 "request_endpoint_info" (VBool true) ;;
  m5 <- set U32 stream_endpoint_discovery m4 "request_device_identity" (VBool true) ;;
  m6 <- set U32 stream_endpoint_discovery m5 "request_endpoint_name" (VBool true) ;;
  m7 <- set U32 stream_endpoint_discovery m6 "request_product_instance_id" (VBool true) ;;
  m8 <- set U32 stream_endpoint_discovery m7 "request_stream_configuration" (VBool true) ;;
  Val (
    m8 = [0xf0000101; 31; 0; 0]%N)).
Proof. run_test. Qed.

(* ump_stream/endpoint_discovery.rs 54 *)
Example t_ump_stream_endpoint_discovery_ump_version_major : passes (
  r1 <- concrete_try_from U32 (CFixed stream_endpoint_discovery) [0xf0000101; 31; 0; 0]%N ;;
  x2 <- unwrapped (Val r1) ;;
  x3 <- get U32 stream_endpoint_discovery x2 "ump_version_major" ;;
  Val (
    x3 = VNum 1)).
Proof. run_test. Qed.

(* ump_stream/endpoint_discovery.rs 64 *)
Example t_ump_stream_endpoint_discovery_ump_version_minor : passes (
  r1 <- concrete_try_from U32 (CFixed stream_endpoint_discovery) [0xf0000101; 31; 0; 0]%N ;;
  x2 <- unwrapped (Val r1) ;;
  x3 <- get U32 stream_endpoint_discovery x2 "ump_version_minor" ;;
  Val (
    x3 = VNum 1)).
Proof. run_test. Qed.

(* ump_stream/endpoint_discovery.rs 74 *)
Example t_ump_stream_endpoint_discovery_request_endpoint_info : passes (
  r1 <- concrete_try_from U32 (CFixed stream_endpoint_discovery) [0xf0000101; 31; 0; 0]%N ;;
  x2 <- unwrapped (Val r1) ;;
  x3 <- get U32 stream_endpoint_discovery x2 "request_endpoint_info" ;;
  Val (
    x3 = VBool true)).
Proof. run_test. Qed.

(* ump_stream/endpoint_discovery.rs 84 *)
Example t_ump_stream_endpoint_discovery_request_device_identity : passes (
  r1 <- concrete_try_from U32 (CFixed stream_endpoint_discovery) [0xf0000101; 31; 0; 0]%N ;;
  x2 <- unwrapped (Val r1) ;;
  x3 <- get U32 stream_endpoint_discovery x2 "request_device_identity" ;;
  Val (
    x3 = VBool true)).
Proof. run_test. Qed.

(* ump_stream/endpoint_discovery.rs 94 *)
Example t_ump_stream_endpoint_discovery_request_endpoint_name : passes (
  r1 <- concrete_try_from U32 (CFixed stream_endpoint_discovery) [0xf0000101; 31; 0; 0]%N ;;
  x2 <- unwrapped (Val r1) ;;
  x3 <- get U32 stream_endpoint_discovery x2 "request_endpoint_name" ;;
  Val (
    x3 = VBool true)).
Proof. run_test. Qed.

(* ump_stream/endpoint_discovery.rs 104 *)
Example t_ump_stream_endpoint_discovery_request_product_instance_id : passes (
  r1 <- concrete_try_from U32 (CFixed stream_endpoint_discovery) [0xf0000101; 31; 0; 0]%N ;;
  x2 <- unwrapped (Val r1) ;;
  x3 <- get U32 stream_endpoint_discovery x2 "request_product_instance_id" ;;
  Val (
    x3 = VBool true)).
Proof. run_test. Qed.

(* ump_stream/endpoint_discovery.rs 114 *)
Example t_ump_stream_endpoint_discovery_request_stream_configuration : passes (
  r1 <- concrete_try_from U32 (CFixed stream_endpoint_discovery) [0xf0000101; 31; 0; 0]%N ;;
  x2 <- unwrapped (Val r1) ;;
  x3 <- get U32 stream_endpoint_discovery x2 "request_stream_configuration" ;;
  Val (
    x3 = VBool true)).
Proof. run_test. Qed.

(** *** midi2/src/ump_stream/endpoint_info.rs *)

(* ump_stream/endpoint_info.rs 41 *)
Example t_ump_stream_endpoint_info_builder : passes (
  m1 <- array_new U32 stream_endpoint_info 4 ;;
  m2 <- set U32 stream_endpoint_info m1 "ump_version_major" (VNum 1) ;;
  m3 <- set U32 stream_endpoint_info m2 "ump_version_minor" (VNum 1) ;;
  m4 <- set U32 stream_endpoint_info m3 "static_function_blocks" (VBool true) ;;
  m5 <- set U32 stream_endpoint_info m4 "number_of_function_blocks" (VNum 32) ;;
  m6 <- set U32 stream_endpoint_info m5 "supports_midi2_protocol" (VBool true) ;;
  m7 <- set U32 stream_endpoint_info m6 "supports_midi1_protocol" (VBool true) ;;
  m8 <- set U32 stream_endpoint_info m7 "supports_sending_jr_timestamps" (VBool true) ;;
  m9 <- set U32 stream_endpoint_info m8 "supports_receiving_jr_timestamps" (VBool true) ;;
  Val (
    m9 = [0xf0010101; 0xa0000303; 0; 0]%N)).
Proof. run_test. Qed.

(* ump_stream/endpoint_info.rs 64 *)
Example t_ump_stream_endpoint_info_ump_version_major : passes (
  r1 <- concrete_try_from U32 (CFixed stream_endpoint_info) [0xf0010101; 0xa0000303; 0; 0]%N ;;
  x2 <- unwrapped (Val r1) ;;
  x3 <- get U32 stream_endpoint_info x2 "ump_version_major" ;;
  Val (
    x3 = VNum 1)).
Proof. run_test. Qed.

(* ump_stream/endpoint_info.rs 81 *)
Example t_ump_stream_endpoint_info_ump_version_minor : passes (
  r1 <- concrete_try_from U32 (CFixed stream_endpoint_info) [0xf0010101; 0xa0000303; 0; 0]%N ;;
  x2 <- unwrapped (Val r1) ;;
  x3 <- get U32 stream_endpoint_info x2 "ump_version_minor" ;;
  Val (
    x3 = VNum 1)).
Proof. run_test. Qed.

(* ump_stream/endpoint_info.rs 98 *)
Example t_ump_stream_endpoint_info_static_function_blocks : passes (
  r1 <- concrete_try_from U32 (CFixed stream_endpoint_info) [0xf0010101; 0xa0000303; 0; 0]%N ;;
  x2 <- unwrapped (Val r1) ;;
  x3 <- get U32 stream_endpoint_info x2 "static_function_blocks" ;;
  Val (
    x3 = VBool true)).
Proof. run_test. Qed.

(* ump_stream/endpoint_info.rs 115 *)
Example t_ump_stream_endpoint_info_number_of_function_blocks : passes (
  r1 <- concrete_try_from U32 (CFixed stream_endpoint_info) [0xf0010101; 0xa0000303; 0; 0]%N ;;
  x2 <- unwrapped (Val r1) ;;
  x3 <- get U32 stream_endpoint_info x2 "number_of_function_blocks" ;;
  Val (
    x3 = VNum 32)).
Proof. run_test. Qed.

(* ump_stream/endpoint_info.rs 132 *)
Example t_ump_stream_endpoint_info_supports_midi2_protocol : passes (
  r1 <- concrete_try_from U32 (CFixed stream_endpoint_info) [0xf0010101; 0xa0000303; 0; 0]%N ;;
  x2 <- unwrapped (Val r1) ;;
  x3 <- get U32 stream_endpoint_info x2 "supports_midi2_protocol" ;;
  Val (
    x3 = VBool true)).
Proof. run_test. Qed.

(* ump_stream/endpoint_info.rs 149 *)
Example t_ump_stream_endpoint_info_supports_midi1_protocol : passes (
  r1 <- concrete_try_from U32 (CFixed stream_endpoint_info) [0xf0010101; 0xa0000303; 0; 0]%N ;;
  x2 <- unwrapped (Val r1) ;;
  x3 <- get U32 stream_endpoint_info x2 "supports_midi1_protocol" ;;
  Val (
    x3 = VBool true)).
Proof. run_test. Qed.

(* ump_stream/endpoint_info.rs 166 *)
Example t_ump_stream_endpoint_info_supports_sending_jr_timestamps : passes (
  r1 <- concrete_try_from U32 (CFixed stream_endpoint_info) [0xf0010101; 0xa0000303; 0; 0]%N ;;
  x2 <- unwrapped (Val r1) ;;
  x3 <- get U32 stream_endpoint_info x2 "supports_sending_jr_timestamps" ;;
  Val (
    x3 = VBool true)).
Proof. run_test. Qed.

(* ump_stream/endpoint_info.rs 183 *)
Example t_ump_stream_endpoint_info_supports_receiving_jr_timestamps : passes (
  r1 <- concrete_try_from U32 (CFixed stream_endpoint_info) [0xf0010101; 0xa0000303; 0; 0]%N ;;
  x2 <- unwrapped (Val r1) ;;
  x3 <- get U32 stream_endpoint_info x2 "supports_receiving_jr_timestamps" ;;
  Val (
    x3 = VBool true)).
Proof. run_test. Qed.

(** *** midi2/src/ump_stream/endpoint_name.rs *)

(* ump_stream/endpoint_name.rs 37 *)
Example t_ump_stream_endpoint_name_data : passes (
  r1 <- concrete_try_from U32 (CStreamText k_EndpointName) [0xf4034769; 0x6d6d6520; 0x736f6d65; 0x20736967; 0xfc036e61; 0x6c20f09f; 0x948a20f0; 0x9f998c00]%N ;;
  x2 <- unwrapped (Val r1) ;;
  d3 <- concrete_data U32 (CStreamText k_EndpointName) x2 ;;
  Val (
    d3 = [0xf4034769; 0x6d6d6520; 0x736f6d65; 0x20736967; 0xfc036e61; 0x6c20f09f; 0x948a20f0; 0x9f998c00]%N)).
Proof. run_test. Qed.

(* ump_stream/endpoint_name.rs 68 *)
Example t_ump_stream_endpoint_name_set_name_and_clear_name : passes (
  m1 <- stream_new k_EndpointName ;;
  x2 <- stream_set_text (sk_off k_EndpointName) m1 [71; 105; 109; 109; 101; 32; 115; 111; 109; 101; 32; 115; 105; 103; 110; 97; 108; 32; 240; 159; 148; 138; 32; 240; 159; 153; 140]%N ;;
  x3 <- stream_set_text (sk_off k_EndpointName) x2 []%N ;;
  Val (
    x3 = [0xf0030000; 0; 0; 0]%N)).
Proof. run_test. Qed.

(* ump_stream/endpoint_name.rs 84 *)
Example t_ump_stream_endpoint_name_get_name : passes (
  r1 <- concrete_try_from U32 (CStreamText k_EndpointName) [0xf4034769; 0x6d6d6520; 0x736f6d65; 0x20736967; 0xfc036e61; 0x6c20f09f; 0x948a20f0; 0x9f998c00]%N ;;
  x2 <- unwrapped (Val r1) ;;
  x3 <- stream_text k_EndpointName x2 ;;
  Val (
    x3 = [71; 105; 109; 109; 101; 32; 115; 111; 109; 101; 32; 115; 105; 103; 110; 97; 108; 32; 240; 159; 148; 138; 32; 240; 159; 153; 140]%N)).
Proof. run_test. Qed.

(* ump_stream/endpoint_name.rs 101 *)
Example t_ump_stream_endpoint_name_read_empty_bytes : passes (
  m1 <- stream_new k_EndpointName ;;
  l2 <- ti_collect (stream_form (sk_off k_EndpointName)) (text_bytes m1) ;;
  Val (
    l2 = [])).
Proof. run_test. Qed.

(* ump_stream/endpoint_name.rs 111 *)
Example t_ump_stream_endpoint_name_packets : passes (
  r1 <- concrete_try_from U32 (CStreamText k_EndpointName) [0xf4034769; 0x6d6d6520; 0x736f6d65; 0x20736967; 0xfc036e61; 0x6c20f09f; 0x948a20f0; 0x9f998c00]%N ;;
  x2 <- unwrapped (Val r1) ;;
  x3 <- agg_packets ((CStreamText k_EndpointName), x2) ;;
  x4 <- packets_next x3 ;;
  x5 <- some_of (fst x4) ;;
  x6 <- packets_next (snd x4) ;;
  x7 <- some_of (fst x6) ;;
  x8 <- packets_next (snd x6) ;;
  Val (
    (packet_data x5) = [0xf4034769; 0x6d6d6520; 0x736f6d65; 0x20736967]%N /\
    (packet_data x7) = [0xfc036e61; 0x6c20f09f; 0x948a20f0; 0x9f998c00]%N /\
    (fst x8) = None)).
Proof. run_test. Qed.

(** *** midi2/src/ump_stream/function_block_discovery.rs *)

(* ump_stream/function_block_discovery.rs 31 *)
Example t_ump_stream_function_block_discovery_setters : passes (
  m1 <- array_new U32 stream_function_block_discovery 4 ;;
  m2 <- set U32 stream_function_block_discovery m1 "function_block_number" (VNum 9) ;;
  m3 <- set U32 stream_function_block_discovery m2 "requesting_function_block_info" (VBool true) ;;
  m4 <- set U32 stream_function_block_discovery m3 "requesting_function_block_name" (VBool true) ;;
  Val (
    m4 = [0xf0100903; 0; 0; 0]%N)).
Proof. run_test. Qed.

(* ump_stream/function_block_discovery.rs 43 *)
Example t_ump_stream_function_block_discovery_function_block_number : passes (
  r1 <- concrete_try_from U32 (CFixed stream_function_block_discovery) [0xf0100903]%N ;;
  x2 <- unwrapped (Val r1) ;;
  x3 <- get U32 stream_function_block_discovery x2 "function_block_number" ;;
  Val (
    x3 = VNum 9)).
Proof. run_test. Qed.

(* ump_stream/function_block_discovery.rs 53 *)
Example t_ump_stream_function_block_discovery_requesting_function_block_info : passes (
  r1 <- concrete_try_from U32 (CFixed stream_function_block_discovery) [0xf0100903]%N ;;
  x2 <- unwrapped (Val r1) ;;
  x3 <- get U32 stream_function_block_discovery x2 "requesting_function_block_info" ;;
  Val (
    x3 = VBool true)).
Proof. run_test. Qed.

(* ump_stream/function_block_discovery.rs 63 *)
Example t_ump_stream_function_block_discovery_requesting_function_block_name : passes (
  r1 <- concrete_try_from U32 (CFixed stream_function_block_discovery) [0xf0100903]%N ;;
  x2 <- unwrapped (Val r1) ;;
  x3 <- get U32 stream_function_block_discovery x2 "requesting_function_block_name" ;;
  Val (
    x3 = VBool true)).
Proof. run_test. Qed.

(** *** midi2/src/ump_stream/function_block_info.rs *)

(* ump_stream/function_block_info.rs 243 *)
Example t_ump_stream_function_block_info_builder : passes (
  m1 <- array_new U32 stream_function_block_info 4 ;;
  m2 <- set U32 stream_function_block_info m1 "active" (VBool true) ;;
  m3 <- set U32 stream_function_block_info m2 "function_block_number" (VNum 17) ;;
  m4 <- set U32 stream_function_block_info m3 "first_group" (VNum 13) ;;
  m5 <- set U32 stream_function_block_info m4 "number_of_groups_spanned" (VNum 8) ;;
  m6 <- set U32 stream_function_block_info m5 "midi_ci_version" (VNum 1) ;;
  m7 <- set U32 stream_function_block_info m6 "max_number_of_midi_ci_streams" (VNum 32) ;;
  m8 <- set U32 stream_function_block_info m7 "ui_hint" (VUiHint SenderReciever) ;;
  m9 <- set U32 stream_function_block_info m8 "midi1_port" (VPort (Some DontRestrictBandwidth)) ;;
  m10 <- set U32 stream_function_block_info m9 "direction" (VDir Output) ;;
  Val (
    m10 = [0xf0119136; 0xd080120; 0; 0]%N)).
Proof. run_test. Qed.

(* ump_stream/function_block_info.rs 262 *)
Example t_ump_stream_function_block_info_active : passes (
  r1 <- concrete_try_from U32 (CFixed stream_function_block_info) [0xf0119136; 0xd080120; 0; 0]%N ;;
  x2 <- unwrapped (Val r1) ;;
  x3 <- get U32 stream_function_block_info x2 "active" ;;
  Val (
    x3 = VBool true)).
Proof. run_test. Qed.

(* ump_stream/function_block_info.rs 272 *)
Example t_ump_stream_function_block_info_function_block_number : passes (
  r1 <- concrete_try_from U32 (CFixed stream_function_block_info) [0xf0119136; 0xd080120; 0; 0]%N ;;
  x2 <- unwrapped (Val r1) ;;
  x3 <- get U32 stream_function_block_info x2 "function_block_number" ;;
  Val (
    x3 = VNum 17)).
Proof. run_test. Qed.

(* ump_stream/function_block_info.rs 282 *)
Example t_ump_stream_function_block_info_first_group : passes (
  r1 <- concrete_try_from U32 (CFixed stream_function_block_info) [0xf0119136; 0xd080120; 0; 0]%N ;;
  x2 <- unwrapped (Val r1) ;;
  x3 <- get U32 stream_function_block_info x2 "first_group" ;;
  Val (
    x3 = VNum 13)).
Proof. run_test. Qed.

(* ump_stream/function_block_info.rs 292 *)
Example t_ump_stream_function_block_info_number_of_groups_spanned : passes (
  r1 <- concrete_try_from U32 (CFixed stream_function_block_info) [0xf0119136; 0xd080120; 0; 0]%N ;;
  x2 <- unwrapped (Val r1) ;;
  x3 <- get U32 stream_function_block_info x2 "number_of_groups_spanned" ;;
  Val (
    x3 = VNum 8)).
Proof. run_test. Qed.

(* ump_stream/function_block_info.rs 302 *)
Example t_ump_stream_function_block_info_midi_ci_version : passes (
  r1 <- concrete_try_from U32 (CFixed stream_function_block_info) [0xf0119136; 0xd080120; 0; 0]%N ;;
  x2 <- unwrapped (Val r1) ;;
  x3 <- get U32 stream_function_block_info x2 "midi_ci_version" ;;
  Val (
    x3 = VNum 1)).
Proof. run_test. Qed.

(* ump_stream/function_block_info.rs 312 *)
Example t_ump_stream_function_block_info_max_number_of_midi_ci_streams : passes (
  r1 <- concrete_try_from U32 (CFixed stream_function_block_info) [0xf0119136; 0xd080120; 0; 0]%N ;;
  x2 <- unwrapped (Val r1) ;;
  x3 <- get U32 stream_function_block_info x2 "max_number_of_midi_ci_streams" ;;
  Val (
    x3 = VNum 32)).
Proof. run_test. Qed.

(* ump_stream/function_block_info.rs 322 *)
Example t_ump_stream_function_block_info_ui_hint : passes (
  r1 <- concrete_try_from U32 (CFixed stream_function_block_info) [0xf0119136; 0xd080120; 0; 0]%N ;;
  x2 <- unwrapped (Val r1) ;;
  x3 <- get U32 stream_function_block_info x2 "ui_hint" ;;
  Val (
    x3 = VUiHint SenderReciever)).
Proof. run_test. Qed.

(* ump_stream/function_block_info.rs 332 *)
Example t_ump_stream_function_block_info_midi1_port : passes (
  r1 <- concrete_try_from U32 (CFixed stream_function_block_info) [0xf0119136; 0xd080120; 0; 0]%N ;;
  x2 <- unwrapped (Val r1) ;;
  x3 <- get U32 stream_function_block_info x2 "midi1_port" ;;
  Val (
    x3 = VPort (Some DontRestrictBandwidth))).
Proof. run_test. Qed.

(* ump_stream/function_block_info.rs 342 *)
Example t_ump_stream_function_block_info_direction : passes (
  r1 <- concrete_try_from U32 (CFixed stream_function_block_info) [0xf0119136; 0xd080120; 0; 0]%N ;;
  x2 <- unwrapped (Val r1) ;;
  x3 <- get U32 stream_function_block_info x2 "direction" ;;
  Val (
    x3 = VDir Output)).
Proof. run_test. Qed.

(** *** midi2/src/ump_stream/function_block_name.rs *)

(* ump_stream/function_block_name.rs 131 *)
Example t_ump_stream_function_block_name_set_name : passes (
  m1 <- stream_new k_FunctionBlockName ;;
  x2 <- stream_set_text (sk_off k_FunctionBlockName) m1 [83; 121; 110; 116; 104; 87; 97; 118; 101; 240; 159; 140; 138; 194; 178]%N ;;
  x3 <- block_write x2 9 ;;
  Val (
    x3 = [0xf4120953; 0x796e7468; 0x57617665; 0xf09f8c8a; 0xfc1209c2; 0xb2000000; 0; 0]%N)).
Proof. run_test. Qed.

(* ump_stream/function_block_name.rs 151 *)
Example t_ump_stream_function_block_name_name : passes (
  r1 <- concrete_try_from U32 (CStreamText k_FunctionBlockName) [0xf4120953; 0x796e7468; 0x57617665; 0xf09f8c8a; 0xfc1209c2; 0xb2000000; 0; 0]%N ;;
  x2 <- unwrapped (Val r1) ;;
  x3 <- stream_text k_FunctionBlockName x2 ;;
  Val (
    x3 = [83; 121; 110; 116; 104; 87; 97; 118; 101; 240; 159; 140; 138; 194; 178]%N)).
Proof. run_test. Qed.

(* ump_stream/function_block_name.rs 173 *)
Example t_ump_stream_function_block_name_function_block : passes (
  r1 <- concrete_try_from U32 (CStreamText k_FunctionBlockName) [0xf4120953; 0x796e7468; 0x57617665; 0xf09f8c8a; 0xfc1209c2; 0xb2000000; 0; 0]%N ;;
  x2 <- unwrapped (Val r1) ;;
  x3 <- block_read x2 ;;
  Val (
    x3 = 9%N)).
Proof. run_test. Qed.

(* ump_stream/function_block_name.rs 194 *)
Example t_ump_stream_function_block_name_read_empty_bytes : passes (
  m1 <- stream_new k_FunctionBlockName ;;
  l2 <- ti_collect (stream_form (sk_off k_FunctionBlockName)) (text_bytes m1) ;;
  Val (
    l2 = [])).
Proof. run_test. Qed.

(** *** midi2/src/ump_stream/packet.rs *)

(* ump_stream/packet.rs 81 *)
Example t_ump_stream_packet_construction : passes (
  r1 <- kind_try_from PStream [0xf0000000]%N ;;
  Val (
    (is_okay r1) = true)).
Proof. run_test. Qed.

(* ump_stream/packet.rs 86 *)
Example t_ump_stream_packet_construction_long_slice : passes (
  r1 <- kind_try_from PStream [0xf0000000; 0; 0; 0]%N ;;
  Val (
    (is_okay r1) = true)).
Proof. run_test. Qed.

(* ump_stream/packet.rs 91 *)
Example t_ump_stream_packet_construction_very_long_slice : passes (
  r1 <- kind_try_from PStream [0xf0000000; 0; 0; 0; 0]%N ;;
  Val (
    (is_okay r1) = true)).
Proof. run_test. Qed.

(* ump_stream/packet.rs 96 *)
Example t_ump_stream_packet_construction_short_slice : passes (
  r1 <- kind_try_from PStream []%N ;;
  Val (
    r1 = (Err "Slice is too short"))).
Proof. run_test. Qed.

(* ump_stream/packet.rs 106 *)
Example t_ump_stream_packet_construction_incorrect_ump_message_type : passes (
  r1 <- kind_try_from PStream [0; 0; 0; 0]%N ;;
  Val (
    r1 = (Err "Incorrect UMP message type"))).
Proof. run_test. Qed.

(* ump_stream/packet.rs 116 *)
Example t_ump_stream_packet_complete_format : passes (
  r1 <- kind_try_from PStream [0xf0000000; 0; 0; 0]%N ;;
  x2 <- unwrapped (Val r1) ;;
  x3 <- stream_packet_format x2 ;;
  Val (
    x3 = Complete)).
Proof. run_test. Qed.

(* ump_stream/packet.rs 126 *)
Example t_ump_stream_packet_start_format : passes (
  r1 <- kind_try_from PStream [0xf4000000; 0; 0; 0]%N ;;
  x2 <- unwrapped (Val r1) ;;
  x3 <- stream_packet_format x2 ;;
  Val (
    x3 = Start)).
Proof. run_test. Qed.

(* ump_stream/packet.rs 136 *)
Example t_ump_stream_packet_continue_format : passes (
  r1 <- kind_try_from PStream [0xf8000000; 0; 0; 0]%N ;;
  x2 <- unwrapped (Val r1) ;;
  x3 <- stream_packet_format x2 ;;
  Val (
    x3 = Continue)).
Proof. run_test. Qed.

(* ump_stream/packet.rs 146 *)
Example t_ump_stream_packet_end_format : passes (
  r1 <- kind_try_from PStream [0xfc000000; 0; 0; 0]%N ;;
  x2 <- unwrapped (Val r1) ;;
  x3 <- stream_packet_format x2 ;;
  Val (
    x3 = End)).
Proof. run_test. Qed.

(** *** midi2/src/ump_stream/product_instance_id.rs *)

(* ump_stream/product_instance_id.rs 37 *)
Example t_ump_stream_product_instance_id_set_id : passes (
  m1 <- stream_new k_ProductInstanceId ;;
  x2 <- stream_set_text (sk_off k_ProductInstanceId) m1 [80; 105; 97; 110; 111; 80; 117; 108; 115; 101]%N ;;
  Val (
    x2 = [0xf0045069; 0x616e6f50; 0x756c7365; 0]%N)).
Proof. run_test. Qed.

(* ump_stream/product_instance_id.rs 52 *)
Example t_ump_stream_product_instance_id_id : passes (
  r1 <- concrete_try_from U32 (CStreamText k_ProductInstanceId) [0xf0045069; 0x616e6f50; 0x756c7365; 0]%N ;;
  x2 <- unwrapped (Val r1) ;;
  x3 <- stream_text k_ProductInstanceId x2 ;;
  Val (
    x3 = [80; 105; 97; 110; 111; 80; 117; 108; 115; 101]%N)).
Proof. run_test. Qed.

(** *** midi2/src/ump_stream/start_of_clip.rs *)

(* ump_stream/start_of_clip.rs 20 *)
Example t_ump_stream_start_of_clip_builder : passes (
  m1 <- array_new U32 stream_start_of_clip 4 ;;
  Val (
    m1 = [0xf0200000; 0; 0; 0]%N)).
Proof. run_test. Qed.

(* ump_stream/start_of_clip.rs 28 *)
Example t_ump_stream_start_of_clip_from_data : passes (
  r1 <- concrete_try_from U32 (CFixed stream_start_of_clip) [0xf0200000; 0; 0; 0]%N ;;
  Val (
    r1 = (Ok [0xf0200000; 0; 0; 0]%N))).
Proof. run_test. Qed.

(** *** midi2/src/ump_stream/stream_configuration_notification.rs *)

(* ump_stream/stream_configuration_notification.rs 30 *)
Example t_ump_stream_stream_configuration_notification_builder : passes (
  m1 <- array_new U32 stream_stream_configuration_notification 4 ;;
  m2 <- set U32 stream_stream_configuration_notification m1 "protocol" (VNum 2) ;;
  m3 <- set U32 stream_stream_configuration_notification m2 "receive_jr_timestamps" (VBool true) ;;
  m4 <- set U32 stream_stream_configuration_notification m3 "send_jr_timestamps" (VBool true) ;;
  Val (
    m4 = [0xf0060203; 0; 0; 0]%N)).
Proof. run_test. Qed.

(* ump_stream/stream_configuration_notification.rs 42 *)
Example t_ump_stream_stream_configuration_notification_protocol : passes (
  r1 <- concrete_try_from U32 (CFixed stream_stream_configuration_notification) [0xf0060203; 0; 0; 0]%N ;;
  x2 <- unwrapped (Val r1) ;;
  x3 <- get U32 stream_stream_configuration_notification x2 "protocol" ;;
  Val (
    x3 = VNum 2)).
Proof. run_test. Qed.

(* ump_stream/stream_configuration_notification.rs 52 *)
Example t_ump_stream_stream_configuration_notification_receive_jr_timestamps : passes (
  r1 <- concrete_try_from U32 (CFixed stream_stream_configuration_notification) [0xf0060203; 0; 0; 0]%N ;;
  x2 <- unwrapped (Val r1) ;;
  x3 <- get U32 stream_stream_configuration_notification x2 "receive_jr_timestamps" ;;
  Val (
    x3 = VBool true)).
Proof. run_test. Qed.

(* ump_stream/stream_configuration_notification.rs 62 *)
Example t_ump_stream_stream_configuration_notification_send_jr_timestamps : passes (
  r1 <- concrete_try_from U32 (CFixed stream_stream_configuration_notification) [0xf0060203; 0; 0; 0]%N ;;
  x2 <- unwrapped (Val r1) ;;
  x3 <- get U32 stream_stream_configuration_notification x2 "send_jr_timestamps" ;;
  Val (
    x3 = VBool true)).
Proof. run_test. Qed.

(** *** midi2/src/ump_stream/stream_configuration_request.rs *)

(* ump_stream/stream_configuration_request.rs 30 *)
Example t_ump_stream_stream_configuration_request_builder : passes (
  m1 <- array_new U32 stream_stream_configuration_request 4 ;;
  m2 <- set U32 stream_stream_configuration_request m1 "protocol" (VNum 2) ;;
  m3 <- set U32 stream_stream_configuration_request m2 "receive_jr_timestamps" (VBool true) ;;
  m4 <- set U32 stream_stream_configuration_request m3 "send_jr_timestamps" (VBool true) ;;
  Val (
    m4 = [0xf0050203; 0; 0; 0]%N)).
Proof. run_test. Qed.

(* ump_stream/stream_configuration_request.rs 42 *)
Example t_ump_stream_stream_configuration_request_protocol : passes (
  r1 <- concrete_try_from U32 (CFixed stream_stream_configuration_request) [0xf0050203; 0; 0; 0]%N ;;
  x2 <- unwrapped (Val r1) ;;
  x3 <- get U32 stream_stream_configuration_request x2 "protocol" ;;
  Val (
    x3 = VNum 2)).
Proof. run_test. Qed.

(* ump_stream/stream_configuration_request.rs 52 *)
Example t_ump_stream_stream_configuration_request_receive_jr_timestamps : passes (
  r1 <- concrete_try_from U32 (CFixed stream_stream_configuration_request) [0xf0050203; 0; 0; 0]%N ;;
  x2 <- unwrapped (Val r1) ;;
  x3 <- get U32 stream_stream_configuration_request x2 "receive_jr_timestamps" ;;
  Val (
    x3 = VBool true)).
Proof. run_test. Qed.

(* ump_stream/stream_configuration_request.rs 62 *)
Example t_ump_stream_stream_configuration_request_send_jr_timestamps : passes (
  r1 <- concrete_try_from U32 (CFixed stream_stream_configuration_request) [0xf0050203; 0; 0; 0]%N ;;
  x2 <- unwrapped (Val r1) ;;
  x3 <- get U32 stream_stream_configuration_request x2 "send_jr_timestamps" ;;
  Val (
    x3 = VBool true)).
Proof. run_test. Qed.
