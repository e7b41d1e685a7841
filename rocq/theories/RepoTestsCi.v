(** Generated: the unit tests of /repo, ci, read as statements about the
    model.  They check that the model computes what the project's own tests
    expect of the code; they are tests, not proofs of a property. *)
From Coq Require Import NArith List String Bool.
From Verif Require Import Base BitOps Values Props Message MessageTable Text Sysex Splice SpecSysex SpecEdits SpecPacket SysexClient Aggregate Packet Receiver Ci RepoTests.
Import ListNotations.
Local Open Scope string_scope.

(** *** midi2/src/ci/discovery.rs *)

(* ci/discovery.rs 292 *)
Example t_ci_discovery_setters : passes (
  m1 <- ci_new 2 ;;
  x2 <- ci_write (field_prop FSource) (CiNum 0xb48d9d9) m1 ;;
  x3 <- ci_write (field_prop FManufacturer) (CiBytes [33; 102; 97]%N) x2 ;;
  x4 <- ci_write (field_prop FFamily) (CiNum 0x278a) x3 ;;
  x5 <- ci_write (field_prop FModel) (CiNum 0x2269) x4 ;;
  x6 <- ci_write (field_prop FSoftware) (CiBytes [48; 73; 11; 99]%N) x5 ;;
  x7 <- ci_write (field_prop FProcessInquiry) (CiFlag true) x6 ;;
  x8 <- ci_write (field_prop FPropertyExchange) (CiFlag true) x7 ;;
  x9 <- ci_write (field_prop FProfileConfiguration) (CiFlag true) x8 ;;
  x10 <- ci_write (field_prop FProtocolNegotiation) (CiFlag true) x9 ;;
  x11 <- ci_write (field_prop FMaxSysexSize) (CiNum 0xef6efe2) x10 ;;
  x12 <- ci_write (field_prop FOutputPathId) (CiNum 37) x11 ;;
  d13 <- ci_data x12 ;;
  Val (
    d13 = [240; 126; 127; 13; 112; 2; 89; 51; 35; 90; 127; 127; 127; 127; 33; 102; 97; 10; 79; 105; 68; 48; 73; 11; 99; 30; 98; 95; 91; 119; 37; 247]%N)).
Proof. run_test. Qed.

(* ci/discovery.rs 353 *)
Example t_ci_discovery_new : passes (
  m1 <- ci_new 2 ;;
  d2 <- ci_data m1 ;;
  Val (
    d2 = [240; 126; 127; 13; 112; 2; 0; 0; 0; 0; 127; 127; 127; 127; 0; 0; 0; 0; 0; 0; 0; 0; 0; 0; 0; 0; 0; 0; 0; 0; 0; 247]%N)).
Proof. run_test. Qed.

(* ci/discovery.rs 368 *)
Example t_ci_discovery_try_new_with_buffer : passes (
  r1 <- ci_try_new_with_buffer 2 [0; 0; 0; 0; 0; 0; 0; 0; 0; 0; 0; 0; 0; 0; 0; 0; 0; 0; 0; 0; 0; 0; 0; 0; 0; 0; 0; 0; 0; 0; 0; 0; 0; 0; 0; 0; 0; 0; 0; 0; 0; 0; 0; 0; 0; 0; 0; 0; 0; 0]%N ;;
  x2 <- unwrapped (Val r1) ;;
  d3 <- ci_data x2 ;;
  Val (
    d3 = [240; 126; 127; 13; 112; 2; 0; 0; 0; 0; 127; 127; 127; 127; 0; 0; 0; 0; 0; 0; 0; 0; 0; 0; 0; 0; 0; 0; 0; 0; 0; 247]%N)).
Proof. run_test. Qed.

(* ci/discovery.rs 384 *)
Example t_ci_discovery_new_with_buffer_dirty : passes (
  m1 <- ci_new_with_buffer 2 (s_items (listed (ints 0 50))) ;;
  d2 <- ci_data m1 ;;
  Val (
    d2 = [240; 126; 127; 13; 112; 2; 0; 0; 0; 0; 127; 127; 127; 127; 0; 0; 0; 0; 0; 0; 0; 0; 0; 0; 0; 0; 0; 0; 0; 0; 0; 247]%N)).
Proof. run_test. Qed.

(* ci/discovery.rs 400 *)
Example t_ci_discovery_try_new : passes (
  r1 <- ci_try_new 2 32 ;;
  x2 <- unwrapped (Val r1) ;;
  d3 <- ci_data x2 ;;
  Val (
    d3 = [240; 126; 127; 13; 112; 2; 0; 0; 0; 0; 127; 127; 127; 127; 0; 0; 0; 0; 0; 0; 0; 0; 0; 0; 0; 0; 0; 0; 0; 0; 0; 247]%N)).
Proof. run_test. Qed.

(* ci/discovery.rs 415 *)
Example t_ci_discovery_try_new_v1 : passes (
  r1 <- ci_try_new 1 31 ;;
  x2 <- unwrapped (Val r1) ;;
  d3 <- ci_data x2 ;;
  Val (
    d3 = [240; 126; 127; 13; 112; 1; 0; 0; 0; 0; 127; 127; 127; 127; 0; 0; 0; 0; 0; 0; 0; 0; 0; 0; 0; 0; 0; 0; 0; 0; 247]%N)).
Proof. run_test. Qed.

(* ci/discovery.rs 430 *)
Example t_ci_discovery_new_v1 : passes (
  m1 <- ci_new 1 ;;
  d2 <- ci_data m1 ;;
  Val (
    d2 = [240; 126; 127; 13; 112; 1; 0; 0; 0; 0; 127; 127; 127; 127; 0; 0; 0; 0; 0; 0; 0; 0; 0; 0; 0; 0; 0; 0; 0; 0; 247]%N)).
Proof. run_test. Qed.

(* ci/discovery.rs 445 *)
Example t_ci_discovery_try_from_slice : passes (
  r1 <- ci_try_from 2 [240; 126; 127; 13; 112; 2; 0; 0; 0; 0; 127; 127; 127; 127; 0; 0; 0; 0; 0; 0; 0; 0; 0; 0; 0; 0; 0; 0; 0; 0; 0; 247]%N ;;
  x2 <- unwrapped (Val r1) ;;
  Val (
    True)).
Proof. run_test. Qed.

(* ci/discovery.rs 457 *)
Example t_ci_discovery_rebuffer_from : passes (
  r1 <- ci_try_from 2 [240; 126; 127; 13; 112; 2; 0; 0; 0; 0; 127; 127; 127; 127; 0; 0; 0; 0; 0; 0; 0; 0; 0; 0; 0; 0; 0; 0; 0; 0; 0; 247]%N ;;
  x2 <- unwrapped (Val r1) ;;
  d3 <- ci_data x2 ;;
  d4 <- ci_data (rebuffer_vec x2) ;;
  Val (
    d3 = d4)).
Proof. run_test. Qed.

(* ci/discovery.rs 475 *)
Example t_ci_discovery_try_rebuffer_from : passes (
  r1 <- ci_try_from 2 [240; 126; 127; 13; 112; 2; 0; 0; 0; 0; 127; 127; 127; 127; 0; 0; 0; 0; 0; 0; 0; 0; 0; 0; 0; 0; 0; 0; 0; 0; 0; 247]%N ;;
  x2 <- unwrapped (Val r1) ;;
  x3 <- unwrapped (Val (try_rebuffer_array x2 32)) ;;
  d4 <- ci_data x2 ;;
  d5 <- ci_data x3 ;;
  Val (
    d4 = d5)).
Proof. run_test. Qed.

(* ci/discovery.rs 494 *)
Example t_ci_discovery_try_from_slice_v1 : passes (
  r1 <- ci_try_from 1 [240; 126; 127; 13; 112; 1; 0; 0; 0; 0; 127; 127; 127; 127; 0; 0; 0; 0; 0; 0; 0; 0; 0; 0; 0; 0; 0; 0; 0; 0; 247]%N ;;
  x2 <- unwrapped (Val r1) ;;
  Val (
    True)).
Proof. run_test. Qed.

(* ci/discovery.rs 506 *)
Example t_ci_discovery_source : passes (
  m1 <- ci_new 2 ;;
  x2 <- ci_write (field_prop FSource) (CiNum 0xeaeb42d) m1 ;;
  x3 <- ci_read (field_prop FSource) x2 ;;
  Val (
    x3 = CiNum 0xeaeb42d)).
Proof. run_test. Qed.

(* ci/discovery.rs 514 *)
Example t_ci_discovery_destination : passes (
  m1 <- ci_new 2 ;;
  x2 <- ci_destination m1 ;;
  Val (
    x2 = 0xfffffff%N)).
Proof. run_test. Qed.

(* ci/discovery.rs 521 *)
Example t_ci_discovery_device_id : passes (
  m1 <- ci_new 2 ;;
  x2 <- ci_device_id m1 ;;
  Val (
    x2 = FunctionBlock)).
Proof. run_test. Qed.

(* ci/discovery.rs 528 *)
Example t_ci_discovery_device_manufactuter : passes (
  m1 <- ci_new 2 ;;
  x2 <- ci_write (field_prop FManufacturer) (CiBytes [71; 19; 1]%N) m1 ;;
  x3 <- ci_read (field_prop FManufacturer) x2 ;;
  d4 <- ci_data x2 ;;
  Val (
    x3 = CiBytes [71; 19; 1]%N /\
    (firstn 3 (skipn 14 d4)) = [71; 19; 1]%N)).
Proof. run_test. Qed.

(* ci/discovery.rs 541 *)
Example t_ci_discovery_device_manufactuter_v1 : passes (
  m1 <- ci_new 1 ;;
  x2 <- ci_write (field_prop FManufacturer) (CiBytes [71; 19; 1]%N) m1 ;;
  x3 <- ci_read (field_prop FManufacturer) x2 ;;
  d4 <- ci_data x2 ;;
  Val (
    x3 = CiBytes [71; 19; 1]%N /\
    (firstn 3 (skipn 14 d4)) = [71; 19; 1]%N)).
Proof. run_test. Qed.

(* ci/discovery.rs 553 *)
Example t_ci_discovery_device_family : passes (
  m1 <- ci_new 2 ;;
  x2 <- ci_write (field_prop FFamily) (CiNum 0x15fe) m1 ;;
  x3 <- ci_read (field_prop FFamily) x2 ;;
  d4 <- ci_data x2 ;;
  Val (
    x3 = CiNum 0x15fe /\
    (firstn 2 (skipn 17 d4)) = [126; 43]%N)).
Proof. run_test. Qed.

(* ci/discovery.rs 565 *)
Example t_ci_discovery_device_model_number : passes (
  m1 <- ci_new 2 ;;
  x2 <- ci_write (field_prop FModel) (CiNum 0x6b8) m1 ;;
  x3 <- ci_read (field_prop FModel) x2 ;;
  d4 <- ci_data x2 ;;
  Val (
    x3 = CiNum 0x6b8 /\
    (firstn 2 (skipn 19 d4)) = [56; 13]%N)).
Proof. run_test. Qed.

(* ci/discovery.rs 577 *)
Example t_ci_discovery_software_version : passes (
  m1 <- ci_new 2 ;;
  x2 <- ci_write (field_prop FSoftware) (CiBytes [83; 21; 117; 25]%N) m1 ;;
  x3 <- ci_read (field_prop FSoftware) x2 ;;
  d4 <- ci_data x2 ;;
  Val (
    x3 = CiBytes [83; 21; 117; 25]%N /\
    (firstn 4 (skipn 21 d4)) = [83; 21; 117; 25]%N)).
Proof. run_test. Qed.

(* ci/discovery.rs 594 *)
Example t_ci_discovery_process_inquiry_supported : passes (
  m1 <- ci_new 2 ;;
  x2 <- ci_read (field_prop FProcessInquiry) m1 ;;
  x3 <- ci_write (field_prop FProcessInquiry) (CiFlag true) m1 ;;
  x4 <- ci_read (field_prop FProcessInquiry) x3 ;;
  d5 <- ci_data x3 ;;
  x6 <- idx d5 25 ;;
  Val (
    (negb (flag x2)) = true /\
    x4 = CiFlag true /\
    x6 = 16%N)).
Proof. run_test. Qed.

(* ci/discovery.rs 607 *)
Example t_ci_discovery_profile_configuration_supported : passes (
  m1 <- ci_new 2 ;;
  x2 <- ci_read (field_prop FProfileConfiguration) m1 ;;
  x3 <- ci_write (field_prop FProfileConfiguration) (CiFlag true) m1 ;;
  x4 <- ci_read (field_prop FProfileConfiguration) x3 ;;
  d5 <- ci_data x3 ;;
  x6 <- idx d5 25 ;;
  Val (
    (negb (flag x2)) = true /\
    x4 = CiFlag true /\
    x6 = 4%N)).
Proof. run_test. Qed.

(* ci/discovery.rs 620 *)
Example t_ci_discovery_property_exchange_supported : passes (
  m1 <- ci_new 2 ;;
  x2 <- ci_read (field_prop FPropertyExchange) m1 ;;
  x3 <- ci_write (field_prop FPropertyExchange) (CiFlag true) m1 ;;
  x4 <- ci_read (field_prop FPropertyExchange) x3 ;;
  d5 <- ci_data x3 ;;
  x6 <- idx d5 25 ;;
  Val (
    (negb (flag x2)) = true /\
    x4 = CiFlag true /\
    x6 = 8%N)).
Proof. run_test. Qed.

(* ci/discovery.rs 633 *)
Example t_ci_discovery_protocol_negotiation_supported : passes (
  m1 <- ci_new 2 ;;
  x2 <- ci_read (field_prop FProtocolNegotiation) m1 ;;
  x3 <- ci_write (field_prop FProtocolNegotiation) (CiFlag true) m1 ;;
  x4 <- ci_read (field_prop FProtocolNegotiation) x3 ;;
  d5 <- ci_data x3 ;;
  x6 <- idx d5 25 ;;
  Val (
    (negb (flag x2)) = true /\
    x4 = CiFlag true /\
    x6 = 2%N)).
Proof. run_test. Qed.

(* ci/discovery.rs 646 *)
Example t_ci_discovery_max_sysex_size : passes (
  m1 <- ci_new 2 ;;
  x2 <- ci_write (field_prop FMaxSysexSize) (CiNum 0xb3abd1c) m1 ;;
  x3 <- ci_read (field_prop FMaxSysexSize) x2 ;;
  d4 <- ci_data x2 ;;
  Val (
    x3 = CiNum 0xb3abd1c /\
    (firstn 4 (skipn 26 d4)) = [28; 122; 106; 89]%N)).
Proof. run_test. Qed.

(* ci/discovery.rs 658 *)
Example t_ci_discovery_output_path_id : passes (
  m1 <- ci_new 2 ;;
  x2 <- ci_write (field_prop FOutputPathId) (CiNum 8) m1 ;;
  x3 <- ci_read (field_prop FOutputPathId) x2 ;;
  d4 <- ci_data x2 ;;
  x5 <- idx d4 30 ;;
  Val (
    x3 = CiNum 8 /\
    x5 = 8%N)).
Proof. run_test. Qed.
