(** C63 for the enums of one family over bytes.  [byte_family_defects] is defined in SpecErrorsMore.v, [verdict] in SpecErrors.v. *)
From Coq Require Import NArith List String Bool Arith Lia.
From Verif Require Import Base Values Props Message MessageTable SpecLayout Aggregate SpecAggregate SpecErrors SpecErrorsMore ErrorLemmas ErrorBytes.
Import ListNotations.
Local Open Scope string_scope.
Local Open Scope nat_scope.
Local Open Scope list_scope.

Theorem C63_byte_families : forall b, wf_buf U8 b ->
  verdict (cv1_try_from U8 b) (byte_family_defects ChannelVoice1 b) /\ verdict (sys_try_from U8 b) (byte_family_defects SystemCommon b).
Proof.
  intros b Hb. split.
  - destruct (byte_family_judged ChannelVoice1 b) as (r & E & J); [now left|exact Hb|]. now apply (verdict_of _ r).
  - destruct (byte_family_judged SystemCommon b) as (r & E & J); [now right|exact Hb|]. now apply (verdict_of _ r).
Qed.
Print Assumptions C63_byte_families.

Example C63_byte_families_cases :
  wf_buf U8 [0xB3; 7; 100]%N /\ (exists a, cv1_try_from U8 [0xB3; 7; 100]%N = Val (Ok a))
  /\ cv1_try_from U8 [0xB3; 7]%N = Val (Err "Slice is too short")
  /\ cv1_try_from U8 [0xF8]%N = Val (Err "Unknown midi1 channel voice status")
  /\ (exists a, sys_try_from U8 [0xF8]%N = Val (Ok a))
  /\ sys_try_from U8 [0x90; 1; 2]%N = Val (Err "Unknown midi1 channel voice status")
  /\ sys_try_from U8 [0xF3]%N = Val (Err "Slice is too short") /\ sys_try_from U8 [] = Val (Err "Slice is too short").
Proof. split; [repeat constructor|]. repeat split; try (eexists; vm_compute; reflexivity); vm_compute; reflexivity. Qed.
