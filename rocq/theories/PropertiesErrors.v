(** C63: errors tell the truth.  Every parser is total; it accepts exactly the slices without
    any of the listed defects, and for every other slice its error is the complaint about the
    first of them that the slice has.  SpecErrors.v has the lists. *)
From Coq Require Import NArith List String Bool Arith Lia.
From Verif Require Import Base Values Props Message MessageTable SpecLayout SpecFixed SpecSysex Sysex Text SpecText
  Aggregate SpecAggregate Packet SpecPacket Ci SpecCi SpecErrors
  BitLemmas PropLemmas MessageLemmas SysexBridge TextParse AggregateLemmas CiLemmas ErrorLemmas ErrorSysex ErrorAggregate.
Import ListNotations.
Local Open Scope string_scope.
Local Open Scope nat_scope.
Local Open Scope list_scope.

(** What a verdict says: an error is answered only when the slice has the defect that it names, and a slice with
    some defect gets an error. *)
Theorem C63_truth : forall A (o : outcome (res A)) l, verdict o l ->
  (forall e, o = Val (Err e) -> exists P, In (e, P) l /\ P)
  /\ (forall e P, In (e, P) l -> P -> exists e', o = Val (Err e')).
Proof.
  intros A o l V. destruct (verdict_judged o l V) as (r & -> & J). split.
  - intros e [= ->]. destruct J as (pre & P & post & -> & HP & _). exists P. split; [apply in_elt|exact HP].
  - intros e P Hin HP. destruct r as [a|e']; [|eauto]. cbn [judged] in J. unfold faultless in J. rewrite Forall_forall in J.
    now elim (J (e, P) Hin).
Qed.
Print Assumptions C63_truth.

(** Fixed-size messages, over words and bytes. *)
Theorem C63_fixed : forall u m b, In m all_messages -> supports u m = true -> wf_buf u b ->
  verdict (try_from u m b) (fixed_defects u (m_name m) b).
Proof. intros u m b Hm Hs Hb. destruct (fixed_judged u m b Hm Hs Hb) as (r & E & J). now apply (verdict_of _ r). Qed.
Print Assumptions C63_fixed.

(** System exclusive messages, over words and bytes.  The slice need not consist of whole packets. *)
Theorem C63_sysex : forall fm b,
  verdict (Val (sx_try_from (match fm with SevenBit => fmt7 | EightBit => fmt8 end) b)) (sysex_defects fm b).
Proof. intros fm b. apply (verdict_of _ _ _ eq_refl). exact (sysex_judged fm b). Qed.
Print Assumptions C63_sysex.
Theorem C63_sysex_bytes : forall b, verdict (Val (try_from_b b)) (byte_sysex_defects b).
Proof. intros b. apply (verdict_of _ _ _ eq_refl). apply byte_sysex_judged. Qed.
Print Assumptions C63_sysex_bytes.

(** Texts. *)
Theorem C63_flex_text : forall K b, verdict (flex_try_from K b) (flex_text_defects K b).
Proof. intros K b. destruct (flex_text_judged K b) as (r & E & J). now apply (verdict_of _ r). Qed.
Print Assumptions C63_flex_text.
Theorem C63_stream_text : forall K b, In K stream_texts -> verdict (stream_try_from K b) (stream_text_defects K b).
Proof.
  intros K b H. destruct (stream_text_judged K b) as (r & E & J); [now apply stream_text_arm|]. now apply (verdict_of _ r).
Qed.
Print Assumptions C63_stream_text.

(** The enums of families, of all packets and of all byte streams. *)
Theorem C63_families : forall b, wf_buf U32 b ->
  verdict (util_try_from b) (("Slice is too short", b = []) :: family_defects Utility b)
  /\ verdict (sys_try_from U32 b) (("Slice is too short", b = []) :: family_defects SystemCommon b)
  /\ verdict (cv1_try_from U32 b) (("Slice is too short", b = []) :: family_defects ChannelVoice1 b)
  /\ verdict (cv2_try_from b) (("Slice is too short", b = []) :: family_defects ChannelVoice2 b)
  /\ verdict (flexdata_try_from b) (("Slice is too short", b = []) :: family_defects FlexData b)
  /\ verdict (umpstream_try_from b) (("Slice is too short", b = []) :: family_defects UmpStream b).
Proof.
  intros b Hb.
  assert (G : forall f, (b = [] -> family_try_from f b = Val (Err "Slice is too short")) ->
     verdict (family_try_from f b) (("Slice is too short", b = []) :: family_defects f b)).
  { intros f E. destruct b as [|x b].
    - apply (verdict_of _ _ _ (E eq_refl)). now apply judged_here.
    - destruct (family_judged f (x :: b)) as (r & Er & J); [discriminate|exact Hb|].
      apply (verdict_of _ r _ Er). now apply judged_skip. }
  split; [|split; [|split; [|split; [|split]]]].
  - apply (G Utility). now intros ->.
  - apply (G SystemCommon). now intros ->.
  - apply (G ChannelVoice1). now intros ->.
  - apply (G ChannelVoice2). now intros ->.
  - apply (G FlexData). now intros ->.
  - apply (G UmpStream). now intros ->.
Qed.
Print Assumptions C63_families.
Theorem C63_ump_message : forall b, wf_buf U32 b -> verdict (ump_try_from b) (ump_defects b).
Proof. intros b Hb. destruct (ump_judged b Hb) as (r & E & J). now apply (verdict_of _ r). Qed.
Print Assumptions C63_ump_message.
Theorem C63_bytes_message : forall b, wf_buf U8 b -> verdict (bytes_try_from b) (bytes_defects b).
Proof. intros b Hb. destruct (bytes_judged b Hb) as (r & E & J). now apply (verdict_of _ r). Qed.
Print Assumptions C63_bytes_message.

(** Single packets and discovery inquiries. *)
Theorem C63_packet : forall b, verdict (packet_try_from b) (packet_defects b).
Proof. intros b. destruct (packet_judged b) as (r & E & J). now apply (verdict_of _ r). Qed.
Print Assumptions C63_packet.
Theorem C63_discovery : forall v b, v = 1%N \/ v = 2%N -> verdict (ci_try_from v b) (discovery_defects v b).
Proof. intros v b Hv. destruct (discovery_judged v b Hv) as (r & E & J). now apply (verdict_of _ r). Qed.
Print Assumptions C63_discovery.

(** Refuted: the complaint about an unknown status names the slice's own family.  System common messages are said to
    be MIDI 1 channel voice messages, and UMP stream messages flex data. *)
Theorem C63_family_named_refuted :
  (exists b, ump_family (bits b (Seg 0 28 4)) = Some SystemCommon /\ ump_try_from b = Val (Err "Unknown midi1 channel voice status"))
  /\ (exists b, ump_family (bits b (Seg 0 28 4)) = Some UmpStream
       /\ ump_try_from b = Val (Err "Couldn't interpret flex data status / bank fields"))
  /\ (exists b, nth 0 b 0%N = 0xF4%N /\ bytes_try_from b = Val (Err "Unknown midi1 channel voice status")).
Proof.
  split; [exists [0x10F40000]%N; split; reflexivity|]. split; [exists [0xF3FF0000; 0; 0; 0]%N; split; reflexivity|].
  exists [0xF4; 0]%N. split; reflexivity.
Qed.
Print Assumptions C63_family_named_refuted.

(** Slices with several defects, and the one that is named. *)
Example C63_cases :
  wf_buf U32 [0x30150000; 0; 0x31360000; 0]%N
  /\ ump_try_from [0x30150000; 0; 0x31360000; 0]%N = Val (Err "Inconsistent groups across packets")
  /\ ump_try_from [0x30160000; 0; 0x31370000; 0; 0x30260000; 0]%N = Val (Err "Expected Continue packet")
  /\ ump_try_from [0x30160000; 0; 0x31370000; 0]%N = Val (Err "Size field can not exceed 6")
  /\ ump_try_from [0x20700000]%N = Val (Err "Unknown midi1 channel voice status")
  /\ ump_try_from [0x40900004]%N = Val (Err "Slice is too short")
  /\ ump_try_from [0x40900004; 0]%N = Val (Err "Couldn't interpret note attribute")
  /\ ump_try_from [0xD0100006; 0x38FF0000; 0; 0]%N = Val (Err "Couldn't interpret Sharps / Flats field")
  /\ packet_try_from [0x30470000; 0]%N = Val (Err "Size field can not exceed 6")
  /\ wf_buf U8 [0x90; 0x40]%N /\ bytes_try_from [0x90; 0x40]%N = Val (Err "Slice is too short")
  /\ bytes_try_from [0xF0; 1; 2]%N = Val (Err "Sysex messages should end 0xF7").
Proof.
  split; [repeat constructor|]. split; [vm_compute; reflexivity|]. split; [vm_compute; reflexivity|]. split; [vm_compute; reflexivity|].
  split; [vm_compute; reflexivity|]. split; [vm_compute; reflexivity|]. split; [vm_compute; reflexivity|]. split; [vm_compute; reflexivity|].
  split; [vm_compute; reflexivity|]. split; [repeat constructor|]. split; vm_compute; reflexivity.
Qed.
