(** PROPERTIES of the aggregate enums.  See properties.jsonl; vocabulary in
    SpecAggregate.v, SpecFixed.v, SpecLayout.v. *)
From Coq Require Import NArith ZArith List String Bool Arith Lia Zify ZifyBool ZifyNat ZifyN.
From Verif Require Import Base BitOps BitLemmas ListLemmas Values Helpers Props Message MessageTable SpecLayout SpecFixed
  PropLemmas PropValidate MessageLemmas FixedLemmas FixedProofs ConvertLemmas ConvertProofs PropertiesConvert Sysex SpecSysex ByteView
  Text SpecText TextParse PropertiesText Aggregate SpecAggregate AggregateLemmas AggregateMore.
Import ListNotations.
Local Open Scope string_scope.
Local Open Scope list_scope.
Local Open Scope nat_scope.

(** ** C06: parsing never panics *)

Theorem C06_aggregates_total :
  (forall b, wf_buf U32 b ->
     (exists r, ump_try_from b = Val r) /\ (exists r, util_try_from b = Val r) /\ (exists r, sys_try_from U32 b = Val r) /\
     (exists r, cv1_try_from U32 b = Val r) /\ (exists r, cv2_try_from b = Val r) /\
     (exists r, flexdata_try_from b = Val r) /\ (exists r, umpstream_try_from b = Val r)) /\
  (forall b, wf_buf U8 b ->
     (exists r, bytes_try_from b = Val r) /\ (exists r, cv1_try_from U8 b = Val r) /\ (exists r, sys_try_from U8 b = Val r)).
Proof.
  split.
  - intros b W. split; [now apply ump_total|].
    repeat split; [exact (family_total Utility b W)|exact (family_total SystemCommon b W)|exact (family_total ChannelVoice1 b W)
      |exact (family_total ChannelVoice2 b W)|exact (family_total FlexData b W)|exact (family_total UmpStream b W)].
  - intros b W. split; [now apply bytes_total|]. now apply bytes_family_total.
Qed.
Print Assumptions C06_aggregates_total.
Example C06_aggregates_case : wf_buf U32 [0xF0030000; 0x41000000]%N /\ wf_buf U8 [0xF0; 0x01]%N.
Proof. split; repeat constructor. Qed.

(** ** C12: aggregates of Universal MIDI Packets *)

(** [UmpMessage::try_from] gives a variant exactly when that message type accepts the slice, and
    wraps the slice itself; but for the three misrouted texts and truncated function block
    discoveries (see below). *)
Theorem C12_ump_message : forall b c m,
  ump_try_from b = Val (Ok (c, m)) <->
  In c ump_types /\ accepted U32 c b /\ m = b
  /\ ~ In c misrouted
  /\ (c = CFixed stream_function_block_discovery -> bits b (Seg 0 16 10) = 0x10%N).
Proof. intros b c m. rewrite ump_iff. unfold fbd_routed. tauto. Qed.
Print Assumptions C12_ump_message.

(** The family enums. *)
Theorem C12_families : forall b c m, b <> [] ->
  (util_try_from b = Val (Ok (c, m)) <-> In c (types_of Utility) /\ accepted U32 c b /\ m = b) /\
  (sys_try_from U32 b = Val (Ok (c, m)) <-> In c (types_of SystemCommon) /\ accepted U32 c b /\ m = b) /\
  (cv1_try_from U32 b = Val (Ok (c, m)) <-> In c (types_of ChannelVoice1) /\ accepted U32 c b /\ m = b) /\
  (cv2_try_from b = Val (Ok (c, m)) <-> In c (types_of ChannelVoice2) /\ accepted U32 c b /\ m = b) /\
  (flexdata_try_from b = Val (Ok (c, m)) <->
     In c (types_of FlexData) /\ accepted U32 c b /\ m = b /\ ~ In c misrouted) /\
  (umpstream_try_from b = Val (Ok (c, m)) <->
     In c (types_of UmpStream) /\ accepted U32 c b /\ m = b
     /\ (c = CFixed stream_function_block_discovery -> bits b (Seg 0 16 10) = 0x10%N)).
Proof.
  intros b c m Hb.
  assert (M : forall f, f <> FlexData -> In c (types_of f) -> ~ In c misrouted).
  { intros f Hf T X. apply Hf. eapply types_nodup; [exact T|]. now apply misrouted_types. }
  assert (R : forall f, f <> UmpStream -> In c (types_of f) -> fbd_routed c b).
  { intros f Hf T X. exfalso. apply Hf. eapply types_nodup; [exact T|]. rewrite X. cbn. tauto. }
  assert (D : forall f, f <> FlexData -> f <> UmpStream ->
    (family_try_from f b = Val (Ok (c, m)) <-> In c (types_of f) /\ accepted U32 c b /\ m = b)).
  { intros f F1 F2. rewrite family_iff by exact Hb. specialize (M f F1). specialize (R f F2). tauto. }
  split; [exact (D Utility ltac:(discriminate) ltac:(discriminate))|].
  split; [exact (D SystemCommon ltac:(discriminate) ltac:(discriminate))|].
  split; [exact (D ChannelVoice1 ltac:(discriminate) ltac:(discriminate))|].
  split; [exact (D ChannelVoice2 ltac:(discriminate) ltac:(discriminate))|]. split.
  - change (flexdata_try_from b) with (family_try_from FlexData b). rewrite family_iff by exact Hb.
    specialize (R FlexData ltac:(discriminate)). tauto.
  - change (umpstream_try_from b) with (family_try_from UmpStream b). rewrite family_iff by exact Hb.
    specialize (M UmpStream ltac:(discriminate)). unfold fbd_routed. tauto.
Qed.
Print Assumptions C12_families.

(** No slice is two different messages; the variant's family is the packet's type. *)
Theorem C12_unique : forall b c c', In c ump_types -> In c' ump_types ->
  accepted U32 c b -> accepted U32 c' b -> c = c'.
Proof. intros b c c'. apply accepted_unique. Qed.
Print Assumptions C12_unique.

Theorem C12_family_of_type : forall f c b, In c (types_of f) -> accepted U32 c b ->
  ump_family (bits b (Seg 0 28 4)) = Some f.
Proof. intros f c b. apply accepted_family. Qed.
Print Assumptions C12_family_of_type.

(** Reserved packet types are refused. *)
Theorem C12_reserved : forall b, wf_buf U32 b -> ump_family (bits b (Seg 0 28 4)) = None ->
  exists e, ump_try_from b = Val (Err e).
Proof.
  intros b W H. destruct b as [|x b]; [eexists; reflexivity|]. rewrite ump_by_family, H. eauto.
Qed.
Print Assumptions C12_reserved.

Example C12_case :
  ump_try_from [0x40904000; 0xC0000000]%N = Val (Ok (CFixed cv2_note_on, [0x40904000; 0xC0000000]%N))
  /\ ump_try_from [0x30160102; 0x03040506; 0x30350708; 0x090A0B00]%N
     = Val (Ok (CSysex7, [0x30160102; 0x03040506; 0x30350708; 0x090A0B00]%N))
  /\ ump_try_from [0xF0120161; 0x62000000; 0; 0]%N
     = Val (Ok (stream_text_named 0x12 1 "FunctionBlockName", [0xF0120161; 0x62000000; 0; 0]%N))
  /\ ump_family (bits [0x60000000]%N (Seg 0 28 4)) = None.
Proof. repeat split; vm_compute; reflexivity. Qed.

(** Three metadata texts are accepted by their own type and always refused by the aggregates. *)
Theorem C12_misrouted_refuted : forall c, In c misrouted ->
  In c ump_types
  /\ (exists b, accepted U32 c b)
  /\ (forall b, wf_buf U32 b -> accepted U32 c b ->
        (exists e, ump_try_from b = Val (Err e)) /\ (exists e, flexdata_try_from b = Val (Err e))).
Proof.
  intros c M. assert (T : In c ump_types).
  { apply in_flat_map. exists FlexData. split; [cbn; tauto|now apply misrouted_types]. }
  split; [exact T|]. split.
  - destruct M as [<-|[<-|[<-|[]]]]; [exists [0xD010010A; 0x41420000; 0; 0]%N|exists [0xD010010B; 0x41420000; 0; 0]%N|exists [0xD010010C; 0x41420000; 0; 0]%N]; vm_compute; reflexivity.
  - intros b W A. split.
    + destruct (ump_total b W) as ([[c' m]|e] & E); [|eauto]. exfalso. apply ump_iff in E as (T' & N' & _ & A' & _).
      apply N'. now rewrite (accepted_unique c' c b).
    + destruct (family_total FlexData b W) as ([[c' m]|e] & E); [|eauto]. exfalso.
      assert (Hb : b <> []) by (destruct (accepted_key FlexData c b (misrouted_types c M) A); assumption).
      apply family_iff in E as (T' & N' & _ & A' & _); [|exact Hb].
      apply N'. rewrite (accepted_unique c' c b); auto. apply in_flat_map. exists FlexData. split; [cbn; tauto|exact T'].
Qed.
Print Assumptions C12_misrouted_refuted.

(** A truncated packet of another stream message is a function block discovery for that type. *)
Theorem C12_truncated_refuted : exists b e,
  accepted U32 (CFixed stream_function_block_discovery) b /\ ump_try_from b = Val (Err e).
Proof. exists [0xF0030000; 0x41000000]%N. eexists. split; vm_compute; reflexivity. Qed.
Print Assumptions C12_truncated_refuted.

(** ** C13: aggregates of byte streams *)

Theorem C13_bytes_message : forall b c m, wf_buf U8 b ->
  (bytes_try_from b = Val (Ok (c, m)) <-> In c byte_types /\ accepted U8 c b /\ m = b) /\
  (cv1_try_from U8 b = Val (Ok (c, m)) <-> In c (types_of ChannelVoice1) /\ accepted U8 c b /\ m = b) /\
  (sys_try_from U8 b = Val (Ok (c, m)) <-> In c (types_of SystemCommon) /\ accepted U8 c b /\ m = b).
Proof. intros b c m W. split; [now apply bytes_iff|]. split; [now apply cv1_bytes_iff|now apply sys_bytes_iff]. Qed.
Print Assumptions C13_bytes_message.

(** Classified by the first byte as MIDI 1.0 does; a byte that does not start a message is refused;
    and [enough] bytes are enough. *)
Theorem C13_first_byte : forall s t, (s < 256)%N ->
  match midi1_type s with
  | Some name => exists c, In c byte_types /\ type_name c = name
      /\ (enough c t -> bytes_try_from (s :: t) = Val (Ok (c, s :: t)))
      /\ (~ enough c t -> exists e, bytes_try_from (s :: t) = Val (Err e))
  | None => exists e, bytes_try_from (s :: t) = Val (Err e)
  end.
Proof.
  intros s t Hs. rewrite <- (byte_select_name s Hs). destruct (bytes_form s t) as (e & F). rewrite F.
  destruct (byte_select s) as [c|] eqn:S; cbn [option_map]; [|eauto].
  exists c. split; [eapply byte_arms; eauto|]. split; [reflexivity|].
  pose proof (byte_accepts s t c S) as A. unfold accepted in A. split.
  - intros H. apply wrap_ok. split; [reflexivity|]. now apply A.
  - intros H. unfold wrap. destruct (concrete_try_from U8 c (s :: t)) as [[m|e']|] eqn:E; cbn [try_bind].
    + exfalso. apply H, A. pose proof (bytes_slice _ _ _ E). congruence.
    + eauto.
    + exfalso. pose proof (byte_arms s c S) as T.
      destruct c; cbn [concrete_try_from] in E; try discriminate E;
        try (destruct T as [T|T]; [discriminate T|apply in_map_iff in T as (? & X & _); discriminate X]).
      unfold byte_select in S. unfold try_from in E. destruct (_ <? _); [discriminate|].
      assert (V : forall b, b <> [] -> forall fs, Forall (fun fp => match snd fp with PUmpType _ | PCvStatus _ | PSysStatus _ | PHybrid _ _ _ | PUmp _ _ => True | _ => False end) fs -> validate_all U8 fs b <> Panic).
      { clear. intros b Hb fs. induction 1 as [|[f p] fs H _ IH]; [discriminate|]. cbn [validate_all]. destruct b as [|x b]; [easy|].
        cbn [snd] in H. destruct p; try easy; cbn [prop_validate idx nth_error bind]; try exact IH;
          match goal with |- context [check ?x _] => destruct x end; cbn [check]; try discriminate; exact IH. }
      destruct (validate_all U8 (m_fields m) (s :: t)) as [[[]|]|] eqn:X; cbn [bind] in E; try discriminate.
      revert X. apply V; [discriminate|]. clear - T. destruct T as [T|T]; [discriminate|]. apply in_map_iff in T as (x & Q & H).
      injection Q as ->. apply in_app_iff in H as [H|H]; repeat (destruct H as [<-|H]; [repeat constructor|]); easy.
Qed.
Print Assumptions C13_first_byte.

Example C13_case :
  midi1_type 0x93 = Some "channel_voice1::NoteOn" /\ enough (CFixed cv1_note_on) [0x40; 0x7F]%N /\ ~ enough (CFixed cv1_note_on) [0x40]%N
  /\ bytes_try_from [0xF0; 0x7E; 0x01; 0xF7]%N = Val (Ok (CSysex7, [0xF0; 0x7E; 0x01; 0xF7]%N))
  /\ midi1_type 0xF7 = None /\ midi1_type 0x40 = None.
Proof. repeat split; try (vm_compute; reflexivity); cbn; lia. Qed.

(** ** C15: groups and channels of aggregates *)

Theorem C15_group : forall f c b g,
  In f [SystemCommon; ChannelVoice1; ChannelVoice2; FlexData] -> In c (types_of f) -> wf_buf U32 b ->
  accepted U32 c b -> (g < 16)%N ->
  agg_group (c, b) = Val (bits b (Seg 0 24 4)) /\
  exists b', agg_set_group (c, b) g = Val (c, b') /\ only_changes (group_places f b) b b'
    /\ accepted U32 c b' /\ agg_group (c, b') = Val g.
Proof.
  intros f c b g Hf T W A Hg.
  assert (Fx : forall m, c = CFixed m -> In m grouped_fixed -> agg_group (c, b) = Val (bits b (Seg 0 24 4)) /\
    exists b', agg_set_group (c, b) g = Val (c, b') /\ only_changes (group_places f b) b b'
      /\ accepted U32 c b' /\ agg_group (c, b') = Val g).
  { intros m -> Hm. unfold accepted in *. cbn [concrete_try_from] in *. unfold agg_group, agg_set_group. cbn [fst snd].
    destruct (group_segment m Hm) as (F1 & _ & F3). pose proof (accepts_holds32 m b (grouped_all m Hm) W A) as Hh.
    destruct (set_number U32 m "group" _ b g (grouped_all m Hm) F1 F3 Hh Hg) as (G & b' & E & C & Hh' & V & A').
    rewrite G. cbn [bind]. split; [reflexivity|]. exists b'. rewrite E. cbn [bind]. split; [reflexivity|].
    split; [|split; [now apply A'|]].
    - split; [apply C|]. intros w j H. apply C. intros s [<-|[]]. apply H. unfold group_places. apply in_map_iff. exists 0.
      split; [now rewrite Nat.mul_0_r|]. apply in_seq. split; [lia|].
      destruct (accepted_key f (CFixed m) b T A) as (N & _). destruct b; [easy|cbn; lia].
    - destruct (set_number U32 m "group" _ b' g (grouped_all m Hm) F1 F3 Hh' Hg) as (G' & _). rewrite G'. cbn [bind]. now rewrite V. }
  unfold grouped_fixed in Fx.
  destruct Hf as [<-|[<-|[<-|[<-|[]]]]]; cbn [types_of] in T; try (apply in_fixed in T as (m & -> & Hm); apply (Fx m eq_refl); rewrite !in_app_iff; tauto).
  apply in_app_iff in T as [T|T].
  - apply in_fixed in T as (m & -> & Hm). apply (Fx m eq_refl). rewrite !in_app_iff. tauto.
  - apply in_map_iff in T as (k & <- & Hk). unfold accepted in *. cbn [concrete_try_from] in *. unfold agg_group, agg_set_group. cbn [fst snd].
    destruct (flex_text_set_group k b g Hg A) as (G & b' & E & C & A' & G'). split; [exact G|]. exists b'. rewrite E. cbn [bind]. auto.
Qed.
Print Assumptions C15_group.
Example C15_group_case : accepted U32 (flex_text_named 2 1 "Lyrics") [0xD0500201; 0x41424344; 0x45464748; 0x494A4B4C; 0xD0D00201; 0x4D000000; 0; 0]%N
  /\ agg_set_group (flex_text_named 2 1 "Lyrics", [0xD0500201; 0x41424344; 0x45464748; 0x494A4B4C; 0xD0D00201; 0x4D000000; 0; 0]%N) 7
     = Val (flex_text_named 2 1 "Lyrics", [0xD7500201; 0x41424344; 0x45464748; 0x494A4B4C; 0xD7D00201; 0x4D000000; 0; 0]%N).
Proof. split; vm_compute; reflexivity. Qed.

Theorem C15_channel : forall u f c b v,
  (f = ChannelVoice1 \/ (f = ChannelVoice2 /\ u = U32)) -> In c (types_of f) -> wf_buf u b ->
  accepted u c b -> (v < 16)%N ->
  agg_channel u (c, b) = Val (bits b (channel_place u)) /\
  exists b', agg_set_channel u (c, b) v = Val (c, b') /\ only_changes [channel_place u] b b'
    /\ accepted u c b' /\ agg_channel u (c, b') = Val v.
Proof.
  intros u f c b v Hf T W A Hv.
  assert (X : exists m, c = CFixed m /\ In m (channel_voice1_messages ++ channel_voice2_messages) /\ supports u m = true).
  { destruct Hf as [-> | [-> ->]]; cbn [types_of] in T; apply in_fixed in T as (m & -> & Hm); exists m; (split; [reflexivity|]);
      rewrite in_app_iff; (split; [tauto|]); [|reflexivity].
    destruct u; [|reflexivity]. repeat (destruct Hm as [<-|Hm]; [reflexivity|]). easy. }
  destruct X as (m & -> & Hm & Hs). unfold accepted in *. cbn [concrete_try_from] in *. unfold agg_channel, agg_set_channel. cbn [fst snd].
  assert (Hall : In m all_messages) by (unfold all_messages; rewrite in_app_iff in Hm; rewrite !in_app_iff; tauto).
  destruct (channel_segment u m Hm Hs) as (F1 & F3).
  assert (Hh : holds u m b).
  { apply accepts_holds; auto. intros E. rewrite in_app_iff in Hm. clear - Hm E.
    destruct Hm as [Hm|Hm]; repeat (destruct Hm as [<-|Hm]; [discriminate E|]); easy. }
  destruct (set_number u m "channel" _ b v Hall F1 F3 Hh Hv) as (G & b' & E & C & Hh' & V & A').
  rewrite G. cbn [bind]. split; [reflexivity|]. exists b'. rewrite E. cbn [bind]. split; [reflexivity|]. split; [exact C|]. split; [now apply A'|].
  destruct (set_number u m "channel" _ b' v Hall F1 F3 Hh' Hv) as (G' & _). rewrite G'. cbn [bind]. now rewrite V.
Qed.
Print Assumptions C15_channel.
Example C15_channel_case : accepted U8 (CFixed cv1_pitch_bend) [0xE3; 0x01; 0x40]%N
  /\ agg_set_channel U8 (CFixed cv1_pitch_bend, [0xE3; 0x01; 0x40]%N) 9 = Val (CFixed cv1_pitch_bend, [0xE9; 0x01; 0x40]%N).
Proof. split; vm_compute; reflexivity. Qed.

(** Bank and status of flex data aggregates, when data() does not panic. *)
Theorem C15_bank_status : forall c b d, In c (types_of FlexData) -> accepted U32 c b -> agg_data U32 (c, b) = Val d -> d <> [] ->
  agg_bank (c, b) = Val (bits b (Seg 0 8 8)) /\ (bits b (Seg 0 8 8) <= 2)%N
  /\ agg_status (c, b) = Val (bits b (Seg 0 0 8)).
Proof.
  intros c b d T A D Hd. destruct (accepted_key FlexData c b T A) as (Hb & _ & K).
  assert (K' : right_select FlexData (hd0 b) = Some c).
  { apply K. intros ->. exfalso. cbn in T. intuition discriminate. }
  cbn [right_select] in K'. apply select_key in K'. rewrite word_octets in K'.
  pose proof (data_prefix U32 c b d D) as [(t & ->) _]. destruct d as [|x d]; [easy|]. cbn [app] in *.
  unfold agg_bank, agg_status. rewrite D. cbn [bind idx nth_error]. unfold hd0 in K'. cbn [nth] in K'.
  assert (O : forall i, octet32 x i = bits (x :: d ++ t) (Seg 0 (24 - i * 8) 8)).
  { intros i. rewrite octet_bits. unfold bits. reflexivity. }
  assert (B : (octet32 x 2 <= 2)%N).
  { assert (octet32 x 3 < 256)%N by (rewrite octet_bits; apply N.mod_lt; discriminate).
    clear - K' H. revert K' H. generalize (octet32 x 2), (octet32 x 3). intros p q K' H.
    unfold right_flex_arms in K'. cbn [map flex_texts app fk_bank fk_status] in K'.
    repeat (destruct K' as [K'|K']; [apply (f_equal fst) in K'; cbn [fst] in K'; lia|]). destruct K'. }
  assert (E : N.shiftr (N.land x 0xFF00) 8 = octet32 x 2).
  { unfold octet32. change (24 - 2 * 8)%N with 8%N. rewrite N.shiftr_land. reflexivity. }
  rewrite E. split; [|split].
  - rewrite (O 2%N) in *. change (24 - 2 * 8)%N with 8%N in *. replace (_ || _ || _)%bool with true by lia. reflexivity.
  - rewrite (O 2%N) in B. exact B.
  - rewrite (O 3%N). reflexivity.
Qed.
Print Assumptions C15_bank_status.
Example C15_bank_case : accepted U32 (flex_text_named 2 1 "Lyrics") [0xD0100201; 0x41000000; 0; 0]%N
  /\ agg_data U32 (flex_text_named 2 1 "Lyrics", [0xD0100201; 0x41000000; 0; 0]%N) = Val [0xD0100201; 0x41000000; 0; 0]%N.
Proof. split; vm_compute; reflexivity. Qed.

(** ** C10, C11: data() and rebuffering, for every message type *)

(** data() is a prefix of the buffer and does not depend on what follows it. *)
Theorem C10_data_prefix : forall u c b d, concrete_data u c b = Val d ->
  (exists t, b = d ++ t) /\ concrete_data u c d = Val d /\ forall t, concrete_data u c (d ++ t) = Val d.
Proof.
  intros u c b d H. destruct (data_prefix u c b d H) as [A B]. split; [exact A|]. split; [|exact B].
  rewrite <- (app_nil_r d) at 1. apply B.
Qed.
Print Assumptions C10_data_prefix.
Example C10_data_prefix_case : concrete_data U32 CSysex8 [0x50120001; 0; 0; 0; 0x50310000; 0; 0; 0; 7]%N
  = Val [0x50120001; 0; 0; 0; 0x50310000; 0; 0; 0]%N.
Proof. vm_compute; reflexivity. Qed.

(** Rebuffering an aggregate keeps the variant and data(). *)
Theorem C11_aggregates : forall u c b d n, concrete_data u c b = Val d ->
  (agg_rebuffer_vec (c, b) = (c, b)) /\
  (match agg_try_rebuffer_array (c, b) n with
   | Ok (c', b') => c' = c /\ List.length b' = n /\ concrete_data u c b' = Val d /\ List.length b <= n
   | Err e => n < List.length b
   end) /\
  (List.length d <= n -> exists b', agg_array_rebuffer u (c, b) n = Val (c, b') /\ List.length b' = n /\ concrete_data u c b' = Val d) /\
  (n < List.length d -> agg_array_rebuffer u (c, b) n = Panic).
Proof.
  intros u c b d n D. destruct (data_prefix u c b d D) as [(t & ->) B]. split; [reflexivity|]. split; [|split].
  - unfold agg_try_rebuffer_array, try_rebuffer_array. cbn [fst snd].
    destruct (Nat.ltb_spec n (List.length (d ++ t))); [auto|]. split; [reflexivity|]. split; [|split; [|auto]].
    + rewrite app_length, repeat_length. lia.
    + rewrite <- app_assoc. apply B.
  - intros L. unfold agg_array_rebuffer, agg_data. cbn [fst snd]. rewrite D. cbn [bind].
    replace (n <? List.length d) with false by lia. eexists. split; [reflexivity|]. split; [rewrite app_length, repeat_length; lia|]. apply B.
  - intros L. unfold agg_array_rebuffer, agg_data. cbn [fst snd]. rewrite D. cbn [bind].
    now replace (n <? List.length d) with true by lia.
Qed.
Print Assumptions C11_aggregates.

(** ** C14: conversions of aggregates *)

(** A byte-stream aggregate converts to a packet that parses as the same message with the same fields. *)
Theorem C14_aggregate_from_bytes : forall m b, In (CFixed m) byte_types -> holds U8 m b -> accepted U8 (CFixed m) b ->
  exists p, agg_from_bytes (CFixed m, b) = Val (CFixed m, p) /\ ump_try_from p = Val (Ok (CFixed m, p))
    /\ (forall f w, settable_field U32 m f w -> get U32 m p f = get U8 m b f)
    /\ forall n, agg_try_from_bytes (CFixed m, b) n =
         Val (if n <? List.length p then Err "BufferOverflow" else Ok (CFixed m, p ++ repeat 0%N (n - List.length p))).
Proof.
  intros m b T Hh A. destruct (byte_fixed m T) as [Hm Hs]. unfold accepted in A. cbn [concrete_try_from] in A.
  destruct (C14_from_bytes m b 0 Hm Hs Hh A) as (p & E & L & Ap & _ & G & _).
  exists p. unfold agg_from_bytes. cbn [fst snd]. rewrite E. cbn [bind]. split; [reflexivity|]. split; [|split; [exact G|]].
  - assert (TT : exists f, In (CFixed m) (types_of f) /\ f <> FlexData /\ f <> UmpStream).
    { destruct T as [T|T]; [discriminate|]. rewrite map_app, in_app_iff in T. destruct T; [exists SystemCommon|exists ChannelVoice1]; (split; [assumption|split; discriminate]). }
    destruct TT as (f & Tf & F1 & F2). apply ump_iff. split; [apply in_flat_map; exists f; split; [destruct f; cbn; tauto|exact Tf]|].
    split; [|split; [|split; [exact Ap|reflexivity]]].
    + intros M. apply F1. eapply types_nodup; [exact Tf|now apply misrouted_types].
    + intros X. exfalso. apply F2. eapply types_nodup; [exact Tf|]. rewrite X. cbn. tauto.
  - intros n. destruct (C14_from_bytes m b n Hm Hs Hh A) as (p' & E' & L' & _ & _ & _ & _ & Tr & _).
    assert (p' = p) by congruence. subst p'. unfold agg_try_from_bytes. cbn [fst snd]. rewrite Tr, L.
    destruct (n <? _); reflexivity.
Qed.
Print Assumptions C14_aggregate_from_bytes.

Theorem C14_aggregate_from_ump : forall m p, In (CFixed m) byte_types -> m_name m <> "system_common::SongPositionPointer" ->
  wf_buf U32 p -> accepted U32 (CFixed m) p ->
  exists b, agg_from_ump (CFixed m, p) = Val (CFixed m, b) /\ bytes_try_from b = Val (Ok (CFixed m, b))
    /\ (forall f w, settable_field U8 m f w -> get U8 m b f = get U32 m p f)
    /\ forall n, agg_try_from_ump (CFixed m, p) n =
         Val (if n <? List.length b then Err "BufferOverflow" else Ok (CFixed m, b ++ repeat 0%N (n - List.length b))).
Proof.
  intros m p T Hn W A. destruct (byte_fixed m T) as [Hm Hs]. unfold accepted in A. cbn [concrete_try_from] in A.
  pose proof (accepts_holds32 m p Hm W A) as Hh.
  destruct (C14_from_ump m p 0 Hm Hs Hn Hh A) as (b & E & L & Ab & _ & G & _).
  exists b. unfold agg_from_ump. cbn [fst snd]. rewrite E. cbn [bind]. split; [reflexivity|]. split; [|split; [exact G|]].
  - destruct (from_ump_ok m p Hm Hs Hn Hh A) as (b1 & E1 & Hc & _). assert (b1 = b) by congruence. subst b1.
    apply bytes_iff; [apply Hc|auto].
  - intros n. destruct (C14_from_ump m p n Hm Hs Hn Hh A) as (b' & E' & L' & _ & _ & _ & Tr & _).
    assert (b' = b) by congruence. subst b'. unfold agg_try_from_ump. cbn [fst snd]. rewrite Tr, L.
    destruct (n <? _); reflexivity.
Qed.
Print Assumptions C14_aggregate_from_ump.
Example C14_aggregate_case :
  holds U8 cv1_note_on [0x93; 0x40; 0x7F]%N /\ accepted U8 (CFixed cv1_note_on) [0x93; 0x40; 0x7F]%N
  /\ agg_from_bytes (CFixed cv1_note_on, [0x93; 0x40; 0x7F]%N) = Val (CFixed cv1_note_on, [0x2093407F]%N)
  /\ agg_from_ump (CFixed cv1_note_on, [0x2093407F]%N) = Val (CFixed cv1_note_on, [0x93; 0x40; 0x7F]%N).
Proof. split; [split; [repeat constructor|split; [cbn; lia|discriminate]]|]. repeat split; vm_compute; reflexivity. Qed.
