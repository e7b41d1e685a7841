(** PROPERTIES of slices that hold several messages or packets, read one after the
    other.  See properties.jsonl; vocabulary in SpecStream.v, the reading clients
    in StreamClient.v. *)
From Coq Require Import NArith ZArith List String Bool Arith Lia Zify ZifyBool ZifyNat ZifyN.
From Verif Require Import Base BitOps BitLemmas ListLemmas Values Helpers Props Message MessageTable SpecLayout SpecFixed
  Sysex SpecSysex Text Aggregate SpecAggregate AggregateLemmas AggregateMore PropertiesAggregate
  Packet SpecPacket PacketLemmas PacketMore PropertiesPacket StreamClient SpecStream StreamLemmas.
Import ListNotations.
Local Open Scope string_scope.
Local Open Scope list_scope.
Local Open Scope nat_scope.

(** ** C43: messages one behind the other *)

Lemma wf_parts u l : wf_buf u (stream_of_messages l) -> Forall (fun m => wf_buf u (snd m)) l.
Proof.
  unfold stream_of_messages. induction l as [|m l IH]; intros W; [constructor|]. cbn [map List.concat] in W.
  apply Forall_app in W as [A B]. constructor; auto.
Qed.

(** Bytes: reading gives the list [l] exactly when the slice is those messages, one behind the other.
    So nothing is lost, added, merged or split, and a slice can be read in one way only. *)
Theorem C43_bytes : forall b l, wf_buf U8 b ->
  (read_messages U8 b = Val (Ok l) <->
   b = stream_of_messages l /\ Forall (fun m => In (fst m) byte_types /\ whole U8 m) l).
Proof.
  intros b l W. split.
  - intros R. apply bytes_sound in R as [-> F]; [|exact W]. split; [reflexivity|].
    eapply Forall_impl; [|exact F]. cbn. tauto.
  - intros [-> F]. apply bytes_complete; [|apply Nat.le_refl].
    pose proof (wf_parts U8 l W) as P. rewrite Forall_forall in *. intros m Hm. specialize (F m Hm). specialize (P m Hm). tauto.
Qed.
Print Assumptions C43_bytes.

(** Reading bytes never panics. *)
Theorem C43_bytes_total : forall b, wf_buf U8 b -> exists r, read_messages U8 b = Val r.
Proof. intros b. apply bytes_loop_total. Qed.
Print Assumptions C43_bytes_total.

Example C43_bytes_case :
  read_messages U8 [0x90; 0x3C; 0x7F; 0xF0; 0x01; 0x02; 0xF7; 0xF8; 0xC2; 0x05]%N
  = Val (Ok [(CFixed cv1_note_on, [0x90; 0x3C; 0x7F]%N); (CSysex7, [0xF0; 0x01; 0x02; 0xF7]%N);
             (CFixed sys_timing_clock, [0xF8]%N); (CFixed cv1_program_change, [0xC2; 0x05]%N)])
  /\ wf_buf U8 [0x90; 0x3C; 0x7F; 0xF0; 0x01; 0x02; 0xF7; 0xF8; 0xC2; 0x05]%N.
Proof. split; [vm_compute; reflexivity|repeat constructor]. Qed.

(** Three types do not have their size of the standard (C07_sizes_refuted).  In a stream that follows
    the standard a time code swallows the first byte of the next message and a tune request too; a song
    position pointer leaves its last byte behind. *)
Theorem C43_bytes_refuted : exists e,
  read_messages U8 ([0xF1; 0x35] ++ [0xF8] ++ [0x90; 0x3C; 0x7F])%N
    = Val (Ok [(CFixed sys_time_code, [0xF1; 0x35; 0xF8]%N); (CFixed cv1_note_on, [0x90; 0x3C; 0x7F]%N)])
  /\ read_messages U8 ([0xF6] ++ [0xFC])%N = Val (Ok [(CFixed sys_tune_request, [0xF6; 0xFC]%N)])
  /\ read_messages U8 ([0xF2; 0x01; 0x02] ++ [0xF8])%N = Val (Err e).
Proof. eexists. repeat split; vm_compute; reflexivity. Qed.
Print Assumptions C43_bytes_refuted.

(** UMP, for the families whose messages are one packet: the same. *)
Theorem C43_ump : forall b l, wf_buf U32 b -> Forall (fun m => one_packet (fst m)) l ->
  (read_messages U32 b = Val (Ok l) <-> b = stream_of_messages l /\ Forall (whole U32) l).
Proof.
  intros b l W O. split.
  - intros R. apply ump_sound in R as [-> F]; [|exact W]. split; [reflexivity|].
    rewrite Forall_forall in *. intros m Hm. specialize (F m Hm). specialize (O m Hm). tauto.
  - intros [-> F]. assert (H : Forall (fun m => one_packet (fst m) /\ whole U32 m /\ wf_buf U32 (snd m)) l).
    { pose proof (wf_parts U32 l W) as P. rewrite Forall_forall in *. intros m Hm. specialize (F m Hm). specialize (P m Hm). specialize (O m Hm). tauto. }
    pose proof (ump_complete l None H ltac:(discriminate)) as C. cbn zeta in C. rewrite app_nil_r in C.
    apply C. apply Nat.le_refl.
Qed.
Print Assumptions C43_ump.

(** The last message may be of any type: system exclusive, flex data, UMP stream. *)
Theorem C43_ump_last : forall l m x, wf_buf U32 (stream_of_messages (l ++ [m])) ->
  Forall (fun m => one_packet (fst m)) l -> Forall (whole U32) (l ++ [m]) ->
  ump_try_from (snd m) = Val (Ok (fst m, x)) ->
  read_messages U32 (stream_of_messages (l ++ [m])) = Val (Ok (l ++ [m])).
Proof.
  intros l m x W O F P. pose proof (wf_parts U32 _ W) as Wp. apply Forall_app in Wp as [W1 W2]. apply Forall_app in F as [F1 F2].
  assert (H : Forall (fun m => one_packet (fst m) /\ whole U32 m /\ wf_buf U32 (snd m)) l).
  { rewrite Forall_forall in *. intros y Hy. specialize (F1 y Hy). specialize (W1 y Hy). specialize (O y Hy). tauto. }
  apply (ump_complete l (Some m) H); [|apply Nat.le_refl].
  intros y E. assert (y = m) by congruence. subst y. inversion F2; inversion W2; subst. eauto.
Qed.
Print Assumptions C43_ump_last.

(** Whatever is read, nothing is lost or added. *)
Theorem C43_ump_all : forall b l, wf_buf U32 b -> read_messages U32 b = Val (Ok l) ->
  b = stream_of_messages l /\ Forall (fun m => In (fst m) ump_types /\ snd m <> []) l.
Proof.
  intros b l W R. pose proof R as R'. apply ump_sound in R as [-> F]; [|exact W]. split; [reflexivity|].
  clear W F. unfold read_messages in R'. revert R'.
  generalize (List.length (stream_of_messages l)) as n. generalize (stream_of_messages l) as b. intros b n. revert l b. induction n as [|n IH]; intros l b R.
  - destruct b; [|discriminate]. assert (l = []) by (cbn in R; congruence). subst. constructor.
  - destruct b as [|y b]; [assert (l = []) by (cbn in R; congruence); subst; constructor|].
    cbn [read_loop] in R. destruct (ump_try_from (y :: b)) as [[[c m]|e]|] eqn:P; try discriminate R. cbn [try_bind bind fst] in R.
    apply ump_iff in P as (T & _ & _ & A & ->). unfold agg_data in R. cbn [fst snd] in R.
    destruct (concrete_data U32 c (y :: b)) as [d|] eqn:D; [|discriminate R]. cbn [bind] in R.
    destruct (read_loop U32 n _) as [[l'|e]|] eqn:R'; try discriminate R. cbn [try_bind bind] in R.
    assert (l = (c, d) :: l') by congruence. subst l. constructor; [|now apply (IH _ _ R')].
    cbn [fst snd]. split; [exact T|]. apply (data_some U32 c (y :: b)); [now left|exact D].
Qed.
Print Assumptions C43_ump_all.

Example C43_ump_case :
  read_messages U32 [0x20903C7F; 0x40904000; 0xC0000000; 0x10F80000; 0x30160102; 0x03040506; 0x30310700; 0]%N
  = Val (Ok [(CFixed cv1_note_on, [0x20903C7F]%N); (CFixed cv2_note_on, [0x40904000; 0xC0000000]%N);
             (CFixed sys_timing_clock, [0x10F80000]%N); (CSysex7, [0x30160102; 0x03040506; 0x30310700; 0]%N)])
  /\ wf_buf U32 [0x20903C7F; 0x40904000; 0xC0000000; 0x10F80000; 0x30160102; 0x03040506; 0x30310700; 0]%N.
Proof. split; [vm_compute; reflexivity|repeat constructor]. Qed.

(** Messages of the other families cannot be read when something follows them: two system exclusive
    messages, two flex data messages, two stream messages; nor a system exclusive message and a note. *)
Theorem C43_ump_refuted : exists a1 a2 b1 b2 c1 c2 d1 d2 n e1 e2 e3 e4 e5,
  Forall (fun m => whole U32 m /\ ump_try_from (snd m) = Val (Ok m)) [a1; a2; b1; b2; c1; c2; d1; d2; n]
  /\ read_messages U32 (stream_of_messages [a1; a2]) = Val (Err e1)
  /\ read_messages U32 (stream_of_messages [b1; b2]) = Val (Err e2)
  /\ read_messages U32 (stream_of_messages [c1; c2]) = Val (Err e3)
  /\ read_messages U32 (stream_of_messages [d1; d2]) = Val (Err e4)
  /\ read_messages U32 (stream_of_messages [a1; n]) = Val (Err e5)
  /\ map fst [a1; a2; b1; b2; c1; c2; d1; d2; n] =
     [CSysex7; CSysex7; CSysex8; CSysex8; CFixed flex_set_tempo; CFixed flex_set_time_signature;
      CFixed stream_start_of_clip; CFixed stream_end_of_clip; CFixed cv2_note_on].
Proof.
  exists (CSysex7, [0x30020102; 0]%N), (CSysex7, [0x30020304; 0]%N),
    (CSysex8, [0x50030001; 0x02000000; 0; 0]%N), (CSysex8, [0x50030003; 0x04000000; 0; 0]%N),
    (CFixed flex_set_tempo, [0xD0100000; 50000000; 0; 0]%N), (CFixed flex_set_time_signature, [0xD0100001; 0x04020000; 0; 0]%N),
    (CFixed stream_start_of_clip, [0xF0200000; 0; 0; 0]%N), (CFixed stream_end_of_clip, [0xF0210000; 0; 0; 0]%N),
    (CFixed cv2_note_on, [0x40983C00; 0xFFFF0000]%N).
  do 5 eexists. split; [repeat (constructor; [split; [split|]; vm_compute; reflexivity|]); constructor|].
  repeat split; vm_compute; reflexivity.
Qed.
Print Assumptions C43_ump_refuted.

(** A slice that ends within a system exclusive message makes the client panic. *)
Theorem C43_ump_panic_refuted : exists b, wf_buf U32 b /\ read_messages U32 b = Panic.
Proof. exists [0x20903C7F; 0x30160001; 0x02030405; 0x30300000]%N. split; [repeat constructor|vm_compute; reflexivity]. Qed.
Print Assumptions C43_ump_panic_refuted.

(** ** C44: packets one behind the other *)

(** Packets of all families can be read back. *)
Theorem C44_packets : forall l, Forall sound_packet l -> read_packets (stream_of_packets l) = Val (Ok l).
Proof. intros l F. apply packets_complete; [exact F|apply Nat.le_refl]. Qed.
Print Assumptions C44_packets.

(** Any slice is read without a panic: to the end, where a packet cut short is completed with zeros, or
    up to the first words that are no packet. *)
Theorem C44_any_slice : forall b,
  (exists l z, read_packets b = Val (Ok l) /\ stream_of_packets l = b ++ repeat 0%N z /\ z < 4 /\ Forall sound_packet l)
  \/ (exists e l t, read_packets b = Val (Err e) /\ b = stream_of_packets l ++ t /\ t <> [] /\ Forall sound_packet l
       /\ packet_try_from t = Val (Err e)).
Proof. intros b. apply packets_total, Nat.le_refl. Qed.
Print Assumptions C44_any_slice.

(** Messages of all families, one behind the other: reading packets gives the packets of the first
    message, then those of the second, and so on. *)
Theorem C44_messages : forall ms pss,
  Forall (fun m => In (fst m) ump_types /\ fst m <> CFixed stream_function_block_discovery /\ whole U32 m) ms ->
  Forall2 (fun m ps => all_packets m = Val ps) ms pss ->
  read_packets (stream_of_messages ms) = Val (Ok (List.concat pss)).
Proof.
  intros ms pss F F2. assert (X : stream_of_messages ms = stream_of_packets (List.concat pss) /\ Forall sound_packet (List.concat pss)).
  { induction F2 as [|[c b] ps ms pss P F2 IH]; [split; [reflexivity|constructor]|].
    inversion F as [|? ? (T & N0 & (A & D)) F']; subst. destruct (IH F') as [E S1]. cbn [fst snd] in *.
    apply in_flat_map in T as (f & _ & T).
    destruct (accepted_sound f c b b T N0 A D) as (n & Hn & S0 & Eb & M). rewrite Eb in D at 2.
    destruct (sound_packets f n c b S0 M D) as (ps' & P' & Eps & C & _). assert (X : ps' = ps) by congruence. rewrite X in Eps, C. clear X P'.
    unfold stream_of_messages, stream_of_packets in *. cbn [map List.concat snd]. rewrite map_app, concat_app, E. split.
    - f_equal. change (map snd ps) with (map packet_data ps). rewrite C. exact Eb.
    - apply Forall_app. split; [|exact S1]. rewrite Eps. apply Forall_forall. intros p Hp.
      apply in_map_iff in Hp as (i & <- & Hi). apply in_seq in Hi. destruct S0 as [L S0]. destruct (S0 i ltac:(lia)) as [S2 S3].
      exists f. cbn [fst snd]. pose proof (family_words_pos f). split; [reflexivity|]. split; [|split].
      + unfold type_field. now rewrite chunk_bits.
      + apply chunk_length. assert (family_words f * S i <= family_words f * n) by (apply Nat.mul_le_mono_l; lia). lia.
      + exact S3. }
  destruct X as [-> F']. now apply C44_packets.
Qed.
Print Assumptions C44_messages.

Example C44_case :
  let a := (CSysex7, [0x30160102; 0x03040506; 0x30310700; 0]%N) in
  let b := (CSysex7, [0x30020304; 0]%N) in
  let c := (CFixed flex_set_tempo, [0xD0100000; 50000000; 0; 0]%N) in
  Forall (fun m => In (fst m) ump_types /\ fst m <> CFixed stream_function_block_discovery /\ whole U32 m) [a; b; c]
  /\ read_packets (stream_of_messages [a; b; c])
     = Val (Ok [(PSysex7, [0x30160102; 0x03040506]%N); (PSysex7, [0x30310700; 0]%N);
                (PSysex7, [0x30020304; 0]%N); (PFlex, [0xD0100000; 50000000; 0; 0]%N)]).
Proof.
  cbv zeta. split; [|vm_compute; reflexivity].
  assert (T : In CSysex7 ump_types /\ In (CFixed flex_set_tempo) ump_types).
  { split; apply in_flat_map; [exists Sysex7|exists FlexData]; (split; [cbn; tauto|cbn; tauto]). }
  destruct T. repeat (constructor; [split; [assumption|split; [discriminate|split; vm_compute; reflexivity]]|]). constructor.
Qed.
