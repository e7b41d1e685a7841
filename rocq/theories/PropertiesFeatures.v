(** PROPERTIES of builds with some of the cargo features.  See properties.jsonl;
    the parsers of such a build are in Features.v. *)
From Coq Require Import NArith ZArith List String Bool Arith Lia Zify ZifyBool ZifyNat ZifyN.
From Verif Require Import Base BitOps BitLemmas ListLemmas Values Props PropLemmas Message MessageTable SpecLayout SpecFixed FixedLemmas
  Sysex SpecSysex Text Aggregate SpecAggregate AggregateLemmas AggregateMore PropertiesAggregate
  Packet SpecPacket PacketLemmas PacketMore PropertiesPacket Features SpecFeatures.
Import ListNotations.
Local Open Scope string_scope.
Local Open Scope list_scope.
Local Open Scope nat_scope.

Lemma offered_in on f c : In c (types_of f) -> offered on c <-> on f = true.
Proof.
  intros T. split; [|intros H; now exists f]. intros (f' & H & T'). now rewrite (types_nodup _ _ _ T T').
Qed.

Ltac arms t := repeat match goal with |- context [(t =? ?k)%N] => destruct (N.eqb_spec t k) as [->|?] end.

Lemma family_none t : t <> 0xD%N -> t <> 2%N -> t <> 4%N -> t <> 3%N -> t <> 5%N -> t <> 1%N -> t <> 0xF%N -> t <> 0%N -> ump_family t = None.
Proof.
  intros. destruct (ump_family t) as [f|] eqn:E; [|reflexivity]. apply ump_family_spec in E. destruct f; cbn in E; contradiction.
Qed.

(** ** C47 *)

(** The parser of a build is the full parser if the family of the slice is there, and refuses the slice otherwise. *)
Theorem C47_ump_parser : forall (on : features) (b : list N), b <> [] ->
  match ump_family (bits b (Seg 0 28 4)) with
  | Some f => if on f then ump_try_from_with on b = ump_try_from b
              else exists e, ump_try_from_with on b = Val (Err e)
  | None => exists e, ump_try_from_with on b = Val (Err e)
  end.
Proof.
  intros on [|x b] Hb; [congruence|]. rewrite <- nibble0. unfold ump_try_from_with, ump_try_from. unfold idx. cbn [nth_error bind].
  generalize (nibble32 x 0). intros t.
  arms t; cbn [ump_family N.eqb Pos.eqb]; rewrite ?andb_false_r, ?andb_true_r;
    try (rewrite family_none by assumption; eauto);
    match goal with |- context [if on ?f then _ = _ else _] => destruct (on f); eauto end.
Qed.
Print Assumptions C47_ump_parser.

Theorem C47_packet_parser : forall (on : features) (b : list N), b <> [] ->
  match ump_family (bits b (Seg 0 28 4)) with
  | Some f => if on f then packet_try_from_with on b = packet_try_from b
              else exists e, packet_try_from_with on b = Val (Err e)
  | None => exists e, packet_try_from_with on b = Val (Err e)
  end.
Proof.
  intros on [|x b] Hb; [congruence|]. rewrite <- nibble0. unfold packet_try_from_with, packet_try_from. unfold idx. cbn [nth_error bind kind_type].
  generalize (nibble32 x 0). intros t.
  arms t; cbn [ump_family N.eqb Pos.eqb]; rewrite ?andb_false_r, ?andb_true_r;
    try (rewrite family_none by assumption; eauto);
    match goal with |- context [if on ?f then _ = _ else _] => destruct (on f); eauto end.
Qed.
Print Assumptions C47_packet_parser.

(** What a build recognises: what the full crate does, as far as it has the type. *)
Theorem C47_ump_message : forall on b c m,
  ump_try_from_with on b = Val (Ok (c, m)) <-> ump_try_from b = Val (Ok (c, m)) /\ offered on c.
Proof.
  intros on b c m. destruct (list_eq_dec N.eq_dec b []) as [->|Hb]; [split; [discriminate|intros [H _]; discriminate]|].
  pose proof (C47_ump_parser on b Hb) as P. split.
  - intros H. destruct (ump_family _) as [f|] eqn:F; [destruct (on f) eqn:O|].
    + rewrite P in H. split; [exact H|]. apply ump_iff in H as (T & _ & _ & A & _). apply in_flat_map in T as (f' & _ & T).
      exists f'. split; [|exact T]. pose proof (accepted_family _ _ _ T A). congruence.
    + destruct P as [e P]. congruence.
    + destruct P as [e P]. congruence.
  - intros [H (f & O & T)]. pose proof H as H'. apply ump_iff in H' as (_ & _ & _ & A & _).
    rewrite (accepted_family _ _ _ T A), O in P. congruence.
Qed.
Print Assumptions C47_ump_message.

(** Turning features on never takes a message away or makes another one of it. *)
Theorem C47_more_features : forall on on' b a, (forall f, on f = true -> on' f = true) ->
  ump_try_from_with on b = Val (Ok a) -> ump_try_from_with on' b = Val (Ok a).
Proof.
  intros on on' b [c m] S H. apply C47_ump_message in H as [H (f & O & T)]. apply C47_ump_message. split; [exact H|]. exists f. auto.
Qed.
Print Assumptions C47_more_features.

Theorem C47_bytes_parser : forall (on : features) s t, (s < 256)%N ->
  match midi1_family s with
  | Some f => if on f then bytes_try_from_with on (s :: t) = bytes_try_from (s :: t)
              else exists e, bytes_try_from_with on (s :: t) = Val (Err e)
  | None => exists e, bytes_try_from_with on (s :: t) = Val (Err e)
  end.
Proof.
  intros on s t Hs. unfold bytes_try_from_with, bytes_try_from, midi1_family. unfold idx. cbn [nth_error bind].
  destruct (N.ltb_spec s 0x80).
  { replace ((0x80 <=? s) && (s <=? 0xEF))%N with false by lia. replace (s =? 0xF0)%N with false by lia.
    replace ((0xF1 <=? s) && (s <=? 0xF6) || (0xF8 <=? s) && (s <=? 0xFF))%N with false by lia. rewrite !andb_false_r. eauto. }
  destruct (N.ltb_spec s 0xF0).
  { replace ((0x80 <=? s) && (s <=? 0xEF))%N with true by lia. replace (s =? 0xF0)%N with false by lia.
    replace ((0xF1 <=? s) && (s <=? 0xF6) || (0xF8 <=? s) && (s <=? 0xFF))%N with false by lia. rewrite !andb_false_r, andb_true_r.
    destruct (on ChannelVoice1); eauto. }
  replace ((0x80 <=? s) && (s <=? 0xEF))%N with false by lia. rewrite andb_false_r. destruct (N.eqb_spec s 0xF0) as [->|].
  { rewrite andb_true_r. destruct (on Sysex7); [reflexivity|]. cbn [N.leb N.compare Pos.compare Pos.compare_cont andb orb]. rewrite andb_false_r. eauto. }
  rewrite andb_false_r. destruct (N.eqb_spec s 0xF7) as [->|].
  { cbn [N.leb N.compare Pos.compare Pos.compare_cont andb orb]. rewrite andb_false_r. eauto. }
  replace ((0xF1 <=? s) && (s <=? 0xF6) || (0xF8 <=? s) && (s <=? 0xFF))%N with true by lia. rewrite andb_true_r.
  destruct (on SystemCommon); eauto.
Qed.
Print Assumptions C47_bytes_parser.

Lemma midi1_offered s t c m f : wf_buf U8 (s :: t) -> bytes_try_from (s :: t) = Val (Ok (c, m)) -> midi1_family s = Some f -> In c (types_of f).
Proof.
  intros W H F. inversion W as [|? ? Hs Ht]; subst. cbn in Hs. unfold bytes_try_from in H. unfold idx in H. cbn [nth_error bind] in H. unfold midi1_family in F.
  destruct (N.ltb_spec s 0x80); [discriminate|]. destruct (N.ltb_spec s 0xF0).
  { injection F as <-. replace ((0x80 <=? s) && (s <=? 0xEF))%N with true in H by lia. now apply (cv1_bytes_iff _ _ _ W) in H. }
  replace ((0x80 <=? s) && (s <=? 0xEF))%N with false in H by lia. destruct (N.eqb_spec s 0xF0) as [->|].
  { injection F as <-. unfold wrap in H. destruct (concrete_try_from U8 CSysex7 _) as [[x|]|]; try discriminate. injection H as <- _. now left. }
  destruct (N.eqb_spec s 0xF7) as [->|]; [discriminate|]. injection F as <-.
  replace ((0xF1 <=? s) && (s <=? 0xF6) || (0xF8 <=? s) && (s <=? 0xFF))%N with true in H by lia. now apply (sys_bytes_iff _ _ _ W) in H.
Qed.

Theorem C47_bytes_message : forall on b c m, wf_buf U8 b ->
  bytes_try_from_with on b = Val (Ok (c, m)) <-> bytes_try_from b = Val (Ok (c, m)) /\ offered on c.
Proof.
  intros on [|s t] c m W; [split; [discriminate|intros [H _]; discriminate]|]. inversion W as [|? ? Hs _]; subst. cbn in Hs.
  pose proof (C47_bytes_parser on s t Hs) as P. pose proof (C47_bytes_parser (fun _ => true) s t Hs) as Q. split.
  - intros H. destruct (midi1_family s) as [f|] eqn:F; [destruct (on f) eqn:O|]; [|destruct P as [e P]; congruence..].
    rewrite P in H. split; [exact H|]. exists f. split; [exact O|]. eapply midi1_offered; eauto.
  - intros [H O]. destruct (midi1_family s) as [f|] eqn:F.
    + apply (offered_in on f) in O; [|eapply midi1_offered; eauto]. rewrite O in P. congruence.
    + exfalso. destruct Q as [e Q]. assert (E : bytes_try_from_with (fun _ => true) (s :: t) = bytes_try_from (s :: t)) by reflexivity. congruence.
Qed.
Print Assumptions C47_bytes_message.

(** No build panics on a slice of words or bytes. *)
Theorem C47_total : forall on,
  (forall b, wf_buf U32 b -> exists r, ump_try_from_with on b = Val r)
  /\ (forall b, exists r, packet_try_from_with on b = Val r)
  /\ (forall b, wf_buf U8 b -> exists r, bytes_try_from_with on b = Val r).
Proof.
  intros on. split; [|split].
  - intros b W. destruct (list_eq_dec N.eq_dec b []) as [->|Hb]; [eexists; reflexivity|]. pose proof (C47_ump_parser on b Hb) as P.
    destruct (ump_family _) as [f|]; [destruct (on f)|].
    + rewrite P. now apply ump_total.
    + destruct P as [e ->]. eauto.
    + destruct P as [e ->]. eauto.
  - intros b. destruct (list_eq_dec N.eq_dec b []) as [->|Hb]; [eexists; reflexivity|]. pose proof (C47_packet_parser on b Hb) as P.
    destruct (ump_family _) as [f|]; [destruct (on f)|].
    + rewrite P. apply C06_packet_total.
    + destruct P as [e ->]. eauto.
    + destruct P as [e ->]. eauto.
  - intros [|s t] W; [eexists; reflexivity|]. inversion W as [|? ? Hs _]; subst. cbn in Hs. pose proof (C47_bytes_parser on s t Hs) as P.
    destruct (midi1_family s) as [f|]; [destruct (on f)|].
    + rewrite P. now apply bytes_total.
    + destruct P as [e ->]. eauto.
    + destruct P as [e ->]. eauto.
Qed.
Print Assumptions C47_total.

Lemma collect_same on f n it : on f = true -> Forall (fun c => c <> [] /\ ump_family (bits c (Seg 0 28 4)) = Some f) it ->
  collect_packets_with on n it = collect_packets n it.
Proof.
  intros O. revert it. induction n as [|n IH]; intros it F; [reflexivity|]. cbn [collect_packets_with collect_packets]. unfold packets_next, packet_of_with, packet_of.
  destruct F as [|c it [Hc T] F]; [reflexivity|]. cbn [hd_error tl]. pose proof (C47_packet_parser on c Hc) as P. rewrite T, O in P. rewrite P.
  destruct (unwrapped (packet_try_from c)) as [p|]; [|reflexivity]. cbn [bind]. now rewrite IH.
Qed.

(** The packets of a message that a build has are read as in the full crate. *)
Theorem C47_packets : forall on f c b d, In c (types_of f) -> c <> CFixed stream_function_block_discovery -> on f = true ->
  accepted U32 c b -> concrete_data U32 c b = Val d -> all_packets_with on (c, b) = all_packets (c, b).
Proof.
  intros on f c b d T N0 O A D. destruct (accepted_sound f c b d T N0 A D) as (n & Hn & [L S0] & -> & M).
  pose proof (family_words_pos f) as Hw.
  destruct (sound_packets f n c b (conj L S0) M D) as (ps & E & -> & C & W).
  assert (It : agg_packets (c, b) = Val (map (fun i => chunk (family_words f) i b) (seq 0 n))).
  { unfold agg_packets, agg_data. cbn [fst snd]. rewrite D. cbn [bind]. rewrite M. f_equal. rewrite chunks_exact_spec by exact Hw.
    rewrite firstn_length, Nat.min_l by exact L. rewrite Nat.mul_comm, Nat.div_mul by lia. apply map_ext_in. intros i Hi.
    apply in_seq in Hi. rewrite Nat.mul_comm. apply chunk_firstn. lia. }
  unfold all_packets_with, all_packets. rewrite It. cbn [bind]. apply (collect_same on f _ _ O). apply Forall_forall. intros x Hx.
  apply in_map_iff in Hx as (i & <- & Hi). apply in_seq in Hi. destruct (S0 i ltac:(lia)) as [S1 S2]. split.
  - intros X. assert (Len : List.length (chunk (family_words f) i b) = family_words f).
    { apply chunk_length. assert (family_words f * S i <= family_words f * n) by (apply Nat.mul_le_mono_l; lia). lia. }
    rewrite X in Len. cbn [List.length] in Len. lia.
  - now rewrite chunk_bits.
Qed.
Print Assumptions C47_packets.

(** The default build recognises channel voice 2 messages, and refuses a system exclusive message. *)
Definition default_features : features := fun f => match f with ChannelVoice2 => true | _ => false end.
Example C47_case :
  ump_try_from_with default_features [0x48985E03; 0x6A14E98A]%N = Val (Ok (CFixed cv2_note_on, [0x48985E03; 0x6A14E98A]%N))
  /\ ump_try_from_with default_features [0x30160001; 0x02030405; 0x30300000; 0]%N = Val (Err "Couldn't interpret ump message type")
  /\ bytes_try_from_with default_features [0x90; 1; 2]%N = Val (Err "Couldn't interpret bytes message type")
  /\ packet_try_from_with default_features [0x30160001; 0x02030405]%N = Val (Err "Incorrect UMP message type").
Proof. repeat split; vm_compute; reflexivity. Qed.
