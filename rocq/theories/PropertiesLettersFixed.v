(** C62 on arrays: messages written in fixed-size buffers, with room to spare, arrive as they were
    written.  The client programs are in LettersFixed.v, the vocabulary in SpecLettersFixed.v. *)
From Coq Require Import NArith List String Bool Arith Lia ZifyBool ZifyNat ZifyN.
From Verif Require Import Base BitOps BitLemmas ListLemmas Values Helpers Props PropLemmas Message MessageTable SpecLayout SpecFixed
  MessageLemmas FixedLemmas FixedProofs PropertiesFixed Sysex Splice SpecSysex SpecEdits SysexClient SysexBridge SysexMore SysexInit SysexHistory
  PropertiesSysex Text SpecText TextClient TextUtf8 TextLemmas TextFlexMore TextStreamMore TextFresh TextHistory PropertiesText
  Aggregate SpecAggregate AggregateLemmas AggregateMore PropertiesAggregate
  Packet SpecPacket PacketLemmas PacketMore PacketRead PropertiesPacket StreamClient SpecStream StreamLemmas PropertiesStream
  Receiver SpecReceiver ReceiverLemmas PropertiesReceiver SpecCopies PropertiesGateway Letters SpecLetters PropertiesLetters
  LettersFixed SpecLettersFixed.
Import ListNotations.
Local Open Scope nat_scope.

(** ** One message *)

Lemma packets_of_data c b d : concrete_data U32 c b = Val d -> concrete_data U32 c d = Val d -> all_packets (c, b) = all_packets (c, d).
Proof. intros E F. unfold all_packets, agg_packets, agg_data. cbn [fst snd]. now rewrite E, F. Qed.

(** The message is in the front of the array, it can be sent, and it answers as it was written. *)
Theorem C62_written_in : forall n l, proper_letter_in n l -> exists c b d,
  written_in n l = Val (c, b) /\ List.length b = n /\ concrete_data U32 c b = Val d /\ (exists rest, b = d ++ rest)
  /\ sendable (c, d) /\ as_written_in n l (c, d).
Proof.
  intros n [m h|fm es|K h|K h] P; cbn [proper_letter_in written_in as_written_in] in *.
  - destruct P as (Hm & Hn & Hl & Hu).
    assert (Hz : SpecFixed.sized U32 m).
    { apply (C07_sizes U32 m Hm eq_refl). cbn. intuition (try discriminate). congruence. }
    assert (Hu' : min_size U32 m <= n) by (unfold SpecFixed.sized in Hz; lia).
    destruct (construct_array U32 m n Hm eq_refl Hn Hu') as (z & b0 & Ez & Fz & E0 & _ & L0 & H0 & D0 & _).
    destruct (run_sets_ok U32 m h Hm Hl b0 H0) as (b & Eb & Hb & Lb & _ & G & _).
    assert (M0 : SpecFixed.meaningful U32 m b0).
    { intros f w Hin. rewrite data_ok in D0 by lia. rewrite <- (firstn_decode U32 m f w b0 (min_size U32 m)) by (auto; rewrite sized_room; auto).
      assert (Z : firstn (min_size U32 m) b0 = z) by congruence. rewrite Z. destruct Fz as (_ & _ & _ & X). now rewrite (X f w Hin). }
    pose proof (run_sets_meaningful U32 m b0 h b Hm Hl H0 Eb M0) as M1.
    set (d := firstn (min_size U32 m) b).
    assert (Ld : List.length d = min_size U32 m) by (unfold d; rewrite firstn_length; lia).
    assert (Wd : wf_buf U32 d) by (apply wf_firstn, Hb).
    assert (Ad : accepts U32 m d).
    { apply accepts_one; auto; [unfold SpecFixed.sized in Hz; lia|].
      intros f w Hin. unfold d. rewrite (firstn_decode U32 m f) by (auto; rewrite sized_room; auto). now apply (M1 f). }
    exists (CFixed m), b, d. rewrite E0. cbn [bind]. rewrite Eb. cbn [bind]. split; [reflexivity|]. split; [lia|].
    split; [cbn [concrete_data]; apply data_ok; lia|]. split; [eexists; symmetry; apply firstn_skipn|]. split.
    + split; [now apply fixed_ump|]. cbn [fst snd]. split; [cbn; intuition discriminate|].
      split; [intros X; injection X as ->; now apply Hn|]. split; cbn [fst snd]; [exact Ad|].
      cbn [concrete_data]. rewrite data_ok by lia. f_equal. rewrite <- Ld. apply firstn_all.
    + cbn [fst snd]. split; [reflexivity|]. split; [unfold SpecFixed.sized in Hz; lia|]. intros f w Hf.
      rewrite (get_settable U32 m d f w) by (auto; apply sized_holds; auto; lia).
      unfold d. rewrite (firstn_decode U32 m f) by (first [exact Hm|apply Hf|rewrite sized_room; auto]).
      rewrite (G f w Hf). destruct (last_set f h); [reflexivity|].
      rewrite data_ok in D0 by lia. rewrite <- (firstn_decode U32 m f w b0 (min_size U32 m)) by (first [exact Hm|apply Hf|rewrite sized_room; auto]).
      assert (Z : firstn (min_size U32 m) b0 = z) by congruence. rewrite Z. destruct Fz as (_ & _ & _ & X). now rewrite (X f w (proj1 Hf)).
  - destruct P as (Hn & Lg). destruct (C22_fixed_histories fm n es Hn Lg) as (b0 & b & E0 & E & L & _ & d & D & A & M).
    destruct (message_reads _ _ _ _ _ M) as (D' & P & Z & G).
    exists (match fm with SevenBit => CSysex7 | EightBit => CSysex8 end), b, d.
    rewrite E0. cbn [unwrapped bind]. rewrite E. cbn [bind fst]. split; [reflexivity|]. split; [exact L|].
    split; [destruct fm; exact D|]. split.
    2:{ split; [|cbn [fst snd]; auto]. split; [destruct fm; cbn; tauto|]. cbn [fst snd]. split; [destruct fm; cbn; intuition discriminate|].
        split; [destruct fm; discriminate|].
        split; cbn [fst snd]; destruct fm; cbn [fmt_for] in *; unfold accepted; cbn [concrete_try_from concrete_data]; [now rewrite A|now rewrite A|exact D'|exact D']. }
    unfold sx_data in D. destruct (sx_size (fmt_for fm) b) as [k|]; [|discriminate D]. cbn [bind] in D. apply prefix_ok in D as [_ ->].
    eexists. symmetry. apply firstn_skipn.
  - destruct P as (HK & Hr & Hh & Hn & Hs & Hz & Hf). pose proof (flex_try_new_fresh K n (flex_in K HK)) as T.
    replace (n <? 4) with false in T by lia. destruct T as (b0 & E0 & L0 & S0).
    destruct (flex_try_history _ _ h n flex_fresh b0 Hh S0 L0) as (b & E & S1 & L1).
    unfold flex_written_in in *. set (s := fold_left _ h flex_fresh) in *. unfold fstate in S1.
    destruct (fholds_data_parse K _ _ _ _ S1) as (d & D & W & A). destruct (fholds_data S1) as [D' _].
    assert (X : firstn (4 * text_packets 12 (List.length (fs_text s))) b = d) by congruence.
    pose proof (fholds_trim S1) as S2. rewrite X in S2. pose proof (fh_room S1) as R.
    assert (Ld : List.length d = 4 * text_packets 12 (List.length (fs_text s))) by (rewrite <- X, firstn_length; lia).
    rewrite (kept_all _ Hf) in A. rewrite (without_nul_id _ Hz) in A. specialize (A Hs).
    exists (CFlexText K), b, d. rewrite E0. cbn [unwrapped bind]. rewrite E. cbn [bind fst]. split; [reflexivity|]. split; [exact L1|].
    split; [exact D|]. split; [eexists; rewrite <- X; symmetry; apply firstn_skipn|]. split.
    + split; [apply in_flat_map; exists FlexData; split; [cbn; tauto|apply in_app_iff; right; now apply (in_map CFlexText)]|].
      cbn [fst snd]. split; [exact Hr|]. split; [discriminate|]. split; [exact A|].
      cbn [concrete_data fst snd]. destruct (fholds_data S2) as [D2 _]. rewrite D2. f_equal. apply firstn_all2. lia.
    + cbn [fst snd]. split; [reflexivity|]. split; [|split; [apply (fholds_group S2)|apply (fholds_channel S2)]].
      pose proof (fholds_bytes S2) as B. rewrite kept_firstn in B by (rewrite Ld, Nat.mul_comm, Nat.div_mul; lia).
      rewrite (kept_all _ Hf), (without_nul_id _ Hz) in B. unfold flex_text, text_string. unfold flex_text_bytes in B. rewrite B. cbn [bind].
      apply utf8_spec in Hs. now rewrite Hs.
  - destruct P as (HK & Hh & Hn & Hs & Hz & Hb). pose proof (stream_try_new_fresh K n (stream_in K HK)) as T.
    replace (n <? 4) with false in T by lia. destruct T as (b0 & E0 & L0 & S0).
    destruct (stream_try_history K h n stream_fresh b0 Hh S0 L0) as (b & E & S1 & L1).
    unfold stream_written_in in *. set (s := fold_left _ h stream_fresh) in *.
    destruct (sholds_data_parse K s b (proj2 (stream_in K HK)) S1) as (d & D & R & W & A & _). unfold sstate in S1.
    destruct (sholds_data S1) as [D' _].
    assert (X : firstn (4 * text_packets (14 - sk_off K) (List.length (ss_name s))) b = d) by congruence.
    pose proof (sholds_trim S1) as S2. rewrite X in S2. pose proof (sh_room S1) as Q.
    assert (Ld : List.length d = 4 * text_packets (14 - sk_off K) (List.length (ss_name s))) by (rewrite <- X, firstn_length; lia).
    specialize (A Hs Hb).
    exists (CStreamText K), b, d. rewrite E0. cbn [unwrapped bind]. rewrite E. cbn [bind fst]. split; [reflexivity|]. split; [exact L1|].
    split; [exact D|]. split; [exact R|]. split.
    + split; [apply in_flat_map; exists UmpStream; split; [cbn; tauto|apply in_app_iff; right; now apply (in_map CStreamText)]|].
      cbn [fst snd]. split; [cbn; intuition discriminate|]. split; [discriminate|]. split; [exact A|].
      cbn [concrete_data fst snd]. destruct (sholds_data S2) as [D2 _]. rewrite D2. f_equal. apply firstn_all2. lia.
    + cbn [fst snd]. split; [reflexivity|]. split.
      * pose proof (sholds_bytes S2) as B. rewrite (without_nul_id _ Hz) in B. unfold stream_text, text_string. rewrite B. cbn [bind].
        apply utf8_spec in Hs. now rewrite Hs.
      * intros O. rewrite (sholds_block S2 O). destruct (Nat.ltb_spec 0 (text_packets (14 - sk_off K) (List.length (ss_name s)))); [reflexivity|].
        destruct (text_packets_room (14 - sk_off K) (List.length (ss_name s)) ltac:(lia)) as (_ & ? & _). lia.
Qed.
Print Assumptions C62_written_in.

(** ** Many messages *)

Lemma sent_in_all ls : Forall (fun nl => proper_letter_in (fst nl) (snd nl)) ls -> exists ms ps,
  Forall2 (fun nl a => as_written_in (fst nl) (snd nl) a) ls ms /\ Forall sendable ms
  /\ sent_in ls = Val ps /\ packets_of ms ps /\ Forall sound_packet ps.
Proof.
  induction 1 as [|[n l] ls P _ (ms & ps & F & S0 & E & (pss & F2 & ->) & K)].
  - exists [], []. repeat split; try constructor. exists []. split; [constructor|reflexivity].
  - destruct (C62_written_in n l P) as (c & b & d & Ea & _ & Da & _ & Sa & Wa). pose proof Sa as (T & M & N0 & W). cbn [fst snd] in *.
    apply in_flat_map in T as (f & _ & Tf). destruct (sent_packets f c d Tf N0 W) as (n0 & _ & Pq & _).
    destruct (packets_sound f c d _ Tf N0 W Pq) as [Sq _].
    eexists ((c, d) :: ms), _. split; [constructor; auto|]. split; [constructor; auto|].
    split; [cbn [sent_in]; rewrite Ea; cbn [bind]; rewrite (packets_of_data c b d Da (proj2 W)), Pq; cbn [bind]; rewrite E; reflexivity|].
    split; [|apply Forall_app; auto]. eexists (_ :: pss). split; [constructor; [exact Pq|exact F2]|reflexivity].
Qed.

(** Arrays at the sender, each with its own length: the receiver gets every message as written. *)
Theorem C62_arrays : forall ls, Forall (fun nl => proper_letter_in (fst nl) (snd nl)) ls ->
  exists ms, correspondence_in ls = Val (Ok (map Ok ms)) /\ Forall2 (fun nl a => as_written_in (fst nl) (snd nl) a) ls ms.
Proof.
  intros ls H. destruct (sent_in_all ls H) as (ms & ps & F & S0 & E & P & K). exists ms. split; [|exact F].
  unfold correspondence_in. rewrite E. cbn [bind]. now apply received_all.
Qed.
Print Assumptions C62_arrays.

(** A note in an array of five words, a lyric of fourteen bytes in ten words, for which forty bytes were refused, and a dump
    in five words, which hold twelve bytes: appending to a full message is refused and empties it, the other edits go through. *)
Example C62_arrays_case :
  let word := map N.of_nat (seq 65 14) in
  let ls := [(5, Fields cv2_note_on [("note_number", VNum 60); ("velocity", VNum 0x1234)]%string%N);
             (10, FlexText {| fk_name := "Lyrics"; fk_bank := 2; fk_status := 1 |} [FText word; FText (map N.of_nat (seq 65 40)); FGroup 4]);
             (5, Exclusive SevenBit [SetPayload (exactly (up 12)); AppendPayload (exactly (up 3)); AppendPayload (exactly (up 11)); AppendByte 12; SetByte 99 11; SetGroup 7])] in
  Forall (fun nl => proper_letter_in (fst nl) (snd nl)) ls
  /\ exists a b c, correspondence_in ls = Val (Ok [Ok a; Ok b; Ok c])
     /\ get U32 cv2_note_on (snd a) "velocity" = Val (VNum 0x1234)
     /\ flex_text (snd b) = Val word /\ Text.flex_group (snd b) = Val 4%N
     /\ payload_list fmt7 (snd c) = Val (up 11 ++ [99])%N.
Proof.
  cbv zeta. split.
  - constructor; [|constructor; [|constructor; [|constructor]]]; cbn [fst snd].
    + split; [unfold all_messages; rewrite !in_app_iff; cbn; auto 20|]. split; [discriminate|].
      split; [|cbn; lia].
      repeat constructor; cbn [fst snd]; try (eexists; split; [cbn; auto 20|reflexivity]); eexists; repeat split; reflexivity.
    + split; [cbn; auto 20|]. split; [cbn; intuition discriminate|].
      split; [repeat constructor|]. split; [lia|].
      cbv zeta. split; [apply utf8_spec; reflexivity|]. split; [repeat constructor; discriminate|]. right. discriminate.
    + cbn. repeat split; try lia; repeat constructor.
  - do 3 eexists. split; [vm_compute; reflexivity|]. repeat split; vm_compute; reflexivity.
Qed.
