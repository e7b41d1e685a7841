(** PROPERTIES of sending MIDI 1.0 byte streams over UMP.  See properties.jsonl;
    the clients are in Gateway.v, vocabulary in SpecGateway.v and SpecReceiver.v. *)
From Coq Require Import NArith ZArith List String Bool Arith Lia Zify ZifyBool ZifyNat ZifyN.
From Verif Require Import Base BitOps BitLemmas ListLemmas Values Helpers Props PropLemmas Message MessageTable SpecLayout SpecFixed
  FixedLemmas FixedProofs ConvertLemmas ConvertProofs PropertiesFixed PropertiesConvert Sysex Splice SpecSysex SpecEdits SysexClient SysexBridge SysexMore SysexInit SysexHistory SysexConvert
  PropertiesSysex Text Aggregate SpecAggregate AggregateLemmas AggregateMore PropertiesAggregate
  Packet SpecPacket PacketLemmas PacketMore PacketRead PropertiesPacket StreamClient SpecStream StreamLemmas PropertiesStream Receiver SpecReceiver ReceiverLemmas PropertiesReceiver
  SpecCopies Gateway SpecGateway.
Import ListNotations.
Local Open Scope string_scope.
Local Open Scope list_scope.
Local Open Scope nat_scope.

(** What became of one message on its way. *)
Definition carried (g : N) (m u : aggregate) : Prop :=
  to_ump g m = Val u /\ sendable u /\ to_bytes u = Val m
  /\ exists q, all_packets u = Val q /\ Forall sound_packet q /\ Forall (fun p => packet_group p = Val g) q.

Lemma byte_grouped m : In (CFixed m) byte_types -> In m grouped_fixed /\ exists f, (f = SystemCommon \/ f = ChannelVoice1) /\ In (CFixed m) (types_of f).
Proof.
  unfold byte_types. intros [H|H]; [discriminate|]. apply in_map_iff in H as (x & E & H). injection E as ->.
  unfold grouped_fixed. rewrite !in_app_iff in *. split; [tauto|].
  destruct H as [H|H]; [exists SystemCommon|exists ChannelVoice1]; (split; [tauto|]); cbn [types_of]; apply in_map; exact H.
Qed.

Lemma packets_sound f c b q : In c (types_of f) -> c <> CFixed stream_function_block_discovery -> whole U32 (c, b) ->
  all_packets (c, b) = Val q ->
  Forall sound_packet q /\ exists n, family_words f * n <= List.length b /\ q = map (fun i => (variant f, chunk (family_words f) i b)) (seq 0 n).
Proof.
  intros T N0 (A & D) P. cbn [fst snd] in *. destruct (accepted_sound f c b b T N0 A D) as (n & Hn & S0 & Eb & M). rewrite Eb in D at 2.
  destruct (sound_packets f n c b S0 M D) as (ps' & P' & Eps & C & _). assert (X : ps' = q) by congruence. rewrite X in Eps. clear X P'.
  split; [|exists n; split; [apply S0|exact Eps]]. rewrite Eps. apply Forall_forall. intros p Hp.
  apply in_map_iff in Hp as (i & <- & Hi). apply in_seq in Hi. destruct S0 as [L S0]. destruct (S0 i ltac:(lia)) as [S2 S3].
  exists f. cbn [fst snd]. pose proof (family_words_pos f). split; [reflexivity|]. split; [|split].
  - unfold type_field. now rewrite chunk_bits.
  - apply chunk_length. assert (family_words f * S i <= family_words f * n) by (apply Nat.mul_le_mono_l; lia). lia.
  - exact S3.
Qed.

Lemma of_option_inj {A} (x y : option A) : of_option x = of_option y -> x = y.
Proof. destruct x, y; cbn; congruence. Qed.

Lemma no_byte_group : forallb (fun m => forallb (fun fw => negb (String.eqb (fst fw) "group" && settable (snd fw))) (layout U8 (m_name m)))
  (system_common_messages ++ channel_voice1_messages) = true.
Proof. vm_compute. reflexivity. Qed.

Lemma fixed_carried g m b : midi1 (CFixed m, b) -> (g < 16)%N -> exists p, carried g (CFixed m, b) (CFixed m, p).
Proof.
  intros (T & W & [A D] & Hne & R) Hg. cbn [fst snd] in *. destruct (byte_fixed m T) as [Hm Hs]. destruct (byte_grouped m T) as (Gr & f & Hf & Tf).
  unfold accepted in A. cbn [concrete_try_from concrete_data] in *. fold (accepts U8 m b) in A.
  assert (Hh : holds U8 m b) by (apply accepts_holds; auto; intros E; contradiction).
  destruct (ConvertProofs.from_bytes_ok m b Hm Hs Hh A) as (p & E & Hc & El). pose proof Hc as (Hp & _ & Hacc & _ & _ & Hd).
  destruct (group_segment m Gr) as (F1 & St & F3).
  destruct (set_number U32 m "group" _ p g Hm F1 F3 Hp Hg) as (_ & p' & E2 & Ch & Hp' & V & A2). specialize (A2 Hacc).
  destruct (ConvertProofs.from_ump_ok m p' Hm Hs Hne Hp' A2) as (b' & E' & Hc' & El').
  assert (Eb : b' = b).
  { pose proof Hh as (Wb & Lb & _). rewrite data_ok in D by exact Lb. injection D as D. rewrite <- D.
    rewrite <- (firstn_all b'), El'. apply (determined U8 m); auto.
    - now apply Hc'.
    - eapply converted_reserved; eauto.
    - now apply Hc'.
    - intros f0 w Hin. destruct (settable w) eqn:Hset.
      + assert (Hf8 : settable_field U8 m f0 w) by (split; auto).
        destruct (settable_both m f0 w Hm Hs Hf8) as (x & Hx).
        destruct Hc' as (_ & _ & _ & _ & _ & H1). rewrite (H1 f0 w x Hf8 (proj1 Hx)).
        assert (Hg0 : f0 <> "group").
        { intros ->. pose proof no_byte_group as Z. rewrite forallb_forall in Z. specialize (Z m).
          assert (Hin' : In m (system_common_messages ++ channel_voice1_messages)).
          { destruct T as [T|T]; [discriminate|]. apply in_map_iff in T as (y & Ey & T). injection Ey as ->. exact T. }
          specialize (Z Hin'). rewrite forallb_forall in Z. specialize (Z _ Hin). cbn [fst snd] in Z. rewrite Hset in Z. discriminate. }
        destruct (C02_other_fields_unchanged U32 m "group" _ p (VNum g) p' Hm F1 Hp ltac:(now apply storable_u4) E2) as [Ot _].
        specialize (Ot f0 Hg0). rewrite !(get_settable U32 m _ f0 x) in Ot by auto. rewrite (of_option_inj _ _ Ot). exact (Hd f0 x w Hx Hin).
      + destruct Hc' as (_ & _ & _ & Hm' & _).
        apply (constant_agree U8 m f0 w b' b); auto. apply accepts_bare in A; [tauto|auto..|apply (plain_message U8 m Hm Hs)]. }
  subst b'. exists p'.
  assert (Wh : whole U32 (CFixed m, p')).
  { split; [exact A2|]. cbn [fst snd concrete_data]. pose proof Hp' as (_ & L' & _). rewrite data_ok by exact L'. f_equal.
    destruct Ch as [Lc _]. rewrite <- El, <- Lc. apply firstn_all. }
  assert (N0 : CFixed m <> CFixed stream_function_block_discovery).
  { intros X. injection X as ->. cbn in Hs. discriminate. }
  split; [|split; [|split]].
  - unfold to_ump, agg_from_bytes, agg_set_group. cbn [fst snd]. rewrite E. cbn [bind fst snd]. rewrite E2. reflexivity.
  - split; [|split; [|split; [exact N0|exact Wh]]]; cbn [fst].
    + apply in_flat_map. exists f. split; [destruct f; cbn; tauto|exact Tf].
    + intros X. cbn in X. intuition discriminate.
  - unfold to_bytes, agg_from_ump. cbn [fst snd]. rewrite E'. reflexivity.
  - destruct (sent_packets f (CFixed m) p' Tf N0 Wh) as (n & Hn & P & _).
    destruct (packets_sound f _ _ _ Tf N0 Wh P) as (Sp & k & Lk & Eq). eexists. split; [exact P|]. split; [exact Sp|].
    rewrite Eq. apply Forall_forall. intros x Hx. apply in_map_iff in Hx as (i & <- & Hi). apply in_seq in Hi.
    assert (L1 : List.length p' = 1).
    { destruct Ch as [Lc _]. rewrite Lc, El. clear - Gr T. destruct T as [T|T]; [discriminate|]. apply in_map_iff in T as (y & Ey & T). injection Ey as ->.
      clear Gr. repeat (destruct T as [<-|T]; [reflexivity|]). destruct T. }
    assert (Fw : family_words f = 1) by (destruct Hf as [-> | ->]; reflexivity). rewrite Fw in *. assert (i = 0) by lia. subst i.
    unfold packet_group. cbn [snd]. rewrite idx0. 2:{ intros X. apply (f_equal (@List.length N)) in X. rewrite chunk_length in X by lia. discriminate. }
    cbn [bind]. f_equal. rewrite nibble32_bits. rewrite chunk_bits by lia. exact V.
Qed.

Lemma sysex_carried g b : midi1 (CSysex7, b) -> (g < 16)%N -> exists p, carried g (CSysex7, b) (CSysex7, p).
Proof.
  intros (_ & _ & _ & (l & Hl & E)) Hg. cbn [fst snd] in *. subst b.
  destruct (SysexConvert.from_bytes_ok l [] Hl) as (b & E1 & M & _). rewrite app_nil_r in E1.
  destruct (edit_step SevenBit (SetGroup g) b 0%N (Some 0%N) l M ltac:(now right) Hg) as (b' & E2 & M' & _).
  cbn [apply_edit fmt_for new_group new_payload] in E2, M'. exists b'.
  assert (M0 : SpecSysex.message SevenBit g None l b') by (eapply seven_message; exact M').
  destruct (message_whole SevenBit g 0%N l b' M0) as [Wh _]. cbn [sysex_of] in Wh.
  pose proof M' as (k & C & _). destruct (C16_sysex _ _ _ _ _ _ C) as (ps & P & _ & _ & _ & Hd). cbn [sysex_type] in P.
  split; [|split; [|split]].
  - unfold to_ump. cbn [fst snd]. rewrite E1. cbn [bind]. unfold agg_set_group. cbn [fst snd]. now rewrite E2.
  - split; [|split; [|split; [discriminate|exact Wh]]]; cbn [fst].
    + apply in_flat_map. exists Sysex7. cbn. tauto.
    + cbn. intuition discriminate.
  - unfold to_bytes. cbn [fst snd]. rewrite (SysexConvert.from_ump_ok _ _ _ _ _ C). reflexivity.
  - exists ps. split; [exact P|]. split; [apply (packets_sound Sysex7 CSysex7 b' ps); [cbn; tauto|discriminate|exact Wh|exact P]|].
    apply Forall_forall. intros x Hx. apply In_nth_error in Hx as (i & Hi). apply (Hd i x Hi).
Qed.

Lemma all_carried g m : midi1 m -> (g < 16)%N -> exists u, carried g m u.
Proof.
  destruct m as [c b]. intros M Hg. pose proof M as (T & _). cbn [fst] in T.
  destruct T as [<-|T]; [destruct (sysex_carried g b M Hg); eauto|].
  apply in_map_iff in T as (m & <- & _). destruct (fixed_carried g m b M Hg); eauto.
Qed.

Lemma send_ok g ms : Forall midi1 ms -> (g < 16)%N ->
  exists us ps, send g ms = Val ps /\ Forall2 (carried g) ms us /\ packets_of us ps /\ Forall sound_packet ps /\ Forall (fun p => packet_group p = Val g) ps.
Proof.
  intros F Hg. induction F as [|m ms M F IH].
  - exists [], []. split; [reflexivity|]. split; [constructor|]. split; [exists []; split; [constructor|reflexivity]|]. split; constructor.
  - destruct IH as (us & ps & E & C & (pss & P & ->) & S0 & G). destruct (all_carried g m M Hg) as (u & Cu). pose proof Cu as (E1 & _ & _ & q & Q & S1 & G1).
    exists (u :: us), (q ++ List.concat pss). split; [cbn [send]; rewrite E1; cbn [bind]; rewrite Q; cbn [bind]; now rewrite E|].
    split; [now constructor|]. split; [exists (q :: pss); split; [now constructor|reflexivity]|]. split; apply Forall_app; auto.
Qed.

Lemma parsed_cable ms : Forall midi1 ms -> read_messages U8 (stream_of_messages ms) = Val (Ok ms).
Proof.
  intros F. apply C43_bytes.
  - unfold stream_of_messages. apply Forall_concat, Forall_map. eapply Forall_impl; [|exact F]. intros m (_ & W & _). exact W.
  - split; [reflexivity|]. eapply Forall_impl; [|exact F]. intros m (T & _ & Wh & _). auto.
Qed.

(** Every stream of MIDI 1.0 messages can be sent, in every group. *)
Theorem C50_sent : forall g ms, Forall midi1 ms -> (g < 16)%N ->
  exists q, cable_in g (stream_of_messages ms) = Val (Ok q) /\ Forall sound_packet q /\ Forall (fun p => packet_group p = Val g) q.
Proof.
  intros g ms F Hg. destruct (send_ok g ms F Hg) as (us & ps & E & _ & _ & S0 & G). exists ps. split; [|auto].
  unfold cable_in. rewrite (parsed_cable ms F). cbn [try_bind bind]. now rewrite E.
Qed.
Print Assumptions C50_sent.

Lemma out_ok g ms us : Forall2 (carried g) ms us -> Forall (whole U8) ms -> forall out,
  map snd (filter (fun e => fst e =? g)%N out) = map Ok us -> cable_out g out = Val (Ok (stream_of_messages ms)).
Proof.
  intros F W out. revert ms us F W. induction out as [|[k r] out IH]; intros ms us F W E.
  - destruct us; [|discriminate]. inversion F; subst. reflexivity.
  - cbn [filter fst cable_out] in *. destruct (N.eqb_spec k g) as [->|D]; [|eauto].
    cbn [map snd] in E. destruct us as [|u us]; [discriminate|]. inversion F as [|m ? ms' ? Cu F']; subst. inversion W as [|? ? [_ Wm] W']; subst.
    cbn [map] in E. injection E as Er Et.
    subst r. destruct Cu as (_ & _ & B & _). cbn [try_bind bind]. rewrite B. cbn [bind]. unfold agg_data. rewrite Wm. cbn [bind].
    rewrite (IH ms' us F' W' Et). reflexivity.
Qed.

(** Any number of streams in different groups, their packets in any order on one connection: what
    comes out for a group is the byte stream that went in. *)
Theorem C50_cables : forall cables pss ps,
  Forall (fun c => fst c < 16)%N cables -> NoDup (map fst cables) -> Forall (fun c => Forall midi1 (snd c)) cables ->
  Forall2 (fun c q => cable_in (fst c) (stream_of_messages (snd c)) = Val (Ok q)) cables pss ->
  interleaved pss ps ->
  exists st out, link_out (stream_of_packets ps) = Val (Ok (st, out))
    /\ (forall k, so_far st k = [])
    /\ (forall c, In c cables -> cable_out (fst c) out = Val (Ok (stream_of_messages (snd c))))
    /\ (forall g, ~ In g (map fst cables) -> cable_out g out = Val (Ok [])).
Proof.
  intros cables pss ps G Nd M F I.
  set (filed := fun p => match packet_group p with Val k => k | Panic => 0%N end).
  assert (X : exists uss, Forall2 (fun c us => Forall2 (carried (fst c)) (snd c) us) cables uss /\ Forall2 packets_of uss pss
    /\ Forall2 (fun k l => Forall (fun x => packet_group x = Val k) l) (map fst cables) pss /\ Forall (Forall sound_packet) pss).
  { clear - G M F. induction F as [|[g ms] q cables pss E F IH]; [exists []; repeat split; constructor|].
    inversion G as [|? ? Hg G']; subst. inversion M as [|? ? Hm M']; subst. cbn [fst snd] in *. destruct (IH G' M') as (uss & A1 & A2 & A3 & A4).
    destruct (send_ok g ms Hm Hg) as (us & ps & E1 & C & P & S0 & Gp). unfold cable_in in E. rewrite (parsed_cable ms Hm) in E. cbn [try_bind bind] in E.
    rewrite E1 in E. cbn [bind] in E. injection E as ->. exists (us :: uss). repeat split; constructor; auto. }
  destruct X as (uss & C & P & K & S0).
  assert (FK : Forall2 (fun k l => Forall (fun x => filed x = k) l) (map fst cables) pss).
  { clear - K. induction K as [|k l ks ls H K IH]; constructor; auto. eapply Forall_impl; [|exact H]. intros x E. unfold filed. now rewrite E. }
  assert (S1 : Forall sound_packet ps).
  { apply Forall_forall. intros x Hx. destruct (in_interleaved _ _ _ I Hx) as (q & Hq & Hi). rewrite Forall_forall in S0. specialize (S0 q Hq).
    rewrite Forall_forall in S0. auto. }
  destruct (filter_interleaved filed pss ps I _ FK Nd) as [F1 F2].
  set (table := combine (map fst cables) uss).
  set (sent := fun k => match find (fun e => fst e =? k)%N table with Some e => snd e | None => [] end).
  assert (Lk : forall i c us, nth_error cables i = Some c -> nth_error uss i = Some us -> sent (fst c) = us).
  { unfold sent, table. clear - Nd. revert uss. induction cables as [|c0 cables IH]; intros uss [|i] c us Hc Hu; try discriminate; destruct uss as [|us0 uss]; try discriminate;
      cbn [map combine find fst snd nth_error] in *; inversion Nd as [|? ? N1 N2]; subst.
    - injection Hc as ->. injection Hu as ->. now rewrite N.eqb_refl.
    - destruct (N.eqb_spec (fst c0) (fst c)) as [E|_]; [|eauto]. exfalso. apply N1. rewrite E. apply in_map. eapply nth_error_In; eauto. }
  assert (No : forall k, ~ In k (map fst cables) -> sent k = []).
  { intros k H. unfold sent. destruct (find _ table) as [e|] eqn:E; [|reflexivity]. exfalso. apply find_some in E as [He E]. apply N.eqb_eq in E. subst k.
    apply H. destruct e as [k us]. unfold table in He. apply in_combine_l in He. exact He. }
  pose proof (both_length _ _ _ C) as L1. pose proof (both_length _ _ _ P) as L2.
  assert (At : forall k, (exists i c us q, nth_error cables i = Some c /\ nth_error uss i = Some us /\ nth_error pss i = Some q /\ k = fst c)
      \/ ~ In k (map fst cables)).
  { intros k. destruct (in_dec N.eq_dec k (map fst cables)) as [H|H]; [left|now right]. apply in_map_iff in H as (c & <- & H). apply In_nth_error in H as (i & Hi).
    pose proof (nth_error_Some_length _ _ _ Hi).
    destruct (nth_error uss i) as [us|] eqn:E1; [|apply nth_error_None in E1; lia]. destruct (nth_error pss i) as [q|] eqn:E2; [|apply nth_error_None in E2; lia].
    exists i, c, us, q. auto. }
  assert (Nth2 : forall A B (R : A -> B -> Prop) l l' i a b, Forall2 R l l' -> nth_error l i = Some a -> nth_error l' i = Some b -> R a b).
  { clear. intros A B R l l' i a b H. revert i. induction H as [|x y l l' Hr H IH]; intros [|i] Ha Hb; try discriminate; cbn [nth_error] in *; [congruence|eauto]. }
  destruct (C46_receiver packet_group filed sent ps) as (st & out & R & St & Out).
  - intros p Hp. destruct (in_interleaved _ _ _ I Hp) as (q & Hq & Hx). apply In_nth_error in Hq as (i & Hi).
    pose proof (both_length _ _ _ K) as L3. pose proof (nth_error_Some_length _ _ _ Hi) as L4.
    destruct (nth_error (map fst cables) i) as [k|] eqn:Hk; [|apply nth_error_None in Hk; lia].
    pose proof (Nth2 _ _ _ _ _ _ _ _ K Hk Hi) as Z. rewrite Forall_forall in Z. unfold filed. now rewrite (Z p Hx).
  - intros k. destruct (At k) as [(i & c & us & q & H1 & H2 & H3 & ->)|H]; [|rewrite No by exact H; constructor].
    rewrite (Lk i c us H1 H2). pose proof (Nth2 _ _ _ _ _ _ _ _ C H1 H2) as Z. clear - Z. induction Z as [|m u ms us Hc Z IH]; constructor; auto. apply Hc.
  - intros k. destruct (At k) as [(i & c & us & q & H1 & H2 & H3 & ->)|H].
    + rewrite (Lk i c us H1 H2), (F1 i (fst c) q); [exact (Nth2 _ _ _ _ _ _ _ _ P H2 H3)|now rewrite nth_error_map, H1|exact H3].
    + rewrite No, F2 by exact H. exists []. split; [constructor|reflexivity].
  - exists st, out. split; [unfold link_out; rewrite (C44_packets ps S1); cbn [try_bind bind]; now rewrite R|]. split; [exact St|]. split.
    + intros c Hc. apply In_nth_error in Hc as (i & Hi). pose proof (nth_error_Some_length _ _ _ Hi).
      destruct (nth_error uss i) as [us|] eqn:E1; [|apply nth_error_None in E1; lia].
      apply (out_ok (fst c) (snd c) us); [exact (Nth2 _ _ _ _ _ _ _ _ C Hi E1)| |rewrite Out; f_equal; exact (Lk i c us Hi E1)].
      rewrite Forall_forall in M. specialize (M c (nth_error_In _ _ Hi)). eapply Forall_impl; [|exact M]. intros m (_ & _ & W & _). exact W.
    + intros g Hg. apply (out_ok g [] []); [constructor|constructor|]. rewrite Out, (No g Hg). reflexivity.
Qed.
Print Assumptions C50_cables.

(** In particular one stream, there and back. *)
Theorem C50_there_and_back : forall g ms, Forall midi1 ms -> (g < 16)%N ->
  exists q st out, cable_in g (stream_of_messages ms) = Val (Ok q) /\ link_out (stream_of_packets q) = Val (Ok (st, out))
    /\ cable_out g out = Val (Ok (stream_of_messages ms)).
Proof.
  intros g ms F Hg. destruct (C50_sent g ms F Hg) as (q & E & _).
  destruct (C50_cables [(g, ms)] [q] q) as (st & out & L & _ & O & _).
  - now repeat constructor.
  - repeat constructor. easy.
  - now repeat constructor.
  - now repeat constructor.
  - clear. induction q as [|p q IH]; [constructor; now repeat constructor|]. exact (one_more [] p q [] q IH).
  - exists q, st, out. split; [exact E|]. split; [exact L|]. exact (O (g, ms) (or_introl eq_refl)).
Qed.
Print Assumptions C50_there_and_back.

Local Ltac in_bytes := unfold byte_types, system_common_messages, channel_voice1_messages; cbn [fst snd map app In]; tauto.
Example C50_case :
  let a := [(CFixed cv1_note_on, [0x92; 60; 100]); (CSysex7, [0xF0; 1; 2; 3; 4; 5; 6; 7; 0xF7]); (CFixed sys_timing_clock, [0xF8])]%N in
  let b := [(CFixed cv1_program_change, [0xC0; 9])]%N in
  Forall midi1 a /\ Forall midi1 b /\ exists q r x y z w,
    cable_in 3 [0x92; 60; 100; 0xF0; 1; 2; 3; 4; 5; 6; 7; 0xF7; 0xF8]%N = Val (Ok q) /\ q = [x; y; z; w]
    /\ cable_in 5 [0xC0; 9]%N = Val (Ok [r]) /\ interleaved [q; [r]] [x; y; r; z; w]
    /\ stream_of_packets [x; y; r; z; w] = [0x23923C64; 0x33160102; 0x03040506; 0x25C00900; 0x33310700; 0; 0x13F80000]%N
    /\ exists st out, link_out [0x23923C64; 0x33160102; 0x03040506; 0x25C00900; 0x33310700; 0; 0x13F80000]%N = Val (Ok (st, out))
    /\ cable_out 3 out = Val (Ok [0x92; 60; 100; 0xF0; 1; 2; 3; 4; 5; 6; 7; 0xF7; 0xF8]%N) /\ cable_out 5 out = Val (Ok [0xC0; 9]%N).
Proof.
  cbn zeta. split; [|split].
  - apply Forall_cons; [|apply Forall_cons; [|apply Forall_cons; [|apply Forall_nil]]].
    + split; [in_bytes|]. split; [repeat constructor|]. split; [split; vm_compute; reflexivity|]. split; [discriminate|]. apply reserved_checked; vm_compute; reflexivity.
    + split; [in_bytes|]. split; [repeat constructor|]. split; [split; vm_compute; reflexivity|]. exists [1; 2; 3; 4; 5; 6; 7]%N. split; [repeat constructor|reflexivity].
    + split; [in_bytes|]. split; [repeat constructor|]. split; [split; vm_compute; reflexivity|]. split; [discriminate|]. apply reserved_checked; vm_compute; reflexivity.
  - apply Forall_cons; [|apply Forall_nil].
    split; [in_bytes|]. split; [repeat constructor|]. split; [split; vm_compute; reflexivity|]. split; [discriminate|]. apply reserved_checked; vm_compute; reflexivity.
  - do 6 eexists. split; [vm_compute; reflexivity|]. split; [reflexivity|]. split; [vm_compute; reflexivity|]. split; [|split; [reflexivity|]].
    + refine (one_more [] _ _ _ _ _). refine (one_more [] _ _ _ _ _). refine (one_more [_] _ _ [] _ _). refine (one_more [] _ _ _ _ _).
      refine (one_more [] _ _ _ _ _). constructor. repeat constructor.
    + do 2 eexists. split; [vm_compute; reflexivity|]. split; vm_compute; reflexivity.
Qed.

(** What MIDI 1.0 streams may also contain: system real-time messages inside system exclusive messages
    panic, running status and song position pointers end the stream with an error. *)
Theorem C50_midi1_streams_refuted : exists e,
  cable_in 0 [0xF0; 1; 0xF8; 2; 0xF7]%N = Panic
  /\ cable_in 0 [0x90; 60; 100; 61; 100]%N = Val (Err e)
  /\ cable_in 0 [0xF2; 1; 2; 0x90; 60; 100]%N = Val (Err e).
Proof. eexists. split; [vm_compute; reflexivity|]. split; vm_compute; reflexivity. Qed.
Print Assumptions C50_midi1_streams_refuted.
