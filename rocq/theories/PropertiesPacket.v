(** PROPERTIES of single packets and of the iterators over them.  See
    properties.jsonl; vocabulary in SpecPacket.v, SpecSysex.v, SpecEdits.v. *)
From Coq Require Import NArith ZArith List String Bool Arith Lia Zify ZifyBool ZifyNat ZifyN.
From Verif Require Import Base BitOps BitLemmas ListLemmas Values Helpers Props Message MessageTable SpecLayout SpecFixed
  PropLemmas PropWrite Sysex SpecSysex ByteView SysexLayout SysexRead SysexBridge SpecEdits Text SpecText TextClient TextLemmas TextHeader TextFlex TextFlexMore
  TextStream TextStreamMore TextHistory TextFresh PropertiesText
  Aggregate SpecAggregate AggregateLemmas AggregateMore Packet SpecPacket PacketLemmas PacketMore PacketRead.
Import ListNotations.
Local Open Scope string_scope.
Local Open Scope list_scope.
Local Open Scope nat_scope.

(** ** C17, C06: parsing a packet *)

(** Parsing never panics.  It succeeds exactly when the slice has the words asked for, an assigned
    message type and valid system exclusive codes; the packet then has exactly its family's words,
    those of the slice continued with zeros. *)
Theorem C17_packet : forall b, exists r, packet_try_from b = Val r /\ forall p,
  r = Ok p <-> exists f, words_asked f <= List.length b /\ ump_family (type_field b) = Some f
     /\ valid_codes f b /\ p = (variant f, fitted (family_words f) b).
Proof. exact packet_ok. Qed.
Print Assumptions C17_packet.
Example C17_packet_case :
  packet_try_from [0x40903C00]%N = Val (Ok (PVoice2, [0x40903C00; 0]%N))
  /\ packet_try_from [0x20903C01; 5; 6]%N = Val (Ok (PVoice1, [0x20903C01]%N))
  /\ packet_try_from [0x60903C01; 5; 6]%N = Val (Err "Incorrect UMP message type").
Proof. repeat split. Qed.

Theorem C06_packet_total : forall b, exists r, packet_try_from b = Val r.
Proof. intros b. destruct (packet_ok b) as (r & E & _). eauto. Qed.
Print Assumptions C06_packet_total.

(** The packet parsers of the families: each refuses other types. *)
Theorem C17_family_packet : forall f b, exists r, kind_try_from (variant f) b = Val r /\ forall p,
  r = Ok p <-> words_asked f <= List.length b /\ ump_family (type_field b) = Some f
     /\ valid_codes f b /\ p = (variant f, fitted (family_words f) b).
Proof. exact kind_ok. Qed.
Print Assumptions C17_family_packet.

(** A non-empty slice with an assigned type and valid codes is accepted, but for short slices of three
    families. *)
Theorem C17_short : forall b f, b <> [] -> ump_family (type_field b) = Some f -> valid_codes f b ->
  packet_try_from b = Val (Ok (variant f, fitted (family_words f) b))
  \/ f = Sysex7 /\ List.length b < 2 \/ f = FlexData /\ List.length b < 2 \/ f = Sysex8 /\ List.length b < 4.
Proof.
  intros b f Hb T V. assert (1 <= List.length b) by (destruct b; [congruence|cbn; lia]).
  destruct (Nat.le_gt_cases (words_asked f) (List.length b)) as [L|L].
  - left. destruct (packet_ok b) as (r & E & R). rewrite E. f_equal. apply R. eauto.
  - right. destruct f; cbn [words_asked] in L; auto; lia.
Qed.
Print Assumptions C17_short.

(** Those are refused although the other families pad them with zeros. *)
Theorem C17_short_refuted :
  (exists b, b <> [] /\ ump_family (type_field b) = Some FlexData /\ valid_codes FlexData b
     /\ packet_try_from b = Val (Err "Slice is too short"))
  /\ (exists b, b <> [] /\ ump_family (type_field b) = Some Sysex7 /\ valid_codes Sysex7 b
     /\ packet_try_from b = Val (Err "Slice is too short"))
  /\ (exists b, b <> [] /\ ump_family (type_field b) = Some Sysex8 /\ valid_codes Sysex8 b
     /\ packet_try_from b = Val (Err "Slice is too short")).
Proof.
  split; [exists [0xD0000100]%N|split; [exists [0x30010100]%N|exists [0x50010000; 1; 2]%N]];
    (split; [discriminate|split; [reflexivity|split; [vm_compute; try split; easy|reflexivity]]]).
Qed.
Print Assumptions C17_short_refuted.

Lemma form_of_code b c p : b <> [] -> snd p = b -> exists s, packet_format c p = Val s /\ form_code s = crumb32 (nth 0 b 0%N) c.
Proof.
  intros Hb Hp. unfold packet_format. rewrite Hp, idx0 by exact Hb. cbn [bind]. assert (B : (crumb32 (nth 0 b 0%N) c < 4)%N) by (rewrite crumb32_bits; apply bits_lt).
  destruct (N.eqb_spec (crumb32 (nth 0 b 0%N) c) 0) as [->|]; [eexists; split; reflexivity|].
  destruct (N.eqb_spec (crumb32 (nth 0 b 0%N) c) 1) as [->|]; [eexists; split; reflexivity|].
  destruct (N.eqb_spec (crumb32 (nth 0 b 0%N) c) 2) as [->|]; [eexists; split; reflexivity|].
  destruct (N.eqb_spec (crumb32 (nth 0 b 0%N) c) 3) as [->|]; [eexists; split; reflexivity|]. lia.
Qed.

Lemma parsed b p : packet_try_from b = Val (Ok p) -> exists f, words_asked f <= List.length b /\ ump_family (type_field b) = Some f
     /\ valid_codes f b /\ p = (variant f, fitted (family_words f) b) /\ fitted (family_words f) b <> [] /\ b <> [].
Proof.
  intros E. destruct (packet_ok b) as (r & E' & R). assert (r = Ok p) by congruence. apply R in H as (f & A & B & C & D).
  exists f. repeat split; auto.
  - intros X. apply (f_equal (@List.length N)) in X. rewrite fitted_length in X. pose proof (family_words_pos f). cbn in X. lia.
  - intros ->. pose proof (words_asked_pos f). cbn in A. lia.
Qed.

Lemma status8_ok b : 4 <= List.length b -> (status_field b <= 3)%N -> exists s, status8_of b = Val (Ok s)
  /\ (forall v, s = UnexpectedEnd v <-> breaks_off v b)
  /\ (forall t, s = Status t -> form_code t = status_field b).
Proof.
  intros L B. unfold status8_of. rewrite idx0 by (destruct b; [cbn in L; lia|discriminate]). cbn [bind].
  rewrite !nibble32_bits, octet32_bits. change (28 - 2 * 4)%N with 20%N. change (28 - 3 * 4)%N with 16%N. change (24 - 3 * 8)%N with 0%N.
  fold (status_field b). fold (size_field b). unfold breaks_off.
  replace (List.length b <? 4) with false by lia.
  destruct (N.eqb_spec (status_field b) 0) as [->|]; [eexists; split; [reflexivity|]; split; [split; [discriminate|intros [X _]; discriminate]|intros t X; injection X as <-; reflexivity]|].
  destruct (N.eqb_spec (status_field b) 1) as [->|]; [eexists; split; [reflexivity|]; split; [split; [discriminate|intros [X _]; discriminate]|intros t X; injection X as <-; reflexivity]|].
  destruct (N.eqb_spec (status_field b) 2) as [->|]; [eexists; split; [reflexivity|]; split; [split; [discriminate|intros [X _]; discriminate]|intros t X; injection X as <-; reflexivity]|].
  destruct (N.eqb_spec (status_field b) 3) as [->|]; [|lia].
  destruct (N.eqb_spec (bits b (Seg 0 0 8)) 0) as [Z|Z];
    [|eexists; split; [reflexivity|]; split; [split; [discriminate|tauto]|intros t X; injection X as <-; reflexivity]].
  destruct b as [|b0 [|b1 [|b2 [|b3 b]]]]; try (cbn in L; lia). cbn [skipn firstn forallb nth].
  destruct (N.eqb_spec b1 0) as [->|]; cbn [andb]; [|eexists; split; [reflexivity|]; split; [split; [discriminate|tauto]|intros t X; injection X as <-; reflexivity]].
  destruct (N.eqb_spec b2 0) as [->|]; cbn [andb]; [|eexists; split; [reflexivity|]; split; [split; [discriminate|tauto]|intros t X; injection X as <-; reflexivity]].
  destruct (N.eqb_spec b3 0) as [->|]; cbn [andb]; [|eexists; split; [reflexivity|]; split; [split; [discriminate|tauto]|intros t X; injection X as <-; reflexivity]].
  destruct (N.eqb_spec (size_field (b0 :: 0%N :: 0%N :: 0%N :: b)) 1) as [->|N1].
  { eexists; split; [reflexivity|]. split; [|discriminate]. intros [|]; [tauto|]. split; [discriminate|].
    intros (_ & _ & _ & _ & _ & X). discriminate. }
  destruct (N.eqb_spec (size_field (b0 :: 0%N :: 0%N :: 0%N :: b)) 15) as [->|N2].
  { eexists; split; [reflexivity|]. split; [|discriminate]. intros [|]; [|tauto]. split; [discriminate|].
    intros (_ & _ & _ & _ & _ & X). discriminate. }
  eexists; split; [reflexivity|]; split; [|intros t X; injection X as <-; reflexivity].
  intros v. split; [discriminate|]. intros (_ & _ & _ & _ & _ & X). destruct v; contradiction.
Qed.

(** The accessors of a packet that was parsed report the header bits of the slice. *)
Theorem C17_header : forall b p, packet_try_from b = Val (Ok p) ->
  packet_group p = Val (group_field b)
  /\ packet_channel p = Val (bits b (Seg 0 16 4))
  /\ (fst p = PSysex7 -> exists s, status7 p = Val s /\ form_code s = status_field b)
  /\ (fst p = PSysex8 -> packet_stream_id p = Val (stream_id_field b)
        /\ exists s, status8 p = Val s
             /\ (forall v, s = UnexpectedEnd v <-> breaks_off v b)
             /\ (forall t, s = Status t -> form_code t = status_field b))
  /\ (fst p = PFlex -> exists s, flex_packet_format p = Val s /\ form_code s = flex_form_field b)
  /\ (fst p = PStream -> exists s, stream_packet_format p = Val s /\ form_code s = stream_form_field b).
Proof.
  intros b p E. destruct (parsed b p E) as (f & A & T & V & -> & F & Hb). pose proof (family_words_pos f) as W.
  set (c := fitted (family_words f) b) in *. cbn [fst].
  assert (C0 : forall lo n, bits c (Seg 0 lo n) = bits b (Seg 0 lo n)) by (intros; now apply fitted_bits).
  split; [unfold packet_group; cbn [snd]; rewrite idx0 by exact F; cbn [bind]; rewrite nibble32_bits; now rewrite C0|].
  split; [unfold packet_channel; cbn [snd]; rewrite idx0 by exact F; cbn [bind]; rewrite nibble32_bits; now rewrite C0|].
  split.
  { intros K. assert (f = Sysex7) by (destruct f; try discriminate; reflexivity). subst f.
    unfold status7. cbn [snd]. destruct (proj2 (status7_ok c F)) as (s & Es).
    - unfold status_field. rewrite C0. apply V.
    - rewrite Es. exists s. split; [reflexivity|]. rewrite status7_cases in Es by exact F. unfold status_field in *. rewrite C0 in Es.
      destruct (bits b (Seg 0 20 4)) as [|q]; [injection Es as <-; reflexivity|].
      destruct q as [[| |]|[| |]|]; try discriminate; injection Es as <-; reflexivity. }
  split.
  { intros K. assert (f = Sysex8) by (destruct f; try discriminate; reflexivity). subst f.
    split; [unfold packet_stream_id; cbn [snd]; rewrite idx0 by exact F; cbn [bind]; rewrite octet32_bits; now rewrite C0|].
    unfold status8. cbn [snd]. destruct (status8_ok c) as (s & Es & S1 & S2).
    - unfold c. rewrite fitted_length. cbn. lia.
    - unfold status_field. rewrite C0. apply V.
    - rewrite Es. exists s. split; [reflexivity|]. split.
      + intros v. rewrite S1. unfold breaks_off, status_field, size_field. rewrite !C0. unfold c. cbn [family_words].
        rewrite !fitted_nth by lia. reflexivity.
      + intros t X. rewrite (S2 t X). unfold status_field. now rewrite C0. }
  split.
  - intros K. destruct (form_of_code c 4 (variant f, c) F eq_refl) as (s & Es & Hs). exists s. split; [exact Es|].
    rewrite Hs, crumb32_bits. rewrite C0. reflexivity.
  - intros K. destruct (form_of_code c 2 (variant f, c) F eq_refl) as (s & Es & Hs). exists s. split; [exact Es|].
    rewrite Hs, crumb32_bits. rewrite C0. reflexivity.
Qed.
Print Assumptions C17_header.
Example C17_header_case : exists p, packet_try_from [0x52210700; 0; 0; 0]%N = Val (Ok p)
  /\ packet_group p = Val 2%N /\ status8 p = Val (Status Continue) /\ packet_stream_id p = Val 7%N.
Proof. eexists. split; [reflexivity|]. repeat split. Qed.

(** [set_group] and [set_channel] write their bits and no others. *)
Theorem C17_set_header : forall b p v, packet_try_from b = Val (Ok p) -> (v < 16)%N ->
  (exists p', packet_set_group p v = Val p' /\ fst p' = fst p /\ packet_group p' = Val v
     /\ only_changes [Seg 0 24 4] (packet_data p) (packet_data p'))
  /\ (exists p', packet_set_channel p v = Val p' /\ fst p' = fst p /\ packet_channel p' = Val v
     /\ only_changes [Seg 0 16 4] (packet_data p) (packet_data p')).
Proof.
  intros b p v E Hv. destruct (parsed b p E) as (f & A & T & V & -> & F & Hb).
  set (c := fitted (family_words f) b) in *. assert (L : 0 < List.length c) by (destruct c; [congruence|cbn; lia]).
  split; [unfold packet_set_group|unfold packet_set_channel]; cbn [fst snd]; rewrite upd_nibble32 by (auto; lia); cbn [bind]; eexists; (split; [reflexivity|]);
    (split; [reflexivity|]); cbn [packet_data snd].
  - split; [|now apply put_only_changes]. unfold packet_group. cbn [snd]. rewrite idx0; cycle 1.
    { intros X. apply (f_equal (@List.length N)) in X. rewrite put_length in X. cbn in X. lia. }
    cbn [bind]. rewrite nibble32_bits. f_equal. now apply put_bits_same.
  - split; [|now apply put_only_changes]. unfold packet_channel. cbn [snd]. rewrite idx0; cycle 1.
    { intros X. apply (f_equal (@List.length N)) in X. rewrite put_length in X. cbn in X. lia. }
    cbn [bind]. rewrite nibble32_bits. f_equal. now apply put_bits_same.
Qed.
Print Assumptions C17_set_header.

(** The size of a sysex8 packet is not validated: a packet whose size code does not exist is
    accepted and reading its payload panics. *)
Theorem C17_sysex8_size_refuted : exists b p, packet_try_from b = Val (Ok p)
  /\ pi_next8 (packet_payload p) = Panic /\ pi_len8 (packet_payload p) = Panic.
Proof. exists [0x50000000; 0; 0; 0]%N. eexists. split; [reflexivity|]. split; reflexivity. Qed.
Print Assumptions C17_sysex8_size_refuted.
(** The end packet of a valid message that carries no byte is taken for a message broken off. *)
Theorem C17_sysex8_empty_end_refuted : exists b p, packet_try_from b = Val (Ok p)
  /\ size_field b = 1%N /\ status_field b = 3%N /\ collected EightBit p = Val [] /\ status8 p = Val (UnexpectedEnd true).
Proof. exists [0x50310000; 0; 0; 0]%N. eexists. split; [reflexivity|]. repeat split. Qed.
Print Assumptions C17_sysex8_empty_end_refuted.

(** ** C16: the packets of a message *)

(** The packets of any accepted message are of its family, each has the words of its family, and
    together they are [data()]. *)
Theorem C16_packets : forall f c b d, In c (types_of f) -> c <> CFixed stream_function_block_discovery ->
  accepted U32 c b -> concrete_data U32 c b = Val d ->
  exists ps, all_packets (c, b) = Val ps
    /\ List.concat (map packet_data ps) = d
    /\ 1 <= List.length ps
    /\ Forall (fun p => fst p = variant f /\ List.length (packet_data p) = family_words f
                /\ ump_family (type_field (packet_data p)) = Some f) ps.
Proof.
  intros f c b d T N0 A D. destruct (accepted_sound f c b d T N0 A D) as (n & Hn & S0 & -> & M).
  destruct (sound_packets f n c b S0 M D) as (ps & E & -> & C & W). eexists. split; [exact E|]. split; [exact C|].
  split; [rewrite map_length, seq_length; lia|].
  clear E C W. apply Forall_forall. intros p Hp. apply in_map_iff in Hp as (i & <- & Hi). apply in_seq in Hi.
  destruct S0 as [L S0]. destruct (S0 i ltac:(lia)) as [S1 _]. cbn [fst packet_data snd]. split; [reflexivity|].
  pose proof (family_words_pos f). split.
  - apply chunk_length. assert (family_words f * S i <= family_words f * n) by (apply Nat.mul_le_mono_l; lia). lia.
  - unfold type_field. now rewrite chunk_bits.
Qed.
Print Assumptions C16_packets.
Example C16_packets_case :
  accepted U32 CSysex7 [0x30160102; 0x03040506; 0x30310700; 0; 0x12345678]%N
  /\ all_packets (CSysex7, [0x30160102; 0x03040506; 0x30310700; 0; 0x12345678]%N)
     = Val [(PSysex7, [0x30160102; 0x03040506]%N); (PSysex7, [0x30310700; 0]%N)].
Proof. split; reflexivity. Qed.

Lemma run_packets_ok f cs : forall it, Forall (fun c => packet_try_from c = Val (Ok (variant f, c))) it ->
  run_packets cs it = Val (item_answers cs (map (fun c => (variant f, c)) it)).
Proof.
  assert (Q : forall it n, Forall (fun c => packet_try_from c = Val (Ok (variant f, c))) it ->
    packet_of (nth_error it n) = Val (nth_error (map (fun c => (variant f, c)) it) n)).
  { intros it n H. rewrite nth_error_map. destruct (nth_error it n) as [x|] eqn:E; [|reflexivity]. cbn [packet_of option_map].
    rewrite Forall_forall in H. rewrite (H x) by (eapply nth_error_In; eauto). reflexivity. }
  induction cs as [|c cs IH]; intros it H; [reflexivity|]. cbn [run_packets item_answers].
  assert (G : (match c with Next => packets_next it | Nth n => packets_nth it n end)
    = Val (item_answer c (map (fun x => (variant f, x)) it), items_after c it)).
  { destruct c as [|n]; cbn [item_answer items_after].
    - unfold packets_next. pose proof (Q it 0 H) as Q0. destruct it as [|x it]; [reflexivity|].
      cbn [nth_error hd_error map tl] in *. rewrite Q0. reflexivity.
    - unfold packets_nth. rewrite Q by exact H. reflexivity. }
  rewrite G. cbn [bind fst snd]. rewrite IH.
  - cbn [bind]. assert (M : items_after c (map (fun x => (variant f, x)) it) = map (fun x => (variant f, x)) (items_after c it)).
    { destruct c as [|n]; cbn [items_after]; [now destruct it|apply skipn_map]. }
    rewrite M, map_length. reflexivity.
  - destruct c as [|n]; cbn [items_after].
    + destruct it; [constructor|]. now inversion H.
    + apply Forall_forall. intros x Hx. rewrite Forall_forall in H. apply H.
      rewrite <- (firstn_skipn (S n) it). apply in_or_app. now right.
Qed.

(** Any sequence of [next] and [nth] calls on the iterator answers like one over the list of packets,
    never panics, and [len()] and [size_hint()] always count what is left. *)
Theorem C16_calls : forall f c b d cs, In c (types_of f) -> c <> CFixed stream_function_block_discovery ->
  accepted U32 c b -> concrete_data U32 c b = Val d ->
  exists it ps, agg_packets (c, b) = Val it /\ all_packets (c, b) = Val ps
    /\ packets_len it = List.length ps /\ packets_size_hint it = (List.length ps, Some (List.length ps))
    /\ run_packets cs it = Val (item_answers cs ps).
Proof.
  intros f c b d cs T N0 A D. destruct (accepted_sound f c b d T N0 A D) as (n & Hn & [L S0] & -> & M).
  pose proof (family_words_pos f) as Hw.
  destruct (sound_packets f n c b (conj L S0) M D) as (ps & E & -> & C & W).
  assert (It : agg_packets (c, b) = Val (map (fun i => chunk (family_words f) i b) (seq 0 n))).
  { unfold agg_packets, agg_data. cbn [fst snd]. rewrite D. cbn [bind]. rewrite M. f_equal. rewrite chunks_exact_spec by exact Hw.
    rewrite firstn_length, Nat.min_l by exact L. rewrite Nat.mul_comm, Nat.div_mul by lia. apply map_ext_in. intros i Hi.
    apply in_seq in Hi. rewrite Nat.mul_comm. apply chunk_firstn. lia. }
  exists (map (fun i => chunk (family_words f) i b) (seq 0 n)). eexists. split; [exact It|]. split; [exact E|].
  unfold packets_len, packets_size_hint. rewrite !map_length. split; [reflexivity|]. split; [reflexivity|].
  rewrite (run_packets_ok f); [now rewrite map_map|]. apply Forall_forall. intros x Hx. apply in_map_iff in Hx as (i & <- & Hi).
  apply in_seq in Hi. destruct (S0 i ltac:(lia)) as [S1 S2].
  apply packet_of_chunk; [|unfold type_field; now rewrite chunk_bits|exact S2].
  apply chunk_length. assert (family_words f * S i <= family_words f * n) by (apply Nat.mul_le_mono_l; lia). lia.
Qed.
Print Assumptions C16_calls.

Lemma all_collected_ok fm b k : forall s, (forall p, p < s + k -> sized_packet fm (chunk (packet_words fm) p b)) ->
  all_collected fm (map (fun i => (variant (sysex_family fm), chunk (packet_words fm) i b)) (seq s k))
  = Val (flat_map (payload_of fm b) (seq s k)).
Proof.
  induction k as [|k IH]; intros s H; [reflexivity|]. cbn [seq map all_collected flat_map].
  rewrite (@collected_ok fm) by (apply H; lia). cbn [bind]. rewrite IH by (intros p Hp; apply H; lia). cbn [bind].
  rewrite payload_chunk; [reflexivity|]. destruct (H s ltac:(lia)) as [_ B]. rewrite size_chunk in B. apply B.
Qed.

(** The packets of a system exclusive message: [k] packets of group [g] framed like a message of [k]
    packets, whose payloads together are that of the message. *)
Theorem C16_sysex : forall fm k g s l b, carries fm k g s l b ->
  exists ps, all_packets (sysex_type fm, b) = Val ps
    /\ List.length ps = k
    /\ List.concat (map packet_data ps) = firstn (packet_words fm * k) b
    /\ all_collected fm ps = Val l
    /\ (forall p x, nth_error ps p = Some x ->
          packet_group x = Val g
          /\ (fm = SevenBit -> exists t, status7 x = Val t /\ form_code t = status_code k p)
          /\ (fm = EightBit -> exists i t, packet_stream_id x = Val i /\ in_stream s i
                /\ status8 x = Val t /\ (forall u, t = Status u -> form_code u = status_code k p)
                /\ (forall v, t = UnexpectedEnd v -> v = true /\ S p = k /\ collected EightBit x = Val []))).
Proof.
  intros fm k g s l b C. assert (Fw : family_words (sysex_family fm) = packet_words fm) by now destruct fm.
  assert (W : 0 < packet_words fm) by (destruct fm; cbn; lia).
  pose proof (carries_sound fm k g s l b C) as S0.
  assert (D : concrete_data U32 (sysex_type fm) b = Val (firstn (family_words (sysex_family fm) * k) b)).
  { rewrite Fw. pose proof (carries_size fm k g s l b C) as Sz. pose proof (ca_fits _ _ _ _ _ _ C) as Ft.
    destruct fm; cbn [sysex_type concrete_data]; unfold sx_data; cbn [fmt_of] in Sz; rewrite Sz; cbn [bind]; unfold prefix;
      cbn [words_of packet_words] in *; match goal with |- (if ?c then _ else _) = _ => replace c with true by lia end; reflexivity. }
  destruct (sound_packets (sysex_family fm) k (sysex_type fm) b S0 ltac:(now destruct fm) D) as (ps & E & Ep & Cc & _).
  rewrite Fw in *. exists ps. split; [exact E|]. split; [now rewrite Ep, map_length, seq_length|]. split; [exact Cc|]. split.
  - rewrite Ep, all_collected_ok; [f_equal; apply (ca_payload _ _ _ _ _ _ C)|].
    intros p Hp. eapply carries_packet_sized; eauto.
  - intros p x Hx. assert (Hp : p < k).
    { assert (X : nth_error ps p <> None) by congruence. apply nth_error_Some in X. now rewrite Ep, map_length, seq_length in X. }
    rewrite Ep, nth_error_map, (nth_error_nth' _ 0) in Hx by (now rewrite seq_length). rewrite seq_nth in Hx by exact Hp.
    cbn [option_map Nat.add] in Hx. injection Hx as <-.
    set (c := chunk (packet_words fm) p b). destruct (carries_packet_sized _ _ _ _ _ _ p C Hp) as [Lc _]. fold c in Lc.
    assert (F : c <> []) by (intros X; rewrite X in Lc; cbn in Lc; lia).
    split; [unfold packet_group; cbn [snd]; rewrite idx0 by exact F; cbn [bind]; rewrite nibble32_bits; f_equal;
            transitivity (group_field c); [reflexivity|]; rewrite <- (group_bits fm); unfold c; rewrite group_chunk; now apply (ca_group _ _ _ _ _ _ C)|].
    split.
    + intros ->. unfold status7. cbn [snd]. rewrite status7_cases by exact F.
      rewrite <- (status_bits SevenBit). unfold c. rewrite status_chunk, (ca_status _ _ _ _ _ _ C p Hp). unfold status_code.
      destruct (k =? 1); [eexists; split; reflexivity|]. destruct (p =? 0); [eexists; split; reflexivity|].
      destruct (S p =? k); eexists; split; reflexivity.
    + intros ->. unfold packet_stream_id. cbn [snd]. rewrite idx0 by exact F. cbn [bind]. rewrite octet32_bits. eexists.
      pose proof (carries_packet_sized _ _ _ _ _ _ p C Hp) as Sp. fold c in Sp.
      assert (St : status_field c = status_code k p).
      { rewrite <- (status_bits EightBit). unfold c. rewrite status_chunk. apply (ca_status _ _ _ _ _ _ C p Hp). }
      destruct (status8_ok c) as (t & Et & T1 & T2).
      { rewrite Lc. cbn. lia. }
      { rewrite St. pose proof (status_code_lt k p). lia. }
      exists t. split; [reflexivity|]. split.
      { assert (X : bits c (Seg 0 (24 - 2 * 8) 8) = stream_of EightBit b p).
        { rewrite <- (stream_chunk EightBit). unfold c, stream_of, byte. reflexivity. }
        rewrite X. now apply (ca_stream _ _ _ _ _ _ C). }
      unfold status8. cbn [snd]. rewrite Et. split; [reflexivity|]. split; [intros u Hu; now rewrite (T2 u Hu)|].
      intros v Hv. apply T1 in Hv as (B1 & _ & _ & _ & _ & B2). rewrite collected_ok by exact Sp. destruct Sp as [_ Sp].
      rewrite size_bits in Sp. rewrite B2 in Sp. cbn [size_bias packet_room] in Sp.
      split; [destruct v; [reflexivity|lia]|]. split.
      * rewrite St in B1. unfold status_code in B1. destruct (k =? 1); [discriminate|]. destruct (p =? 0); [discriminate|].
        destruct (Nat.eqb_spec (S p) k); [assumption|discriminate].
      * destruct v; [|lia]. unfold payload_of, units_in. now rewrite size_bits, B2.
Qed.
Print Assumptions C16_sysex.

Lemma fholds_sound bank st g ch t b : fholds bank st g ch t b -> sound FlexData (text_packets 12 (List.length t)) b.
Proof.
  intros S0. pose proof (fh_room S0) as R. split; [cbn [family_words]; lia|]. intros p Hp. split; [|exact I].
  cbn [family_words]. pose proof (fh_type S0 p Hp) as T. rewrite nibble32_bits in T. change (28 - 0 * 4)%N with 28%N in T. now rewrite T.
Qed.
Lemma sholds_sound off st blk t b : sholds off st blk t b -> sound UmpStream (text_packets (14 - off) (List.length t)) b.
Proof.
  intros S0. pose proof (sh_room S0) as R. split; [cbn [family_words]; lia|]. intros p Hp. split; [|exact I].
  cbn [family_words]. pose proof (sh_type S0 p Hp) as T. rewrite nibble32_bits in T. change (28 - 0 * 4)%N with 28%N in T. now rewrite T.
Qed.

Lemma nth_packet f n b ps p x : ps = map (fun i => (variant f, chunk (family_words f) i b)) (seq 0 n) ->
  nth_error ps p = Some x -> p < n /\ x = (variant f, chunk (family_words f) p b).
Proof.
  intros -> H. assert (Hp : p < n).
  { assert (X : nth_error (map (fun i => (variant f, chunk (family_words f) i b)) (seq 0 n)) p <> None) by congruence.
    apply nth_error_Some in X. now rewrite map_length, seq_length in X. }
  split; [exact Hp|]. rewrite nth_error_map, (nth_error_nth' _ 0) in H by (now rewrite seq_length).
  rewrite seq_nth in H by exact Hp. cbn [option_map Nat.add] in H. congruence.
Qed.

(** The packets of a flex data text after any history of calls: as many as the text needs, all of the
    group set, framed by their formats. *)
Theorem C16_flex_histories : forall K h, In K flex_texts -> Forall flex_edit_ok h ->
  let s := fold_left (flex_after None) h flex_fresh in
  let k := text_packets 12 (List.length (fs_text s)) in
  exists b ps, (x <- flex_new K ;; run_all flex_do h x) = Val b /\ all_packets (CFlexText K, b) = Val ps
    /\ List.length ps = k /\ List.concat (map packet_data ps) = b
    /\ (forall p x, nth_error ps p = Some x -> fst x = PFlex /\ List.length (packet_data x) = 4
          /\ packet_group x = Val (fs_group s)
          /\ exists t, flex_packet_format x = Val t /\ form_code t = status_code k p).
Proof.
  intros K h HK Hh. destruct (flex_new_fresh K (flex_in K HK)) as (b0 & -> & L0 & S0). cbn [bind].
  destruct (flex_history _ _ h flex_fresh b0 Hh S0 L0) as (b & E & S1 & L1). cbn zeta.
  set (s := fold_left _ h flex_fresh) in *. unfold fstate in S1. pose proof (fholds_sound _ _ _ _ _ _ S1) as So.
  set (k := text_packets 12 (List.length (fs_text s))) in *.
  destruct (fholds_data S1) as [D _]. fold k in D.
  destruct (sound_packets FlexData k (CFlexText K) b So eq_refl D) as (ps & Ep & P1 & P2 & _).
  exists b, ps. split; [exact E|]. split; [exact Ep|]. split; [now rewrite P1, map_length, seq_length|].
  split; [rewrite P2; apply firstn_all2; cbn [family_words]; lia|].
  intros p x Hx. apply (nth_packet FlexData k b) in Hx as [Hp ->]; [|exact P1]. cbn [fst variant packet_data snd family_words].
  assert (Lc : List.length (chunk 4 p b) = 4) by (apply chunk_length; lia).
  assert (F : chunk 4 p b <> []) by (intros X; rewrite X in Lc; discriminate).
  assert (N0 : nth 0 (chunk 4 p b) 0%N = nth (4 * p) b 0%N) by (rewrite nth_chunk by lia; now rewrite Nat.add_0_r).
  split; [reflexivity|]. split; [exact Lc|]. split.
  - unfold packet_group. cbn [snd]. rewrite idx0 by exact F. cbn [bind]. rewrite N0. f_equal. now apply (fh_groups S1).
  - destruct (form_of_code (chunk 4 p b) 4 (PFlex, chunk 4 p b) F eq_refl) as (t & Et & Ht). exists t. split; [exact Et|].
    rewrite Ht, N0. now apply (fh_format S1).
Qed.
Print Assumptions C16_flex_histories.
Example C16_flex_histories_meets : Forall flex_edit_ok [FGroup 3; FText (letters 30); FText (letters 13)].
Proof. repeat constructor; cbn [flex_edit_ok]; try lia; apply string_bytes, letters_string. Qed.

Theorem C16_stream_histories : forall K h, In K stream_texts -> Forall (stream_edit_ok (sk_off K)) h ->
  let s := fold_left (stream_after (sk_off K) None) h stream_fresh in
  let k := text_packets (14 - sk_off K) (List.length (ss_name s)) in
  exists b ps, (x <- stream_new K ;; run_all (stream_do (sk_off K)) h x) = Val b /\ all_packets (CStreamText K, b) = Val ps
    /\ List.length ps = k /\ List.concat (map packet_data ps) = b
    /\ (forall p x, nth_error ps p = Some x -> fst x = PStream /\ List.length (packet_data x) = 4
          /\ exists t, stream_packet_format x = Val t /\ form_code t = status_code k p).
Proof.
  intros K h HK Hh. destruct (stream_new_fresh K (stream_in K HK)) as (b0 & -> & L0 & S0). cbn [bind].
  destruct (stream_history K h stream_fresh b0 Hh S0 L0) as (b & E & S1 & L1). cbn zeta.
  set (s := fold_left _ h stream_fresh) in *. unfold sstate in S1. pose proof (sholds_sound _ _ _ _ _ S1) as So.
  set (k := text_packets (14 - sk_off K) (List.length (ss_name s))) in *.
  destruct (sholds_data S1) as [D _]. fold k in D.
  destruct (sound_packets UmpStream k (CStreamText K) b So eq_refl D) as (ps & Ep & P1 & P2 & _).
  exists b, ps. split; [exact E|]. split; [exact Ep|]. split; [now rewrite P1, map_length, seq_length|].
  split; [rewrite P2; apply firstn_all2; cbn [family_words]; lia|].
  intros p x Hx. apply (nth_packet UmpStream k b) in Hx as [Hp ->]; [|exact P1]. cbn [fst variant packet_data snd family_words].
  assert (Lc : List.length (chunk 4 p b) = 4) by (apply chunk_length; lia).
  assert (F : chunk 4 p b <> []) by (intros X; rewrite X in Lc; discriminate).
  assert (N0 : nth 0 (chunk 4 p b) 0%N = nth (4 * p) b 0%N) by (rewrite nth_chunk by lia; now rewrite Nat.add_0_r).
  split; [reflexivity|]. split; [exact Lc|].
  destruct (form_of_code (chunk 4 p b) 2 (PStream, chunk 4 p b) F eq_refl) as (t & Et & Ht). exists t. split; [exact Et|].
  rewrite Ht, N0. now apply (sh_format S1).
Qed.
Print Assumptions C16_stream_histories.

(** A function block discovery may be one word, but its packet has four: the packets are then not
    [data()]. *)
Theorem C16_function_block_discovery_refuted : exists b d ps,
  accepted U32 (CFixed stream_function_block_discovery) b
  /\ concrete_data U32 (CFixed stream_function_block_discovery) b = Val d
  /\ all_packets (CFixed stream_function_block_discovery, b) = Val ps
  /\ List.concat (map packet_data ps) <> d.
Proof.
  exists [0xF0100503]%N, [0xF0100503]%N, [(PStream, [0xF0100503; 0; 0; 0]%N)].
  split; [vm_compute; reflexivity|]. split; [vm_compute; reflexivity|]. split; [vm_compute; reflexivity|]. discriminate.
Qed.
Print Assumptions C16_function_block_discovery_refuted.

(** ** C27: the payload of a packet *)

(** A packet whose size code exists gives its payload to any number of [next] calls, then [None]. *)
Theorem C27_packet_next : forall fm b p n, packet_try_from b = Val (Ok p) -> fst p = variant (sysex_family fm) ->
  (size_bias fm <= size_field b <= size_bias fm + N.of_nat (packet_room fm))%N ->
  run_payload fm (repeat Next n) (packet_payload p)
  = Val (answers (repeat Next n) (map (fun i => unit_of fm (byte (packet_data p) (header_bytes fm + i))) (seq 0 (N.to_nat (size_field b - size_bias fm))))).
Proof.
  intros fm b p n E K B. destruct (parsed b p E) as (f & A & T & V & -> & F & Hb). cbn [fst] in K.
  assert (f = sysex_family fm) by (destruct f, fm; try discriminate; reflexivity). subst f.
  assert (Fw : family_words (sysex_family fm) = packet_words fm) by now destruct fm. rewrite Fw in *.
  set (c := fitted (packet_words fm) b) in *.
  assert (Sz : size_nibble fm c 0 = size_field b) by (rewrite size_bits; apply fitted_bits; destruct fm; cbn; lia).
  assert (Sp : sized_packet fm c) by (split; [apply fitted_length|now rewrite Sz]).
  unfold packet_payload. cbn [snd]. rewrite (@nexts_ok fm c Sp n 0) by lia. cbn [skipn packet_data snd].
  unfold payload_of, units_in. rewrite Sz. do 2 f_equal. apply map_ext. intros i. now rewrite Nat.mul_0_r.
Qed.
Print Assumptions C27_packet_next.
Example C27_packet_next_case : exists p, packet_try_from [0x50150902; 0x03040506; 0; 0]%N = Val (Ok p)
  /\ run_payload EightBit (repeat Next 5) (packet_payload p)
     = Val [(Some 2, 3%nat); (Some 3, 2%nat); (Some 4, 1%nat); (Some 5, 0%nat); (None, 0%nat)]%N.
Proof. eexists. split; reflexivity. Qed.

(** Sysex7 packets: any calls without an [nth] beyond the end, and any calls at all on a full packet. *)
Theorem C27_packet7_calls : forall b p cs, packet_try_from b = Val (Ok p) -> fst p = PSysex7 ->
  let l := map (fun i => unit_of SevenBit (byte (packet_data p) (2 + i))) (seq 0 (N.to_nat (size_field b))) in
  within cs l \/ List.length l = 6 ->
  run_payload SevenBit cs (packet_payload p) = Val (answers cs l).
Proof.
  intros b p cs E K l W. destruct (parsed b p E) as (f & A & T & V & -> & F & Hb). cbn [fst] in K.
  assert (f = Sysex7) by (destruct f; try discriminate; reflexivity). subst f. cbn [family_words] in *.
  set (c := fitted 2 b) in *.
  assert (Sz : size_nibble SevenBit c 0 = size_field b) by (rewrite size_bits; apply fitted_bits; lia).
  assert (Sp : sized_packet SevenBit c).
  { split; [apply fitted_length|]. rewrite Sz. cbn [size_bias packet_room]. cbn [valid_codes] in V. lia. }
  assert (P : payload_of SevenBit c 0 = l).
  { unfold payload_of, units_in, l. rewrite Sz. cbn [size_bias packet_data snd]. now rewrite N.sub_0_r. }
  pose proof (calls7_ok c Sp cs 0) as R. rewrite P in R. apply R; [lia|exact W].
Qed.
Print Assumptions C27_packet7_calls.
Example C27_packet7_case : exists p, packet_try_from [0x30140102; 0x03040506]%N = Val (Ok p)
  /\ run_payload SevenBit [Next; Nth 1; Next; Next] (packet_payload p)
     = Val [(Some 1, 3%nat); (Some 3, 1%nat); (Some 4, 0%nat); (None, 0%nat)]%N.
Proof. eexists. split; reflexivity. Qed.

(** [nth] beyond the end of a packet that is not full leaves the iterator where [len()] panics. *)
Theorem C27_packet7_nth_refuted : exists b p it, packet_try_from b = Val (Ok p)
  /\ collected SevenBit p = Val [1; 2]%N
  /\ pi_nth7 (packet_payload p) 5 = Val (None, it) /\ pi_len7 it = Panic.
Proof. exists [0x30020102; 0]%N. do 2 eexists. split; [reflexivity|]. split; [reflexivity|]. split; reflexivity. Qed.
Print Assumptions C27_packet7_nth_refuted.

(** [nth] on a sysex8 packet does not move past the item it returns: the next call gives it again. *)
Theorem C27_packet8_nth_refuted : exists b p it it', packet_try_from b = Val (Ok p)
  /\ collected EightBit p = Val [1; 2; 3]%N
  /\ pi_nth8 (packet_payload p) 1 = Val (Some 2%N, it) /\ pi_len8 it = Val 2
  /\ pi_next8 it = Val (Some 2%N, it').
Proof. exists [0x50040001; 0x02030000; 0; 0]%N. do 3 eexists. split; [reflexivity|]. split; [reflexivity|]. repeat split. Qed.
Print Assumptions C27_packet8_nth_refuted.
Theorem C27_packet8_end_refuted : exists b p it, packet_try_from b = Val (Ok p)
  /\ collected EightBit p = Val [1; 2; 3]%N
  /\ pi_nth8 (packet_payload p) 4 = Val (None, it) /\ pi_len8 it = Panic.
Proof. exists [0x50040001; 0x02030000; 0; 0]%N. do 2 eexists. split; [reflexivity|]. split; [reflexivity|]. split; reflexivity. Qed.
Print Assumptions C27_packet8_end_refuted.
