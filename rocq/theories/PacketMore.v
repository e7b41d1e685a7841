(** Lemmas: the packets of a message. *)
From Coq Require Import NArith ZArith List String Bool Arith Lia Zify ZifyBool ZifyNat ZifyN.
From Verif Require Import Base BitOps BitLemmas ListLemmas Values Helpers Props Message MessageTable SpecLayout SpecFixed
  PropLemmas PropValidate Sysex ByteView SysexLayout SpecSysex SysexBridge Text SpecText TextLemmas TextHeader TextParse TextFlex TextFlexMore
  TextStream TextStreamMore
  Aggregate SpecAggregate AggregateLemmas AggregateMore Packet SpecPacket PacketLemmas.
Import ListNotations.
Local Open Scope list_scope.
Local Open Scope nat_scope.

Lemma position_min {A} (P : A -> bool) l q : position P l = Some q ->
  q < List.length l /\ forall i d, i < q -> P (nth i l d) = false.
Proof.
  revert q. induction l as [|x l IH]; intros q H; [discriminate|]. cbn [position] in H. destruct (P x) eqn:E.
  - injection H as <-. cbn. split; [lia|]. intros i d Hi. lia.
  - destruct (position P l) as [j|]; [|discriminate]. cbn [option_map] in H. injection H as <-.
    destruct (IH j eq_refl) as [A1 A2]. cbn. split; [lia|]. intros [|i] d Hi; [exact E|]. apply A2. lia.
Qed.

(** The end of a framed run comes within it. *)
Lemma last_in_run w t b k (fmt : nat -> N) P q : 0 < w -> leading w t b k -> SpecFixed.framed fmt 0 1 2 3 k ->
  (forall i, P (chunk w i b) = ((fmt i =? 0) || (fmt i =? 3))%N) ->
  position P (chunks_exact w b) = Some q -> q < k.
Proof.
  intros Hw (L & _) F HP Q. destruct (Nat.lt_ge_cases q k) as [|G]; [auto|]. exfalso.
  rewrite chunks_exact_spec in Q by exact Hw. destruct (position_min _ _ _ Q) as [A B]. rewrite map_length, seq_length in A.
  assert (K : 1 <= k) by (destruct F as [[-> _]|[? _]]; lia).
  assert (E : P (chunk w (k - 1) b) = true).
  { rewrite HP. destruct F as [[-> F]|(H1 & _ & _ & F)].
    - change (1 - 1) with 0. rewrite F. reflexivity.
    - rewrite F. reflexivity. }
  destruct (Nat.eq_dec q (k - 1)) as [->|Hq]; [lia|].
  specialize (B (k - 1) (chunk w 0 b) ltac:(lia)).
  rewrite (map_nth (fun i => chunk w i b)), seq_nth in B by lia. cbn [Nat.add] in B. congruence.
Qed.

(** The first [n] packets of [b] are packets of the family. *)
Definition sound (f : family) (n : nat) (b : list N) : Prop :=
  family_words f * n <= List.length b
  /\ forall p, p < n -> ump_family (bits b (Seg (family_words f * p) 28 4)) = Some f
       /\ valid_codes f (chunk (family_words f) p b).

Lemma chunk_bits w p b lo n : 0 < w -> bits (chunk w p b) (Seg 0 lo n) = bits b (Seg (w * p) lo n).
Proof. intros H. unfold bits. cbn [sg_w sg_lo sg_n]. rewrite nth_chunk by exact H. now rewrite Nat.add_0_r. Qed.

Lemma chunk_firstn w p n b : p < n -> chunk w p (firstn (w * n) b) = chunk w p b.
Proof.
  intros H. unfold chunk. rewrite skipn_firstn_comm, firstn_firstn. f_equal.
  assert (w * S p <= w * n) by (apply Nat.mul_le_mono_l; lia). lia.
Qed.

Lemma concat_chunks w n b : 0 < w -> w * n <= List.length b ->
  List.concat (map (fun i => chunk w i b) (seq 0 n)) = firstn (w * n) b.
Proof.
  intros Hw. induction n as [|n IH]; intros L; [now rewrite Nat.mul_0_r|].
  rewrite seq_S, map_app, concat_app, IH by lia. cbn [map List.concat Nat.add]. rewrite app_nil_r. unfold chunk.
  rewrite <- (firstn_skipn (w * n) (firstn (w * S n) b)). rewrite firstn_firstn, skipn_firstn_comm.
  f_equal; f_equal; lia.
Qed.

Lemma collect_ok f cs : Forall (fun c => packet_try_from c = Val (Ok (variant f, c))) cs ->
  collect_packets (S (List.length cs)) cs = Val (map (fun c => (variant f, c)) cs).
Proof.
  induction 1 as [|c cs H _ IH]; [reflexivity|]. cbn [List.length]. remember (S (List.length cs)) as n.
  cbn [collect_packets]. unfold packets_next, packet_of. cbn [hd_error tl]. rewrite H. cbn [unwrapped bind].
  rewrite IH. reflexivity.
Qed.

(** What [packets()] gives. *)
Definition splits (f : family) (n : nat) (b : list N) (ps : list packet) : Prop :=
  ps = map (fun i => (variant f, chunk (family_words f) i b)) (seq 0 n)
  /\ List.concat (map packet_data ps) = firstn (family_words f * n) b
  /\ Forall well_formed ps.

Lemma sound_packets f n c b : sound f n b -> concrete_min c = family_words f ->
  concrete_data U32 c b = Val (firstn (family_words f * n) b) ->
  exists ps, all_packets (c, b) = Val ps /\ splits f n b ps.
Proof.
  intros [L S0] M D. pose proof (family_words_pos f) as Hw.
  exists (map (fun i => (variant f, chunk (family_words f) i b)) (seq 0 n)). split.
  - unfold all_packets, agg_packets, agg_data. cbn [fst snd]. rewrite D. cbn [bind]. rewrite M.
    rewrite chunks_exact_spec by exact Hw. rewrite firstn_length, Nat.min_l by exact L.
    rewrite Nat.mul_comm, Nat.div_mul by lia. rewrite (Nat.mul_comm n).
    rewrite collect_ok with (f := f).
    + rewrite map_map. apply (f_equal Val). apply map_ext_in. intros i Hi. apply in_seq in Hi. rewrite chunk_firstn by lia. reflexivity.
    + apply Forall_forall. intros x Hx. apply in_map_iff in Hx as (i & <- & Hi). apply in_seq in Hi.
      rewrite chunk_firstn by lia. destruct (S0 i ltac:(lia)) as [T V]. apply packet_of_chunk.
      * apply chunk_length. assert (family_words f * S i <= family_words f * n) by (apply Nat.mul_le_mono_l; lia). lia.
      * unfold type_field. rewrite chunk_bits by exact Hw. exact T.
      * exact V.
  - split; [reflexivity|]. split.
    + rewrite map_map. cbn [packet_data snd]. now apply concat_chunks.
    + apply Forall_forall. intros x Hx. apply in_map_iff in Hx as (i & <- & Hi). apply in_seq in Hi.
      exists f. cbn [fst snd]. split; [reflexivity|]. split.
      * unfold type_field. rewrite chunk_bits by exact Hw. apply S0. lia.
      * apply chunk_length. assert (family_words f * S i <= family_words f * n) by (apply Nat.mul_le_mono_l; lia). lia.
Qed.

(** ** Accepted slices *)

Lemma min_all f : Forall (fun c => concrete_min c = family_words f \/ c = CFixed stream_function_block_discovery) (types_of f).
Proof.
  destruct f; cbn [types_of map app]; unfold utility_messages, system_common_messages, channel_voice1_messages, channel_voice2_messages,
    flex_data_messages, ump_stream_messages, flex_texts, stream_texts; cbn [map app];
  repeat (apply Forall_cons; [first [left; reflexivity|right; reflexivity]|]); apply Forall_nil.
Qed.
Lemma min_words f c : In c (types_of f) -> c <> CFixed stream_function_block_discovery -> concrete_min c = family_words f.
Proof. intros H N0. pose proof (min_all f) as T. rewrite Forall_forall in T. destruct (T c H); [auto|contradiction]. Qed.

Lemma sound_one f c b : In c (types_of f) -> accepted U32 c b -> family_words f <= List.length b ->
  match f with Sysex7 | Sysex8 => False | _ => True end -> sound f 1 b.
Proof.
  intros T A L K. split; [lia|]. intros p Hp. assert (p = 0) by lia. subst p. rewrite Nat.mul_0_r.
  split; [now apply (accepted_family f c b)|]. now destruct f.
Qed.

(** System exclusive messages. *)
Lemma sysex_sound fm b q : sx_try_from (fmt_of fm) b = Ok b ->
  position is_last (chunks_exact (f_words (fmt_of fm)) b) = Some q ->
  sound (match fm with SevenBit => Sysex7 | EightBit => Sysex8 end) (S q) b.
Proof.
  intros A Q. unfold sx_try_from in A. destruct (_ <? _); [discriminate|].
  destruct (first_error _) as [[]|] eqn:E; [|discriminate]. apply first_error_ok with (r := validate_statuses_sx (fmt_of fm) b) in E as E1; [|cbn; tauto].
  apply first_error_ok with (r := validate_sizes (fmt_of fm) b) in E as E2; [|cbn; tauto]. clear E A.
  assert (W : 0 < packet_words fm) by (destruct fm; cbn; lia).
  rewrite words_of in Q. destruct (leading_exists (packet_words fm) (type_code fm) b) as (k & Hk).
  unfold validate_statuses_sx in E1. rewrite words_of, type_fmt in E1.
  apply (validate_statuses_spec b (fun x => nibble32 x 2) 0 1 2 3 _ _ k) in E1; auto.
  assert (Hq : q < k).
  { apply (last_in_run (packet_words fm) (type_code fm) b k (fun i => nibble32 (nth (packet_words fm * i) b 0%N) 2) is_last q); auto.
    intros i. unfold is_last. rewrite !hd0_chunk by exact W. reflexivity. }
  unfold validate_sizes in E2. rewrite words_of in E2. apply check_is_ok in E2. rewrite forallb_forall in E2.
  assert (Lq : q < List.length b / packet_words fm).
  { apply position_min in Q as [Q _]. rewrite chunks_exact_spec, map_length, seq_length in Q by exact W. exact Q. }
  assert (Fw : family_words (match fm with SevenBit => Sysex7 | EightBit => Sysex8 end) = packet_words fm) by now destruct fm.
  split; rewrite Fw.
  - pose proof (Nat.mul_div_le (List.length b) (packet_words fm) ltac:(lia)).
    assert (packet_words fm * S q <= packet_words fm * (List.length b / packet_words fm)) by (apply Nat.mul_le_mono_l; lia). lia.
  - intros p Hp. destruct Hk as (_ & Hk & _). rewrite (Hk p) by lia. split; [now destruct fm|].
    assert (St : (status_field (chunk (packet_words fm) p b) <= 3)%N).
    { unfold status_field. rewrite chunk_bits by exact W. pose proof (nibble32_bits b (packet_words fm * p) 2) as X.
      change (28 - 2 * 4)%N with 20%N in X. rewrite <- X.
      destruct E1 as [[K1 F]|(K1 & F0 & Fm & Fe)].
      - assert (p = 0) by lia. subst p. rewrite F. lia.
      - destruct (Nat.eq_dec p 0) as [->|]; [rewrite F0; lia|]. destruct (Nat.eq_dec p (k - 1)) as [->|]; [rewrite Fe; lia|].
        rewrite Fm by lia. lia. }
    destruct fm; cbn [valid_codes]; [|exact St]. split; [exact St|].
    specialize (E2 (chunk 2 p b)). unfold size_ok in E2. cbn [fmt_of f_ext fmt7 f_cap packet_words] in *. rewrite andb_true_iff in E2.
    assert (I : In (chunk 2 p b) (chunks_exact 2 b)).
    { rewrite chunks_exact_spec by lia. apply in_map_iff. exists p. split; [reflexivity|]. apply in_seq. lia. }
    specialize (E2 I) as [_ E2]. unfold size_field. rewrite chunk_bits by lia.
    rewrite hd0_chunk in E2 by lia. rewrite nibble32_bits in E2. change (28 - 3 * 4)%N with 16%N in E2. change (0 + N.of_nat 6)%N with 6%N in E2. apply N.leb_le. exact E2.
Qed.

(** Texts. *)
Lemma text_sound f b k t lo c q : (f = FlexData /\ t = 0xD%N \/ f = UmpStream /\ t = 0xF%N) -> leading 4 t b k ->
  (forall x, crumb32 (nth x b 0%N) c = bits b (Seg x lo 2)) ->
  SpecFixed.framed (fun p => bits b (Seg (4 * p) lo 2)) 0 1 2 3 k ->
  position (fun x => (crumb32 (hd0 x) c =? 0) || (crumb32 (hd0 x) c =? 3))%N (chunks_exact 4 b) = Some q ->
  sound f (S q) b.
Proof.
  intros Hf Hk Hc F Q.
  assert (Hq : q < k).
  { apply (last_in_run 4 t b k (fun p => bits b (Seg (4 * p) lo 2)) _ q ltac:(lia) Hk F) in Q; auto.
    intros i. cbv beta. rewrite !hd0_chunk by lia. rewrite Hc. reflexivity. }
  apply position_min in Q as [Q _]. rewrite chunks_exact_spec, map_length, seq_length in Q by lia.
  pose proof (Nat.mul_div_le (List.length b) 4 ltac:(lia)). destruct Hk as (_ & Hk & _).
  destruct Hf as [[-> ->]|[-> ->]]; (split; [cbn [family_words]; lia|]); intros p Hp; cbn [family_words];
    rewrite (Hk p) by lia; split; reflexivity || exact I.
Qed.

Lemma accepted_sound f c b d : In c (types_of f) -> c <> CFixed stream_function_block_discovery ->
  accepted U32 c b -> concrete_data U32 c b = Val d ->
  exists n, 1 <= n /\ sound f n b /\ d = firstn (family_words f * n) b /\ concrete_min c = family_words f.
Proof.
  intros T N0 A D. destruct c as [m| | |K|K].
  - exists 1. pose proof (min_words f (CFixed m) T N0) as M. cbn [concrete_data concrete_min] in *. unfold data, size in D. rewrite M in *.
    apply prefix_ok in D as [L ->]. split; [lia|]. split; [|split; [now rewrite Nat.mul_1_r|reflexivity]].
    apply (sound_one f (CFixed m)); auto. destruct f; try exact I; cbn in T; destruct T as [T|[]]; discriminate.
  - assert (f = Sysex7) by (eapply types_nodup; [exact T|]; cbn; tauto). subst f.
    cbn [concrete_data concrete_min] in *. unfold accepted in A. cbn [concrete_try_from] in A. unfold sx_data, sx_size in D.
    destruct (position _ _) as [q|] eqn:Q; [|discriminate]. cbn [bind] in D. apply prefix_ok in D as [L ->].
    exists (S q). split; [lia|]. split; [apply (sysex_sound SevenBit); [now injection A|exact Q]|]. split; [|reflexivity].
    f_equal. cbn. lia.
  - assert (f = Sysex8) by (eapply types_nodup; [exact T|]; cbn; tauto). subst f.
    cbn [concrete_data concrete_min] in *. unfold accepted in A. cbn [concrete_try_from] in A. unfold sx_data, sx_size in D.
    destruct (position _ _) as [q|] eqn:Q; [|discriminate]. cbn [bind] in D. apply prefix_ok in D as [L ->].
    exists (S q). split; [lia|]. split; [apply (sysex_sound EightBit); [now injection A|exact Q]|]. split; [|reflexivity].
    f_equal. cbn. lia.
  - assert (f = FlexData).
    { destruct f; cbn [types_of] in T; rewrite ?in_app_iff, ?in_map_iff in T;
      try (destruct T as [T|[]]; discriminate); try reflexivity;
      repeat match goal with
      | H : _ \/ _ |- _ => destruct H as [H|H]
      | H : exists _, _ |- _ => destruct H as (x & E & H); discriminate
      end. }
    subst f. cbn [concrete_data concrete_min] in *. unfold accepted in A. cbn [concrete_try_from] in A.
    apply flex_try_from_ok in A as (_ & _ & _ & _ & F & _). destruct (leading_exists 4 0xD b) as (k & Hk). destruct (F k Hk) as [_ F2].
    unfold Text.flex_data, dyn_size in D. destruct (position _ _) as [q|] eqn:Q; [|discriminate]. cbn [bind] in D.
    apply prefix_ok in D as [L ->]. exists (S q). split; [lia|]. split; [|split; [f_equal; cbn; lia|reflexivity]].
    eapply text_sound; [left; auto|exact Hk| |exact F2|exact Q]. intros x. rewrite crumb32_bits. reflexivity.
  - assert (X : f = UmpStream /\ In K stream_texts).
    { destruct f; cbn [types_of] in T; rewrite ?in_app_iff, ?in_map_iff in T;
      try (destruct T as [T|[]]; discriminate);
      repeat match goal with
      | H : _ \/ _ |- _ => destruct H as [H|H]
      | H : exists _, _ |- _ => destruct H as (x & E & H); try discriminate
      end. split; [reflexivity|]. congruence. }
    destruct X as [-> HK]. cbn [concrete_data concrete_min] in *. unfold accepted in A. cbn [concrete_try_from] in A.
    apply stream_try_from_ok in A as (_ & _ & _ & _ & F & _).
    2:{ destruct HK as [<-|[<-|[<-|[]]]]; cbn; lia. }
    destruct (leading_exists 4 0xF b) as (k & Hk). specialize (F k Hk).
    unfold stream_data, dyn_size in D. destruct (position _ _) as [q|] eqn:Q; [|discriminate]. cbn [bind] in D.
    apply prefix_ok in D as [L ->]. exists (S q). split; [lia|]. split; [|split; [f_equal; cbn; lia|reflexivity]].
    eapply text_sound; [right; auto|exact Hk| |exact F|exact Q]. intros x. rewrite crumb32_bits. reflexivity.
Qed.
