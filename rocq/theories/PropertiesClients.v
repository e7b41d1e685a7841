(** PROPERTIES of the client programs that come with the crate.  See
    properties.jsonl; the programs are in Clients.v. *)
From Coq Require Import NArith ZArith List String Bool Arith Lia Zify ZifyBool ZifyNat ZifyN.
From Verif Require Import Base BitOps BitLemmas ListLemmas Values Props PropLemmas Message MessageTable SpecLayout SpecFixed FixedLemmas FixedProofs PropertiesFixed
  Sysex Splice SpecSysex SpecEdits SysexClient SysexBridge SysexBytes SysexMore SysexInit SysexHistory SysexFixedBytes PropertiesSysex Text Aggregate SpecAggregate AggregateLemmas AggregateMore PropertiesAggregate
  Packet Features SpecFeatures PropertiesFeatures Clients.
Import ListNotations.
Local Open Scope string_scope.
Local Open Scope list_scope.
Local Open Scope nat_scope.

Lemma assert_ok l : assert_eq l l = Val tt.
Proof. unfold assert_eq. now destruct (list_eq_dec N.eq_dec l l). Qed.

Lemma bytes_units fm data : Forall (fun x => x < 256)%N data -> Forall (is_unit fm) (map (to_byte fm) data).
Proof.
  intros F. apply Forall_forall. intros x Hx. apply in_map_iff in Hx as (y & <- & Hy). rewrite Forall_forall in F. specialize (F y Hy).
  destruct fm; cbn; [|exact F]. change 127%N with (N.ones 7). rewrite N.land_ones. now apply N.mod_lt.
Qed.

(** ** C48 *)

(** The round-trip fuzz targets pass on every input. *)
Theorem C48_roundtrip : forall fm data, Forall (fun x => x < 256)%N data -> fuzz_roundtrip fm data = Val tt.
Proof.
  intros fm data F. pose proof (bytes_units fm data F) as U.
  destruct (C34_histories fm [SetPayload (listed (map (to_byte fm) data))]) as (b0 & b & N0 & E & A & D & P & _).
  { cbn. auto. }
  unfold fuzz_roundtrip. rewrite N0. cbn [bind]. cbn [run_edits] in E. destruct (apply_edit fm _ b0) as [b1|]; [|discriminate].
  injection E as ->. cbn [bind]. rewrite P. cbn [final_payload new_payload listed s_items bind]. rewrite assert_ok. cbn [bind]. rewrite D. cbn [bind].
  now rewrite A.
Qed.
Print Assumptions C48_roundtrip.

(** How [test_case] is left: by the number of payload bytes there is room for. *)
Definition way_out (room before after : nat) : way :=
  if before <=? room then if after <=? room then Checked else SecondRefused else FirstRefused.

Lemma replaced_map f (l m : list N) a e : map f (replaced l a e m) = replaced (map f l) a e (map f m).
Proof. unfold replaced. now rewrite !map_app, firstn_map, skipn_map. Qed.
Lemma replaced_length (l m : list N) a e : a <= e -> e <= List.length l ->
  List.length (replaced l a e m) = List.length l - (e - a) + List.length m.
Proof. intros. unfold replaced. rewrite !app_length, firstn_length, skipn_length. lia. Qed.

Lemma words_case fm size initial insert lower upper b0 : Forall (fun x => x < 256)%N initial -> Forall (fun x => x < 256)%N insert ->
  lower <= upper -> upper <= List.length initial -> message_in fm 0 (Some 0%N) [] b0 -> List.length b0 = size ->
  fuzz_test_case (to_byte fm) (try_edit fm) (payload_list (fmt_for fm)) initial insert lower upper b0
  = Val (way_out (room_in fm size) (List.length initial) (List.length initial - (upper - lower) + List.length insert)).
Proof.
  intros F1 F2 H1 H2 M <-. unfold fuzz_test_case, way_out.
  destruct (C22_fixed_edit fm (SetPayload (listed (map (to_byte fm) initial))) b0 0%N (Some 0%N) [] M (bytes_units fm _ F1)) as (b1 & E1 & L1 & M1 & P1).
  { exact I. }
  rewrite E1. cbn [bind fst snd new_payload listed s_items] in *. rewrite map_length in *.
  destruct (List.length initial <=? _); cbn [negb]; [|reflexivity]. rewrite P1. cbn [bind]. rewrite assert_ok. cbn [bind].
  destruct (C22_fixed_edit fm (SplicePayload (listed (map (to_byte fm) insert)) (Included lower) (Excluded upper)) b1 _ _ _ M1) as (b2 & E2 & L2 & M2 & P2).
  { cbn [legal listed s_items range_begin range_end]. split; [now apply bytes_units|]. rewrite map_length. lia. }
  { cbn. lia. }
  rewrite E2. cbn [bind fst snd new_payload listed s_items range_begin range_end] in *.
  rewrite replaced_length in * by (rewrite ?map_length; lia). rewrite !map_length in *. rewrite L1 in *.
  destruct (_ - _ + _ <=? _); cbn [negb]; [|reflexivity]. rewrite P2. cbn [bind]. rewrite <- replaced_map.
  change (firstn lower initial ++ insert ++ skipn upper initial) with (replaced initial lower upper insert). now rewrite assert_ok.
Qed.

Lemma bytes_case size initial insert lower upper : Forall (fun x => x < 256)%N initial -> Forall (fun x => x < 256)%N insert ->
  lower <= upper -> upper <= List.length initial -> 2 <= size ->
  fuzz_test_case (to_byte SevenBit) try_edit_b payload_list_b initial insert lower upper (stream_bytes [] ++ repeat 0%N (size - 2))
  = Val (way_out (size - 2) (List.length initial) (List.length initial - (upper - lower) + List.length insert)).
Proof.
  intros F1 F2 H1 H2 Hs. unfold fuzz_test_case, way_out.
  assert (Z : lone_end (repeat 0%N (size - 2))).
  { apply Forall_forall. intros x Hx. apply repeat_spec in Hx. subst x. discriminate. }
  pose proof (bytes_units SevenBit _ F1) as U1. pose proof (bytes_units SevenBit _ F2) as U2.
  pose proof (grow_step_b (SetPayload (listed (map (to_byte SevenBit) initial))) [] _ ltac:(constructor) Z U1 (conj eq_refl eq_refl)) as G.
  cbn [new_payload listed s_items List.length] in G. rewrite map_length, repeat_length in G. cbn [Nat.add] in G.
  destruct (List.length initial <=? size - 2); [|destruct G as (r & -> & _); reflexivity].
  destruct G as (r & -> & Lr & Hr & _). cbn [bind fst snd negb].
  destruct (C26_bytes_accepted_reads (map (to_byte SevenBit) initial) r U1) as (_ & _ & P & _). rewrite P. cbn [bind]. rewrite assert_ok. cbn [bind].
  pose proof (C22_bytes_splice (map (to_byte SevenBit) initial) r (listed (map (to_byte SevenBit) insert)) (Included lower) (Excluded upper) U1 Hr U2) as G.
  cbn [range_begin range_end listed s_items] in G. cbv zeta in G. rewrite map_length in G. specialize (G H1 H2 ltac:(right; cbn; lia)).
  rewrite replaced_length in G by (rewrite ?map_length; lia). rewrite !map_length in G. rewrite Lr in G.
  destruct (_ - _ + _ <=? size - 2); [|destruct G as (r' & -> & _); reflexivity].
  destruct G as (r' & -> & _). cbn [bind fst snd negb]. rewrite <- replaced_map.
  assert (U : Forall (is_unit SevenBit) (map (to_byte SevenBit) (replaced initial lower upper insert))).
  { apply bytes_units. unfold replaced. repeat rewrite Forall_app. pose proof F1 as F3.
    rewrite <- (firstn_skipn lower initial), Forall_app in F1. rewrite <- (firstn_skipn upper initial), Forall_app in F3. tauto. }
  destruct (C26_bytes_accepted_reads _ r' U) as (_ & _ & P' & _). rewrite P'. cbn [bind].
  change (firstn lower initial ++ insert ++ skipn upper initial) with (replaced initial lower upper insert). now rewrite assert_ok.
Qed.

(** The splicing fuzz target passes for every buffer size, payload, insertion and range; and it leaves early
    exactly when a payload does not fit. *)
Theorem C48_splice : forall size initial insert lower upper,
  Forall (fun x => x < 256)%N initial -> Forall (fun x => x < 256)%N insert ->
  lower <= upper -> upper <= List.length initial -> 4 <= size ->
  let before := List.length initial in let after := List.length initial - (upper - lower) + List.length insert in
  fuzz_splice size initial insert lower upper
  = Val (way_out (room_in EightBit size) before after, way_out (room_in SevenBit size) before after, way_out (size - 2) before after).
Proof.
  intros size initial insert lower upper F1 F2 H1 H2 Hs before after. unfold fuzz_splice.
  assert (N0 : forall fm, exists b0, sx_try_new_with_buffer (fmt_for fm) (repeat 0%N size) = Val (Ok b0)
    /\ message_in fm 0 (Some 0%N) [] b0 /\ List.length b0 = size).
  { intros fm. pose proof (try_new_with_buffer_fresh fm (repeat 0%N size)) as T. rewrite repeat_length in T.
    replace (size <? packet_words fm) with false in T by (destruct fm; cbn; lia). destruct T as (b0 & E & L & _ & _ & _ & M).
    exists b0. split; [destruct fm; exact E|]. split; [apply M; intros; apply nth_repeat|exact L]. }
  destruct (N0 EightBit) as (b8 & E8 & M8 & L8). destruct (N0 SevenBit) as (b7 & E7 & M7 & L7). cbn [fmt_for] in E8, E7.
  rewrite E8. cbn [unwrapped bind]. rewrite (words_case EightBit size) by auto. cbn [bind].
  rewrite E7. cbn [unwrapped bind]. rewrite (words_case SevenBit size) by auto. cbn [bind].
  pose proof (try_new_with_buffer_b_fresh (repeat 0%N size)) as T. rewrite repeat_length in T. replace (size <? 2) with false in T by lia.
  rewrite T. cbn [unwrapped bind]. replace (skipn 2 (repeat 0%N size)) with (repeat 0%N (size - 2)).
  2:{ replace size with (2 + (size - 2)) at 2 by lia. now rewrite repeat_app, skipn_app. }
  rewrite bytes_case by (auto; lia). reflexivity.
Qed.
Print Assumptions C48_splice.

Example C48_splice_case : fuzz_splice 5 [200; 1; 2; 3; 4; 5; 6; 7]%N [255; 9; 10; 11; 12]%N 2 5 = Val (Checked, Checked, FirstRefused)
  /\ fuzz_splice 8 [200; 1]%N (repeat 200%N 20) 0 1 = Val (Checked, Checked, SecondRefused).
Proof. split; vm_compute; reflexivity. Qed.

(** What the example prints about a channel voice message besides its channel. *)
Definition about_note (c : concrete) (b : list N) : list line :=
  if String.eqb (type_name c) "channel_voice2::NoteOn" then [PrintNoteOn (bits b (Seg 0 8 7)) (bits b (Seg 1 16 16))]
  else if String.eqb (type_name c) "channel_voice2::NoteOff" then [PrintNoteOff (bits b (Seg 0 8 7)) (bits b (Seg 1 16 16))]
  else [].

Lemma not_misrouted c : In c (types_of ChannelVoice2) -> ~ In c misrouted.
Proof. intros T X. assert (E : ChannelVoice2 = FlexData) by (eapply types_nodup; [exact T|]; now apply misrouted_types). discriminate. Qed.

Lemma parsed2 c b : In c (types_of ChannelVoice2) -> accepted U32 c b -> ump_try_from_with example_features b = Val (Ok (c, b)).
Proof.
  intros T A. apply C47_ump_message. split; [|exists ChannelVoice2; auto]. apply C12_ump_message.
  split; [apply in_flat_map; exists ChannelVoice2; split; [cbn; tauto|exact T]|]. split; [exact A|]. split; [reflexivity|].
  split; [now apply not_misrouted|]. intros ->. exfalso.
  assert (E : ChannelVoice2 = UmpStream) by (eapply types_nodup; [exact T|cbn; tauto]). discriminate.
Qed.
Lemma parsed7 b : sx_try_from fmt7 b = Ok b -> ump_try_from_with example_features b = Val (Ok (CSysex7, b)).
Proof.
  intros A. apply C47_ump_message. split; [|exists Sysex7; cbn; auto]. apply C12_ump_message.
  split; [apply in_flat_map; exists Sysex7; split; cbn; tauto|]. split; [unfold accepted; cbn [concrete_try_from]; now rewrite A|].
  split; [reflexivity|]. split; [cbn; intuition discriminate|discriminate].
Qed.

Lemma note_field m b f s : In m channel_voice2_messages -> wf_buf U32 b -> accepts U32 m b ->
  settable_field U32 m f (Number s) -> number_of m b f = Val (bits b s).
Proof.
  intros Hm W A Hf. assert (Hall : In m all_messages) by (unfold all_messages; rewrite !in_app_iff; tauto).
  unfold number_of. rewrite (get_settable U32 m b f (Number s)); [reflexivity|exact Hall|exact Hf|now apply accepts_holds32].
Qed.

(** The example: a channel voice message with its channel, notes with number and velocity. *)
Theorem C48_handle_voice : forall c b, wf_buf U32 b -> In c (types_of ChannelVoice2) -> accepted U32 c b ->
  handle_message b = Val (PrintChannel (bits b (Seg 0 16 4)) :: about_note c b).
Proof.
  intros c b W T A. unfold handle_message. rewrite (parsed2 c b T A). cbn [bind].
  destruct (C15_channel U32 ChannelVoice2 c b 0%N ltac:(auto) T W A ltac:(reflexivity)) as [Ch _].
  cbn [types_of] in T. apply in_fixed in T as (m & -> & Hm). rewrite Ch. cbn [bind channel_place]. unfold about_note. cbn [type_name].
  unfold accepted in A. cbn [concrete_try_from] in A.
  assert (Fs : (m_name m = "channel_voice2::NoteOn" \/ m_name m = "channel_voice2::NoteOff") ->
    number_of m b "note_number" = Val (bits b (Seg 0 8 7)) /\ number_of m b "velocity" = Val (bits b (Seg 1 16 16))).
  { intros E. split; apply note_field; auto; (split; [|reflexivity]); destruct E as [-> | ->]; apply assoc_in; reflexivity. }
  destruct (String.eqb_spec (m_name m) "channel_voice2::NoteOn") as [E|_].
  { destruct (Fs (or_introl E)) as [-> ->]. reflexivity. }
  destruct (String.eqb_spec (m_name m) "channel_voice2::NoteOff") as [E|_]; [|reflexivity].
  destruct (Fs (or_intror E)) as [-> ->]. reflexivity.
Qed.
Print Assumptions C48_handle_voice.

(** ... a system exclusive message with its payload ... *)
Theorem C48_handle_sysex : forall g s l b, SpecSysex.message SevenBit g s l b -> handle_message b = Val [PrintPayload l].
Proof.
  intros g s l b M. assert (A : sx_try_from fmt7 b = Ok b).
  { apply (message_accepted SevenBit g 0%N l). eapply seven_message; exact M. }
  unfold handle_message. rewrite (parsed7 b A). cbn [bind].
  destruct (message_reads _ _ _ _ _ M) as (_ & P & _). cbn [fmt_of] in P. now rewrite P.
Qed.
Print Assumptions C48_handle_sysex.

(** ... and an error for everything else; it does not panic on any slice of an even number of words. *)
Theorem C48_handle_total : forall b, wf_buf U32 b -> List.length b mod 2 = 0 -> exists ls, handle_message b = Val ls.
Proof.
  intros b W Ev. destruct (proj1 (C47_total example_features) b W) as [r R]. unfold handle_message. rewrite R. cbn [bind].
  destruct r as [[c m]|e]; [|eauto]. apply C47_ump_message in R as [R (f & O & T)]. apply C12_ump_message in R as (_ & A & -> & _).
  destruct f; try discriminate O.
  - destruct T as [<-|[]]. unfold accepted in A. cbn [concrete_try_from] in A.
    destruct (sx_try_from fmt7 b) as [b'|] eqn:X; [|discriminate]. injection A as ->.
    destruct (C26_accepted_reads SevenBit b Ev X) as (k & l & _ & _ & _ & P & _). cbn [fmt_for] in P. rewrite P. cbn [bind]. eauto.
  - pose proof (C48_handle_voice c b W T A) as H. unfold handle_message in H. rewrite (parsed2 c b T A) in H. cbn [bind] in H. eauto.
Qed.
Print Assumptions C48_handle_total.

Theorem C48_handle_error : forall b, wf_buf U32 b ->
  (forall c, In c (CSysex7 :: types_of ChannelVoice2) -> ~ accepted U32 c b) -> exists e, handle_message b = Val [PrintError e].
Proof.
  intros b W H. destruct (proj1 (C47_total example_features) b W) as [r R]. unfold handle_message. rewrite R. cbn [bind].
  destruct r as [[c m]|e]; [|eauto]. exfalso. apply C47_ump_message in R as [R (f & O & T)]. apply C12_ump_message in R as (_ & A & -> & _).
  apply (H c); [|exact A]. destruct f; try discriminate O; [destruct T as [<-|[]]; now left|now right].
Qed.
Print Assumptions C48_handle_error.

(** The slices of the example's [main], lines 39-55 *)
Example C48_handle_case :
  handle_message [0x48985E03; 0x6A14E98A]%N = Val [PrintChannel 8; PrintNoteOn 0x5E 0x6A14]
  /\ handle_message [0x42884E01; 0x9DE6CC6E]%N = Val [PrintChannel 8; PrintNoteOff 0x4E 0x9DE6]
  /\ handle_message [0xF0000101; 0x0000001F]%N = Val [PrintError "Couldn't interpret ump message type"]
  /\ handle_message [0x30160001; 0x02030405; 0x30260607; 0x08090A0B; 0x30260C0D; 0x0E0F1011; 0x30261213; 0x14151617; 0x30361819; 0x1A1B1C1D]%N
     = Val [PrintPayload (map N.of_nat (seq 0 30))].
Proof. repeat split; vm_compute; reflexivity. Qed.

(** A slice that ends inside a system exclusive packet makes the example panic. *)
Theorem C48_handle_panic_refuted : exists b, wf_buf U32 b /\ handle_message b = Panic.
Proof.
  exists [0x30160001; 0x02030405; 0x30360000]%N. split; [repeat constructor|vm_compute; reflexivity].
Qed.
Print Assumptions C48_handle_panic_refuted.
