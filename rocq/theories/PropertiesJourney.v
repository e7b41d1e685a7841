(** C58: a 7-bit system exclusive message keeps its payload through any sequence of
    edits, conversions and copies between buffers of all kinds. *)
From Coq Require Import NArith List Bool Arith Lia.
From Verif Require Import Base Values Message Sysex Splice SpecSysex SpecEdits SysexClient SpecJourney Journey JourneyLemmas PropertiesSysex.
Import ListNotations.
Local Open Scope nat_scope.

(** What a client that holds [h] reads, if [v] is what it should see. *)
Definition reads_as (v : view) (h : held) : Prop :=
  h_place h = v_place v /\ List.length (h_buffer h) = v_length v
  /\ read_payload h = Val (v_payload v) /\ read_group h = Val (v_group v)
  /\ exists d, read_data h = Val d /\ List.length d = length_in (v_place v) (v_payload v)
       /\ d = firstn (List.length d) (h_buffer h)
       /\ if in_packets v then message SevenBit (v_group v) None (v_payload v) d /\ sx_try_from fmt7 d = Ok d
          else d = stream_bytes (v_payload v) /\ try_from_b d = Ok d.

Lemma shows_read_as v h : shows v h -> reads_as v h.
Proof.
  intros H. destruct (shows_reads v h H) as (P & G & _ & D). destruct H as (Hp & Hl & _).
  split; [exact Hp|]. split; [exact Hl|]. auto.
Qed.

(** From [new()]. *)
Theorem C58_journeys : forall p n ss,
  (p = PacketArray \/ p = ByteArray -> 2 <= n) -> (p = PacketArray -> n mod 2 = 0) ->
  all_permitted ss (start p n) ->
  exists h0 h, set_out p n = Val (Ok h0)
    /\ journey ss h0 = Val (h, snd (itinerary ss (start p n)))
    /\ reads_as (fst (itinerary ss (start p n))) h.
Proof.
  intros p n ss H1 H2 P. destruct (start_ok p n H1 H2) as (h0 & E0 & S0).
  destruct (journey_ok ss _ _ S0 P) as (h & E & S). exists h0, h. split; [exact E0|]. split; [exact E|]. now apply shows_read_as.
Qed.
Print Assumptions C58_journeys.

(** From a message that was received: packets, or bytes. *)
Theorem C58_from_packets : forall g l b ss, message SevenBit g None l b ->
  let v := {| v_place := PacketVec; v_length := List.length b; v_payload := l; v_group := g |} in
  all_permitted ss v ->
  exists h, journey ss {| h_place := PacketVec; h_buffer := b |} = Val (h, snd (itinerary ss v))
    /\ reads_as (fst (itinerary ss v)) h.
Proof.
  intros g l b ss M v P. destruct (journey_ok ss v {| h_place := PacketVec; h_buffer := b |}) as (h & E & S); [|exact P|].
  - split; [reflexivity|]. split; [reflexivity|]. split; [now apply CopyLemmas.message_scrap|].
    cbn [v v_length]. rewrite (packets_of _ _ _ M). cbn [length_in]. rewrite Nat.mul_comm. apply Nat.mod_mul. lia.
  - exists h. split; [exact E|]. now apply shows_read_as.
Qed.
Print Assumptions C58_from_packets.

Theorem C58_from_bytes : forall l ss, Forall (is_unit SevenBit) l ->
  let v := {| v_place := ByteVec; v_length := List.length l + 2; v_payload := l; v_group := 0%N |} in
  all_permitted ss v ->
  exists h, journey ss {| h_place := ByteVec; h_buffer := stream_bytes l |} = Val (h, snd (itinerary ss v))
    /\ reads_as (fst (itinerary ss v)) h.
Proof.
  intros l ss Hl v P. destruct (journey_ok ss v {| h_place := ByteVec; h_buffer := stream_bytes l |}) as (h & E & S); [|exact P|].
  - split; [reflexivity|]. split; [apply stream_length|]. split; [exists []; split; [symmetry; apply app_nil_r|constructor]|]. split; [exact Hl|reflexivity].
  - exists h. split; [exact E|]. now apply shows_read_as.
Qed.
Print Assumptions C58_from_bytes.

(** The route does not matter: if no edit fails, the payload is that of the edits alone. *)
Lemma route_free ss : forall v,
  (forall pre e post, ss = pre ++ Edit e :: post ->
     nth (List.length pre) (snd (itinerary ss v)) false = true) ->
  v_payload (fst (itinerary ss v)) = final_payload (edits_of ss) (v_payload v).
Proof.
  induction ss as [|s t IH]; intros v H; [reflexivity|]. cbn [itinerary].
  destruct (travels s v) as [v' ok] eqn:T. destruct (itinerary t v') as [v'' oks] eqn:I. cbn [fst].
  assert (X : v_payload v'' = final_payload (edits_of t) (v_payload v')).
  { specialize (IH v'). rewrite I in IH. cbn [fst snd] in IH. apply IH. intros pre e post ->.
    specialize (H (s :: pre) e post eq_refl). cbn [itinerary] in H. rewrite T, I in H. cbn [snd List.length nth] in H. exact H. }
  rewrite X. clear X.
  assert (K : forall n : view, v_payload n = v_payload v ->
    final_payload (edits_of t) (v_payload n) = final_payload (edits_of t) (v_payload v)) by (intros n ->; reflexivity).
  destruct s as [e| |n| |n| |n|n].
  - change (edits_of (Edit e :: t)) with (e :: edits_of t). cbn [final_payload]. f_equal.
    specialize (H [] e t eq_refl). cbn [itinerary] in H. rewrite T, I in H. cbn [snd List.length nth] in H. subst ok.
    cbn [travels] in T. unfold fixed_outcome in T. destruct (v_place v); try (injection T as <-; reflexivity);
      destruct (_ <=? _); congruence || (injection T as <-; reflexivity).
  - injection T as <- <-. reflexivity.
  - cbn [travels] in T. unfold if_fits in T. destruct (_ <=? _); injection T as <- <-; reflexivity.
  - injection T as <- <-. reflexivity.
  - cbn [travels] in T. unfold if_fits in T. destruct (_ <=? _); injection T as <- <-; reflexivity.
  - injection T as <- <-. reflexivity.
  - cbn [travels] in T. unfold if_fits in T. destruct (_ <=? _); injection T as <- <-; reflexivity.
  - injection T as <- <-. reflexivity.
Qed.

Theorem C58_route_free : forall p n ss h0 h oks,
  (p = PacketArray \/ p = ByteArray -> 2 <= n) -> (p = PacketArray -> n mod 2 = 0) ->
  all_permitted ss (start p n) ->
  set_out p n = Val (Ok h0) -> journey ss h0 = Val (h, oks) ->
  (forall pre e post, ss = pre ++ Edit e :: post -> nth (List.length pre) oks false = true) ->
  read_payload h = Val (final_payload (edits_of ss) []).
Proof.
  intros p n ss h0 h oks H1 H2 P E0 E O. destruct (C58_journeys p n ss H1 H2 P) as (h0' & h' & E0' & E' & R).
  assert (h0' = h0) by congruence. subst h0'. assert (Q : (h', snd (itinerary ss (start p n))) = (h, oks)) by congruence.
  injection Q as -> <-. destruct R as (_ & _ & R & _). rewrite R. f_equal. now apply (route_free ss (start p n)).
Qed.
Print Assumptions C58_route_free.

(** Twenty bytes set in packets, converted, shortened as bytes, tried in an array that
    is too small, put in a larger one, edited there until it overflows, copied back. *)
Definition tour : list leg :=
  [Edit (SetGroup 5); Edit (SetPayload (exactly (up 20))); ToBytes;
   Edit (SplicePayload (src (up 4) (0, None)) (Included 2) (Excluded 9)); CopyToArray 10; ToPacketArray 4; ToPacketArray 8;
   Edit (AppendByte 7); CopyToVec; Edit (SetByte 1 0); CopyData 6; ToByteArray 21; Edit (InsertPayload (exactly [3%N]) 4);
   CopyToVec; Edit (SplicePayload (exactly []) (Included 0) (Excluded 1)); ToPackets; CopyToArray 6; Edit (AppendPayload (exactly (up 1)))].
Example C58_case : all_permitted tour (start PacketVec 0)
  /\ itinerary tour (start PacketVec 0)
     = ({| v_place := PacketArray; v_length := 6; v_payload := []; v_group := 0 |},
        [true; true; true; true; false; false; true; true; true; true; true; true; true; true; true; true; true; false]).
Proof.
  split; [|vm_compute; reflexivity].
  assert (U : forall n, n <= 100 -> Forall (is_unit SevenBit) (up n)) by (intros; apply up_units; lia).
  cbn [all_permitted tour].
  split; [split; [reflexivity|exact Logic.I]|]. split; [split; [apply U; lia|exact Logic.I]|].
  split; [reflexivity|]. split; [split; [split; [apply U; lia|cbn; lia]|exact Logic.I]|].
  split; [discriminate|]. split; [split; reflexivity|]. split; [split; reflexivity|].
  split; [split; [reflexivity|exact Logic.I]|]. split; [exact Logic.I|].
  split; [split; [split; [reflexivity|cbn; lia]|exact Logic.I]|]. split; [split; [cbn; lia|reflexivity]|].
  split; [reflexivity|]. split; [split; [split; [apply Forall_cons; [reflexivity|constructor]|cbn; lia]|split; [reflexivity|cbn; lia]]|].
  split; [exact Logic.I|]. split; [split; [split; [constructor|cbn; lia]|exact Logic.I]|].
  split; [reflexivity|]. split; [intros _; reflexivity|].
  split; [split; [apply U; lia|exact Logic.I]|exact Logic.I].
Qed.
