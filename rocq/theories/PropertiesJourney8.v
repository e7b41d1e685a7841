(** C58: an 8-bit system exclusive message keeps its payload through any sequence of
    edits and copies between growable buffers and arrays. *)
From Coq Require Import NArith List Bool Arith Lia.
From Verif Require Import Base Values Message Sysex Splice SpecSysex SpecEdits SysexClient SysexBridge SysexInit SysexIds SpecJourney8 Journey8 JourneyLemmas8 PropertiesSysex.
Import ListNotations.
Local Open Scope nat_scope.

(** What a client that holds [h] reads, if [v] is what it should see.  The packets
    returned by [data] are accepted again. *)
Definition reads_as8 (v : view8) (h : held8) : Prop :=
  k_array h = w_array v /\ List.length (k_buffer h) = w_length v
  /\ payload_list fmt8 (k_buffer h) = Val (w_payload v)
  /\ payload_size fmt8 (k_buffer h) = Val (List.length (w_payload v))
  /\ Sysex.group (k_buffer h) = Val (w_group v) /\ stream_id (k_buffer h) = Val 0%N
  /\ exists d, sx_data fmt8 (k_buffer h) = Val d /\ List.length d = words8 (w_payload v)
       /\ d = firstn (List.length d) (k_buffer h)
       /\ message EightBit (w_group v) (Some 0%N) (w_payload v) d /\ sx_try_from fmt8 d = Ok d.

Lemma shows_read_as8 v h : shows8 v h -> reads_as8 v h.
Proof.
  intros (Ha & Hl & M & _). split; [exact Ha|]. split; [exact Hl|].
  destruct (message_in_reads _ _ _ _ _ M) as ((d & D & Md & Fd) & R & Z & G). cbn [fmt_of] in *.
  split; [exact R|]. split; [exact Z|]. split; [exact G|]. split.
  - destruct M as ((k & C & _) & _). rewrite (stream_id_of _ _ _ _ _ C). f_equal.
    exact (ca_stream _ _ _ _ _ _ C 0 (ca_some _ _ _ _ _ _ C) eq_refl).
  - exists d. split; [exact D|]. split; [exact (packets_of8 _ _ _ _ Md)|]. split; [exact Fd|]. split; [exact Md|].
    exact (message_accepted EightBit _ _ _ _ Md).
Qed.

(** From [new()] or [try_new()]. *)
Theorem C58_journeys8 : forall a ss,
  (forall n, a = Some n -> 4 <= n /\ n mod 4 = 0) -> all_permitted8 ss (start8 a) ->
  exists h0 h, set_out8 a = Val (Ok h0)
    /\ journey8 ss h0 = Val (h, snd (itinerary8 ss (start8 a)))
    /\ reads_as8 (fst (itinerary8 ss (start8 a))) h.
Proof.
  intros a ss H1 P. destruct (start_ok8 a H1) as (h0 & E0 & S0).
  destruct (journey_ok8 ss _ _ S0 P) as (h & E & S). exists h0, h. split; [exact E0|]. split; [exact E|]. now apply shows_read_as8.
Qed.
Print Assumptions C58_journeys8.

(** From a message that was received with stream id 0. *)
Theorem C58_from_packets8 : forall g l b ss, message EightBit g (Some 0%N) l b ->
  let v := {| w_array := false; w_length := List.length b; w_payload := l; w_group := g |} in
  all_permitted8 ss v ->
  exists h, journey8 ss (holding false b) = Val (h, snd (itinerary8 ss v))
    /\ reads_as8 (fst (itinerary8 ss v)) h.
Proof.
  intros g l b ss M v P. destruct (journey_ok8 ss v (holding false b)) as (h & E & S); [|exact P|].
  - split; [reflexivity|]. split; [reflexivity|]. split; [now apply CopyLemmas.message_scrap|].
    cbn [v w_length]. rewrite (packets_of8 _ _ _ _ M). apply words8_whole.
  - exists h. split; [exact E|]. now apply shows_read_as8.
Qed.
Print Assumptions C58_from_packets8.

(** The route does not matter: if no edit fails, the payload is that of the edits alone. *)
Lemma route_free8 ss : forall v,
  (forall pre e post, ss = pre ++ Edit8 e :: post ->
     nth (List.length pre) (snd (itinerary8 ss v)) false = true) ->
  w_payload (fst (itinerary8 ss v)) = final_payload (edits_of8 ss) (w_payload v).
Proof.
  induction ss as [|s t IH]; intros v H; [reflexivity|]. cbn [itinerary8].
  destruct (travels8 s v) as [v' ok] eqn:T. destruct (itinerary8 t v') as [v'' oks] eqn:I. cbn [fst].
  assert (X : w_payload v'' = final_payload (edits_of8 t) (w_payload v')).
  { specialize (IH v'). rewrite I in IH. cbn [fst snd] in IH. apply IH. intros pre e post ->.
    specialize (H (s :: pre) e post eq_refl). cbn [itinerary8] in H. rewrite T, I in H. cbn [snd List.length nth] in H. exact H. }
  rewrite X. clear X. destruct s as [e| |n|n].
  - change (edits_of8 (Edit8 e :: t)) with (e :: edits_of8 t). cbn [final_payload]. f_equal.
    specialize (H [] e t eq_refl). cbn [itinerary8] in H. rewrite T, I in H. cbn [snd List.length nth] in H. subst ok.
    cbn [travels8] in T. unfold fixed_outcome in T. destruct (w_array v); [|injection T as <-; reflexivity].
    destruct (_ <=? _); congruence || (injection T as <-; reflexivity).
  - injection T as <- <-. reflexivity.
  - cbn [travels8] in T. destruct (_ <=? _); injection T as <- <-; reflexivity.
  - injection T as <- <-. reflexivity.
Qed.

Theorem C58_route_free8 : forall a ss h0 h oks,
  (forall n, a = Some n -> 4 <= n /\ n mod 4 = 0) -> all_permitted8 ss (start8 a) ->
  set_out8 a = Val (Ok h0) -> journey8 ss h0 = Val (h, oks) ->
  (forall pre e post, ss = pre ++ Edit8 e :: post -> nth (List.length pre) oks false = true) ->
  payload_list fmt8 (k_buffer h) = Val (final_payload (edits_of8 ss) []).
Proof.
  intros a ss h0 h oks H1 P E0 E O. destruct (C58_journeys8 a ss H1 P) as (h0' & h' & E0' & E' & R).
  assert (h0' = h0) by congruence. subst h0'. assert (Q : (h', snd (itinerary8 ss (start8 a))) = (h, oks)) by congruence.
  injection Q as -> <-. destruct R as (_ & _ & R & _). rewrite R. f_equal.
  rewrite (route_free8 ss (start8 a) O). now destruct a.
Qed.
Print Assumptions C58_route_free8.

(** Thirty bytes set in a [Vec], tried in an array that is too small, put in a larger
    one with a packet to spare, copied back with that packet, shortened, and edited in
    an array until they overflow. *)
Definition tour8 : list leg8 :=
  [Edit8 (SetGroup 5); Edit8 (SetPayload (exactly (up 30))); CopyToArray8 8; CopyToArray8 16;
   Edit8 (AppendByte 200); CopyToVec8; Edit8 (SetByte 255 0);
   Edit8 (SplicePayload (src (up 4) (0, None)) (Included 2) (Excluded 21)); CopyData8 8;
   Edit8 (InsertPayload (exactly [3%N]) 4); Edit8 (AppendPayload (exactly (up 10)))].
Example C58_case8 : all_permitted8 tour8 (start8 None)
  /\ itinerary8 (firstn 10 tour8) (start8 None)
     = ({| w_array := true; w_length := 8; w_payload := [255; 2; 1; 2; 3; 3; 4; 22; 23; 24; 25; 26; 27; 28; 29; 30; 200]%N; w_group := 5 |},
        [true; true; false; true; true; true; true; true; true; true])
  /\ itinerary8 tour8 (start8 None)
     = ({| w_array := true; w_length := 8; w_payload := []; w_group := 5 |},
        [true; true; false; true; true; true; true; true; true; true; false]).
Proof.
  split; [|split; vm_compute; reflexivity].
  assert (U : forall n, n <= 100 -> Forall (is_unit EightBit) (up n)).
  { intros n Hn. apply Forall_forall. intros x Hx. apply in_map_iff in Hx. destruct Hx as (y & <- & Hy). apply in_seq in Hy. cbn. lia. }
  cbn [all_permitted8 tour8].
  split; [split; [reflexivity|discriminate]|]. split; [split; [apply U; lia|discriminate]|].
  split; [reflexivity|]. split; [reflexivity|].
  split; [split; [reflexivity|intros _; exact Logic.I]|]. split; [exact Logic.I|].
  split; [split; [split; [reflexivity|cbn; lia]|discriminate]|].
  split; [split; [split; [apply U; lia|cbn; lia]|discriminate]|].
  split; [split; [vm_compute; lia|reflexivity]|].
  split; [split; [split; [apply Forall_cons; [reflexivity|constructor]|cbn; lia]|intros _; cbn; lia]|].
  split; [split; [apply U; lia|intros _; cbn; lia]|exact Logic.I].
Qed.
