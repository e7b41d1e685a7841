(** Properties C01 - C11 of the fixed-size messages.
    Vocabulary: SpecLayout.v (wire layout), SpecFixed.v (API vocabulary).
    [u] is the unit of the buffer ([U32] UMP words, [U8] MIDI 1.0 bytes), [m]
    one of the 51 fixed-size message types, [b] the buffer. *)
From Coq Require Import NArith List String Bool Arith Lia ZifyBool ZifyNat ZifyN.
From Verif Require Import Base BitOps Values Schema Helpers Props Message MessageTable SpecLayout SpecFixed
  BitLemmas ListLemmas PropLemmas PropWrite PropValidate Stripes MessageLemmas InitLemmas FixedLemmas
  ConvertLemmas FixedProofs.
Import ListNotations.
Local Open Scope string_scope.
Local Open Scope N_scope.
Local Open Scope list_scope.

Ltac listed := repeat (first [left; reflexivity | right]).
Ltac laid_out := split; [apply find_wire_in; reflexivity|reflexivity].
Ltac holding := split; [repeat constructor|split; [cbn; lia|intros; try discriminate; cbn; lia]].
Ltac stored := eexists; split; [reflexivity|split; reflexivity].

(** ** C01: setter then getter *)

Theorem C01_set_then_get : forall u m f w b v,
  In m all_messages -> settable_field u m f w -> holds u m b -> storable m f v ->
  exists b', set u m b f v = Val b' /\ get u m b' f = Val v.
Proof.
  intros u m f w b v Hm Hf Hh Hv.
  destruct (set_ok u m b f w v Hm Hf Hh Hv) as (b' & E & _ & Hh' & Hd).
  exists b'. split; [exact E|]. rewrite (get_settable u m b' f w) by auto. now rewrite Hd.
Qed.
Print Assumptions C01_set_then_get.

Example C01_case :
  In cv2_note_on all_messages /\
  settable_field U32 cv2_note_on "attribute" (Attribute (Seg 0 0 8) (Seg 1 0 16)) /\
  holds U32 cv2_note_on [0xFFFFFFFF; 0x12345678; 7] /\
  storable cv2_note_on "attribute" (VAttr (Some (Pitch7_9 0xABCD))) /\
  set U32 cv2_note_on [0xFFFFFFFF; 0x12345678; 7] "attribute" (VAttr (Some (Pitch7_9 0xABCD)))
    = Val [0xFFFFFF03; 0x1234ABCD; 7].
Proof. split; [listed|]. split; [laid_out|]. split; [holding|]. split; [stored|reflexivity]. Qed.

(** Values of the right type the setter does not store: [Flats 0] panics ... *)
Theorem C01_flats_zero_refuted : forall b, holds U32 flex_set_key_signature b ->
  has_type TyKeySF (VKeySF (Flats 0)) = true /\
  field_type flex_set_key_signature "sharps_flats" = Some TyKeySF /\
  set U32 flex_set_key_signature b "sharps_flats" (VKeySF (Flats 0)) = Panic.
Proof. intros b _. repeat split; reflexivity. Qed.
Print Assumptions C01_flats_zero_refuted.

(** ... and the per-note controllers with a second spelling read back under the
    first one (chorus send level as the wrong effect depth); indices without a
    code panic.  [reads_back] says which. *)
Theorem C01_controller_spelling : forall b c,
  holds U32 cv2_registered_per_note_controller b -> has_type TyCtl (VCtl c) = true ->
  match reads_back c with
  | Some c' => exists b', set U32 cv2_registered_per_note_controller b "controller" (VCtl c) = Val b' /\
                          get U32 cv2_registered_per_note_controller b' "controller" = Val (VCtl c')
  | None => set U32 cv2_registered_per_note_controller b "controller" (VCtl c) = Panic
  end.
Proof.
  intros b c Hh Ht. destruct (reads_back c) as [c'|] eqn:E.
  - destruct (controller_to_canonical c c' E) as (H1 & H2 & H3).
    destruct (C01_set_then_get U32 cv2_registered_per_note_controller "controller"
                (Controller (Seg 0 0 8) (Seg 1 0 32)) b (VCtl c')) as (b' & E1 & E2); auto.
    + listed.
    + laid_out.
    + exists TyCtl. split; [reflexivity|]. auto.
    + exists b'. split; auto. rewrite <- E1. unfold set. cbn [field m_fields cv2_registered_per_note_controller
        String.eqb Ascii.eqb Bool.eqb prop_write]. now rewrite H1.
  - unfold set. cbn [field m_fields cv2_registered_per_note_controller String.eqb Ascii.eqb Bool.eqb prop_write].
    now rewrite (controller_to_panics c E).
Qed.
Print Assumptions C01_controller_spelling.

Theorem C01_refuted : exists b c b' c',
  holds U32 cv2_registered_per_note_controller b /\ has_type TyCtl (VCtl c) = true /\
  set U32 cv2_registered_per_note_controller b "controller" (VCtl c) = Val b' /\
  get U32 cv2_registered_per_note_controller b' "controller" = Val (VCtl c') /\ c' <> c.
Proof.
  exists [0x40000000; 0], (ChorusSendLevel 9), [0x4000005B; 9], (EffectDepth 1 9).
  split; [holding|]. repeat split; try reflexivity. discriminate.
Qed.
Print Assumptions C01_refuted.

(** ** C02: other getters, and validity, are unaffected *)

Theorem C02_other_fields_unchanged : forall u m f w b v b',
  In m all_messages -> settable_field u m f w -> holds u m b -> storable m f v ->
  set u m b f v = Val b' ->
  (forall g, g <> f -> get u m b' g = get u m b g) /\
  (accepts u m b -> accepts u m b').
Proof.
  intros u m f w b v b' Hm Hf Hh Hv E.
  destruct (set_ok u m b f w v Hm Hf Hh Hv) as (b1 & E1 & Hc & Hh' & _).
  assert (b1 = b') by congruence. subst b1. split.
  - eapply get_other; eauto.
  - eapply accepts_set; eauto.
Qed.
Print Assumptions C02_other_fields_unchanged.

Example C02_case :
  settable_field U8 cv1_note_on "channel" (Number (Seg 0 0 4)) /\ holds U8 cv1_note_on [0x93; 0x40; 0x7F] /\
  storable cv1_note_on "channel" (VNum 12) /\ accepts U8 cv1_note_on [0x93; 0x40; 0x7F] /\
  set U8 cv1_note_on [0x93; 0x40; 0x7F] "channel" (VNum 12) = Val [0x9C; 0x40; 0x7F].
Proof. split; [laid_out|]. split; [holding|]. split; [stored|split; reflexivity]. Qed.

(** ** C03: a setter touches only the bits of its field *)

Theorem C03_only_field_bits : forall u m f w b v b',
  In m all_messages -> settable_field u m f w -> holds u m b -> storable m f v ->
  set u m b f v = Val b' ->
  only_changes (occupies w) b b'.
Proof.
  intros u m f w b v b' Hm Hf Hh Hv E.
  destruct (set_ok u m b f w v Hm Hf Hh Hv) as (b1 & E1 & Hc & _). congruence.
Qed.
Print Assumptions C03_only_field_bits.

(** ** C04: getters read the standard's bit positions *)

Theorem C04_wire_layout : forall u m f w b,
  In m all_messages -> settable_field u m f w -> holds u m b ->
  get u m b f = match decode w b with Some v => Val v | None => Panic end.
Proof. intros u m f w b Hm Hf Hh. now rewrite (get_settable u m b f w). Qed.
Print Assumptions C04_wire_layout.

(** ... and every getter of every message type is covered: each field that is
    not a constant of the type is laid out. *)
Theorem C04_every_field : forall u m f t,
  In m all_messages -> supports u m = true -> field_type m f = Some t -> t <> TyUnit ->
  exists w, In (f, w) (layout u (m_name m)) /\ (settable w = true \/ exists d, w = Absent d).
Proof.
  intros u m f t Hm Hs Ht Hne. unfold field_type in Ht.
  destruct (field (m_fields m) f) as [p|] eqn:E; [|discriminate]. cbn in Ht.
  apply field_in in E as Hin. destruct (facts_of_prop u m f p Hm Hs Hin) as (w & F).
  exists w. split; [apply F|]. destruct (field_type_wire u m f w Hm (ff_layout _ _ _ _ _ F)) as [Hw _].
  unfold field_type in Hw. rewrite E in Hw. cbn in Hw. assert (Et : wire_ty w = t) by congruence.
  destruct w; cbn [wire_ty settable] in *; eauto; congruence.
Qed.
Print Assumptions C04_every_field.

Example C04_case :
  get U32 cv1_pitch_bend [0x2BE3552A] "bend" = Val (VNum (0x55 + 128 * 0x2A)) /\
  decode (Septets (Seg 0 8 7) (Seg 0 0 7)) [0x2BE3552A] = Some (VNum (0x55 + 128 * 0x2A)).
Proof. split; reflexivity. Qed.

(** ** C05: fresh messages are valid and carry the defaults *)

Theorem C05_new : forall u m,
  In m all_messages -> supports u m = true -> constructible u m ->
  exists z, new u m = Val z /\ List.length z = min_size u m /\ accepts u m z /\
    data u m z = Val z /\
    (forall f w, settable_field u m f w -> get u m z f = Val (default_value w)) /\
    (forall b, new_with_buffer u m b = Val z).
Proof.
  intros u m Hm Hs Hc. destruct (new_fresh u m Hm Hs Hc) as (z & Ez & Hf).
  exists z. split; [exact Ez|]. split; [apply Hf|]. split; [apply Hf|]. split; [|split].
  - rewrite <- (app_nil_r z) at 1. apply fresh_data. apply Hf.
  - intros f w Hw. now apply fresh_get.
  - intros b. now rewrite new_with_buffer_eq.
Qed.
Print Assumptions C05_new.

Theorem C05_fixed_buffers : forall u m b n,
  In m all_messages -> supports u m = true -> constructible u m -> wf_buf u b ->
  ((n < min_size u m)%nat -> try_new u m n = Val (Err "BufferOverflow")) /\
  ((List.length b < min_size u m)%nat -> try_new_with_buffer u m b = Val (Err "BufferOverflow")) /\
  ((min_size u m <= n)%nat -> exists b' d,
     array_new u m n = Val b' /\ try_new u m n = Val (Ok b') /\ List.length b' = n /\
     data u m b' = Val d /\ accepts u m d /\
     (forall f w, settable_field u m f w -> get u m b' f = Val (default_value w))) /\
  ((min_size u m <= List.length b)%nat -> calm m b -> exists b' d,
     try_new_with_buffer u m b = Val (Ok b') /\ List.length b' = List.length b /\
     data u m b' = Val d /\ accepts u m d /\
     (forall f w, settable_field u m f w -> get u m b' f = Val (default_value w))).
Proof.
  intros u m b n Hm Hs Hc Hwf. split; [|split; [|split]].
  - intros H. unfold try_new, fixed_try_resize. rewrite repeat_length.
    destruct (Nat.ltb_spec n (min_size u m)); [reflexivity|lia].
  - intros H. unfold try_new_with_buffer, fixed_try_resize.
    destruct (Nat.ltb_spec (List.length b) (min_size u m)); [reflexivity|lia].
  - intros H. destruct (construct_array u m n Hm Hs Hc H) as (z & b' & E1 & Hf & E2 & E3 & E4 & _ & E5 & E6).
    exists b', z. repeat (split; [assumption|]). split; [apply Hf|].
    intros f w Hw. rewrite E6. now apply fresh_get.
  - intros H Hca.
    destruct (construct_with_buffer u m b Hm Hs Hc Hwf H Hca) as (z & b' & E1 & Hf & E2 & E3 & _ & E5 & E6).
    exists b', z. repeat (split; [assumption|]). split; [apply Hf|].
    intros f w Hw. rewrite E6. now apply fresh_get.
Qed.
Print Assumptions C05_fixed_buffers.

Example C05_case :
  constructible U32 flex_set_chord_name /\ calm stream_endpoint_info [1; 2; 3; 4; 0xE0000000] /\
  try_new_with_buffer U32 stream_endpoint_info [1; 2; 3; 4; 0xE0000000]
    = Val (Ok [0xF0010000; 0; 0; 0; 0xE0000000]).
Proof. split; [discriminate|]. split; [|reflexivity]. intros _. right. discriminate. Qed.

(** The message types excluded by [constructible] cannot be constructed. *)
Theorem C05_unconstructible_refuted :
  new U32 stream_function_block_discovery = Panic /\ new U8 sys_song_position_pointer = Panic.
Proof. split; reflexivity. Qed.
Print Assumptions C05_unconstructible_refuted.

(** On a dirty buffer that is not [calm] the new message is invalid. *)
Theorem C05_dirty_stream_refuted : exists b b' d e,
  wf_buf U32 b /\ try_new_with_buffer U32 stream_endpoint_info b = Val (Ok b') /\
  data U32 stream_endpoint_info b' = Val d /\ try_from U32 stream_endpoint_info d = Val (Err e).
Proof.
  exists [0; 0; 0; 0; 0xF0000000; 0; 0; 0]. do 3 eexists.
  split; [repeat constructor|]. repeat split; reflexivity.
Qed.
Print Assumptions C05_dirty_stream_refuted.

(** ** C06: parsing never panics *)

Theorem C06_try_from_total : forall u m b,
  In m all_messages -> supports u m = true -> wf_buf u b ->
  exists r, try_from u m b = Val r /\ (forall b', r = Ok b' -> b' = b).
Proof.
  intros u m b Hm Hs Hwf. destruct (try_from_spec u m b Hm Hs Hwf) as (r & E & H & _). eauto.
Qed.
Print Assumptions C06_try_from_total.

(** ** C07: parsing accepts exactly the well-formed slices *)

Theorem C07_accepts_exactly : forall u m b,
  In m all_messages -> supports u m = true -> wf_buf u b -> scans_packets m = false ->
  (accepts u m b <-> (min_size u m <= List.length b)%nat /\ meaningful u m b).
Proof. intros. now apply accepts_bare. Qed.
Print Assumptions C07_accepts_exactly.

Theorem C07_accepts_exactly_one_packet : forall u m b,
  In m all_messages -> supports u m = true -> wf_buf u b ->
  sized u m -> List.length b = units u (m_name m) ->
  (accepts u m b <-> meaningful u m b).
Proof. intros. now apply accepts_one. Qed.
Print Assumptions C07_accepts_exactly_one_packet.

(** On longer slices the flex data messages also constrain what follows. *)
Theorem C07_flex_data : forall m b,
  In m all_messages -> String.prefix "flex_data::" (m_name m) = true -> wf_buf U32 b ->
  (accepts U32 m b <-> (4 <= List.length b)%nat /\ meaningful U32 m b /\
     packets_agree 0 8 b /\ packets_agree 8 8 b).
Proof. intros. now apply accepts_flex. Qed.
Print Assumptions C07_flex_data.

Theorem C07_ump_stream : forall m b,
  In m all_messages -> String.prefix "ump_stream::" (m_name m) = true -> wf_buf U32 b ->
  (4 <= List.length b)%nat ->
  (accepts U32 m b <->
     (forall f w, In (f, w) (layout U32 (m_name m)) -> f <> "consistent_formats" -> decode w b <> None) /\
     packets_agree 16 10 b /\
     (forall k, leading 4 0xF b k -> framed (fun i => bits b (Seg (4 * i) 26 2)) 0 1 2 3 k)).
Proof. intros. now apply accepts_stream. Qed.
Print Assumptions C07_ump_stream.

(** Which message types have a [MIN_SIZE] other than the standard's, and the [MIN_SIZE] of each type. *)
Theorem C07_sizes : forall u m, In m all_messages -> supports u m = true ->
  (sized u m <-> ~ In (u, m_name m) odd_sizes) /\ min_size u m = demanded u (m_name m).
Proof.
  intros u m Hm Hs. split; [now apply sized_iff|].
  assert (H : forallb (fun m => negb (supports u m) || Nat.eqb (min_size u m) (demanded u (m_name m))) all_messages = true)
    by (destruct u; vm_compute; reflexivity).
  rewrite forallb_forall in H. specialize (H m Hm). rewrite Hs in H. now apply Nat.eqb_eq.
Qed.
Print Assumptions C07_sizes.

Example C07_case :
  accepts U32 flex_set_key_signature [0xD0100005; 0x91000000; 0; 0] /\
  meaningful U32 flex_set_key_signature [0xD0100005; 0x91000000; 0; 0] /\
  ~ meaningful U32 flex_set_key_signature [0xD0100005; 0x98000000; 0; 0] /\
  sized U32 flex_set_key_signature.
Proof.
  split; [reflexivity|]. split; [|split; [|reflexivity]].
  - apply accepts_one; try reflexivity. listed. repeat constructor.
  - intros H. assert (A : accepts U32 flex_set_key_signature [0xD0100005; 0x98000000; 0; 0]).
    { apply accepts_one; try reflexivity; auto. listed. repeat constructor. }
    discriminate A.
Qed.

(** A valid tempo message followed by a valid time signature is rejected. *)
Theorem C07_trailing_flex_refuted : exists a b e,
  accepts U32 flex_set_tempo a /\ accepts U32 flex_set_time_signature b /\
  try_from U32 flex_set_tempo (a ++ b) = Val (Err e).
Proof.
  exists [0xD0100000; 50000000; 0; 0], [0xD0100001; 0x04020000; 0; 0]. eexists.
  repeat split; reflexivity.
Qed.
Print Assumptions C07_trailing_flex_refuted.

(** A start packet and an end packet are accepted as one fixed-size stream message. *)
Theorem C07_stream_multi_packet_refuted : exists b,
  accepts U32 stream_start_of_clip b /\ ~ meaningful U32 stream_start_of_clip b.
Proof.
  exists [0xF4200000; 0; 0; 0; 0xFC200000; 0; 0; 0]. split; [reflexivity|].
  intros H. apply (H "consistent_formats" (Fixed (Seg 0 26 2) 0)); [apply find_wire_in; reflexivity|reflexivity].
Qed.
Print Assumptions C07_stream_multi_packet_refuted.

(** Standard-conforming tune request and time code byte messages are rejected;
    a truncated song position pointer and a one-word function block discovery
    with another message's status are accepted. *)
Theorem C07_sizes_refuted : exists e,
  try_from U8 sys_tune_request [0xF6] = Val (Err e) /\
  try_from U8 sys_time_code [0xF1; 0x35] = Val (Err e) /\
  accepts U8 sys_song_position_pointer [0xF2; 0x01] /\
  accepts U32 stream_function_block_discovery [0xF0210000].
Proof. eexists. repeat split; reflexivity. Qed.
Print Assumptions C07_sizes_refuted.

(** ** C08: getters of an accepted message never panic *)

Theorem C08_accepted_safe : forall u m b,
  In m all_messages -> supports u m = true -> holds u m b -> accepts u m b ->
  (forall f w, settable_field u m f w ->
     exists v t, get u m b f = Val v /\ field_type m f = Some t /\ has_type t v = true) /\
  (forall f d, In (f, Absent d) (layout u (m_name m)) ->
     exists t, get u m b f = Val d /\ field_type m f = Some t /\ has_type t d = true) /\
  data u m b = Val (firstn (min_size u m) b) /\
  (u = U32 -> packets m b = Val [firstn (min_size u m) b]).
Proof.
  intros u m b Hm Hs Hh Ha. split; [|split; [|split]].
  - intros f w Hf. destruct (accepts_get u m b f w Hm Hf Hh Ha) as (v & t & H1 & _ & H2 & H3). eauto.
  - intros f d Hf. destruct (field_type_wire u m f _ Hm Hf) as [Ht Hsh]. exists (wire_ty (Absent d)).
    split; [now apply get_absent|]. split; [exact Ht|]. now apply (decode_typed (Absent d) b).
  - apply data_ok. apply Hh.
  - intros ->. unfold packets. destruct Hh as (_ & Hl & _). rewrite data_ok by exact Hl. cbn [bind]. f_equal.
    apply one_packet; [now apply min_size_pos|]. rewrite firstn_length. lia.
Qed.
Print Assumptions C08_accepted_safe.

Example C08_case :
  holds U32 stream_function_block_info [0xF0118507; 0x01020304; 0; 0] /\
  accepts U32 stream_function_block_info [0xF0118507; 0x01020304; 0; 0] /\
  get U32 stream_function_block_info [0xF0118507; 0x01020304; 0; 0] "direction" = Val (VDir Bidirectional).
Proof. split; [holding|]. split; reflexivity. Qed.

Theorem C08_song_position_refuted : exists b,
  wf_buf U8 b /\ accepts U8 sys_song_position_pointer b /\
  get U8 sys_song_position_pointer b "position" = Panic.
Proof. exists [0xF2; 0x01]. repeat split; repeat constructor. Qed.
Print Assumptions C08_song_position_refuted.

(** ** C09: any history of setters keeps a message valid *)

Theorem C09_histories : forall u m b h,
  In m all_messages -> supports u m = true -> holds u m b -> legal u m h ->
  exists b', run_sets u m b h = Val b' /\ List.length b' = List.length b /\
    (accepts u m b -> accepts u m b') /\
    (sized u m -> meaningful u m b -> exists d, data u m b' = Val d /\ accepts u m d) /\
    (forall f w, settable_field u m f w ->
       get u m b' f = match last_set f h with Some v => Val v | None => get u m b f end).
Proof.
  intros u m b h Hm Hs Hh Hl.
  destruct (run_sets_ok u m h Hm Hl b Hh) as (b' & E & Hh' & El & Ha & Hg & _).
  exists b'. split; [exact E|]. split; [exact El|]. split; [exact Ha|]. split.
  - intros Hz Hmean. exists (firstn (min_size u m) b'). destruct Hh' as (Hwf' & Hl' & _).
    split; [now apply data_ok|].
    pose proof (run_sets_meaningful u m b h b' Hm Hl Hh E Hmean) as Hm'.
    assert (Elen : List.length (firstn (min_size u m) b') = min_size u m) by (rewrite firstn_length; lia).
    apply accepts_one; auto; [now apply wf_firstn|now rewrite Elen|].
    intros f w Hin. rewrite (firstn_decode u m f) by (auto; rewrite sized_room; auto). now apply (Hm' f).
  - intros f w Hf. rewrite (get_settable u m b' f w), (get_settable u m b f w) by auto. rewrite (Hg f w Hf).
    now destruct (last_set f h).
Qed.
Print Assumptions C09_histories.

Example C09_case :
  legal U32 cv1_pitch_bend [("bend", VNum 1); ("channel", VNum 3); ("bend", VNum 0x3FFF)] /\
  run_sets U32 cv1_pitch_bend [0x20E00000] [("bend", VNum 1); ("channel", VNum 3); ("bend", VNum 0x3FFF)]
    = Val [0x20E37F7F].
Proof.
  split; [|reflexivity].
  repeat constructor; cbn [fst snd]; try (eexists; laid_out); stored.
Qed.

(** ** C10: data() is a self-contained prefix *)

Theorem C10_data_self_contained : forall u m b,
  In m all_messages -> supports u m = true -> wf_buf u b -> sized u m -> accepts u m b -> complete m b ->
  exists d t, b = d ++ t /\ data u m b = Val d /\ List.length d = units u (m_name m) /\
    accepts u m d /\ (forall g, get u m d g = get u m b g) /\
    (forall t', wf_buf u t' -> data u m (d ++ t') = Val d /\ forall g, get u m (d ++ t') g = get u m b g).
Proof.
  intros u m b Hm Hs Hwf Hz Ha Hc.
  assert (Hl : (min_size u m <= List.length b)%nat) by (apply accepts_iff in Ha; tauto).
  pose proof (accepts_meaningful u m b Hm Hs Hwf Ha Hz Hc) as Hmean.
  pose proof (data_ok u m b Hl) as Ed.
  destruct (data_reparses u m b _ Hm Hs Hwf Hz Ha Hmean Ed) as (El & Had & _).
  exists (firstn (min_size u m) b), (skipn (min_size u m) b).
  assert (Hhb : holds u m b) by now apply sized_holds.
  assert (Hhd : holds u m (firstn (min_size u m) b)).
  { apply sized_holds; auto; [now apply wf_firstn|lia]. }
  split; [symmetry; apply firstn_skipn|]. split; [exact Ed|]. split; [unfold sized in Hz; congruence|].
  split; [exact Had|]. split; [now apply get_firstn|]. intros t' Ht'. split.
  - now apply fresh_data.
  - intros g. rewrite get_app by auto. now apply get_firstn.
Qed.
Print Assumptions C10_data_self_contained.

(** Trailing units do not affect acceptance either, except in the families that
    scan packets ([C07_flex_data], [C07_ump_stream], [C07_trailing_flex_refuted]). *)
Theorem C10_trailing_units : forall u m b t,
  In m all_messages -> supports u m = true -> wf_buf u b -> wf_buf u t -> scans_packets m = false ->
  holds u m b -> accepts u m b -> accepts u m (b ++ t).
Proof.
  intros u m b t Hm Hs Hwf Ht Hsc Hh Ha. apply accepts_bare in Ha as [H1 H2]; auto.
  apply accepts_bare; auto; [now apply Forall_app|]. rewrite app_length. split; [lia|].
  intros f w Hin. rewrite (app_decode u m f) by (auto; now apply holds_room). now apply (H2 f).
Qed.
Print Assumptions C10_trailing_units.

Example C10_case :
  accepts U32 cv2_program_change [0x43C50001; 0x05000102; 9; 9] /\
  data U32 cv2_program_change [0x43C50001; 0x05000102; 9; 9] = Val [0x43C50001; 0x05000102].
Proof. split; reflexivity. Qed.

Theorem C10_stream_multi_packet_refuted : exists b d e,
  accepts U32 stream_start_of_clip b /\ data U32 stream_start_of_clip b = Val d /\
  try_from U32 stream_start_of_clip d = Val (Err e).
Proof.
  exists [0xF4200000; 0; 0; 0; 0xFC200000; 0; 0; 0]. do 2 eexists. repeat split; reflexivity.
Qed.
Print Assumptions C10_stream_multi_packet_refuted.

(** ** C11: rebuffering preserves the message *)

Theorem C11_rebuffer : forall u m b n,
  In m all_messages -> supports u m = true -> holds u m b ->
  (data u m (rebuffer_vec b) = data u m b /\ forall g, get u m (rebuffer_vec b) g = get u m b g) /\
  ((exists e, try_rebuffer_array b n = Err e) <-> (n < List.length b)%nat) /\
  (forall b', try_rebuffer_array b n = Ok b' ->
     List.length b' = n /\ data u m b' = data u m b /\ forall g, get u m b' g = get u m b g) /\
  (forall b', array_rebuffer u m b n = Val b' ->
     List.length b' = n /\ data u m b' = data u m b /\
     (holds u m (firstn (min_size u m) b) -> forall g, get u m b' g = get u m b g)) /\
  ((min_size u m <= n)%nat -> exists b', array_rebuffer u m b n = Val b').
Proof.
  intros u m b n Hm Hs Hh. pose proof Hh as (Hwf & Hl & _). split; [|split; [|split; [|split]]].
  - unfold rebuffer_vec. auto.
  - unfold try_rebuffer_array. destruct (Nat.ltb_spec n (List.length b)); split; intros; eauto; try lia.
    destruct H0. discriminate.
  - intros b' E. unfold try_rebuffer_array in E. destruct (Nat.ltb_spec n (List.length b)); [discriminate|].
    assert (b' = b ++ repeat 0 (n - List.length b)) by congruence. subst b'.
    split; [rewrite app_length, repeat_length; lia|]. split.
    + rewrite !data_ok by (rewrite ?app_length; lia). f_equal. rewrite firstn_app.
      replace (min_size u m - List.length b)%nat with 0%nat by lia. cbn. apply app_nil_r.
    + apply get_app; auto. apply wf_repeat.
  - intros b' E. unfold array_rebuffer in E. rewrite data_ok in E by auto. cbn [bind] in E.
    assert (Ef : List.length (firstn (min_size u m) b) = min_size u m) by (rewrite firstn_length; lia).
    rewrite Ef in E. destruct (Nat.ltb_spec n (min_size u m)); [discriminate|].
    assert (b' = firstn (min_size u m) b ++ repeat 0 (n - min_size u m)) by congruence. subst b'.
    split; [rewrite app_length, repeat_length; lia|]. split.
    + rewrite fresh_data by auto. now rewrite data_ok.
    + intros Hf g. rewrite get_app by (auto; apply wf_repeat). now apply get_firstn.
  - intros Hn. unfold array_rebuffer. rewrite data_ok by auto. cbn [bind]. rewrite firstn_length.
    destruct (Nat.ltb_spec n (Nat.min (min_size u m) (List.length b))); [lia|]. eauto.
Qed.
Print Assumptions C11_rebuffer.

Example C11_case :
  try_rebuffer_array [0x43C50001; 0x05000102] 3 = Ok [0x43C50001; 0x05000102; 0] /\
  array_rebuffer U32 cv2_program_change [0x43C50001; 0x05000102; 9] 2 = Val [0x43C50001; 0x05000102].
Proof. split; reflexivity. Qed.
