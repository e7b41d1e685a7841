(** Properties C14 (bytes <-> UMP conversion), C33 (clean MIDI 1.0 bytes), C40
    (caller-supplied buffers) for the fixed-size messages, C36 (7-bit encoding)
    and C38 (enumerated codes). *)
From Coq Require Import NArith List String Bool Arith Lia ZifyBool ZifyNat ZifyN.
From Verif Require Import Base BitOps Encode7 Values Schema Helpers Props Message MessageTable SpecLayout SpecFixed
  BitLemmas ListLemmas PropLemmas PropWrite PropValidate Stripes MessageLemmas InitLemmas FixedLemmas
  ConvertLemmas FixedProofs ConvertProofs PropertiesFixed.
Import ListNotations.
Local Open Scope string_scope.
Local Open Scope N_scope.
Local Open Scope list_scope.

(** ** C14 *)

Theorem C14_from_bytes : forall m b n,
  In m all_messages -> supports U8 m = true -> holds U8 m b -> accepts U8 m b ->
  exists p, from_bytes m b = Val p /\ List.length p = units U32 (m_name m) /\ accepts U32 m p /\
    data U32 m p = Val p /\
    (forall f w, settable_field U32 m f w -> get U32 m p f = get U8 m b f) /\
    get U32 m p "group" = Val (VNum 0) /\
    try_from_bytes m b n = Val (if (n <? units U32 (m_name m))%nat then Err "BufferOverflow"
                                else Ok (p ++ repeat 0 (n - units U32 (m_name m)))) /\
    ((units U32 (m_name m) <= n)%nat ->
       from_bytes_array m b n = Val (p ++ repeat 0 (n - units U32 (m_name m)))).
Proof.
  intros m b n Hm Hs Hh Ha. rewrite <- (converted_size m Hm Hs).
  destruct (from_bytes_ok m b Hm Hs Hh Ha) as (p & E & Hc & El).
  pose proof Hc as (Hp & _ & Hacc & _). exists p. split; [exact E|]. split; [exact El|]. split; [exact Hacc|].
  split; [rewrite <- (app_nil_r p) at 1; now apply fresh_data|]. split; [|split; [|split]].
  - intros f w Hf. exact (converted_get U8 U32 m b _ p f w Hm Hs Hh Hc Hf).
  - exact (group_zero m b p _ Hm Hs Hh Hc).
  - unfold try_from_bytes, fixed_try_resize. rewrite repeat_length.
    destruct (Nat.ltb_spec n (min_size U32 m)); cbn [negb]; [reflexivity|].
    rewrite (from_bytes_grow m b p n) by auto. reflexivity.
  - intros Hn. unfold from_bytes_array. destruct (Nat.ltb_spec n (min_size U32 m)); [lia|].
    now apply from_bytes_grow.
Qed.
Print Assumptions C14_from_bytes.

Theorem C14_from_ump : forall m p n,
  In m all_messages -> supports U8 m = true -> m_name m <> "system_common::SongPositionPointer" ->
  holds U32 m p -> accepts U32 m p ->
  exists b, from_ump m p = Val b /\ List.length b = min_size U8 m /\ accepts U8 m b /\
    data U8 m b = Val b /\
    (forall f w, settable_field U8 m f w -> get U8 m b f = get U32 m p f) /\
    try_from_ump m p n = Val (if (n <? min_size U8 m)%nat then Err "BufferOverflow"
                              else Ok (b ++ repeat 0 (n - min_size U8 m))) /\
    ((min_size U8 m <= n)%nat -> from_ump_array m p n = Val (b ++ repeat 0 (n - min_size U8 m))).
Proof.
  intros m p n Hm Hs Hne Hh Ha.
  destruct (from_ump_ok m p Hm Hs Hne Hh Ha) as (b & E & Hc & El).
  pose proof Hc as (Hb & _ & Hacc & _). exists b. split; [exact E|]. split; [exact El|]. split; [exact Hacc|].
  split; [rewrite <- (app_nil_r b) at 1; now apply fresh_data|]. split; [|split].
  - intros f w Hf. exact (converted_get U32 U8 m p _ b f w Hm Hs Hh Hc Hf).
  - unfold try_from_ump, fixed_try_resize. rewrite repeat_length.
    destruct (Nat.ltb_spec n (min_size U8 m)); cbn [negb]; [reflexivity|].
    rewrite (from_ump_grow m p b n) by auto. reflexivity.
  - intros Hn. unfold from_ump_array. destruct (Nat.ltb_spec n (min_size U8 m)); [lia|].
    now apply from_ump_grow.
Qed.
Print Assumptions C14_from_ump.

(** Bytes to UMP and back: the same bytes. *)
Theorem C14_bytes_round_trip : forall m b,
  In m all_messages -> supports U8 m = true -> m_name m <> "system_common::SongPositionPointer" ->
  holds U8 m b -> accepts U8 m b -> reserved_zero U8 m b ->
  exists p b', from_bytes m b = Val p /\ from_ump m p = Val b' /\ data U8 m b' = data U8 m b.
Proof.
  intros m b Hm Hs Hne Hh Ha Hr.
  destruct (from_bytes_ok m b Hm Hs Hh Ha) as (p & E & Hc & El).
  pose proof Hc as (Hp & _ & Hacc & _).
  destruct (from_ump_ok m p Hm Hs Hne Hp Hacc) as (b' & E' & Hc' & El'). exists p, b'.
  split; [exact E|]. split; [exact E'|].
  pose proof Hh as (Hwf & Hl & _). rewrite !data_ok by lia. f_equal.
  apply (determined U8 m); auto.
  - now apply Hc'.
  - eapply converted_reserved; eauto.
  - now apply Hc'.
  - intros f w Hin. destruct (settable w) eqn:Hset.
    + assert (Hf8 : settable_field U8 m f w) by (split; auto).
      destruct (settable_both m f w Hm Hs Hf8) as (x & Hx).
      destruct Hc' as (_ & _ & _ & _ & _ & H1). rewrite (H1 f w x Hf8 (proj1 Hx)).
      destruct Hc as (_ & _ & _ & _ & _ & H2). exact (H2 f x w Hx Hin).
    + destruct Hc' as (_ & _ & _ & Hm' & _).
      apply (constant_agree U8 m f w b' b); auto. apply accepts_bare in Ha; [tauto|auto..|apply (plain_message U8 m Hm Hs)].
Qed.
Print Assumptions C14_bytes_round_trip.

(** UMP to bytes and back: the same words but for the group, which is lost. *)
Theorem C14_ump_round_trip : forall m p q,
  In m all_messages -> supports U8 m = true -> m_name m <> "system_common::SongPositionPointer" ->
  holds U32 m p -> accepts U32 m p -> reserved_zero U32 m p ->
  set U32 m p "group" (VNum 0) = Val q ->
  exists b p', from_ump m p = Val b /\ from_bytes m b = Val p' /\ data U32 m p' = data U32 m q.
Proof.
  intros m p q Hm Hs Hne Hh Ha Hr Eq.
  destruct (from_ump_ok m p Hm Hs Hne Hh Ha) as (b & E & Hc & El).
  pose proof Hc as (Hb & _ & Hacc & _).
  destruct (from_bytes_ok m b Hm Hs Hb Hacc) as (p' & E' & Hc' & El'). exists b, p'.
  split; [exact E|]. split; [exact E'|].
  destruct (group_field m Hm Hs) as (gw & Hg & Hg8).
  assert (Hst : storable m "group" (VNum 0)) by now apply group_storable.
  destruct (set_ok U32 m p "group" gw (VNum 0) Hm Hg Hh Hst) as (q1 & Eq1 & Hoc & Hq & Hd).
  assert (q1 = q) by congruence. subst q1.
  destruct (plain_message U32 m Hm Hs) as (Hsc & _).
  assert (Haq : accepts U32 m q) by exact (accepts_set U32 m p q "group" gw (VNum 0) Hm Hg Hh Hst Eq Ha).
  assert (Hmq : meaningful U32 m q) by (apply accepts_bare in Haq; [tauto|exact Hm|now apply supports_any|exact (proj1 Hq)|exact Hsc]).
  pose proof Hq as (_ & Hlq & _).
  rewrite !data_ok by lia. f_equal. apply (determined U32 m); auto.
  - now apply Hc'.
  - eapply converted_reserved; eauto.
  - eapply only_changes_reserved; [|exact Hr].
    eapply only_changes_weaken; [|exact Hoc]. intros s Hin. apply layout_seg. exists "group", gw. split; [apply Hg|exact Hin].
  - now apply Hc'.
  - intros f w Hin. destruct (settable w) eqn:Hset.
    + assert (Hf : settable_field U32 m f w) by (split; auto).
      destruct (string_dec f "group") as [->|Hne'].
      * rewrite (layout_unique U32 m "group" w gw Hm) by (auto; apply Hg). rewrite Hd.
        destruct Hc' as (_ & _ & _ & _ & _ & H1). rewrite (H1 "group" gw _ Hg Hg8). reflexivity.
      * destruct (settable_back m f w Hm Hs Hf Hne') as (x & Hx).
        destruct Hc' as (_ & _ & _ & _ & _ & H1). rewrite (H1 f w x Hf (proj1 Hx)).
        destruct Hc as (_ & _ & _ & _ & _ & H2). rewrite (H2 f x w Hx Hin).
        symmetry. eapply frame_decode; [exact Hm|apply Hg|exact Hin|congruence|exact Hoc].
    + destruct Hc' as (_ & _ & _ & Hm' & _). now apply (constant_agree U32 m f w p' q).
Qed.
Print Assumptions C14_ump_round_trip.

Example C14_case :
  holds U8 cv1_pitch_bend [0xE3; 0x55; 0x2A] /\ accepts U8 cv1_pitch_bend [0xE3; 0x55; 0x2A] /\
  reserved_zero U8 cv1_pitch_bend [0xE3; 0x55; 0x2A] /\
  from_bytes cv1_pitch_bend [0xE3; 0x55; 0x2A] = Val [0x20E3552A] /\
  reserved_zero U32 cv1_pitch_bend [0x2BE3552A] /\
  from_ump cv1_pitch_bend [0x2BE3552A] = Val [0xE3; 0x55; 0x2A] /\
  set U32 cv1_pitch_bend [0x2BE3552A] "group" (VNum 0) = Val [0x20E3552A].
Proof.
  split; [holding|]. split; [reflexivity|]. split; [|split; [reflexivity|split; [|split; reflexivity]]];
    apply reserved_checked; reflexivity.
Qed.

(** A song position pointer cannot be converted to bytes. *)
Theorem C14_song_position_refuted : exists p,
  holds U32 sys_song_position_pointer p /\ accepts U32 sys_song_position_pointer p /\
  from_ump sys_song_position_pointer p = Panic.
Proof. exists [0x10F20102]. split; [holding|]. split; reflexivity. Qed.
Print Assumptions C14_song_position_refuted.

(** A data byte above 0x7F is accepted and does not survive the round trip. *)
Theorem C14_reserved_refuted : exists b p b',
  accepts U8 cv1_note_on b /\ from_bytes cv1_note_on b = Val p /\ from_ump cv1_note_on p = Val b' /\
  data U8 cv1_note_on b' <> data U8 cv1_note_on b.
Proof. exists [0x90; 0x80; 0]. do 2 eexists. repeat split; try reflexivity. discriminate. Qed.
Print Assumptions C14_reserved_refuted.

(** ** C33 *)

(** Built with any constructor, by any history of setter calls. *)
Theorem C33_built_clean : forall m n z h b,
  In m all_messages -> supports U8 m = true -> constructible U8 m ->
  (new U8 m = Val z \/ ((min_size U8 m <= n)%nat /\ array_new U8 m n = Val z)) ->
  legal U8 m h -> run_sets U8 m z h = Val b ->
  exists d, data U8 m b = Val d /\ clean_bytes d.
Proof.
  intros m n z h b Hm Hs Hc Hz Hl E.
  assert (H : holds U8 m z /\ meaningful U8 m z /\ reserved_zero U8 m z) by (eapply built_clean; eauto).
  destruct H as (Hh & Hmean & Hr).
  destruct (run_sets_ok U8 m h Hm Hl z Hh) as (b1 & E1 & Hh' & _). assert (b1 = b) by congruence. subst b1.
  exists (firstn (min_size U8 m) b). split; [apply data_ok; apply Hh'|].
  apply clean_data; auto.
  - eapply run_sets_meaningful; [exact Hm|exact Hl|..|eassumption|eassumption]; assumption.
  - eapply run_sets_reserved; [exact Hm|exact Hl|..|eassumption|eassumption]; assumption.
Qed.
Print Assumptions C33_built_clean.

(** Converted from any UMP message, then edited by any history of setter calls. *)
Theorem C33_converted_clean : forall m p z h b,
  In m all_messages -> supports U8 m = true -> m_name m <> "system_common::SongPositionPointer" ->
  holds U32 m p -> accepts U32 m p -> from_ump m p = Val z ->
  legal U8 m h -> run_sets U8 m z h = Val b ->
  exists d, data U8 m b = Val d /\ clean_bytes d.
Proof.
  intros m p z h b Hm Hs Hne Hh Ha Ez Hl E.
  destruct (from_ump_ok m p Hm Hs Hne Hh Ha) as (z1 & E1 & Hc & El). assert (z1 = z) by congruence. subst z1.
  pose proof (converted_reserved U32 U8 m p z _ (min_size U8 m) Hc eq_refl) as Hr.
  destruct Hc as (Hz & _ & _ & Hmean & _).
  destruct (run_sets_ok U8 m h Hm Hl z Hz) as (b1 & E2 & Hh' & _). assert (b1 = b) by congruence. subst b1.
  exists (firstn (min_size U8 m) b). split; [apply data_ok; apply Hh'|].
  apply clean_data; auto.
  - eapply run_sets_meaningful; [exact Hm|exact Hl|..|eassumption|eassumption]; assumption.
  - eapply run_sets_reserved; [exact Hm|exact Hl|..|eassumption|eassumption]; assumption.
Qed.
Print Assumptions C33_converted_clean.

Example C33_case :
  new U8 cv1_control_change = Val [0xB0; 0; 0] /\
  legal U8 cv1_control_change [("control_data", VNum 0x7F); ("control", VNum 0x40); ("channel", VNum 15)] /\
  run_sets U8 cv1_control_change [0xB0; 0; 0]
    [("control_data", VNum 0x7F); ("control", VNum 0x40); ("channel", VNum 15)] = Val [0xBF; 0x40; 0x7F].
Proof.
  split; [reflexivity|]. split; [|reflexivity].
  repeat constructor; cbn [fst snd]; try (eexists; laid_out); stored.
Qed.

(** A message parsed from a slice need not be clean, and a new tune request has
    a stray data byte. *)
Theorem C33_accepted_refuted : exists b d,
  accepts U8 cv1_note_on b /\ data U8 cv1_note_on b = Val d /\ ~ clean_bytes d.
Proof.
  exists [0x90; 0x90; 0]. eexists. split; [reflexivity|]. split; [reflexivity|].
  intros (s & t & E & _ & H). injection E as <- <-. inversion H as [|x l H1 H2]. lia.
Qed.
Print Assumptions C33_accepted_refuted.

Theorem C33_tune_request_refuted : exists z,
  new U8 sys_tune_request = Val z /\ data U8 sys_tune_request z = Val [0xF6; 0].
Proof. eexists. split; reflexivity. Qed.
Print Assumptions C33_tune_request_refuted.

(** ** C40 *)

Theorem C40_old_contents_ignored : forall u m b,
  In m all_messages -> supports u m = true -> constructible u m -> wf_buf u b ->
  (min_size u m <= List.length b)%nat -> calm m b ->
  exists b' z', try_new_with_buffer u m b = Val (Ok b') /\
    try_new_with_buffer u m (repeat 0 (List.length b)) = Val (Ok z') /\
    data u m b' = data u m z' /\ (forall g, get u m b' g = get u m z' g).
Proof.
  intros u m b Hm Hs Hc Hwf Hl Hca.
  destruct (construct_with_buffer u m b Hm Hs Hc Hwf Hl Hca) as (z & b' & E1 & _ & E2 & _ & _ & E3 & E4).
  destruct (construct_with_buffer u m (repeat 0 (List.length b)) Hm Hs Hc) as (z2 & z' & F1 & _ & F2 & _ & _ & F3 & F4).
  - apply wf_repeat.
  - now rewrite repeat_length.
  - intros _. right. unfold bits. rewrite nth_skipn. cbn [sg_w]. rewrite nth_repeat0. discriminate.
  - assert (z2 = z) by congruence. subst z2. exists b', z'. split; [exact E2|]. split; [exact F2|].
    split; [congruence|]. intros g. now rewrite E4, F4.
Qed.
Print Assumptions C40_old_contents_ignored.

Example C40_case :
  calm flex_set_tempo [0xFFFFFFFF; 0xFFFFFFFF; 0xFFFFFFFF; 0xFFFFFFFF; 0xFFFFFFFF] /\
  try_new_with_buffer U32 flex_set_tempo [0xFFFFFFFF; 0xFFFFFFFF; 0xFFFFFFFF; 0xFFFFFFFF; 0xFFFFFFFF]
    = Val (Ok [0xD0100000; 0; 0; 0; 0xFFFFFFFF]).
Proof. split; [|reflexivity]. intros H. discriminate H. Qed.

(** Old contents that look like another stream packet change data(). *)
Theorem C40_stream_refuted : exists b b' z' d d',
  List.length b = List.length z' /\
  try_new_with_buffer U32 stream_end_of_clip b = Val (Ok b') /\
  try_new_with_buffer U32 stream_end_of_clip (repeat 0 (List.length b)) = Val (Ok z') /\
  data U32 stream_end_of_clip b' = Val d /\ data U32 stream_end_of_clip z' = Val d' /\ d <> d'.
Proof.
  exists [0; 0; 0; 0; 0xF0000000; 0; 0; 0]. do 4 eexists.
  split; [|split; [reflexivity|split; [reflexivity|split; [reflexivity|split; [reflexivity|discriminate]]]]]. reflexivity.
Qed.
Print Assumptions C40_stream_refuted.

(** ** C36: numbers in 7-bit groups, least significant first *)

Theorem C36_u14 : forall v, v < 2 ^ 14 ->
  Forall (fun g => g < 128) (u14_to_u7s v) /\ List.length (u14_to_u7s v) = 2%nat /\ groups (u14_to_u7s v) = v /\
  match u14_to_u7s v with [a; b] => u14_from_u7s a b = v | _ => False end.
Proof. exact u14_round. Qed.
Print Assumptions C36_u14.

Theorem C36_u21 : forall v, v < 2 ^ 21 ->
  Forall (fun g => g < 128) (u21_to_u7s v) /\ List.length (u21_to_u7s v) = 3%nat /\ groups (u21_to_u7s v) = v /\
  match u21_to_u7s v with [a; b; c] => u21_from_u7s a b c = v | _ => False end.
Proof. exact u21_round. Qed.
Print Assumptions C36_u21.

Theorem C36_u28 : forall v, v < 2 ^ 28 ->
  Forall (fun g => g < 128) (u28_to_u7s v) /\ List.length (u28_to_u7s v) = 4%nat /\ groups (u28_to_u7s v) = v /\
  match u28_to_u7s v with [a; b; c; d] => u28_from_u7s a b c d = v | _ => False end.
Proof. exact u28_round. Qed.
Print Assumptions C36_u28.

(** Decoding arbitrary bytes (top bits ignored), and re-encoding. *)
Theorem C36_decode : forall a b c d,
  u14_from_u7s a b = groups [a; b] /\ u21_from_u7s a b c = groups [a; b; c] /\
  u28_from_u7s a b c d = groups [a; b; c; d] /\
  u14_to_u7s (u14_from_u7s a b) = [a mod 128; b mod 128] /\
  u21_to_u7s (u21_from_u7s a b c) = [a mod 128; b mod 128; c mod 128] /\
  u28_to_u7s (u28_from_u7s a b c d) = [a mod 128; b mod 128; c mod 128; d mod 128].
Proof. exact decode_round. Qed.
Print Assumptions C36_decode.

Example C36_case : u28_to_u7s 0x0ABCDEF = [0x6F; 0x1B; 0x2F; 0x05] /\ u28_from_u7s 0x6F 0x1B 0x2F 0x05 = 0x0ABCDEF.
Proof. split; reflexivity. Qed.

(** ** C38: enumerated fields *)

(** The setter of an enumerated field writes a code whose meaning is the value;
    the getter returns the meaning of the code; a code without a meaning is
    rejected by the parser. *)
Theorem C38_field_codes : forall m f s k b,
  In m all_messages -> settable_field U32 m f (Code s k) -> holds U32 m b ->
  (forall v, storable m f v -> exists b', set U32 m b f v = Val b' /\ assoc (bits b' s) (codes k) = Some v) /\
  (forall v, assoc (bits b s) (codes k) = Some v -> get U32 m b f = Val v) /\
  (assoc (bits b s) (codes k) = None -> exists e, try_from U32 m b = Val (Err e)).
Proof.
  intros m f s k b Hm Hf Hh. split; [|split].
  - intros v Hv. destruct (set_ok U32 m b f _ v Hm Hf Hh Hv) as (b' & E & _ & _ & Hd). eauto.
  - intros v Hv. rewrite (get_settable U32 m b f _ Hm Hf Hh). cbn [decode]. now rewrite Hv.
  - intros Hn. apply (rejected U32 m f (Code s k)); auto.
Qed.
Print Assumptions C38_field_codes.

(** The same for the two-part codes of note attributes and per-note controllers. *)
Theorem C38_tagged_codes : forall m f w b,
  In m all_messages -> settable_field U32 m f w -> holds U32 m b ->
  (forall v, storable m f v -> exists b', set U32 m b f v = Val b' /\ decode w b' = Some v) /\
  (forall v, decode w b = Some v -> get U32 m b f = Val v) /\
  (decode w b = None -> exists e, try_from U32 m b = Val (Err e)).
Proof.
  intros m f w b Hm Hf Hh. split; [|split].
  - intros v Hv. destruct (set_ok U32 m b f _ v Hm Hf Hh Hv) as (b' & E & _ & _ & Hd). eauto.
  - intros v Hv. rewrite (get_settable U32 m b f _ Hm Hf Hh). now rewrite Hv.
  - intros Hn. now apply (rejected U32 m f w).
Qed.
Print Assumptions C38_tagged_codes.

(** The tables: no code is listed twice; every value of the enumeration but
    [Flats 0] has a code; two codes of one value differ only in the unused
    degree of "no alteration". *)
Theorem C38_tables : forall k,
  NoDup (map fst (codes k)) /\
  (forall v, has_type (kind_ty k) v = true -> v <> VKeySF (Flats 0) -> exists c, assoc c (codes k) = Some v) /\
  (forall c c' v, assoc c (codes k) = Some v -> assoc c' (codes k) = Some v ->
     c = c' \/ (v = VAlt None /\ c < 16 /\ c' < 16)).
Proof. exact tables_ok. Qed.
Print Assumptions C38_tables.

Example C38_case :
  settable_field U32 flex_set_chord_name "chord_type" (Code (Seg 1 16 8) KChordType) /\
  holds U32 flex_set_chord_name [0xD0000006; 0x031B0000; 0; 0x03000000] /\
  assoc (bits [0xD0000006; 0x031B0000; 0; 0x03000000] (Seg 1 16 8)) (codes KChordType) = None /\
  assoc (bits [0xD0000006; 0x031A0000; 0; 0x03000000] (Seg 1 16 8)) (codes KChordType)
    = Some (VChordType Suspended4th) /\
  accepts U32 flex_set_chord_name [0xD0000006; 0x031A0000; 0; 0x03000000].
Proof. split; [laid_out|]. split; [holding|]. repeat split; reflexivity. Qed.
