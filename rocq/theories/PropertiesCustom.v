(** Property C52: messages over a buffer type of the client's own, with room for [cap]
    units ([bounded_buffer], SpecCustom.v).  This file: fixed-size messages and texts;
    PropertiesCustomSysex.v: system exclusive.

    [custom_new], [custom_convert], [custom_flex_new], [custom_flex_do], ...
    (CustomBuffer.v) are the crate's fallible functions on such a buffer. *)
From Coq Require Import NArith List String Bool Arith Lia ZifyBool ZifyNat ZifyN.
From Verif Require Import Base Values Helpers Schema Props Message MessageTable SpecLayout SpecFixed Sysex Text SpecText TextClient
  ListLemmas MessageLemmas InitLemmas FixedLemmas ConvertLemmas FixedProofs ConvertProofs
  TextLemmas TextFlex TextFlexMore TextFlexInit TextStream TextStreamMore TextUtf8 TextParse TextHistory TextFresh PropertiesText
  ByteView CustomBuffer SpecCustom CustomMore.
Import ListNotations.
Local Open Scope string_scope.
Local Open Scope list_scope.
Local Open Scope nat_scope.

(** ** Fixed-size messages *)

(** [try_new]: a buffer type whose default is [k] zeros. *)
Theorem C52_new : forall u m cap answer k,
  In m all_messages -> supports u m = true -> constructible u m -> bounded_buffer cap answer -> k <= cap ->
  exists z, new u m = Val z /\
  if min_size u m <=? cap
  then exists b, custom_new (Custom answer) u m (repeat 0%N k) = Val (Ok b) /\ List.length b <= cap
         /\ holds u m b /\ data u m b = Val z
         /\ (forall f w, settable_field u m f w -> get u m b f = Val (default_value w))
  else custom_new (Custom answer) u m (repeat 0%N k) = Val (Err "BufferOverflow").
Proof.
  intros u m cap answer k Hm Hs Hc HB Hk. pose proof (granted_zeros cap answer k (min_size u m) HB Hk) as G.
  destruct (new_fresh u m Hm Hs Hc) as (z & Ez & Fz). exists z. split; [exact Ez|].
  destruct (min_size u m <=? cap).
  - destruct G as (k' & E & L & _). rewrite (custom_new_try answer u m k k') by (auto; lia).
    destruct (construct_array u m k' Hm Hs Hc ltac:(lia)) as (z' & b & Ez' & Fz' & _ & T & Lb & H & D & Ge).
    assert (z' = z) by congruence. subst z'.
    exists b. split; [exact T|]. split; [lia|]. split; [exact H|]. split; [exact D|].
    intros f w Hf. rewrite Ge. now apply fresh_get.
  - unfold custom_new. cbn [request]. now rewrite G.
Qed.
Print Assumptions C52_new.

Lemma byte_messages_not_stream m : In m all_messages -> supports U8 m = true ->
  String.prefix "ump_stream::" (m_name m) = false.
Proof.
  intros Hm Hs. assert (A : forallb (fun x => implb (supports U8 x) (negb (String.prefix "ump_stream::" (m_name x)))) all_messages = true)
    by reflexivity.
  rewrite forallb_forall in A. specialize (A m Hm). rewrite Hs in A. cbn [implb] in A. now destruct (String.prefix _ _).
Qed.

(** [try_new_with_buffer]: whatever the buffer contains. *)
Theorem C52_new_with_buffer : forall u m cap answer b0,
  In m all_messages -> supports u m = true -> constructible u m -> bounded_buffer cap answer ->
  wf_buf u b0 -> List.length b0 <= cap -> calm m b0 ->
  exists z, new u m = Val z /\
  if min_size u m <=? cap
  then exists b, custom_new_with_buffer (Custom answer) u m b0 = Val (Ok b) /\ List.length b <= cap
         /\ holds u m b /\ data u m b = Val z
         /\ (forall f w, settable_field u m f w -> get u m b f = Val (default_value w))
  else custom_new_with_buffer (Custom answer) u m b0 = Val (Err "BufferOverflow").
Proof.
  intros u m cap answer b0 Hm Hs Hc HB Hw Hl Ca. pose proof (granted cap answer b0 (min_size u m) HB Hl) as G.
  destruct (new_fresh u m Hm Hs Hc) as (z & Ez & Fz). exists z. split; [exact Ez|].
  destruct (min_size u m <=? cap).
  - destruct G as (b1 & E & L1 & L2 & C). rewrite (custom_with_try answer u m b0 b1) by auto.
    assert (W1 : wf_buf u b1) by (destruct C as [-> | ->]; [now apply wf_vec_resize|exact Hw]).
    assert (C1 : calm m b1).
    { destruct C as [-> | ->]; [|exact Ca]. destruct u; [|apply calm_resized].
      intros X. rewrite (byte_messages_not_stream m Hm Hs) in X. discriminate. }
    destruct (construct_with_buffer u m b1 Hm Hs Hc W1 L1 C1) as (z' & b & Ez' & Fz' & T & Lb & H & D & Ge).
    assert (z' = z) by congruence. subst z'.
    exists b. split; [exact T|]. split; [lia|]. split; [exact H|]. split; [exact D|].
    intros f w Hf. rewrite Ge. now apply fresh_get.
  - unfold custom_new_with_buffer. cbn [request]. now rewrite G.
Qed.
Print Assumptions C52_new_with_buffer.

(** An arena of five words: a control change in two words, whose buffer keeps nothing of the
    five it was given; one word is too few. *)
Example C52_new_meets :
  bounded_buffer 5 (arena 5) /\ constructible U32 cv2_control_change
  /\ custom_new (Custom (arena 5)) U32 cv2_control_change [] = Val (Ok [0x40B00000; 0]%N)
  /\ custom_new_with_buffer (Custom (arena 5)) U32 cv2_control_change [1; 2; 3; 4; 5]%N = Val (Ok [0x40B00000; 0]%N)
  /\ custom_new_with_buffer (Custom (lazy_arena 5)) U32 cv2_control_change [1; 2; 3; 4; 5]%N = Val (Ok [0x40B00000; 0; 3; 4; 5]%N)
  /\ custom_new (Custom (arena 1)) U32 cv2_control_change [] = Val (Err "BufferOverflow").
Proof. split; [apply arena_bounded|]. split; [discriminate|]. computed. Qed.

(** [try_from_bytes], [try_from_ump]. *)
Theorem C52_from_bytes_fixed_size : forall m b cap answer k,
  In m all_messages -> supports U8 m = true -> holds U8 m b -> accepts U8 m b -> bounded_buffer cap answer -> k <= cap ->
  exists p, from_bytes m b = Val p /\
  if units U32 (m_name m) <=? cap
  then exists n, custom_convert (Custom answer) U8 U32 m b (repeat 0%N k) = Val (Ok (p ++ repeat 0%N n))
         /\ List.length p + n <= cap /\ data U32 m (p ++ repeat 0%N n) = Val p
  else custom_convert (Custom answer) U8 U32 m b (repeat 0%N k) = Val (Err "BufferOverflow").
Proof.
  intros m b cap answer k Hm Hs Hh Ha HB Hk. destruct (from_bytes_ok m b Hm Hs Hh Ha) as (p & E & _ & El).
  exists p. split; [exact E|]. rewrite <- (converted_size m Hm Hs). unfold custom_convert. cbn [request].
  pose proof (granted_zeros cap answer k (min_size U32 m) HB Hk) as G. destruct (min_size U32 m <=? cap).
  - destruct G as (k' & -> & L & _). rewrite (from_bytes_grow m b p k') by (auto; lia). cbn [bind].
    exists (k' - min_size U32 m). split; [reflexivity|]. split; [lia|]. now apply fresh_data.
  - now rewrite G.
Qed.
Print Assumptions C52_from_bytes_fixed_size.

Theorem C52_from_ump_fixed_size : forall m p cap answer k,
  In m all_messages -> supports U8 m = true -> m_name m <> "system_common::SongPositionPointer" ->
  holds U32 m p -> accepts U32 m p -> bounded_buffer cap answer -> k <= cap ->
  exists b, from_ump m p = Val b /\
  if min_size U8 m <=? cap
  then exists n, custom_convert (Custom answer) U32 U8 m p (repeat 0%N k) = Val (Ok (b ++ repeat 0%N n))
         /\ List.length b + n <= cap /\ data U8 m (b ++ repeat 0%N n) = Val b
  else custom_convert (Custom answer) U32 U8 m p (repeat 0%N k) = Val (Err "BufferOverflow").
Proof.
  intros m p cap answer k Hm Hs Hn Hh Ha HB Hk. destruct (from_ump_ok m p Hm Hs Hn Hh Ha) as (b & E & _ & El).
  exists b. split; [exact E|]. unfold custom_convert. cbn [request].
  pose proof (granted_zeros cap answer k (min_size U8 m) HB Hk) as G. destruct (min_size U8 m <=? cap).
  - destruct G as (k' & -> & L & _). rewrite (from_ump_grow m p b k') by (auto; lia). cbn [bind].
    exists (k' - min_size U8 m). split; [reflexivity|]. split; [lia|]. now apply fresh_data.
  - now rewrite G.
Qed.
Print Assumptions C52_from_ump_fixed_size.

Example C52_from_ump_fixed_size_meets :
  accepts U32 cv1_note_on [0x2094407F]%N
  /\ custom_convert (Custom (arena 3)) U32 U8 cv1_note_on [0x2094407F]%N [] = Val (Ok [0x94; 0x40; 0x7F]%N)
  /\ custom_convert (Custom (arena 2)) U32 U8 cv1_note_on [0x2094407F]%N [] = Val (Err "BufferOverflow").
Proof. computed. Qed.

(** ** Texts *)

(** Histories of fallible setter calls on [try_new()]: accepted exactly if the text fits [cap]
    words; a refused text changes nothing. *)
Theorem C52_flex_histories : forall K cap answer k h, In K flex_texts -> bounded_buffer cap answer -> k <= cap ->
  if 4 <=? cap then
    Forall flex_edit_ok h ->
    let room := Some (cap / 4) in
    let s := fold_left (flex_after room) h flex_fresh in
    exists b d, (x <- unwrap (custom_flex_new (Custom answer) K (repeat 0%N k)) ;; run_try (custom_flex_do (Custom answer)) h x)
                  = Val (b, map (flex_accepted room) h)
      /\ List.length b <= cap
      /\ flex_group b = Val (fs_group s) /\ flex_channel b = Val (fs_channel s 0)
      /\ (fills (fs_text s) = false -> flex_text_bytes b = Val (without_nul (fs_text s)))
      /\ flex_data b = Val d
      /\ all_bytes d = flex_wire (fk_bank K) (fk_status K) (fs_group s) (fs_channel s) (fs_text s)
      /\ (is_string (without_nul (kept (fs_text s))) -> flex_try_from K d = Val (Ok d))
  else custom_flex_new (Custom answer) K (repeat 0%N k) = Val (Err "BufferOverflow").
Proof.
  intros K cap answer k h HK HB Hk. pose proof (granted_zeros cap answer k 4 HB Hk) as G.
  unfold custom_flex_new. cbn [request]. destruct (4 <=? cap); [|now rewrite G].
  intros Hh. set (room := Some (cap / 4)). set (s := fold_left (flex_after room) h flex_fresh). destruct G as (k' & -> & L & _).
  pose proof (flex_try_new_fresh K k' (flex_in K HK)) as T. replace (k' <? 4) with false in T by lia.
  destruct T as (b0 & T & L0 & S0). unfold flex_try_new, fixed_try_resize in T. rewrite repeat_length in T.
  replace (k' <? 4) with false in T by lia. cbn [negb] in T.
  destruct (flex_init K (repeat 0%N k')) as [b1|]; cbn [bind] in *; [|discriminate]. injection T as ->. cbn [unwrap bind].
  destruct (custom_flex_history _ _ cap answer HB h flex_fresh b0 Hh S0 ltac:(lia)) as (b & E & S1 & L1).
  change (Some (cap / 4)) with room in E, S1. fold s in S1. unfold fstate in S1. destruct (fholds_data_parse K _ _ _ _ S1) as (d & D & W & P).
  exists b, d. split; [exact E|]. split; [exact L1|].
  split; [apply (fholds_group S1)|]. split; [apply (fholds_channel S1)|]. split; [|auto].
  intros F. rewrite (fholds_bytes S1). do 2 f_equal. apply firstn_all2.
  pose proof (fh_room S1) as R. unfold fills, text_packets in *.
  destruct (Nat.eqb_spec (List.length (fs_text s)) 0) as [Z|Z]; [lia|]. cbn [negb andb] in F.
  assert (X : (List.length (fs_text s) + 12 - 1) / 12 <= List.length b / 4).
  { apply R. }
  pose proof (Nat.div_mod (List.length (fs_text s)) 12 ltac:(lia)).
  pose proof (Nat.div_mod (List.length (fs_text s) + 12 - 1) 12 ltac:(lia)).
  pose proof (Nat.mod_upper_bound (List.length (fs_text s) + 12 - 1) 12 ltac:(lia)). lia.
Qed.
Print Assumptions C52_flex_histories.

(** Lyrics in an arena of nine words, which shrinks and grows. *)
Example C52_flex_histories_meets :
  let h := [FText (letters 20); FGroup 3; FText (letters 25); FText (letters 5)] in
  Forall flex_edit_ok h /\ map (flex_accepted (Some (9 / 4))) h = [true; true; false; true]
  /\ exists b, (x <- unwrap (custom_flex_new (Custom (arena 9)) {| fk_name := "Lyrics"; fk_bank := 2; fk_status := 1 |} []) ;;
                run_try (custom_flex_do (Custom (arena 9))) h x) = Val (b, [true; true; false; true])
       /\ List.length b = 4 /\ flex_text_bytes b = Val (letters 5).
Proof.
  cbn zeta. split; [repeat constructor; cbn [flex_edit_ok]; try lia; apply string_bytes, letters_string|].
  split; [reflexivity|]. eexists. computed.
Qed.

(** UMP stream names, one call on any bounded buffer, ... *)
Theorem C52_stream_set : forall K cap answer b t, In K stream_texts -> bounded_buffer cap answer ->
  List.length b <= cap -> is_string t -> no_nul t ->
  if cap / 4 <? text_packets (14 - sk_off K) (List.length t)
  then custom_stream_set_text (Custom answer) (sk_off K) b t = Val (b, false)
  else exists b', custom_stream_set_text (Custom answer) (sk_off K) b t = Val (b', true) /\ List.length b' <= cap
         /\ stream_text K b' = Val t.
Proof.
  intros K cap answer b t HK HB Hl Ht Hn. pose proof (proj2 (stream_in K HK)) as Ho.
  pose proof (granted cap answer b (text_words (stream_form (sk_off K)) (List.length t)) HB Hl) as G.
  pose proof (packets_fit (text_packets (14 - sk_off K) (List.length t)) cap) as PF. rewrite (stream_words _ _ Ho) in G.
  destruct (Nat.ltb_spec (cap / 4) (text_packets (14 - sk_off K) (List.length t))) as [F|F].
  - replace (4 * text_packets (14 - sk_off K) (List.length t) <=? cap) with false in G by lia.
    unfold custom_stream_set_text. cbn [request]. now rewrite (stream_words _ _ Ho), G.
  - replace (4 * text_packets (14 - sk_off K) (List.length t) <=? cap) with true in G by lia.
    destruct G as (b0 & E & L0 & Lc & _).
    destruct (put_sholds (sk_off K) b0 t Ho (string_bytes _ Ht) ltac:(lia)) as (b' & E' & L & S0).
    exists b'. split; [|split; [lia|]].
    + unfold custom_stream_set_text. cbn [request]. rewrite (stream_words _ _ Ho), E.
      unfold stream_put in E'. rewrite (stream_words _ _ Ho) in E'.
      destruct (stream_clear _ b0) as [b1|]; cbn [bind] in *; [|discriminate].
      destruct (stream_headers b1 _) as [b2|]; cbn [bind] in *; [|discriminate].
      destruct (set_format_fields b2) as [b3|]; cbn [bind] in *; [|discriminate].
      now rewrite E'.
    + pose proof (sholds_bytes S0) as R. rewrite (without_nul_id t Hn) in R. now apply accepted_string.
Qed.
Print Assumptions C52_stream_set.

(** ... and histories in an arena. *)
Theorem C52_stream_histories : forall K cap h, In K stream_texts ->
  if 4 <=? cap then
    Forall (stream_edit_ok (sk_off K)) h ->
    let s := fold_left (arena_after (sk_off K) cap) h stream_fresh in
    exists b, (x <- unwrap (custom_stream_new (Custom (arena cap)) K []) ;; run_try (custom_stream_do (Custom (arena cap)) (sk_off K)) h x)
                = Val (b, map (stream_accepted (sk_off K) (Some (cap / 4))) h)
      /\ List.length b <= cap
      /\ stream_text_bytes K b = Val (without_nul (ss_name s))
      /\ (sk_off K = 1 -> block_read b = Val (ss_block s 0))
      /\ stream_data b = Val b
      /\ all_bytes b = stream_wire (sk_status K) (block_numbers K s) (ss_name s)
      /\ (is_string (ss_name s) -> one_block K s -> stream_try_from K b = Val (Ok b))
  else custom_stream_new (Custom (arena cap)) K [] = Val (Err "BufferOverflow").
Proof.
  intros K cap h HK. unfold custom_stream_new. cbn [request]. unfold arena at 1 3.
  destruct (Nat.leb_spec 4 cap) as [C|C]; [|reflexivity]. intros Hh. set (s := fold_left (arena_after (sk_off K) cap) h stream_fresh).
  change (resized [] 4) with (repeat 0%N 4).
  pose proof (stream_try_new_fresh K 4 (stream_in K HK)) as T. cbn [Nat.ltb Nat.leb] in T.
  destruct T as (b0 & T & L0 & S0). unfold stream_try_new, fixed_try_resize in T. cbn [List.length repeat Nat.ltb Nat.leb negb] in T.
  change [0%N; 0%N; 0%N; 0%N] with (repeat 0%N 4) in T.
  destruct (stream_init K (repeat 0%N 4)) as [b1|]; cbn [bind] in *; [|discriminate]. injection T as ->. cbn [unwrap bind].
  destruct (arena_stream_history K cap h stream_fresh b0 Hh S0) as (b & E & S1 & L1 & Lc); [exact L0|lia|].
  fold s in S1, L1. exists b. split; [exact E|]. split; [exact Lc|]. split; [apply (sholds_bytes S1)|].
  split; [apply (sholds_block S1)|].
  destruct (sholds_data_parse K s b (proj2 (stream_in K HK)) S1) as (d & D & R & W & P & _).
  destruct (sholds_data S1) as [D' _]. rewrite firstn_all2 in D' by lia. rewrite D' in D.
  assert (X : b = d) by congruence. subst d. auto.
Qed.
Print Assumptions C52_stream_histories.
Example C52_stream_histories_meets :
  let h := [SName (letters 20); SBlock 3; SName (letters 40); SName (letters 8)] in
  Forall (stream_edit_ok 1) h
  /\ exists b, (x <- unwrap (custom_stream_new (Custom (arena 9)) {| sk_name := "FunctionBlockName"; sk_status := 0x12; sk_off := 1 |} []) ;;
             run_try (custom_stream_do (Custom (arena 9)) 1) h x) = Val (b, [true; true; false; true]) /\ List.length b = 4
       /\ block_read b = Val 3%N.
Proof.
  cbn zeta. split; [repeat constructor; cbn [stream_edit_ok]; try lia; apply string_bytes, letters_string|].
  eexists. computed.
Qed.
