(** PROPERTIES of messages copied from buffer to buffer.  See properties.jsonl;
    vocabulary in SpecCopies.v.  C11 says when a copy is possible. *)
From Coq Require Import NArith ZArith List String Bool Arith Lia Zify ZifyBool ZifyNat ZifyN.
From Verif Require Import Base BitOps BitLemmas ListLemmas Values Helpers Props Message MessageTable SpecLayout SpecFixed
  FixedLemmas FixedProofs PropertiesFixed Sysex SpecSysex ByteView SysexLayout SysexBridge SysexHold SysexMore SysexInit SysexIds SysexLoose SpecEdits
  PropertiesSysex Text SpecText TextLemmas TextHeader TextFlex TextFlexMore TextStream TextParse PropertiesText
  Aggregate SpecAggregate AggregateLemmas AggregateMore PropertiesAggregate SpecCopies CopyLemmas.
Import ListNotations.
Local Open Scope string_scope.
Local Open Scope list_scope.
Local Open Scope nat_scope.

(** ** C45: any number of copies *)

(** Messages of fixed size keep all fields. *)
Theorem C45_fixed : forall u m b a,
  In m all_messages -> supports u m = true -> SpecFixed.sized u m -> holds u m b ->
  copied_on u (CFixed m, b) a ->
  exists b', a = (CFixed m, b') /\ holds u m b' /\ data u m b' = data u m b /\ forall f, get u m b' f = get u m b f.
Proof.
  intros u m b a Hm Hs Hz Hh C.
  destruct (copies_ind u (CFixed m) (fun b' => holds u m b' /\ data u m b' = data u m b /\ forall f, get u m b' f = get u m b f) b a)
    as (b' & -> & Q); auto.
  3: exists b'; auto.
  - intros x n (H1 & H2 & H3). assert (W : wf_buf u (repeat 0%N n)).
    { apply Forall_forall. intros y Hy. apply repeat_spec in Hy. subst. destruct u; reflexivity. }
    split; [now apply holds_app|]. split.
    + rewrite <- H2. pose proof (data_ok u m x ltac:(apply H1)) as D. rewrite D.
      destruct (data_prefix u (CFixed m) x _ D) as [(t & E) B]. rewrite E at 1. rewrite <- app_assoc. apply B.
    + intros f. rewrite <- H3. now apply get_app.
  - intros x d n (H1 & H2 & H3) D. cbn [concrete_data] in D. pose proof (data_ok u m x ltac:(apply H1)) as D'.
    assert (d = firstn (min_size u m) x) by congruence. assert (L := proj1 (proj2 H1)).
    assert (Hd : holds u m d).
    { subst d. apply sized_holds; auto; [apply wf_firstn, H1|rewrite firstn_length; lia]. }
    assert (W : wf_buf u (repeat 0%N n)).
    { apply Forall_forall. intros y Hy. apply repeat_spec in Hy. subst. destruct u; reflexivity. }
    split; [now apply holds_app|]. split.
    + rewrite <- H2, D. apply (data_prefix u (CFixed m) x d D).
    + intros f. rewrite get_app by auto. rewrite <- H3. subst d. now apply get_firstn.
Qed.
Print Assumptions C45_fixed.
Example C45_fixed_case : exists a, copied_on U32 (CFixed cv2_note_on, [0x40904000; 0xC0000000; 7]%N) a
  /\ a = (CFixed cv2_note_on, [0x40904000; 0xC0000000; 0; 0; 0]%N)
  /\ holds U32 cv2_note_on [0x40904000; 0xC0000000; 7]%N.
Proof.
  eexists. split; [|split; [|split; [repeat constructor|split; [cbn; lia|discriminate]]]].
  - eapply copied_again; [apply not_copied|]. eapply (into_array U32 _ 5). vm_compute. reflexivity.
  - reflexivity.
Qed.

(** System exclusive messages keep payload, group, stream ids and [data()]. *)
Theorem C45_sysex : forall fm k g s l b a, carries fm k g s l b -> copied_on U32 (sysex_of fm, b) a ->
  exists b', a = (sysex_of fm, b') /\ carries fm k g s l b'
    /\ payload_list (fmt_of fm) b' = Val l /\ Sysex.group b' = Val g
    /\ sx_data (fmt_of fm) b' = sx_data (fmt_of fm) b
    /\ (fm = EightBit -> stream_id b' = stream_id b).
Proof.
  intros fm k g s l b a C H.
  destruct (copies_ind U32 (sysex_of fm) (fun b' => carries fm k g s l b' /\ same_front fm k b b') b a) as (b' & -> & C' & S0); auto.
  - intros x n [Cx Sx]. split; [now apply carries_app|]. intros j Hj. rewrite <- (Sx j Hj). apply (front_app fm k x); [apply Cx|exact Hj].
  - intros x d n [Cx Sx] D. rewrite sysex_data in D. destruct (carries_reads _ _ _ _ _ _ Cx) as (D' & _).
    assert (d = firstn (packet_words fm * k) x) by congruence. subst d. destruct (data_carries _ _ _ _ _ _ Cx) as (Cd & _ & L).
    split; [now apply carries_app|]. intros j Hj. rewrite <- (Sx j Hj), <- (same_front_firstn fm k x j Hj).
    apply (front_app fm k _ (repeat 0%N n)); [lia|exact Hj].
  - split; [exact C|]. intros j _. reflexivity.
  - exists b'. split; [reflexivity|]. split; [exact C'|]. destruct (carries_reads _ _ _ _ _ _ C') as (D' & P' & _).
    destruct (carries_reads _ _ _ _ _ _ C) as (D & _ & _). split; [exact P'|]. split; [exact (group_first _ _ _ _ _ _ C')|]. split.
    + rewrite D, D'. f_equal.
      pose proof (ca_fits _ _ _ _ _ _ C). pose proof (ca_fits _ _ _ _ _ _ C').
      apply (nth_ext _ _ 0%N 0%N); [rewrite !firstn_length; lia|]. intros j Hj. rewrite firstn_length in Hj.
      rewrite !nth_firstn. destruct (_ <? _); [|reflexivity]. apply S0. lia.
    + intros ->. rewrite (stream_id_of _ _ _ _ _ C), (stream_id_of _ _ _ _ _ C'). f_equal.
      apply (front_packet EightBit k b b' 0 S0). apply C.
Qed.
Print Assumptions C45_sysex.

(** Copies can be edited like the message copied: what C22, C34 and C39 ask of a message holds of its copies. *)
Theorem C45_sysex_editable : forall fm g s l b a, copied_on U32 (sysex_of fm, b) a ->
  List.length b mod packet_words fm = 0 ->
  exists b', a = (sysex_of fm, b')
    /\ (in_stream s 0%N -> message_in fm g s l b -> message_in fm g s l b')
    /\ (forall k, loose_message fm k g l b -> loose_message fm k g l b').
Proof.
  intros fm g s l b a H M. pose proof (words_pos fm) as Hw.
  destruct (copies_ind U32 (sysex_of fm) (fun _ => True) b a) as (b' & -> & _); auto.
  exists b'. split; [reflexivity|]. split.
  - intros Hs Mi.
    destruct (copies_ind U32 (sysex_of fm) (fun x => exists y n, x = y ++ repeat 0%N n /\ List.length y mod packet_words fm = 0
      /\ message_in fm g s l y) b (sysex_of fm, b')) as (b'' & E & y & n & -> & My & P); auto.
    + intros x n (y & m & -> & Q). exists y, (m + n). rewrite repeat_app, app_assoc. auto.
    + intros x d n (y & m & -> & My & P) D. rewrite sysex_data in D.
      pose proof (message_in_pad _ _ _ _ _ m Hs My P) as P'. exists d, n. split; [reflexivity|].
      destruct P' as [(k & C & F) Sc]. destruct (carries_reads _ _ _ _ _ _ C) as (D' & _). rewrite D in D'. injection D' as ->.
      destruct (data_carries _ _ _ _ _ _ C) as (_ & Mg & L). rewrite L, Nat.mul_comm. split; [apply Nat.mod_mul; lia|].
      rewrite Nat.mul_comm. apply message_scrap. auto.
    + exists b, 0. rewrite app_nil_r. auto.
    + injection E as ->. now apply message_in_pad.
  - intros k Lo.
    destruct (copies_ind U32 (sysex_of fm) (fun x => exists y n, x = y ++ repeat 0%N n /\ List.length y mod packet_words fm = 0
      /\ loose_message fm k g l y) b (sysex_of fm, b')) as (b'' & E & y & n & -> & My & P); auto.
    + intros x n (y & m & -> & Q). exists y, (m + n). rewrite repeat_app, app_assoc. auto.
    + intros x d n (y & m & -> & My & P) D. rewrite sysex_data in D.
      pose proof (loose_pad _ _ _ _ _ m My P) as (C & Nt & Nb). exists d, n. split; [reflexivity|].
      destruct (carries_reads _ _ _ _ _ _ C) as (D' & _). assert (E : d = firstn (packet_words fm * k) (y ++ repeat 0%N m)) by congruence.
      destruct (data_carries _ _ _ _ _ _ C) as (Cd & _ & L). rewrite <- E in *.
      split; [rewrite L, Nat.mul_comm; apply Nat.mod_mul; lia|]. split; [exact Cd|]. split.
      * eapply noticed_front; [|exact Nt]. rewrite E. apply same_front_firstn.
      * intros p Hp Lp. rewrite L, Nat.mul_comm, Nat.div_mul in Lp by lia. lia.
    + exists b, 0. rewrite app_nil_r. auto.
    + injection E as ->. now apply loose_pad.
Qed.
Print Assumptions C45_sysex_editable.

(** Zeros behind a 7-bit message do not matter to a parser. *)
Theorem C45_sysex7_accepted : forall b n, List.length b mod 2 = 0 -> n mod 2 = 0 ->
  sx_try_from fmt7 b = Ok b -> sx_try_from fmt7 (b ++ repeat 0%N n) = Ok (b ++ repeat 0%N n).
Proof.
  intros b n M Mn A. apply (accepts_spec SevenBit b M) in A as (k & g & s & l & C & T & Z).
  assert (M' : List.length (b ++ repeat 0%N n) mod packet_words SevenBit = 0).
  { rewrite app_length, repeat_length. cbn [packet_words]. rewrite Nat.add_mod, M, Mn by lia. reflexivity. }
  pose proof (Nat.div_mod (List.length b) 2 ltac:(lia)) as Dv. rewrite M in Dv.
  apply (accepts_spec SevenBit _ M'). exists k, g, s, l. split; [now apply carries_app|].
  assert (P : forall p, p < List.length b / 2 -> type_of SevenBit (b ++ repeat 0%N n) p = type_of SevenBit b p
    /\ size_nibble SevenBit (b ++ repeat 0%N n) p = size_nibble SevenBit b p).
  { intros p Hp. destruct (front_packet SevenBit (List.length b / 2) b (b ++ repeat 0%N n) p) as (E1 & _ & _ & _ & E2 & _); auto.
    apply front_app. cbn [packet_words]. lia. }
  assert (O : forall p, List.length b / 2 <= p -> type_of SevenBit (b ++ repeat 0%N n) p = 0%N /\ size_nibble SevenBit (b ++ repeat 0%N n) p = 0%N).
  { intros p Hp. unfold type_of, size_nibble. rewrite !zero_byte by (cbn [packet_bytes]; lia). split; reflexivity. }
  split.
  - intros _. destruct (Nat.lt_ge_cases k (List.length b / 2)) as [Lt|Ge].
    + rewrite (proj1 (P k Lt)). now apply T.
    + rewrite (proj1 (O k Ge)). discriminate.
  - intros p _. destruct (Nat.lt_ge_cases p (List.length b / 2)) as [Lt|Ge].
    + rewrite (proj2 (P p Lt)). now apply Z.
    + rewrite (proj2 (O p Ge)). split; [apply N.le_refl|apply N.le_0_l].
Qed.
Print Assumptions C45_sysex7_accepted.

Example C45_sysex_case : exists a,
  copied_on U32 (CSysex8, [0x50120001; 0; 0; 0; 0x50310000; 0; 0; 0; 7]%N) a
  /\ a = (CSysex8, [0x50120001; 0; 0; 0; 0x50310000; 0; 0; 0; 0; 0; 0; 0]%N)
  /\ sx_try_from fmt8 (firstn 8 (snd a)) = Ok (firstn 8 (snd a)).
Proof.
  eexists. split; [|split; [reflexivity|vm_compute; reflexivity]].
  eapply copied_again; [eapply copied_again; [apply not_copied|]|].
  - eapply (into_array U32 _ 10). vm_compute. reflexivity.
  - eapply (into_array_checked U32 _ 12). vm_compute. reflexivity.
Qed.

(** Byte streams: the same message, something behind it. *)
Theorem C45_bytes : forall l r a, Forall (is_unit SevenBit) l -> copied_on U8 (CSysex7, stream_bytes l ++ r) a ->
  exists r', a = (CSysex7, stream_bytes l ++ r').
Proof.
  intros l r a Hl H.
  destruct (copies_ind U8 CSysex7 (fun b => exists r', b = stream_bytes l ++ r') (stream_bytes l ++ r) a) as (b' & -> & r' & ->); eauto.
  - intros x n (r' & ->). exists (r' ++ repeat 0%N n). now rewrite app_assoc.
  - intros x d n (r' & ->) D. cbn [concrete_data] in D. rewrite (proj1 (proj2 (C26_bytes_accepted_reads l r' Hl))) in D.
    assert (d = stream_bytes l) by congruence. subst. eauto.
Qed.
Print Assumptions C45_bytes.

(** Texts, with nothing but zeros behind the message: text, group and channel stay, if the last byte of
    the message is not used. *)
Theorem C45_flex_text : forall K d b a, In K flex_texts -> flex_data d = Val d -> zero_padded d b -> spare_byte d ->
  copied_on U32 (CFlexText K, b) a ->
  exists b', a = (CFlexText K, b') /\ zero_padded d b' /\ flex_data b' = Val d
    /\ flex_text b' = flex_text b /\ flex_text_bytes b' = flex_text_bytes b
    /\ flex_group b' = flex_group b /\ flex_channel b' = flex_channel b.
Proof.
  intros K d b a _ D Z S0 H. destruct (padded_copies (CFlexText K) d b a D Z H) as (b' & -> & Z').
  exists b'. split; [reflexivity|]. split; [exact Z'|]. destruct Z as (n & ->), Z' as (n' & ->).
  destruct (dyn_data 4 d d D) as [L M].
  assert (T : forall n, flex_text_bytes (d ++ repeat 0%N n) = Val (without_nul (text_area 4 d))).
  { intros i. rewrite flex_bytes_any by (rewrite app_length; lia). now rewrite flex_reading_pad. }
  split; [apply (data_prefix U32 (CFlexText K) d d D)|]. split; [|split; [now rewrite !T|]].
  - unfold flex_text, text_string. unfold flex_text_bytes in T. now rewrite !T.
  - destruct d as [|x d]; [cbn in L; lia|]. split; reflexivity.
Qed.
Print Assumptions C45_flex_text.

Theorem C45_stream_text : forall K d b a, In K stream_texts -> stream_data d = Val d -> zero_padded d b ->
  copied_on U32 (CStreamText K, b) a ->
  exists b', a = (CStreamText K, b') /\ zero_padded d b' /\ stream_data b' = Val d
    /\ stream_text K b' = stream_text K b /\ stream_text_bytes K b' = stream_text_bytes K b
    /\ block_read b' = block_read b.
Proof.
  intros K d b a HK D Z H. destruct (padded_copies (CStreamText K) d b a D Z H) as (b' & -> & Z').
  exists b'. split; [reflexivity|]. split; [exact Z'|]. destruct Z as (n & ->), Z' as (n' & ->).
  destruct (dyn_data 2 d d D) as [L M]. pose proof (proj2 (stream_text_arm K HK)) as Ho.
  assert (T : forall n, stream_text_bytes K (d ++ repeat 0%N n) = Val (without_nul (text_area (2 + sk_off K) d))).
  { intros i. unfold stream_text_bytes. rewrite stream_bytes_any by (auto; rewrite app_length; lia). now rewrite stream_reading_pad. }
  split; [apply (data_prefix U32 (CStreamText K) d d D)|]. split; [|split; [now rewrite !T|]].
  - unfold stream_text, text_string. unfold stream_text_bytes in T. now rewrite !T.
  - destruct d as [|x d]; [cbn in L; lia|]. reflexivity.
Qed.
Print Assumptions C45_stream_text.

Definition lyrics : flex_kind := {| fk_name := "Lyrics"; fk_bank := 2; fk_status := 1 |}.
Example C45_text_case :
  let d := [0xD0500201; 0x61626364; 0x65666768; 0x696A6B6C; 0xD0D00201; 0x6D000000; 0; 0]%N in
  In lyrics flex_texts /\ flex_data d = Val d /\ zero_padded d d /\ spare_byte d
  /\ flex_text d = Val [97; 98; 99; 100; 101; 102; 103; 104; 105; 106; 107; 108; 109]%N
  /\ exists a, copied_on U32 (CFlexText lyrics, d) a /\ a = (CFlexText lyrics, d ++ [0; 0; 0; 0]%N).
Proof.
  cbv zeta. split; [vm_compute; auto 30|]. split; [vm_compute; reflexivity|]. split; [exists 0; reflexivity|].
  split; [vm_compute; reflexivity|]. split; [vm_compute; reflexivity|].
  eexists. split; [|reflexivity]. eapply copied_again; [apply not_copied|]. eapply (into_array_checked U32 _ 12). vm_compute. reflexivity.
Qed.

(** A text that fills its packets reads differently after it was copied to a longer buffer: its last
    byte, lost before (C29_full_packet_refuted), appears. *)
Theorem C45_full_text_refuted : exists b0 b a t,
  flex_new lyrics = Val b0 /\ flex_set_text b0 (letters 12) = Val b
  /\ copied_once U32 (CFlexText lyrics, b) a
  /\ flex_text b = Val t /\ t = removelast (letters 12) /\ flex_text (snd a) = Val (letters 12).
Proof.
  do 4 eexists. split; [vm_compute; reflexivity|]. split; [vm_compute; reflexivity|].
  split; [eapply (into_array U32 _ 8); vm_compute; reflexivity|]. repeat split; vm_compute; reflexivity.
Qed.
Print Assumptions C45_full_text_refuted.

(** Zeros behind an 8-bit system exclusive message, a flex data message or a stream message do matter
    to a parser: the array that holds a copy is refused, though the copy's [data()] is not. *)
Theorem C45_padding_refuted : exists b8 bf bt bs,
  sx_try_from fmt8 b8 = Ok b8 /\ (exists e, sx_try_from fmt8 (b8 ++ repeat 0%N 4) = Err e)
  /\ accepts U32 flex_set_time_signature bf /\ (exists e, try_from U32 flex_set_time_signature (bf ++ repeat 0%N 4) = Val (Err e))
  /\ flex_try_from lyrics bt = Val (Ok bt) /\ (exists e, flex_try_from lyrics (bt ++ repeat 0%N 4) = Val (Err e))
  /\ accepts U32 stream_end_of_clip bs /\ (exists e, try_from U32 stream_end_of_clip (bs ++ repeat 0%N 4) = Val (Err e)).
Proof.
  exists [0x50030001; 0x02000000; 0; 0]%N, [0xD0100001; 0x04020800; 0; 0]%N, [0xD0100201; 0x61000000; 0; 0]%N, [0xF0210000; 0; 0; 0]%N.
  repeat split; try (eexists; vm_compute; reflexivity); vm_compute; reflexivity.
Qed.
Print Assumptions C45_padding_refuted.
