(** Lemmas: totality of the aggregate enums, byte streams, groups, channels and
    data of aggregates. *)
From Coq Require Import NArith ZArith List String Bool Arith Lia Zify ZifyBool ZifyNat ZifyN.
From Verif Require Import Base BitOps BitLemmas ListLemmas Values Helpers Props Message MessageTable SpecLayout SpecFixed
  PropLemmas PropValidate MessageLemmas FixedLemmas FixedProofs Sysex ByteView SysexLayout SysexBridge SysexMore SysexInit
  Text SpecSysex SpecText TextLemmas TextHeader TextFlex TextFlexMore TextParse TextFresh Aggregate SpecAggregate AggregateLemmas.
Import ListNotations.
Local Open Scope string_scope.
Local Open Scope list_scope.
Local Open Scope nat_scope.

(** ** Totality *)

Lemma types_fixed f m : In (CFixed m) (types_of f) -> In m all_messages /\ supports U32 m = true.
Proof.
  intros H. split; [|reflexivity].
  unfold all_messages. destruct f; cbn [types_of] in H; repeat rewrite in_app_iff in *;
    repeat match goal with H : _ \/ _ |- _ => destruct H end;
    try (apply in_map_iff in H as (x & E & H); first [discriminate E | injection E as ->; tauto]).
  all: destruct H as [H|[]]; discriminate H.
Qed.

Lemma concrete_total32 f c b : In c (types_of f) -> wf_buf U32 b -> exists r, concrete_try_from U32 c b = Val r.
Proof.
  intros T W. destruct c; cbn [concrete_try_from]; eauto.
  - destruct (types_fixed f m T) as [Hm Hs]. destruct (try_from_spec U32 m b Hm Hs W) as (r & E & _). eauto.
  - apply flex_try_from_total.
  - apply stream_try_from_total.
    destruct f; cbn [types_of] in T; repeat rewrite in_app_iff in T; repeat rewrite in_map_iff in T; cbn [In] in T;
      repeat match goal with H : _ \/ _ |- _ => destruct H end; repeat match goal with H : exists _, _ |- _ => destruct H as (? & ? & ?) end; try discriminate; try easy.
    injection H as ->. now apply stream_text_arm.
Qed.

Lemma wrap_total u c b : (exists r, concrete_try_from u c b = Val r) -> exists r, wrap u c b = Val r.
Proof. intros (r & E). unfold wrap. rewrite E. destruct r; cbn [try_bind]; eauto. Qed.


Lemma family_form f b : b <> [] -> exists e,
  family_try_from f b = match model_select f (hd0 b) with Some c => wrap U32 c b | None => Val (Err e) end.
Proof.
  intros Hb. destruct b as [|x b]; [easy|].
  destruct f; eexists; cbn [family_try_from model_select right_select]; try reflexivity. Unshelve. all: exact "".
Qed.

Lemma family_total f b : wf_buf U32 b -> exists r, family_try_from f b = Val r.
Proof.
  intros W. destruct b as [|x b].
  { destruct f; cbn [family_try_from util_try_from sys_try_from cv1_try_from cv2_try_from flexdata_try_from umpstream_try_from]; eauto;
    apply wrap_total; cbn [concrete_try_from]; eauto. }
  destruct (family_form f (x :: b)) as (e & ->); [discriminate|].
  destruct (model_select f (hd0 (x :: b))) as [c|] eqn:S; [|eauto].
  apply wrap_total. eapply concrete_total32; eauto. eapply arms_types; eauto.
Qed.

Lemma ump_total b : wf_buf U32 b -> exists r, ump_try_from b = Val r.
Proof.
  intros W. destruct b as [|x b]; [eexists; reflexivity|]. rewrite ump_by_family.
  destruct (ump_family _); [now apply family_total|eauto].
Qed.

(** ** Byte streams *)

(** What [BytesMessage] looks for, by the first byte. *)
Definition byte_select (s : N) : option concrete :=
  if ((0x80 <=? s) && (s <=? 0xEF))%N then select cv1_arms (nibble8 s 0)
  else if (s =? 0xF0)%N then Some CSysex7
  else if ((0xF1 <=? s) && (s <=? 0xF6) || (0xF8 <=? s) && (s <=? 0xFF))%N then select sys_arms s
  else None.

Lemma byte_select_name s : (s < 256)%N -> option_map type_name (byte_select s) = midi1_type s.
Proof.
  intros H.
  assert (C : forallb (fun n => match option_map type_name (byte_select (N.of_nat n)), midi1_type (N.of_nat n) with
                 | Some a, Some b => String.eqb a b | None, None => true | _, _ => false end) (seq 0 256) = true)
    by (vm_compute; reflexivity).
  rewrite forallb_forall in C. specialize (C (N.to_nat s)). rewrite N2Nat.id in C.
  assert (I : In (N.to_nat s) (seq 0 256)) by (apply in_seq; lia). specialize (C I).
  destruct (option_map _ _), (midi1_type s); try discriminate; [|reflexivity]. apply String.eqb_eq in C. congruence.
Qed.

Lemma bytes_form s t : exists e,
  bytes_try_from (s :: t) = match byte_select s with Some c => wrap U8 c (s :: t) | None => Val (Err e) end.
Proof.
  unfold bytes_try_from, byte_select. cbn [idx nth_error bind].
  destruct (_ && _); [eexists; cbn [cv1_try_from cv1_status idx nth_error bind]; unfold dispatch; reflexivity|].
  destruct (s =? 0xF0)%N; [exists ""; reflexivity|].
  destruct (_ || _); eexists; [cbn [sys_try_from idx nth_error bind sys_status]; unfold dispatch|]; reflexivity.
Qed.

Lemma byte_arms s c : byte_select s = Some c -> In c byte_types.
Proof.
  unfold byte_select. destruct (_ && _); [|destruct (s =? 0xF0)%N; [left; congruence|destruct (_ || _); [|discriminate]]];
    intros H; apply select_in in H; unfold byte_types; right;
    repeat first [destruct H as [<-|H]; [cbn [map app system_common_messages channel_voice1_messages]; solve [repeat (first [left; reflexivity|right])] |] | easy].
Qed.

Lemma nibble8_top x : nibble8 x 0 = (x / 16 mod 16)%N.
Proof.
  unfold nibble8. change 0xF%N with (N.ones 4). rewrite N.land_ones, N.shiftr_div_pow2. reflexivity.
Qed.

Lemma byte_key c s t : (s < 256)%N -> In c byte_types -> accepted U8 c (s :: t) -> byte_select s = Some c.
Proof.
  intros Hs T A. unfold byte_types in T. destruct T as [<-|T].
  - unfold accepted in A. cbn [concrete_try_from] in A. unfold try_from_b in A. destruct (_ <? _); [discriminate|].
    cbn [first_error] in A. unfold hd0 in A. cbn [nth] in A. destruct (N.eqb_spec s 0xF0) as [->|]; [reflexivity|discriminate].
  - rewrite map_app, in_app_iff in T. destruct T as [T|T]; apply in_fixed in T as (m & -> & Hm);
      unfold accepted in A; cbn [concrete_try_from] in A.
    + pose proof sys_table as X. rewrite Forall_forall in X. destruct (X m Hm) as (k & g & h & F & _ & S).
      pose proof (need_sys U8 _ _ (accepts_field _ _ _ _ _ A F)) as E. cbn in E. subst k.
      pose proof (select_key _ _ _ S) as K. unfold byte_select. rewrite S.
      assert (R : ((0xF1 <= s <= 0xF6) \/ (0xF8 <= s))%N).
      { clear - K. unfold sys_arms in K. repeat (destruct K as [K|K]; [injection K as <- _; lia|]). easy. }
      replace ((128 <=? s) && (s <=? 239))%N with false by lia. replace (s =? 240)%N with false by lia.
      replace ((241 <=? s) && (s <=? 246) || (248 <=? s) && (s <=? 255))%N with true by lia. reflexivity.
    + pose proof cv1_table as X. rewrite Forall_forall in X. destruct (X m Hm) as (k & g & h & F & _ & S).
      pose proof (need_cv U8 _ _ (accepts_field _ _ _ _ _ A F)) as E. cbn in E. subst k.
      pose proof (select_key _ _ _ S) as K. unfold byte_select. rewrite S.
      assert (R : (8 <= nibble8 s 0 <= 14)%N).
      { clear - K. revert K. generalize (nibble8 s 0). intros n K. unfold cv1_arms in K.
        repeat (destruct K as [K|K]; [injection K as <- _; lia|]). easy. }
      rewrite nibble8_top in R. assert (0x80 <= s <= 0xEF)%N by lia_div.
      replace ((128 <=? s) && (s <=? 239))%N with true by lia. reflexivity.
Qed.

Lemma byte_fixed m : In (CFixed m) byte_types -> In m all_messages /\ supports U8 m = true.
Proof.
  unfold byte_types. intros [H|H]; [discriminate|]. apply in_map_iff in H as (x & E & H). injection E as ->.
  unfold all_messages. rewrite in_app_iff in H. rewrite !in_app_iff. split; [tauto|].
  destruct H as [H|H]; repeat (destruct H as [<-|H]; [reflexivity|]); easy.
Qed.

Lemma concrete_total8 c b : In c byte_types -> wf_buf U8 b -> exists r, concrete_try_from U8 c b = Val r.
Proof.
  intros T W. destruct c; cbn [concrete_try_from]; eauto.
  - destruct (byte_fixed m T) as [Hm Hs]. destruct (try_from_spec U8 m b Hm Hs W) as (r & E & _). eauto.
  - unfold byte_types in T. destruct T as [T|T]; [discriminate|]. apply in_map_iff in T as (? & ? & _). discriminate.
  - unfold byte_types in T. destruct T as [T|T]; [discriminate|]. apply in_map_iff in T as (? & ? & _). discriminate.
  - unfold byte_types in T. destruct T as [T|T]; [discriminate|]. apply in_map_iff in T as (? & ? & _). discriminate.
Qed.

Lemma bytes_total b : wf_buf U8 b -> exists r, bytes_try_from b = Val r.
Proof.
  intros W. destruct b as [|s t]; [eexists; reflexivity|]. destruct (bytes_form s t) as (e & ->).
  destruct (byte_select s) eqn:S; [|eauto]. apply wrap_total, concrete_total8; auto. eapply byte_arms; eauto.
Qed.

Lemma bytes_slice c b m : concrete_try_from U8 c b = Val (Ok m) -> m = b.
Proof.
  destruct c; cbn [concrete_try_from]; try discriminate.
  - unfold try_from. destruct (_ <? _); [discriminate|]. destruct (validate_all _ _ _) as [[[]|]|]; cbn [bind]; congruence.
  - unfold try_from_b. destruct (_ <? _); [discriminate|]. destruct (first_error _); congruence.
Qed.

Lemma bytes_iff b c m : wf_buf U8 b -> bytes_try_from b = Val (Ok (c, m)) <->
  In c byte_types /\ accepted U8 c b /\ m = b.
Proof.
  intros W. destruct b as [|s t].
  { split; [discriminate|]. intros (T & A & _). exfalso. unfold accepted in A. unfold byte_types in T.
    destruct T as [<-|T]; [discriminate A|]. apply in_map_iff in T as (x & <- & H). cbn [concrete_try_from] in A.
    pose proof (accepts_length U8 x [] A) as L. cbn [List.length] in L.
    rewrite in_app_iff in H. destruct H as [H|H]; repeat (destruct H as [<-|H]; [vm_compute in L; lia|]); easy. }
  destruct (bytes_form s t) as (e & ->). assert (Hs : (s < 256)%N) by (inversion W; assumption). split.
  - destruct (byte_select s) as [d|] eqn:S; [|discriminate]. rewrite wrap_ok. intros [-> H].
    pose proof (bytes_slice _ _ _ H) as ->. split; [eapply byte_arms; eauto|]. auto.
  - intros (T & A & ->). rewrite (byte_key c s t) by assumption. apply wrap_ok. auto.
Qed.

(** The families' own enums over bytes. *)
Lemma cv1_arms_types s c : select cv1_arms s = Some c -> In c (types_of ChannelVoice1).
Proof. intros H. apply select_in in H. cbn [types_of]. repeat first [destruct H as [<-|H]; [solve [repeat (first [left; reflexivity|right])] |] | easy]. Qed.
Lemma sys_arms_types s c : select sys_arms s = Some c -> In c (types_of SystemCommon).
Proof. intros H. apply select_in in H. cbn [types_of]. repeat first [destruct H as [<-|H]; [solve [repeat (first [left; reflexivity|right])] |] | easy]. Qed.

Lemma byte_family c b f : f = ChannelVoice1 \/ f = SystemCommon -> In c (types_of f) -> In c byte_types /\ (accepted U8 c b -> b <> []).
Proof.
  intros F T. assert (B : In c byte_types).
  { unfold byte_types. right. rewrite map_app, in_app_iff. destruct F as [-> | ->]; cbn [types_of] in T; tauto. }
  split; [exact B|]. intros A ->. assert (X : bytes_try_from [] = Val (Ok (c, []))) by (apply bytes_iff; [constructor|auto]). discriminate X.
Qed.

Lemma cv1_bytes_iff b c m : wf_buf U8 b -> cv1_try_from U8 b = Val (Ok (c, m)) <->
  In c (types_of ChannelVoice1) /\ accepted U8 c b /\ m = b.
Proof.
  intros W. destruct b as [|s t].
  { split; [discriminate|]. intros (T & A & _). exfalso. apply (byte_family c [] ChannelVoice1) in T as [_ T]; auto. now apply T. }
  cbn [cv1_try_from cv1_status idx nth_error bind]. rewrite dispatch_ok. split.
  - intros [S H]. split; [now apply cv1_arms_types in S|]. unfold accepted. pose proof (bytes_slice _ _ _ H) as ->. auto.
  - intros (T & A & ->). split; [|exact A]. cbn [types_of] in T. apply in_fixed in T as (x & -> & Hm).
    pose proof cv1_table as X. rewrite Forall_forall in X. destruct (X x Hm) as (k & g & h & F & _ & S).
    pose proof (need_cv U8 _ _ (accepts_field _ _ _ _ _ A F)) as E. cbn in E. now rewrite E.
Qed.
Lemma sys_bytes_iff b c m : wf_buf U8 b -> sys_try_from U8 b = Val (Ok (c, m)) <->
  In c (types_of SystemCommon) /\ accepted U8 c b /\ m = b.
Proof.
  intros W. destruct b as [|s t].
  { split; [discriminate|]. intros (T & A & _). exfalso. apply (byte_family c [] SystemCommon) in T as [_ T]; auto. now apply T. }
  cbn [sys_try_from idx nth_error bind]. rewrite dispatch_ok. split.
  - intros [S H]. split; [now apply sys_arms_types in S|]. unfold accepted. pose proof (bytes_slice _ _ _ H) as ->. auto.
  - intros (T & A & ->). split; [|exact A]. cbn [types_of] in T. apply in_fixed in T as (x & -> & Hm).
    pose proof sys_table as X. rewrite Forall_forall in X. destruct (X x Hm) as (k & g & h & F & _ & S).
    pose proof (need_sys U8 _ _ (accepts_field _ _ _ _ _ A F)) as E. cbn in E |- *. now rewrite E.
Qed.
Lemma bytes_family_total b : wf_buf U8 b -> (exists r, cv1_try_from U8 b = Val r) /\ (exists r, sys_try_from U8 b = Val r).
Proof.
  intros W. destruct b as [|s t]; [split; eexists; reflexivity|].
  split; cbn [cv1_try_from cv1_status sys_try_from idx nth_error bind]; unfold dispatch.
  - destruct (select _ _) eqn:S; [|eauto]. apply wrap_total, concrete_total8; auto.
    eapply (byte_family c [] ChannelVoice1); auto. eapply cv1_arms_types; eauto.
  - destruct (select _ _) eqn:S; [|eauto]. apply wrap_total, concrete_total8; auto.
    eapply (byte_family c [] SystemCommon); auto. eapply sys_arms_types; eauto.
Qed.

Lemma sized_fixed m s t k : (validate_all U8 (m_fields m) (s :: t) = Val (Ok tt)) -> min_size U8 m = k ->
  try_from U8 m (s :: t) = Val (Ok (s :: t)) <-> k <= S (List.length t).
Proof.
  intros V <-. unfold try_from. rewrite V. cbn [bind List.length].
  destruct (Nat.ltb_spec (S (List.length t)) (min_size U8 m)) as [L|L]; split; try easy; lia.
Qed.

Lemma byte_accepts s t c : byte_select s = Some c -> accepted U8 c (s :: t) <-> enough c t.
Proof.
  unfold byte_select, accepted. intros H. destruct (_ && _).
  - apply select_key in H. unfold cv1_arms in H.
    repeat (destruct H as [H|H]; [injection H as E <-; cbn [concrete_try_from enough]; apply sized_fixed; [cbn; rewrite <- E; reflexivity|reflexivity]|]). easy.
  - destruct (N.eqb_spec s 0xF0) as [->|].
    { injection H as <-. cbn [concrete_try_from enough]. unfold try_from_b. split.
      - destruct (Nat.ltb_spec (List.length (240%N :: t)) 2) as [|L]; [discriminate|]. cbn. destruct (existsb _ t) eqn:X; [|discriminate].
        intros _. apply existsb_exists in X as (x & Hx & E). apply N.eqb_eq in E. congruence.
      - intros I. replace (List.length (240%N :: t) <? 2) with false by (destruct t; [easy|cbn [List.length]; lia]).
        cbn. replace (existsb _ t) with true; [reflexivity|]. symmetry. apply existsb_exists. eexists. split; [exact I|reflexivity]. }
    destruct (_ || _); [|discriminate]. apply select_key in H. unfold sys_arms in H.
    repeat (destruct H as [H|H]; [injection H as <- <-; cbn [concrete_try_from enough]; apply sized_fixed; reflexivity|]). easy.
Qed.

(** ** Groups and channels *)

Definition grouped_fixed : list Message.message :=
  system_common_messages ++ channel_voice1_messages ++ channel_voice2_messages ++ flex_data_messages.

Lemma assoc_in {A} (l : list (string * A)) f w : find (fun p => String.eqb (fst p) f) l = Some (f, w) -> In (f, w) l.
Proof. intros H. now apply find_some in H as [H _]. Qed.

Lemma group_segment m : In m grouped_fixed -> settable_field U32 m "group" (Number (Seg 0 24 4)) /\ storable m "group" (VNum 0)
  /\ field_type m "group" = Some (TyU 4).
Proof.
  unfold grouped_fixed, system_common_messages, channel_voice1_messages, channel_voice2_messages, flex_data_messages. cbn [app].
  intros H. repeat (destruct H as [<-|H]; [split; [split; [apply assoc_in; reflexivity|reflexivity]|split; [exists (TyU 4); repeat split; reflexivity|reflexivity]]|]).
  easy.
Qed.
Lemma grouped_all m : In m grouped_fixed -> In m all_messages.
Proof. unfold grouped_fixed, all_messages. rewrite !in_app_iff. tauto. Qed.

Lemma channel_segment u m : In m (channel_voice1_messages ++ channel_voice2_messages) -> supports u m = true ->
  settable_field u m "channel" (Number (channel_place u)) /\ field_type m "channel" = Some (TyU 4).
Proof.
  unfold channel_voice1_messages, channel_voice2_messages. cbn [app].
  intros H S. repeat (destruct H as [<-|H]; [destruct u; [try discriminate S|]; (split; [split; [apply assoc_in; reflexivity|reflexivity]|reflexivity])|]).
  easy.
Qed.

Lemma storable_u4 m f v : field_type m f = Some (TyU 4) -> (v < 16)%N -> storable m f (VNum v).
Proof.
  intros H Hv. exists (TyU 4). split; [exact H|]. split; [|reflexivity]. cbn. now apply N.ltb_lt.
Qed.

Lemma accepts_holds u m b : In m all_messages -> supports u m = true -> wf_buf u b -> accepts u m b ->
  m_name m <> "system_common::SongPositionPointer" -> holds u m b.
Proof. intros Hm Hs W A N. split; [exact W|]. split; [now apply accepts_length|]. intros _ E. easy. Qed.
Lemma accepts_holds32 m b : In m all_messages -> wf_buf U32 b -> accepts U32 m b -> holds U32 m b.
Proof. intros Hm W A. split; [exact W|]. split; [now apply accepts_length|]. intros E. discriminate E. Qed.

Lemma set_number u m f s b v : In m all_messages -> settable_field u m f (Number s) -> field_type m f = Some (TyU 4) ->
  holds u m b -> (v < 16)%N ->
  get u m b f = Val (VNum (bits b s)) /\
  exists b', set u m b f (VNum v) = Val b' /\ only_changes [s] b b' /\ holds u m b' /\ bits b' s = v
    /\ (accepts u m b -> accepts u m b').
Proof.
  intros Hm Hf Ht Hh Hv. split.
  { rewrite (get_settable u m b f (Number s)) by auto. reflexivity. }
  destruct (set_ok u m b f _ (VNum v) Hm Hf Hh (storable_u4 _ _ _ Ht Hv)) as (b' & E & C & Hh' & D).
  exists b'. split; [exact E|]. split; [exact C|]. split; [exact Hh'|].
  split; [cbn [decode] in D; congruence|].
  intros A. exact (accepts_set u m b b' f _ (VNum v) Hm Hf Hh (storable_u4 _ _ _ Ht Hv) E A).
Qed.

Lemma testbit_nibble1 x v j : (v < 16)%N -> ~ (24 <= j < 28)%N -> N.testbit (set_nibble32 x 1 v) j = N.testbit x j.
Proof.
  intros Hv Hj. unfold set_nibble32. change 0xF%N with (N.ones 4). change (28 - 1 * 4)%N with 24%N.
  rewrite testbit_replace by exact Hv. destruct (_ && _)%bool eqn:E; [|reflexivity]. exfalso. lia.
Qed.

Lemma only_changes_bits segs b b' s : only_changes segs b b' ->
  (forall j x, In x segs -> in_seg s (sg_w s) j -> ~ in_seg x (sg_w s) j) -> bits b' s = bits b s.
Proof.
  intros [_ H] D. unfold bits. apply N.bits_inj. intros i.
  destruct (N.lt_ge_cases i (sg_n s)) as [L|L].
  - rewrite !N.mod_pow2_bits_low by exact L. rewrite !N.div_pow2_bits. apply H.
    intros x Hx. apply D; [exact Hx|]. split; [reflexivity|lia].
  - now rewrite !N.mod_pow2_bits_high by exact L.
Qed.

Lemma flex_group_set b v : (v < 16)%N -> exists b', flex_set_group b v = Val b' /\ List.length b' = List.length b
  /\ only_changes (group_places FlexData b) b b'
  /\ (forall p, p < flex_packets b -> bits b' (Seg (4 * p) 24 4) = v).
Proof.
  intros Hv. destruct (flex_packets_spec b) as (N1 & _). cbn zeta in N1.
  destruct (flex_set_group_ok b v Hv) as (b0 & E0 & L0 & O0).
  unfold flex_set_group, for_heads in *.
  pose proof (Nat.div_mod (List.length b) 4 ltac:(lia)).
  destruct (heads_fold 4 (fun _ x => set_nibble32 x 1 v) ltac:(lia) (flex_packets b) 0 b) as (b' & E & L & O).
  { intros i Hi. lia. }
  exists b'. split; [exact E|]. split; [exact L|]. split.
  - split; [exact L|]. intros w j Hw. rewrite O. cbn [Nat.leb]. rewrite andb_true_r.
    destruct (Nat.eqb_spec (w mod 4) 0) as [M|M]; cbn [andb]; [|reflexivity].
    destruct (Nat.ltb_spec (w / 4) (0 + flex_packets b)) as [P|P]; [|reflexivity].
    apply testbit_nibble1; [exact Hv|]. intros J. pose proof (Nat.div_mod w 4 ltac:(lia)).
    apply (Hw (Seg (4 * (w / 4)) 24 4)).
    + unfold group_places. apply in_map_iff. exists (w / 4). split; [reflexivity|]. apply in_seq. lia.
    + split; cbn [sg_w sg_lo sg_n]; lia.
  - intros p Hp. assert (b' = b0) by congruence. subst b'.
    change 24%N with (28 - 1 * 4)%N. rewrite <- (nibble32_bits b0 (4 * p) 1). rewrite nibble32_1.
    pose proof (oct_head b0 p 0 ltac:(lia)) as Q. change (N.of_nat 0) with 0%N in Q. rewrite <- Q, O0 by lia.
    cbn [Nat.eqb andb]. replace (p <? flex_packets b) with true by lia. lia_div.
Qed.

Lemma flex_area_set b b' v : (v < 16)%N -> flex_set_group b v = Val b' -> text_area 4 b' = text_area 4 b.
Proof.
  intros Hv E. destruct (flex_set_group_ok b v Hv) as (b0 & E0 & L & O). assert (b0 = b') by congruence. subst b0.
  pose proof (text_area_length 4 b ltac:(lia)) as L1. pose proof (text_area_length 4 b' ltac:(lia)) as L2.
  apply (nth_ext _ _ 0%N 0%N); [rewrite L1, L2, L; reflexivity|]. intros i Hi. rewrite L2 in Hi.
  change 4 with (tf_head flex_form). change (16 - 4) with (tf_cap flex_form) in Hi.
  rewrite !text_area_nth by (try apply okt_flex; rewrite ?L in *; lia).
  unfold area. change (tf_cap flex_form) with 12. change (tf_head flex_form) with 4.
  pose proof (Nat.mod_upper_bound i 12 ltac:(lia)).
  rewrite <- !Nat.add_assoc. rewrite O by lia. reflexivity.
Qed.

Lemma flex_text_set_group k b v : (v < 16)%N -> flex_try_from k b = Val (Ok b) ->
  flex_group b = Val (bits b (Seg 0 24 4)) /\
  exists b', flex_set_group b v = Val b' /\ only_changes (group_places FlexData b) b b'
    /\ flex_try_from k b' = Val (Ok b') /\ flex_group b' = Val v.
Proof.
  intros Hv A. apply flex_try_from_ok in A as (_ & L4 & T & BS & F & S).
  assert (G : forall b, 4 <= List.length b -> flex_group b = Val (bits b (Seg 0 24 4))).
  { clear. intros b L. unfold flex_group. rewrite idx_nth by lia. cbn [bind].
    change 24%N with (28 - 1 * 4)%N. now rewrite <- nibble32_bits. }
  split; [now apply G|]. destruct (flex_group_set b v Hv) as (b' & E & L & C & H).
  exists b'. split; [exact E|]. split; [exact C|].
  assert (U : forall p lo n, (lo + n <= 24 \/ 28 <= lo)%N -> bits b' (Seg p lo n) = bits b (Seg p lo n)).
  { intros p lo n D. apply (only_changes_bits _ _ _ _ C). intros j x Hx [_ I]. unfold group_places in Hx.
    apply in_map_iff in Hx as (q & <- & _). intros [_ J]. cbn [sg_lo sg_n] in *. lia. }
  assert (Lead : forall k, leading 4 13 b' k -> leading 4 13 b k).
  { intros n (A1 & A2 & A3). split; [rewrite <- L; exact A1|]. split.
    - intros i Hi. rewrite <- U by lia. auto.
    - intros Hi. rewrite <- U by lia. apply A3. now rewrite L. }
  assert (FP : forall n, leading 4 13 b n -> flex_packets b = Nat.min n (List.length b / 4)).
  { intros n Hn. unfold flex_packets. rewrite (lead_exact b 0xD n Hn), map_length, seq_length. reflexivity. }
  assert (P0 : 0 < flex_packets b).
  { destruct (leading_exists 4 13 b) as (n & Hn). rewrite (FP n Hn). destruct (F n Hn) as [_ Fr].
    pose proof (Nat.div_le_mono 4 (List.length b) 4 ltac:(lia) L4) as Q. change (4 / 4) with 1 in Q.
    destruct Fr as [[-> _]|[Fr _]]; lia. }
  split.
  - apply flex_try_from_ok. split; [reflexivity|]. split; [lia|]. split; [rewrite U by lia; exact T|]. split; [|split].
    + intros p Hp. rewrite L in Hp. rewrite !U by lia. auto.
    + intros n Hn. apply Lead in Hn. pose proof (FP n Hn) as Fn. destruct (F n Hn) as [_ Fr]. split.
      * intros p Hp Hq. rewrite L in Hq. rewrite !(H _) by lia. change 0 with (4 * 0). rewrite (H 0) by lia. reflexivity.
      * destruct Fr as [[-> Fr]|(F1 & F2 & F3 & F4)]; [left|right].
        -- split; [reflexivity|]. rewrite U by lia. exact Fr.
        -- split; [exact F1|]. rewrite U by lia. split; [exact F2|]. split; [intros i Hi; rewrite U by lia; auto|].
           rewrite U by lia. exact F4.
    + unfold flex_reading. rewrite (flex_area_set b b' v Hv E). exact S.
  - rewrite G by lia. f_equal. change 0 with (4 * 0). apply H. exact P0.
Qed.

(** ** data() *)

Lemma chunks_exact_step n b : 0 < n -> n <= List.length b -> chunks_exact n b = firstn n b :: chunks_exact n (skipn n b).
Proof.
  intros Hn L. rewrite !chunks_exact_spec by exact Hn. rewrite skipn_length.
  replace (List.length b / n) with (S ((List.length b - n) / n)).
  2:{ replace (List.length b) with ((List.length b - n) + 1 * n) at 2 by lia. rewrite Nat.div_add by lia. lia. }
  cbn [seq map]. f_equal.
  - unfold chunk. now rewrite Nat.mul_0_r.
  - rewrite <- seq_shift, map_map. apply map_ext. intros i. replace n with (n * 1) at 3 by lia. rewrite chunk_skipn. reflexivity.
Qed.
Lemma chunks_exact_short n b : List.length b < n -> chunks_exact n b = [].
Proof. intros H. unfold chunks_exact. destruct (List.length b) eqn:E; cbn [chunks_exact_aux]; [reflexivity|]. rewrite E. now replace (S n0 <? n) with true by lia. Qed.

Lemma position_prefix P n k : 0 < n -> forall b, position P (chunks_exact n b) = Some k ->
  k * n + n <= List.length b /\ forall t, position P (chunks_exact n (firstn (k * n + n) b ++ t)) = Some k.
Proof.
  intros Hn. induction k as [|k IH]; intros b H.
  - destruct (Nat.lt_ge_cases (List.length b) n) as [L|L]; [rewrite chunks_exact_short in H by exact L; discriminate|].
    rewrite chunks_exact_step in H by auto. cbn [position] in H. split; [lia|]. intros t.
    rewrite chunks_exact_step; [|exact Hn|rewrite app_length, firstn_length; lia].
    replace (firstn n (firstn (0 * n + n) b ++ t)) with (firstn n b).
    2:{ change (0 * n + n) with n. rewrite firstn_app, firstn_firstn, firstn_length. rewrite Nat.min_id.
        replace (n - Nat.min n (List.length b)) with 0 by lia. cbn [firstn]. now rewrite app_nil_r. }
    cbn [position]. destruct (P (firstn n b)); [reflexivity|]. destruct (position P _); discriminate.
  - destruct (Nat.lt_ge_cases (List.length b) n) as [L|L]; [rewrite chunks_exact_short in H by exact L; discriminate|].
    rewrite chunks_exact_step in H by auto. cbn [position] in H. destruct (P (firstn n b)) eqn:E; [discriminate|].
    destruct (position P (chunks_exact n (skipn n b))) as [j|] eqn:X; [|discriminate]. cbn [option_map] in H.
    assert (j = k) by congruence. subst j. destruct (IH (skipn n b) X) as [A B]. rewrite skipn_length in A. split; [lia|]. intros t.
    rewrite chunks_exact_step; [|exact Hn|rewrite app_length, firstn_length; lia].
    assert (S1 : firstn n (firstn (S k * n + n) b ++ t) = firstn n b).
    { rewrite firstn_app, firstn_firstn, firstn_length. replace (Nat.min n (S k * n + n)) with n by lia.
      replace (n - Nat.min (S k * n + n) (List.length b)) with 0 by lia. cbn [firstn]. now rewrite app_nil_r. }
    assert (S2 : skipn n (firstn (S k * n + n) b ++ t) = firstn (k * n + n) (skipn n b) ++ t).
    { rewrite skipn_app, firstn_length. replace (n - Nat.min (S k * n + n) (List.length b)) with 0 by lia. cbn [skipn]. f_equal.
      rewrite skipn_firstn_comm. f_equal. lia. }
    rewrite S1, S2. cbn [position]. rewrite E, B. reflexivity.
Qed.

Lemma prefix_ok b n d : prefix b n = Val d -> n <= List.length b /\ d = firstn n b.
Proof. unfold prefix. destruct (Nat.leb_spec n (List.length b)); [|discriminate]. split; [auto|congruence]. Qed.
Lemma prefix_own b n t : n <= List.length b -> prefix (firstn n b ++ t) n = Val (firstn n b).
Proof.
  intros L. unfold prefix. rewrite app_length, firstn_length. replace (n <=? _) with true by lia.
  f_equal. rewrite firstn_app, firstn_firstn, firstn_length, Nat.min_id. replace (n - Nat.min n (List.length b)) with 0 by lia.
  cbn [firstn]. now rewrite app_nil_r.
Qed.

Lemma position_b b k : position (fun x => x =? 0xF7)%N b = Some k ->
  S k <= List.length b /\ forall t, position (fun x => x =? 0xF7)%N (firstn (S k) b ++ t) = Some k.
Proof.
  revert k. induction b as [|x b IH]; intros k H; [discriminate|]. cbn [position] in H.
  destruct (x =? 0xF7)%N eqn:E.
  - injection H as <-. split; [cbn; lia|]. intros t. cbn [firstn app position]. now rewrite E.
  - destruct (position _ b) as [j|] eqn:X; [|discriminate]. cbn [option_map] in H. assert (k = S j) by congruence. subst k.
    destruct (IH j eq_refl) as [A B]. split; [cbn; lia|]. intros t. cbn [firstn app position]. rewrite E.
    specialize (B t). cbn [firstn] in B. rewrite B. reflexivity.
Qed.

(** data() is a prefix of the buffer, which determines it. *)
Lemma data_prefix u c b d : concrete_data u c b = Val d ->
  (exists t, b = d ++ t) /\ forall t, concrete_data u c (d ++ t) = Val d.
Proof.
  intros H.
  assert (G : forall P n k, 0 < n -> position P (chunks_exact n b) = Some k -> prefix b (k * n + n) = Val d ->
     (exists t, b = d ++ t) /\ forall t, position P (chunks_exact n (d ++ t)) = Some k /\ prefix (d ++ t) (k * n + n) = Val d).
  { intros P n k Hn Hp Hx. apply prefix_ok in Hx as [L ->]. destruct (position_prefix P n k Hn b Hp) as [_ B].
    split; [exists (skipn (k * n + n) b); now rewrite firstn_skipn|]. intros t. split; [apply B|now apply prefix_own]. }
  assert (Fx : forall n, prefix b n = Val d -> (exists t, b = d ++ t) /\ forall t, prefix (d ++ t) n = Val d).
  { intros n Hx. apply prefix_ok in Hx as [L ->]. split; [exists (skipn n b); now rewrite firstn_skipn|]. intros t. now apply prefix_own. }
  destruct c; cbn [concrete_data] in *.
  - unfold data, size in *. exact (Fx _ H).
  - destruct u.
    + unfold data_b, size_b in *. destruct (position _ b) as [k|] eqn:E; [|discriminate]. cbn [bind] in H.
      apply prefix_ok in H as [L ->]. destruct (position_b b k E) as [_ B].
      split; [exists (skipn (S k) b); now rewrite firstn_skipn|]. intros t. rewrite B. cbn [bind]. now apply prefix_own.
    + unfold sx_data, sx_size in *. destruct (position is_last _) as [k|] eqn:E; [|discriminate]. cbn [bind] in H.
      destruct (G is_last (f_words fmt7) k ltac:(cbn; lia) E H) as [A B]. split; [exact A|]. intros t. destruct (B t) as [-> C]. exact C.
  - unfold sx_data, sx_size in *. destruct (position is_last _) as [k|] eqn:E; [|discriminate]. cbn [bind] in H.
    destruct (G is_last (f_words fmt8) k ltac:(cbn; lia) E H) as [A B]. split; [exact A|]. intros t. destruct (B t) as [-> C]. exact C.
  - unfold flex_data, dyn_size in *. destruct (position _ _) as [q|] eqn:E; [|discriminate]. cbn [bind] in H.
    destruct (G _ 4 q ltac:(lia) E H) as [A B]. split; [exact A|]. intros t. destruct (B t) as [-> C]. exact C.
  - unfold stream_data, dyn_size in *. destruct (position _ _) as [q|] eqn:E; [|discriminate]. cbn [bind] in H.
    destruct (G _ 4 q ltac:(lia) E H) as [A B]. split; [exact A|]. intros t. destruct (B t) as [-> C]. exact C.
Qed.
