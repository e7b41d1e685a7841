(** C65 for texts: one changed byte.  [one_byte], [flex_tolerable] and [stream_tolerable] are defined in SpecDamage.v and
    SpecDamageText.v, [text_area], [flex_reading] and [stream_reading] in SpecText.v, [with_unit] in SpecSysex.v. *)
From Coq Require Import NArith List String Bool Arith Lia.
From Verif Require Import Base SpecLayout SpecSysex SpecFixed Text SpecText TextLemmas TextFlex TextParse TextFresh TextUtf8 SpecDamage SpecDamageText DamageText.
Import ListNotations.
Local Open Scope nat_scope.

(** Flex data texts: which changed bytes are noticed, and what is read if they are not.  The last byte of the slice is
    never looked at (C30). *)
Theorem C65_flex_text : forall K k b b' p r, In K flex_texts -> flex_try_from K b = Val (Ok b) -> leading 4 0xD b k ->
  List.length b = 4 * k -> p < k -> r < 16 -> one_byte (16 * p + r) b b' ->
  (flex_try_from K b' = Val (Ok b') <-> flex_tolerable k b b' p r)
  /\ flex_text_bytes b' = Val (flex_reading b')
  /\ (r < 4 -> flex_reading b' = flex_reading b)
  /\ (4 <= r -> text_area 4 b' = with_unit (text_area 4 b) (12 * p + (r - 4)) (byte b' (16 * p + r)))
  /\ (flex_try_from K b' = Val (Ok b') -> flex_text b' = Val (flex_reading b')).
Proof.
  intros K k b b' p r HK A Hk Len Hp Hr H. pose proof (d_len k b b' p r Len H) as L'.
  assert (B : flex_text_bytes b' = Val (flex_reading b')) by (apply flex_bytes_any; lia).
  split; [now apply flex_damage|]. split; [exact B|]. split; [|split].
  - intros E. pose proof (area_head k b b' p r Len Hp Hr H flex_form okt_flex eq_refl E) as X. cbn [tf_head flex_form] in X.
    unfold flex_reading. now rewrite X.
  - intros E. exact (proj2 (area_text k b b' p r Len Hp Hr H flex_form okt_flex eq_refl E)).
  - intros A'. apply flex_try_from_ok in A' as (_ & _ & _ & _ & _ & St). unfold flex_text, text_string. unfold flex_text_bytes in B. rewrite B.
    cbn [bind]. now rewrite (proj2 (utf8_spec _) St).
Qed.
Print Assumptions C65_flex_text.

(** UMP stream texts. *)
Theorem C65_stream_text : forall K k b b' p r, In K stream_texts -> stream_try_from K b = Val (Ok b) -> leading 4 0xF b k ->
  List.length b = 4 * k -> p < k -> r < 16 -> one_byte (16 * p + r) b b' ->
  (stream_try_from K b' = Val (Ok b') <-> stream_tolerable (sk_off K) k b' r)
  /\ stream_text_bytes K b' = Val (stream_reading (sk_off K) b')
  /\ (r < 2 + sk_off K -> stream_reading (sk_off K) b' = stream_reading (sk_off K) b)
  /\ (2 + sk_off K <= r -> text_area (2 + sk_off K) b'
        = with_unit (text_area (2 + sk_off K) b) ((14 - sk_off K) * p + (r - (2 + sk_off K))) (byte b' (16 * p + r)))
  /\ (stream_try_from K b' = Val (Ok b') -> stream_text K b' = Val (stream_reading (sk_off K) b')).
Proof.
  intros K k b b' p r HK A Hk Len Hp Hr H. pose proof (d_len k b b' p r Len H) as L'. pose proof (proj2 (stream_in K HK)) as Ho.
  assert (Cp : tf_cap (stream_form (sk_off K)) + tf_head (stream_form (sk_off K)) = 16)
    by (clear - Ho; destruct (sk_off K) as [|[|]]; [reflexivity|reflexivity|lia]).
  assert (Ok : okt (stream_form (sk_off K))) by (apply okt_stream; lia).
  assert (B : stream_text_bytes K b' = Val (stream_reading (sk_off K) b')) by (apply stream_bytes_any; lia).
  split; [now apply (stream_damage K k b b' p r)|]. split; [exact B|]. split; [|split].
  - intros E. pose proof (area_head k b b' p r Len Hp Hr H _ Ok Cp E) as X. cbn [tf_head stream_form] in X.
    unfold stream_reading. now rewrite X.
  - intros E. exact (proj2 (area_text k b b' p r Len Hp Hr H _ Ok Cp E)).
  - intros A'. apply stream_try_from_ok in A' as (_ & _ & _ & _ & _ & _ & St); [|exact Ho]. unfold stream_text, text_string. unfold stream_text_bytes in B. rewrite B.
    cbn [bind]. now rewrite (proj2 (utf8_spec _) St).
Qed.
Print Assumptions C65_stream_text.

(** A lyric of two packets: another letter is not noticed, a byte that breaks a character is; a wrong group or bank in the
    second packet is noticed, a wrong channel is not.  A function block name of one packet may change its block number. *)
Definition lyric : list N := [0xD0500201; 0x61626364; 0x65666768; 0x696A6B6C; 0xD0D00201; 0x6D6E0000; 0; 0]%N.
Definition lyrics : flex_kind := {| fk_name := "Lyrics"; fk_bank := 2; fk_status := 1 |}.
Definition block_name : stream_kind := {| sk_name := "FunctionBlockName"; sk_status := 0x12; sk_off := 1 |}.
Example C65_text_cases :
  In lyrics flex_texts /\ flex_try_from lyrics lyric = Val (Ok lyric) /\ leading 4 0xD lyric 2
  /\ (let b' := [0xD0500201; 0x61626364; 0x65666768; 0x696A6B6C; 0xD0D00201; 0x6D6F0000; 0; 0]%N in
      one_byte (16 * 1 + 5) lyric b' /\ flex_try_from lyrics b' = Val (Ok b') /\ flex_text b' = Val [97;98;99;100;101;102;103;104;105;106;107;108;109;111]%N)
  /\ (exists e, flex_try_from lyrics [0xD0500201; 0x61626364; 0x65666768; 0x696A6B6C; 0xD0D00201; 0xFF6E0000; 0; 0]%N = Val (Err e))
  /\ (exists e, flex_try_from lyrics [0xD0500201; 0x61626364; 0x65666768; 0x696A6B6C; 0xD1D00201; 0x6D6E0000; 0; 0]%N = Val (Err e))
  /\ (exists e, flex_try_from lyrics [0xD0500201; 0x61626364; 0x65666768; 0x696A6B6C; 0xD0D00301; 0x6D6E0000; 0; 0]%N = Val (Err e))
  /\ (let b' := [0xD0500201; 0x61626364; 0x65666768; 0x696A6B6C; 0xD0D70201; 0x6D6E0000; 0; 0]%N in flex_try_from lyrics b' = Val (Ok b'))
  /\ In block_name stream_texts
  /\ stream_try_from block_name [0xF0120361; 0x62000000; 0; 0]%N = Val (Ok [0xF0120361; 0x62000000; 0; 0]%N)
  /\ stream_try_from block_name [0xF0120461; 0x62000000; 0; 0]%N = Val (Ok [0xF0120461; 0x62000000; 0; 0]%N)
  /\ (exists e, stream_try_from block_name [0xF0130361; 0x62000000; 0; 0]%N = Val (Err e)).
Proof.
  split; [vm_compute; auto 20|]. split; [vm_compute; reflexivity|]. split.
  { split; [vm_compute; auto 20|]. split; [intros [|[|i]] Hi; [reflexivity|reflexivity|lia]|intros X; vm_compute in X; lia]. }
  split.
  { cbv zeta. split; [|split; vm_compute; reflexivity]. split; [reflexivity|]. split; [vm_compute; discriminate|].
    intros i Hi. unfold byte. pose proof (Nat.mod_upper_bound i 4 ltac:(lia)) as U. pose proof (Nat.div_mod i 4 ltac:(lia)) as D.
    destruct (Nat.eq_dec (i / 4) 5) as [E|E].
    - rewrite E in *. assert (X : i mod 4 = 0 \/ i mod 4 = 2 \/ i mod 4 = 3) by lia. destruct X as [X|X]; [now rewrite X|]. destruct X as [X|X]; now rewrite X.
    - f_equal. f_equal. destruct (i / 4) as [|[|[|[|[|[|[|[|n]]]]]]]]; try reflexivity. lia. }
  do 3 (split; [eexists; vm_compute; reflexivity|]). split; [vm_compute; reflexivity|]. split; [vm_compute; auto 20|].
  do 2 (split; [vm_compute; reflexivity|]). eexists; vm_compute; reflexivity.
Qed.
