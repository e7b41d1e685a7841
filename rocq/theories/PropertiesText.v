(** Text messages (flex data texts and UMP stream names): properties C29-C32, C41, C42 and
    the text part of C06-C08, C10, C24 and C40.

    A text is the list of its UTF-8 bytes.  [flex_wire], [stream_wire], [flex_reading],
    [flex_accepts], [flex_after] and the like are defined in SpecText.v; [flex_do],
    [stream_do], [run_all] and [run_try] (TextClient.v) call one method of the modelled API
    per step. *)
From Coq Require Import NArith ZArith List String Bool Arith Lia Zify ZifyBool ZifyNat ZifyN.
From Verif Require Import Base BitOps Values Props Message SpecLayout SpecSysex SpecFixed Text SpecText TextClient
  BitLemmas ListLemmas PropLemmas PropValidate ByteView SysexLayout SysexBridge
  TextLemmas TextHeader TextFlex TextFlexMore TextFlexInit TextStream TextStreamMore TextUtf8 TextParse
  TextHistory TextFresh.
Import ListNotations.
Local Open Scope nat_scope.

Ltac computed := repeat match goal with |- _ /\ _ => split; [vm_compute; reflexivity|] end; vm_compute; reflexivity.
Definition unwrap {A} (o : outcome (res A)) : outcome A :=
  match o with Val (Ok b) => Val b | _ => Panic end.

(** [n] letters a. *)
Definition letters (n : nat) : list N := repeat 97%N n.
Lemma letters_string n : is_string (letters n).
Proof.
  apply utf8_spec. induction n as [|n IH]; [reflexivity|]. exact IH.
Qed.
Lemma letters_no_nul n : no_nul (letters n).
Proof. unfold no_nul, letters. apply Forall_forall. intros x Hx. apply repeat_spec in Hx. subst. discriminate. Qed.

(** ** C29: flex data text round trip *)

(** A text that fills its packets exactly; its last byte will not be read back. *)
Definition fills (t : list N) : bool := negb (List.length t =? 0) && (List.length t mod 12 =? 0).
Definition kept (t : list N) : list N := if fills t then removelast t else t.

Lemma kept_firstn t k : k = text_packets 12 (List.length t) -> firstn (12 * k - 1) t = kept t.
Proof.
  intros ->. unfold kept, fills, text_packets. destruct (Nat.eqb_spec (List.length t) 0) as [E|E]; cbn [negb andb].
  { destruct t; [reflexivity|discriminate]. }
  pose proof (Nat.div_mod (List.length t) 12 ltac:(lia)) as D.
  pose proof (Nat.mod_upper_bound (List.length t) 12 ltac:(lia)) as M.
  assert (Q : (List.length t + 12 - 1) / 12 = List.length t / 12 + if List.length t mod 12 =? 0 then 0 else 1).
  { replace (List.length t + 12 - 1) with ((List.length t mod 12 + 11) + (List.length t / 12) * 12) by lia.
    rewrite Nat.div_add by lia. destruct (Nat.eqb_spec (List.length t mod 12) 0) as [->|].
    - change ((0 + 11) / 12) with 0. lia.
    - rewrite Nat.add_comm. f_equal. symmetry. apply (Nat.div_unique _ 12 1 (List.length t mod 12 - 1)); lia. }
  rewrite Q. destruct (Nat.eqb_spec (List.length t mod 12) 0) as [Z|Z].
  - rewrite removelast_firstn_len. f_equal. lia.
  - apply firstn_all2. lia.
Qed.

(** Growable buffers, any previous contents, any bytes. *)
Theorem C29_flex_round_trip : forall b t, 1 <= List.length b -> is_bytes t ->
  exists b', flex_set_text b t = Val b' /\ flex_text_bytes b' = Val (without_nul (kept t)).
Proof.
  intros b t Hb Ht. destruct (set_text_fholds b t Ht Hb) as (b' & E & L & S0). exists b'. split; [exact E|].
  rewrite (fholds_bytes S0). f_equal. f_equal. apply kept_firstn. rewrite L, Nat.mul_comm, Nat.div_mul; lia.
Qed.
Print Assumptions C29_flex_round_trip.

(** Strings without NUL come back unless they fill their packets. *)
Theorem C29_flex_string : forall b t, 1 <= List.length b -> is_string t -> no_nul t -> fills t = false ->
  exists b', flex_set_text b t = Val b' /\ flex_text b' = Val t /\ flex_text_bytes b' = Val t.
Proof.
  intros b t Hb Ht Hn Hf. destruct (C29_flex_round_trip b t Hb (string_bytes _ Ht)) as (b' & E & R).
  unfold kept in R. rewrite Hf, (without_nul_id t Hn) in R. exists b'. split; [exact E|]. split; [|exact R].
  unfold flex_text, text_string. unfold flex_text_bytes in R. rewrite R. cbn [bind].
  now rewrite (proj2 (utf8_spec t) Ht).
Qed.
Print Assumptions C29_flex_string.
Example C29_flex_string_meets : is_string (letters 13) /\ no_nul (letters 13) /\ fills (letters 13) = false.
Proof. split; [apply letters_string|]. split; [apply letters_no_nul|reflexivity]. Qed.

(** Fixed buffers: refused exactly when too small. *)
Theorem C29_flex_fixed : forall b t, is_bytes t ->
  if List.length b / 4 <? text_packets 12 (List.length t) then flex_try_set_text b t = Val (b, false)
  else exists b', flex_try_set_text b t = Val (b', true) /\ List.length b' = List.length b
         /\ flex_text_bytes b' = Val (without_nul (firstn (12 * (List.length b / 4) - 1) t)).
Proof.
  intros b t Ht. rewrite flex_try_set_text_put, packets_fit.
  destruct (Nat.ltb_spec (List.length b / 4) (text_packets 12 (List.length t))) as [F|F].
  - now replace (text_packets 12 (List.length t) <=? List.length b / 4) with false by lia.
  - replace (text_packets 12 (List.length t) <=? List.length b / 4) with true by lia. cbn [negb].
    pose proof (Nat.div_mod (List.length b) 4 ltac:(lia)).
    destruct (put_fholds b t Ht ltac:(lia)) as (b' & -> & L & S0). cbn [bind]. exists b'.
    split; [reflexivity|]. split; [exact L|]. rewrite (fholds_bytes S0). now rewrite L.
Qed.
Print Assumptions C29_flex_fixed.
Example C29_flex_fixed_meets : exists b', flex_try_set_text (repeat 0%N 8) (letters 20) = Val (b', true)
  /\ flex_text_bytes b' = Val (letters 20) /\ flex_try_set_text (repeat 0%N 8) (letters 25) = Val (repeat 0%N 8, false).
Proof. eexists. computed. Qed.

(** The full statement fails: the last byte of a text of 12 letters is lost ... *)
Theorem C29_full_packet_refuted : exists K t b b', In K flex_texts /\ is_string t /\ no_nul t
  /\ flex_new K = Val b /\ flex_set_text b t = Val b' /\ flex_text b' = Val (removelast t).
Proof.
  exists {| fk_name := "ProjectName"; fk_bank := 1; fk_status := 1 |}, (letters 12). do 2 eexists.
  split; [vm_compute; auto|]. split; [apply letters_string|]. split; [apply letters_no_nul|]. computed.
Qed.
Print Assumptions C29_full_packet_refuted.

(** ... and if that byte ends a longer character, the getter panics and the data does not parse. *)
Theorem C29_split_character_refuted : exists K t b b', In K flex_texts /\ is_string t /\ no_nul t
  /\ flex_new K = Val b /\ flex_set_text b t = Val b' /\ flex_text b' = Panic /\ flex_data b' = Val b'
  /\ flex_try_from K b' = Val (Err "Payload bytes do not represent a valid utf string"%string).
Proof.
  exists {| fk_name := "ProjectName"; fk_bank := 1; fk_status := 1 |}, (letters 10 ++ utf8_char 0xE9). do 2 eexists.
  split; [vm_compute; auto|]. split; [apply utf8_spec; reflexivity|].
  split; [apply Forall_app; split; [apply letters_no_nul|repeat constructor; discriminate]|]. computed.
Qed.
Print Assumptions C29_split_character_refuted.

(** ** C30: flex data text on the wire *)

(** Type, group, channel, bank and status come from the first packet of the message before. *)
Definition first_channel (b : list N) : option N :=
  if (bits b (Seg 0 20 2) =? 0)%N then Some (bits b (Seg 0 16 4)) else None.

Lemma oct_fields b : oct b 2 = bits b (Seg 0 8 8) /\ oct b 3 = bits b (Seg 0 0 8) /\ grp b = bits b (Seg 0 24 4)
  /\ chan b = first_channel b.
Proof.
  unfold grp, chan, first_channel. rewrite !oct0 by lia. rewrite !octet_bits. unfold bits. cbn [sg_w sg_lo sg_n].
  change (N.of_nat 2) with 2%N. change (N.of_nat 3) with 3%N. change (N.of_nat 1) with 1%N. change (N.of_nat 0) with 0%N.
  change (24 - 2 * 8)%N with 8%N. change (24 - 3 * 8)%N with 0%N. change (24 - 0 * 8)%N with 24%N. change (24 - 1 * 8)%N with 16%N.
  set (x := nth 0 b 0%N). clearbody x.
  change (2 ^ 24)%N with 16777216%N. change (2 ^ 16)%N with 65536%N. change (2 ^ 8)%N with 256%N. change (2 ^ 0)%N with 1%N.
  change (2 ^ 4)%N with 16%N. change (2 ^ 20)%N with 1048576%N. change (2 ^ 2)%N with 4%N.
  assert (E1 : (x / 65536 mod 256 / 16 mod 4 = x / 1048576 mod 4)%N) by lia_div.
  assert (E2 : (x / 65536 mod 256 mod 16 = x / 65536 mod 16)%N) by lia_div.
  rewrite E1, E2. split; [reflexivity|]. split; [reflexivity|]. split; [lia_div|reflexivity].
Qed.

Theorem C30_flex_wire : forall b t, 1 <= List.length b -> is_bytes t ->
  exists b', flex_set_text b t = Val b' /\ flex_data b' = Val b'
    /\ all_bytes b' = flex_wire (bits b (Seg 0 8 8)) (bits b (Seg 0 0 8)) (bits b (Seg 0 24 4)) (fun _ => first_channel b) t.
Proof.
  intros b t Hb Ht. destruct (set_text_fholds b t Ht Hb) as (b' & E & L & S0). exists b'. split; [exact E|].
  destruct (oct_fields b) as (F1 & F2 & F3 & F4). rewrite F1, F2, F3, F4 in S0.
  destruct (fholds_data S0) as [D W]. rewrite firstn_all2 in D, W by lia. auto.
Qed.
Print Assumptions C30_flex_wire.

Theorem C30_flex_wire_fixed : forall b t, is_bytes t -> text_packets 12 (List.length t) <= List.length b / 4 ->
  exists b' d, flex_try_set_text b t = Val (b', true) /\ flex_data b' = Val d
    /\ all_bytes d = flex_wire (bits b (Seg 0 8 8)) (bits b (Seg 0 0 8)) (bits b (Seg 0 24 4)) (fun _ => first_channel b) t.
Proof.
  intros b t Ht F. rewrite flex_try_set_text_put, packets_fit.
  replace (text_packets 12 (List.length t) <=? List.length b / 4) with true by lia. cbn [negb].
  pose proof (Nat.div_mod (List.length b) 4 ltac:(lia)).
  destruct (put_fholds b t Ht ltac:(lia)) as (b' & -> & L & S0). cbn [bind].
  destruct (oct_fields b) as (F1 & F2 & F3 & F4). rewrite F1, F2, F3, F4 in S0.
  destruct (fholds_data S0) as [D W]. eauto.
Qed.
Print Assumptions C30_flex_wire_fixed.
Example C30_meets : exists b', flex_set_text [0xD3058101; 0; 0; 0]%N (letters 13) = Val b'
  /\ all_bytes b' = [0xD3; 0x45; 0x81; 0x01]%N ++ letters 12 ++ [0xD3; 0xC5; 0x81; 0x01; 97]%N ++ repeat 0%N 11.
Proof. eexists. computed. Qed.

(** The number of packets is the least that holds the text. *)
Theorem C30_packets_minimal : forall room n, 0 < room ->
  let k := text_packets room n in 1 <= k /\ n <= room * k /\ forall j, 1 <= j -> n <= room * j -> k <= j.
Proof.
  intros room n H. cbn zeta. destruct (text_packets_room room n H) as (A & B & _). split; [exact B|]. split; [exact A|].
  intros j Hj Hn. unfold text_packets. destruct (Nat.eqb_spec n 0); [lia|].
  apply Nat.lt_succ_r. apply Nat.div_lt_upper_bound; lia.
Qed.
Print Assumptions C30_packets_minimal.

(** ** C42, C30: histories of calls on flex data texts *)

Lemma fholds_data_parse K g ch t b : fholds (fk_bank K) (fk_status K) g ch t b ->
  exists d, flex_data b = Val d /\ all_bytes d = flex_wire (fk_bank K) (fk_status K) g ch t
   /\ (is_string (without_nul (kept t)) -> flex_try_from K d = Val (Ok d)).
Proof.
  intros S0. destruct (fholds_data S0) as [D W]. eexists. split; [exact D|]. split; [exact W|]. intros Hs.
  pose proof (fholds_trim S0) as S1. pose proof (fh_room S0) as R.
  assert (L : List.length (firstn (4 * text_packets 12 (List.length t)) b) = 4 * text_packets 12 (List.length t)).
  { rewrite firstn_length. lia. }
  rewrite (fholds_parse K g ch t _ S1 L). rewrite (kept_firstn t).
  - now rewrite (proj2 (utf8_spec _) Hs).
  - rewrite L, Nat.mul_comm, Nat.div_mul; lia.
Qed.

Theorem C42_flex_histories : forall K h, In K flex_texts -> Forall flex_edit_ok h ->
  let s := fold_left (flex_after None) h flex_fresh in
  exists b, (x <- flex_new K ;; run_all flex_do h x) = Val b
    /\ flex_group b = Val (fs_group s) /\ flex_channel b = Val (fs_channel s 0)
    /\ flex_text_bytes b = Val (without_nul (kept (fs_text s)))
    /\ flex_data b = Val b
    /\ all_bytes b = flex_wire (fk_bank K) (fk_status K) (fs_group s) (fs_channel s) (fs_text s)
    /\ (is_string (without_nul (kept (fs_text s))) -> flex_try_from K b = Val (Ok b)).
Proof.
  intros K h HK Hh. destruct (flex_new_fresh K (flex_in K HK)) as (b0 & -> & L0 & S0). cbn [bind].
  destruct (flex_history _ _ h flex_fresh b0 Hh S0 L0) as (b & E & S1 & L1). cbn zeta.
  set (s := fold_left _ h flex_fresh) in *. exists b. split; [exact E|]. unfold fstate in S1.
  split; [apply (fholds_group S1)|]. split; [apply (fholds_channel S1)|].
  split. { rewrite (fholds_bytes S1). f_equal. f_equal. apply kept_firstn. rewrite L1, Nat.mul_comm, Nat.div_mul; lia. }
  destruct (fholds_data_parse K _ _ _ _ S1) as (d & D & W & P).
  destruct (fholds_data S1) as [D' _]. rewrite firstn_all2 in D' by lia. rewrite D' in D.
  assert (X : b = d) by congruence. subst d. auto.
Qed.
Print Assumptions C42_flex_histories.
Example C42_flex_histories_meets :
  let h := [FText (letters 3); FGroup 5; FChannel (Some 9%N); FText (letters 14); FGroup 7] in
  Forall flex_edit_ok h /\ fs_group (fold_left (flex_after None) h flex_fresh) = 7%N
  /\ fs_channel (fold_left (flex_after None) h flex_fresh) 1 = Some 9%N
  /\ exists b, (x <- flex_new {| fk_name := "Lyrics"; fk_bank := 2; fk_status := 1 |} ;; run_all flex_do h x) = Val b
       /\ List.length b = 8.
Proof.
  cbn zeta. split.
  - repeat constructor; cbn [flex_edit_ok]; try lia; try (apply string_bytes, letters_string).
    intros c E. injection E as <-. lia.
  - split; [reflexivity|]. split; [reflexivity|]. eexists. computed.
Qed.

(** Fixed buffers: a text that does not fit is refused and changes nothing. *)
Theorem C42_flex_fixed_histories : forall K h n, In K flex_texts -> Forall flex_edit_ok h -> 4 <= n ->
  let room := Some (n / 4) in
  let s := fold_left (flex_after room) h flex_fresh in
  exists b d, (x <- unwrap (flex_try_new K n) ;; run_try flex_try_do h x) = Val (b, map (flex_accepted room) h)
    /\ flex_group b = Val (fs_group s) /\ flex_channel b = Val (fs_channel s 0)
    /\ flex_text_bytes b = Val (without_nul (firstn (12 * (n / 4) - 1) (fs_text s)))
    /\ flex_data b = Val d /\ (exists rest, b = d ++ rest)
    /\ all_bytes d = flex_wire (fk_bank K) (fk_status K) (fs_group s) (fs_channel s) (fs_text s)
    /\ (is_string (without_nul (kept (fs_text s))) -> flex_try_from K d = Val (Ok d)).
Proof.
  intros K h n HK Hh Hn. pose proof (flex_try_new_fresh K n (flex_in K HK)) as T.
  replace (n <? 4) with false in T by lia. destruct T as (b0 & -> & L0 & S0). cbn [unwrap bind].
  destruct (flex_try_history _ _ h n flex_fresh b0 Hh S0 L0) as (b & E & S1 & L1). cbn zeta.
  set (s := fold_left _ h flex_fresh) in *. unfold fstate in S1.
  destruct (fholds_data_parse K _ _ _ _ S1) as (d & D & W & P).
  exists b, d. split; [exact E|].
  split; [apply (fholds_group S1)|]. split; [apply (fholds_channel S1)|].
  split. { rewrite (fholds_bytes S1). now rewrite L1. }
  split; [exact D|]. split; [|auto]. destruct (fholds_data S1) as [D' _]. rewrite D' in D.
  assert (X : d = firstn (4 * text_packets 12 (List.length (fs_text s))) b) by congruence.
  rewrite X. eexists. symmetry. apply firstn_skipn.
Qed.
Print Assumptions C42_flex_fixed_histories.
Example C42_flex_fixed_histories_meets :
  let h := [FText (letters 14); FGroup 5; FText (letters 40); FChannel (Some 2%N)] in
  map (flex_accepted (Some (8 / 4))) h = [true; true; false; true]
  /\ exists b, (x <- unwrap (flex_try_new {| fk_name := "Ruby"; fk_bank := 2; fk_status := 3 |} 8) ;; run_try flex_try_do h x)
       = Val (b, [true; true; false; true]) /\ flex_text_bytes b = Val (letters 14).
Proof. cbn zeta. split; [reflexivity|]. eexists. computed. Qed.

Theorem C42_flex_new_too_small : forall K n, In K flex_texts -> n < 4 ->
  flex_try_new K n = Val (Err "BufferOverflow"%string).
Proof.
  intros K n HK Hn. pose proof (flex_try_new_fresh K n (flex_in K HK)) as T. now replace (n <? 4) with true in T by lia.
Qed.
Print Assumptions C42_flex_new_too_small.

(** [set_optional_channel] on a message of several packets changes the first packet only, so
    the packets disagree. *)
Theorem C30_channel_refuted : exists K t b, In K flex_texts /\ is_string t
  /\ (x <- flex_new K ;; run_all flex_do [FText t; FChannel (Some 3%N)] x) = Val b
  /\ flex_channel b = Val (Some 3%N) /\ flex_data b = Val b
  /\ all_bytes b <> flex_wire (fk_bank K) (fk_status K) 0 (fun _ => Some 3%N) t
  /\ all_bytes b = flex_wire (fk_bank K) (fk_status K) 0 (fun p => if p =? 0 then Some 3%N else None) t.
Proof.
  exists {| fk_name := "ProjectName"; fk_bank := 1; fk_status := 1 |}, (letters 20). eexists.
  split; [vm_compute; auto|]. split; [apply letters_string|].
  split; [vm_compute; reflexivity|]. split; [vm_compute; reflexivity|]. split; [vm_compute; reflexivity|].
  split; [intros H; vm_compute in H; discriminate H|]. vm_compute; reflexivity.
Qed.
Print Assumptions C30_channel_refuted.

(** ** C24: the group of flex data texts *)

(** Every leading packet of type 0xD gets the group; nothing else changes. *)
Theorem C24_flex_set_group : forall b v k, (v < 16)%N -> leading 4 0xD b k ->
  exists b', flex_set_group b v = Val b' /\ List.length b' = List.length b
    /\ (forall p, p < k -> p < List.length b / 4 -> bits b' (Seg (4 * p) 24 4) = v)
    /\ (forall j, nth j (all_bytes b') 0%N =
          if (j mod 16 =? 0) && (j / 16 <? Nat.min k (List.length b / 4))
          then (nth j (all_bytes b) 0 / 16 * 16 + v)%N else nth j (all_bytes b) 0%N).
Proof.
  intros b v k Hv Hl. destruct (flex_set_group_ok b v Hv) as (b' & E & L & O). exists b'. split; [exact E|]. split; [exact L|].
  assert (K : flex_packets b = Nat.min k (List.length b / 4)).
  { unfold flex_packets. rewrite (lead_exact b 0xD k Hl), map_length, seq_length. reflexivity. }
  rewrite K in O. split.
  - intros p Hp Hq. change 24%N with (28 - 1 * 4)%N. rewrite <- (nibble32_bits b' (4 * p) 1). rewrite nibble32_1.
    pose proof (oct_head b' p 0 ltac:(lia)) as Q. change (N.of_nat 0) with 0%N in Q. rewrite <- Q, O by lia.
    cbn [Nat.eqb andb]. replace (p <? Nat.min k (List.length b / 4)) with true by lia. lia_div.
  - intros j. rewrite !all_bytes_nth. pose proof (Nat.div_mod j 16 ltac:(lia)) as D.
    pose proof (Nat.mod_upper_bound j 16 ltac:(lia)) as M. rewrite D at 1. rewrite O by lia. rewrite <- D.
    destruct (Nat.eqb_spec (j mod 16) 0) as [Z|Z]; cbn [andb]; [|reflexivity].
    destruct (j / 16 <? _); [|reflexivity]. do 2 f_equal. f_equal. f_equal. lia.
Qed.
Print Assumptions C24_flex_set_group.
Example C24_flex_set_group_meets : leading 4 0xD [0xD0500101; 0; 0; 0; 0xD0D00101; 0; 0; 0]%N 2.
Proof.
  split; [vm_compute; lia|]. split.
  - intros [|[|i]] Hi; [reflexivity|reflexivity|lia].
  - intros H. vm_compute in H. lia.
Qed.

(** ** C06, C07: parsing texts *)

Theorem C06_text_total :
  (forall K b, In K flex_texts -> exists r, flex_try_from K b = Val r)
  /\ (forall K b, In K stream_texts -> exists r, stream_try_from K b = Val r).
Proof.
  split; intros K b HK; [apply flex_try_from_total|apply stream_try_from_total, (proj2 (stream_in K HK))].
Qed.
Print Assumptions C06_text_total.

Theorem C07_flex_text : forall K b v, In K flex_texts ->
  flex_try_from K b = Val (Ok v) <-> v = b /\ flex_accepts (fk_bank K) (fk_status K) b.
Proof. intros K b v _. apply flex_try_from_ok. Qed.
Print Assumptions C07_flex_text.
Theorem C07_stream_text : forall K b v, In K stream_texts ->
  stream_try_from K b = Val (Ok v) <-> v = b /\ stream_accepts (sk_status K) (sk_off K) b.
Proof. intros K b v HK. apply stream_try_from_ok, (proj2 (stream_in K HK)). Qed.
Print Assumptions C07_stream_text.
Example C07_text_meets :
  flex_try_from {| fk_name := "Lyrics"; fk_bank := 2; fk_status := 1 |} [0xD0400201; 0x61620000; 0; 0; 0xD0D00201; 0x63000000; 0; 0]%N
  = Val (Ok [0xD0400201; 0x61620000; 0; 0; 0xD0D00201; 0x63000000; 0; 0]%N)
  /\ stream_try_from {| sk_name := "EndpointName"; sk_status := 3; sk_off := 0 |} [0xF0036162; 0; 0; 0]%N
  = Val (Ok [0xF0036162; 0; 0; 0]%N).
Proof. split; vm_compute; reflexivity. Qed.

(** ** C08, C10: accepted texts *)

(** Slices of whole packets.  The data is the leading packets of type 0xD. *)
Lemma accepted_string l b f : ti_collect f (text_bytes b) = Val l -> is_string l -> text_string f b = Val l.
Proof. intros E Hl. unfold text_string. rewrite E. cbn [bind]. now rewrite (proj2 (utf8_spec l) Hl). Qed.

Theorem C08_flex_text : forall K b, In K flex_texts -> flex_try_from K b = Val (Ok b) -> List.length b mod 4 = 0 ->
  exists k, leading 4 0xD b k /\ 1 <= k /\ 4 * k <= List.length b
    /\ flex_data b = Val (firstn (4 * k) b)
    /\ flex_group b = Val (bits b (Seg 0 24 4)) /\ flex_channel b = Val (first_channel b)
    /\ flex_text_bytes b = Val (flex_reading b) /\ flex_text b = Val (flex_reading b).
Proof.
  intros K b HK H M. apply flex_try_from_ok in H. destruct H as (_ & H4 & H5 & _ & H6 & H7).
  destruct (leading_exists 4 0xD b) as (k & Hk). destruct (H6 k Hk) as [_ F].
  destruct (framed_size 4 b 0xD k 22 M Hk) as (S & K1 & K4); auto.
  { intros x. rewrite (crumb32_bits b x 4). reflexivity. }
  exists k. split; [exact Hk|]. split; [exact K1|]. split; [exact K4|].
  split. { unfold flex_data. rewrite S. cbn [bind]. unfold prefix. now replace (4 * k <=? List.length b) with true by lia. }
  destruct (oct_fields b) as (_ & _ & F3 & F4).
  split; [rewrite flex_group_ok, F3 by lia; reflexivity|]. split; [rewrite flex_channel_ok, F4 by lia; reflexivity|].
  pose proof (flex_bytes_any b H4) as R. split; [exact R|]. now apply accepted_string.
Qed.
Print Assumptions C08_flex_text.

Theorem C08_stream_text : forall K b, In K stream_texts -> stream_try_from K b = Val (Ok b) -> List.length b mod 4 = 0 ->
  exists k, leading 4 0xF b k /\ 1 <= k /\ 4 * k <= List.length b
    /\ stream_data b = Val (firstn (4 * k) b)
    /\ (sk_off K = 1 -> block_read b = Val (bits b (Seg 0 8 8)))
    /\ stream_text_bytes K b = Val (stream_reading (sk_off K) b) /\ stream_text K b = Val (stream_reading (sk_off K) b).
Proof.
  intros K b HK H M. pose proof (proj2 (stream_in K HK)) as Ho. apply stream_try_from_ok in H; [|exact Ho].
  destruct H as (_ & H4 & H5 & _ & H6 & _ & H7).
  destruct (leading_exists 4 0xF b) as (k & Hk). pose proof (H6 k Hk) as F.
  destruct (framed_size 2 b 0xF k 26 M Hk) as (S & K1 & K4); auto.
  { intros x. rewrite (crumb32_bits b x 2). reflexivity. }
  exists k. split; [exact Hk|]. split; [exact K1|]. split; [exact K4|].
  split. { unfold stream_data. rewrite S. cbn [bind]. unfold prefix. now replace (4 * k <=? List.length b) with true by lia. }
  split. { intros _. unfold block_read. rewrite get_octet_ok by lia. f_equal. unfold oct. cbn [Nat.mul Nat.add]. change (2 / 4) with 0. rewrite octet_bits. reflexivity. }
  pose proof (stream_bytes_any (sk_off K) b Ho H4) as R. split; [exact R|]. now apply accepted_string.
Qed.
Print Assumptions C08_stream_text.
Example C08_text_meets :
  let b := [0xD0400201; 0x61620000; 0; 0; 0xD0D00201; 0x63000000; 0; 0]%N in
  flex_try_from {| fk_name := "Lyrics"; fk_bank := 2; fk_status := 1 |} b = Val (Ok b) /\ List.length b mod 4 = 0
  /\ flex_text b = Val [97; 98; 99]%N.
Proof. cbn zeta. computed. Qed.

(** A partial last packet that carries the end format is accepted; then [data] panics. *)
Theorem C08_partial_packet_refuted :
  (exists K b, In K flex_texts /\ flex_try_from K b = Val (Ok b) /\ flex_data b = Panic)
  /\ (exists K b, In K stream_texts /\ stream_try_from K b = Val (Ok b) /\ stream_data b = Panic).
Proof.
  split.
  - exists {| fk_name := "Lyrics"; fk_bank := 2; fk_status := 1 |}, [0xD0500201; 0x61620000; 0; 0; 0xD0D00201]%N.
    split; [vm_compute; auto 20|]. computed.
  - exists {| sk_name := "EndpointName"; sk_status := 3; sk_off := 0 |}, [0xF4036162; 0; 0; 0; 0xFC030000]%N.
    split; [vm_compute; auto 20|]. computed.
Qed.
Print Assumptions C08_partial_packet_refuted.

(** Re-parsing the data of an accepted text: everything but the text is as before. *)
Lemma bits_firstn b n w lo s : w < n -> bits (firstn n b) (Seg w lo s) = bits b (Seg w lo s).
Proof. intros H. unfold bits. rewrite nth_firstn. cbn [sg_w]. now replace (w <? n) with true by lia. Qed.

Lemma leading_firstn t b k : leading 4 t b k -> 4 * k <= List.length b -> leading 4 t (firstn (4 * k) b) k.
Proof.
  intros (A & B & C) H. split.
  - rewrite firstn_length, Nat.min_l by lia. apply Nat.div_le_lower_bound; lia.
  - split.
    + intros i Hi. rewrite bits_firstn by lia. now apply B.
    + intros H2. rewrite firstn_length, Nat.min_l in H2 by lia. exfalso.
      assert ((4 * k + 4 - 1) / 4 < k + 1) by (apply Nat.div_lt_upper_bound; lia). lia.
Qed.

Theorem C10_flex_text : forall K b d, In K flex_texts -> flex_try_from K b = Val (Ok b) -> List.length b mod 4 = 0 ->
  flex_data b = Val d ->
  (flex_try_from K d = Val (Ok d) <-> is_string (flex_reading d)) /\ flex_data d = Val d
  /\ flex_group d = flex_group b /\ flex_channel d = flex_channel b.
Proof.
  intros K b d HK H M D. destruct (C08_flex_text K b HK H M) as (k & Hk & K1 & K4 & D' & G & C & _).
  apply flex_try_from_ok in H. destruct H as (_ & H4 & H5 & HB & H6 & H7). destruct (H6 k Hk) as [FG F].
  rewrite D' in D. assert (X : d = firstn (4 * k) b) by congruence. subst d.
  assert (L : List.length (firstn (4 * k) b) = 4 * k) by (rewrite firstn_length; lia).
  assert (L4 : List.length (firstn (4 * k) b) / 4 = k) by (rewrite L, Nat.mul_comm, Nat.div_mul; lia).
  assert (B4 : k <= List.length b / 4) by (apply Nat.div_le_lower_bound; lia).
  pose proof (leading_firstn _ _ _ Hk K4) as Hk'.
  assert (F' : SpecFixed.framed (fun p => bits (firstn (4 * k) b) (Seg (4 * p) 22 2)) 0 1 2 3 k).
  { destruct F as [[E F]|(F1 & F2 & F3 & F4)].
    - left. split; [exact E|]. rewrite bits_firstn by lia. exact F.
    - right. split; [exact F1|]. split; [rewrite bits_firstn by lia; exact F2|].
      split; [intros i Hi; rewrite bits_firstn by lia; now apply F3|rewrite bits_firstn by lia; exact F4]. }
  split.
  - rewrite flex_try_from_ok. unfold flex_accepts. rewrite L4, L. split.
    + now intros (_ & _ & _ & _ & _ & S).
    + intros S. split; [reflexivity|]. split; [lia|]. split; [rewrite bits_firstn by lia; exact H5|].
      split; [intros p Hp; rewrite !bits_firstn by lia; apply HB; lia|]. split; [|exact S].
      intros k' Hk2. rewrite (leading_unique _ _ _ _ _ Hk2 Hk'). split; [|exact F'].
      intros p Hp _. rewrite !bits_firstn by lia. apply FG; lia.
  - destruct (framed_size 4 (firstn (4 * k) b) 0xD k 22 ltac:(rewrite L, Nat.mul_comm, Nat.mod_mul; lia) Hk') as (S & _); auto.
    { intros x. rewrite (crumb32_bits _ x 4). reflexivity. }
    split. { unfold flex_data. rewrite S. cbn [bind]. unfold prefix.
             replace (4 * k <=? List.length (firstn (4 * k) b)) with true by lia. f_equal. apply firstn_all2. lia. }
    destruct (oct_fields (firstn (4 * k) b)) as (_ & _ & F3 & F4). rewrite G, C.
    split; [rewrite flex_group_ok, F3 by lia|rewrite flex_channel_ok, F4 by lia; unfold first_channel]; now rewrite !bits_firstn by lia.
Qed.
Print Assumptions C10_flex_text.

(** The text itself is read from the whole slice, so words after the message do change it. *)
Theorem C10_text_tail_refuted :
  (exists K b d t t', In K flex_texts /\ flex_try_from K b = Val (Ok b) /\ flex_data b = Val d
     /\ flex_try_from K d = Val (Ok d) /\ flex_text b = Val t /\ flex_text d = Val t' /\ t = t' ++ [97%N])
  /\ (exists K b d t t', In K stream_texts /\ stream_try_from K b = Val (Ok b) /\ stream_data b = Val d
     /\ stream_try_from K d = Val (Ok d) /\ stream_text K b = Val t /\ stream_text K d = Val t' /\ t = t' ++ [97%N]).
Proof.
  split.
  - exists {| fk_name := "Lyrics"; fk_bank := 2; fk_status := 1 |}, [0xD0100201; 0x62620000; 0; 0; 0x00000201; 0x61000000; 0; 0]%N.
    do 3 eexists. split; [vm_compute; auto 20|].
    split; [vm_compute; reflexivity|]. split; [vm_compute; reflexivity|]. split; [vm_compute; reflexivity|].
    split; [vm_compute; reflexivity|]. split; vm_compute; reflexivity.
  - exists {| sk_name := "EndpointName"; sk_status := 3; sk_off := 0 |}, [0xF0036262; 0; 0; 0; 0x00036100; 0; 0; 0]%N.
    do 3 eexists. split; [vm_compute; auto 20|].
    split; [vm_compute; reflexivity|]. split; [vm_compute; reflexivity|]. split; [vm_compute; reflexivity|].
    split; [vm_compute; reflexivity|]. split; vm_compute; reflexivity.
Qed.
Print Assumptions C10_text_tail_refuted.

(** ** C31: stream text round trip *)

Theorem C31_stream_round_trip : forall K b t, In K stream_texts -> 1 <= List.length b -> is_bytes t ->
  exists b', stream_set_text (sk_off K) b t = Val b' /\ stream_text_bytes K b' = Val (without_nul t).
Proof.
  intros K b t HK Hb Ht. destruct (set_name_sholds (sk_off K) b t (proj2 (stream_in K HK)) Ht Hb) as (b' & E & _ & S0).
  exists b'. split; [exact E|]. apply (sholds_bytes S0).
Qed.
Print Assumptions C31_stream_round_trip.

Theorem C31_stream_string : forall K b t, In K stream_texts -> 1 <= List.length b -> is_string t -> no_nul t ->
  exists b', stream_set_text (sk_off K) b t = Val b' /\ stream_text K b' = Val t.
Proof.
  intros K b t HK Hb Ht Hn. destruct (C31_stream_round_trip K b t HK Hb (string_bytes _ Ht)) as (b' & E & R).
  exists b'. split; [exact E|]. rewrite (without_nul_id t Hn) in R. now apply accepted_string.
Qed.
Print Assumptions C31_stream_string.
Example C31_stream_string_meets : is_string (letters 28) /\ no_nul (letters 28)
  /\ exists b', stream_set_text 0 [0xF0030000; 0; 0; 0]%N (letters 28) = Val b' /\ List.length b' = 8.
Proof. split; [apply letters_string|]. split; [apply letters_no_nul|]. eexists. computed. Qed.

Theorem C31_stream_fixed : forall K b t, In K stream_texts -> is_string t -> no_nul t ->
  if List.length b / 4 <? text_packets (14 - sk_off K) (List.length t)
  then stream_try_set_text (sk_off K) b t = Val (b, false)
  else exists b', stream_try_set_text (sk_off K) b t = Val (b', true) /\ List.length b' = List.length b
         /\ stream_text K b' = Val t.
Proof.
  intros K b t HK Ht Hn. pose proof (proj2 (stream_in K HK)) as Ho. rewrite stream_try_set_text_put, packets_fit by exact Ho.
  destruct (Nat.ltb_spec (List.length b / 4) (text_packets (14 - sk_off K) (List.length t))) as [F|F].
  - now replace (text_packets (14 - sk_off K) (List.length t) <=? List.length b / 4) with false by lia.
  - replace (text_packets (14 - sk_off K) (List.length t) <=? List.length b / 4) with true by lia. cbn [negb].
    pose proof (Nat.div_mod (List.length b) 4 ltac:(lia)).
    destruct (put_sholds (sk_off K) b t Ho (string_bytes _ Ht) ltac:(lia)) as (b' & -> & L & S0). cbn [bind]. exists b'.
    split; [reflexivity|]. split; [exact L|]. pose proof (sholds_bytes S0) as R. rewrite (without_nul_id t Hn) in R.
    now apply accepted_string.
Qed.
Print Assumptions C31_stream_fixed.
Example C31_stream_fixed_meets : exists b', stream_try_set_text 1 (repeat 0%N 9) (letters 26) = Val (b', true)
  /\ stream_try_set_text 1 (repeat 0%N 9) (letters 27) = Val (repeat 0%N 9, false).
Proof. eexists. computed. Qed.

(** ** C32: stream text on the wire *)

(** The block byte of a function block name in packet [p] of the old contents. *)
Definition old_blocks (K : stream_kind) (b : list N) : option (nat -> N) :=
  if sk_off K =? 1 then Some (fun p => nth (16 * p + 2) (all_bytes b) 0%N) else None.

Lemma wire_ext h h' room t k : (forall p, p < k -> h p = h' p) -> wire h room t k = wire h' room t k.
Proof.
  intros H. unfold wire. rewrite !flat_map_concat_map. f_equal. apply map_ext_in. intros p Hp. apply in_seq in Hp.
  rewrite H by lia. reflexivity.
Qed.

Lemma stream_wire_ext st f g t : (forall p, p < text_packets 13 (List.length t) -> f p = g p) ->
  stream_wire st (Some f) t = stream_wire st (Some g) t.
Proof.
  intros H. unfold stream_wire. apply wire_ext. intros p Hp. unfold stream_header. now rewrite H.
Qed.

Lemma st_bits b : st_of b = bits b (Seg 0 16 10).
Proof.
  unfold st_of. rewrite !oct0, !octet_bits by lia. unfold bits. cbn [sg_w sg_lo sg_n].
  change (N.of_nat 1) with 1%N. change (N.of_nat 0) with 0%N.
  change (2 ^ (24 - 0 * 8))%N with 16777216%N. change (2 ^ (24 - 1 * 8))%N with 65536%N. change (2 ^ 8)%N with 256%N.
  change (2 ^ 16)%N with 65536%N. change (2 ^ 10)%N with 1024%N.
  set (x := nth 0 b 0%N). clearbody x. lia_div.
Qed.

Theorem C32_stream_wire : forall K b t, In K stream_texts -> 1 <= List.length b -> is_bytes t ->
  exists b', stream_set_text (sk_off K) b t = Val b' /\ stream_data b' = Val b'
    /\ all_bytes b' = stream_wire (bits b (Seg 0 16 10)) (old_blocks K b) t.
Proof.
  intros K b t HK Hb Ht. pose proof (proj2 (stream_in K HK)) as Ho.
  destruct (set_name_sholds (sk_off K) b t Ho Ht Hb) as (b' & E & L & S0).
  exists b'. split; [exact E|]. destruct (sholds_data S0) as [D W]. rewrite firstn_all2 in D, W by lia.
  split; [exact D|]. rewrite W, st_bits. unfold old_blocks, blocks. destruct (Nat.eqb_spec (sk_off K) 1) as [E1|]; [|reflexivity].
  apply stream_wire_ext. intros p Hp. rewrite E1. change (14 - 1) with 13. replace (p <? _) with true by lia.
  now rewrite all_bytes_nth.
Qed.
Print Assumptions C32_stream_wire.

Theorem C32_stream_wire_fixed : forall K b t, In K stream_texts -> is_bytes t ->
  text_packets (14 - sk_off K) (List.length t) <= List.length b / 4 ->
  exists b' d, stream_try_set_text (sk_off K) b t = Val (b', true) /\ stream_data b' = Val d
    /\ (exists rest, b' = d ++ rest)
    /\ all_bytes d = stream_wire (bits b (Seg 0 16 10)) (old_blocks K b) t.
Proof.
  intros K b t HK Ht F. pose proof (proj2 (stream_in K HK)) as Ho. rewrite stream_try_set_text_put, packets_fit by exact Ho.
  replace (text_packets (14 - sk_off K) (List.length t) <=? List.length b / 4) with true by lia. cbn [negb].
  pose proof (Nat.div_mod (List.length b) 4 ltac:(lia)).
  destruct (put_sholds (sk_off K) b t Ho Ht ltac:(lia)) as (b' & -> & L & S0). cbn [bind].
  destruct (sholds_data S0) as [D W]. exists b'. eexists. split; [reflexivity|]. split; [exact D|].
  split; [eexists; symmetry; apply firstn_skipn|].
  rewrite W, st_bits. unfold old_blocks, blocks. destruct (Nat.eqb_spec (sk_off K) 1) as [E1|]; [|reflexivity].
  apply stream_wire_ext. intros p Hp. rewrite E1. change (14 - 1) with 13. replace (p <? _) with true by lia.
  now rewrite all_bytes_nth.
Qed.
Print Assumptions C32_stream_wire_fixed.
Example C32_meets : exists b', stream_set_text 1 [0xF0120700; 0; 0; 0]%N (letters 14) = Val b'
  /\ all_bytes b' = [0xF4; 0x12; 7]%N ++ letters 13 ++ [0xFC; 0x12; 0; 97]%N ++ repeat 0%N 12.
Proof. eexists. computed. Qed.

(** ** C42, C32: histories of calls on stream texts *)

(** The block numbers of the packets of the message. *)
Definition block_numbers (K : stream_kind) (s : stream_state) : option (nat -> N) :=
  if sk_off K =? 1 then Some (ss_block s) else None.
(** The packets of a function block name agree on the number. *)
Definition one_block (K : stream_kind) (s : stream_state) : Prop :=
  sk_off K = 1 -> forall p, p < text_packets 13 (List.length (ss_name s)) -> ss_block s p = ss_block s 0.

Lemma sholds_data_parse K s b : sk_off K <= 1 -> sstate K s b ->
  exists d, stream_data b = Val d /\ (exists rest, b = d ++ rest)
   /\ all_bytes d = stream_wire (sk_status K) (block_numbers K s) (ss_name s)
   /\ (is_string (ss_name s) -> one_block K s -> stream_try_from K d = Val (Ok d))
   /\ (is_string (ss_name s) -> ~ one_block K s ->
         stream_try_from K d = Val (Err "Inconsistent function block fields"%string)).
Proof.
  intros Ho S0. destruct (sholds_data S0) as [D W]. eexists. split; [exact D|].
  split; [eexists; symmetry; apply firstn_skipn|]. split; [exact W|].
  pose proof (sholds_trim S0) as S1. pose proof (sh_room S0) as R.
  set (k := text_packets (14 - sk_off K) (List.length (ss_name s))) in *.
  assert (L : List.length (firstn (4 * k) b) = 4 * k) by (rewrite firstn_length; lia).
  pose proof (sholds_parse K _ _ _ S1 L) as P. fold k in P. cbv beta in P.
  assert (X : forall (Hs : is_string (ss_name s)), utf8_ok (without_nul (ss_name s)) = true)
    by (intros; now apply utf8_spec, string_without_nul).
  assert (Q : (sk_off K =? 1) && negb (forallb (fun p => ((if (p <? k)%nat then ss_block s p else 0) =?
        (if (0 <? k)%nat then ss_block s 0%nat else 0))%N) (seq 0 k)) = true <-> ~ one_block K s).
  { replace (0 <? k) with true by lia. unfold one_block. destruct (Nat.eqb_spec (sk_off K) 1) as [E|E]; cbn [andb].
    - assert (Ek : k = text_packets 13 (List.length (ss_name s))) by (unfold k; rewrite E; reflexivity). rewrite <- Ek.
      rewrite negb_true_iff. rewrite <- not_true_iff_false, forallb_forall. split.
      + intros H1 H2. apply H1. intros p Hp. apply in_seq in Hp. replace (p <? k) with true by lia.
        apply N.eqb_eq, H2; [exact E|lia].
      + intros H1 H2. apply H1. intros _ p Hp. specialize (H2 p). rewrite in_seq in H2.
        replace (p <? k) with true in H2 by lia. apply N.eqb_eq, H2. lia.
    - split; [discriminate|]. intros H. exfalso. apply H. intros; contradiction. }
  rewrite P. split.
  - intros Hs H1. rewrite X by exact Hs.
    match type of Q with ?c = true <-> _ => destruct c eqn:Ec end; [|reflexivity]. exfalso. now apply (proj1 Q).
  - intros Hs H1. now rewrite (proj2 Q H1).
Qed.

Theorem C42_stream_histories : forall K h, In K stream_texts -> Forall (stream_edit_ok (sk_off K)) h ->
  let s := fold_left (stream_after (sk_off K) None) h stream_fresh in
  exists b, (x <- stream_new K ;; run_all (stream_do (sk_off K)) h x) = Val b
    /\ stream_text_bytes K b = Val (without_nul (ss_name s))
    /\ (sk_off K = 1 -> block_read b = Val (ss_block s 0))
    /\ stream_data b = Val b
    /\ all_bytes b = stream_wire (sk_status K) (block_numbers K s) (ss_name s)
    /\ (is_string (ss_name s) -> one_block K s -> stream_try_from K b = Val (Ok b)).
Proof.
  intros K h HK Hh. destruct (stream_new_fresh K (stream_in K HK)) as (b0 & -> & L0 & S0). cbn [bind].
  destruct (stream_history K h stream_fresh b0 Hh S0 L0) as (b & E & S1 & L1). cbn zeta.
  set (s := fold_left _ h stream_fresh) in *. exists b. split; [exact E|]. unfold sstate in S1.
  split; [apply (sholds_bytes S1)|]. split; [apply (sholds_block S1)|].
  destruct (sholds_data_parse K s b (proj2 (stream_in K HK)) S1) as (d & D & _ & W & P & _).
  destruct (sholds_data S1) as [D' _]. rewrite firstn_all2 in D' by lia. rewrite D' in D.
  assert (X : b = d) by congruence. subst d. auto.
Qed.
Print Assumptions C42_stream_histories.
Example C42_stream_histories_meets :
  let K := {| sk_name := "FunctionBlockName"; sk_status := 0x12; sk_off := 1 |} in
  let h := [SName (letters 30); SBlock 7; SName (letters 15)] in
  Forall (stream_edit_ok 1) h /\ one_block K (fold_left (stream_after 1 None) h stream_fresh)
  /\ ss_block (fold_left (stream_after 1 None) h stream_fresh) 1 = 7%N.
Proof.
  cbn zeta. split; [repeat constructor; cbn [stream_edit_ok]; try lia; apply string_bytes, letters_string|].
  split; [|reflexivity]. intros _ p Hp. vm_compute in Hp. destruct p as [|[|p]]; [reflexivity|reflexivity|lia].
Qed.

Theorem C42_stream_fixed_histories : forall K h n, In K stream_texts -> Forall (stream_edit_ok (sk_off K)) h -> 4 <= n ->
  let room := Some (n / 4) in
  let s := fold_left (stream_after (sk_off K) room) h stream_fresh in
  exists b d, (x <- unwrap (stream_try_new K n) ;; run_try (stream_try_do (sk_off K)) h x)
                = Val (b, map (stream_accepted (sk_off K) room) h)
    /\ stream_text_bytes K b = Val (without_nul (ss_name s))
    /\ (sk_off K = 1 -> block_read b = Val (ss_block s 0))
    /\ stream_data b = Val d /\ (exists rest, b = d ++ rest)
    /\ all_bytes d = stream_wire (sk_status K) (block_numbers K s) (ss_name s)
    /\ (is_string (ss_name s) -> one_block K s -> stream_try_from K d = Val (Ok d)).
Proof.
  intros K h n HK Hh Hn. pose proof (stream_try_new_fresh K n (stream_in K HK)) as T.
  replace (n <? 4) with false in T by lia. destruct T as (b0 & -> & L0 & S0). cbn [unwrap bind].
  destruct (stream_try_history K h n stream_fresh b0 Hh S0 L0) as (b & E & S1 & L1). cbn zeta.
  set (s := fold_left _ h stream_fresh) in *. 
  destruct (sholds_data_parse K s b (proj2 (stream_in K HK)) S1) as (d & D & R & W & P & _).
  exists b, d. split; [exact E|]. split; [apply (sholds_bytes S1)|]. split; [apply (sholds_block S1)|]. auto.
Qed.
Print Assumptions C42_stream_fixed_histories.
Example C42_stream_fixed_histories_meets :
  let h := [SName (letters 20); SBlock 3; SName (letters 40); SName (letters 26)] in
  exists b, (x <- unwrap (stream_try_new {| sk_name := "FunctionBlockName"; sk_status := 0x12; sk_off := 1 |} 8) ;;
             run_try (stream_try_do 1) h x) = Val (b, [true; true; false; true]).
Proof. eexists. computed. Qed.

(** Setting the block of a function block name and then a longer name gives packets with
    different numbers, and the data does not parse. *)
Theorem C32_block_refuted : exists K h b, In K stream_texts /\ Forall (stream_edit_ok (sk_off K)) h
  /\ (x <- stream_new K ;; run_all (stream_do (sk_off K)) h x) = Val b
  /\ block_read b = Val 7%N /\ stream_data b = Val b
  /\ stream_try_from K b = Val (Err "Inconsistent function block fields"%string).
Proof.
  exists {| sk_name := "FunctionBlockName"; sk_status := 0x12; sk_off := 1 |}, [SBlock 7; SName (letters 20)]. eexists.
  split; [vm_compute; auto|]. split; [repeat constructor; cbn [stream_edit_ok]; try lia; apply string_bytes, letters_string|].
  computed.
Qed.
Print Assumptions C32_block_refuted.

(** ** C40: text messages on dirty buffers *)

(** Growable buffers: the old contents are gone. *)
Theorem C40_text_growable : forall b,
  (forall K, flex_new_with_buffer K b = flex_new K) /\ (forall K, stream_new_with_buffer K b = stream_new K).
Proof. intros b. split; intros K; [apply flex_new_with_buffer_same|apply stream_new_with_buffer_same]. Qed.
Print Assumptions C40_text_growable.

(** Fixed buffers: the header getters and the data of a flex data text are those of a fresh
    message; after setting a text (that fits) so is the text. *)
Theorem C40_flex_dirty : forall K b, In K flex_texts ->
  if List.length b <? 4 then flex_try_new_with_buffer K b = Val (Err "BufferOverflow"%string)
  else exists b' d, flex_try_new_with_buffer K b = Val (Ok b') /\ List.length b' = List.length b
    /\ flex_data b' = Val d /\ all_bytes d = flex_wire (fk_bank K) (fk_status K) 0 (fun _ => None) []
    /\ flex_group b' = Val 0%N /\ flex_channel b' = Val None
    /\ forall t, is_bytes t -> text_packets 12 (List.length t) <= List.length b / 4 ->
         exists b2 d2, flex_try_set_text b' t = Val (b2, true)
           /\ flex_text_bytes b2 = Val (without_nul (firstn (12 * (List.length b / 4) - 1) t))
           /\ flex_data b2 = Val d2
           /\ all_bytes d2 = flex_wire (fk_bank K) (fk_status K) 0 (fun _ => None) t.
Proof.
  intros K b HK. pose proof (flex_in K HK) as HO. destruct (Nat.ltb_spec (List.length b) 4) as [L|L].
  { unfold flex_try_new_with_buffer, fixed_try_resize. now replace (List.length b <? 4) with true by lia. }
  destruct (flex_try_new_dirty K b HO L) as (b' & E & L' & A0 & A1 & A2 & A3 & A4).
  destruct (fresh_dirty_data K b' HO ltac:(lia) A0 A1 A2 A3 A4) as (S0 & D & G & C).
  destruct (fholds_data S0) as [_ W]. exists b', (firstn 4 b'). split; [exact E|]. split; [exact L'|]. split; [exact D|].
  rewrite firstn_firstn in W. split; [exact W|].
  split; [exact G|]. split; [exact C|]. intros t Ht F. rewrite flex_try_set_text_put, packets_fit, L'.
  replace (text_packets 12 (List.length t) <=? List.length b / 4) with true by lia. cbn [negb].
  pose proof (Nat.div_mod (List.length b) 4 ltac:(lia)).
  destruct (put_fholds b' t Ht ltac:(lia)) as (b2 & -> & L2 & S1). cbn [bind].
  unfold grp, chan in S1. rewrite A0, A1, A2, A3 in S1. change (0xD0 mod 16)%N with 0%N in S1.
  change (16 / 16 mod 4 =? 0)%N with false in S1. cbv iota in S1.
  destruct (fholds_data S1) as [D2 W2]. eexists _, _. split; [reflexivity|].
  split; [rewrite (fholds_bytes S1), L2, L'; reflexivity|]. split; [exact D2|exact W2].
Qed.
Print Assumptions C40_flex_dirty.

Theorem C40_stream_dirty : forall K b, In K stream_texts ->
  if List.length b <? 4 then stream_try_new_with_buffer K b = Val (Err "BufferOverflow"%string)
  else exists b', stream_try_new_with_buffer K b = Val (Ok b') /\ List.length b' = List.length b
    /\ forall t, is_bytes t -> text_packets (14 - sk_off K) (List.length t) <= List.length b / 4 ->
         exists b2 d2, stream_try_set_text (sk_off K) b' t = Val (b2, true)
           /\ stream_text_bytes K b2 = Val (without_nul t)
           /\ stream_data b2 = Val d2
           /\ all_bytes d2 = stream_wire (sk_status K) (if sk_off K =? 1 then Some (fun _ => 0%N) else None) t.
Proof.
  intros K b HK. pose proof (stream_in K HK) as HO. pose proof (proj2 HO) as Ho.
  destruct (Nat.ltb_spec (List.length b) 4) as [L|L].
  { unfold stream_try_new_with_buffer, fixed_try_resize. now replace (List.length b <? 4) with true by lia. }
  destruct (stream_try_new_dirty K b HO L) as (b' & E & L' & A1 & A2).
  exists b'. split; [exact E|]. split; [exact L'|]. intros t Ht F.
  rewrite stream_try_set_text_put, packets_fit, L' by exact Ho.
  replace (text_packets (14 - sk_off K) (List.length t) <=? List.length b / 4) with true by lia. cbn [negb].
  pose proof (Nat.div_mod (List.length b) 4 ltac:(lia)).
  destruct (put_sholds (sk_off K) b' t Ho Ht ltac:(lia)) as (b2 & -> & L2 & S1). cbn [bind].
  destruct (sholds_data S1) as [D2 W2]. eexists _, _. split; [reflexivity|].
  split; [apply (sholds_bytes S1)|]. split; [exact D2|]. rewrite W2, A1. unfold blocks.
  destruct (Nat.eqb_spec (sk_off K) 1) as [E1|]; [|reflexivity].
  apply stream_wire_ext. intros p Hp. rewrite E1 in F |- *. change (14 - 1) with 13 in F |- *. replace (p <? _) with true by lia.
  apply A2; [exact E1|lia].
Qed.
Print Assumptions C40_stream_dirty.
Example C40_text_dirty_meets : exists b' b2,
  flex_try_new_with_buffer {| fk_name := "Lyrics"; fk_bank := 2; fk_status := 1 |} (repeat 0xFFFFFFFF%N 8) = Val (Ok b')
  /\ flex_try_set_text b' (letters 14) = Val (b2, true) /\ flex_text b2 = Val (letters 14).
Proof. do 2 eexists. computed. Qed.

(** Before a text is set, the old contents are read as text; a stream text even sends them. *)
Theorem C40_text_dirty_refuted :
  (exists K b b' t, In K flex_texts /\ flex_try_new_with_buffer K b = Val (Ok b') /\ flex_text b' = Val t /\ t = [97; 98]%N)
  /\ (exists K b b' t, In K flex_texts /\ flex_try_new_with_buffer K b = Val (Ok b') /\ flex_text b' = t /\ t = Panic)
  /\ (exists K b b' t d, In K stream_texts /\ stream_try_new_with_buffer K b = Val (Ok b') /\ stream_text K b' = Val t
        /\ t = [97; 98]%N /\ stream_data b' = Val d /\ List.length d = 8).
Proof.
  split; [|split].
  - exists {| fk_name := "Lyrics"; fk_bank := 2; fk_status := 1 |}, [0; 0; 0; 0; 0; 0x61620000; 0; 0]%N.
    do 2 eexists. split; [vm_compute; auto 20|]. computed.
  - exists {| fk_name := "Lyrics"; fk_bank := 2; fk_status := 1 |}, [0; 0; 0; 0; 0; 0xFF000000; 0; 0]%N.
    do 2 eexists. split; [vm_compute; auto 20|]. computed.
  - exists {| sk_name := "EndpointName"; sk_status := 3; sk_off := 0 |}, [0; 0; 0; 0; 0xF0000000; 0x61620000; 0; 0]%N.
    do 3 eexists. split; [vm_compute; auto 20|]. computed.
Qed.
Print Assumptions C40_text_dirty_refuted.

(** ** C41: the text byte iterators *)

(** Any number of calls of [next] on an accepted (or any) buffer of at least one packet: the
    bytes of the text in order, then [None] for ever. *)
Theorem C41_flex_iterator : forall n b, 4 <= List.length b ->
  ti_calls n flex_form (text_bytes b) = Val (firstn n (map Some (flex_reading b) ++ repeat None n)).
Proof.
  intros n b Hb. rewrite (text_bytes_pos flex_form) by apply okt_flex.
  rewrite (calls_pos flex_form b okt_flex Hb n 0) by lia.
  pose proof (flex_bytes_any b Hb) as R. unfold flex_text_bytes in R. rewrite collect_all in R by (auto; apply okt_flex).
  injection R as ->. reflexivity.
Qed.
Print Assumptions C41_flex_iterator.
Theorem C41_stream_iterator : forall K n b, In K stream_texts -> 4 <= List.length b ->
  ti_calls n (stream_form (sk_off K)) (text_bytes b)
  = Val (firstn n (map Some (stream_reading (sk_off K) b) ++ repeat None n)).
Proof.
  intros K n b HK Hb. pose proof (proj2 (stream_in K HK)) as Ho. assert (H : okt (stream_form (sk_off K))) by (apply okt_stream; lia).
  rewrite (text_bytes_pos (stream_form (sk_off K))) by exact H. rewrite (calls_pos _ b H Hb n 0) by lia.
  pose proof (stream_bytes_any (sk_off K) b Ho Hb) as R. rewrite collect_all in R by (auto; exact H).
  injection R as ->. reflexivity.
Qed.
Print Assumptions C41_stream_iterator.
Example C41_meets : ti_calls 5 flex_form (text_bytes [0xD0100101; 0x61006200; 0; 0x63]%N)
  = Val [Some 97; Some 98; None; None; None]%N.
Proof. vm_compute. reflexivity. Qed.

(** [size_hint] promises more items than come. *)
Theorem C41_size_hint_refuted : exists b lo hi,
  ti_size_hint flex_form (text_bytes b) = Val (lo, hi) /\ flex_text_bytes b = Val [] /\ lo = 36.
Proof. exists [0xD0100101; 0; 0; 0]%N. do 2 eexists. computed. Qed.
Print Assumptions C41_size_hint_refuted.
