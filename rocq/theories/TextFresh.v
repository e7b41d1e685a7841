(** Lemmas: fresh text messages on growable, zeroed and dirty buffers. *)
From Coq Require Import NArith ZArith List String Bool Arith Lia Zify ZifyBool ZifyNat ZifyN.
From Verif Require Import Base BitOps BitLemmas ListLemmas Values Helpers Props Message SpecLayout SpecFixed
  PropLemmas PropValidate Sysex ByteView SysexLayout SysexBridge
  Text SpecSysex SpecText TextLemmas TextHeader TextFlex TextFlexMore TextFlexInit TextStream TextStreamMore
  TextUtf8 TextParse TextClient TextHistory.
Import ListNotations.
Local Open Scope nat_scope.

Definition flex_kind_ok (K : flex_kind) : Prop := (fk_bank K < 256)%N /\ (fk_status K < 256)%N.
Definition stream_kind_ok (K : stream_kind) : Prop := (sk_status K < 1024)%N /\ sk_off K <= 1.
Lemma flex_kinds : Forall flex_kind_ok flex_texts.
Proof. repeat constructor. Qed.
Lemma stream_kinds : Forall stream_kind_ok stream_texts.
Proof. repeat constructor. Qed.
Lemma flex_in K : In K flex_texts -> flex_kind_ok K.
Proof. apply (proj1 (Forall_forall _ _) flex_kinds). Qed.
Lemma stream_in K : In K stream_texts -> stream_kind_ok K.
Proof. apply (proj1 (Forall_forall _ _) stream_kinds). Qed.

Lemma vec_resize_nil_n n : vec_resize [] n = repeat 0%N n.
Proof. unfold vec_resize. cbn [List.length]. now rewrite firstn_nil, Nat.sub_0_r. Qed.

Lemma zero_prefix_ok b : 4 <= List.length b -> exists b', zero_prefix b 4 = Val b' /\ List.length b' = List.length b
  /\ forall j, oct b' j = if j <? 16 then 0%N else oct b j.
Proof.
  intros Hb. unfold zero_prefix. replace (List.length b <? 4) with false by lia. eexists. split; [reflexivity|].
  split; [rewrite app_length, repeat_length, skipn_length; lia|]. intros j. unfold oct.
  pose proof (Nat.div_mod j 4 ltac:(lia)). pose proof (Nat.mod_upper_bound j 4 ltac:(lia)).
  destruct (Nat.ltb_spec j 16).
  - rewrite app_nth1 by (rewrite repeat_length; lia). rewrite nth_repeat.
    rewrite octet_bits, N.div_0_l by (apply N.pow_nonzero; discriminate). reflexivity.
  - rewrite app_nth2 by (rewrite repeat_length; lia). rewrite repeat_length, nth_skipn.
    now replace (4 + (j / 4 - 4)) with (j / 4) by lia.
Qed.

(** *** Flex data *)

Lemma flex_new_fresh K : flex_kind_ok K -> exists b, flex_new K = Val b /\ List.length b = 4
  /\ fstate (fk_bank K) (fk_status K) flex_fresh b.
Proof.
  intros [H1 H2]. unfold flex_new. rewrite vec_resize_nil_n.
  destruct (init_fholds K (repeat 0%N 4) ltac:(cbn; lia) H1 H2 (oct_repeat0 _ _) ltac:(intros; apply oct_repeat0)) as (b & E & L & S0).
  exists b. auto.
Qed.

Lemma flex_new_with_buffer_same K b : flex_new_with_buffer K b = flex_new K.
Proof.
  unfold flex_new_with_buffer, flex_new, zero_prefix. rewrite vec_resize_nil_n.
  assert (L : List.length (vec_resize b 4) = 4).
  { unfold vec_resize. rewrite app_length, firstn_length, repeat_length. lia. }
  rewrite L. cbn [Nat.ltb Nat.leb bind]. rewrite skipn_all2 by lia. now rewrite app_nil_r.
Qed.

Lemma flex_try_new_fresh K n : flex_kind_ok K ->
  if n <? 4 then flex_try_new K n = Val (Err "BufferOverflow"%string)
  else exists b, flex_try_new K n = Val (Ok b) /\ List.length b = n /\ fstate (fk_bank K) (fk_status K) flex_fresh b.
Proof.
  intros [H1 H2]. unfold flex_try_new, fixed_try_resize. rewrite repeat_length.
  destruct (Nat.ltb_spec n 4); cbn [negb]; [reflexivity|].
  destruct (init_fholds K (repeat 0%N n) ltac:(rewrite repeat_length; lia) H1 H2 (oct_repeat0 _ _)
              ltac:(intros; apply oct_repeat0)) as (b & -> & L & S0).
  cbn [bind]. exists b. split; [reflexivity|]. rewrite repeat_length in L. auto.
Qed.

(** On a dirty buffer the first packet is that of a fresh message. *)
Lemma flex_try_new_dirty K b : flex_kind_ok K -> 4 <= List.length b ->
  exists b', flex_try_new_with_buffer K b = Val (Ok b') /\ List.length b' = List.length b
    /\ oct b' 0 = 0xD0%N /\ oct b' 1 = 16%N /\ oct b' 2 = fk_bank K /\ oct b' 3 = fk_status K
    /\ (forall j, 4 <= j < 16 -> oct b' j = 0%N).
Proof.
  intros [H1 H2] Hb. unfold flex_try_new_with_buffer, fixed_try_resize. replace (List.length b <? 4) with false by lia. cbn [negb].
  destruct (zero_prefix_ok b Hb) as (b1 & -> & L1 & O1). cbn [bind].
  destruct (flex_init_ok K b1 ltac:(lia) H1 H2) as (b2 & -> & L2 & A0 & A1 & A2 & A3 & A4). cbn [bind].
  exists b2. split; [reflexivity|]. split; [lia|]. split; [exact A0|].
  split; [rewrite A1, O1; reflexivity|]. split; [exact A2|]. split; [exact A3|].
  intros j Hj. rewrite A4, O1 by (rewrite Nat.mod_small; lia). now replace (j <? 16) with true by lia.
Qed.

(** The first packet determines the data of a message of one packet. *)
Lemma fresh_dirty_data K b : flex_kind_ok K -> 4 <= List.length b ->
  oct b 0 = 0xD0%N -> oct b 1 = 16%N -> oct b 2 = fk_bank K -> oct b 3 = fk_status K ->
  (forall j, 4 <= j < 16 -> oct b j = 0%N) ->
  fholds (fk_bank K) (fk_status K) 0 (fun _ => None) [] (firstn 4 b)
  /\ flex_data b = Val (firstn 4 b) /\ flex_group b = Val 0%N /\ flex_channel b = Val None.
Proof.
  intros [H1 H2] Hb A0 A1 A2 A3 A4.
  assert (O : forall j, j < 16 -> oct (firstn 4 b) j = oct b j).
  { intros j Hj. unfold oct. rewrite nth_firstn. pose proof (Nat.div_mod j 4 ltac:(lia)). pose proof (Nat.mod_upper_bound j 4 ltac:(lia)). now replace (j / 4 <? 4) with true by lia. }
  assert (L : List.length (firstn 4 b) = 4) by (rewrite firstn_length; lia).
  split; [|split; [|split]].
  - split; try reflexivity; auto; try discriminate.
    + apply Forall_nil.
    + split; [cbn [List.length]; unfold text_packets; cbn [Nat.eqb]; lia|].
      intros w o Hw Ho. unfold text_packets in Hw. cbn [List.length Nat.eqb] in Hw. assert (w = 0) by lia. subst w.
      rewrite O by lia. change (tf_head flex_form) with 4. destruct (Nat.ltb_spec o 4).
      * cbn [Nat.mul Nat.add]. destruct o as [|[|[|[|o]]]]; try (rewrite ?A0, ?A1, ?A2, ?A3; reflexivity); lia.
      * rewrite A4 by lia. now destruct (_ + _).
    + apply blank_exact. exact L.
  - unfold flex_data. rewrite (dyn_size_ok 4 b 1); try lia.
    + cbn [bind]. unfold prefix. now replace (4 * 1 <=? List.length b) with true by lia.
    + intros w Hw. assert (w = 0) by lia. subst w. change (status_code 1 0) with 0%N.
      pose proof A1 as Q. rewrite oct0, octet_bits in Q by lia. change (N.of_nat 1) with 1%N in Q.
      change (2 ^ (24 - 1 * 8))%N with 65536%N in Q. change (2 ^ 8)%N with 256%N in Q.
      rewrite (crumb32_arith _ 4 4194304) by (auto; lia). change (4 * 0) with 0.
      set (x := nth 0 b 0%N) in *. clearbody x. clear - Q. lia_div.
  - rewrite flex_group_ok by lia. unfold grp. now rewrite A0.
  - rewrite flex_channel_ok by lia. unfold chan. now rewrite A1.
Qed.

(** *** Stream *)

Lemma stream_new_fresh K : stream_kind_ok K -> exists b, stream_new K = Val b /\ List.length b = 4
  /\ sstate K stream_fresh b.
Proof.
  intros [H1 H2]. unfold stream_new. rewrite vec_resize_nil_n.
  destruct (stream_init_zero K (repeat 0%N 4) ltac:(cbn; lia) H1 H2 (oct_repeat0 _)) as (b & E & L & S0).
  exists b. auto.
Qed.

Lemma stream_new_with_buffer_same K b : stream_new_with_buffer K b = stream_new K.
Proof.
  unfold stream_new_with_buffer, stream_new, zero_prefix. rewrite vec_resize_nil_n.
  assert (L : List.length (vec_resize b 4) = 4).
  { unfold vec_resize. rewrite app_length, firstn_length, repeat_length. lia. }
  rewrite L. cbn [Nat.ltb Nat.leb bind]. rewrite skipn_all2 by lia. now rewrite app_nil_r.
Qed.

Lemma stream_try_new_fresh K n : stream_kind_ok K ->
  if n <? 4 then stream_try_new K n = Val (Err "BufferOverflow"%string)
  else exists b, stream_try_new K n = Val (Ok b) /\ List.length b = n /\ sstate K stream_fresh b.
Proof.
  intros [H1 H2]. unfold stream_try_new, fixed_try_resize. rewrite repeat_length.
  destruct (Nat.ltb_spec n 4); cbn [negb]; [reflexivity|].
  destruct (stream_init_zero K (repeat 0%N n) ltac:(rewrite repeat_length; lia) H1 H2 (oct_repeat0 _)) as (b & -> & L & S0).
  cbn [bind]. exists b. split; [reflexivity|]. rewrite repeat_length in L. auto.
Qed.

Lemma stream_packet_count_spec b : let n := stream_packet_count b in
  n <= List.length b / 4 /\ (forall i, i < n -> nibble32 (nth (4 * i) b 0%N) 0 = 0xF%N)
  /\ (n < List.length b / 4 -> nibble32 (nth (4 * n) b 0%N) 0 <> 0xF%N).
Proof.
  cbn zeta. unfold stream_packet_count. rewrite chunks_exact_spec by lia. rewrite take_while_map, map_length.
  destruct (take_while_seq (fun i => (nibble32 (hd0 (chunk 4 i b)) 0 =? 15)%N) 0 (List.length b / 4))
    as (n & H1 & -> & H2 & H3).
  rewrite seq_length. split; [exact H1|]. split.
  - intros i Hi. specialize (H2 i Hi). cbn [Nat.add] in H2. rewrite hd0_chunk in H2 by lia. now apply N.eqb_eq.
  - intros Hn. specialize (H3 Hn). cbn [Nat.add] in H3. rewrite hd0_chunk in H3 by lia. now apply N.eqb_neq.
Qed.

Lemma head_type b w : (oct b (16 * w) / 16 = nibble32 (nth (4 * w) b 0) 0)%N.
Proof. replace (16 * w) with (16 * w + 0) by lia. rewrite oct_head by lia. now rewrite nibble32_0. Qed.

(** Initialising any buffer of at least one packet. *)
Lemma stream_init_any K b : stream_kind_ok K -> 4 <= List.length b ->
  exists b', stream_init K b = Val b' /\ List.length b' = List.length b
    /\ st_of b' = sk_status K
    /\ (sk_off K = 1 -> forall w, w < List.length b / 4 -> oct b' (16 * w + 2) = 0%N).
Proof.
  intros [Hs Ho] Hb. unfold stream_init. cbn [prop_write].
  destruct (upd_word0 b (fun x => set_nibble32 x 0 0xF) ltac:(lia)) as (b1 & -> & L1 & O1 & _). cbn [bind].
  pose proof (Nat.div_mod (List.length b) 4 ltac:(lia)) as D.
  assert (P4 : 1 <= List.length b / 4) by (apply Nat.div_le_lower_bound; lia).
  rewrite L1.
  match goal with |- context [for_heads 4 _ ?g b1] => set (gg := g) end.
  destruct (for_heads_oct gg (List.length b / 4) b1 ltac:(lia)) as (b2 & -> & L2 & _ & O2). cbn [bind].
  assert (T1 : (oct b1 0%nat / 16 = 15)%N).
  { rewrite O1. replace (0 <? 4) with true by lia. rewrite octet_set_type by lia. cbn [Nat.eqb].
    pose proof (N.mod_lt (octet32 (nth 0%nat b 0%N) 0) 16 ltac:(discriminate)). lia_div. }
  assert (E2 : oct b2 0 = (oct b1 0%nat / 4 * 4 + sk_status K / 256)%N /\ oct b2 1 = (sk_status K mod 256)%N).
  { pose proof (O2 0 0 ltac:(lia)) as Q0. pose proof (O2 0 1 ltac:(lia)) as Q1. cbn [Nat.mul Nat.add] in Q0, Q1.
    replace (0 <? List.length b / 4) with true in Q0, Q1 by lia. cbn [andb] in Q0, Q1.
    replace (0 <? 4) with true in Q0 by lia. replace (1 <? 4) with true in Q1 by lia.
    unfold gg in Q0, Q1. rewrite octet_set_status in Q0, Q1 by (auto; lia).
    split; [rewrite Q0|rewrite Q1; reflexivity]. rewrite oct0 by lia. reflexivity. }
  destruct E2 as [E20 E21].
  destruct (stream_packet_count_spec b2) as (N1 & N2 & N3). set (k := stream_packet_count b2) in *.
  rewrite L2, L1 in N1, N3.
  assert (K1 : 1 <= k).
  { apply Nat.nlt_ge. intros Hk. assert (k = 0) by lia. rewrite H in N3. apply N3; [lia|].
    rewrite <- head_type. change (16 * 0) with 0. rewrite E20.
    assert (sk_status K / 256 < 4)%N by lia_div. lia_div. }
  destruct (set_formats_ok b2 k ltac:(lia) ltac:(lia)) as (b3 & -> & L3 & O3).
  { intros w Hw. rewrite head_type. now apply N2. }
  { intros Hw. rewrite head_type. apply N3. rewrite L2, L1 in Hw. exact Hw. }
  cbn [bind].
  assert (S3 : st_of b3 = sk_status K).
  { unfold st_of. pose proof (O3 0 0 ltac:(lia)) as Q0. pose proof (O3 0 1 ltac:(lia)) as Q1. cbn [Nat.mul Nat.add] in Q0, Q1.
    replace (0 <? k) with true in Q0, Q1 by lia. cbn [andb Nat.eqb] in Q0, Q1. rewrite Q0, Q1, E20, E21.
    assert (sk_status K / 256 < 4)%N by lia_div. set (c := status_code k 0). lia_div. }
  unfold text_write. cbn [text_write_from]. destruct (Nat.eqb_spec (sk_off K) 1) as [E|E].
  - unfold block_write.
    destruct (for_heads_oct (fun _ x => set_octet32 x 2 0) (List.length b3 / 4) b3) as (b4 & -> & L4 & _ & O4).
    { rewrite L3, L2, L1. lia. }
    cbn [bind]. exists b4. split; [reflexivity|]. split; [lia|].
    assert (X : forall w o, o < 4 -> oct b4 (16 * w + o) = if (w <? List.length b / 4) && (o =? 2) then 0%N else oct b3 (16 * w + o)).
    { intros w o H4. rewrite O4 by lia. rewrite L3, L2, L1. destruct (w <? List.length b / 4); cbn [andb]; [|reflexivity].
      replace (o <? 4) with true by lia. rewrite octet_set_octet by lia. rewrite <- oct_head by lia.
      destruct (Nat.eqb_spec o 2) as [->|]; [reflexivity|]. now replace (N.of_nat o =? 2)%N with false by lia. }
    split.
    + rewrite <- S3. unfold st_of. pose proof (X 0 0 ltac:(lia)) as Q0. pose proof (X 0 1 ltac:(lia)) as Q1.
      rewrite andb_false_r in Q0, Q1. cbn [Nat.mul Nat.add] in Q0, Q1. now rewrite Q0, Q1.
    + intros _ w Hw. rewrite X by lia. now replace (w <? List.length b / 4) with true by lia.
  - cbn [bind]. exists b3. split; [reflexivity|]. split; [lia|]. split; [exact S3|]. intros; contradiction.
Qed.

Lemma stream_try_new_dirty K b : stream_kind_ok K -> 4 <= List.length b ->
  exists b', stream_try_new_with_buffer K b = Val (Ok b') /\ List.length b' = List.length b
    /\ st_of b' = sk_status K
    /\ (sk_off K = 1 -> forall w, w < List.length b / 4 -> oct b' (16 * w + 2) = 0%N).
Proof.
  intros HK Hb. unfold stream_try_new_with_buffer, fixed_try_resize. replace (List.length b <? 4) with false by lia. cbn [negb].
  destruct (zero_prefix_ok b Hb) as (b1 & -> & L1 & O1). cbn [bind].
  destruct (stream_init_any K b1 HK ltac:(lia)) as (b2 & -> & L2 & A1 & A2). cbn [bind].
  exists b2. rewrite L1 in *. auto.
Qed.
