(** Lemmas: fresh flex data text messages; parsing of arbitrary buffers. *)
From Coq Require Import NArith ZArith List String Bool Arith Lia Zify ZifyBool ZifyNat ZifyN.
From Verif Require Import Base BitOps BitLemmas ListLemmas Values Helpers Props Message SpecLayout SpecFixed
  PropLemmas PropValidate Sysex ByteView SysexLayout SysexBridge
  Text SpecSysex SpecText TextLemmas TextHeader TextFlex TextFlexMore.
Import ListNotations.
Local Open Scope nat_scope.

Lemma upd_word0 b f : 1 <= List.length b -> exists b', upd b 0 f = Val b' /\ List.length b' = List.length b
  /\ (forall j, oct b' j = if j <? 4 then octet32 (f (nth 0 b 0%N)) (N.of_nat j) else oct b j)
  /\ (forall i, 0 < i -> nth i b' 0%N = nth i b 0%N) /\ nth 0 b' 0%N = f (nth 0 b 0%N).
Proof.
  intros Hb. rewrite upd_nth by lia. eexists. split; [reflexivity|]. split; [apply set_nth_length|].
  split; [|split].
  - intros j. rewrite oct_set_nth by lia.
    pose proof (Nat.div_mod j 4 ltac:(lia)). pose proof (Nat.mod_upper_bound j 4 ltac:(lia)).
    destruct (Nat.ltb_spec j 4).
    + rewrite Nat.div_small by lia. rewrite Nat.mod_small by lia. reflexivity.
    + replace (j / 4 =? 0) with false by lia. reflexivity.
  - intros i Hi. destruct b; cbn; [reflexivity|]. destruct i; [lia|reflexivity].
  - destruct b; cbn in *; [lia|reflexivity].
Qed.

Lemma octet_set_type x v o : (v < 16)%N -> o < 4 ->
  octet32 (set_nibble32 x 0 v) (N.of_nat o)
  = if o =? 0 then (v * 16 + octet32 x 0 mod 16)%N else octet32 x (N.of_nat o).
Proof.
  intros Hv Ho. rewrite octet_set_nibble by lia. destruct (Nat.eqb_spec o 0) as [->|Hn]; [reflexivity|].
  replace (0 =? 2 * N.of_nat o)%N with false by lia. replace (0 =? 2 * N.of_nat o + 1)%N with false by lia.
  now rewrite <- octet_split.
Qed.

Lemma flex_init_ok K b : 4 <= List.length b -> (fk_bank K < 256)%N -> (fk_status K < 256)%N ->
  exists b', flex_init K b = Val b' /\ List.length b' = List.length b
    /\ oct b' 0 = 0xD0%N /\ oct b' 1 = (oct b 1 / 64 * 64 + 16)%N
    /\ oct b' 2 = fk_bank K /\ oct b' 3 = fk_status K
    /\ (forall j, 4 <= j mod 16 -> oct b' j = oct b j).
Proof.
  intros Hb Hk Hs. unfold flex_init. cbn [prop_write].
  destruct (upd_word0 b (fun x => set_nibble32 x 0 0xD) ltac:(lia)) as (b1 & -> & L1 & O1 & _). cbn [bind].
  destruct (flex_set_group_ok b1 0 ltac:(reflexivity)) as (b2 & -> & L2 & O2). cbn [bind].
  destruct (flex_set_channel_ok b2 None ltac:(discriminate) ltac:(lia)) as (b3 & -> & L3 & O3). cbn [bind].
  destruct (upd_word0 b3 (fun x => set_octet32 x 2 (fk_bank K)) ltac:(lia)) as (b4 & -> & L4 & O4 & _). cbn [bind].
  destruct (upd_word0 b4 (fun x => set_octet32 x 3 (fk_status K)) ltac:(lia)) as (b5 & -> & L5 & O5 & _). cbn [bind].
  exists b5. split; [reflexivity|]. split; [lia|].
  assert (P1 : 1 <= flex_packets b1).
  { destruct (flex_packets_spec b1) as (N1 & _ & N3). apply Nat.nlt_ge. intros Hlt.
    assert (1 <= List.length b1 / 4) by (apply Nat.div_le_lower_bound; lia).
    apply N3; [lia|]. replace (flex_packets b1) with 0 by lia. cbn [Nat.mul].
    rewrite nibble32_0. change 0%N with (N.of_nat 0) at 2. rewrite <- oct0 by lia.
    rewrite O1. cbn [Nat.ltb Nat.leb]. rewrite octet_set_type by lia. cbn [Nat.eqb].
    assert (octet32 (nth 0 b 0) 0 mod 16 < 16)%N by (apply N.mod_lt; discriminate). lia_div. }
  assert (E5 : forall j, j < 4 -> oct b5 j = if j =? 3 then fk_status K else oct b4 j).
  { intros j Hj. rewrite O5. replace (j <? 4) with true by lia.
    rewrite octet_set_octet by lia. rewrite (oct0 b4 j) by lia.
    destruct (Nat.eqb_spec j 3) as [->|]; [reflexivity|]. now replace (N.of_nat j =? 3)%N with false by lia. }
  assert (E4 : forall j, j < 4 -> oct b4 j = if j =? 2 then fk_bank K else oct b3 j).
  { intros j Hj. rewrite O4. replace (j <? 4) with true by lia.
    rewrite octet_set_octet by lia. rewrite (oct0 b3 j) by lia.
    destruct (Nat.eqb_spec j 2) as [->|]; [reflexivity|]. now replace (N.of_nat j =? 2)%N with false by lia. }
  assert (E1 : oct b1 1 = oct b 1).
  { rewrite O1. cbn [Nat.ltb Nat.leb]. rewrite octet_set_type by lia. cbn [Nat.eqb].
    rewrite oct0 by lia. reflexivity. }
  assert (E0 : (oct b1 0 / 16 = 13)%N).
  { rewrite O1. cbn [Nat.ltb Nat.leb]. rewrite octet_set_type by lia. cbn [Nat.eqb].
    assert (octet32 (nth 0 b 0) 0 mod 16 < 16)%N by (apply N.mod_lt; discriminate). lia_div. }
  split; [|split; [|split; [|split]]].
  - rewrite E5, E4 by lia. cbn [Nat.eqb]. rewrite O3. cbn [Nat.eqb]. pose proof (O2 0 0 ltac:(lia)) as Q.
    cbn [Nat.mul Nat.add Nat.eqb andb] in Q. rewrite Q. replace (0 <? flex_packets b1) with true by lia.
    rewrite E0. reflexivity.
  - rewrite E5, E4 by lia. cbn [Nat.eqb]. rewrite O3. cbn [Nat.eqb channel_code]. pose proof (O2 0 1 ltac:(lia)) as Q.
    cbn [Nat.mul Nat.add Nat.eqb andb] in Q. rewrite Q, E1. reflexivity.
  - rewrite E5, E4 by lia. reflexivity.
  - rewrite E5 by lia. reflexivity.
  - intros j Hj. assert (4 <= j) by (destruct (Nat.lt_ge_cases j 4); [rewrite Nat.mod_small in Hj; lia|auto]).
    rewrite O5. replace (j <? 4) with false by lia. rewrite O4. replace (j <? 4) with false by lia.
    rewrite O3. replace (j =? 1) with false by lia.
    pose proof (Nat.div_mod j 16 ltac:(lia)) as Dj. pose proof (Nat.mod_upper_bound j 16 ltac:(lia)).
    rewrite Dj. rewrite O2 by lia. replace (j mod 16 =? 0) with false by lia. cbn [andb].
    rewrite <- Dj, O1. now replace (j <? 4) with false by lia.
Qed.

(** A buffer with nothing but zeros in its text areas, and a zero first word. *)
Lemma init_fholds K b : 4 <= List.length b -> (fk_bank K < 256)%N -> (fk_status K < 256)%N ->
  oct b 1 = 0%N -> (forall j, 4 <= j mod 16 -> j < 4 * List.length b -> oct b j = 0%N) ->
  exists b', flex_init K b = Val b' /\ List.length b' = List.length b
    /\ fholds (fk_bank K) (fk_status K) 0 (fun _ => None) [] b'.
Proof.
  intros Hb Hk Hs H1 Hz. destruct (flex_init_ok K b Hb Hk Hs) as (b' & E & L & O0 & O1 & O2 & O3 & O).
  exists b'. split; [exact E|]. split; [exact L|].
  assert (Z : forall j, 4 <= j mod 16 -> oct b' j = 0%N).
  { intros j Hj. rewrite O by auto. destruct (Nat.lt_ge_cases j (4 * List.length b)) as [Hj2|Hj2].
    - now apply Hz.
    - now apply oct_beyond. }
  split; auto; try (cbn; lia); try discriminate.
  - apply Forall_nil.
  - change (text_packets 12 (List.length (@nil N))) with 1. split; [lia|].
    intros w o Hw Ho. assert (w = 0) by lia. subst w. cbn [Nat.mul Nat.add].
    change (tf_head flex_form) with 4. destruct (Nat.ltb_spec o 4).
    + destruct o as [|[|[|[|o]]]]; try lia; cbn [nth flex_header]; auto.
      rewrite O1, H1. reflexivity.
    + rewrite Z by (rewrite Nat.mod_small by lia; lia). now destruct (tf_cap _ * 0 + (o - 4)).
  - change (text_packets 12 (List.length (@nil N))) with 1. intros w o Hw Ho.
    change (tf_head flex_form) with 4 in Ho. apply Z.
    rewrite Nat.add_comm, Nat.mul_comm, Nat.mod_add, Nat.mod_small by lia. lia.
Qed.

Lemma oct_repeat0 n j : oct (repeat 0%N n) j = 0%N.
Proof. unfold oct. rewrite nth_repeat0. rewrite octet_bits, N.div_0_l by (apply N.pow_nonzero; discriminate). reflexivity. Qed.
