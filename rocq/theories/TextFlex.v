(** Lemmas: layout of text messages and the flex data text setter. *)
From Coq Require Import NArith ZArith List String Bool Arith Lia Zify ZifyBool ZifyNat ZifyN.
From Verif Require Import Base BitOps BitLemmas ListLemmas Values Helpers Props Message Sysex ByteView
  Text SpecSysex SpecText SysexBridge TextLemmas TextHeader.
Import ListNotations.
Local Open Scope nat_scope.

(** The first [k] packets of [b] have headers [hdr] and text [t]. *)
Definition laid (f : tform) (hdr : nat -> list N) (t : list N) (k : nat) (b : list N) : Prop :=
  4 * k <= List.length b /\
  forall w o, w < k -> o < 16 ->
    oct b (16 * w + o) = if o <? tf_head f then nth o (hdr w) 0%N
                         else nth (tf_cap f * w + (o - tf_head f)) t 0%N.
(** There is no text after packet [k]. *)
Definition blank_after (f : tform) (k : nat) (b : list N) : Prop :=
  forall w o, k <= w < List.length b / 4 -> tf_head f <= o < 16 -> oct b (16 * w + o) = 0%N.

(** *** The wire form *)

Lemma all_bytes_length b : List.length (all_bytes b) = 4 * List.length b.
Proof. induction b as [|x b IH]; cbn [all_bytes flat_map List.length app]; auto. unfold all_bytes in IH. lia. Qed.

Lemma all_bytes_nth b : forall j, nth j (all_bytes b) 0%N = oct b j.
Proof.
  induction b as [|x b IH]; intros j.
  - cbn. rewrite oct_beyond by (cbn; lia). now destruct j.
  - change (all_bytes (x :: b)) with
      ([ x / 2 ^ 24 mod 256; x / 2 ^ 16 mod 256; x / 2 ^ 8 mod 256; x mod 256 ]%N ++ all_bytes b).
    destruct (Nat.lt_ge_cases j 4) as [L|G].
    + rewrite app_nth1 by exact L. unfold oct. rewrite Nat.div_small, Nat.mod_small by lia.
      cbn [nth]. rewrite octet_bits.
      destruct j as [|[|[|[|j]]]]; [reflexivity..| |lia].
      cbn [nth]. change (2 ^ (24 - N.of_nat 3 * 8))%N with 1%N. now rewrite N.div_1_r.
    + rewrite app_nth2 by exact G. cbn [List.length]. rewrite IH. unfold oct.
      replace j with (1 * 4 + (j - 4)) at 3 4 by lia.
      rewrite Nat.div_add_l by lia. replace (1 * 4 + (j - 4)) with (j - 4 + 1 * 4) by lia.
      rewrite Nat.mod_add by lia. reflexivity.
Qed.

Lemma all_bytes_firstn b n : all_bytes (firstn n b) = firstn (4 * n) (all_bytes b).
Proof.
  revert n. induction b as [|x b IH]; intros [|n]; try reflexivity.
  - change (all_bytes (x :: b)) with
      ([ x / 2 ^ 24 mod 256; x / 2 ^ 16 mod 256; x / 2 ^ 8 mod 256; x mod 256 ]%N ++ all_bytes b).
    cbn [firstn]. change (all_bytes (x :: firstn n b)) with
      ([ x / 2 ^ 24 mod 256; x / 2 ^ 16 mod 256; x / 2 ^ 8 mod 256; x mod 256 ]%N ++ all_bytes (firstn n b)).
    rewrite IH. replace (4 * S n) with (4 + 4 * n) by lia. reflexivity.
Qed.

Lemma list_eq_nth (a b : list N) : List.length a = List.length b ->
  (forall j, j < List.length a -> nth j a 0%N = nth j b 0%N) -> a = b.
Proof. intros L H. apply (nth_ext a b 0%N 0%N L). exact H. Qed.

Lemma text_part_length room t p : List.length (text_part room t p) = room.
Proof. unfold text_part. rewrite firstn_length, app_length, repeat_length. lia. Qed.

Lemma text_part_nth room t p q : q < room -> nth q (text_part room t p) 0%N = nth (room * p + q) t 0%N.
Proof.
  intros Hq. unfold text_part. rewrite nth_firstn. replace (q <? room) with true by lia.
  destruct (Nat.lt_ge_cases q (List.length (skipn (room * p) t))) as [L|G].
  - rewrite app_nth1 by auto. apply nth_skipn.
  - rewrite app_nth2 by auto. rewrite nth_repeat0. rewrite skipn_length in G.
    now rewrite nth_overflow by lia.
Qed.

Lemma blocks_length (g : nat -> list N) n a k : (forall p, List.length (g p) = n) ->
  List.length (flat_map g (seq a k)) = n * k.
Proof.
  intros H. revert a. induction k as [|k IH]; intros a; cbn [seq flat_map]; [cbn; lia|].
  rewrite app_length, H, IH. lia.
Qed.

Lemma blocks_nth (g : nat -> list N) n a k p o : (forall p, List.length (g p) = n) -> p < k -> o < n ->
  nth (n * p + o) (flat_map g (seq a k)) 0%N = nth o (g (a + p)) 0%N.
Proof.
  intros H. revert a p. induction k as [|k IH]; intros a p Hp Ho; [lia|]. cbn [seq flat_map].
  destruct p as [|p].
  - rewrite Nat.mul_0_r, !Nat.add_0_r, Nat.add_0_l, app_nth1 by (rewrite H; lia). reflexivity.
  - rewrite app_nth2 by (rewrite H; lia). rewrite H.
    replace (n * S p + o - n) with (n * p + o) by lia. rewrite IH by lia. f_equal. f_equal. lia.
Qed.

Lemma laid_wire f hdr t k b : okt f -> (forall p, List.length (hdr p) = tf_head f) ->
  laid f hdr t k b -> all_bytes (firstn (4 * k) b) = wire hdr (tf_cap f) t k.
Proof.
  intros H Hh [L O]. pose proof (okt_facts f H) as F.
  assert (G : forall p, List.length (hdr p ++ text_part (tf_cap f) t p) = 16).
  { intros p. rewrite app_length, Hh, text_part_length. lia. }
  apply list_eq_nth.
  - rewrite all_bytes_length, firstn_length. unfold wire. rewrite (blocks_length _ 16) by auto. lia.
  - intros j Hj. rewrite all_bytes_length, firstn_length in Hj.
    rewrite all_bytes_firstn, nth_firstn. replace (j <? 4 * (4 * k)) with true by lia.
    rewrite all_bytes_nth. pose proof (Nat.div_mod j 16 ltac:(lia)).
    pose proof (Nat.mod_upper_bound j 16 ltac:(lia)).
    set (p := j / 16) in *. set (o := j mod 16) in *. clearbody p o. subst j.
    unfold wire. rewrite (blocks_nth _ 16) by (auto; lia). rewrite O by lia. cbn [Nat.add].
    destruct (Nat.ltb_spec o (tf_head f)).
    + now rewrite app_nth1 by (rewrite Hh; lia).
    + rewrite app_nth2 by (rewrite Hh; lia). rewrite Hh, text_part_nth by lia. reflexivity.
Qed.

(** *** Reading *)

Lemma laid_area f hdr t k b i : okt f -> laid f hdr t k b -> blank_after f k b ->
  List.length t <= tf_cap f * k -> i < tf_cap f * (List.length b / 4) -> area f b i = nth i t 0%N.
Proof.
  intros H [L O] B Ht Hi. pose proof (okt_facts f H) as F. unfold area.
  pose proof (Nat.div_mod i (tf_cap f) ltac:(lia)) as D.
  pose proof (Nat.mod_upper_bound i (tf_cap f) ltac:(lia)) as M.
  assert (Hw : i / tf_cap f < List.length b / 4) by (apply Nat.div_lt_upper_bound; lia).
  set (w := i / tf_cap f) in *. set (q := i mod tf_cap f) in *. clearbody w q.
  replace (16 * w + tf_head f + q) with (16 * w + (tf_head f + q)) by lia.
  destruct (Nat.lt_ge_cases w k) as [Lk|Gk].
  - rewrite O by lia. replace (tf_head f + q <? tf_head f) with false by lia. f_equal. lia.
  - rewrite B by lia. rewrite nth_overflow by nia. reflexivity.
Qed.

Lemma upcoming_text f b t : okt f -> (forall i, i < tf_cap f * (List.length b / 4) -> area f b i = nth i t 0%N) ->
  upcoming f b 0 = without_nul (firstn (reach f (List.length b)) t).
Proof.
  intros H A. unfold upcoming. rewrite Nat.sub_0_r. pose proof (reach_le f b) as R.
  set (m := reach f (List.length b)) in *. clearbody m.
  assert (E : map (area f b) (seq 0 m) = firstn m t ++ repeat 0%N (m - List.length t)).
  { apply list_eq_nth.
    - rewrite map_length, seq_length, app_length, firstn_length, repeat_length. lia.
    - intros j Hj. rewrite map_length, seq_length in Hj.
      rewrite (nth_indep _ 0%N (area f b 0)) by (rewrite map_length, seq_length; lia).
      rewrite map_nth, seq_nth by lia. cbn [Nat.add]. rewrite A by lia.
      destruct (Nat.lt_ge_cases j (List.length t)).
      + rewrite app_nth1 by (rewrite firstn_length; lia). rewrite nth_firstn.
        now replace (j <? m) with true by lia.
      + rewrite app_nth2 by (rewrite firstn_length; lia). rewrite nth_repeat0. now rewrite nth_overflow by lia. }
  rewrite E. unfold without_nul. rewrite filter_app.
  replace (filter _ (repeat 0%N (m - List.length t))) with (@nil N); [apply app_nil_r|].
  clear. generalize (m - List.length t). intros n. induction n as [|n IH]; [reflexivity|exact IH].
Qed.

Lemma laid_read f hdr t k b : okt f -> laid f hdr t k b -> blank_after f k b -> 1 <= k ->
  List.length t <= tf_cap f * k ->
  ti_collect f (text_bytes b) = Val (without_nul (firstn (reach f (List.length b)) t)).
Proof.
  intros H La B Hk Ht. pose proof La as [L _].
  rewrite collect_all by (auto; lia). f_equal. apply upcoming_text; auto.
  intros i Hi. eapply laid_area; eauto.
Qed.

(** *** Flex data headers *)

Lemma okt_flex : okt flex_form. Proof. now left. Qed.
Lemma okt_stream off : off < 2 -> okt (stream_form off).
Proof. intros. right. destruct off as [|[|]]; auto; lia. Qed.

Lemma flex_format_code i k : i < k -> flex_format i k = status_code k i.
Proof.
  intros. unfold flex_format, status_code.
  destruct (Nat.eqb_spec i 0) as [->|].
  - destruct (Nat.eqb_spec k 1); reflexivity.
  - replace (k =? 1) with false by lia. destruct (Nat.eqb_spec i (k - 1)), (Nat.eqb_spec (S i) k); auto; lia.
Qed.
Lemma status_code_lt k p : (status_code k p < 4)%N.
Proof. unfold status_code. repeat destruct (_ =? _); lia. Qed.

(** Group, channel, bank and status in the first packet. *)
Definition grp (b : list N) : N := (oct b 0 mod 16)%N.
Definition chan (b : list N) : option N :=
  if (oct b 1 / 16 mod 4 =? 0)%N then Some (oct b 1 mod 16)%N else None.

Lemma oct0 b o : o < 4 -> oct b o = octet32 (nth 0 b 0%N) (N.of_nat o).
Proof. intros. exact (oct_head b 0 o H). Qed.

Lemma flex_group_ok b : 1 <= List.length b -> flex_group b = Val (grp b).
Proof.
  intros. unfold flex_group, grp. rewrite idx_nth by lia. cbn [bind].
  now rewrite nibble32_1, oct0 by lia.
Qed.
Lemma flex_channel_ok b : 1 <= List.length b -> flex_channel b = Val (chan b).
Proof.
  intros. unfold flex_channel, chan. cbn [prop_read]. rewrite idx_nth by lia. cbn [bind].
  rewrite crumb5_octet, nibble32_3, oct0 by lia. reflexivity.
Qed.
Lemma chan_lt b c : chan b = Some c -> (c < 16)%N.
Proof.
  unfold chan. destruct (_ =? _)%N; [|discriminate]. intros E. injection E as <-.
  apply N.mod_lt. discriminate.
Qed.

Lemma header_octet b i k x o : i < k -> o < 4 ->
  octet32 (set_octet32 (set_octet32 (channel_word (set_nibble32 (set_nibble32
     (set_crumb32 x 4 (flex_format i k)) 0 0xD) 1 (grp b)) (chan b)) 3 (oct b 3)) 2 (oct b 2)) (N.of_nat o)
  = nth o (flex_header (oct b 2) (oct b 3) (grp b) (fun _ => chan b) k i) 0%N.
Proof.
  intros Hi Ho. pose proof (oct_lt b 2). pose proof (oct_lt b 3).
  assert (grp b < 16)%N by (apply N.mod_lt; discriminate).
  assert (Hc : (channel_code (chan b) < 64)%N).
  { pose proof (chan_lt b). destruct (chan b) as [c|]; cbn; [specialize (H2 c eq_refl); lia|lia]. }
  rewrite flex_format_code by auto. pose proof (status_code_lt k i).
  pose proof (chan_lt b) as Hch.
  rewrite !octet_set_octet by lia.
  rewrite octet_channel_word by (auto; lia).
  rewrite !octet_set_nibble, !octet_set_crumb4 by lia.
  destruct o as [|[|[|[|o]]]]; [| | | |lia];
    unfold flex_header; cbn [nth];
    repeat match goal with |- context [(?a =? ?b)%N] =>
      let v := eval vm_compute in (a =? b)%N in change (a =? b)%N with v end; cbv iota; try reflexivity.
  - lia_div.
  - change (N.of_nat 1) with 1%N in *. pose proof (octet_lt x 1) as Hy. set (y := octet32 x 1) in *. clearbody y. lia_div.
Qed.

(** [resize] and [write] on a buffer that has its final size. *)
Definition flex_put (b : list N) (t : list N) : outcome (list N) :=
  b1 <- clear_words b ;;
  b2 <- grow_buffer b1 (text_words flex_form (List.length t)) ;;
  text_write flex_form b2 t.

Lemma flex_put_ok b t : is_bytes t -> let k := text_packets 12 (List.length t) in
  4 * k <= List.length b ->
  exists b', flex_put b t = Val b' /\ List.length b' = List.length b
    /\ laid flex_form (flex_header (oct b 2) (oct b 3) (grp b) (fun _ => chan b) k) t k b'
    /\ blank_after flex_form k b'
    /\ forall w o, k <= w -> o < 4 -> oct b' (16 * w + o) = oct b (16 * w + o).
Proof.
  intros Ht k Hk. destruct (text_packets_room 12 (List.length t) ltac:(lia)) as (R1 & R2 & _). fold k in R1, R2.
  unfold flex_put. destruct (clear_words_ok b) as (b1 & -> & L1 & O1). cbn [bind].
  rewrite (text_words_packets flex_form) by apply okt_flex. change (tf_cap flex_form) with 12. fold k.
  unfold grow_buffer. replace (4 * k mod 4) with 0 by (rewrite Nat.mul_comm, Nat.mod_mul; lia).
  replace (4 * k =? 0) with false by lia. cbn [Nat.eqb negb orb].
  rewrite idx_nth by lia. cbn [bind]. rewrite flex_channel_ok by lia. cbn [bind].
  replace (4 * k / 4) with k by (rewrite Nat.mul_comm, Nat.div_mul; lia).
  assert (k <= List.length b / 4) by (apply Nat.div_le_lower_bound; lia).
  rewrite L1. rewrite Nat.min_l by auto.
  match goal with |- context [for_heads 4 k ?g b1] => set (gg := g) end.
  destruct (for_heads_oct gg k b1 ltac:(lia)) as (b2 & -> & L2 & _ & O2). cbn [bind].
  destruct (text_write_ok flex_form b2 t okt_flex Ht) as (b3 & -> & L3 & O3).
  { change (tf_cap flex_form) with 12. rewrite L2, L1. nia. }
  exists b3. split; [reflexivity|]. split; [lia|].
  assert (Z : forall o, o < 4 -> oct b1 o = oct b o).
  { intros o Ho. pose proof (O1 0 o ltac:(lia)) as Q. cbn [Nat.mul Nat.add] in Q. rewrite Q.
    replace (4 <=? o) with false by lia. now rewrite andb_false_r. }
  assert (G : grp b1 = grp b) by (unfold grp; now rewrite Z by lia).
  assert (C : chan b1 = chan b) by (unfold chan; now rewrite Z by lia).
  split; [split; [lia|]|split].
  - intros w o Hw Ho. rewrite O3 by auto. change (tf_head flex_form) with 4. change (tf_cap flex_form) with 12.
    rewrite O2, O1 by auto.
    destruct (Nat.ltb_spec o 4).
    + replace (4 <=? o) with false by lia. replace (w <? k) with true by lia. cbn [andb].
      unfold gg.
      replace (octet32 (nth 0 b1 0%N) 3) with (oct b1 3) by (rewrite oct0 by lia; reflexivity).
      replace (octet32 (nth 0 b1 0%N) 2) with (oct b1 2) by (rewrite oct0 by lia; reflexivity).
      replace (nibble32 (nth 0 b1 0%N) 1) with (grp b1) by (unfold grp; rewrite oct0 by lia; now rewrite nibble32_1).
      rewrite C. rewrite <- C. rewrite header_octet by lia.
      now rewrite C, G, !Z by lia.
    + replace (4 <=? o) with true by lia. cbn [andb]. rewrite andb_false_r, andb_true_r.
      replace (w <? List.length b / 4) with true by lia.
      destruct (Nat.ltb_spec (12 * w + (o - 4)) (List.length t)); [reflexivity|].
      now rewrite nth_overflow by lia.
  - intros w o Hw Ho. change (tf_head flex_form) with 4 in Ho. rewrite O3 by lia.
    change (tf_head flex_form) with 4. change (tf_cap flex_form) with 12.
    rewrite L3, L2, L1 in Hw. rewrite O2, O1 by lia.
    replace (4 <=? o) with true by lia. replace (o <? 4) with false by lia. cbn [andb].
    replace (12 * w + (o - 4) <? List.length t) with false by nia.
    rewrite andb_false_r, andb_true_r. replace (w <? List.length b / 4) with true by lia. reflexivity.
  - intros w o Hw Ho. rewrite O3 by lia. change (tf_head flex_form) with 4.
    replace (4 <=? o) with false by lia. cbn [andb]. rewrite O2, O1 by lia.
    replace (w <? k) with false by lia. replace (4 <=? o) with false by lia. cbn [andb]. now rewrite andb_false_r.
Qed.
