(** Lemmas: [set_byte], [set_group], [nth] and initialisation of system exclusive
    messages. *)
From Coq Require Import NArith List String Bool Arith Lia ZifyBool ZifyNat ZifyN.
From Verif Require Import Base BitOps BitLemmas ListLemmas Helpers Message Sysex Splice
  ByteView SysexLayout SysexEdit SpliceLemmas SysexLaws SysexBytes SysexRead SpecSysex SysexBridge
  SysexHold.
Import ListNotations.
Local Open Scope nat_scope.

(** ** Equal bytes, equal packets *)

Lemma type_of_ext fm b b' p : byte b' (packet_bytes fm * p) = byte b (packet_bytes fm * p) ->
  type_of fm b' p = type_of fm b p.
Proof. unfold type_of. congruence. Qed.

(** [b'] is [b] with payload unit [q] of packet [p] replaced by [v]. *)
Definition unit_edit (f : fmt) (b b' : list N) (p q : nat) (v : N) : Prop :=
  List.length b' = List.length b /\
  exists x, keep f x = v /\ (f_seven f = true -> (x / 128 = oct b (pb f * p + f_head f + q) / 128)%N)
    /\ forall j, oct b' j = if j =? pb f * p + f_head f + q then x else oct b j.

Lemma head_split f p p' q r : okf f -> q < f_cap f -> r < pb f ->
  pb f * p + f_head f + q = pb f * p' + r -> p = p' /\ r = f_head f + q.
Proof.
  intros H Hq Hr E. pose proof (okf_facts f H) as F.
  destruct (div_mod_unique_small p (f_head f + q) (pb f) ltac:(lia)) as [A B].
  destruct (div_mod_unique_small p' r (pb f) ltac:(lia)) as [A' B'].
  rewrite Nat.add_assoc, E in A, B. lia.
Qed.

Section Edit.
  Context (f : fmt) (H : okf f) (b b' : list N) (p q : nat) (v : N)
    (Hq : q < f_cap f) (UE : unit_edit f b b' p q v).

  Lemma unit_edit_head p' r : r < f_head f -> oct b' (pb f * p' + r) = oct b (pb f * p' + r).
  Proof.
    intros Hr. pose proof (okf_facts f H) as F. destruct UE as (_ & x & _ & _ & O). rewrite O.
    destruct (Nat.eqb_spec (pb f * p' + r) (pb f * p + f_head f + q)) as [E|]; auto.
    destruct (head_split f p p' q r H Hq ltac:(lia) ltac:(lia)). lia.
  Qed.

  Lemma unit_edit_cnt p' : cnt f b' p' = cnt f b p'.
  Proof.
    pose proof (okf_facts f H). unfold cnt. now rewrite unit_edit_head by lia.
  Qed.

  Lemma unit_edit_unit p' q' : q' < f_cap f ->
    unit_at f b' p' q' = if (p' =? p) && (q' =? q) then v else unit_at f b p' q'.
  Proof.
    intros Hq'. pose proof (okf_facts f H) as F. unfold unit_at.
    destruct UE as (_ & x & K & _ & O). rewrite O.
    destruct (Nat.eqb_spec (pb f * p' + f_head f + q') (pb f * p + f_head f + q)) as [E|E].
    - destruct (head_split f p p' q (f_head f + q') H Hq ltac:(lia) ltac:(lia)).
      replace ((p' =? p) && (q' =? q)) with true by lia. exact K.
    - destruct (Nat.eqb_spec p' p) as [->|]; [|reflexivity].
      destruct (Nat.eqb_spec q' q) as [->|]; [congruence|reflexivity].
  Qed.

  Lemma unit_edit_other k p' : sized f b k -> p' < k -> p' <> p -> units f b' p' = units f b p'.
  Proof.
    intros S Hp Hn. unfold units. rewrite unit_edit_cnt. apply map_ext_in. intros q' Hq'.
    apply in_seq in Hq'. pose proof (cnt_le f b k p' S Hp).
    rewrite unit_edit_unit by lia. now replace (p' =? p) with false by lia.
  Qed.

  Lemma unit_edit_same k : sized f b k -> p < k -> q < cnt f b p ->
    units f b' p = with_unit (units f b p) q v.
  Proof.
    intros S Hp Hc. pose proof (cnt_le f b k p S Hp) as Hk.
    apply nth_ext with (d := 0%N) (d' := 0%N).
    - unfold with_unit. rewrite app_length. cbn [List.length].
      rewrite firstn_length, skipn_length, !units_length, unit_edit_cnt. lia.
    - intros i Hi. rewrite units_length, unit_edit_cnt in Hi.
      rewrite nth_units by now rewrite unit_edit_cnt. rewrite unit_edit_unit by lia.
      rewrite Nat.eqb_refl. cbn [andb]. unfold with_unit.
      destruct (Nat.lt_trichotomy i q) as [L|[->|G]].
      + rewrite app_nth1 by (rewrite firstn_length, units_length; lia). rewrite nth_firstn.
        replace (i <? q) with true by lia. replace (i =? q) with false by lia. now rewrite nth_units.
      + rewrite app_nth2 by (rewrite firstn_length, units_length; lia).
        rewrite firstn_length, units_length, Nat.min_l, Nat.sub_diag, Nat.eqb_refl by lia. reflexivity.
      + rewrite app_nth2 by (rewrite firstn_length, units_length; lia).
        rewrite firstn_length, units_length, Nat.min_l by lia.
        replace (i - q) with (Datatypes.S (i - q - 1)) by lia. cbn [nth]. rewrite nth_skipn.
        replace (Datatypes.S q + (i - q - 1)) with i by lia. replace (i =? q) with false by lia.
        now rewrite nth_units.
  Qed.

  Lemma span_app p0 m n : span_units f b p0 (m + n) = span_units f b p0 m ++ span_units f b (p0 + m) n.
  Proof. unfold span_units. now rewrite seq_app, flat_map_app. Qed.

  Lemma span_other k : sized f b k -> forall n p0, p0 + n <= k -> (p < p0 \/ p0 + n <= p) ->
    span_units f b' p0 n = span_units f b p0 n.
  Proof.
    intros S. induction n as [|n IH]; intros p0 Hk Hp; [reflexivity|].
    rewrite !span_units_S, (unit_edit_other k) by (auto; lia). f_equal. apply IH; lia.
  Qed.
End Edit.

Lemma with_unit_app_r l1 l2 i v : with_unit (l1 ++ l2) (List.length l1 + i) v = l1 ++ with_unit l2 i v.
Proof.
  unfold with_unit. rewrite firstn_app_2.
  replace (S (List.length l1 + i)) with (List.length l1 + S i) by lia.
  rewrite skipn_app, skipn_all2 by lia.
  replace (List.length l1 + S i - List.length l1) with (S i) by lia. now rewrite <- app_assoc.
Qed.
Lemma with_unit_app_l l1 l2 i v : i < List.length l1 -> with_unit (l1 ++ l2) i v = with_unit l1 i v ++ l2.
Proof.
  intros. unfold with_unit. rewrite firstn_app, skipn_app.
  replace (i - List.length l1) with 0 by lia. replace (S i - List.length l1) with 0 by lia.
  cbn [firstn skipn]. rewrite app_nil_r, <- app_assoc. reflexivity.
Qed.

Lemma unit_edit_span f b b' k p q v : okf f -> sized f b k -> p < k -> q < cnt f b p ->
  unit_edit f b b' p q v ->
  span_units f b' 0 k = with_unit (span_units f b 0 k) (List.length (span_units f b 0 p) + q) v.
Proof.
  intros H S Hp Hq UE. pose proof (cnt_le f b k p S Hp) as Hc.
  replace k with (p + Datatypes.S (k - Datatypes.S p)) by lia.
  assert (A : forall c, span_units f c 0 (p + Datatypes.S (k - Datatypes.S p))
     = span_units f c 0 p ++ units f c p ++ span_units f c (Datatypes.S p) (k - Datatypes.S p)).
  { intros c. unfold span_units. rewrite seq_app, flat_map_app. reflexivity. }
  rewrite !A, with_unit_app_r, with_unit_app_l by (rewrite units_length; lia).
  rewrite (span_other f H b b' p q v ltac:(lia) UE k S p 0) by lia.
  rewrite (span_other f H b b' p q v ltac:(lia) UE k S (k - Datatypes.S p) (Datatypes.S p)) by lia.
  now rewrite (unit_edit_same f H b b' p q v ltac:(lia) UE k S Hp Hq).
Qed.

(** ** [set_byte] *)

Lemma set_byte_aux_ok f b v k : okf f -> sized f b k -> unit_ok f v ->
  forall fuel p0 i, p0 <= k -> k <= p0 + fuel -> i < List.length (span_units f b p0 (k - p0)) ->
  exists p q b', p0 <= p /\ p < k /\ q < cnt f b p
    /\ i = List.length (span_units f b p0 (p - p0)) + q
    /\ set_byte_aux fuel f b v i p0 = Val b' /\ unit_edit f b b' p q v.
Proof.
  intros H S Hv. pose proof (okf_facts f H) as F. pose proof S as [HL _].
  induction fuel as [|fuel IH]; intros p0 i Hp0 Hf Hi.
  - replace (k - p0) with 0 in Hi by lia. cbn in Hi. lia.
  - destruct (Nat.eq_dec p0 k) as [->|Hne].
    { rewrite Nat.sub_diag in Hi. cbn in Hi. lia. }
    replace (k - p0) with (Datatypes.S (k - Datatypes.S p0)) in Hi by lia.
    rewrite span_units_S, app_length, units_length in Hi.
    cbn [set_byte_aux]. rewrite idx_nth by nia. cbn [bind].
    rewrite (packet_size_cnt f b k p0 H S ltac:(lia)) by (cbn [hd0 nth]; f_equal; lia). cbn [bind].
    destruct (Nat.ltb_spec i (cnt f b p0)) as [L|G].
    + pose proof (cnt_le f b k p0 S ltac:(lia)) as Hc.
      set (r := i + f_head f).
      pose proof (Nat.div_mod r 4 ltac:(lia)) as D. pose proof (Nat.mod_upper_bound r 4 ltac:(lia)) as M.
      assert (Hw : r / 4 < f_words f) by (apply Nat.div_lt_upper_bound; [lia|]; unfold r, pb in *; lia).
      destruct (put_unit_ok f b (p0 * f_words f + r / 4) (r mod 4) v) as (b' & x & E & L' & K & _ & K7 & O);
        [nia|lia|auto|].
      assert (Ep : 4 * (p0 * f_words f + r / 4) + r mod 4 = pb f * p0 + f_head f + i)
        by (unfold pb; lia).
      rewrite Ep in *. exists p0, i, b'. rewrite Nat.sub_diag. cbn [span_units seq flat_map List.length].
      split; [lia|]. split; [lia|]. split; [lia|]. split; [reflexivity|]. split; [exact E|].
      split; [exact L'|]. exists x. auto.
    + destruct (IH (Datatypes.S p0) (i - cnt f b p0)) as (p & q & b' & A1 & A2 & A3 & A4 & A5 & A6); [lia|lia|lia|].
      exists p, q, b'. split; [lia|]. split; [lia|]. split; [lia|]. split; [|auto].
      replace (p - p0) with (Datatypes.S (p - Datatypes.S p0)) by lia.
      rewrite span_units_S, app_length, units_length. lia.
Qed.

(** Past the payload of a buffer that ends with the message. *)
Lemma set_byte_aux_past f b v k : okf f -> sized f b k -> List.length b = f_words f * k ->
  forall fuel p0 i, p0 <= k -> k <= p0 + fuel -> List.length (span_units f b p0 (k - p0)) <= i ->
  set_byte_aux fuel f b v i p0 = Panic.
Proof.
  intros H S Len. pose proof (okf_facts f H) as F.
  assert (P : forall fuel i, set_byte_aux fuel f b v i k = Panic).
  { intros fuel i. assert (E : idx b (k * f_words f) = Panic).
    { unfold idx. replace (nth_error b (k * f_words f)) with (@None N); [reflexivity|].
      symmetry. apply nth_error_None. nia. }
    destruct fuel; cbn [set_byte_aux]; now rewrite E. }
  induction fuel as [|fuel IH]; intros p0 i Hp0 Hf Hi.
  - replace p0 with k by lia. apply P.
  - destruct (Nat.eq_dec p0 k) as [->|Hne]; [apply P|].
    replace (k - p0) with (Datatypes.S (k - Datatypes.S p0)) in Hi by lia.
    rewrite span_units_S, app_length, units_length in Hi.
    cbn [set_byte_aux]. rewrite idx_nth by nia. cbn [bind].
    rewrite (packet_size_cnt f b k p0 H S ltac:(lia)) by (cbn [hd0 nth]; f_equal; lia). cbn [bind].
    destruct (Nat.ltb_spec i (cnt f b p0)) as [L|G]; [lia|]. apply IH; lia.
Qed.

(** ** Loops over packet heads *)

Lemma heads_fold w F : 0 < w -> forall k a b, (forall i, a <= i < a + k -> w * i < List.length b) ->
  exists b', fold_left (fun acc i => b' <- acc ;; upd b' (w * i) (F i)) (seq a k) (Val b) = Val b'
    /\ List.length b' = List.length b
    /\ forall j, nth j b' 0%N = if (j mod w =? 0) && (a <=? j / w) && (j / w <? a + k)
                                then F (j / w) (nth j b 0%N) else nth j b 0%N.
Proof.
  intros Hw. induction k as [|k IH]; intros a b Hb.
  - exists b. split; [reflexivity|]. split; [reflexivity|]. intros j.
    replace ((j mod w =? 0) && (a <=? j / w) && (j / w <? a + 0)) with false by lia. reflexivity.
  - cbn [seq fold_left bind]. rewrite upd_nth by (apply Hb; lia).
    destruct (IH (S a) (set_nth b (w * a) (F a (nth (w * a) b 0%N)))) as (b' & E & L & O).
    { intros i Hi. rewrite set_nth_length. apply Hb. lia. }
    exists b'. split; [exact E|]. split; [now rewrite L, set_nth_length|].
    intros j. rewrite O. rewrite nth_set_nth by (apply Hb; lia).
    pose proof (Nat.div_mod j w ltac:(lia)) as D.
    destruct (Nat.eqb_spec j (w * a)) as [->|Hn].
    + replace (w * a / w) with a by (rewrite Nat.mul_comm, Nat.div_mul; lia).
      rewrite (Nat.mul_comm w a), Nat.mod_mul by lia.
      replace ((0 =? 0) && (S a <=? a) && (a <? S a + k)) with false by lia.
      replace ((0 =? 0) && (a <=? a) && (a <? a + S k)) with true by lia. reflexivity.
    + replace ((j mod w =? 0) && (S a <=? j / w) && (j / w <? S a + k))
        with ((j mod w =? 0) && (a <=? j / w) && (j / w <? a + S k)); [reflexivity|].
      destruct (Nat.eqb_spec (j mod w) 0) as [Z|]; [|reflexivity]. cbn [andb].
      assert (j / w <> a) by (intros <-; lia). lia.
Qed.

Lemma own_le f b : okf f -> own_packets f b <= List.length b / f_words f.
Proof.
  intros H. pose proof (okf_facts f H). unfold own_packets. rewrite take_while_length.
  etransitivity; [apply span_le|]. rewrite chunks_exact_spec by lia. now rewrite map_length, seq_length.
Qed.

(** Packets of this type at the front are all among the packets a writer visits. *)
Lemma own_ge fm b k : packet_words fm * k <= List.length b ->
  (forall p, p < k -> type_of fm b p = type_code fm) -> k <= own_packets (fmt_of fm) b.
Proof.
  intros HL HT. pose proof (words_pos fm) as W. unfold own_packets. rewrite words_of, chunks_exact_spec by lia.
  rewrite take_while_map, map_length.
  destruct (take_while_seq (fun i => is_packet (fmt_of fm) (chunk (packet_words fm) i b)) 0
              (List.length b / packet_words fm)) as (m & Hm & E & Ht & Hf).
  rewrite E, seq_length. destruct (Nat.le_gt_cases k m) as [|G]; auto. exfalso.
  assert (k <= List.length b / packet_words fm) by (apply Nat.div_le_lower_bound; lia).
  specialize (Hf ltac:(lia)). cbn [Nat.add] in Hf. unfold is_packet in Hf.
  rewrite hd0_chunk, type_nib, type_fmt in Hf by lia. rewrite HT in Hf by lia. lia.
Qed.

Lemma own_type fm b p : p < own_packets (fmt_of fm) b -> type_of fm b p = type_code fm.
Proof.
  pose proof (words_pos fm) as W. unfold own_packets. rewrite words_of, chunks_exact_spec by lia.
  rewrite take_while_map, map_length.
  destruct (take_while_seq (fun i => is_packet (fmt_of fm) (chunk (packet_words fm) i b)) 0
              (List.length b / packet_words fm)) as (m & Hm & E & Ht & Hf).
  rewrite E, seq_length. intros Hp. specialize (Ht p Hp). cbn [Nat.add] in Ht. unfold is_packet in Ht.
  rewrite hd0_chunk, type_nib, type_fmt in Ht by lia. lia.
Qed.

(** ** [set_group] *)

Lemma set_group_oct fm b g : (g < 16)%N ->
  exists b', set_group (fmt_of fm) b g = Val b' /\ List.length b' = List.length b
    /\ forall j, byte b' j =
         if (j mod packet_bytes fm =? 0) && (j / packet_bytes fm <? own_packets (fmt_of fm) b)
         then (byte b j / 16 * 16 + g)%N else byte b j.
Proof.
  intros Hg. pose proof (words_pos fm) as W. unfold set_group, for_heads. rewrite words_of.
  pose proof (own_le (fmt_of fm) b (okf_of fm)) as Ow. rewrite words_of in Ow.
  set (own := own_packets (fmt_of fm) b) in *.
  destruct (heads_fold (packet_words fm) (fun _ x => set_nibble32 x 1 g) W own 0 b) as (b' & E & L & O).
  { intros i Hi. pose proof (Nat.mul_div_le (List.length b) (packet_words fm) ltac:(lia)). nia. }
  exists b'. split; [exact E|]. split; [exact L|]. intros j. rewrite !byte_oct. unfold oct. rewrite O.
  cbn [Nat.leb andb]. rewrite andb_true_r, Nat.add_0_l.
  assert (PB : packet_bytes fm = 4 * packet_words fm) by now destruct fm.
  assert (D1 : j / packet_bytes fm = j / 4 / packet_words fm)
    by (rewrite PB, Nat.div_div; lia).
  assert (D2 : j mod packet_bytes fm = 4 * ((j / 4) mod packet_words fm) + j mod 4).
  { rewrite PB. rewrite Nat.mod_mul_r by lia. lia. }
  rewrite D1, D2. pose proof (Nat.mod_upper_bound j 4 ltac:(lia)).
  destruct (Nat.eqb_spec ((j / 4) mod packet_words fm) 0) as [Z|Z]; cbn [andb].
  - destruct (Nat.ltb_spec (j / 4 / packet_words fm) own); cbn [andb].
    + rewrite octet_set_nibble by (auto; lia).
      replace (1 =? 2 * N.of_nat (j mod 4))%N with false by lia.
      destruct (Nat.eqb_spec (j mod 4) 0) as [J|J].
      * rewrite Z, J. cbn [Nat.mul Nat.add Nat.eqb andb N.of_nat N.mul N.add N.eqb Pos.eqb]. reflexivity.
      * replace (1 =? 2 * N.of_nat (j mod 4) + 1)%N with false by lia.
        replace (4 * ((j / 4) mod packet_words fm) + j mod 4 =? 0) with false by lia. cbn [andb].
        now rewrite <- octet_split.
    + rewrite andb_false_r. reflexivity.
  - replace (4 * ((j / 4) mod packet_words fm) + j mod 4 =? 0) with false by lia. reflexivity.
Qed.

Lemma packet_pos fm p r : r < packet_bytes fm ->
  (packet_bytes fm * p + r) / packet_bytes fm = p /\ (packet_bytes fm * p + r) mod packet_bytes fm = r.
Proof. intros. now apply div_mod_unique_small. Qed.

(** Only the group nibbles of the packets at the front change. *)
Lemma set_group_packets fm b g : (g < 16)%N ->
  exists b', set_group (fmt_of fm) b g = Val b' /\ List.length b' = List.length b
    /\ (forall p, type_of fm b' p = type_of fm b p)
    /\ (forall p, group_of fm b' p = if p <? own_packets (fmt_of fm) b then g else group_of fm b p)
    /\ (forall j, j mod packet_bytes fm <> 0 -> byte b' j = byte b j).
Proof.
  intros Hg. destruct (set_group_oct fm b g Hg) as (b' & E & L & O). exists b'.
  split; [exact E|]. split; [exact L|].
  assert (Z : forall p, (packet_bytes fm * p) / packet_bytes fm = p /\ (packet_bytes fm * p) mod packet_bytes fm = 0).
  { intros p. destruct (packet_pos fm p 0) as [A B]; [destruct fm; cbn; lia|]. now rewrite Nat.add_0_r in A, B. }
  split; [|split].
  - intros p. unfold type_of. rewrite O. destruct (Z p) as [-> ->]. cbn [Nat.eqb andb].
    destruct (_ <? _); [now apply halves_div|reflexivity].
  - intros p. unfold group_of. rewrite O. destruct (Z p) as [-> ->]. cbn [Nat.eqb andb].
    destruct (_ <? _); [now apply halves_mod|reflexivity].
  - intros j Hj. rewrite O. now replace (j mod packet_bytes fm =? 0) with false by lia.
Qed.

(** Packets whose bytes other than the group agree carry the same payload. *)
Lemma payload_of_ext fm b b' p : (forall j, j mod packet_bytes fm <> 0 -> byte b' j = byte b j) ->
  size_nibble fm b' p = size_nibble fm b p /\ status_nibble fm b' p = status_nibble fm b p
  /\ stream_of fm b' p = stream_of fm b p /\ units_in fm b' p = units_in fm b p
  /\ (units_in fm b p <= packet_room fm -> payload_of fm b' p = payload_of fm b p).
Proof.
  intros X.
  assert (Y : forall r, 0 < r -> r < packet_bytes fm -> byte b' (packet_bytes fm * p + r) = byte b (packet_bytes fm * p + r)).
  { intros r H0 H1. apply X. destruct (packet_pos fm p r H1) as [_ ->]. lia. }
  assert (B1 : 2 < packet_bytes fm) by (destruct fm; cbn; lia).
  assert (S1 : size_nibble fm b' p = size_nibble fm b p) by (unfold size_nibble; now rewrite Y by lia).
  split; [exact S1|]. split; [unfold status_nibble; now rewrite Y by lia|].
  split; [unfold stream_of; now rewrite Y by lia|].
  assert (U : units_in fm b' p = units_in fm b p) by (unfold units_in; now rewrite S1).
  split; [exact U|]. intros Hu. unfold payload_of. rewrite U. apply map_ext_in. intros q Hq.
  apply in_seq in Hq. f_equal. rewrite <- Nat.add_assoc. apply Y; destruct fm; cbn in *; lia.
Qed.

Lemma units_room fm k g s l b p : carries fm k g s l b -> p < k -> units_in fm b p <= packet_room fm.
Proof.
  intros C Hp. pose proof (ca_size _ _ _ _ _ _ C p Hp). unfold units_in. lia.
Qed.

Lemma set_group_carries fm k g s l b g' b' : carries fm k g s l b -> (g' < 16)%N ->
  set_group (fmt_of fm) b g' = Val b' ->
  carries fm k g' s l b' /\ List.length b' = List.length b
  /\ (full_packets fm k b -> full_packets fm k b')
  /\ (scrap fm s b -> scrap fm s b') /\ (clean_bytes fm b -> clean_bytes fm b').
Proof.
  intros C Hg E. destruct (set_group_packets fm b g' Hg) as (b'' & E' & L & T & G & X).
  rewrite E in E'. injection E' as <-.
  pose proof (own_ge fm b k (ca_fits _ _ _ _ _ _ C) (ca_type _ _ _ _ _ _ C)) as Ow.
  assert (P : forall p, size_nibble fm b' p = size_nibble fm b p /\ status_nibble fm b' p = status_nibble fm b p
     /\ stream_of fm b' p = stream_of fm b p /\ units_in fm b' p = units_in fm b p
     /\ (units_in fm b p <= packet_room fm -> payload_of fm b' p = payload_of fm b p))
    by (intros p; now apply payload_of_ext).
  split; [|split; [exact L|split; [|split]]].
  - constructor.
    + apply (ca_some _ _ _ _ _ _ C).
    + rewrite L. apply (ca_fits _ _ _ _ _ _ C).
    + intros p Hp. rewrite T. now apply (ca_type _ _ _ _ _ _ C).
    + intros p Hp. rewrite G. now replace (p <? own_packets (fmt_of fm) b) with true by lia.
    + intros p Hp E8. destruct (P p) as (_ & _ & -> & _). now apply (ca_stream _ _ _ _ _ _ C).
    + intros p Hp. destruct (P p) as (_ & -> & _). now apply (ca_status _ _ _ _ _ _ C).
    + intros p Hp. destruct (P p) as (-> & _). now apply (ca_size _ _ _ _ _ _ C).
    + rewrite <- (ca_payload _ _ _ _ _ _ C). rewrite !flat_map_concat_map. f_equal.
      apply map_ext_in. intros p Hp. apply in_seq in Hp. apply P.
      eapply units_room; eauto. lia.
  - intros [A B]. split.
    + intros p Hp. destruct (P p) as (_ & _ & _ & -> & _). auto.
    + destruct (P (k - 1)) as (_ & _ & _ & -> & _). auto.
  - intros Sc p Hp. rewrite L in Hp. destruct (P p) as (-> & -> & -> & -> & _). rewrite T. auto.
  - intros Cl E7 j Hj. rewrite X by lia. now apply Cl.
Qed.

Lemma set_group_ok fm b g : (g < 16)%N -> exists b', set_group (fmt_of fm) b g = Val b'.
Proof. intros Hg. destruct (set_group_packets fm b g Hg) as (b' & E & _). eauto. Qed.

Lemma group_first fm k g s l b : carries fm k g s l b -> group b = Val g.
Proof.
  intros C. pose proof (ca_some _ _ _ _ _ _ C). pose proof (ca_fits _ _ _ _ _ _ C).
  pose proof (words_pos fm). unfold group. rewrite idx_nth by nia. cbn [bind]. f_equal.
  rewrite <- (ca_group _ _ _ _ _ _ C 0) by lia. rewrite <- group_nib. now rewrite Nat.mul_0_r.
Qed.

(** ** [set_byte] on messages *)

Lemma unit_edit_carries fm k g s l b b' p q v : carries fm k g s l b -> p < k ->
  q < cnt (fmt_of fm) b p -> unit_edit (fmt_of fm) b b' p q v ->
  carries fm k g s (with_unit l (List.length (span_units (fmt_of fm) b 0 p) + q) v) b'
  /\ (full_packets fm k b -> full_packets fm k b')
  /\ (scrap fm s b -> scrap fm s b') /\ (clean_bytes fm b -> clean_bytes fm b').
Proof.
  intros C Hp Hq UE. set (f := fmt_of fm) in *. assert (H : okf f) by apply okf_of.
  pose proof (carries_sized _ _ _ _ _ _ C) as Sz. fold f in Sz.
  pose proof (cnt_le f b k p Sz Hp) as Hc. pose proof (okf_facts f H) as F.
  assert (Hd : forall p' r, r < header_bytes fm -> byte b' (packet_bytes fm * p' + r) = byte b (packet_bytes fm * p' + r)).
  { intros p' r Hr. rewrite !byte_oct, <- pb_of. apply (unit_edit_head f H b b' p q v); auto; [lia|].
    unfold f. now rewrite head_of. }
  assert (Hb : 2 <= header_bytes fm) by (destruct fm; cbn; lia).
  assert (H0 : forall p', byte b' (packet_bytes fm * p') = byte b (packet_bytes fm * p')).
  { intros p'. pose proof (Hd p' 0 ltac:(lia)) as X. now rewrite Nat.add_0_r in X. }
  assert (Hst : fm = EightBit -> forall p', stream_of fm b' p' = stream_of fm b p').
  { intros E8 p'. unfold stream_of. apply Hd. rewrite E8. cbn. lia. }
  assert (Hu : forall p', units_in fm b' p' = units_in fm b p').
  { intros p'. unfold units_in, size_nibble. now rewrite Hd by lia. }
  destruct UE as (L & UE'). pose proof (conj L UE' : unit_edit f b b' p q v) as UE.
  split; [constructor|split; [|split]].
  - apply (ca_some _ _ _ _ _ _ C).
  - rewrite L. apply (ca_fits _ _ _ _ _ _ C).
  - intros p' Hp'. unfold type_of. rewrite H0. now apply (ca_type _ _ _ _ _ _ C).
  - intros p' Hp'. unfold group_of. rewrite H0. now apply (ca_group _ _ _ _ _ _ C).
  - intros p' Hp' E8. rewrite Hst by auto. now apply (ca_stream _ _ _ _ _ _ C).
  - intros p' Hp'. unfold status_nibble. rewrite Hd by lia. now apply (ca_status _ _ _ _ _ _ C).
  - intros p' Hp'. unfold size_nibble. rewrite Hd by lia. now apply (ca_size _ _ _ _ _ _ C).
  - rewrite payload_span. fold f. rewrite (unit_edit_span f b b' k p q v H Sz Hp Hq UE).
    pose proof (ca_payload _ _ _ _ _ _ C) as P. rewrite payload_span in P. fold f in P. now rewrite P.
  - intros [A B]. split; [intros p' Hp'; rewrite Hu; auto|now rewrite Hu].
  - intros Sc p' Hp'. rewrite L in Hp'. destruct (Sc p' Hp') as [A B]. rewrite Hu.
    unfold type_of, status_nibble, size_nibble in *. rewrite H0, Hd by lia. split; [exact A|].
    intros E8. rewrite Hst by auto. auto.
  - intros Cl E7 j Hj. specialize (Cl E7). rewrite !byte_oct in *. destruct UE' as (x & _ & K7 & O). rewrite O.
    destruct (Nat.eqb_spec j (pb f * p + f_head f + q)) as [Ej|]; [|rewrite <- byte_oct; now apply Cl].
    specialize (K7 (proj2 (seven_of fm) E7)). rewrite <- Ej in K7. specialize (Cl j Hj). rewrite byte_oct in Cl.
    apply N.div_small in Cl. rewrite Cl in K7. apply N.div_small_iff in K7; [exact K7|discriminate].
Qed.

Lemma set_byte_carries fm k g s l b v i : carries fm k g s l b -> i < List.length l -> is_unit fm v ->
  exists b', set_byte (fmt_of fm) b v i = Val b'
  /\ carries fm k g s (with_unit l i v) b' /\ List.length b' = List.length b
  /\ (full_packets fm k b -> full_packets fm k b')
  /\ (scrap fm s b -> scrap fm s b') /\ (clean_bytes fm b -> clean_bytes fm b').
Proof.
  intros C Hi Hv. pose proof (carries_sized _ _ _ _ _ _ C) as Sz.
  pose proof (ca_payload _ _ _ _ _ _ C) as P. rewrite payload_span in P.
  pose proof (ca_fits _ _ _ _ _ _ C). pose proof (words_pos fm).
  destruct (set_byte_aux_ok (fmt_of fm) b v k (okf_of fm) Sz (proj2 (unit_ok_of fm v) Hv)
     (List.length b) 0 i) as (p & q & b' & _ & Hp & Hq & Ei & E & UE).
  - lia.
  - nia.
  - now rewrite Nat.sub_0_r, P.
  - exists b'. split; [exact E|]. rewrite Nat.sub_0_r in Ei.
    destruct (unit_edit_carries fm k g s l b b' p q v C Hp Hq UE) as (C' & A1 & A2 & A3).
    rewrite <- Ei in C'. destruct UE as (L & _). auto 6.
Qed.

Lemma set_byte_past fm k g s l b v i : carries fm k g s l b ->
  List.length b = packet_words fm * k -> List.length l <= i -> set_byte (fmt_of fm) b v i = Panic.
Proof.
  intros C Len Hi. pose proof (carries_sized _ _ _ _ _ _ C) as Sz.
  pose proof (ca_payload _ _ _ _ _ _ C) as P. rewrite payload_span in P. pose proof (words_pos fm).
  apply (set_byte_aux_past (fmt_of fm) b v k); auto; [now rewrite words_of|lia|nia|].
  now rewrite Nat.sub_0_r, P.
Qed.
