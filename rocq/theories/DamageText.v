(** A changed byte of a text. *)
From Coq Require Import NArith ZArith List String Bool Arith Lia Zify ZifyBool ZifyNat ZifyN.
From Verif Require Import Base BitOps BitLemmas ListLemmas Values Helpers Props PropLemmas PropValidate Message SpecLayout SpecFixed
  FixedLemmas SpecSysex ByteView SysexBridge RebuildSysex Text SpecText TextLemmas TextFlex TextParse TextFresh TextUtf8
  AggregateMore PacketMore LossLemmas LossMore SpecDamage SpecDamageText.
Import ListNotations.
Local Open Scope nat_scope.

Ltac Zify.zify_post_hook ::= Z.to_euclidean_division_equations.

(** ** Fields of a packet in terms of its bytes *)
Lemma byte_at b p i : i < 4 -> byte b (16 * p + i) = (nth (4 * p) b 0 / 2 ^ (8 * (3 - N.of_nat i)) mod 256)%N.
Proof. intros H. unfold byte. replace ((16 * p + i) / 4) with (4 * p) by lia. replace ((16 * p + i) mod 4) with i by lia. reflexivity. Qed.
Lemma at_28 b p : bits b (Seg (4 * p) 28 4) = (byte b (16 * p + 0) / 16)%N.
Proof. rewrite byte_at by lia. unfold bits. cbn [sg_w sg_lo sg_n]. generalize (nth (4 * p) b 0%N). intros x. cbn. lia. Qed.
Lemma at_24 b p : bits b (Seg (4 * p) 24 4) = (byte b (16 * p + 0) mod 16)%N.
Proof. rewrite byte_at by lia. unfold bits. cbn [sg_w sg_lo sg_n]. generalize (nth (4 * p) b 0%N). intros x. cbn. lia. Qed.
Lemma at_26 b p : bits b (Seg (4 * p) 26 2) = (byte b (16 * p + 0) / 4 mod 4)%N.
Proof. rewrite byte_at by lia. unfold bits. cbn [sg_w sg_lo sg_n]. generalize (nth (4 * p) b 0%N). intros x. cbn. lia. Qed.
Lemma at_22 b p : bits b (Seg (4 * p) 22 2) = (byte b (16 * p + 1) / 64)%N.
Proof. rewrite byte_at by lia. unfold bits. cbn [sg_w sg_lo sg_n]. generalize (nth (4 * p) b 0%N). intros x. cbn. lia. Qed.
Lemma at_16 b p : bits b (Seg (4 * p) 16 10) = (byte b (16 * p + 0) mod 4 * 256 + byte b (16 * p + 1))%N.
Proof. rewrite !byte_at by lia. unfold bits. cbn [sg_w sg_lo sg_n]. generalize (nth (4 * p) b 0%N). intros x. cbn. lia. Qed.
Lemma at_8 b p : bits b (Seg (4 * p) 8 8) = byte b (16 * p + 2).
Proof. rewrite byte_at by lia. unfold bits. cbn [sg_w sg_lo sg_n]. reflexivity. Qed.
Lemma at_0 b p : bits b (Seg (4 * p) 0 8) = byte b (16 * p + 3).
Proof. rewrite byte_at by lia. unfold bits. cbn [sg_w sg_lo sg_n]. reflexivity. Qed.

(** ** The text *)
Lemma area_byte f b i : okt f -> i < tf_cap f * (List.length b / 4) ->
  nth i (text_area (tf_head f) b) 0%N = byte b (16 * (i / tf_cap f) + (tf_head f + i mod tf_cap f)).
Proof. intros H Hi. rewrite text_area_nth by auto. unfold area. rewrite Nat.add_assoc. symmetry. apply byte_oct. Qed.

Lemma with_unit_nth l i j v d : i < List.length l -> nth j (with_unit l i v) d = if j =? i then v else nth j l d.
Proof.
  intros H. unfold with_unit. assert (L : List.length (firstn i l) = i) by (rewrite firstn_length; lia).
  destruct (Nat.eqb_spec j i) as [->|N].
  - rewrite app_nth2, L, Nat.sub_diag by lia. reflexivity.
  - destruct (Nat.lt_ge_cases j i) as [A|A].
    + rewrite app_nth1 by lia. rewrite <- (firstn_skipn i l) at 2. rewrite app_nth1 by lia. reflexivity.
    + rewrite app_nth2, L by lia. replace (j - i) with (S (j - S i)) by lia. cbn [nth].
      rewrite <- (firstn_skipn (S i) l) at 2. assert (L' : List.length (firstn (S i) l) = S i) by (rewrite firstn_length; lia).
      rewrite app_nth2, L' by lia. reflexivity.
Qed.

Section Damage.
  Context (k : nat) (b b' : list N) (p r : nat).
  Context (Len : List.length b = 4 * k) (Hp : p < k) (Hr : r < 16) (H : one_byte (16 * p + r) b b').

  Lemma d_same q i : i < 16 -> q <> p \/ i <> r -> byte b' (16 * q + i) = byte b (16 * q + i).
  Proof. intros A B. apply (proj2 (proj2 H)). lia. Qed.
  Lemma d_diff : byte b' (16 * p + r) <> byte b (16 * p + r).
  Proof. exact (proj1 (proj2 H)). Qed.
  Lemma d_len : List.length b' = 4 * k.
  Proof. rewrite (proj1 H). exact Len. Qed.
  Lemma d_whole : List.length b / 4 = k /\ List.length b' / 4 = k.
  Proof. rewrite d_len, Len. lia. Qed.

  Lemma area_head f : okt f -> tf_cap f + tf_head f = 16 -> r < tf_head f -> text_area (tf_head f) b' = text_area (tf_head f) b.
  Proof.
    intros O C Hh. destruct d_whole as [W W']. apply nth_ext with (d := 0%N) (d' := 0%N); [rewrite !text_area_length, W, W' by lia; reflexivity|].
    intros i Hi. rewrite text_area_length, W' in Hi by lia. replace (16 - tf_head f) with (tf_cap f) in Hi by lia.
    rewrite !area_byte by (auto; rewrite ?W, ?W'; exact Hi). assert (Z : tf_cap f <> 0) by nia.
    pose proof (Nat.mod_upper_bound i (tf_cap f) Z) as U. apply d_same; lia.
  Qed.
  Lemma area_text f : okt f -> tf_cap f + tf_head f = 16 -> tf_head f <= r ->
    tf_cap f * p + (r - tf_head f) < List.length (text_area (tf_head f) b)
    /\ text_area (tf_head f) b' = with_unit (text_area (tf_head f) b) (tf_cap f * p + (r - tf_head f)) (byte b' (16 * p + r)).
  Proof.
    intros O C Hh. destruct d_whole as [W W']. assert (Z : tf_cap f <> 0) by lia. remember (tf_cap f) as c eqn:Ec.
    assert (In : c * p + (r - tf_head f) < List.length (text_area (tf_head f) b)).
    { rewrite text_area_length, W by lia. replace (16 - tf_head f) with c by lia. clear - Hp Hr C Hh. nia. }
    split; [exact In|]. apply nth_ext with (d := 0%N) (d' := 0%N).
    - rewrite with_unit_length by exact In. rewrite !text_area_length, W, W' by lia. reflexivity.
    - intros i Hi. rewrite text_area_length, W' in Hi by lia. replace (16 - tf_head f) with c in Hi by lia.
      rewrite with_unit_nth by exact In. rewrite !area_byte by (auto; rewrite ?W, ?W', <- ?Ec; exact Hi). rewrite <- Ec.
      pose proof (Nat.mod_upper_bound i c Z) as U. pose proof (Nat.div_mod i c Z) as D.
      destruct (Nat.eqb_spec i (c * p + (r - tf_head f))) as [E|E].
      + assert (Q : i / c = p /\ i mod c = r - tf_head f).
        { assert (r - tf_head f < c) by lia. split; symmetry; [apply (Nat.div_unique i c p (r - tf_head f))|apply (Nat.mod_unique i c p (r - tf_head f))]; auto. }
        destruct Q as [Q1 Q2]. rewrite Q1, Q2. do 2 f_equal. lia.
      + apply d_same; [lia|]. destruct (Nat.eq_dec (i / c) p) as [E1|E1]; [right|left; exact E1].
        intros E2. apply E. rewrite D, E1. lia.
  Qed.
End Damage.

(** A message cut short is not framed. *)
Lemma cut_short k p : 0 < p < k -> status_code p (p - 1) <> status_code k (p - 1).
Proof.
  intros P. unfold status_code. destruct (Nat.eqb_spec p 1), (Nat.eqb_spec k 1), (Nat.eqb_spec (p - 1) 0), (Nat.eqb_spec (S (p - 1)) p), (Nat.eqb_spec (S (p - 1)) k); try lia; discriminate.
Qed.

(** With another type, packet [p] ends the message. *)
Lemma other_type t lo k b b' p : List.length b' = 4 * k -> p < k ->
  (forall i, i < k -> bits b (Seg (4 * i) 28 4) = t) -> (forall i, i < k -> i <> p -> bits b' (Seg (4 * i) 28 4) = bits b (Seg (4 * i) 28 4)) ->
  (forall i, i < k -> i <> p -> bits b' (Seg (4 * i) lo 2) = bits b (Seg (4 * i) lo 2)) ->
  (forall i, i < k -> bits b (Seg (4 * i) lo 2) = status_code k i) ->
  bits b' (Seg 0 28 4) = t -> (forall n, leading 4 t b' n -> SpecFixed.framed (fun i => bits b' (Seg (4 * i) lo 2)) 0 1 2 3 n) ->
  bits b' (Seg (4 * p) 28 4) = t.
Proof.
  intros L Hp T T' S S' F Fr. destruct (N.eq_dec (bits b' (Seg (4 * p) 28 4)) t) as [E|E]; [exact E|exfalso].
  assert (P0 : p <> 0) by (intros ->; apply E; exact F).
  assert (Ld : leading 4 t b' p).
  { unfold leading. rewrite L. replace ((4 * k + 4 - 1) / 4) with k by lia. split; [lia|]. split; [|intros _; exact E].
    intros i Hi. rewrite T' by lia. apply T. lia. }
  specialize (Fr p Ld). apply framed_marks in Fr as [_ Fr]. specialize (Fr (p - 1) ltac:(lia)). cbv beta in Fr.
  rewrite S, S' in Fr by lia. apply (cut_short k p); [lia|auto].
Qed.

Lemma byte_halves x y : (x / 16 = y / 16 -> x mod 16 = y mod 16 -> x = y)%N.
Proof. intros. lia. Qed.
Lemma byte_quarters x y : (x / 16 = y / 16 -> x / 4 mod 4 = y / 4 mod 4 -> x mod 4 = y mod 4 -> x = y)%N.
Proof. intros. lia. Qed.

(** ** Flex data *)
Lemma flex_damage K k b b' p r : flex_try_from K b = Val (Ok b) -> leading 4 0xD b k ->
  List.length b = 4 * k -> p < k -> r < 16 -> one_byte (16 * p + r) b b' ->
  (flex_try_from K b' = Val (Ok b') <-> flex_tolerable k b b' p r).
Proof.
  intros A Hk Len Hp Hr H. pose proof (d_same k b b' p r Len Hp Hr H) as Sm. pose proof (d_diff b b' p r H) as Df.
  pose proof (d_len k b b' p r Len H) as Len'. destruct (d_whole k b b' p r Len Hp Hr H) as [W W'].
  apply flex_try_from_ok in A as (_ & L4 & T0 & BS & Fr & St). destruct (Fr k Hk) as [G Fm]. apply framed_marks in Fm as [_ Fm]. cbv beta in Fm.
  destruct Hk as (_ & T & _). rewrite W in *.
  assert (Ty : forall i, i <> p \/ r <> 0 -> bits b' (Seg (4 * i) 28 4) = bits b (Seg (4 * i) 28 4)) by (intros i Hi; rewrite !at_28, Sm by lia; reflexivity).
  assert (Gr : forall i, i <> p \/ r <> 0 -> bits b' (Seg (4 * i) 24 4) = bits b (Seg (4 * i) 24 4)) by (intros i Hi; rewrite !at_24, Sm by lia; reflexivity).
  assert (Mk : forall i, i <> p \/ r <> 1 -> bits b' (Seg (4 * i) 22 2) = bits b (Seg (4 * i) 22 2)) by (intros i Hi; rewrite !at_22, Sm by lia; reflexivity).
  assert (Bk : forall i, i <> p \/ r <> 2 -> bits b' (Seg (4 * i) 8 8) = bits b (Seg (4 * i) 8 8)) by (intros i Hi; rewrite !at_8, Sm by lia; reflexivity).
  assert (Ss : forall i, i <> p \/ r <> 3 -> bits b' (Seg (4 * i) 0 8) = bits b (Seg (4 * i) 0 8)) by (intros i Hi; rewrite !at_0, Sm by lia; reflexivity).
  rewrite flex_try_from_ok. unfold flex_accepts, flex_tolerable. rewrite W'. split.
  - intros (_ & _ & T0' & BS' & Fr' & St').
    assert (Tp : bits b' (Seg (4 * p) 28 4) = 0xD%N).
    { apply (other_type 0xD 22 k b b' p); auto; intros n Hn; now apply Fr'. }
    assert (T' : forall i, i < k -> bits b' (Seg (4 * i) 28 4) = 0xD%N).
    { intros i Hi. destruct (Nat.eq_dec i p) as [->|E]; [exact Tp|]. rewrite Ty by auto. now apply T. }
    destruct (Fr' k (whole_leading _ _ _ Len' T')) as [G' Fm']. apply framed_marks in Fm' as [_ Fm']. cbv beta in Fm'.
    split; [|split; [|split; [|split]]].
    + intros ->. split; [|exact Tp]. destruct (Nat.eq_dec k 1) as [E|E]; [exact E|exfalso]. apply Df, byte_halves.
      * rewrite <- !at_28. now rewrite Tp, T.
      * rewrite <- !at_24. assert (X : exists q, q < k /\ q <> p) by (destruct p; [exists 1|exists 0]; lia). destruct X as (q & Q1 & Q2).
        rewrite (G' p), (G p) by lia. pose proof (G' q Q1 Q1) as Y. pose proof (G q Q1 Q1) as Y'. rewrite (Gr q) in Y by auto. congruence.
    + intros ->. rewrite Fm', Fm by lia. reflexivity.
    + intros ->. apply Df. rewrite <- !at_8. destruct (BS' p Hp) as [X _], (BS p Hp) as [Y _]. congruence.
    + intros ->. apply Df. rewrite <- !at_0. destruct (BS' p Hp) as [_ X], (BS p Hp) as [_ Y]. congruence.
    + auto.
  - intros (R0 & R1 & R2 & R3 & R4).
    assert (T' : forall i, i < k -> bits b' (Seg (4 * i) 28 4) = 0xD%N).
    { intros i Hi. destruct (Nat.eq_dec i p) as [->|E]; [|rewrite Ty by auto; now apply T].
      destruct (Nat.eq_dec r 0) as [->|E]; [now apply R0|]. rewrite Ty by auto. now apply T. }
    assert (M' : forall i, i < k -> bits b' (Seg (4 * i) 22 2) = bits b (Seg (4 * i) 22 2)).
    { intros i Hi. destruct (Nat.eq_dec i p) as [->|E]; [|now apply Mk; auto]. destruct (Nat.eq_dec r 1) as [E|E]; [now apply R1|now apply Mk; auto]. }
    split; [reflexivity|]. split; [lia|]. split; [exact (T' 0 ltac:(lia))|]. split; [|split].
    + intros q Hq. rewrite Bk, Ss by auto. now apply BS.
    + intros n Hn. rewrite (leading_unique _ _ _ _ _ Hn (whole_leading _ _ _ Len' T')). split.
      * intros q Hq _. destruct (Nat.eq_dec r 0) as [E|E].
        -- destruct (R0 E) as [K1 _]. replace q with 0 by lia. reflexivity.
        -- change (Seg 0 24 4) with (Seg (4 * 0) 24 4). rewrite !Gr by auto. now apply G.
      * apply framed_marks. split; [lia|]. intros q Hq. rewrite M' by exact Hq. now apply Fm.
    + destruct (Nat.lt_ge_cases r 4) as [E|E]; [|now apply R4].
      pose proof (area_head k b b' p r Len Hp Hr H flex_form okt_flex eq_refl E) as AE. cbn [tf_head flex_form] in AE.
      unfold flex_reading. rewrite AE. exact St.
Qed.

(** ** UMP stream *)
Lemma stream_damage K k b b' p r : sk_off K <= 1 -> stream_try_from K b = Val (Ok b) -> leading 4 0xF b k ->
  List.length b = 4 * k -> p < k -> r < 16 -> one_byte (16 * p + r) b b' ->
  (stream_try_from K b' = Val (Ok b') <-> stream_tolerable (sk_off K) k b' r).
Proof.
  intros Ho A Hk Len Hp Hr H. pose proof (d_same k b b' p r Len Hp Hr H) as Sm. pose proof (d_diff b b' p r H) as Df.
  pose proof (d_len k b b' p r Len H) as Len'. destruct (d_whole k b b' p r Len Hp Hr H) as [W W'].
  apply stream_try_from_ok in A as (_ & L4 & T0 & BS & Fr & Bl & St); [|exact Ho]. pose proof (Fr k Hk) as Fm. apply framed_marks in Fm as [_ Fm]. cbv beta in Fm.
  destruct Hk as (_ & T & _). rewrite W in *.
  assert (Ty : forall i, i <> p \/ r <> 0 -> bits b' (Seg (4 * i) 28 4) = bits b (Seg (4 * i) 28 4)) by (intros i Hi; rewrite !at_28, Sm by lia; reflexivity).
  assert (Mk : forall i, i <> p \/ r <> 0 -> bits b' (Seg (4 * i) 26 2) = bits b (Seg (4 * i) 26 2)) by (intros i Hi; rewrite !at_26, Sm by lia; reflexivity).
  assert (Ss : forall i, i <> p \/ r <> 0 /\ r <> 1 -> bits b' (Seg (4 * i) 16 10) = bits b (Seg (4 * i) 16 10)).
  { intros i Hi. rewrite !at_16. rewrite !Sm by lia. reflexivity. }
  assert (Bk : forall i, i <> p \/ r <> 2 -> bits b' (Seg (4 * i) 8 8) = bits b (Seg (4 * i) 8 8)) by (intros i Hi; rewrite !at_8, Sm by lia; reflexivity).
  rewrite stream_try_from_ok by exact Ho. unfold stream_accepts, stream_tolerable. rewrite W'. split.
  - intros (_ & _ & T0' & BS' & Fr' & Bl' & St').
    assert (Tp : bits b' (Seg (4 * p) 28 4) = 0xF%N).
    { apply (other_type 0xF 26 k b b' p); auto; intros n Hn; now apply Fr'. }
    assert (T' : forall i, i < k -> bits b' (Seg (4 * i) 28 4) = 0xF%N).
    { intros i Hi. destruct (Nat.eq_dec i p) as [->|E]; [exact Tp|]. rewrite Ty by auto. now apply T. }
    pose proof (Fr' k (whole_leading _ _ _ Len' T')) as Fm'. apply framed_marks in Fm' as [_ Fm']. cbv beta in Fm'.
    assert (X : byte b' (16 * p + 0) = byte b (16 * p + 0)).
    { apply byte_quarters.
      - rewrite <- !at_28. now rewrite Tp, T.
      - rewrite <- !at_26. now rewrite Fm', Fm.
      - pose proof (BS' p Hp) as Y. rewrite <- (BS p Hp) in Y. rewrite !at_16 in Y.
        assert (B1 : forall c j, (byte c j < 256)%N) by (intros c j; unfold byte; lia).
        pose proof (B1 b' (16 * p + 1)). pose proof (B1 b (16 * p + 1)). clear - Y H0 H1. lia. }
    split; [|split; [|split]].
    + intros ->. now apply Df.
    + intros ->. pose proof (BS' p Hp) as Y. rewrite <- (BS p Hp) in Y. rewrite !at_16, X in Y. apply Df. clear - Y. lia.
    + intros -> E1. destruct (Nat.eq_dec k 1) as [E|E]; [exact E|exfalso]. apply Df. rewrite <- !at_8.
      assert (Z : exists q, q < k /\ q <> p) by (destruct p; [exists 1|exists 0]; lia). destruct Z as (q & Q1 & Q2).
      rewrite (Bl' E1 p), (Bl E1 p) by lia. pose proof (Bl' E1 q Q1) as Y. pose proof (Bl E1 q Q1) as Y'. rewrite (Bk q) in Y by auto. congruence.
    + auto.
  - intros (R0 & R1 & R2 & R3).
    assert (T' : forall i, i < k -> bits b' (Seg (4 * i) 28 4) = 0xF%N) by (intros i Hi; rewrite Ty by auto; now apply T).
    split; [reflexivity|]. split; [lia|]. split; [exact (T' 0 ltac:(lia))|]. split; [|split; [|split]].
    + intros q Hq. rewrite Ss by auto. now apply BS.
    + intros n Hn. rewrite (leading_unique _ _ _ _ _ Hn (whole_leading _ _ _ Len' T')).
      apply framed_marks. split; [lia|]. intros q Hq. rewrite Mk by auto. now apply Fm.
    + intros E q Hq. destruct (Nat.eq_dec r 2) as [E2|E2].
      * specialize (R2 E2 E). replace q with 0 by lia. reflexivity.
      * change (Seg 0 8 8) with (Seg (4 * 0) 8 8). rewrite !Bk by auto. now apply Bl.
    + destruct (Nat.lt_ge_cases r (2 + sk_off K)) as [E|E]; [|now apply R3].
      assert (Cp : tf_cap (stream_form (sk_off K)) + tf_head (stream_form (sk_off K)) = 16) by (cbn [tf_cap tf_head stream_form]; lia).
      pose proof (area_head k b b' p r Len Hp Hr H (stream_form (sk_off K)) (okt_stream (sk_off K) ltac:(lia)) Cp E) as AE. cbn [tf_head stream_form] in AE.
      unfold stream_reading. rewrite AE. exact St.
Qed.
