(** Lemmas: text bytes in packets — the iterator and the writer. *)
From Coq Require Import NArith List String Bool Arith Lia ZifyBool ZifyNat ZifyN.
From Verif Require Import Base BitOps BitLemmas ListLemmas Helpers Message Sysex ByteView
  Text SpecText.
Import ListNotations.
Local Open Scope nat_scope.

Definition okt (f : tform) : Prop := f = flex_form \/ f = stream_form 0 \/ f = stream_form 1.

Lemma okt_facts f : okt f -> 1 < tf_cap f /\ tf_head f + tf_cap f = 16 /\ 0 < tf_head f
  /\ (tf_early f = true -> tf_cap f = 12).
Proof. intros [->|[->| ->]]; cbn; repeat split; try lia; discriminate. Qed.

(** Text byte number [i] of the buffer. *)
Definition area (f : tform) (b : list N) (i : nat) : N :=
  oct b (16 * (i / tf_cap f) + tf_head f + i mod tf_cap f).

(** The number of text bytes the iterator visits. *)
Definition reach (f : tform) (len : nat) : nat :=
  tf_cap f * (len / 4) - (if tf_early f then 1 else 0).

Definition at_pos (f : tform) (b : list N) (i : nat) : titer :=
  {| ti_data := b; ti_packet := i / tf_cap f; ti_byte := i mod tf_cap f |}.

Lemma text_bytes_pos f b : okt f -> text_bytes b = at_pos f b 0.
Proof.
  intros H. pose proof (okt_facts f H). unfold at_pos, text_bytes.
  now rewrite Nat.div_0_l, Nat.mod_0_l by lia.
Qed.

Lemma divmod_succ i c : 0 < c ->
  (S (i mod c) = c /\ S i / c = S (i / c) /\ S i mod c = 0)
  \/ (S (i mod c) < c /\ S i / c = i / c /\ S i mod c = S (i mod c)).
Proof.
  intros Hc. pose proof (Nat.div_mod i c ltac:(lia)). pose proof (Nat.mod_upper_bound i c ltac:(lia)).
  destruct (Nat.eq_dec (S (i mod c)) c).
  - left. split; [auto|]. split.
    + symmetry. apply Nat.div_unique with (r := 0); nia.
    + symmetry. apply Nat.mod_unique with (q := S (i / c)); nia.
  - right. split; [lia|]. split.
    + symmetry. apply Nat.div_unique with (r := S (i mod c)); lia.
    + symmetry. apply Nat.mod_unique with (q := i / c); lia.
Qed.

Lemma advance_pos f b i : okt f -> ti_advance f (at_pos f b i) = at_pos f b (S i).
Proof.
  intros H. pose proof (okt_facts f H) as F. unfold ti_advance, at_pos. cbn [ti_data ti_packet ti_byte].
  destruct (divmod_succ i (tf_cap f)) as [(A & B & C)|(A & B & C)]; try lia.
  - rewrite A, Nat.eqb_refl, B, C. reflexivity.
  - replace (S (i mod tf_cap f) =? tf_cap f) with false by lia. now rewrite B, C.
Qed.

Lemma finished_pos f b i : okt f -> 4 <= List.length b -> i <= reach f (List.length b) ->
  ti_finished f (at_pos f b i) = Val (i =? reach f (List.length b)).
Proof.
  intros H Hb Hi. pose proof (okt_facts f H) as F. unfold ti_finished, at_pos, reach in *.
  cbn [ti_data ti_packet ti_byte].
  assert (1 <= List.length b / 4) by (apply Nat.div_le_lower_bound; lia).
  set (n := List.length b / 4) in *. clearbody n. set (c := tf_cap f) in *.
  pose proof (Nat.div_mod i c ltac:(lia)). pose proof (Nat.mod_upper_bound i c ltac:(lia)).
  destruct (tf_early f) eqn:E.
  - unfold sub_chk. replace (n <? 1) with false by lia. cbn [bind]. f_equal.
    assert (c = 12) by tauto. rewrite H3 in *.
    destruct (Nat.eqb_spec i (12 * n - 1)).
    + replace (i / 12) with (n - 1) by lia. rewrite Nat.eqb_refl. replace (i mod 12) with 11 by lia. reflexivity.
    + destruct (Nat.eqb_spec (i / 12) (n - 1)); [|reflexivity].
      destruct (Nat.eqb_spec (i mod 12) 11); [|reflexivity]. lia.
  - f_equal. rewrite Nat.sub_0_r in *.
    destruct (Nat.eqb_spec i (c * n)) as [->|].
    + rewrite Nat.mul_comm, Nat.div_mul by lia. apply Nat.leb_refl.
    + apply Nat.leb_gt. apply Nat.div_lt_upper_bound; lia.
Qed.

Lemma area_word f w q : okt f -> q < tf_cap f ->
  4 * (w * 4 + (q + tf_head f) / 4) + (q + tf_head f) mod 4 = 16 * w + tf_head f + q.
Proof.
  intros H Hq. pose proof (Nat.div_mod (q + tf_head f) 4 ltac:(lia)). lia.
Qed.

Lemma area_word_lt f w q n : okt f -> q < tf_cap f -> w < n / 4 ->
  w * 4 + (q + tf_head f) / 4 < n.
Proof.
  intros H Hq Hw. pose proof (okt_facts f H) as F.
  assert ((q + tf_head f) / 4 < 4) by (apply Nat.div_lt_upper_bound; lia).
  pose proof (Nat.div_mod n 4 ltac:(lia)). lia.
Qed.

Lemma value_pos f b i : okt f -> i < tf_cap f * (List.length b / 4) ->
  ti_value f (at_pos f b i) = Val (area f b i).
Proof.
  intros H Hi. pose proof (okt_facts f H) as F. unfold ti_value, at_pos, area.
  cbn [ti_data ti_packet ti_byte].
  pose proof (Nat.mod_upper_bound i (tf_cap f) ltac:(lia)).
  assert (i / tf_cap f < List.length b / 4) by (apply Nat.div_lt_upper_bound; lia).
  rewrite get_octet_ok.
  - now rewrite area_word.
  - now apply area_word_lt.
  - apply Nat.mod_upper_bound. lia.
Qed.

(** What the iterator at position [i] still has to give. *)
Definition upcoming (f : tform) (b : list N) (i : nat) : list N :=
  without_nul (map (area f b) (seq i (reach f (List.length b) - i))).

Lemma reach_le f (b : list N) : reach f (List.length b) <= tf_cap f * (List.length b / 4).
Proof. unfold reach. destruct (tf_early f); lia. Qed.

Lemma upcoming_step f b i : i < reach f (List.length b) ->
  upcoming f b i = (if (area f b i =? 0)%N then [] else [area f b i]) ++ upcoming f b (S i).
Proof.
  intros Hi. unfold upcoming.
  replace (reach f (List.length b) - i) with (S (reach f (List.length b) - S i)) by lia.
  cbn [seq map without_nul filter]. destruct (area f b i =? 0)%N; reflexivity.
Qed.

Lemma skip_pos f b : okt f -> 4 <= List.length b ->
  forall fuel i, i <= reach f (List.length b) -> reach f (List.length b) - i < fuel ->
  exists j, ti_skip fuel f (at_pos f b i) = Val (at_pos f b j) /\ i <= j <= reach f (List.length b)
    /\ upcoming f b i = upcoming f b j
    /\ (j < reach f (List.length b) -> area f b j <> 0%N).
Proof.
  intros H Hb. induction fuel as [|fuel IH]; intros i Hi Hf; [lia|].
  cbn [ti_skip]. rewrite finished_pos by auto. cbn [bind].
  destruct (Nat.eqb_spec i (reach f (List.length b))) as [E|E].
  - exists i. repeat split; auto; lia.
  - pose proof (reach_le f b). rewrite value_pos by (auto; lia). cbn [bind].
    destruct (N.eqb_spec (area f b i) 0) as [Z|Z].
    + rewrite advance_pos by auto. destruct (IH (S i)) as (j & E1 & E2 & E3 & E4); try lia.
      exists j. split; [exact E1|]. split; [lia|]. split; [|exact E4].
      rewrite upcoming_step by lia. now rewrite Z, <- E3.
    + exists i. repeat split; auto; lia.
Qed.

Lemma fuel_enough f (b : list N) : okt f -> 4 <= List.length b ->
  reach f (List.length b) < 4 * List.length b + 1.
Proof.
  intros H Hb. pose proof (okt_facts f H) as F. pose proof (reach_le f b).
  pose proof (Nat.div_mod (List.length b) 4 ltac:(lia)). nia.
Qed.

Lemma next_pos f b i : okt f -> 4 <= List.length b -> i <= reach f (List.length b) ->
  exists j, i <= j <= reach f (List.length b) /\
  match upcoming f b i with
  | [] => ti_next f (at_pos f b i) = Val (None, at_pos f b j) /\ upcoming f b j = []
  | v :: l => ti_next f (at_pos f b i) = Val (Some v, at_pos f b j) /\ upcoming f b j = l /\ i < j
  end.
Proof.
  intros H Hb Hi. unfold ti_next. pose proof (fuel_enough f b H Hb).
  change (ti_data (at_pos f b i)) with b.
  destruct (skip_pos f b H Hb (4 * List.length b + 1) i Hi ltac:(lia)) as (j & E1 & E2 & E3 & E4).
  rewrite E1. cbn [bind]. rewrite finished_pos by (auto; lia). cbn [bind].
  destruct (Nat.eqb_spec j (reach f (List.length b))) as [E|E].
  - exists j. split; [lia|]. rewrite E3. unfold upcoming.
    replace (reach f (List.length b) - j) with 0 by lia. cbn. auto.
  - exists (S j). split; [lia|]. rewrite E3, upcoming_step by lia.
    specialize (E4 ltac:(lia)). replace (area f b j =? 0)%N with false by lia. cbn [app].
    pose proof (reach_le f b). rewrite value_pos by (auto; lia). cbn [bind].
    rewrite advance_pos by auto. repeat split; lia.
Qed.

Lemma collect_pos f b : okt f -> 4 <= List.length b ->
  forall fuel i, i <= reach f (List.length b) -> reach f (List.length b) - i < fuel ->
  ti_collect_from fuel f (at_pos f b i) = Val (upcoming f b i).
Proof.
  intros H Hb. induction fuel as [|fuel IH]; intros i Hi Hf; [lia|].
  cbn [ti_collect_from]. destruct (next_pos f b i H Hb Hi) as (j & Hj & E).
  destruct (upcoming f b i) as [|v l].
  - destruct E as (-> & _). reflexivity.
  - destruct E as (-> & E & Hlt). cbn [bind]. rewrite IH by lia. cbn [bind]. now rewrite E.
Qed.

Lemma collect_all f b : okt f -> 4 <= List.length b ->
  ti_collect f (text_bytes b) = Val (upcoming f b 0).
Proof.
  intros H Hb. unfold ti_collect. pose proof (fuel_enough f b H Hb).
  change (ti_data (text_bytes b)) with b.
  rewrite (text_bytes_pos f) by auto. apply collect_pos; auto; lia.
Qed.

(** ** Writing *)

Lemma same_place c w a p i : a < c -> i < c -> c * w + a = c * p + i -> w = p /\ a = i.
Proof.
  intros Ha Hi E. destruct (Nat.lt_trichotomy w p) as [L|[->|L]]; [exfalso; nia| |exfalso; nia].
  split; lia.
Qed.

Lemma write_from f : okt f -> forall t p i b, is_bytes t -> i < tf_cap f ->
  tf_cap f * p + i + List.length t <= tf_cap f * (List.length b / 4) ->
  exists b', text_write_from f p i t b = Val b' /\ List.length b' = List.length b
    /\ forall w o, o < 16 -> oct b' (16 * w + o)
       = if (tf_head f <=? o) && (tf_cap f * p + i <=? tf_cap f * w + (o - tf_head f))
            && (tf_cap f * w + (o - tf_head f) <? tf_cap f * p + i + List.length t)
         then nth (tf_cap f * w + (o - tf_head f) - (tf_cap f * p + i)) t 0%N
         else oct b (16 * w + o).
Proof.
  intros H. pose proof (okt_facts f H) as F.
  induction t as [|c t IH]; intros p i b Ht Hi Hr.
  - exists b. split; [reflexivity|]. split; [reflexivity|]. intros w o Ho. cbn [List.length].
    destruct (Nat.leb_spec (tf_head f) o); cbn [andb]; [|reflexivity].
    destruct (Nat.leb_spec (tf_cap f * p + i) (tf_cap f * w + (o - tf_head f))); cbn [andb]; [|reflexivity].
    replace (_ <? _) with false by lia. reflexivity.
  - cbn [text_write_from]. cbn [List.length] in Hr.
    assert (Hp : p < List.length b / 4) by nia.
    inversion Ht as [|? ? Hc Ht']; subst.
    destruct (put_octet_ok b (p * 4 + (i + tf_head f) / 4) ((i + tf_head f) mod 4) c)
      as (b1 & E1 & L1 & O1).
    { now apply area_word_lt. } { apply Nat.mod_upper_bound. lia. } { exact Hc. }
    rewrite E1. cbn [bind]. rewrite area_word in O1 by auto.
    assert (X : forall p' i', i' < tf_cap f -> tf_cap f * p' + i' = tf_cap f * p + S i ->
      exists b', text_write_from f p' i' t b1 = Val b' /\ List.length b' = List.length b
    /\ forall w o, o < 16 -> oct b' (16 * w + o)
       = if (tf_head f <=? o) && (tf_cap f * p + i <=? tf_cap f * w + (o - tf_head f))
            && (tf_cap f * w + (o - tf_head f) <? tf_cap f * p + i + S (List.length t))
         then nth (tf_cap f * w + (o - tf_head f) - (tf_cap f * p + i)) (c :: t) 0%N
         else oct b (16 * w + o)).
    { intros p' i' Hi' Epi. destruct (IH p' i' b1 Ht' Hi' ltac:(rewrite L1; lia)) as (b' & E' & L' & O').
      exists b'. split; [exact E'|]. split; [lia|]. intros w o Ho. rewrite O' by auto. rewrite Epi.
      rewrite O1.
      destruct (Nat.leb_spec (tf_head f) o) as [h|h]; cbn [andb].
      2:{ replace (16 * w + o =? 16 * p + tf_head f + i) with false by lia. reflexivity. }
      set (x := tf_cap f * w + (o - tf_head f)).
      destruct (Nat.eq_dec x (tf_cap f * p + i)) as [Ex|Ex].
      - assert (w = p /\ o - tf_head f = i) as [-> Eo].
        { apply (same_place (tf_cap f)); try lia. }
        replace (tf_cap f * p + S i <=? x) with false by lia. cbn [andb].
        replace (16 * p + o =? 16 * p + tf_head f + i) with true by lia.
        replace (tf_cap f * p + i <=? x) with true by lia.
        replace (x <? tf_cap f * p + i + S (List.length t)) with true by lia. cbn [andb].
        replace (x - (tf_cap f * p + i)) with 0 by lia. reflexivity.
      - replace (16 * w + o =? 16 * p + tf_head f + i) with false.
        2:{ symmetry. apply Nat.eqb_neq. intros E. apply Ex. unfold x. assert (w = p) by lia. subst w. lia. }
        destruct (Nat.leb_spec (tf_cap f * p + S i) x), (Nat.leb_spec (tf_cap f * p + i) x); try lia; cbn [andb].
        2: reflexivity.
        replace (tf_cap f * p + i + S (List.length t))
          with (tf_cap f * p + S i + List.length t) by lia.
        destruct (_ <? _); [|reflexivity].
        replace (x - (tf_cap f * p + i)) with (S (x - (tf_cap f * p + S i))) by lia. reflexivity. }
    cbn [List.length].
    destruct (Nat.eqb_spec i (tf_cap f - 1)) as [Ei|Ei].
    + apply X; nia.
    + apply X; lia.
Qed.

Lemma text_write_ok f b t : okt f -> is_bytes t ->
  List.length t <= tf_cap f * (List.length b / 4) ->
  exists b', text_write f b t = Val b' /\ List.length b' = List.length b
    /\ forall w o, o < 16 -> oct b' (16 * w + o)
       = if (tf_head f <=? o) && (tf_cap f * w + (o - tf_head f) <? List.length t)
         then nth (tf_cap f * w + (o - tf_head f)) t 0%N
         else oct b (16 * w + o).
Proof.
  intros H Ht Hr. pose proof (okt_facts f H) as F.
  destruct (write_from f H t 0 0 b Ht ltac:(lia)) as (b' & E & L & O); [lia|].
  exists b'. split; [exact E|]. split; [exact L|]. intros w o Ho. rewrite O by auto.
  rewrite !Nat.mul_0_r, !Nat.add_0_l, Nat.sub_0_r. cbn [Nat.leb]. rewrite andb_true_r. reflexivity.
Qed.

(** ** Sizes *)

Lemma text_words_packets f n : okt f -> text_words f n = 4 * text_packets (tf_cap f) n.
Proof.
  intros H. pose proof (okt_facts f H) as F. unfold text_words, text_packets.
  set (c := tf_cap f) in *. assert (0 < c) by lia. clearbody c.
  pose proof (Nat.div_mod n c ltac:(lia)). pose proof (Nat.mod_upper_bound n c ltac:(lia)).
  destruct (Nat.eqb_spec n 0) as [->|Hn].
  - rewrite Nat.mod_0_l by lia. reflexivity.
  - destruct (Nat.eqb_spec (n mod c) 0) as [E|E].
    + rewrite E in *. assert (n = c * (n / c)) by lia. set (q := n / c) in *.
      replace (n * 4 / c) with (4 * q).
      2:{ apply Nat.div_unique with (r := 0); lia. }
      f_equal. apply Nat.div_unique with (r := c - 1); [lia|]. lia.
    + f_equal. apply Nat.div_unique with (r := n mod c - 1); [lia|]. lia.
Qed.

Lemma text_packets_room c n : 0 < c -> n <= c * text_packets c n /\ 1 <= text_packets c n
  /\ (0 < n -> c * (text_packets c n - 1) < n).
Proof.
  intros Hc. unfold text_packets. destruct (Nat.eqb_spec n 0) as [->|Hn]; [lia|].
  pose proof (Nat.div_mod (n + c - 1) c ltac:(lia)). pose proof (Nat.mod_upper_bound (n + c - 1) c ltac:(lia)).
  set (q := (n + c - 1) / c) in *. clearbody q. assert (1 <= q) by nia. split; [lia|]. split; [lia|]. nia.
Qed.
