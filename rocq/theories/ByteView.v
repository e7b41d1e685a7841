(** Lemmas: a buffer of 32-bit words seen as a sequence of bytes, most
    significant byte of each word first, and the effect of the bit-field
    writers on it. *)
From Coq Require Import NArith List Bool Arith Lia.
From Verif Require Import Base BitOps SpecLayout BitLemmas ListLemmas Sysex.
Import ListNotations.
Local Open Scope nat_scope.

Definition oct (b : list N) (j : nat) : N :=
  octet32 (nth (j / 4) b 0%N) (N.of_nat (j mod 4)).

Lemma octet_bits x i : octet32 x i = ((x / 2 ^ (24 - i * 8)) mod 2 ^ 8)%N.
Proof. unfold octet32. change 0xFF%N with (N.ones 8). apply land_shiftr_ones. Qed.
Lemma septet_bits x i : septet32 x i = ((x / 2 ^ (24 - i * 8)) mod 2 ^ 7)%N.
Proof. unfold septet32. change 0x7F%N with (N.ones 7). apply land_shiftr_ones. Qed.
Lemma nibble_bits x i : nibble32 x i = ((x / 2 ^ (28 - i * 4)) mod 2 ^ 4)%N.
Proof. unfold nibble32. change 0xF%N with (N.ones 4). apply land_shiftr_ones. Qed.

Lemma oct_lt b j : (oct b j < 256)%N.
Proof. unfold oct. rewrite octet_bits. apply N.mod_lt. discriminate. Qed.

Lemma octet_lt x i : (octet32 x i < 256)%N.
Proof. rewrite octet_bits. apply N.mod_lt. discriminate. Qed.

Lemma septet_octet x i : septet32 x i = (octet32 x i mod 128)%N.
Proof.
  rewrite septet_bits, octet_bits. change 128%N with (2 ^ 7)%N.
  apply N.bits_inj. intros j. rewrite testbit_field.
  destruct (N.ltb_spec j 7); cbn [andb].
  - rewrite N.mod_pow2_bits_low by lia. rewrite testbit_field.
    replace (j <? 8)%N with true by lia. reflexivity.
  - rewrite N.mod_pow2_bits_high by lia. reflexivity.
Qed.

(** The four header nibbles in terms of the first two bytes. *)
Lemma nibble_hi x i : (i < 4)%N -> nibble32 x (2 * i) = (octet32 x i / 16)%N.
Proof.
  intros. rewrite nibble_bits, octet_bits. change 16%N with (2 ^ 4)%N.
  apply N.bits_inj. intros j. rewrite testbit_field.
  rewrite <- N.shiftr_div_pow2, N.shiftr_spec', testbit_field.
  destruct (N.ltb_spec j 4); cbn [andb].
  - replace (j + 4 <? 8)%N with true by lia. cbn [andb]. f_equal. lia.
  - replace (j + 4 <? 8)%N with false by lia. reflexivity.
Qed.

Lemma nibble_lo x i : (i < 4)%N -> nibble32 x (2 * i + 1) = (octet32 x i mod 16)%N.
Proof.
  intros. rewrite nibble_bits, octet_bits. change 16%N with (2 ^ 4)%N.
  apply N.bits_inj. intros j. rewrite testbit_field.
  destruct (N.ltb_spec j 4); cbn [andb].
  - rewrite N.mod_pow2_bits_low by lia. rewrite testbit_field.
    replace (j <? 8)%N with true by lia. cbn [andb]. f_equal. lia.
  - rewrite N.mod_pow2_bits_high by lia. reflexivity.
Qed.

Lemma nibble32_0 x : nibble32 x 0 = (octet32 x 0 / 16)%N.
Proof. apply (nibble_hi x 0). lia. Qed.
Lemma nibble32_1 x : nibble32 x 1 = (octet32 x 0 mod 16)%N.
Proof. apply (nibble_lo x 0). lia. Qed.
Lemma nibble32_2 x : nibble32 x 2 = (octet32 x 1 / 16)%N.
Proof. apply (nibble_hi x 1). lia. Qed.
Lemma nibble32_3 x : nibble32 x 3 = (octet32 x 1 mod 16)%N.
Proof. apply (nibble_lo x 1). lia. Qed.

Lemma octet_split x i : octet32 x i = (octet32 x i / 16 * 16 + octet32 x i mod 16)%N.
Proof. rewrite (N.div_mod (octet32 x i) 16) at 1 by discriminate. lia. Qed.

(** Writers, on one word. *)
Lemma octet_set_octet x i v k : (i < 4)%N -> (k < 4)%N -> (v < 256)%N ->
  octet32 (set_octet32 x i v) k = if (k =? i)%N then v else octet32 x k.
Proof.
  intros Hi Hk Hv. rewrite !octet_bits. unfold set_octet32. change 0xFF%N with (N.ones 8).
  destruct (N.eqb_spec k i) as [->|Hn].
  - apply field_replace_same. exact Hv.
  - apply field_eq. intros j Hj. rewrite testbit_replace by exact Hv.
    replace ((24 - i * 8 <=? j) && (j <? 24 - i * 8 + 8))%N with false by lia. reflexivity.
Qed.

Lemma octet_set_septet x i v k : (i < 4)%N -> (k < 4)%N -> (v < 128)%N ->
  octet32 (set_septet32 x i v) k
  = if (k =? i)%N then (octet32 x k / 128 * 128 + v)%N else octet32 x k.
Proof.
  intros Hi Hk Hv. unfold set_septet32. change 0x7F%N with (N.ones 7).
  destruct (N.eqb_spec k i) as [->|Hn].
  - assert (E : (octet32 (replace_bits x (N.ones 7) (24 - i * 8) v) i mod 128 = v)%N).
    { rewrite <- septet_octet, septet_bits. apply field_replace_same. exact Hv. }
    assert (D : (octet32 (replace_bits x (N.ones 7) (24 - i * 8) v) i / 128
                 = octet32 x i / 128)%N).
    { rewrite !octet_bits. change 128%N with (2 ^ 7)%N.
      apply N.bits_inj. intros j. rewrite <- !N.shiftr_div_pow2 with (n := 7%N).
      rewrite !N.shiftr_spec', !testbit_field.
      destruct (N.ltb_spec (j + 7) 8); cbn [andb]; auto.
      rewrite testbit_replace by exact Hv.
      replace ((24 - i * 8 <=? 24 - i * 8 + (j + 7)) && (24 - i * 8 + (j + 7) <? 24 - i * 8 + 7))%N
        with false by lia. reflexivity. }
    rewrite (N.div_mod (octet32 _ i) 128) by discriminate. rewrite E, D. lia.
  - rewrite !octet_bits. apply field_eq. intros j Hj. rewrite testbit_replace by exact Hv.
    replace ((24 - i * 8 <=? j) && (j <? 24 - i * 8 + 7))%N with false by lia. reflexivity.
Qed.

Lemma nibble_set_nibble x i v k : (i < 8)%N -> (k < 8)%N -> (v < 16)%N ->
  nibble32 (set_nibble32 x i v) k = if (k =? i)%N then v else nibble32 x k.
Proof.
  intros Hi Hk Hv. rewrite !nibble_bits. unfold set_nibble32. change 0xF%N with (N.ones 4).
  destruct (N.eqb_spec k i) as [->|Hn].
  - apply field_replace_same. exact Hv.
  - apply field_eq. intros j Hj. rewrite testbit_replace by exact Hv.
    replace ((28 - i * 4 <=? j) && (j <? 28 - i * 4 + 4))%N with false by lia. reflexivity.
Qed.

Lemma octet_nibbles x i : (i < 4)%N ->
  octet32 x i = (nibble32 x (2 * i) * 16 + nibble32 x (2 * i + 1))%N.
Proof. intros. rewrite nibble_hi, nibble_lo by auto. apply octet_split. Qed.

(** Writing a nibble changes one half of one byte. *)
Lemma octet_set_nibble x i v k : (i < 8)%N -> (k < 4)%N -> (v < 16)%N ->
  octet32 (set_nibble32 x i v) k
  = ((if (i =? 2 * k)%N then v else octet32 x k / 16) * 16
     + (if (i =? 2 * k + 1)%N then v else octet32 x k mod 16))%N.
Proof.
  intros. rewrite octet_nibbles by auto. rewrite !nibble_set_nibble by lia.
  rewrite <- nibble_hi, <- nibble_lo by auto.
  rewrite (N.eqb_sym i (2 * k)), (N.eqb_sym i (2 * k + 1)). reflexivity.
Qed.

(** ** Buffers *)

Lemma div4_pos w o : o < 4 -> (4 * w + o) / 4 = w.
Proof. intros. rewrite Nat.mul_comm, Nat.div_add_l by lia. rewrite Nat.div_small by lia. lia. Qed.
Lemma mod4_pos w o : o < 4 -> (4 * w + o) mod 4 = o.
Proof.
  intros. rewrite Nat.mul_comm, Nat.add_comm, Nat.mod_add by lia. apply Nat.mod_small. lia.
Qed.

Lemma oct_word b w o : o < 4 -> oct b (4 * w + o) = octet32 (nth w b 0%N) (N.of_nat o).
Proof. intros. unfold oct. now rewrite div4_pos, mod4_pos. Qed.

(** Replacing word [w] changes only its four bytes. *)
Lemma oct_set_nth b w x j : w < List.length b ->
  oct (set_nth b w x) j
  = if j / 4 =? w then octet32 x (N.of_nat (j mod 4)) else oct b j.
Proof.
  intros. unfold oct. rewrite nth_set_nth by auto. destruct (j / 4 =? w); reflexivity.
Qed.

Lemma oct_beyond b j : 4 * List.length b <= j -> oct b j = 0%N.
Proof.
  intros. unfold oct. rewrite nth_overflow; [rewrite octet_bits, N.div_0_l by (apply N.pow_nonzero; discriminate); reflexivity|].
  pose proof (Nat.div_mod j 4). pose proof (Nat.mod_upper_bound j 4). lia.
Qed.

Lemma get_octet_ok b w o : w < List.length b -> o < 4 ->
  get_octet b w o = Val (oct b (4 * w + o)).
Proof. intros. unfold get_octet. rewrite idx_nth by auto. cbn [bind]. now rewrite oct_word. Qed.

Lemma put_octet_ok b w o v : w < List.length b -> o < 4 -> (v < 256)%N ->
  exists b', put_octet b w o v = Val b' /\ List.length b' = List.length b /\
    forall j, oct b' j = if j =? 4 * w + o then v else oct b j.
Proof.
  intros Hw Ho Hv. unfold put_octet. rewrite upd_nth by auto.
  eexists. split; [reflexivity|]. split; [apply set_nth_length|].
  intros j. rewrite oct_set_nth by auto.
  pose proof (Nat.mod_upper_bound j 4 ltac:(lia)) as Hm.
  pose proof (Nat.div_mod j 4 ltac:(lia)) as Hd.
  destruct (Nat.eqb_spec (j / 4) w) as [E|E].
  - rewrite octet_set_octet by lia. unfold oct. rewrite E.
    destruct (Nat.eqb_spec j (4 * w + o)), (N.eqb_spec (N.of_nat (j mod 4)) (N.of_nat o));
      try reflexivity; lia.
  - destruct (Nat.eqb_spec j (4 * w + o)); [|reflexivity].
    exfalso. apply E. subst j. now apply div4_pos.
Qed.

(** A payload unit: seven low bits, or the whole byte. *)
Definition keep (f : fmt) (x : N) : N := if f_seven f then (x mod 128)%N else x.
Definition unit_ok (f : fmt) (v : N) : Prop := if f_seven f then (v < 128)%N else (v < 256)%N.

Lemma get_unit_ok f b w o : w < List.length b -> o < 4 ->
  get_unit f b w o = Val (keep f (oct b (4 * w + o))).
Proof.
  intros. unfold get_unit, keep. rewrite idx_nth by auto. cbn [bind].
  rewrite oct_word by auto. destruct (f_seven f); [now rewrite septet_octet|reflexivity].
Qed.

Lemma put_unit_ok f b w o v : w < List.length b -> o < 4 -> unit_ok f v ->
  exists b' x, put_unit f b w o v = Val b' /\ List.length b' = List.length b /\
    keep f x = v /\ (x < 256)%N /\
    (f_seven f = true -> (x / 128 = oct b (4 * w + o) / 128)%N) /\
    forall j, oct b' j = if j =? 4 * w + o then x else oct b j.
Proof.
  intros Hw Ho Hv. unfold put_unit, keep, unit_ok in *. rewrite upd_nth by auto.
  destruct (f_seven f).
  - exists (set_nth b w (set_septet32 (nth w b 0%N) (N.of_nat o) v)),
      (oct b (4 * w + o) / 128 * 128 + v)%N.
    split; [reflexivity|]. split; [apply set_nth_length|].
    split; [now rewrite N.add_comm, N.mod_add, N.mod_small by lia|].
    pose proof (oct_lt b (4 * w + o)) as Hlt.
    assert (oct b (4 * w + o) / 128 < 2)%N by (apply N.div_lt_upper_bound; lia).
    split; [lia|].
    split; [intros _; rewrite N.div_add_l by lia; rewrite (N.div_small v) by lia; lia|].
    intros j. rewrite oct_set_nth by auto.
    pose proof (Nat.mod_upper_bound j 4 ltac:(lia)) as Hm.
    pose proof (Nat.div_mod j 4 ltac:(lia)) as Hd.
    destruct (Nat.eqb_spec (j / 4) w) as [E|E].
    + rewrite octet_set_septet by lia.
      destruct (Nat.eqb_spec j (4 * w + o)) as [Ej|Ej],
        (N.eqb_spec (N.of_nat (j mod 4)) (N.of_nat o)); try lia.
      * rewrite <- Ej. unfold oct. rewrite E. reflexivity.
      * unfold oct. now rewrite E.
    + destruct (Nat.eqb_spec j (4 * w + o)); [|reflexivity].
      exfalso. apply E. subst j. now apply div4_pos.
  - exists (set_nth b w (set_octet32 (nth w b 0%N) (N.of_nat o) v)), v.
    split; [reflexivity|]. split; [apply set_nth_length|].
    split; [reflexivity|]. split; [exact Hv|]. split; [discriminate|].
    intros j.
    destruct (put_octet_ok b w o v Hw Ho Hv) as (b' & E & _ & H).
    unfold put_octet in E. rewrite upd_nth in E by auto.
    assert (b' = set_nth b w (set_octet32 (nth w b 0%N) (N.of_nat o) v)) by congruence.
    subst b'. apply H.
Qed.

(** Byte view of growing and shrinking. *)
Lemma vec_resize_length b n : List.length (Message.vec_resize b n) = n.
Proof. unfold Message.vec_resize. rewrite app_length, firstn_length, repeat_length. lia. Qed.

Lemma nth_repeat0 w n : nth w (repeat 0%N n) 0%N = 0%N.
Proof. revert w; induction n; destruct w; cbn; auto. Qed.

Lemma vec_resize_nth b n w :
  nth w (Message.vec_resize b n) 0%N = if w <? n then nth w b 0%N else 0%N.
Proof.
  unfold Message.vec_resize.
  destruct (Nat.ltb_spec w n) as [H|H].
  - destruct (Nat.lt_ge_cases w (List.length b)) as [Hb|Hb].
    + rewrite app_nth1 by (rewrite firstn_length; lia).
      now rewrite nth_firstn_lt.
    + rewrite app_nth2 by (rewrite firstn_length; lia).
      rewrite nth_repeat0. rewrite nth_overflow by lia. reflexivity.
  - rewrite nth_overflow; [reflexivity|].
    rewrite app_length, firstn_length, repeat_length. lia.
Qed.

Lemma oct_vec_resize b n j :
  oct (Message.vec_resize b n) j = if j <? 4 * n then oct b j else 0%N.
Proof.
  unfold oct. rewrite vec_resize_nth.
  pose proof (Nat.mod_upper_bound j 4 ltac:(lia)). pose proof (Nat.div_mod j 4 ltac:(lia)).
  destruct (Nat.ltb_spec (j / 4) n), (Nat.ltb_spec j (4 * n)); try lia; try reflexivity.
  rewrite octet_bits, N.div_0_l by (apply N.pow_nonzero; discriminate). reflexivity.
Qed.
