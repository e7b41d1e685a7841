(** Lemmas: the headers of text packets, byte by byte. *)
From Coq Require Import NArith ZArith List String Bool Arith Lia Zify ZifyBool ZifyNat ZifyN.
From Verif Require Import Base BitOps BitLemmas ListLemmas Values Helpers Props Message Sysex ByteView
  Text SpecSysex SpecText TextLemmas.
Import ListNotations.
Local Open Scope nat_scope.

(** ** One word *)

Lemma replace_arith x n s v : (v < 2 ^ n ->
  replace_bits x (N.ones n) s v = x / 2 ^ (s + n) * 2 ^ (s + n) + v * 2 ^ s + x mod 2 ^ s)%N.
Proof.
  intros Hv. set (y := replace_bits x (N.ones n) s v).
  assert (A : (y / 2 ^ (s + n) = x / 2 ^ (s + n))%N).
  { apply N.bits_inj. intros j. rewrite !N.div_pow2_bits. unfold y. rewrite testbit_replace by auto.
    destruct (N.leb_spec s (j + (s + n))), (N.ltb_spec (j + (s + n)) (s + n)); try lia; reflexivity. }
  assert (B : ((y / 2 ^ s) mod 2 ^ n = v)%N) by now apply field_replace_same.
  assert (C : (y mod 2 ^ s = x mod 2 ^ s)%N).
  { apply N.bits_inj. intros j. destruct (N.lt_ge_cases j s) as [L|G].
    - rewrite !N.mod_pow2_bits_low by auto. unfold y. rewrite testbit_replace by auto.
      replace (s <=? j)%N with false by lia. reflexivity.
    - now rewrite !N.mod_pow2_bits_high by auto. }
  assert (P1 : (2 ^ s <> 0)%N) by (apply N.pow_nonzero; discriminate).
  assert (P2 : (2 ^ n <> 0)%N) by (apply N.pow_nonzero; discriminate).
  rewrite (N.div_mod y (2 ^ s)) by auto. rewrite C.
  rewrite (N.div_mod (y / 2 ^ s) (2 ^ n)) by auto. rewrite B.
  rewrite N.div_div by auto. rewrite <- N.pow_add_r, A.
  rewrite (N.pow_add_r 2 s n). ring.
Qed.

Lemma octet0 x : octet32 x 0 = (x / 0x1000000 mod 256)%N.
Proof. exact (octet_bits x 0). Qed.
Lemma octet1 x : octet32 x 1 = (x / 0x10000 mod 256)%N.
Proof. exact (octet_bits x 1). Qed.
Lemma octet2 x : octet32 x 2 = (x / 0x100 mod 256)%N.
Proof. exact (octet_bits x 2). Qed.
Lemma octet3 x : octet32 x 3 = (x mod 256)%N.
Proof. rewrite (octet_bits x 3). change (2 ^ (24 - 3 * 8))%N with 1%N. now rewrite N.div_1_r. Qed.

Ltac lia_div := zify; Z.to_euclidean_division_equations; lia.
Ltac each_octet k := assert (k = 0 \/ k = 1 \/ k = 2 \/ k = 3)%N as [->|[->|[->| ->]]] by lia;
  cbn [N.eqb Pos.eqb]; rewrite ?octet0, ?octet1, ?octet2, ?octet3.

Lemma crumb2_arith x v : (v < 4)%N ->
  set_crumb32 x 2 v = (x / 0x10000000 * 0x10000000 + v * 0x4000000 + x mod 0x4000000)%N.
Proof. exact (replace_arith x 2 26 v). Qed.
Lemma crumb4_arith x v : (v < 4)%N ->
  set_crumb32 x 4 v = (x / 0x1000000 * 0x1000000 + v * 0x400000 + x mod 0x400000)%N.
Proof. exact (replace_arith x 2 22 v). Qed.
Lemma crumb5_arith x v : (v < 4)%N ->
  set_crumb32 x 5 v = (x / 0x400000 * 0x400000 + v * 0x100000 + x mod 0x100000)%N.
Proof. exact (replace_arith x 2 20 v). Qed.
Lemma status_arith x s : (s < 1024)%N ->
  N.lor (N.ldiff x 0x03FF0000) (N.shiftl s 16) = (x / 0x4000000 * 0x4000000 + s * 0x10000 + x mod 0x10000)%N.
Proof. exact (replace_arith x 10 16 s). Qed.

Lemma octet_set_crumb2 x v k : (v < 4)%N -> (k < 4)%N ->
  octet32 (set_crumb32 x 2 v) k
  = (if k =? 0 then octet32 x 0 / 16 * 16 + v * 4 + octet32 x 0 mod 4 else octet32 x k)%N.
Proof. intros Hv Hk. rewrite crumb2_arith by auto. each_octet k; lia_div. Qed.

Lemma octet_set_crumb4 x v k : (v < 4)%N -> (k < 4)%N ->
  octet32 (set_crumb32 x 4 v) k
  = (if k =? 1 then v * 64 + octet32 x 1 mod 64 else octet32 x k)%N.
Proof. intros Hv Hk. rewrite crumb4_arith by auto. each_octet k; lia_div. Qed.

Lemma octet_set_crumb5 x v k : (v < 4)%N -> (k < 4)%N ->
  octet32 (set_crumb32 x 5 v) k
  = (if k =? 1 then octet32 x 1 / 64 * 64 + v * 16 + octet32 x 1 mod 16 else octet32 x k)%N.
Proof. intros Hv Hk. rewrite crumb5_arith by auto. each_octet k; lia_div. Qed.

Lemma octet_set_status x s k : (s < 1024)%N -> (k < 4)%N ->
  octet32 (N.lor (N.ldiff x 0x03FF0000) (N.shiftl s 16)) k
  = (if k =? 0 then octet32 x 0 / 4 * 4 + s / 256 else if k =? 1 then s mod 256 else octet32 x k)%N.
Proof. intros Hv Hk. rewrite status_arith by auto. each_octet k; lia_div. Qed.

Lemma crumb32_arith x i n : (i <= 15)%N -> n = (2 ^ (30 - i * 2))%N -> crumb32 x i = (x / n mod 4)%N.
Proof. intros Hi ->. unfold crumb32. change 3%N with (N.ones 2). apply land_shiftr_ones. Qed.
Lemma crumb2_octet x : crumb32 x 2 = (octet32 x 0 / 4 mod 4)%N.
Proof. rewrite (crumb32_arith x 2 0x4000000) by (reflexivity || lia). rewrite octet0. lia_div. Qed.
Lemma crumb4_octet x : crumb32 x 4 = (octet32 x 1 / 64)%N.
Proof. rewrite (crumb32_arith x 4 0x400000) by (reflexivity || lia). rewrite octet1. lia_div. Qed.
Lemma crumb5_octet x : crumb32 x 5 = (octet32 x 1 / 16 mod 4)%N.
Proof. rewrite (crumb32_arith x 5 0x100000) by (reflexivity || lia). rewrite octet1. lia_div. Qed.
Lemma stream_status_octet x : stream_status x = (octet32 x 0 mod 4 * 256 + octet32 x 1)%N.
Proof.
  assert (E : stream_status x = ((x / 0x10000) mod 1024)%N).
  { unfold stream_status. change 0x03FF0000%N with (N.shiftl (N.ones 10) 16).
    rewrite N.shiftr_land, N.shiftr_shiftl_l by lia. rewrite N.sub_diag, N.shiftl_0_r.
    apply (land_shiftr_ones x 16 10). }
  rewrite E, octet0, octet1. lia_div.
Qed.

Lemma octet_channel_word x o k : (forall c, o = Some c -> c < 16)%N -> (k < 4)%N ->
  octet32 (channel_word x o) k
  = (if k =? 1 then octet32 x 1 / 64 * 64 + channel_code o else octet32 x k)%N.
Proof.
  intros Ho Hk. unfold channel_word, channel_code. pose proof (octet_lt x 1).
  destruct o as [c|]; [specialize (Ho c eq_refl)|];
    rewrite octet_set_nibble, !octet_set_crumb5 by lia;
    assert (k = 0 \/ k = 1 \/ k = 2 \/ k = 3)%N as [->|[->|[->| ->]]] by lia;
    cbn [N.eqb Pos.eqb N.mul Pos.mul N.add Pos.add Pos.succ];
    pose proof (octet_split x 0); pose proof (octet_split x 2); pose proof (octet_split x 3); try lia;
    set (y := octet32 x 1) in *; clearbody y; lia_div.
Qed.

(** ** Loops over packets *)

Lemma for_heads_oct f k b : 4 * k <= List.length b ->
  exists b', for_heads 4 k f b = Val b' /\ List.length b' = List.length b
    /\ (forall w, nth w b' 0%N = if (w mod 4 =? 0) && (w / 4 <? k) then f (w / 4) (nth w b 0%N) else nth w b 0%N)
    /\ forall w o, o < 16 -> oct b' (16 * w + o)
       = if (w <? k) && (o <? 4) then octet32 (f w (nth (4 * w) b 0%N)) (N.of_nat o)
         else oct b (16 * w + o).
Proof.
  intros Hk. unfold for_heads.
  assert (X : forall n a c, a + n <= k -> List.length c = List.length b ->
    exists b', fold_left (fun acc i => b' <- acc ;; upd b' (4 * i) (f i)) (seq a n) (Val c) = Val b'
      /\ List.length b' = List.length b
      /\ forall w, nth w b' 0%N = if (w mod 4 =? 0) && (a <=? w / 4) && (w / 4 <? a + n)
                                  then f (w / 4) (nth w c 0%N) else nth w c 0%N).
  { induction n as [|n IH]; intros a c Ha Lc.
    - exists c. split; [reflexivity|]. split; [exact Lc|]. intros w.
      destruct (w mod 4 =? 0); cbn [andb]; [|reflexivity].
      destruct (Nat.leb_spec a (w / 4)); cbn [andb]; [|reflexivity].
      replace (w / 4 <? a + 0) with false by lia. reflexivity.
    - cbn [seq fold_left]. cbn [bind]. rewrite upd_nth by lia.
      destruct (IH (S a) (set_nth c (4 * a) (f a (nth (4 * a) c 0%N)))) as (b' & E & L & O);
        [lia|rewrite set_nth_length; lia|].
      exists b'. split; [exact E|]. split; [exact L|]. intros w. rewrite O.
      rewrite !nth_set_nth by lia.
      pose proof (Nat.div_mod w 4 ltac:(lia)). pose proof (Nat.mod_upper_bound w 4 ltac:(lia)).
      destruct (Nat.eqb_spec (w mod 4) 0) as [M|M]; cbn [andb].
      + destruct (Nat.eqb_spec w (4 * a)) as [E4|E4].
        * assert (w / 4 = a) by lia. replace (S a <=? w / 4) with false by lia. cbn [andb].
          replace (a <=? w / 4) with true by lia. replace (w / 4 <? a + S n) with true by lia. cbn [andb].
          rewrite H1, <- E4. reflexivity.
        * replace (S a <=? w / 4) with (a <=? w / 4) by lia.
          replace (S a + n) with (a + S n) by lia. reflexivity.
      + replace (w =? 4 * a) with false by lia. reflexivity. }
  destruct (X k 0 b ltac:(lia) eq_refl) as (b' & E & L & O).
  assert (O' : forall w, nth w b' 0%N
    = if (w mod 4 =? 0) && (w / 4 <? k) then f (w / 4) (nth w b 0%N) else nth w b 0%N).
  { intros w. rewrite O. cbn [Nat.leb Nat.add]. now rewrite andb_true_r. }
  exists b'. split; [exact E|]. split; [exact L|]. split; [exact O'|].
  intros w o Ho. unfold oct at 1 2. rewrite O'.
  assert (D1 : (16 * w + o) / 4 = 4 * w + o / 4).
  { symmetry. apply Nat.div_unique with (r := o mod 4); [apply Nat.mod_upper_bound; lia|].
    pose proof (Nat.div_mod o 4 ltac:(lia)). lia. }
  assert (D2 : (16 * w + o) mod 4 = o mod 4).
  { symmetry. apply Nat.mod_unique with (q := 4 * w + o / 4); [apply Nat.mod_upper_bound; lia|].
    pose proof (Nat.div_mod o 4 ltac:(lia)). lia. }
  rewrite D1, D2.
  pose proof (Nat.div_mod o 4 ltac:(lia)). pose proof (Nat.mod_upper_bound o 4 ltac:(lia)).
  destruct (Nat.ltb_spec o 4).
  - assert (o / 4 = 0) by lia. assert (o mod 4 = o) by lia. rewrite H2, H3, Nat.add_0_r.
    replace ((4 * w) mod 4) with 0 by (rewrite Nat.mul_comm, Nat.mod_mul; lia).
    replace (4 * w / 4) with w by (rewrite Nat.mul_comm, Nat.div_mul; lia).
    cbn [Nat.eqb andb]. rewrite andb_true_r. destruct (w <? k); reflexivity.
  - rewrite andb_false_r.
    replace ((4 * w + o / 4) mod 4 =? 0) with false; [reflexivity|].
    symmetry. apply Nat.eqb_neq. rewrite <- (Nat.mod_unique (4 * w + o / 4) 4 w (o / 4)) by lia. lia.
Qed.

Lemma clear_words_ok b :
  exists b', clear_words b = Val b' /\ List.length b' = List.length b
    /\ forall w o, o < 16 -> oct b' (16 * w + o)
       = if (w <? List.length b / 4) && (4 <=? o) then 0%N else oct b (16 * w + o).
Proof.
  unfold clear_words.
  assert (X : forall n a c, a + n <= List.length b / 4 -> List.length c = List.length b ->
    exists b', fold_left (fun acc i =>
      b0 <- acc ;; b1 <- upd b0 (4 * i + 1) (fun _ => 0%N) ;;
      b2 <- upd b1 (4 * i + 2) (fun _ => 0%N) ;; upd b2 (4 * i + 3) (fun _ => 0%N)) (seq a n) (Val c) = Val b'
      /\ List.length b' = List.length b
      /\ forall w, nth w b' 0%N = if negb (w mod 4 =? 0) && (a <=? w / 4) && (w / 4 <? a + n)
                                  then 0%N else nth w c 0%N).
  { induction n as [|n IH]; intros a c Ha Lc.
    - exists c. split; [reflexivity|]. split; [exact Lc|]. intros w.
      destruct (negb (w mod 4 =? 0)); cbn [andb]; [|reflexivity].
      destruct (Nat.leb_spec a (w / 4)); cbn [andb]; [|reflexivity].
      replace (w / 4 <? a + 0) with false by lia. reflexivity.
    - pose proof (Nat.div_mod (List.length b) 4 ltac:(lia)).
      cbn [seq fold_left]. cbn [bind]. rewrite upd_nth by lia. cbn [bind].
      rewrite upd_nth by (rewrite set_nth_length; lia). cbn [bind].
      rewrite upd_nth by (rewrite !set_nth_length; lia).
      set (c' := set_nth _ _ _).
      destruct (IH (S a) c') as (b' & E & L & O); [lia|unfold c'; rewrite !set_nth_length; lia|].
      exists b'. split; [exact E|]. split; [exact L|]. intros w. rewrite O. unfold c'.
      rewrite !nth_set_nth by (rewrite ?set_nth_length; lia).
      pose proof (Nat.div_mod w 4 ltac:(lia)). pose proof (Nat.mod_upper_bound w 4 ltac:(lia)).
      destruct (Nat.eqb_spec (w mod 4) 0) as [M|M]; cbn [andb negb].
      + replace (w =? 4 * a + 1) with false by lia. replace (w =? 4 * a + 2) with false by lia.
        replace (w =? 4 * a + 3) with false by lia. reflexivity.
      + destruct (Nat.eqb_spec (w / 4) a) as [E4|E4].
        * replace (S a <=? w / 4) with false by lia. cbn [andb].
          replace (a <=? w / 4) with true by lia. replace (w / 4 <? a + S n) with true by lia. cbn [andb].
          destruct (Nat.eqb_spec w (4 * a + 3)); [reflexivity|].
          destruct (Nat.eqb_spec w (4 * a + 2)); [reflexivity|].
          destruct (Nat.eqb_spec w (4 * a + 1)); [reflexivity|]. lia.
        * replace (w =? 4 * a + 1) with false by lia. replace (w =? 4 * a + 2) with false by lia.
          replace (w =? 4 * a + 3) with false by lia.
          replace (S a <=? w / 4) with (a <=? w / 4) by lia.
          replace (S a + n) with (a + S n) by lia. reflexivity. }
  destruct (X (List.length b / 4) 0 b ltac:(lia) eq_refl) as (b' & E & L & O).
  exists b'. split; [exact E|]. split; [exact L|].
  intros w o Ho. unfold oct at 1 2. rewrite O.
  change (0 <=? (16 * w + o) / 4) with true. rewrite andb_true_r, Nat.add_0_l.
  pose proof (Nat.div_mod o 4 ltac:(lia)). pose proof (Nat.mod_upper_bound o 4 ltac:(lia)).
  assert (D1 : (16 * w + o) / 4 = 4 * w + o / 4).
  { symmetry. apply Nat.div_unique with (r := o mod 4); lia. }
  assert (D2 : (4 * w + o / 4) mod 4 = o / 4).
  { symmetry. apply Nat.mod_unique with (q := w); lia. }
  assert (D3 : (4 * w + o / 4) / 4 = w).
  { symmetry. apply Nat.div_unique with (r := o / 4); lia. }
  rewrite D1, D2, D3.
  destruct (Nat.leb_spec 4 o).
  - replace (o / 4 =? 0) with false by lia. cbn [negb andb]. rewrite andb_true_r.
    destruct (w <? _); [|reflexivity]. rewrite octet_bits, N.div_0_l by (apply N.pow_nonzero; discriminate). reflexivity.
  - replace (o / 4 =? 0) with true by lia. cbn [negb andb]. rewrite andb_false_r. reflexivity.
Qed.

(** The first four bytes of packet [w]. *)
Lemma oct_head b w o : o < 4 -> oct b (16 * w + o) = octet32 (nth (4 * w) b 0%N) (N.of_nat o).
Proof. intros Ho. replace (16 * w + o) with (4 * (4 * w) + o) by lia. now apply oct_word. Qed.
