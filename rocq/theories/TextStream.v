(** Lemmas: the UMP stream text setter and the states of stream text messages. *)
From Coq Require Import NArith ZArith List String Bool Arith Lia Zify ZifyBool ZifyNat ZifyN.
From Verif Require Import Base BitOps BitLemmas ListLemmas Values Helpers Props Message SpecLayout SpecFixed
  PropLemmas PropValidate Sysex ByteView SysexLayout SysexBridge
  Text SpecSysex SpecText TextLemmas TextHeader TextFlex TextFlexMore TextFlexInit.
Import ListNotations.
Local Open Scope nat_scope.

Definition blocks (off : nat) (blk : nat -> N) : option (nat -> N) := if off =? 1 then Some blk else None.
Definition st_of (b : list N) : N := (oct b 0 mod 4 * 256 + oct b 1)%N.

Lemma st_of_lt b : (st_of b < 1024)%N.
Proof. unfold st_of. pose proof (oct_lt b 1). lia_div. Qed.

Lemma stream_format_code i k : i < k -> stream_format i k = status_code k i.
Proof.
  intros H. unfold stream_format, status_code.
  destruct (Nat.eqb_spec k 1); destruct (Nat.eqb_spec i 0); destruct (Nat.eqb_spec (S i) k); try lia;
    repeat match goal with |- context [?a =? ?b] => destruct (Nat.eqb_spec a b); try lia | |- context [?a <? ?b] => destruct (Nat.ltb_spec a b); try lia end; reflexivity.
Qed.

(** Effect on the whole buffer of the code of [clear_payload]. *)
Lemma stream_clear_ok off b : off <= 1 ->
  exists b', stream_clear off b = Val b' /\ List.length b' = List.length b
    /\ forall w o, o < 16 -> oct b' (16 * w + o)
       = if (w <? List.length b / 4) && (2 + off <=? o) then 0%N else oct b (16 * w + o).
Proof.
  intros Ho. unfold stream_clear. replace (2 <=? off) with false by lia.
  pose proof (Nat.div_mod (List.length b) 4 ltac:(lia)).
  match goal with |- context [for_heads 4 _ ?g b] => set (gg := g) end.
  destruct (for_heads_oct gg (List.length b / 4) b ltac:(lia)) as (b1 & -> & L1 & _ & O1). cbn [bind].
  destruct (clear_words_ok b1) as (b2 & -> & L2 & O2). exists b2. split; [reflexivity|]. split; [lia|].
  intros w o Hw. rewrite O2, O1 by auto. rewrite L1.
  destruct (Nat.ltb_spec w (List.length b / 4)); cbn [andb]; [|reflexivity].
  destruct (Nat.leb_spec 4 o); [now replace (2 + off <=? o) with true by lia|].
  replace (o <? 4) with true by lia. unfold gg. rewrite octet_set_octet by lia.
  rewrite (oct_head b w o) by lia.
  destruct (Nat.eqb_spec o 3) as [->|].
  - cbn [N.of_nat N.eqb Pos.eqb Pos.of_succ_nat Pos.succ]. now replace (2 + off <=? 3) with true by lia.
  - replace (N.of_nat o =? 3)%N with false by lia. destruct (Nat.ltb_spec off 1).
    + rewrite octet_set_octet by lia. destruct (Nat.eqb_spec o 2) as [->|].
      * cbn [N.of_nat N.eqb Pos.eqb Pos.of_succ_nat Pos.succ]. now replace (2 + off <=? 2) with true by lia.
      * replace (N.of_nat o =? 2)%N with false by lia. now replace (2 + off <=? o) with false by lia.
    + now replace (2 + off <=? o) with false by lia.
Qed.

Lemma stream_headers_ok b k : 1 <= k -> 4 * k <= List.length b ->
  exists b', stream_headers b (4 * k) = Val b' /\ List.length b' = List.length b
    /\ forall w o, o < 16 -> oct b' (16 * w + o)
       = if 4 <=? o then oct b (16 * w + o)
         else if w <? k then
           (if o =? 0 then (0xF * 16 + oct b (16 * w) mod 16 / 4 * 4 + st_of b / 256)%N
            else if o =? 1 then (st_of b mod 256)%N else oct b (16 * w + o))
         else if w <? List.length b / 4 then 0%N else oct b (16 * w + o).
Proof.
  intros Hk Hb. unfold stream_headers. rewrite idx_nth by lia. cbn [bind].
  replace (List.length b <? 4 * k) with false by lia.
  replace (4 * k / 4) with k by (rewrite Nat.mul_comm, Nat.div_mul; lia).
  match goal with |- context [for_heads 4 k ?g _] => set (gg := g) end.
  destruct (for_heads_oct gg k (firstn (4 * k) b)) as (b1 & -> & L1 & _ & O1).
  { rewrite firstn_length. lia. }
  cbn [bind].
  set (m := (List.length b - 4 * k) / 4).
  assert (M : List.length b / 4 = k + m).
  { unfold m. replace (List.length b) with ((List.length b - 4 * k) + k * 4) at 1 by lia.
    rewrite Nat.div_add by lia. lia. }
  pose proof (Nat.div_mod (List.length b - 4 * k) 4 ltac:(lia)) as Dm. fold m in Dm.
  match goal with |- context [for_heads 4 m ?g _] => set (hh := g) end.
  destruct (for_heads_oct hh m (skipn (4 * k) b)) as (b2 & -> & L2 & _ & O2).
  { rewrite skipn_length. lia. }
  cbn [bind]. rewrite firstn_length, Nat.min_l in L1 by lia. rewrite skipn_length in L2.
  exists (b1 ++ b2). split; [reflexivity|]. split; [rewrite app_length; lia|].
  intros w o Ho.
  assert (A1 : w < k -> oct (b1 ++ b2) (16 * w + o) = oct b1 (16 * w + o)).
  { intros Hw. unfold oct. rewrite app_nth1; [reflexivity|]. rewrite L1. apply Nat.div_lt_upper_bound; lia. }
  assert (A2 : k <= w -> oct (b1 ++ b2) (16 * w + o) = oct b2 (16 * (w - k) + o)).
  { intros Hw. unfold oct.
    assert (E : 16 * w + o = 16 * (w - k) + o + (4 * k) * 4) by lia.
    rewrite E. rewrite Nat.div_add, Nat.mod_add by lia. rewrite app_nth2 by lia. f_equal. f_equal. lia. }
  assert (B1 : w < k -> oct (firstn (4 * k) b) (16 * w + o) = oct b (16 * w + o)).
  { intros Hw. unfold oct. rewrite nth_firstn.
    replace ((16 * w + o) / 4 <? 4 * k) with true; [reflexivity|]. symmetry. apply Nat.ltb_lt.
    apply Nat.div_lt_upper_bound; lia. }
  assert (B2 : k <= w -> oct (skipn (4 * k) b) (16 * (w - k) + o) = oct b (16 * w + o)).
  { intros Hw. unfold oct. rewrite nth_skipn.
    assert (E : 16 * w + o = 16 * (w - k) + o + (4 * k) * 4) by lia.
    rewrite E. rewrite Nat.div_add, Nat.mod_add by lia. f_equal. f_equal. lia. }
  destruct (Nat.ltb_spec w k) as [Hw|Hw].
  - rewrite A1, O1 by auto. replace (w <? k) with true by lia. cbn [andb].
    destruct (Nat.leb_spec 4 o).
    + replace (o <? 4) with false by lia. now apply B1.
    + replace (o <? 4) with true by lia. unfold gg.
      assert (St : stream_status (nth 0 b 0%N) = st_of b).
      { rewrite stream_status_octet. unfold st_of. rewrite !oct0 by lia. reflexivity. }
      rewrite St. pose proof (st_of_lt b).
      rewrite octet_set_status by lia.
      assert (N4 : nth (4 * w) (firstn (4 * k) b) 0%N = nth (4 * w) b 0%N).
      { rewrite nth_firstn. now replace (4 * w <? 4 * k) with true by lia. }
      rewrite N4.
      destruct (Nat.eqb_spec o 0) as [->|].
      * change (N.of_nat 0) with 0%N. cbn [N.eqb].
        pose proof (octet_set_type (nth (4 * w) b 0%N) 0xF 0 ltac:(lia) ltac:(lia)) as Q.
        change (N.of_nat 0) with 0%N in Q. cbn [Nat.eqb] in Q. rewrite Q.
        replace (16 * w) with (16 * w + 0) by lia. rewrite (oct_head b w 0) by lia. change (N.of_nat 0) with 0%N.
        generalize (octet32 (nth (4 * w) b 0%N) 0). intros y. lia_div.
      * replace (N.of_nat o =? 0)%N with false by lia. destruct (Nat.eqb_spec o 1) as [->|].
        -- reflexivity.
        -- replace (N.of_nat o =? 1)%N with false by lia. rewrite octet_set_type by lia.
           replace (o =? 0) with false by lia. now rewrite oct_head.
  - rewrite A2, O2 by auto. rewrite M. replace (w <? k + m) with (w - k <? m) by (destruct (Nat.ltb_spec (w - k) m), (Nat.ltb_spec w (k + m)); lia).
    destruct (Nat.leb_spec 4 o).
    + replace (o <? 4) with false by lia. rewrite andb_false_r. now apply B2.
    + replace (o <? 4) with true by lia. rewrite andb_true_r. destruct (w - k <? m); [|now apply B2].
      unfold hh. rewrite octet_bits, N.div_0_l by (apply N.pow_nonzero; discriminate). reflexivity.
Qed.

(** [set_format_fields] when exactly the first [k] packets are stream packets. *)
Lemma set_formats_ok b k : 1 <= k -> 4 * k <= List.length b ->
  (forall w, w < k -> (oct b (16 * w) / 16 = 15)%N) ->
  (k < List.length b / 4 -> (oct b (16 * k) / 16 <> 15)%N) ->
  exists b', set_format_fields b = Val b' /\ List.length b' = List.length b
    /\ forall w o, o < 16 -> oct b' (16 * w + o)
       = if (w <? k) && (o =? 0) then (0xF * 16 + status_code k w * 4 + oct b (16 * w) mod 4)%N
         else oct b (16 * w + o).
Proof.
  intros Hk Hb H1 H2. unfold set_format_fields.
  assert (C : stream_packet_count b = k).
  { unfold stream_packet_count. rewrite chunks_exact_spec by lia. rewrite take_while_map, map_length.
    assert (Ty : forall i, i < List.length b / 4 -> nibble32 (hd0 (chunk 4 i b)) 0 = (oct b (16 * i) / 16)%N).
    { intros i Hi. rewrite hd0_chunk by lia. rewrite nibble32_0. replace (16 * i) with (16 * i + 0) by lia.
      now rewrite oct_head by lia. }
    assert (k <= List.length b / 4) by (apply Nat.div_le_lower_bound; lia).
    destruct (take_while_seq (fun i => (nibble32 (hd0 (chunk 4 i b)) 0 =? 15)%N) 0 (List.length b / 4))
      as (n & A & -> & B & D).
    rewrite seq_length. cbn [Nat.add] in *.
    destruct (Nat.lt_trichotomy n k) as [L|[E|G]]; auto; exfalso.
    - specialize (D ltac:(lia)). rewrite Ty in D by lia. rewrite H1 in D by lia. discriminate.
    - specialize (B k G). cbn beta in B. rewrite Ty in B by lia. apply H2; [lia|]. now apply N.eqb_eq in B. }
  rewrite C. replace (k =? 0) with false by lia.
  match goal with |- context [for_heads 4 k ?g _] => set (gg := g) end.
  destruct (for_heads_oct gg k b ltac:(lia)) as (b' & E & L & _ & O).
  exists b'. split; [exact E|]. split; [exact L|]. intros w o Ho. rewrite O by auto.
  destruct (Nat.ltb_spec w k); cbn [andb]; [|reflexivity].
  destruct (Nat.ltb_spec o 4); [|now replace (o =? 0) with false by lia].
  unfold gg. rewrite stream_format_code by auto. rewrite octet_set_crumb2 by (try apply status_code_lt; lia).
  destruct (Nat.eqb_spec o 0) as [->|].
  - change (N.of_nat 0) with 0%N. cbn [N.eqb]. specialize (H1 w H).
    replace (16 * w) with (16 * w + 0) in * by lia. rewrite oct_head in * by lia. change (N.of_nat 0) with 0%N in *.
    rewrite H1. reflexivity.
  - replace (N.of_nat o =? 0)%N with false by lia. now rewrite oct_head by auto.
Qed.

(** [resize] and [write] on a buffer that has its final size. *)
Definition stream_put (off : nat) (b : list N) (t : list N) : outcome (list N) :=
  b1 <- stream_clear off b ;;
  b2 <- stream_headers b1 (text_words (stream_form off) (List.length t)) ;;
  b3 <- set_format_fields b2 ;;
  text_write (stream_form off) b3 t.

Lemma stream_put_ok off b t : off <= 1 -> is_bytes t -> let k := text_packets (14 - off) (List.length t) in
  4 * k <= List.length b ->
  exists b', stream_put off b t = Val b' /\ List.length b' = List.length b
    /\ laid (stream_form off) (stream_header (st_of b) (blocks off (fun p => oct b (16 * p + 2))) k) t k b'
    /\ (forall w o, k <= w < List.length b / 4 -> o < 16 -> oct b' (16 * w + o) = 0%N).
Proof.
  intros Ho Ht k Hk. destruct (text_packets_room (14 - off) (List.length t) ltac:(lia)) as (R2 & R1 & _). fold k in R1, R2.
  assert (OK : okt (stream_form off)) by (apply okt_stream; lia).
  assert (K4 : k <= List.length b / 4) by (apply Nat.div_le_lower_bound; lia).
  unfold stream_put. destruct (stream_clear_ok off b Ho) as (b1 & -> & L1 & O1). cbn [bind].
  rewrite text_words_packets by auto. change (tf_cap (stream_form off)) with (14 - off). fold k.
  destruct (stream_headers_ok b1 k R1 ltac:(lia)) as (b2 & -> & L2 & O2). cbn [bind].
  assert (St : st_of b1 = st_of b).
  { unfold st_of. pose proof (O1 0 0 ltac:(lia)) as Q0. pose proof (O1 0 1 ltac:(lia)) as Q1.
    cbn [Nat.mul Nat.add] in Q0, Q1. rewrite Q0, Q1. cbn [Nat.leb]. now rewrite andb_false_r. }
  pose proof (st_of_lt b) as Sl.
  assert (T0 : forall w, w < k -> oct b2 (16 * w) = (0xF * 16 + oct b1 (16 * w) mod 16 / 4 * 4 + st_of b / 256)%N).
  { intros w Hw. pose proof (O2 w 0 ltac:(lia)) as Q. rewrite Nat.add_0_r in Q. rewrite Q. cbn [Nat.leb Nat.eqb].
    now replace (w <? k) with true by lia; rewrite St. }
  destruct (set_formats_ok b2 k R1 ltac:(lia)) as (b3 & -> & L3 & O3).
  { intros w Hw. rewrite T0 by auto. generalize (oct b1 (16 * w)). intros y. lia_div. }
  { intros Hw. pose proof (O2 k 0 ltac:(lia)) as Q. rewrite Nat.add_0_r in Q. rewrite Q. cbn [Nat.leb].
    replace (k <? k) with false by lia. replace (k <? List.length b1 / 4) with true; [discriminate|].
    symmetry. apply Nat.ltb_lt. now rewrite <- L2. }
  cbn [bind].
  destruct (text_write_ok (stream_form off) b3 t OK Ht) as (b4 & -> & L4 & O4).
  { change (tf_cap (stream_form off)) with (14 - off). rewrite L3, L2, L1. nia. }
  exists b4. split; [reflexivity|]. split; [lia|].
  change (tf_head (stream_form off)) with (2 + off) in *. change (tf_cap (stream_form off)) with (14 - off) in *.
  split; [split; [lia|]|].
  - change (tf_head (stream_form off)) with (2 + off). change (tf_cap (stream_form off)) with (14 - off).
    intros w o Hw Ho16. rewrite O4 by auto. rewrite O3 by auto. replace (w <? k) with true by lia. cbn [andb].
    destruct (Nat.ltb_spec o (2 + off)).
    + replace (2 + off <=? o) with false by lia. cbn [andb].
      destruct (Nat.eqb_spec o 0) as [->|].
      * rewrite T0 by auto. cbn [nth stream_header app].
        assert (st_of b / 256 < 4)%N by lia_div. generalize (oct b1 (16 * w)). intros y. lia_div.
      * rewrite O2 by auto. replace (4 <=? o) with false by lia. replace (w <? k) with true by lia.
        replace (o =? 0) with false by lia. destruct (Nat.eqb_spec o 1) as [->|].
        -- rewrite St. reflexivity.
        -- assert (o = 2) by lia. subst o. assert (off = 1) by lia. subst off.
           rewrite O1 by lia. cbn [Nat.leb Nat.add]. rewrite andb_false_r. reflexivity.
    + replace (2 + off <=? o) with true by lia. replace (o =? 0) with false by lia. cbn [andb].
      destruct (Nat.ltb_spec ((14 - off) * w + (o - (2 + off))) (List.length t)); [reflexivity|].
      rewrite nth_overflow by lia. rewrite O2, O1 by auto.
      replace (2 + off <=? o) with true by lia. replace (w <? List.length b / 4) with true by lia. cbn [andb].
      replace (o =? 0) with false by lia. replace (o =? 1) with false by lia.
      destruct (4 <=? o), (w <? k); try reflexivity. destruct (_ <? _); reflexivity.
  - intros w o Hw Ho16. rewrite O4 by auto.
    assert (F : ((14 - off) * w + (o - (2 + off)) <? List.length t) = false) by (apply Nat.ltb_ge; nia).
    rewrite F, andb_false_r, O3 by auto. replace (w <? k) with false by lia. cbn [andb].
    rewrite O2 by auto. replace (w <? k) with false by lia. rewrite L1. replace (w <? List.length b / 4) with true by lia.
    destruct (Nat.leb_spec 4 o); [|reflexivity]. rewrite O1 by auto.
    replace (w <? List.length b / 4) with true by lia. now replace (2 + off <=? o) with true by lia.
Qed.
