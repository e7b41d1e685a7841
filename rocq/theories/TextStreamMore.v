(** Lemmas: states of UMP stream text messages, their parsing and their [data]. *)
From Coq Require Import NArith ZArith List String Bool Arith Lia Zify ZifyBool ZifyNat ZifyN.
From Verif Require Import Base BitOps BitLemmas ListLemmas Values Helpers Props Message SpecLayout SpecFixed
  PropLemmas PropValidate Sysex ByteView SysexLayout SysexBridge
  Text SpecSysex SpecText TextLemmas TextHeader TextFlex TextFlexMore TextFlexInit TextStream.
Import ListNotations.
Local Open Scope nat_scope.

Record sholds (off : nat) (st : N) (blk : nat -> N) (t : list N) (b : list N) : Prop := {
  sh_off : off <= 1;
  sh_st : (st < 1024)%N;
  sh_t : is_bytes t;
  sh_laid : laid (stream_form off) (stream_header st (blocks off blk) (text_packets (14 - off) (List.length t))) t
              (text_packets (14 - off) (List.length t)) b;
  sh_blank : blank_after (stream_form off) (text_packets (14 - off) (List.length t)) b;
  sh_blk : off = 1 -> forall w, blk w = if w <? List.length b / 4 then oct b (16 * w + 2) else 0%N
}.

Section State.
Context {off : nat} {st : N} {blk : nat -> N} {t b : list N}.
Hypothesis S0 : sholds off st blk t b.
Let k := text_packets (14 - off) (List.length t).

Lemma sh_room : 1 <= k /\ List.length t <= (14 - off) * k /\ 4 * k <= List.length b /\ k <= List.length b / 4.
Proof.
  pose proof (sh_off _ _ _ _ _ S0).
  destruct (text_packets_room (14 - off) (List.length t) ltac:(lia)) as (A & B & _). fold k in A, B.
  destruct S0 as [_ _ _ [L _] _ _]. fold k in L.
  assert (k <= List.length b / 4) by (apply Nat.div_le_lower_bound; lia). lia.
Qed.

Lemma sh_octet w o : w < k -> o < 2 + off ->
  octet32 (nth (4 * w) b 0%N) (N.of_nat o) = nth o (stream_header st (blocks off blk) k w) 0%N.
Proof.
  intros Hw Ho. pose proof (sh_off _ _ _ _ _ S0).
  apply (laid_head (stream_form off) _ t k); auto; [apply okt_stream; lia|apply S0|lia].
Qed.

Lemma sh_oct0 w : w < k -> octet32 (nth (4 * w) b 0%N) 0 = (0xF * 16 + status_code k w * 4 + st / 256)%N.
Proof. intros Hw. exact (sh_octet w 0 Hw ltac:(lia)). Qed.
Lemma sh_oct1 w : w < k -> octet32 (nth (4 * w) b 0%N) 1 = (st mod 256)%N.
Proof. intros Hw. exact (sh_octet w 1 Hw ltac:(lia)). Qed.

Lemma sh_code w : w < k -> (st / 256 < 4 /\ status_code k w < 4)%N.
Proof. intros Hw. pose proof (sh_st _ _ _ _ _ S0). pose proof (status_code_lt k w). lia_div. Qed.

Lemma sh_type w : w < k -> nibble32 (nth (4 * w) b 0%N) 0 = 0xF%N.
Proof. intros Hw. rewrite nibble32_0, sh_oct0 by auto. pose proof (sh_code w Hw). lia_div. Qed.
Lemma sh_format w : w < k -> crumb32 (nth (4 * w) b 0%N) 2 = status_code k w.
Proof. intros Hw. rewrite crumb2_octet, sh_oct0 by auto. pose proof (sh_code w Hw). lia_div. Qed.
Lemma sh_status w : w < k -> stream_status (nth (4 * w) b 0%N) = st.
Proof. intros Hw. rewrite stream_status_octet, sh_oct0, sh_oct1 by auto. pose proof (sh_code w Hw). lia_div. Qed.

Lemma sholds_st : st_of b = st.
Proof.
  pose proof sh_room. rewrite <- (sh_status 0) by lia. rewrite stream_status_octet. unfold st_of.
  rewrite !oct0 by lia. reflexivity.
Qed.

Lemma sholds_data : stream_data b = Val (firstn (4 * k) b) /\
  all_bytes (firstn (4 * k) b) = stream_wire st (blocks off blk) t.
Proof.
  pose proof sh_room. pose proof (sh_off _ _ _ _ _ S0). split.
  - unfold stream_data. rewrite (dyn_size_ok 2 b k); try lia; [|apply sh_format]. cbn [bind]. unfold prefix.
    now replace (4 * k <=? List.length b) with true by lia.
  - assert (R : stream_room (blocks off blk) = 14 - off).
    { unfold stream_room, blocks. destruct off as [|[|]]; try reflexivity. lia. }
    unfold stream_wire. rewrite R. fold k. change (14 - off) with (tf_cap (stream_form off)). apply laid_wire.
    + apply okt_stream; lia.
    + intros p. unfold stream_header, blocks. cbn [tf_head stream_form]. rewrite app_length.
      destruct off as [|[|]]; try reflexivity. lia.
    + apply S0.
Qed.

Lemma sholds_bytes : ti_collect (stream_form off) (text_bytes b) = Val (without_nul t).
Proof.
  pose proof sh_room. pose proof (sh_off _ _ _ _ _ S0).
  rewrite (laid_read (stream_form off) (stream_header st (blocks off blk) k) t k); try apply S0; try lia.
  - f_equal. f_equal. apply firstn_all2. unfold reach. change (tf_cap (stream_form off)) with (14 - off).
    change (tf_early (stream_form off)) with false. cbv iota. nia.
  - apply okt_stream; lia.
  - change (tf_cap (stream_form off)) with (14 - off). lia.
Qed.

Lemma sholds_trim : sholds off st (fun p => if p <? k then blk p else 0%N) t (firstn (4 * k) b).
Proof.
  pose proof sh_room. destruct S0 as [A1 A2 A3 A4 A5 A6]. split; auto; fold k.
  - fold k in A4. apply laid_firstn in A4. destruct A4 as [L O]. split; [exact L|].
    intros w o Hw Ho. rewrite O by auto. change (tf_head (stream_form off)) with (2 + off).
    unfold stream_header, blocks. destruct (off =? 1); [|reflexivity].
    destruct o as [|[|[|o]]]; try reflexivity. cbn [nth app]. now replace (w <? k) with true by lia.
  - apply blank_exact. rewrite firstn_length. lia.
  - intros E w. rewrite firstn_length, Nat.min_l by lia. rewrite (Nat.mul_comm 4 k), Nat.div_mul by lia.
    destruct (Nat.ltb_spec w k); [|reflexivity]. rewrite (A6 E w). replace (w <? List.length b / 4) with true by lia.
    unfold oct. rewrite nth_firstn.
    replace ((16 * w + 2) / 4) with (4 * w) in * by (apply Nat.div_unique with 2; lia).
    now replace (4 * w <? k * 4) with true by lia.
Qed.

Lemma sholds_block : off = 1 -> block_read b = Val (blk 0).
Proof.
  intros E. pose proof sh_room. unfold block_read. rewrite get_octet_ok by lia. f_equal.
  rewrite (sh_blk _ _ _ _ _ S0 E 0). now replace (0 <? List.length b / 4) with true by lia.
Qed.
End State.

(** ** Parsing *)

Lemma sholds_parse K blk t b : sholds (sk_off K) (sk_status K) blk t b ->
  List.length b = 4 * text_packets (14 - sk_off K) (List.length t) ->
  stream_try_from K b = Val
    (if (sk_off K =? 1) && negb (forallb (fun p => (blk p =? blk 0%nat)%N) (seq 0 (text_packets (14 - sk_off K) (List.length t))))
     then Err "Inconsistent function block fields"%string
     else if utf8_ok (without_nul t) then Ok b
     else Err "Payload bytes do not represent a valid utf string"%string).
Proof.
  intros S0 L. pose proof (sh_room S0) as R. set (k := text_packets (14 - sk_off K) (List.length t)) in *.
  assert (Lk : List.length b / 4 = k) by (rewrite L, Nat.mul_comm, Nat.div_mul; lia).
  unfold stream_try_from. replace (List.length b <? 4) with false by lia.
  cbn [prop_validate]. rewrite idx_nth by lia. cbn [bind].
  change (nth 0 b 0%N) with (nth (4 * 0) b 0%N) at 1. rewrite (sh_type S0) by (fold k; lia).
  change (check (15 =? 15)%N "Incorrect ump message type") with (Ok tt). cbn [try_bind].
  match goal with |- context [check (forallb ?f (chunks_exact 4 b)) _] =>
    replace (forallb f (chunks_exact 4 b)) with true end.
  2:{ symmetry. apply (heads_forallb (fun x => stream_status x =? sk_status K)%N). intros i Hi.
      rewrite Lk in Hi. rewrite (sh_status S0) by auto. apply N.eqb_refl. }
  cbn [check try_bind].
  assert (F : stream_formats_validate b = Ok tt).
  { apply (validate_statuses_spec b (fun x => crumb32 x 2) 0 1 2 3 4 0xF k); [lia| |].
    - split; [|split].
      + rewrite L. apply Nat.div_le_lower_bound; lia.
      + intros i Hi. change (Seg (4 * i) 28 4) with (Seg (4 * i) (28 - 0 * 4) 4). rewrite <- nibble32_bits by lia. now apply (sh_type S0).
      + intros Hlt. exfalso. apply Nat.lt_nge in Hlt. apply Hlt. rewrite L.
        apply Nat.lt_succ_r. apply Nat.div_lt_upper_bound; lia.
    - apply framed_codes; [lia|]. intros w Hw. now apply (sh_format S0). }
  rewrite F. cbn [try_bind].
  assert (U : text_string_validate (stream_form (sk_off K)) b
     = Val (check (utf8_ok (without_nul t)) "Payload bytes do not represent a valid utf string")).
  { unfold text_string_validate. rewrite (sholds_bytes S0). reflexivity. }
  rewrite U. destruct (Nat.eqb_spec (sk_off K) 1) as [E|E]; cbn [andb].
  - unfold block_validate. rewrite get_octet_ok by lia. cbn [bind].
    assert (B : forall w, w < k -> octet32 (nth (4 * w) b 0%N) 2 = blk w).
    { intros w Hw. rewrite (sh_blk _ _ _ _ _ S0 E w). replace (w <? List.length b / 4) with true by lia.
      rewrite oct_head by lia. reflexivity. }
    replace (oct b (4 * 0 + 2)) with (blk 0) by (rewrite <- B by lia; rewrite Nat.mul_0_r, oct0 by lia; reflexivity).
    assert (X : forallb (fun c => (octet32 (hd0 c) 2 =? blk 0%nat)%N) (chunks_exact 4 b)
                = forallb (fun p => (blk p =? blk 0%nat)%N) (seq 0 k)).
    { rewrite chunks_exact_spec by lia. rewrite Lk, forallb_map.
      assert (Q : forall n, n <= k -> forall a, a + n <= k ->
        forallb (fun i => (octet32 (hd0 (chunk 4 i b)) 2 =? blk 0%nat)%N) (seq a n) = forallb (fun p => (blk p =? blk 0%nat)%N) (seq a n)).
      { induction n as [|n IH]; intros Hn a Ha; [reflexivity|]. cbn [seq forallb].
        rewrite hd0_chunk by lia. rewrite B by lia. now rewrite IH by lia. }
      now apply Q. }
    rewrite X. clear X. destruct (forallb (fun p => (blk p =? blk 0%nat)%N) (seq 0 k)); cbn [check negb try_bind]; [|reflexivity].
    unfold check. destruct (utf8_ok _); reflexivity.
  - cbn [try_bind]. unfold check. destruct (utf8_ok _); reflexivity.
Qed.

(** ** Operations *)

Lemma stream_set_text_put off b t :
  stream_set_text off b t = stream_put off (vec_resize b (text_words (stream_form off) (List.length t))) t.
Proof. reflexivity. Qed.

Lemma stream_try_set_text_put off b t : off <= 1 -> stream_try_set_text off b t =
  if List.length b <? 4 * text_packets (14 - off) (List.length t) then Val (b, false)
  else b' <- stream_put off b t ;; Val (b', true).
Proof.
  intros Ho. unfold stream_try_set_text, stream_put, fixed_try_resize.
  rewrite (text_words_packets (stream_form off)) by (apply okt_stream; lia).
  change (tf_cap (stream_form off)) with (14 - off).
  destruct (_ <? _); cbn [negb]; [reflexivity|].
  destruct (stream_clear off b) as [b1|]; cbn [bind]; [|reflexivity].
  destruct (stream_headers b1 _) as [b2|]; cbn [bind]; [|reflexivity].
  destruct (set_format_fields b2) as [b3|]; cbn [bind]; reflexivity.
Qed.

Lemma put_sholds off b t : off <= 1 -> is_bytes t ->
  let k := text_packets (14 - off) (List.length t) in
  4 * k <= List.length b ->
  exists b', stream_put off b t = Val b' /\ List.length b' = List.length b
    /\ sholds off (st_of b) (fun p => if p <? k then oct b (16 * p + 2) else 0%N) t b'.
Proof.
  intros Ho Ht k Hb. destruct (stream_put_ok off b t Ho Ht Hb) as (b' & E & L & [La Lo] & B). fold k in La, Lo, B.
  exists b'. split; [exact E|]. split; [exact L|]. split; auto; fold k.
  - apply st_of_lt.
  - split; [exact La|]. intros w o Hw Ho16. rewrite Lo by auto.
    unfold stream_header, blocks. destruct (off =? 1); [|reflexivity].
    destruct o as [|[|[|o]]]; try reflexivity. cbn [nth app]. now replace (w <? k) with true by lia.
  - intros w o Hw Ho16. rewrite L in Hw. apply B; [exact Hw|lia].
  - intros -> w. rewrite L. assert (k <= List.length b / 4) by (apply Nat.div_le_lower_bound; lia).
    destruct (Nat.ltb_spec w k) as [Hw|Hw].
    + replace (w <? List.length b / 4) with true by lia. now rewrite Lo by lia.
    + destruct (Nat.ltb_spec w (List.length b / 4)); [|reflexivity]. symmetry. apply B; lia.
Qed.

Lemma set_name_sholds off b t : off <= 1 -> is_bytes t -> 1 <= List.length b ->
  let k := text_packets (14 - off) (List.length t) in
  exists b', stream_set_text off b t = Val b' /\ List.length b' = 4 * k
    /\ sholds off (st_of b) (fun p => if p <? k then oct b (16 * p + 2) else 0%N) t b'.
Proof.
  intros Ho Ht Hb k. rewrite stream_set_text_put.
  rewrite (text_words_packets (stream_form off)) by (apply okt_stream; lia).
  change (tf_cap (stream_form off)) with (14 - off). fold k.
  assert (1 <= k) by (apply text_packets_room; lia).
  destruct (put_sholds off (vec_resize b (4 * k)) t Ho Ht) as (b' & E & L & F).
  { rewrite vec_resize_length. fold k. lia. }
  rewrite vec_resize_length in L. fold k in F. exists b'. split; [exact E|]. split; [exact L|].
  replace (st_of (vec_resize b (4 * k))) with (st_of b) in F by (unfold st_of; now rewrite !nth_vec_resize_head by lia).
  destruct F as [A1 A2 A3 [L4 A4] A5 A6]. split; auto; fold k in L4, A4, A5; fold k.
  - split; [exact L4|]. intros w o Hw Ho16. rewrite A4 by auto.
    unfold stream_header, blocks. destruct (off =? 1); [|reflexivity].
    destruct o as [|[|[|o]]]; try reflexivity. cbn [nth app]. replace (w <? k) with true by lia.
    rewrite oct_vec_resize. now replace (16 * w + 2 <? 4 * (4 * k)) with true by lia.
  - intros E1 w. rewrite <- A6 by auto. destruct (Nat.ltb_spec w k); [|reflexivity].
    rewrite oct_vec_resize. now replace (16 * w + 2 <? 4 * (4 * k)) with true by lia.
Qed.

Lemma block_write_sholds st blk t b v : sholds 1 st blk t b -> (v < 256)%N ->
  exists b', block_write b v = Val b' /\ List.length b' = List.length b
    /\ sholds 1 st (fun p => if p <? List.length b / 4 then v else 0%N) t b'.
Proof.
  intros S0 Hv. pose proof (sh_room S0) as R. unfold block_write.
  pose proof (Nat.div_mod (List.length b) 4 ltac:(lia)) as D.
  destruct (for_heads_oct (fun _ x => set_octet32 x 2 v) (List.length b / 4) b ltac:(lia)) as (b' & -> & L & _ & O).
  exists b'. split; [reflexivity|]. split; [exact L|].
  assert (O' : forall w o, o < 16 -> oct b' (16 * w + o)
     = if (w <? List.length b / 4) && (o =? 2) then v else oct b (16 * w + o)).
  { intros w o Ho. rewrite O by auto. destruct (Nat.ltb_spec w (List.length b / 4)); cbn [andb]; [|reflexivity].
    destruct (Nat.ltb_spec o 4); [|now replace (o =? 2) with false by lia].
    rewrite octet_set_octet by lia. rewrite oct_head by auto. destruct (Nat.eqb_spec o 2) as [->|]; [reflexivity|].
    now replace (N.of_nat o =? 2)%N with false by lia. }
  set (k := text_packets (14 - 1) (List.length t)) in *.
  destruct S0 as [A1 A2 A3 [L4 A4] A5 A6]. split; auto; fold k in L4, A4, A5; fold k.
  - split; [lia|]. intros w o Hw Ho. rewrite O' by auto. change (tf_head (stream_form 1)) with 3 in *.
    replace (w <? List.length b / 4) with true by lia. cbn [andb].
    destruct (Nat.eqb_spec o 2) as [->|].
    + replace (2 <? 3) with true by lia. cbn [nth stream_header blocks Nat.eqb app]. now replace (w <? List.length b / 4) with true by lia.
    + rewrite A4 by auto. destruct (o <? 3); [|reflexivity].
      destruct o as [|[|[|o]]]; try reflexivity. lia.
  - intros w o Hw Ho. change (tf_head (stream_form 1)) with 3 in *. rewrite O' by lia.
    replace (o =? 2) with false by lia. rewrite andb_false_r. apply A5; [now rewrite <- L|exact Ho].
  - intros _ w. rewrite L, O' by lia. cbn [Nat.eqb]. rewrite andb_true_r. now destruct (w <? List.length b / 4).
Qed.

(** ** Fresh messages *)

Lemma stream_init_zero K b : 4 <= List.length b -> (sk_status K < 1024)%N -> sk_off K <= 1 ->
  (forall j, oct b j = 0%N) ->
  exists b', stream_init K b = Val b' /\ List.length b' = List.length b
    /\ sholds (sk_off K) (sk_status K) (fun _ => 0%N) [] b'.
Proof.
  intros Hb Hs Ho Z. unfold stream_init. cbn [prop_write].
  destruct (upd_word0 b (fun x => set_nibble32 x 0 0xF) ltac:(lia)) as (b1 & -> & L1 & O1 & _). cbn [bind].
  pose proof (Nat.div_mod (List.length b) 4 ltac:(lia)) as D.
  assert (P4 : 1 <= List.length b / 4) by (apply Nat.div_le_lower_bound; lia).
  rewrite L1.
  match goal with |- context [for_heads 4 _ ?g b1] => set (gg := g) end.
  destruct (for_heads_oct gg (List.length b / 4) b1 ltac:(lia)) as (b2 & -> & L2 & _ & O2). cbn [bind].
  assert (E1 : forall j, oct b1 j = if j =? 0 then 0xF0%N else 0%N).
  { intros j. rewrite O1. destruct (Nat.ltb_spec j 4).
    - rewrite octet_set_type by lia. pose proof (Z 0) as Z0. rewrite oct0 in Z0 by lia. change (N.of_nat 0) with 0%N in Z0.
      rewrite Z0. destruct (j =? 0); [reflexivity|]. rewrite <- oct0 by lia. apply Z.
    - replace (j =? 0) with false by lia. apply Z. }
  assert (E2 : forall w o, o < 16 -> oct b2 (16 * w + o) =
     if w <? List.length b / 4 then
       (if o =? 0 then ((if (w =? 0)%nat then 0xF0 else 0) + sk_status K / 256)%N
        else if o =? 1 then (sk_status K mod 256)%N else 0%N)
     else 0%N).
  { intros w o Ho16. rewrite O2 by auto. rewrite !E1.
    destruct (Nat.ltb_spec w (List.length b / 4)); cbn [andb]; [|now replace (16 * w + o =? 0) with false by lia].
    destruct (Nat.ltb_spec o 4).
    - unfold gg. rewrite octet_set_status by lia. rewrite <- oct_head by lia.
      pose proof (oct_head b1 w 0 ltac:(lia)) as Q. change (N.of_nat 0) with 0%N in Q. rewrite <- Q. rewrite !E1.
      destruct (Nat.eqb_spec o 0) as [->|].
      + cbn [N.of_nat N.eqb]. destruct (Nat.eqb_spec w 0) as [->|]; [reflexivity|].
        replace (16 * w + 0 =? 0) with false by lia. reflexivity.
      + replace (N.of_nat o =? 0)%N with false by lia. replace (16 * w + o =? 0) with false by lia.
        destruct (Nat.eqb_spec o 1) as [->|]; [reflexivity|]. now replace (N.of_nat o =? 1)%N with false by lia.
    - replace (16 * w + o =? 0) with false by lia. replace (o =? 0) with false by lia. now replace (o =? 1) with false by lia. }
  destruct (set_formats_ok b2 1 ltac:(lia) ltac:(lia)) as (b3 & -> & L3 & O3).
  { intros w Hw. replace (16 * w) with (16 * w + 0) by lia. rewrite E2 by lia. replace w with 0 by lia.
    replace (0 <? List.length b / 4) with true by lia. cbn [Nat.eqb]. lia_div. }
  { intros Hw. replace (16 * 1) with (16 * 1 + 0) by lia. rewrite E2 by lia. cbn [Nat.eqb].
    destruct (1 <? List.length b / 4); lia_div. }
  cbn [bind].
  assert (E3 : forall w o, o < 16 -> oct b3 (16 * w + o) = oct b2 (16 * w + o)).
  { intros w o Ho16. rewrite O3 by auto. destruct ((w <? 1) && (o =? 0)) eqn:X; [|reflexivity].
    apply andb_true_iff in X. assert (w = 0) by lia. assert (o = 0) by lia. subst.
    pose proof (E2 0 0 ltac:(lia)) as Q. rewrite Q. cbn [Nat.eqb Nat.mul Nat.add] in *. rewrite Q.
    replace (0 <? List.length b / 4) with true by lia. change (status_code 1 0) with 0%N. lia_div. }
  assert (B : exists b4, (if sk_off K =? 1 then block_write b3 0 else Val b3) = Val b4
     /\ List.length b4 = List.length b
     /\ forall w o, o < 16 -> oct b4 (16 * w + o) = oct b2 (16 * w + o)).
  { destruct (sk_off K =? 1).
    - unfold block_write.
      destruct (for_heads_oct (fun _ x => set_octet32 x 2 0) (List.length b3 / 4) b3) as (b' & -> & L & _ & O).
      { rewrite L3, L2, L1. lia. }
      exists b'. split; [reflexivity|]. split; [lia|]. intros w o Ho16. rewrite O by auto. rewrite <- E3 by auto.
      destruct ((w <? _) && (o <? 4)) eqn:X; [|reflexivity]. apply andb_true_iff in X.
      rewrite octet_set_octet by lia. rewrite <- oct_head by lia.
      destruct (N.eqb_spec (N.of_nat o) 2) as [E|]; [|reflexivity]. assert (o = 2) by lia. subst o.
      rewrite E3, E2 by lia. cbn [Nat.eqb]. destruct (w <? List.length b / 4); reflexivity.
    - exists b3. split; [reflexivity|]. split; [lia|]. exact E3. }
  destruct B as (b4 & -> & L4 & O4). cbn [bind text_write text_write_from].
  unfold text_write. cbn [text_write_from]. exists b4. split; [reflexivity|]. split; [exact L4|].
  assert (F : forall w o, o < 16 -> 2 <= o -> oct b4 (16 * w + o) = 0%N).
  { intros w o Ho16 H2. rewrite O4, E2 by auto. replace (o =? 0) with false by lia.
    replace (o =? 1) with false by lia. now destruct (_ <? _). }
  assert (Kp : text_packets (14 - sk_off K) (List.length (@nil N)) = 1) by reflexivity.
  split; auto; rewrite ?Kp.
  - apply Forall_nil.
  - split; [lia|]. intros w o Hw Ho16. assert (w = 0) by lia. subst w.
    change (tf_head (stream_form (sk_off K))) with (2 + sk_off K).
    destruct o as [|[|o]].
    + rewrite O4, E2 by lia. replace (0 <? List.length b / 4) with true by lia. cbn [Nat.eqb].
      cbn [nth stream_header app]. reflexivity.
    + rewrite O4, E2 by lia. replace (0 <? List.length b / 4) with true by lia. reflexivity.
    + rewrite F by lia. destruct (Nat.ltb_spec (S (S o)) (2 + sk_off K)).
      * assert (o = 0) by lia. subst o. assert (E : sk_off K = 1) by lia. rewrite E. reflexivity.
      * now destruct (tf_cap _ * 0 + _).
  - intros w o Hw Ho16. change (tf_head (stream_form (sk_off K))) with (2 + sk_off K) in Ho16. apply F; lia.
  - intros _ w. rewrite F by lia. now destruct (w <? _).
Qed.
