(** Lemmas: states of flex data text messages, their parsing and their [data]. *)
From Coq Require Import NArith ZArith List String Bool Arith Lia Zify ZifyBool ZifyNat ZifyN.
From Verif Require Import Base BitOps BitLemmas ListLemmas Values Helpers Props Message SpecLayout SpecFixed
  PropLemmas PropValidate Sysex ByteView SysexLayout SysexBridge
  Text SpecSysex SpecText TextLemmas TextHeader TextFlex.
Import ListNotations.
Local Open Scope nat_scope.

(** ** Sizes and [data] *)

(** The position of the last packet, given the format of every packet. *)
Lemma dyn_size_ok c b k : 1 <= k -> 4 * k <= List.length b ->
  (forall w, w < k -> crumb32 (nth (4 * w) b 0%N) c = status_code k w) ->
  dyn_size c b = Val (4 * k).
Proof.
  intros Hk Hb Hc. unfold dyn_size. rewrite chunks_exact_spec by lia.
  assert (k <= List.length b / 4) by (apply Nat.div_le_lower_bound; lia).
  rewrite (position_map_seq _ _ (k - 1)); [f_equal; lia|lia| |].
  - intros i Hi. cbn [Nat.add]. rewrite hd0_chunk by lia. rewrite Hc by lia. unfold status_code.
    replace (k =? 1) with false by lia. replace (S i =? k) with false by lia. now destruct (i =? 0).
  - cbn [Nat.add]. rewrite hd0_chunk by lia. rewrite Hc by lia. unfold status_code.
    destruct (Nat.eqb_spec k 1); [reflexivity|]. replace (k - 1 =? 0) with false by lia.
    replace (S (k - 1) =? k) with true by lia. reflexivity.
Qed.

Lemma laid_head f hdr t k b w o : okt f -> laid f hdr t k b -> w < k -> o < 4 -> o < tf_head f ->
  octet32 (nth (4 * w) b 0%N) (N.of_nat o) = nth o (hdr w) 0%N.
Proof.
  intros H [L O] Hw Ho Hh. rewrite <- oct_head by auto. rewrite O by lia.
  now replace (o <? tf_head f) with true by lia.
Qed.

Lemma laid_firstn f hdr t k b : laid f hdr t k b -> laid f hdr t k (firstn (4 * k) b).
Proof.
  intros [L O]. split; [rewrite firstn_length; lia|]. intros w o Hw Ho. rewrite <- O by auto.
  unfold oct. rewrite nth_firstn.
  replace ((16 * w + o) / 4 <? 4 * k) with true; [reflexivity|]. symmetry. apply Nat.ltb_lt.
  apply Nat.div_lt_upper_bound; lia.
Qed.

Lemma blank_exact f k b : List.length b = 4 * k -> blank_after f k b.
Proof.
  intros L w o Hw Ho. exfalso. rewrite L in Hw. rewrite Nat.mul_comm, Nat.div_mul in Hw by lia. lia.
Qed.

(** ** States *)

Record fholds (bank st g : N) (ch : nat -> option N) (t : list N) (b : list N) : Prop := {
  fh_bank : (bank < 256)%N;
  fh_st : (st < 256)%N;
  fh_g : (g < 16)%N;
  fh_ch : forall p c, ch p = Some c -> (c < 16)%N;
  fh_t : is_bytes t;
  fh_laid : laid flex_form (flex_header bank st g ch (text_packets 12 (List.length t))) t
              (text_packets 12 (List.length t)) b;
  fh_blank : blank_after flex_form (text_packets 12 (List.length t)) b
}.

Lemma channel_code_lt o : (forall c, o = Some c -> c < 16)%N -> (channel_code o < 64)%N.
Proof. destruct o as [c|]; cbn; intros H; [specialize (H c eq_refl)|]; lia. Qed.
Lemma channel_code_lt32 o : (forall c, o = Some c -> c < 16)%N -> (channel_code o < 32)%N.
Proof. destruct o as [c|]; cbn; intros H; [specialize (H c eq_refl)|]; lia. Qed.

Section State.
Context {bank st g : N} {ch : nat -> option N} {t b : list N}.
Hypothesis S0 : fholds bank st g ch t b.
Let k := text_packets 12 (List.length t).

Lemma fh_room : 1 <= k /\ List.length t <= 12 * k /\ 4 * k <= List.length b /\ k <= List.length b / 4.
Proof.
  destruct (text_packets_room 12 (List.length t) ltac:(lia)) as (A & B & _). fold k in A, B.
  destruct S0 as [_ _ _ _ _ [L _] _]. fold k in L.
  assert (k <= List.length b / 4) by (apply Nat.div_le_lower_bound; lia). lia.
Qed.

Lemma fh_octet w o : w < k -> o < 4 ->
  octet32 (nth (4 * w) b 0%N) (N.of_nat o) = nth o (flex_header bank st g ch k w) 0%N.
Proof. intros Hw Ho. apply (laid_head flex_form _ t k); auto; [apply okt_flex|apply S0]. Qed.

Lemma fh_oct0 w : w < k -> octet32 (nth (4 * w) b 0%N) 0 = (0xD * 16 + g)%N.
Proof. intros Hw. exact (fh_octet w 0 Hw ltac:(lia)). Qed.
Lemma fh_oct1 w : w < k -> octet32 (nth (4 * w) b 0%N) 1 = (status_code k w * 64 + channel_code (ch w))%N.
Proof. intros Hw. exact (fh_octet w 1 Hw ltac:(lia)). Qed.
Lemma fh_oct2 w : w < k -> octet32 (nth (4 * w) b 0%N) 2 = bank.
Proof. intros Hw. exact (fh_octet w 2 Hw ltac:(lia)). Qed.
Lemma fh_oct3 w : w < k -> octet32 (nth (4 * w) b 0%N) 3 = st.
Proof. intros Hw. exact (fh_octet w 3 Hw ltac:(lia)). Qed.

Lemma fh_type w : w < k -> nibble32 (nth (4 * w) b 0%N) 0 = 0xD%N.
Proof. intros Hw. rewrite nibble32_0, fh_oct0 by auto. pose proof (fh_g _ _ _ _ _ _ S0). lia_div. Qed.
Lemma fh_groups w : w < k -> nibble32 (nth (4 * w) b 0%N) 1 = g.
Proof. intros Hw. rewrite nibble32_1, fh_oct0 by auto. pose proof (fh_g _ _ _ _ _ _ S0). lia_div. Qed.
Lemma fh_format w : w < k -> crumb32 (nth (4 * w) b 0%N) 4 = status_code k w.
Proof.
  intros Hw. rewrite crumb4_octet, fh_oct1 by auto.
  pose proof (channel_code_lt (ch w) (fh_ch _ _ _ _ _ _ S0 w)). lia_div.
Qed.

Lemma fholds_group : flex_group b = Val g.
Proof.
  pose proof fh_room. rewrite flex_group_ok by lia. f_equal. unfold grp. rewrite oct0 by lia.
  change (N.of_nat 0) with 0%N. change 0 with (4 * 0) at 1. rewrite fh_oct0 by lia.
  pose proof (fh_g _ _ _ _ _ _ S0). lia_div.
Qed.

Lemma fholds_channel : flex_channel b = Val (ch 0).
Proof.
  pose proof fh_room. rewrite flex_channel_ok by lia. f_equal. unfold chan. rewrite oct0 by lia.
  change (N.of_nat 1) with 1%N. change 0 with (4 * 0) at 1 2. rewrite fh_oct1 by lia.
  pose proof (fh_ch _ _ _ _ _ _ S0 0) as Hc. destruct (ch 0) as [c|]; cbn [channel_code].
  - specialize (Hc c eq_refl). replace (_ =? 0)%N with true by lia_div. f_equal. lia_div.
  - replace (_ =? 0)%N with false by lia_div. reflexivity.
Qed.

Lemma fholds_size : dyn_size 4 b = Val (4 * k).
Proof. pose proof fh_room. apply dyn_size_ok; try lia. apply fh_format. Qed.

Lemma fholds_data : flex_data b = Val (firstn (4 * k) b) /\
  all_bytes (firstn (4 * k) b) = flex_wire bank st g ch t.
Proof.
  pose proof fh_room. split.
  - unfold flex_data. rewrite fholds_size. cbn [bind]. unfold prefix.
    now replace (4 * k <=? List.length b) with true by lia.
  - unfold flex_wire. fold k. change 12 with (tf_cap flex_form) at 1. apply laid_wire.
    + apply okt_flex.
    + reflexivity.
    + apply S0.
Qed.

Lemma fholds_trim : fholds bank st g ch t (firstn (4 * k) b).
Proof.
  destruct S0 as [A1 A2 A3 A4 A5 A6 A7]. split; auto.
  - now apply laid_firstn.
  - apply blank_exact. rewrite firstn_length. pose proof fh_room. fold k. lia.
Qed.

Lemma fholds_bytes :
  flex_text_bytes b = Val (without_nul (firstn (12 * (List.length b / 4) - 1) t)).
Proof.
  pose proof fh_room. unfold flex_text_bytes.
  apply (laid_read flex_form (flex_header bank st g ch k) t k); try apply S0; try lia.
  - apply okt_flex.
  - change (tf_cap flex_form) with 12. lia.
Qed.
End State.

(** ** Validation *)

Lemma consistent_groups_ok b g : (forall i, i < List.length b / 4 ->
   nibble32 (nth (4 * i) b 0%N) 1 = g) -> 4 <= List.length b ->
  consistent_groups b 4 0xD = Ok tt.
Proof.
  intros H Hb. unfold consistent_groups. apply check_ok. apply forallb_forall. intros c Hc.
  rewrite take_while_span in Hc. rewrite chunks_exact_spec in Hc by lia.
  assert (In c (map (fun i => chunk 4 i b) (seq 0 (List.length b / 4)))).
  { rewrite <- (firstn_skipn (span (fun c => (nibble32 (hd0 c) 0 =? 13)%N) (map (fun i => chunk 4 i b) (seq 0 (List.length b / 4))))).
    apply in_or_app. now left. }
  apply in_map_iff in H0. destruct H0 as (i & <- & Hi). apply in_seq in Hi. rewrite hd0_chunk by lia.
  assert (1 <= List.length b / 4) by (apply Nat.div_le_lower_bound; lia).
  rewrite H by lia. change (hd0 b) with (nth (4 * 0) b 0%N). rewrite H by lia. apply N.eqb_refl.
Qed.

Lemma framed_codes (f : nat -> N) k : 1 <= k -> (forall w, w < k -> f w = status_code k w) ->
  SpecFixed.framed f 0 1 2 3 k.
Proof.
  intros Hk H. unfold SpecFixed.framed. destruct (Nat.eq_dec k 1) as [->|Hn].
  - left. split; auto. rewrite H by lia. reflexivity.
  - right. split; [lia|]. split; [|split].
    + rewrite H by lia. unfold status_code. replace (k =? 1) with false by lia. reflexivity.
    + intros i Hi. rewrite H by lia. unfold status_code. replace (k =? 1) with false by lia.
      replace (i =? 0) with false by lia. replace (S i =? k) with false by lia. reflexivity.
    + rewrite H by lia. unfold status_code. replace (k =? 1) with false by lia.
      replace (k - 1 =? 0) with false by lia. replace (S (k - 1) =? k) with true by lia. reflexivity.
Qed.

Lemma fholds_parse K g ch t b : fholds (fk_bank K) (fk_status K) g ch t b ->
  List.length b = 4 * text_packets 12 (List.length t) ->
  flex_try_from K b
  = Val (if utf8_ok (without_nul (firstn (12 * (List.length b / 4) - 1) t)) then Ok b
         else Err "Payload bytes do not represent a valid utf string"%string).
Proof.
  intros S0 L. pose proof (fh_room S0) as R. set (k := text_packets 12 (List.length t)) in *.
  assert (Lk : List.length b / 4 = k) by (rewrite L, Nat.mul_comm, Nat.div_mul; lia).
  unfold flex_try_from. replace (List.length b <? 4) with false by lia.
  cbn [prop_validate]. rewrite idx_nth by lia. cbn [bind].
  change (nth 0 b 0%N) with (nth (4 * 0) b 0%N) at 1. rewrite (fh_type S0) by (fold k; lia).
  change (check (13 =? 13)%N "Incorrect ump message type") with (Ok tt). cbn [try_bind].
  rewrite (consistent_groups_ok b g); [|rewrite Lk; intros i Hi; now apply (fh_groups S0)|lia]. cbn [try_bind].
  replace (forallb (fun c => (octet32 (hd0 c) 2 =? fk_bank K)%N) (chunks_exact 4 b)) with true.
  2:{ symmetry. apply (heads_forallb (fun x => octet32 x 2 =? fk_bank K)%N). intros i Hi.
      rewrite Lk in Hi. rewrite (fh_oct2 S0) by auto. apply N.eqb_refl. }
  cbn [check try_bind].
  replace (forallb (fun c => (octet32 (hd0 c) 3 =? fk_status K)%N) (chunks_exact 4 b)) with true.
  2:{ symmetry. apply (heads_forallb (fun x => octet32 x 3 =? fk_status K)%N). intros i Hi.
      rewrite Lk in Hi. rewrite (fh_oct3 S0) by auto. apply N.eqb_refl. }
  cbn [check try_bind].
  assert (F : flex_formats_validate b = Ok tt).
  { apply (validate_statuses_spec b (fun x => crumb32 x 4) 0 1 2 3 4 0xD k); [lia| |].
    - split; [|split].
      + rewrite L. apply Nat.div_le_lower_bound; lia.
      + intros i Hi. change (Seg (4 * i) 28 4) with (Seg (4 * i) (28 - 0 * 4) 4). rewrite <- nibble32_bits by lia. now apply (fh_type S0).
      + intros Hlt. exfalso. apply Nat.lt_nge in Hlt. apply Hlt. rewrite L.
        apply Nat.lt_succ_r. apply Nat.div_lt_upper_bound; lia.
    - apply framed_codes; [lia|]. intros w Hw. now apply (fh_format S0). }
  rewrite F. cbn [try_bind]. unfold text_string_validate.
  pose proof (fholds_bytes S0) as T. unfold flex_text_bytes in T. rewrite T. cbn [bind].
  unfold check. destruct (utf8_ok _); reflexivity.
Qed.

(** ** Operations *)

Lemma nth_vec_resize_head b n : 0 < n -> 1 <= List.length b -> forall o, o < 4 -> oct (vec_resize b n) o = oct b o.
Proof. intros Hn Hb o Ho. rewrite oct_vec_resize. now replace (o <? 4 * n) with true by lia. Qed.

Lemma flex_set_text_put b t :
  flex_set_text b t = flex_put (vec_resize b (text_words flex_form (List.length t))) t.
Proof. reflexivity. Qed.

Lemma flex_try_set_text_put b t : flex_try_set_text b t =
  if List.length b <? 4 * text_packets 12 (List.length t) then Val (b, false)
  else b' <- flex_put b t ;; Val (b', true).
Proof.
  unfold flex_try_set_text, flex_put, fixed_try_resize.
  rewrite (text_words_packets flex_form) by apply okt_flex. change (tf_cap flex_form) with 12.
  destruct (_ <? _); cbn [negb]; [reflexivity|].
  destruct (clear_words b) as [b1|]; cbn [bind]; [|reflexivity].
  destruct (grow_buffer b1 _) as [b2|]; cbn [bind]; reflexivity.
Qed.

Lemma put_fholds b t : is_bytes t -> 4 * text_packets 12 (List.length t) <= List.length b ->
  exists b', flex_put b t = Val b' /\ List.length b' = List.length b
    /\ fholds (oct b 2) (oct b 3) (grp b) (fun _ => chan b) t b'.
Proof.
  intros Ht Hb. destruct (flex_put_ok b t Ht Hb) as (b' & E & L & La & B & _).
  exists b'. split; [exact E|]. split; [exact L|]. split; auto.
  - apply oct_lt.
  - apply oct_lt.
  - unfold grp. apply N.mod_lt. discriminate.
  - intros _ c. apply chan_lt.
Qed.

Lemma set_text_fholds b t : is_bytes t -> 1 <= List.length b ->
  exists b', flex_set_text b t = Val b'
    /\ List.length b' = 4 * text_packets 12 (List.length t)
    /\ fholds (oct b 2) (oct b 3) (grp b) (fun _ => chan b) t b'.
Proof.
  intros Ht Hb. rewrite flex_set_text_put.
  rewrite (text_words_packets flex_form) by apply okt_flex. change (tf_cap flex_form) with 12.
  set (k := text_packets 12 (List.length t)).
  assert (1 <= k) by (apply text_packets_room; lia).
  destruct (put_fholds (vec_resize b (4 * k)) t Ht) as (b' & E & L & F).
  { rewrite vec_resize_length. fold k. lia. }
  rewrite vec_resize_length in L. exists b'. split; [exact E|]. split; [exact L|].
  rewrite !nth_vec_resize_head in F by lia.
  replace (grp (vec_resize b (4 * k))) with (grp b) in F by (unfold grp; now rewrite nth_vec_resize_head by lia).
  replace (chan (vec_resize b (4 * k))) with (chan b) in F by (unfold chan; now rewrite nth_vec_resize_head by lia).
  exact F.
Qed.

(** In a state, the first packet has the message's group, channel, bank and status. *)
Lemma fholds_first bank st g ch t b : fholds bank st g ch t b ->
  oct b 2 = bank /\ oct b 3 = st /\ grp b = g /\ chan b = ch 0.
Proof.
  intros S0. pose proof (fh_room S0) as R. rewrite !oct0 by lia.
  pose proof (fh_oct2 S0 0 ltac:(lia)) as E2. pose proof (fh_oct3 S0 0 ltac:(lia)) as E3.
  rewrite Nat.mul_0_r in E2, E3. split; [exact E2|]. split; [exact E3|].
  pose proof (fholds_group S0) as Eg. rewrite flex_group_ok in Eg by lia.
  pose proof (fholds_channel S0) as Ec. rewrite flex_channel_ok in Ec by lia. split; congruence.
Qed.

(** *** [set_group] *)

Lemma flex_packets_spec b : let n := flex_packets b in
  n <= List.length b / 4 /\ (forall i, i < n -> nibble32 (nth (4 * i) b 0%N) 0 = 0xD%N)
  /\ (n < List.length b / 4 -> nibble32 (nth (4 * n) b 0%N) 0 <> 0xD%N).
Proof.
  cbn zeta. unfold flex_packets. rewrite chunks_exact_spec by lia. rewrite take_while_map, map_length.
  destruct (take_while_seq (fun i => (nibble32 (hd0 (chunk 4 i b)) 0 =? 13)%N) 0 (List.length b / 4))
    as (n & H1 & -> & H2 & H3).
  rewrite seq_length. split; [exact H1|]. split.
  - intros i Hi. specialize (H2 i Hi). cbn [Nat.add] in H2. rewrite hd0_chunk in H2 by lia. now apply N.eqb_eq.
  - intros Hn. specialize (H3 Hn). cbn [Nat.add] in H3. rewrite hd0_chunk in H3 by lia. now apply N.eqb_neq.
Qed.

Lemma flex_set_group_ok b v : (v < 16)%N ->
  exists b', flex_set_group b v = Val b' /\ List.length b' = List.length b
    /\ forall w o, o < 16 -> oct b' (16 * w + o)
       = if (o =? 0) && (w <? flex_packets b) then (oct b (16 * w) / 16 * 16 + v)%N else oct b (16 * w + o).
Proof.
  intros Hv. unfold flex_set_group. destruct (flex_packets_spec b) as (N1 & _ & _).
  set (n := flex_packets b) in *.
  pose proof (Nat.div_mod (List.length b) 4 ltac:(lia)).
  destruct (for_heads_oct (fun _ x => set_nibble32 x 1 v) n b ltac:(lia)) as (b' & E & L & _ & O).
  exists b'. split; [exact E|]. split; [exact L|]. intros w o Ho. rewrite O by auto.
  destruct (Nat.ltb_spec w n); cbn [andb]; [|now rewrite andb_false_r].
  rewrite andb_true_r. destruct (Nat.ltb_spec o 4).
  - rewrite octet_set_nibble by lia. rewrite (oct_head b w o) by auto.
    destruct (Nat.eqb_spec o 0) as [->|Hn].
    + change (N.of_nat 0) with 0%N. cbn [N.mul N.add N.eqb Pos.eqb].
      replace (16 * w) with (16 * w + 0) by lia. rewrite (oct_head b w 0) by lia. reflexivity.
    + replace (1 =? 2 * N.of_nat o)%N with false by lia. replace (1 =? 2 * N.of_nat o + 1)%N with false by lia.
      rewrite <- octet_split. reflexivity.
  - replace (o =? 0) with false by lia. reflexivity.
Qed.

Lemma set_group_fholds bank st g ch t b v : fholds bank st g ch t b -> (v < 16)%N ->
  exists b', flex_set_group b v = Val b' /\ List.length b' = List.length b
    /\ fholds bank st v ch t b'
    /\ forall j, oct b' j <> oct b j -> j mod 16 = 0.
Proof.
  intros S0 Hv. pose proof (fh_room S0) as R. destruct (flex_set_group_ok b v Hv) as (b' & E & L & O).
  exists b'. split; [exact E|]. split; [exact L|]. split.
  2:{ intros j Hj. pose proof (Nat.div_mod j 16 ltac:(lia)). pose proof (Nat.mod_upper_bound j 16 ltac:(lia)).
      destruct (Nat.eq_dec (j mod 16) 0) as [|Hn]; auto. exfalso. apply Hj.
      rewrite H. rewrite O by auto. replace (j mod 16 =? 0) with false by lia. reflexivity. }
  set (k := text_packets 12 (List.length t)) in *.
  assert (K : k <= flex_packets b).
  { destruct (flex_packets_spec b) as (N1 & _ & N3). apply Nat.nlt_ge. intros Hlt.
    apply N3; [lia|]. apply (fh_type S0). exact Hlt. }
  destruct S0 as [A1 A2 A3 A4 A5 [A6 A7] A8]. split; auto; fold k in A6, A7, A8; fold k.
  - split; [lia|]. intros w o Hw Ho. rewrite O by auto. change (tf_head flex_form) with 4 in *.
    destruct (Nat.eqb_spec o 0) as [->|Hn]; cbn [andb].
    + replace (w <? flex_packets b) with true by lia. cbn [Nat.ltb Nat.leb nth flex_header].
      pose proof (A7 w 0 Hw ltac:(lia)) as Q. rewrite Nat.add_0_r in Q. rewrite Q. cbn [Nat.ltb Nat.leb nth flex_header].
      lia_div.
    + rewrite A7 by auto. destruct (Nat.ltb_spec o 4); [|reflexivity].
      destruct o as [|[|[|[|o]]]]; try reflexivity; lia.
  - intros w o Hw Ho. rewrite O by lia. change (tf_head flex_form) with 4 in Ho.
    replace (o =? 0) with false by lia. cbn [andb]. apply A8; [rewrite <- L; exact Hw|exact Ho].
Qed.

(** *** [set_optional_channel] *)

Lemma flex_set_channel_ok b o : (forall c, o = Some c -> c < 16)%N -> 1 <= List.length b ->
  exists b', flex_set_channel b o = Val b' /\ List.length b' = List.length b
    /\ forall j, oct b' j = if j =? 1 then (oct b 1 / 64 * 64 + channel_code o)%N else oct b j.
Proof.
  intros Ho Hb. unfold flex_set_channel. cbn [prop_write].
  assert (E : match o with
    | Some c => b1 <- upd b 0 (fun x => set_crumb32 x 5 0) ;; upd b1 0 (fun x => set_nibble32 x 3 c)
    | None => b1 <- upd b 0 (fun x => set_crumb32 x 5 1) ;; upd b1 0 (fun x => set_nibble32 x 3 0)
    end = Val (set_nth b 0 (channel_word (nth 0 b 0%N) o))).
  { destruct b as [|x b]; [cbn in Hb; lia|]. destruct o; reflexivity. }
  eexists. split; [exact E|]. split; [apply set_nth_length|]. intros j.
  rewrite oct_set_nth by lia. pose proof (Nat.div_mod j 4 ltac:(lia)). pose proof (Nat.mod_upper_bound j 4 ltac:(lia)).
  destruct (Nat.eqb_spec (j / 4) 0) as [Z|Z].
  - rewrite octet_channel_word by (auto; lia).
    assert (Ej : j mod 4 = j) by lia. rewrite Ej.
    destruct (Nat.eqb_spec j 1) as [->|Hn].
    + rewrite oct0 by lia. reflexivity.
    + replace (N.of_nat j =? 1)%N with false by lia. rewrite <- oct0 by lia. reflexivity.
  - replace (j =? 1) with false by lia. reflexivity.
Qed.

Lemma set_channel_fholds bank st g ch t b o : fholds bank st g ch t b -> (forall c, o = Some c -> c < 16)%N ->
  exists b', flex_set_channel b o = Val b' /\ List.length b' = List.length b
    /\ fholds bank st g (fun p => if p =? 0 then o else ch p) t b'.
Proof.
  intros S0 Hc. pose proof (fh_room S0) as R. destruct (flex_set_channel_ok b o Hc ltac:(lia)) as (b' & E & L & O).
  exists b'. split; [exact E|]. split; [exact L|].
  set (k := text_packets 12 (List.length t)) in *.
  destruct S0 as [A1 A2 A3 A4 A5 [A6 A7] A8]. split; auto; fold k in A6, A7, A8; fold k.
  - intros p c. destruct (p =? 0); [apply Hc|apply A4].
  - split; [lia|]. intros w i Hw Hi. rewrite O. change (tf_head flex_form) with 4 in *.
    destruct (Nat.eqb_spec (16 * w + i) 1) as [Ej|Hn].
    + assert (w = 0) by lia. assert (i = 1) by lia. subst w i. cbn [Nat.ltb Nat.leb nth flex_header Nat.eqb].
      pose proof (A7 0 1 Hw ltac:(lia)) as Q. cbn [Nat.mul Nat.add Nat.ltb Nat.leb nth flex_header] in Q. rewrite Q.
      pose proof (channel_code_lt (ch 0) (A4 0)). lia_div.
    + rewrite A7 by auto. destruct (Nat.ltb_spec i 4); [|reflexivity].
      destruct i as [|[|[|[|i]]]]; try reflexivity.
      cbn [nth flex_header]. now replace (w =? 0) with false by lia.
  - intros w i Hw Hi. rewrite O by lia. change (tf_head flex_form) with 4 in Hi.
    replace (16 * w + i =? 1) with false by lia. apply A8; [rewrite <- L; exact Hw|exact Hi].
Qed.
