(** Lemmas: fresh system exclusive messages, the message part of a buffer, and
    starting over from any buffer. *)
From Coq Require Import NArith List String Bool Arith Lia ZifyBool ZifyNat ZifyN.
From Verif Require Import Base BitOps BitLemmas ListLemmas Helpers Message Sysex Splice
  ByteView SysexLayout SysexEdit SpliceLemmas SysexLaws SysexBytes SysexRead SpecSysex SysexBridge
  SysexHold SysexMore.
Import ListNotations.
Local Open Scope nat_scope.

(** ** The front of a buffer *)

Lemma byte_firstn b n j : j / 4 < n -> byte (firstn n b) j = byte b j.
Proof. intros H. unfold byte. rewrite nth_firstn. now replace (j / 4 <? n) with true by lia. Qed.

Lemma byte_ext b b' j : nth (j / 4) b 0%N = nth (j / 4) b' 0%N -> byte b j = byte b' j.
Proof. intros H. unfold byte. now rewrite H. Qed.

Lemma word_in_packet fm k p r : p < k -> r < packet_bytes fm ->
  (packet_bytes fm * p + r) / 4 < packet_words fm * k.
Proof.
  intros Hp Hr. apply Nat.div_lt_upper_bound; [lia|]. destruct fm; cbn [packet_bytes packet_words] in *; lia.
Qed.

(** Buffers that agree on the words of the first [k] packets. *)
Definition same_front (fm : form) (k : nat) (b b' : list N) : Prop :=
  forall j, j < packet_words fm * k -> nth j b' 0%N = nth j b 0%N.

Lemma front_byte fm k b b' p r : same_front fm k b b' -> p < k -> r < packet_bytes fm ->
  byte b' (packet_bytes fm * p + r) = byte b (packet_bytes fm * p + r).
Proof. intros S Hp Hr. apply byte_ext. apply S. now apply word_in_packet. Qed.

Lemma front_packet fm k b b' p : same_front fm k b b' -> p < k ->
  type_of fm b' p = type_of fm b p /\ group_of fm b' p = group_of fm b p
  /\ stream_of fm b' p = stream_of fm b p /\ status_nibble fm b' p = status_nibble fm b p
  /\ size_nibble fm b' p = size_nibble fm b p /\ units_in fm b' p = units_in fm b p
  /\ (units_in fm b p <= packet_room fm -> payload_of fm b' p = payload_of fm b p).
Proof.
  intros S Hp. assert (B : forall r, r < packet_bytes fm ->
    byte b' (packet_bytes fm * p + r) = byte b (packet_bytes fm * p + r)) by (intros; eapply front_byte; eauto).
  assert (B0 : byte b' (packet_bytes fm * p) = byte b (packet_bytes fm * p)).
  { specialize (B 0). rewrite Nat.add_0_r in B. apply B. destruct fm; cbn; lia. }
  assert (B1 : byte b' (packet_bytes fm * p + 1) = byte b (packet_bytes fm * p + 1))
    by (apply B; destruct fm; cbn; lia).
  assert (Sz : size_nibble fm b' p = size_nibble fm b p) by (unfold size_nibble; now rewrite B1).
  assert (U : units_in fm b' p = units_in fm b p) by (unfold units_in; now rewrite Sz).
  unfold type_of, group_of, stream_of, status_nibble, payload_of. rewrite B0, B1, U.
  repeat split; auto; [apply B; destruct fm; cbn; lia|].
  intros R. apply map_ext_in. intros q Hq. apply in_seq in Hq. f_equal.
  rewrite <- !Nat.add_assoc. apply B. destruct fm; cbn in *; lia.
Qed.

Lemma front_carries fm k g s l b b' : same_front fm k b b' -> packet_words fm * k <= List.length b' ->
  carries fm k g s l b -> carries fm k g s l b'.
Proof.
  intros S L C. assert (P : forall p, p < k -> _) by (intros p Hp; exact (front_packet fm k b b' p S Hp)).
  pose proof C as [A1 A2 A3 A4 A5 A6 A7 A8].
  assert (U : forall p, p < k -> units_in fm b p <= packet_room fm) by (intros; eapply units_room; eauto).
  constructor; auto; try (intros p Hp; destruct (P p Hp) as (-> & ?); auto; fail).
  - intros p Hp. destruct (P p Hp) as (_ & -> & _). auto.
  - intros p Hp. destruct (P p Hp) as (_ & _ & -> & _). auto.
  - intros p Hp. destruct (P p Hp) as (_ & _ & _ & -> & _). auto.
  - intros p Hp. destruct (P p Hp) as (_ & _ & _ & _ & -> & _). auto.
  - rewrite <- A8, !flat_map_concat_map. f_equal. apply map_ext_in. intros p Hp. apply in_seq in Hp.
    destruct (P p ltac:(lia)) as (_ & _ & _ & _ & _ & _ & E). apply E, U. lia.
Qed.

Lemma front_full fm k b b' : 1 <= k -> same_front fm k b b' -> full_packets fm k b -> full_packets fm k b'.
Proof.
  intros K S [A B]. split.
  - intros p Hp. destruct (front_packet fm k b b' p S ltac:(lia)) as (_ & _ & _ & _ & _ & -> & _). auto.
  - destruct B as [B|B]; [now left|right].
    now destruct (front_packet fm k b b' (k - 1) S ltac:(lia)) as (_ & _ & _ & _ & _ & -> & _).
Qed.

Lemma same_front_firstn fm k b : same_front fm k b (firstn (packet_words fm * k) b).
Proof. intros j Hj. rewrite nth_firstn. now replace (j <? packet_words fm * k) with true by lia. Qed.

(** [data()] is itself a message, and parses. *)
Lemma data_carries fm k g s l b : carries fm k g s l b ->
  carries fm k g s l (firstn (packet_words fm * k) b)
  /\ (full_packets fm k b -> message fm g s l (firstn (packet_words fm * k) b))
  /\ List.length (firstn (packet_words fm * k) b) = packet_words fm * k.
Proof.
  intros C. pose proof (ca_fits _ _ _ _ _ _ C) as L.
  assert (Len : List.length (firstn (packet_words fm * k) b) = packet_words fm * k)
    by (rewrite firstn_length; lia).
  assert (C' : carries fm k g s l (firstn (packet_words fm * k) b))
    by (eapply front_carries; eauto; [apply same_front_firstn|lia]).
  split; [exact C'|]. split; [|exact Len].
  intros F. exists k. split; [exact C'|]. split; [|exact Len].
  eapply front_full; eauto; [apply C|apply same_front_firstn].
Qed.

Lemma exact_accepted fm k g s l b : carries fm k g (Some s) l b -> List.length b = packet_words fm * k ->
  sx_try_from (fmt_of fm) b = Ok b.
Proof.
  intros C Len. pose proof (words_pos fm). apply accepts_spec.
  - rewrite Len, Nat.mul_comm. apply Nat.mod_mul. lia.
  - exists k, g, s, l. split; [exact C|]. rewrite Len, exact_div by auto.
    split; [lia|]. intros p Hp. now apply (ca_size _ _ _ _ _ _ C).
Qed.

Lemma message_accepted fm g s l b : message fm g (Some s) l b -> sx_try_from (fmt_of fm) b = Ok b.
Proof. intros (k & C & _ & Len). eapply exact_accepted; eauto. Qed.

(** In the 7-bit form there is no stream id. *)
Lemma seven_stream k g s s' l b : carries SevenBit k g s l b -> carries SevenBit k g s' l b.
Proof. intros []. constructor; auto. discriminate. Qed.
Lemma seven_message g s s' l b : message SevenBit g s l b -> message SevenBit g s' l b.
Proof. intros (k & C & R). exists k. split; auto. eapply seven_stream; eauto. Qed.

Lemma message_reads fm g s l b : message fm g s l b ->
  sx_data (fmt_of fm) b = Val b /\ payload_list (fmt_of fm) b = Val l
  /\ payload_size (fmt_of fm) b = Val (List.length l) /\ group b = Val g.
Proof.
  intros (k & C & F & Len). destruct (carries_reads _ _ _ _ _ _ C) as (D & P & Z).
  rewrite <- Len, firstn_all in D. repeat split; auto. eapply group_first; eauto.
Qed.

Lemma message_in_reads fm g s l b : message_in fm g s l b ->
  (exists d, sx_data (fmt_of fm) b = Val d /\ message fm g s l d /\ d = firstn (List.length d) b)
  /\ payload_list (fmt_of fm) b = Val l
  /\ payload_size (fmt_of fm) b = Val (List.length l) /\ group b = Val g.
Proof.
  intros [(k & C & F) _]. destruct (carries_reads _ _ _ _ _ _ C) as (D & P & Z).
  split; [|repeat split; auto; eapply group_first; eauto].
  destruct (data_carries _ _ _ _ _ _ C) as (_ & M & Len). eexists. split; [exact D|]. split; [auto|].
  now rewrite Len.
Qed.

(** ** Fresh messages *)

(** The header word of a fresh message. *)
Definition fresh_head (fm : form) : N := match fm with SevenBit => 0x30000000 | EightBit => 0x50010000 end.

Lemma upd_fun (b : list N) F i : i < List.length b ->
  exists b', upd b i F = Val b' /\ List.length b' = List.length b
    /\ forall j, nth j b' 0%N = if j =? i then F (nth j b 0%N) else nth j b 0%N.
Proof.
  intros H. rewrite upd_nth by auto. eexists. split; [reflexivity|]. split; [apply set_nth_length|].
  intros j. rewrite nth_set_nth by auto. destruct (Nat.eqb_spec j i) as [->|]; auto.
Qed.

Lemma heads_fun fm b F : List.length b >= packet_words fm ->
  exists b', for_heads (packet_words fm) (own_packets (fmt_of fm) b) (fun _ => F) b = Val b'
    /\ List.length b' = List.length b
    /\ (type_of fm b 0 = type_code fm -> nth 0 b' 0%N = F (nth 0 b 0%N))
    /\ (forall j, 0 < j < packet_words fm -> nth j b' 0%N = nth j b 0%N)
    /\ (type_of fm b 1 <> type_code fm -> forall j, packet_words fm <= j -> nth j b' 0%N = nth j b 0%N).
Proof.
  intros HL. pose proof (words_pos fm) as W.
  pose proof (own_le (fmt_of fm) b (okf_of fm)) as Ow. rewrite words_of in Ow.
  unfold for_heads.
  destruct (heads_fold (packet_words fm) (fun _ => F) W (own_packets (fmt_of fm) b) 0 b) as (b' & E & L & O).
  { intros i Hi. pose proof (Nat.mul_div_le (List.length b) (packet_words fm) ltac:(lia)). nia. }
  exists b'. split; [exact E|]. split; [exact L|]. split; [|split].
  - intros T. rewrite O. rewrite Nat.mod_0_l, Nat.div_0_l by lia.
    assert (1 <= own_packets (fmt_of fm) b).
    { apply own_ge; [lia|]. intros p Hp. now replace p with 0 by lia. }
    now replace ((0 =? 0) && (0 <=? 0) && (0 <? 0 + own_packets (fmt_of fm) b)) with true by lia.
  - intros j Hj. rewrite O, Nat.mod_small by lia. now replace (j =? 0) with false by lia.
  - intros T j Hj. rewrite O.
    destruct (Nat.ltb_spec (j / packet_words fm) (0 + own_packets (fmt_of fm) b)) as [X|X];
      [|now rewrite andb_false_r].
    exfalso. apply T, own_type.
    assert (1 <= j / packet_words fm) by (apply Nat.div_le_lower_bound; lia). lia.
Qed.

Lemma type_zero fm b p : byte b (packet_bytes fm * p) = 0%N -> type_of fm b p <> type_code fm.
Proof. intros E. unfold type_of. rewrite E. now destruct fm. Qed.

Lemma byte_zero_word b j : nth (j / 4) b 0%N = 0%N -> byte b j = 0%N.
Proof. intros E. unfold byte. rewrite E. rewrite N.div_0_l, N.mod_0_l; [reflexivity|discriminate|]. apply N.pow_nonzero. discriminate. Qed.

Lemma type_word fm b p : type_of fm b p = nibble32 (nth (packet_words fm * p) b 0%N) 0.
Proof. symmetry. apply type_nib. Qed.

(** Initialising a buffer that starts with a zeroed packet. *)
Lemma init_front fm b : packet_words fm <= List.length b ->
  (forall j, j < packet_words fm -> nth j b 0%N = 0%N) ->
  exists b', sx_init (fmt_of fm) b = Val b' /\ List.length b' = List.length b
    /\ nth 0 b' 0%N = fresh_head fm
    /\ (forall j, 0 < j < packet_words fm -> nth j b' 0%N = 0%N)
    /\ (type_of fm b 1 <> type_code fm -> forall j, packet_words fm <= j -> nth j b' 0%N = nth j b 0%N).
Proof.
  intros HL Z. pose proof (words_pos fm) as W. unfold sx_init.
  destruct (upd_fun b (fun x => set_nibble32 x 0 (f_type (fmt_of fm))) 0 ltac:(lia)) as (b1 & E1 & L1 & N1).
  rewrite E1. cbn [bind].
  assert (H1 : nth 0 b1 0%N = set_nibble32 0 0 (type_code fm))
    by (rewrite N1, Z, type_fmt by auto; reflexivity).
  assert (R1 : forall j, 0 < j -> nth j b1 0%N = nth j b 0%N)
    by (intros j Hj; rewrite N1; now replace (j =? 0) with false by lia).
  assert (T1 : type_of fm b1 0 = type_code fm).
  { rewrite type_word, Nat.mul_0_r, H1. destruct fm; vm_compute; reflexivity. }
  assert (K1 : type_of fm b1 1 = type_of fm b 1).
  { rewrite !type_word, R1 by lia. reflexivity. }
  assert (exists b2, (if f_seven (fmt_of fm) then Val b1 else write_sizes8 b1) = Val b2
    /\ List.length b2 = List.length b
    /\ nth 0 b2 0%N = fresh_head fm
    /\ (forall j, 0 < j < packet_words fm -> nth j b2 0%N = 0%N)
    /\ (type_of fm b 1 <> type_code fm -> forall j, packet_words fm <= j -> nth j b2 0%N = nth j b 0%N))
    as (b2 & E2 & L2 & H2 & M2 & R2).
  { destruct fm; cbn [fmt_of f_seven fmt7 fmt8].
    - exists b1. split; [reflexivity|]. split; [exact L1|]. split; [rewrite H1; reflexivity|].
      split; [|intros; apply R1; cbn in *; lia]. intros j Hj. rewrite R1 by lia. apply Z. lia.
    - destruct (heads_fun EightBit b1 (fun x => set_nibble32 x 3 (N.max (nibble32 x 3) 1)) ltac:(lia))
        as (b2 & E2 & L2 & H2 & M2 & R2).
      exists b2. split; [exact E2|]. split; [lia|]. split; [rewrite H2 by auto; rewrite H1; reflexivity|].
      split.
      + intros j Hj. rewrite M2 by auto. rewrite R1 by lia. apply Z. lia.
      + intros T j Hj. rewrite R2; [|now rewrite K1|auto]. apply R1. lia. }
  rewrite E2. cbn [bind].
  assert (T2 : type_of fm b2 0 = type_code fm).
  { rewrite type_word, Nat.mul_0_r, H2. destruct fm; vm_compute; reflexivity. }
  assert (K2 : type_of fm b 1 <> type_code fm -> type_of fm b2 1 <> type_code fm).
  { intros T. rewrite type_word, R2, <- type_word by (auto; lia). exact T. }
  unfold set_group. rewrite words_of.
  destruct (heads_fun fm b2 (fun x => set_nibble32 x 1 0) ltac:(lia)) as (b3 & E3 & L3 & H3 & M3 & R3).
  rewrite E3. cbn [bind].
  assert (H3' : nth 0 b3 0%N = fresh_head fm) by (rewrite H3 by auto; rewrite H2; destruct fm; reflexivity).
  assert (M3' : forall j, 0 < j < packet_words fm -> nth j b3 0%N = 0%N)
    by (intros j Hj; rewrite M3 by auto; auto).
  assert (R3' : type_of fm b 1 <> type_code fm -> forall j, packet_words fm <= j -> nth j b3 0%N = nth j b 0%N)
    by (intros T j Hj; rewrite R3 by auto; auto).
  destruct fm; cbn [fmt_of f_seven fmt7 fmt8].
  - exists b3. repeat split; auto. lia.
  - assert (T3 : type_of EightBit b3 0 = type_code EightBit).
    { rewrite type_word, Nat.mul_0_r, H3'. vm_compute; reflexivity. }
    assert (K3 : type_of EightBit b 1 <> type_code EightBit -> type_of EightBit b3 1 <> type_code EightBit).
    { intros T. rewrite type_word, R3', <- type_word by (auto; cbn; lia). exact T. }
    unfold set_stream_id.
    destruct (heads_fun EightBit b3 (fun x => set_octet32 x 3 0) ltac:(lia)) as (b4 & E4 & L4 & H4 & M4 & R4).
    exists b4. split; [exact E4|]. split; [lia|]. split; [rewrite H4 by auto; rewrite H3'; reflexivity|].
    split; [intros j Hj; rewrite M4 by auto; auto|]. intros T j Hj. rewrite R4 by auto. auto.
Qed.

Definition fresh_words (fm : form) : list N := fresh_head fm :: repeat 0%N (packet_words fm - 1).

Lemma fresh_carries fm : carries fm 1 0 (Some 0%N) [] (fresh_words fm) /\ full_packets fm 1 (fresh_words fm).
Proof.
  split.
  - constructor; try (intros p Hp; replace p with 0 by lia).
    + lia.
    + destruct fm; cbn; lia.
    + destruct fm; vm_compute; reflexivity.
    + destruct fm; vm_compute; reflexivity.
    + destruct fm; vm_compute; auto.
    + destruct fm; vm_compute; reflexivity.
    + destruct fm; vm_compute; split; discriminate.
    + destruct fm; vm_compute; reflexivity.
  - split; [lia|now left].
Qed.

Lemma front_fresh fm b : packet_words fm <= List.length b -> nth 0 b 0%N = fresh_head fm ->
  (forall j, 0 < j < packet_words fm -> nth j b 0%N = 0%N) ->
  carries fm 1 0 (Some 0%N) [] b /\ full_packets fm 1 b
  /\ firstn (packet_words fm) b = fresh_words fm.
Proof.
  intros L H R. destruct (fresh_carries fm) as [C F].
  assert (S : same_front fm 1 (fresh_words fm) b).
  { intros j Hj. unfold fresh_words. destruct j as [|j]; [exact H|]. cbn [nth].
    rewrite nth_repeat. apply R. lia. }
  split; [eapply front_carries; eauto; lia|]. split; [eapply front_full; eauto|].
  apply nth_ext with (d := 0%N) (d' := 0%N).
  - rewrite firstn_length. unfold fresh_words. cbn [List.length]. rewrite repeat_length.
    rewrite Nat.min_l by lia. destruct fm; reflexivity.
  - intros j Hj. rewrite firstn_length in Hj. rewrite nth_firstn.
    replace (j <? packet_words fm) with true by lia. apply S. lia.
Qed.

Lemma zero_tail_scrap fm b : packet_words fm <= List.length b -> nth 0 b 0%N = fresh_head fm ->
  (forall j, 0 < j -> nth j b 0%N = 0%N) -> scrap fm (Some 0%N) b /\ clean_bytes fm b.
Proof.
  intros L H R. split.
  - intros p Hp. destruct (Nat.eq_dec p 0) as [->|Hn].
    + destruct (front_fresh fm b L H) as (C & F & _); [intros; apply R; lia|]. split.
      * intros _ [S|S]; rewrite (ca_status _ _ _ _ _ _ C) in S by lia; discriminate.
      * intros E. apply (ca_stream _ _ _ _ _ _ C); auto.
    + assert (B : forall r, r < packet_bytes fm -> byte b (packet_bytes fm * p + r) = 0%N).
      { intros r Hr. apply byte_zero_word, R. apply Nat.div_str_pos. destruct fm; cbn [packet_bytes] in *; lia. }
      split.
      * intros T. exfalso. revert T. apply type_zero. specialize (B 0). rewrite Nat.add_0_r in B. apply B.
        destruct fm; cbn; lia.
      * intros ->. cbn [in_stream]. unfold stream_of. apply B. cbn. lia.
  - intros -> j Hj. destruct (Nat.lt_ge_cases j 4) as [X|X].
    + unfold byte. rewrite Nat.div_small, Nat.mod_small by lia. rewrite H.
      cbn [packet_bytes] in Hj. rewrite Nat.mod_small in Hj by lia.
      assert (j = 2 \/ j = 3) as [->| ->] by lia; reflexivity.
    + rewrite byte_zero_word; [lia|]. apply R. apply Nat.div_str_pos. lia.
Qed.

Lemma new_fresh fm : sx_new (fmt_of fm) = Val (fresh_words fm).
Proof. destruct fm; vm_compute; reflexivity. Qed.

Lemma new_with_buffer_fresh fm b : sx_new_with_buffer (fmt_of fm) b = Val (fresh_words fm).
Proof.
  unfold sx_new_with_buffer. rewrite words_of. unfold zero_prefix.
  rewrite vec_resize_length, Nat.ltb_irrefl. cbn [bind].
  rewrite skipn_all2 by (rewrite vec_resize_length; lia). rewrite app_nil_r.
  destruct fm; vm_compute; reflexivity.
Qed.

Lemma fresh_message fm : message fm 0 (Some 0%N) [] (fresh_words fm) /\ clean_bytes fm (fresh_words fm).
Proof.
  destruct (fresh_carries fm) as [C F]. split.
  - exists 1. split; [exact C|]. split; [exact F|]. destruct fm; reflexivity.
  - apply (zero_tail_scrap fm (fresh_words fm)).
    + destruct fm; cbn; lia.
    + reflexivity.
    + intros [|j] Hj; [lia|]. unfold fresh_words. cbn [nth]. apply nth_repeat.
Qed.

Lemma try_new_fresh fm n :
  if n <? packet_words fm then sx_try_new (fmt_of fm) n = Val (Err "BufferOverflow")
  else exists b, sx_try_new (fmt_of fm) n = Val (Ok b) /\ List.length b = n
         /\ message_in fm 0 (Some 0%N) [] b /\ clean_bytes fm b.
Proof.
  unfold sx_try_new, fixed_try_resize. rewrite repeat_length, words_of.
  destruct (Nat.ltb_spec n (packet_words fm)); cbn [negb]; [reflexivity|].
  destruct (init_front fm (repeat 0%N n)) as (b & E & L & H0 & M & R).
  - now rewrite repeat_length.
  - intros. apply nth_repeat.
  - rewrite E. cbn [bind]. exists b. split; [reflexivity|]. rewrite repeat_length in L. split; [exact L|].
    assert (Rz : forall j, 0 < j -> nth j b 0%N = 0%N).
    { intros j Hj. destruct (Nat.lt_ge_cases j (packet_words fm)); [apply M; lia|].
      rewrite R; [apply nth_repeat| |auto]. apply type_zero, byte_zero_word, nth_repeat. }
    destruct (front_fresh fm b ltac:(lia) H0) as (C & F & _); [intros; apply Rz; lia|].
    destruct (zero_tail_scrap fm b ltac:(lia) H0 Rz) as [S Cl].
    split; [|exact Cl]. split; [exists 1; auto|exact S].
Qed.

Lemma try_new_with_buffer_fresh fm b :
  if List.length b <? packet_words fm
  then sx_try_new_with_buffer (fmt_of fm) b = Val (Err "BufferOverflow")
  else exists b', sx_try_new_with_buffer (fmt_of fm) b = Val (Ok b') /\ List.length b' = List.length b
         /\ carries fm 1 0 (Some 0%N) [] b' /\ full_packets fm 1 b'
         /\ firstn (packet_words fm) b' = fresh_words fm
         /\ ((forall j, packet_words fm <= j -> nth j b 0%N = 0%N) ->
             message_in fm 0 (Some 0%N) [] b' /\ clean_bytes fm b').
Proof.
  unfold sx_try_new_with_buffer, fixed_try_resize. rewrite words_of.
  pose proof (words_pos fm) as W.
  destruct (Nat.ltb_spec (List.length b) (packet_words fm)) as [|HL]; cbn [negb]; [reflexivity|].
  unfold zero_prefix. replace (List.length b <? packet_words fm) with false by lia. cbn [bind].
  set (z := repeat 0%N (packet_words fm) ++ skipn (packet_words fm) b).
  assert (Lz : List.length z = List.length b) by (unfold z; rewrite app_length, repeat_length, skipn_length; lia).
  assert (Nz : forall j, packet_words fm <= j -> nth j z 0%N = nth j b 0%N).
  { intros j Hj. unfold z. rewrite app_nth2 by (rewrite repeat_length; lia).
    rewrite repeat_length, nth_skipn. f_equal. lia. }
  destruct (init_front fm z) as (b' & E & L & H0 & M & R).
  - lia.
  - intros j Hj. unfold z. rewrite app_nth1 by (rewrite repeat_length; lia). apply nth_repeat.
  - rewrite E. cbn [bind]. exists b'. split; [reflexivity|]. split; [lia|].
    destruct (front_fresh fm b' ltac:(lia) H0 M) as (C & F & Fi).
    split; [exact C|]. split; [exact F|]. split; [exact Fi|]. intros Z.
    assert (Rz : forall j, 0 < j -> nth j b' 0%N = 0%N).
    { intros j Hj. destruct (Nat.lt_ge_cases j (packet_words fm)); [apply M; lia|].
      rewrite R; [rewrite Nz by auto; auto| |auto]. apply type_zero, byte_zero_word.
      rewrite Nz, Z; auto; destruct fm; cbn; lia. }
    destruct (zero_tail_scrap fm b' ltac:(lia) H0 Rz) as [S Cl].
    split; [|exact Cl]. split; [exists 1; auto|exact S].
Qed.

(** ** Starting over: [resize] to an empty payload from any buffer *)

Lemma reset_grow fm b : exists b', try_resize (fmt_of fm) Growable b 0 = Val (b', None)
  /\ forall s cl, kept s -> (fm = EightBit -> in_stream s (stream_of fm b 0)) -> (cl = true -> clean_bytes fm b) ->
     holds (ump_inv (fmt_of fm) (group_of fm b 0) s cl Growable 0) (rd (fmt_of fm)) [] b'.
Proof.
  set (f := fmt_of fm). pose proof (okf_of fm) as H. fold f in H. pose proof (okf_facts f H) as F.
  set (g := group_of fm b 0).
  assert (Hg : (g < 16)%N) by (apply N.mod_lt; discriminate).
  set (b1 := vec_resize b (buffer_size f 0)).
  assert (N0 : np f 0 = 1) by reflexivity.
  assert (L1 : List.length b1 = f_words f * np f 0)
    by (unfold b1; rewrite vec_resize_length; now apply buffer_size_np).
  assert (O1 : forall j, oct b1 j = if j <? 4 * (f_words f * np f 0) then oct b j else 0%N)
    by (intros j; unfold b1; rewrite oct_vec_resize, buffer_size_np by auto; reflexivity).
  destruct (resize_at f Growable b 0 b1 g H Hg eq_refl ltac:(lia)) as (b' & E & L' & O').
  { rewrite O1. replace (0 <? 4 * (f_words f * np f 0)) with true by nia. unfold g, group_of.
    now rewrite byte_oct, Nat.mul_0_r. }
  exists b'. split; [exact E|]. intros s cl K St Cl.
  assert (FR' : framed f g 0 b') by (eapply reheaded_framed; eauto; lia).
  split; [|cbn; lia]. split; [exact FR'|].
  split; [eapply framed_exact_tidy; eauto; cbn [List.length]; lia|]. split; [|split; [|split; [exact K|]]].
  - intros H7 p v Hp Hv. rewrite O', reheaded_id by auto. rewrite O1.
    assert (p = 0) as ->.
    { rewrite L', L1, N0, Nat.mul_1_r, Nat.div_same in Hp by lia. lia. }
    apply eight_of in H7. specialize (St H7). unfold stream_of in St. rewrite byte_oct in St.
    replace (pb f * 0 + 2 <? 4 * (f_words f * np f 0)) with true by nia.
    rewrite Nat.mul_0_r in *. rewrite in_stream_eq in St. now apply St.
  - intros Hc H7 j Hj. rewrite O'.
    destruct (reheaded_body f 0 g b1 j H Hj) as [->| ->]; [|lia].
    rewrite O1. destruct (j <? _); [apply (proj1 (clean_of fm b)); auto|lia].
  - rewrite L', L1, Nat.mul_comm. apply Nat.mod_mul. lia.
Qed.

(** ** The byte-stream form *)

Lemma new_b_fresh : new_b = Val (stream_bytes []).
Proof. reflexivity. Qed.
Lemma new_with_buffer_b_fresh b : new_with_buffer_b b = Val (stream_bytes []).
Proof.
  unfold new_with_buffer_b, zero_prefix. rewrite vec_resize_length. cbn [Nat.ltb Nat.leb bind].
  rewrite skipn_all2 by (rewrite vec_resize_length; lia). reflexivity.
Qed.

Lemma try_new_b_fresh n :
  if n <? 2 then try_new_b n = Val (Err "BufferOverflow")
  else try_new_b n = Val (Ok (stream_bytes [] ++ repeat 0%N (n - 2))).
Proof.
  unfold try_new_b, fixed_try_resize. rewrite repeat_length.
  destruct (Nat.ltb_spec n 2); cbn [negb]; [reflexivity|].
  destruct n as [|[|n]]; [lia|lia|]. cbn [repeat]. replace (S (S n) - 2) with n by lia. reflexivity.
Qed.

Lemma try_new_with_buffer_b_fresh b :
  if List.length b <? 2 then try_new_with_buffer_b b = Val (Err "BufferOverflow")
  else try_new_with_buffer_b b = Val (Ok (stream_bytes [] ++ skipn 2 b)).
Proof.
  unfold try_new_with_buffer_b, fixed_try_resize, zero_prefix.
  destruct (Nat.ltb_spec (List.length b) 2) as [|L]; cbn [negb]; [reflexivity|].
  cbn [repeat bind]. unfold init_b. cbn [app]. rewrite upd_nth by (cbn; lia). cbn [bind set_nth app].
  rewrite upd_nth by (cbn; lia). reflexivity.
Qed.

(** Accepted byte streams: 0xF0, bytes other than 0xF7, 0xF7, anything. *)
Lemma first_end (b : list N) : existsb (fun x => x =? 0xF7)%N b = true ->
  exists l r, b = l ++ 0xF7%N :: r /\ no_end l.
Proof.
  induction b as [|x b IH]; cbn [existsb]; [discriminate|].
  destruct (N.eqb_spec x 0xF7) as [->|Hn]; cbn [orb]; intros H.
  - exists [], b. split; [reflexivity|constructor].
  - destruct (IH H) as (l & r & -> & Hl). exists (x :: l), r. split; [reflexivity|]. now constructor.
Qed.

Lemma accepts_b b : try_from_b b = Ok b <-> exists l r, no_end l /\ b = stream_bytes l ++ r.
Proof.
  unfold try_from_b. split.
  - destruct (Nat.ltb_spec (List.length b) 2) as [|L]; [discriminate|].
    cbn [first_error]. destruct (N.eqb_spec (hd0 b) 0xF0) as [E|]; cbn [check]; [|discriminate].
    destruct (existsb _ b) eqn:X; cbn [check]; [|discriminate]. intros _.
    destruct b as [|x b]; [cbn in L; lia|]. unfold hd0 in E. cbn [nth] in E. subst x.
    cbn [existsb N.eqb Pos.eqb orb] in X. destruct (first_end b X) as (l & r & -> & Hl).
    exists l, r. split; [exact Hl|]. unfold stream_bytes. cbn [app]. now rewrite <- app_assoc.
  - intros (l & r & Hl & ->). rewrite app_length, stream_bytes_length.
    destruct (Nat.ltb_spec (List.length l + 2 + List.length r) 2); [lia|].
    assert (X : existsb (fun x => x =? 0xF7)%N (stream_bytes l ++ r) = true).
    { apply existsb_exists. exists 0xF7%N. split; [|reflexivity]. apply in_or_app. left.
      unfold stream_bytes. right. apply in_or_app. right. now left. }
    rewrite X. reflexivity.
Qed.

Lemma septet_reads l r : no_end l ->
  data_b (stream_bytes l ++ r) = Val (stream_bytes l)
  /\ payload_size_b (stream_bytes l ++ r) = Val (List.length l)
  /\ (Forall septet l -> payload_list_b (stream_bytes l ++ r) = Val l).
Proof.
  intros Hl. pose proof (stream_sealed l r Hl) as S. split; [|split].
  - unfold data_b. rewrite (sealed_size _ _ (proj1 S)). cbn [bind]. unfold prefix.
    rewrite app_length, stream_bytes_length.
    replace (List.length l + 2 <=? List.length l + 2 + List.length r) with true by lia.
    rewrite <- (stream_bytes_length l), firstn_app, firstn_all, Nat.sub_diag. cbn [firstn]. now rewrite app_nil_r.
  - apply (sealed_payload_size _ _ (proj1 S)).
  - now apply holds_payload_b.
Qed.

Lemma reset_grow_b l r : no_end l -> resize_b (stream_bytes l ++ r) 0 = Val (stream_bytes []).
Proof.
  intros Hl. unfold resize_b. destruct (septet_reads l r Hl) as (_ & -> & _). cbn [bind].
  replace (List.length l <? 0) with false by lia. cbn [bind].
  unfold vec_resize. rewrite app_length, stream_bytes_length.
  replace (0 + 2 - (List.length l + 2 + List.length r)) with 0 by lia. cbn [repeat]. rewrite app_nil_r.
  unfold stream_bytes at 1. cbn [app Nat.add firstn].
  destruct (l ++ [0xF7%N]) as [|x t] eqn:X; [|reflexivity].
  apply app_eq_nil in X. destruct X. discriminate.
Qed.
