(** Lemmas: the payload iterators of system exclusive packets. *)
From Coq Require Import NArith ZArith List String Bool Arith Lia Zify ZifyBool ZifyNat ZifyN.
From Verif Require Import Base BitOps BitLemmas ListLemmas Values Helpers Props Message SpecLayout
  PropLemmas Sysex ByteView SysexLayout SpecSysex SpecEdits SysexRead SysexBridge
  Aggregate SpecAggregate Packet SpecPacket PacketLemmas PacketMore.
Import ListNotations.
Local Open Scope list_scope.
Ltac lia_div := zify; Z.to_euclidean_division_equations; lia.
Local Open Scope nat_scope.

(** A packet with a size that exists. *)
Definition sized_packet (fm : form) (c : list N) : Prop :=
  List.length c = packet_words fm
  /\ (size_bias fm <= size_nibble fm c 0 <= size_bias fm + N.of_nat (packet_room fm))%N.

Definition size_of (fm : form) (it : pit) : outcome nat :=
  match fm with SevenBit => pi_size7 it | EightBit => pi_size8 it end.
Definition next_of (fm : form) (it : pit) := match fm with SevenBit => pi_next7 it | EightBit => pi_next8 it end.
Definition len_of (fm : form) (it : pit) := match fm with SevenBit => pi_len7 it | EightBit => pi_len8 it end.

Section Packet.
Context {fm : form} {c : list N}.
Hypothesis S0 : sized_packet fm c.
Let l := payload_of fm c 0.

Lemma payload_len : List.length l = units_in fm c 0.
Proof. unfold l, payload_of. now rewrite map_length, seq_length. Qed.
Lemma payload_room : List.length l <= packet_room fm.
Proof. rewrite payload_len. unfold units_in. destruct S0 as [_ H]. lia. Qed.

Lemma size_at i : size_of fm {| pi_data := c; pi_index := i |} = Val (List.length l).
Proof.
  rewrite payload_len. destruct S0 as [L B].
  assert (X : idx c 0 = Val (nth 0 c 0%N)) by (apply idx0; destruct c, fm; cbn in L; discriminate || lia).
  assert (Nb : nibble32 (nth 0 c 0%N) 3 = size_nibble fm c 0) by (rewrite <- size_nib; now rewrite Nat.mul_0_r).
  unfold units_in. destruct fm; cbn [size_of size_bias packet_room] in *.
  - unfold pi_size7. cbn [pi_data]. rewrite X. cbn [bind]. rewrite Nb.
    replace (6 <? _) with false by lia. f_equal. lia.
  - unfold pi_size8. cbn [pi_data]. rewrite X. cbn [bind]. rewrite Nb. unfold sub_chk.
    replace (_ <? 1) with false by lia. cbn [bind]. replace (13 <? _) with false by lia. f_equal. lia.
Qed.

Lemma unit_ok i : i < List.length l ->
  get_unit (fmt_of fm) c ((i + header_bytes fm) / 4) ((i + header_bytes fm) mod 4) = Val (nth i l 0%N).
Proof.
  intros H. pose proof payload_room. destruct S0 as [L B].
  assert (Hw : (i + header_bytes fm) / 4 < List.length c).
  { rewrite L. destruct fm; cbn [header_bytes packet_words packet_room] in *; lia_div. }
  rewrite get_unit_ok by (auto; apply Nat.mod_upper_bound; lia). f_equal.
  unfold l. rewrite payload_units. unfold l in H. rewrite payload_units in H. rewrite nth_units.
  2:{ unfold units in H. now rewrite map_length, seq_length in H. }
  unfold unit_at. rewrite head_of. f_equal. f_equal.
  pose proof (Nat.div_mod (i + header_bytes fm) 4 ltac:(lia)). lia.
Qed.

Lemma next_at i : i <= List.length l ->
  next_of fm {| pi_data := c; pi_index := i |}
  = Val (nth_error l i, {| pi_data := c; pi_index := if i <? List.length l then S i else i |}).
Proof.
  intros H. pose proof (size_at i) as Sz.
  destruct (Nat.ltb_spec i (List.length l)) as [G|G].
  - rewrite (nth_error_nth' l 0%N) by exact G. pose proof (unit_ok i G) as U.
    destruct fm; cbn [next_of size_of fmt_of header_bytes] in *; [unfold pi_next7|unfold pi_next8]; rewrite Sz;
      cbn [bind pi_index pi_data]; replace (List.length l <=? i) with false by lia; rewrite U; cbn [bind];
      unfold pi_at; cbn [pi_data]; now rewrite Nat.add_1_r.
  - rewrite (proj2 (nth_error_None l i)) by exact G.
    destruct fm; cbn [next_of size_of] in *; [unfold pi_next7|unfold pi_next8]; rewrite Sz;
      cbn [bind pi_index]; replace (List.length l <=? i) with true by lia; reflexivity.
Qed.

Lemma len_at i : i <= List.length l -> len_of fm {| pi_data := c; pi_index := i |} = Val (List.length l - i).
Proof.
  intros H. pose proof (size_at i) as Sz. destruct fm; cbn [len_of size_of] in *; [unfold pi_len7|unfold pi_len8]; rewrite Sz;
    cbn [bind pi_index]; unfold sub_chk; now replace (List.length l <? i) with false by lia.
Qed.

Lemma skipn_tl {A} i (x : list A) : tl (skipn i x) = skipn (S i) x.
Proof. revert x. induction i as [|i IH]; intros [|a x]; try reflexivity. apply (IH x). Qed.
Lemma nth_error_skipn {A} i n (x : list A) : nth_error (skipn i x) n = nth_error x (i + n).
Proof. revert x. induction i as [|i IH]; intros [|a x]; try reflexivity; [now destruct n|]. apply (IH x). Qed.
Lemma hd_error_skipn {A} i (x : list A) : hd_error (skipn i x) = nth_error x i.
Proof. revert x. induction i as [|i IH]; intros [|a x]; try reflexivity. apply (IH x). Qed.

(** Nothing but [next]. *)
Lemma nexts_ok n i : i <= List.length l ->
  run_payload fm (repeat Next n) {| pi_data := c; pi_index := i |} = Val (answers (repeat Next n) (skipn i l)).
Proof.
  revert i. induction n as [|n IH]; intros i H; [reflexivity|]. cbn [repeat run_payload answers answer left_after].
  assert (E : match fm with SevenBit => pi_next7 {| pi_data := c; pi_index := i |} | EightBit => pi_next8 {| pi_data := c; pi_index := i |} end
    = next_of fm {| pi_data := c; pi_index := i |}) by reflexivity. rewrite E, next_at by exact H. clear E. cbn [bind fst snd].
  rewrite hd_error_skipn, skipn_tl.
  set (j := if i <? List.length l then S i else i). assert (J : j <= List.length l) by (unfold j; destruct (Nat.ltb_spec i (List.length l)); lia).
  assert (E : match fm with SevenBit => pi_len7 {| pi_data := c; pi_index := j |} | EightBit => pi_len8 {| pi_data := c; pi_index := j |} end
    = len_of fm {| pi_data := c; pi_index := j |}) by reflexivity. rewrite E, len_at by exact J. clear E. cbn [bind].
  assert (E : skipn j l = skipn (S i) l).
  { unfold j. destruct (Nat.ltb_spec i (List.length l)); [reflexivity|]. rewrite !skipn_all2 by lia. reflexivity. }
  rewrite IH, E by exact J. cbn [bind]. rewrite <- E, skipn_length. reflexivity.
Qed.

Lemma drain_ok n i : i <= List.length l -> List.length l - i < n ->
  drain fm n {| pi_data := c; pi_index := i |} = Val (skipn i l).
Proof.
  revert i. induction n as [|n IH]; intros i H Hn; [lia|]. cbn [drain].
  assert (E : match fm with SevenBit => pi_next7 {| pi_data := c; pi_index := i |} | EightBit => pi_next8 {| pi_data := c; pi_index := i |} end
    = next_of fm {| pi_data := c; pi_index := i |}) by reflexivity. rewrite E, next_at by exact H. clear E. cbn [bind].
  destruct (Nat.ltb_spec i (List.length l)) as [G|G].
  - destruct (nth_error l i) as [v|] eqn:V; [|apply nth_error_None in V; lia].
    rewrite IH by lia. cbn [bind]. f_equal. rewrite <- skipn_tl. rewrite <- hd_error_skipn in V.
    destruct (skipn i l); cbn in V; [discriminate|]. now injection V as ->.
  - rewrite (proj2 (nth_error_None l i)) by exact G. now rewrite skipn_all2.
Qed.

Lemma collected_ok k : collected fm (k, c) = Val l.
Proof.
  unfold collected, packet_payload. cbn [snd]. rewrite drain_ok; [reflexivity|lia|].
  pose proof payload_room. destruct fm; cbn [packet_room] in *; lia.
Qed.
End Packet.

(** 7-bit packets: [next] and [nth]. *)
Lemma nth7_at c i n : sized_packet SevenBit c -> let l := payload_of SevenBit c 0 in i <= List.length l ->
  pi_nth7 {| pi_data := c; pi_index := i |} n
  = Val (nth_error l (i + n), {| pi_data := c; pi_index := if i + n <? List.length l then S (i + n) else Nat.min (i + n) 6 |}).
Proof.
  intros S0 l H. pose proof (@size_at SevenBit c S0 i) as Sz. cbn [size_of] in Sz. fold l in Sz. unfold pi_nth7. rewrite Sz. cbn [bind pi_index pi_data].
  destruct (Nat.ltb_spec (i + n) (List.length l)) as [G|G].
  - replace (List.length l <=? i + n) with false by lia. pose proof (@unit_ok SevenBit c S0 (i + n) G) as U.
    cbn [fmt_of header_bytes] in U. rewrite U. cbn [bind]. rewrite (nth_error_nth' l 0%N) by exact G.
    unfold pi_at. cbn [pi_data]. do 3 f_equal. lia.
  - replace (List.length l <=? i + n) with true by lia. now rewrite (proj2 (nth_error_None l (i + n))).
Qed.

Lemma calls7_ok c : sized_packet SevenBit c -> let l := payload_of SevenBit c 0 in forall cs i, i <= List.length l ->
  within cs (skipn i l) \/ List.length l = 6 ->
  run_payload SevenBit cs {| pi_data := c; pi_index := i |} = Val (answers cs (skipn i l)).
Proof.
  intros S0 l. induction cs as [|cl cs IH]; intros i H W; [reflexivity|]. cbn [run_payload answers].
  assert (G : exists j, j <= List.length l /\ skipn j l = left_after cl (skipn i l) /\
    (match cl with Next => pi_next7 {| pi_data := c; pi_index := i |} | Nth n => pi_nth7 {| pi_data := c; pi_index := i |} n end)
    = Val (answer cl (skipn i l), {| pi_data := c; pi_index := j |})).
  { destruct cl as [|n]; cbn [answer left_after].
    - exists (if i <? List.length l then S i else i). split; [destruct (Nat.ltb_spec i (List.length l)); lia|].
      rewrite hd_error_skipn, skipn_tl. split; [|exact (@next_at SevenBit c S0 i H)].
      destruct (Nat.ltb_spec i (List.length l)); [reflexivity|]. rewrite !skipn_all2 by lia. reflexivity.
    - exists (if i + n <? List.length l then S (i + n) else Nat.min (i + n) 6). rewrite nth_error_skipn.
      rewrite skipn_skipn'. split; [|split; [|exact (nth7_at c i n S0 H)]].
      + destruct (Nat.ltb_spec (i + n) (List.length l)); [lia|]. cbn [within] in W. rewrite skipn_length in W. lia.
      + destruct (Nat.ltb_spec (i + n) (List.length l)); [f_equal; lia|]. cbn [within] in W. rewrite skipn_length in W.
        rewrite !skipn_all2 by lia. reflexivity. }
  destruct G as (j & Hj & Ej & En).
  replace (match cl with Next => _ | Nth n => _ end) with (Val (answer cl (skipn i l), {| pi_data := c; pi_index := j |})) by (destruct cl; now rewrite En).
  cbn [bind fst snd]. pose proof (@len_at SevenBit c S0 j Hj) as Ln. cbn [len_of] in Ln. fold l in Ln. rewrite Ln. cbn [bind].
  rewrite IH; [|exact Hj|]. { cbn [bind]. rewrite <- Ej, skipn_length. reflexivity. }
  rewrite Ej. destruct W as [[_ W]|W]; auto.
Qed.

(** Packet [p] of a message, on its own. *)
Lemma byte_chunk fm b p j : j < packet_bytes fm -> byte (chunk (packet_words fm) p b) j = byte b (packet_bytes fm * p + j).
Proof.
  intros H. unfold byte. assert (Q : j / 4 < packet_words fm) by (destruct fm; cbn [packet_bytes packet_words] in *; lia_div).
  rewrite nth_chunk by exact Q.
  replace ((packet_bytes fm * p + j) / 4) with (packet_words fm * p + j / 4) by (destruct fm; cbn [packet_bytes packet_words] in *; lia_div).
  replace ((packet_bytes fm * p + j) mod 4) with (j mod 4) by (destruct fm; cbn [packet_bytes packet_words] in *; lia_div).
  reflexivity.
Qed.
Lemma size_chunk fm b p : size_nibble fm (chunk (packet_words fm) p b) 0 = size_nibble fm b p.
Proof. unfold size_nibble. rewrite Nat.mul_0_r. rewrite byte_chunk by (destruct fm; cbn; lia). reflexivity. Qed.
Lemma payload_chunk fm b p : (size_nibble fm b p <= size_bias fm + N.of_nat (packet_room fm))%N ->
  payload_of fm (chunk (packet_words fm) p b) 0 = payload_of fm b p.
Proof.
  intros H. unfold payload_of, units_in. rewrite size_chunk. apply map_ext_in. intros q Hq. apply in_seq in Hq.
  rewrite Nat.mul_0_r. rewrite byte_chunk by (destruct fm; cbn in *; lia). do 2 f_equal. lia.
Qed.
Lemma group_chunk fm b p : group_of fm (chunk (packet_words fm) p b) 0 = group_of fm b p.
Proof. unfold group_of. rewrite Nat.mul_0_r. rewrite byte_chunk by (destruct fm; cbn; lia). now rewrite Nat.add_0_r. Qed.
Lemma status_chunk fm b p : status_nibble fm (chunk (packet_words fm) p b) 0 = status_nibble fm b p.
Proof. unfold status_nibble. rewrite Nat.mul_0_r. rewrite byte_chunk by (destruct fm; cbn; lia). reflexivity. Qed.
Lemma stream_chunk fm b p : stream_of fm (chunk (packet_words fm) p b) 0 = stream_of fm b p.
Proof. unfold stream_of. rewrite Nat.mul_0_r. rewrite byte_chunk by (destruct fm; cbn; lia). reflexivity. Qed.

Lemma status_bits fm c : status_nibble fm c 0 = status_field c.
Proof. rewrite <- status_nib, Nat.mul_0_r. apply nibble32_bits. Qed.
Lemma size_bits fm c : size_nibble fm c 0 = size_field c.
Proof. rewrite <- size_nib, Nat.mul_0_r. apply nibble32_bits. Qed.
Lemma group_bits fm c : group_of fm c 0 = group_field c.
Proof. rewrite <- group_nib, Nat.mul_0_r. apply nibble32_bits. Qed.
Lemma type_bits fm c : type_of fm c 0 = type_field c.
Proof. rewrite <- type_nib, Nat.mul_0_r. apply nibble32_bits. Qed.

Definition sysex_family (fm : form) : family := match fm with SevenBit => Sysex7 | EightBit => Sysex8 end.
Definition sysex_type (fm : form) : concrete := match fm with SevenBit => CSysex7 | EightBit => CSysex8 end.

Lemma carries_sound fm k g s l b : carries fm k g s l b -> sound (sysex_family fm) k b.
Proof.
  intros C. assert (Fw : family_words (sysex_family fm) = packet_words fm) by now destruct fm.
  assert (W : 0 < packet_words fm) by (destruct fm; cbn; lia).
  split; rewrite Fw; [exact (ca_fits _ _ _ _ _ _ C)|]. intros p Hp. split.
  - rewrite <- (chunk_bits _ _ _ _ _ W). fold (type_field (chunk (packet_words fm) p b)). rewrite <- (type_bits fm).
    assert (T : type_of fm (chunk (packet_words fm) p b) 0 = type_of fm b p).
    { unfold type_of. rewrite Nat.mul_0_r, byte_chunk by (destruct fm; cbn; lia). now rewrite Nat.add_0_r. }
    rewrite T, (ca_type _ _ _ _ _ _ C p Hp). now destruct fm.
  - pose proof (ca_status _ _ _ _ _ _ C p Hp) as St. pose proof (ca_size _ _ _ _ _ _ C p Hp) as Sz.
    rewrite <- status_chunk, (status_bits fm) in St. rewrite <- size_chunk, (size_bits fm) in Sz.
    assert (L : (status_field (chunk (packet_words fm) p b) <= 3)%N).
    { rewrite St. unfold status_code. destruct (k =? 1); [lia|]. destruct (p =? 0); [lia|]. destruct (S p =? k); lia. }
    destruct fm; cbn [sysex_family valid_codes]; [|exact L]. split; [exact L|]. cbn [size_bias packet_room packet_words] in *. lia.
Qed.

Lemma carries_packet_sized fm k g s l b p : carries fm k g s l b -> p < k -> sized_packet fm (chunk (packet_words fm) p b).
Proof.
  intros C Hp. split.
  - apply chunk_length. pose proof (ca_fits _ _ _ _ _ _ C).
    assert (packet_words fm * S p <= packet_words fm * k) by (apply Nat.mul_le_mono_l; lia). lia.
  - rewrite size_chunk. apply (ca_size _ _ _ _ _ _ C p Hp).
Qed.
