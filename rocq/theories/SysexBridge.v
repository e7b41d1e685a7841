(** Lemmas: the specification of SpecSysex.v in terms of the model. *)
From Coq Require Import NArith List String Bool Arith Lia ZifyBool ZifyNat ZifyN.
From Verif Require Import Base BitOps SpecLayout SpecFixed BitLemmas ListLemmas PropLemmas PropValidate
  Helpers Message Sysex ByteView SysexLayout SysexEdit SpliceLemmas SysexRead SpecSysex.
Import ListNotations.
Local Open Scope nat_scope.

(** The model's constants for each form. *)
Definition fmt_of (fm : form) : fmt := match fm with SevenBit => fmt7 | EightBit => fmt8 end.

Lemma okf_of fm : okf (fmt_of fm).
Proof. destruct fm; [now left|now right]. Qed.
#[global] Hint Resolve okf_of : core.

Lemma words_of fm : f_words (fmt_of fm) = packet_words fm. Proof. now destruct fm. Qed.
Lemma pb_of fm : pb (fmt_of fm) = packet_bytes fm. Proof. now destruct fm. Qed.
Lemma head_of fm : f_head (fmt_of fm) = header_bytes fm. Proof. now destruct fm. Qed.
Lemma cap_of fm : f_cap (fmt_of fm) = packet_room fm. Proof. now destruct fm. Qed.
Lemma ext_of fm : f_ext (fmt_of fm) = size_bias fm. Proof. now destruct fm. Qed.
Lemma type_fmt fm : f_type (fmt_of fm) = type_code fm. Proof. now destruct fm. Qed.
Lemma seven_of fm : f_seven (fmt_of fm) = true <-> fm = SevenBit.
Proof. destruct fm; cbn; split; congruence. Qed.
Lemma eight_of fm : f_seven (fmt_of fm) = false <-> fm = EightBit.
Proof. destruct fm; cbn; split; congruence. Qed.
Lemma keep_of fm v : keep (fmt_of fm) v = unit_of fm v. Proof. now destruct fm. Qed.
Lemma unit_ok_of fm v : unit_ok (fmt_of fm) v <-> is_unit fm v. Proof. now destruct fm. Qed.

Lemma byte_oct b j : byte b j = oct b j.
Proof.
  unfold byte, oct. rewrite octet_bits. change 256%N with (2 ^ 8)%N.
  do 3 f_equal. pose proof (Nat.mod_upper_bound j 4 ltac:(lia)). lia.
Qed.

Lemma units_in_cnt fm b p : units_in fm b p = cnt (fmt_of fm) b p.
Proof. unfold units_in, size_nibble, cnt. now rewrite byte_oct, pb_of, ext_of. Qed.

Lemma payload_units fm b p : payload_of fm b p = units (fmt_of fm) b p.
Proof.
  unfold payload_of, units. rewrite units_in_cnt. apply map_ext. intros q.
  unfold unit_at. now rewrite keep_of, byte_oct, pb_of, head_of.
Qed.

Lemma payload_span fm b p n : flat_map (payload_of fm b) (seq p n) = span_units (fmt_of fm) b p n.
Proof.
  unfold span_units. induction (seq p n) as [|x t IH]; [reflexivity|].
  cbn [flat_map]. now rewrite payload_units, IH.
Qed.

Lemma carries_sized fm k g s l b : carries fm k g s l b -> sized (fmt_of fm) b k.
Proof.
  intros C. split.
  - rewrite words_of. apply (ca_fits _ _ _ _ _ _ C).
  - intros p Hp. pose proof (ca_size _ _ _ _ _ _ C p Hp) as X.
    unfold size_nibble in X. now rewrite byte_oct, <- pb_of, <- ext_of, <- cap_of in X.
Qed.

Lemma carries_group_lt fm k g s l b : carries fm k g s l b -> (g < 16)%N.
Proof.
  intros C. rewrite <- (ca_group _ _ _ _ _ _ C 0 (ca_some _ _ _ _ _ _ C)).
  unfold group_of. apply N.mod_lt. discriminate.
Qed.

Lemma div16_mod16 x : (x = x / 16 * 16 + x mod 16)%N.
Proof. rewrite (N.div_mod x 16) at 1 by discriminate. lia. Qed.

(** Length and contents of a run of full packets and a last one. *)
Lemma span_full f b c : forall k p,
  (forall i, i < k -> cnt f b (p + i) = c) -> List.length (span_units f b p k) = c * k.
Proof.
  induction k as [|k IH]; intros p Hc; [cbn; lia|].
  rewrite span_units_S, app_length, units_length, IH.
  - specialize (Hc 0 ltac:(lia)). rewrite Nat.add_0_r in Hc. lia.
  - intros i Hi. replace (S p + i) with (p + S i) by lia. apply Hc. lia.
Qed.

Lemma span_snoc f b p k : span_units f b p (S k) = span_units f b p k ++ units f b (p + k).
Proof. unfold span_units. rewrite seq_S, flat_map_app. cbn [flat_map]. now rewrite app_nil_r. Qed.

Lemma nth_units f b p q : q < cnt f b p -> nth q (units f b p) 0%N = unit_at f b p q.
Proof.
  intros. unfold units. rewrite (nth_indep _ _ (unit_at f b p 0)) by (rewrite map_length, seq_length; lia).
  now rewrite map_nth, seq_nth by lia.
Qed.

Lemma nth_span f b c : 0 < c -> forall k p i,
  (forall j, j < k -> cnt f b (p + j) = c) -> i < c * k + cnt f b (p + k) -> cnt f b (p + k) <= c ->
  nth i (span_units f b p (S k)) 0%N = unit_at f b (p + i / c) (i mod c).
Proof.
  intros Hc. induction k as [|k IH]; intros p i Hf Hi Hl.
  - rewrite span_units_S. cbn [span_units seq flat_map]. unfold span_units. cbn [seq flat_map].
    rewrite app_nil_r. rewrite Nat.add_0_r in *. rewrite nth_units by lia.
    destruct (Nat.eq_dec i c) as [->|]; [lia|].
    rewrite Nat.div_small, Nat.mod_small, Nat.add_0_r by lia. reflexivity.
  - rewrite span_units_S. pose proof (Hf 0 ltac:(lia)) as H0. rewrite Nat.add_0_r in H0.
    destruct (Nat.lt_ge_cases i c) as [L|G].
    + rewrite app_nth1 by (rewrite units_length; lia). rewrite nth_units by lia.
      rewrite Nat.div_small, Nat.mod_small, Nat.add_0_r by lia. reflexivity.
    + rewrite app_nth2 by (rewrite units_length; lia). rewrite units_length, H0.
      replace (p + S k) with (S p + k) in * by lia.
      rewrite IH; [|intros j Hj; replace (S p + j) with (p + S j) by lia; apply Hf; lia|lia|lia].
      replace i with (i - c + 1 * c) at 3 4 by lia.
      rewrite Nat.div_add, Nat.mod_add by lia. f_equal. lia.
Qed.

(** A well-packed message. *)
Lemma carries_framed fm k g s l b : carries fm k g s l b -> full_packets fm k b ->
  framed (fmt_of fm) g (List.length l) b /\ k = np (fmt_of fm) (List.length l)
  /\ forall i, i < List.length l -> rd (fmt_of fm) b i = nth i l 0%N.
Proof.
  intros C [Hf Hl]. set (f := fmt_of fm) in *. assert (H : okf f) by apply okf_of.
  pose proof (okf_facts f H) as F. pose proof (carries_sized _ _ _ _ _ _ C) as Sz. fold f in Sz.
  pose proof (ca_some _ _ _ _ _ _ C) as Hk.
  pose proof (ca_payload _ _ _ _ _ _ C) as P. rewrite payload_span in P. fold f in P.
  assert (Hc : forall i, S i < k -> cnt f b i = f_cap f).
  { intros i Hi. unfold f. rewrite <- units_in_cnt, cap_of. now apply Hf. }
  assert (Hlast : cnt f b (k - 1) <= f_cap f) by (apply (cnt_le f b k); auto; lia).
  assert (Len : List.length l = f_cap f * (k - 1) + cnt f b (k - 1)).
  { rewrite <- P. replace k with (S (k - 1)) at 1 by lia. rewrite span_snoc, app_length, units_length.
    rewrite (span_full f b (f_cap f)); [reflexivity|]. intros i Hi. apply Hc. cbn. lia. }
  assert (Kn : k = np f (List.length l)).
  { symmetry. apply np_unique; auto.
    - nia.
    - destruct Hl as [Hl|Hl]; [now right|left]. rewrite units_in_cnt in Hl. fold f in Hl. lia. }
  assert (Cn : forall p, p < k -> cnt f b p = count_of f (List.length l) p).
  { intros p Hp. unfold count_of. rewrite <- Kn. destruct (Nat.ltb_spec (S p) k); [now apply Hc|].
    assert (p = k - 1) as -> by lia. lia. }
  split; [|split; [exact Kn|]].
  - constructor.
    + rewrite <- Kn. apply Sz.
    + intros p Hp. rewrite <- Kn in Hp. rewrite (div16_mod16 (oct b (pb f * p))).
      pose proof (ca_type _ _ _ _ _ _ C p Hp) as T. pose proof (ca_group _ _ _ _ _ _ C p Hp) as G.
      unfold type_of, group_of in *. rewrite byte_oct, <- pb_of in T, G. fold f in T, G.
      rewrite T, G. unfold f. now rewrite type_fmt.
    + intros p Hp. rewrite <- Kn in Hp. rewrite (div16_mod16 (oct b (pb f * p + 1))).
      pose proof (ca_status _ _ _ _ _ _ C p Hp) as T. unfold status_nibble in T.
      rewrite byte_oct, <- pb_of in T. fold f in T. rewrite T.
      f_equal.
      * f_equal. unfold status_code, status_of. rewrite <- Kn.
        destruct (k =? 1); [reflexivity|]. destruct (p =? 0); [reflexivity|].
        destruct (Nat.eqb_spec (S p) k), (Nat.ltb_spec (S p) k); try lia; reflexivity.
      * rewrite <- Cn by auto. destruct Sz as [_ Sz]. specialize (Sz p Hp). unfold cnt. lia.
  - intros i Hi. rewrite <- P. replace k with (S (k - 1)) at 1 by lia.
    rewrite (nth_span f b (f_cap f)).
    + cbn [Nat.add]. unfold rd, unit_at, pos. do 2 f_equal.
    + lia.
    + intros j Hj. apply Hc. cbn. lia.
    + cbn [Nat.add]. lia.
    + exact Hlast.
Qed.

Lemma framed_cnt f g n b p : okf f -> framed f g n b -> p < np f n -> cnt f b p = count_of f n p.
Proof.
  intros H FR Hp. unfold cnt. rewrite (fr_h1 _ _ _ _ FR p Hp).
  pose proof (count_of_le f n p H Hp). pose proof (okf_facts f H).
  rewrite halves_mod by lia. lia.
Qed.

Lemma framed_sized f g n b : okf f -> framed f g n b -> sized f b (np f n).
Proof.
  intros H FR. split; [apply (fr_len _ _ _ _ FR)|]. intros p Hp.
  rewrite (fr_h1 _ _ _ _ FR p Hp). pose proof (count_of_le f n p H Hp). pose proof (okf_facts f H).
  rewrite halves_mod by lia. lia.
Qed.

Lemma framed_span f g n b : okf f -> framed f g n b ->
  span_units f b 0 (np f n) = map (rd f b) (seq 0 n).
Proof.
  intros H FR. pose proof (okf_facts f H) as F. pose proof (np_pos f n H) as Np.
  assert (Hc : forall j, j < np f n - 1 -> cnt f b (0 + j) = f_cap f).
  { intros j Hj. rewrite (framed_cnt f g n b) by (auto; lia). unfold count_of. cbn [Nat.add].
    destruct (Nat.ltb_spec (S j) (np f n)); lia. }
  assert (Hl : cnt f b (0 + (np f n - 1)) = n - f_cap f * (np f n - 1)).
  { rewrite (framed_cnt f g n b) by (auto; lia). unfold count_of. cbn [Nat.add].
    destruct (Nat.ltb_spec (S (np f n - 1)) (np f n)); lia. }
  destruct (np_bounds f n H) as [A B].
  assert (Len : List.length (span_units f b 0 (np f n)) = n).
  { replace (np f n) with (S (np f n - 1)) at 1 by lia. rewrite span_snoc, app_length, units_length.
    rewrite (span_full f b (f_cap f)) by auto. rewrite Hl.
    destruct (Nat.eq_dec n 0) as [->|]; [unfold np; cbn; lia|]. lia. }
  apply nth_ext with (d := 0%N) (d' := rd f b 0).
  - now rewrite Len, map_length, seq_length.
  - intros i Hi. rewrite Len in Hi. rewrite map_nth, seq_nth by auto. cbn [Nat.add].
    replace (np f n) with (S (np f n - 1)) at 1 by lia.
    rewrite (nth_span f b (f_cap f)); [|lia|exact Hc| |].
    + cbn [Nat.add]. unfold rd, unit_at, pos. reflexivity.
    + rewrite Hl. lia.
    + rewrite Hl. nia.
Qed.

Lemma framed_carries fm g s n b : (g < 16)%N -> framed (fmt_of fm) g n b ->
  (fm = EightBit -> forall p, p < np (fmt_of fm) n -> in_stream s (oct b (packet_bytes fm * p + 2))) ->
  carries fm (np (fmt_of fm) n) g s (map (rd (fmt_of fm) b) (seq 0 n)) b
  /\ full_packets fm (np (fmt_of fm) n) b.
Proof.
  intros Hg FR Hs. set (f := fmt_of fm) in *. assert (H : okf f) by apply okf_of.
  pose proof (okf_facts f H) as F. pose proof (np_pos f n H) as Np.
  split; [constructor|].
  - exact Np.
  - rewrite <- words_of. apply (fr_len _ _ _ _ FR).
  - intros p Hp. unfold type_of. rewrite byte_oct, <- pb_of. fold f.
    rewrite (fr_h0 _ _ _ _ FR p Hp), halves_div by auto. apply type_fmt.
  - intros p Hp. unfold group_of. rewrite byte_oct, <- pb_of. fold f.
    now rewrite (fr_h0 _ _ _ _ FR p Hp), halves_mod by auto.
  - intros p Hp E. unfold stream_of. rewrite byte_oct. now apply Hs.
  - intros p Hp. unfold status_nibble. rewrite byte_oct, <- pb_of. fold f.
    pose proof (count_of_le f n p H Hp). rewrite (fr_h1 _ _ _ _ FR p Hp), halves_div by lia.
    unfold status_code, status_of. destruct (_ =? 1); [reflexivity|]. destruct (p =? 0); [reflexivity|].
    destruct (Nat.eqb_spec (S p) (np f n)), (Nat.ltb_spec (S p) (np f n)); try lia; reflexivity.
  - intros p Hp. unfold size_nibble. rewrite byte_oct, <- pb_of, <- ext_of, <- cap_of. fold f.
    apply (framed_sized f g n b H FR). exact Hp.
  - rewrite payload_span. now apply (framed_span f g).
  - split.
    + intros p Hp. rewrite units_in_cnt, <- cap_of. fold f. rewrite (framed_cnt f g n b) by (auto; lia).
      unfold count_of. destruct (Nat.ltb_spec (S p) (np f n)); lia.
    + destruct (Nat.eq_dec (np f n) 1); [now left|right]. rewrite units_in_cnt. fold f.
      rewrite (framed_cnt f g n b) by (auto; lia). apply count_of_pos; auto; [|lia].
      destruct (Nat.eq_dec n 0) as [->|]; [|lia]. unfold np in *; cbn in *; lia.
Qed.

(** [size] of a message. *)
Lemma status_nib fm b p : nibble32 (nth (packet_words fm * p) b 0%N) 2 = status_nibble fm b p.
Proof.
  rewrite nibble32_2. unfold status_nibble. rewrite byte_oct.
  replace (packet_bytes fm * p + 1) with (4 * (packet_words fm * p) + 1) by (destruct fm; cbn [packet_bytes packet_words]; lia).
  now rewrite oct_word by lia.
Qed.
Lemma type_nib fm b p : nibble32 (nth (packet_words fm * p) b 0%N) 0 = type_of fm b p.
Proof.
  rewrite nibble32_0. unfold type_of. rewrite byte_oct.
  replace (packet_bytes fm * p) with (4 * (packet_words fm * p) + 0) by (destruct fm; cbn [packet_bytes packet_words]; lia).
  now rewrite oct_word by lia.
Qed.
Lemma group_nib fm b p : nibble32 (nth (packet_words fm * p) b 0%N) 1 = group_of fm b p.
Proof.
  rewrite nibble32_1. unfold group_of. rewrite byte_oct.
  replace (packet_bytes fm * p) with (4 * (packet_words fm * p) + 0) by (destruct fm; cbn [packet_bytes packet_words]; lia).
  now rewrite oct_word by lia.
Qed.
Lemma size_nib fm b p : nibble32 (nth (packet_words fm * p) b 0%N) 3 = size_nibble fm b p.
Proof.
  rewrite nibble32_3. unfold size_nibble. rewrite byte_oct.
  replace (packet_bytes fm * p + 1) with (4 * (packet_words fm * p) + 1) by (destruct fm; cbn [packet_bytes packet_words]; lia).
  now rewrite oct_word by lia.
Qed.

Lemma carries_size fm k g s l b : carries fm k g s l b ->
  sx_size (fmt_of fm) b = Val (packet_words fm * k).
Proof.
  intros C. pose proof (ca_some _ _ _ _ _ _ C). pose proof (ca_fits _ _ _ _ _ _ C) as HL.
  unfold sx_size. rewrite words_of. assert (0 < packet_words fm) by (destruct fm; cbn; lia).
  rewrite chunks_exact_spec by lia.
  assert (St : forall p, p < k -> nibble32 (hd0 (chunk (packet_words fm) p b)) 2 = status_code k p).
  { intros p Hp. rewrite hd0_chunk by lia. rewrite status_nib. apply (ca_status _ _ _ _ _ _ C p Hp). }
  rewrite (position_map_seq is_last _ (k - 1)).
  - f_equal. nia.
  - assert (k <= List.length b / packet_words fm) by (apply Nat.div_le_lower_bound; lia). lia.
  - intros i Hi. cbn [Nat.add]. unfold is_last. rewrite St by lia. unfold status_code.
    destruct (Nat.eqb_spec k 1); [lia|]. destruct (i =? 0); [reflexivity|].
    destruct (Nat.eqb_spec (S i) k); [lia|reflexivity].
  - cbn [Nat.add]. unfold is_last. rewrite St by lia. unfold status_code.
    destruct (Nat.eqb_spec k 1); [reflexivity|]. destruct (Nat.eqb_spec (k - 1) 0); [lia|].
    destruct (Nat.eqb_spec (S (k - 1)) k); [reflexivity|lia].
Qed.

Lemma carries_reads fm k g s l b : carries fm k g s l b ->
  sx_data (fmt_of fm) b = Val (firstn (packet_words fm * k) b)
  /\ payload_list (fmt_of fm) b = Val l /\ payload_size (fmt_of fm) b = Val (List.length l).
Proof.
  intros C. pose proof (carries_size _ _ _ _ _ _ C) as E.
  pose proof (ca_fits _ _ _ _ _ _ C) as HL.
  split.
  - unfold sx_data. rewrite E. cbn [bind]. unfold prefix.
    now replace (packet_words fm * k <=? List.length b) with true by lia.
  - rewrite <- (ca_payload _ _ _ _ _ _ C), payload_span.
    apply payload_list_at; auto; [eapply carries_sized; eauto|]. now rewrite words_of.
Qed.

(** ** Acceptance *)
Lemma first_error_ok l : first_error l = Ok tt <-> forall r, In r l -> r = Ok tt.
Proof.
  induction l as [|r l IH]; cbn [first_error In].
  - split; [intros _ r []|reflexivity].
  - destruct r as [[]|e].
    + rewrite IH. split; [intros H r [<-|X]; auto|intros H r X; auto].
    + split; [discriminate|]. intros H. specialize (H _ (or_introl eq_refl)). discriminate.
Qed.

Lemma check_is_ok b e : check b e = Ok tt <-> b = true.
Proof. unfold check. destruct b; split; congruence. Qed.

(** Leading packets of this type, in a buffer of whole packets. *)
Lemma leading_packets fm b k : List.length b mod packet_words fm = 0 ->
  leading (packet_words fm) (type_code fm) b k <->
  (k <= List.length b / packet_words fm /\ (forall p, p < k -> type_of fm b p = type_code fm)
   /\ (k < List.length b / packet_words fm -> type_of fm b k <> type_code fm)).
Proof.
  intros M. assert (W : 0 < packet_words fm) by (destruct fm; cbn; lia).
  assert (D : (List.length b + packet_words fm - 1) / packet_words fm = List.length b / packet_words fm).
  { apply Nat.div_exact in M; [|lia]. set (q := List.length b / packet_words fm) in *. rewrite M.
    replace (packet_words fm * q + packet_words fm - 1) with (packet_words fm * q + (packet_words fm - 1)) by lia.
    apply div_mod_unique_small. lia. }
  unfold leading. rewrite D.
  assert (T : forall p, bits b (Seg (packet_words fm * p) 28 4) = type_of fm b p).
  { intros p. rewrite <- type_nib. now rewrite nibble32_bits. }
  split; intros (A & B & C); (split; [exact A|split]).
  - intros p Hp. rewrite <- T. auto.
  - intros Hk. rewrite <- T. auto.
  - intros p Hp. rewrite T. auto.
  - intros Hk. rewrite T. auto.
Qed.

Lemma statuses_code fm b k :
  SpecFixed.framed (fun i => nibble32 (nth (packet_words fm * i) b 0%N) 2) 0 1 2 3 k
  <-> 1 <= k /\ forall p, p < k -> status_nibble fm b p = status_code k p.
Proof.
  unfold SpecFixed.framed, status_code. setoid_rewrite status_nib. split.
  - intros [(-> & E)|(Hk & E0 & Em & Ee)].
    + split; [lia|]. intros p Hp. assert (p = 0) as -> by lia. exact E.
    + split; [lia|]. intros p Hp. destruct (Nat.eqb_spec k 1); [lia|].
      destruct (Nat.eqb_spec p 0) as [->|]; [exact E0|].
      destruct (Nat.eqb_spec (S p) k); [|apply Em; lia].
      assert (p = k - 1) as -> by lia. exact Ee.
  - intros [Hk E]. destruct (Nat.eq_dec k 1) as [->|Hn].
    + left. split; [reflexivity|]. now rewrite E by lia.
    + right. split; [lia|]. destruct (Nat.eqb_spec k 1); [lia|]. split; [|split].
      * rewrite E by lia. reflexivity.
      * intros i Hi. rewrite E by lia. destruct (Nat.eqb_spec i 0); [lia|].
        destruct (Nat.eqb_spec (S i) k); [lia|reflexivity].
      * rewrite E by lia. destruct (Nat.eqb_spec (k - 1) 0); [lia|].
        destruct (Nat.eqb_spec (S (k - 1)) k); [reflexivity|lia].
Qed.

(** The leading packets of the validation loops that use [chunks_exact]. *)
Lemma take_packets fm b k : k <= List.length b / packet_words fm ->
  (forall p, p < k -> type_of fm b p = type_code fm) ->
  (k < List.length b / packet_words fm -> type_of fm b k <> type_code fm) ->
  take_while (is_packet (fmt_of fm)) (chunks_exact (packet_words fm) b)
  = map (fun i => chunk (packet_words fm) i b) (seq 0 k).
Proof.
  intros A B C. assert (W : 0 < packet_words fm) by (destruct fm; cbn; lia).
  rewrite chunks_exact_spec by lia. rewrite take_while_map.
  assert (P : forall i, is_packet (fmt_of fm) (chunk (packet_words fm) i b)
                        = (type_of fm b i =? type_code fm)%N).
  { intros i. unfold is_packet. rewrite hd0_chunk by lia. rewrite type_nib, type_fmt. reflexivity. }
  rewrite (take_while_ext _ (fun i => type_of fm b i =? type_code fm)%N) by (intros; apply P).
  destruct (take_while_seq (fun i => type_of fm b i =? type_code fm)%N 0
              (List.length b / packet_words fm)) as (k' & H1 & E & H2 & H3).
  rewrite E. do 2 f_equal. cbn [Nat.add] in *.
  destruct (Nat.lt_trichotomy k' k) as [X|[X|X]]; auto; exfalso.
  - specialize (H3 ltac:(lia)). apply N.eqb_neq in H3. now apply H3, B.
  - apply (C ltac:(lia)). apply N.eqb_eq. now apply H2.
Qed.

(** Exactly which buffers of whole packets are accepted. *)
Lemma accepts_spec fm b : List.length b mod packet_words fm = 0 ->
  (sx_try_from (fmt_of fm) b = Ok b <->
   exists k g s l, carries fm k g (Some s) l b
     /\ (k < List.length b / packet_words fm -> type_of fm b k <> type_code fm)
     /\ forall p, p < List.length b / packet_words fm ->
          (size_bias fm <= size_nibble fm b p <= size_bias fm + N.of_nat (packet_room fm))%N).
Proof.
  intros M. assert (W : 0 < packet_words fm) by (destruct fm; cbn; lia).
  set (q := List.length b / packet_words fm).
  assert (Len : List.length b = packet_words fm * q) by (apply Nat.div_exact in M; lia).
  (* the validators *)
  assert (Vs : forall k, leading (packet_words fm) (type_code fm) b k ->
    (validate_statuses_sx (fmt_of fm) b = Ok tt
     <-> 1 <= k /\ forall p, p < k -> status_nibble fm b p = status_code k p)).
  { intros k Hk. unfold validate_statuses_sx. rewrite words_of, type_fmt.
    rewrite (validate_statuses_spec b (fun x => nibble32 x 2) 0 1 2 3 _ _ k) by auto.
    apply statuses_code. }
  assert (Vz : validate_sizes (fmt_of fm) b = Ok tt <-> forall p, p < q ->
     (size_bias fm <= size_nibble fm b p <= size_bias fm + N.of_nat (packet_room fm))%N).
  { unfold validate_sizes. rewrite check_is_ok, words_of, chunks_exact_spec by lia.
    fold q. rewrite forallb_map, forallb_forall. unfold size_ok. split.
    - intros X p Hp. specialize (X p ltac:(apply in_seq; lia)). rewrite hd0_chunk, size_nib, ext_of, cap_of in X by lia. lia.
    - intros X p Hp. apply in_seq in Hp. specialize (X p ltac:(lia)).
      rewrite hd0_chunk, size_nib, ext_of, cap_of by lia. lia. }
  assert (Vg : forall k, leading (packet_words fm) (type_code fm) b k ->
    (consistent_groups b (packet_words fm) (type_code fm) = Ok tt
     <-> forall p, p < k -> group_of fm b p = group_of fm b 0)).
  { intros k Hk. apply leading_packets in Hk; auto. destruct Hk as (A & B & C).
    unfold consistent_groups. rewrite check_is_ok.
    assert (E : take_while (fun c => nibble32 (hd0 c) 0 =? type_code fm)%N (chunks_exact (packet_words fm) b)
       = map (fun i => chunk (packet_words fm) i b) (seq 0 k)).
    { rewrite <- (take_packets fm b k A B C). unfold is_packet. now rewrite type_fmt. }
    rewrite E, forallb_map, forallb_forall.
    assert (H0 : nibble32 (hd0 b) 1 = group_of fm b 0).
    { rewrite <- group_nib. now rewrite Nat.mul_0_r. }
    rewrite H0. split.
    - intros X p Hp. specialize (X p ltac:(apply in_seq; lia)). rewrite hd0_chunk, group_nib in X by lia. lia.
    - intros X p Hp. apply in_seq in Hp. rewrite hd0_chunk, group_nib by lia. apply N.eqb_eq, X. lia. }
  assert (Vi : forall k, leading (packet_words fm) (type_code fm) b k -> fm = EightBit ->
    (validate_stream_id b = Ok tt <-> forall p, p < k -> stream_of fm b p = stream_of fm b 0)).
  { intros k Hk ->. apply leading_packets in Hk; auto. destruct Hk as (A & B & C).
    unfold validate_stream_id. rewrite check_is_ok.
    rewrite (take_packets EightBit b k A B C : take_while (is_packet fmt8) (chunks_exact 4 b) = _).
    rewrite forallb_map, forallb_forall.
    assert (O : forall p, octet32 (nth (4 * p) b 0%N) 2 = stream_of EightBit b p).
    { intros p. unfold stream_of. rewrite byte_oct. cbn [packet_bytes].
      replace (16 * p + 2) with (4 * (4 * p) + 2) by lia. now rewrite oct_word by lia. }
    assert (H0 : octet32 (hd0 b) 2 = stream_of EightBit b 0) by (rewrite <- O; reflexivity).
    rewrite H0. cbn [packet_words]. split.
    - intros X p Hp. specialize (X p ltac:(apply in_seq; lia)). rewrite hd0_chunk, O in X by lia. lia.
    - intros X p Hp. apply in_seq in Hp. rewrite hd0_chunk, O by lia. apply N.eqb_eq, X. lia. }
  assert (Vt : check (is_packet (fmt_of fm) b) "Incorrect ump message type" = Ok tt
     <-> type_of fm b 0 = type_code fm).
  { rewrite check_is_ok. unfold is_packet.
    replace (hd0 b) with (nth (packet_words fm * 0) b 0%N) by now rewrite Nat.mul_0_r.
    rewrite type_nib, type_fmt. apply N.eqb_eq. }
  destruct (leading_exists (packet_words fm) (type_code fm) b) as (k & Hk).
  specialize (Vs k Hk). specialize (Vg k Hk). specialize (Vi k Hk).
  pose proof Hk as HL. apply leading_packets in HL; auto. destruct HL as (HL1 & HL2 & HL3). fold q in HL1, HL3.
  unfold sx_try_from. rewrite words_of, type_fmt.
  set (checks := _ ++ _).
  assert (FE : first_error checks = Ok tt <->
     type_of fm b 0 = type_code fm /\ validate_statuses_sx (fmt_of fm) b = Ok tt
     /\ validate_sizes (fmt_of fm) b = Ok tt
     /\ consistent_groups b (packet_words fm) (type_code fm) = Ok tt
     /\ (fm = EightBit -> validate_stream_id b = Ok tt)).
  { rewrite first_error_ok. unfold checks. split.
    - intros X. rewrite <- Vt. split; [|split; [|split; [|split]]].
      + apply X, in_or_app. left. now left.
      + apply X, in_or_app. left. right. now left.
      + apply X, in_or_app. left. right. right. now left.
      + apply X, in_or_app. left. right. right. right. now left.
      + intros ->. apply X, in_or_app. right. now left.
    - intros (A & B & C & D & E) r Hr. rewrite <- Vt in A. apply in_app_or in Hr.
      destruct Hr as [[<-|[<-|[<-|[<-|[]]]]]|Hr]; auto.
      destruct fm; cbn [fmt_of fmt7 fmt8 f_seven] in Hr; [destruct Hr|].
      destruct Hr as [<-|[]]. now apply E. }
  split.
  - intros X. destruct (Nat.ltb_spec (List.length b) (packet_words fm)); [discriminate|].
    destruct (first_error checks) as [[]|e] eqn:E; [|discriminate].
    destruct (proj1 FE eq_refl) as (A & B & C & D & I).
    pose proof (proj1 Vs B) as Bx; pose proof (proj1 Vz C) as Cx; pose proof (proj1 Vg D) as Dx; clear B C D; rename Bx into B, Cx into C, Dx into D. destruct B as [B1 B2].
    exists k, (group_of fm b 0), (stream_of fm b 0), (flat_map (payload_of fm b) (seq 0 k)).
    split; [|split; [exact HL3|exact C]].
    constructor; auto.
    + rewrite Len. nia.
    + intros p Hp E8. now apply Vi; auto.
    + intros p Hp. apply C. lia.
  - intros (k' & g & s & l & C & T & Z).
    assert (k' = k).
    { eapply leading_unique; [|exact Hk]. apply leading_packets; auto. fold q. split; [|split; [|exact T]].
      - pose proof (ca_fits _ _ _ _ _ _ C). rewrite Len in *. nia.
      - apply (ca_type _ _ _ _ _ _ C). }
    subst k'. pose proof (ca_some _ _ _ _ _ _ C) as K1. pose proof (ca_fits _ _ _ _ _ _ C).
    destruct (Nat.ltb_spec (List.length b) (packet_words fm)); [nia|].
    assert (E : first_error checks = Ok tt); [|now rewrite E].
    apply FE. split; [now apply HL2|]. split; [|split; [|split]].
    + apply Vs. split; [exact K1|]. apply (ca_status _ _ _ _ _ _ C).
    + apply Vz. exact Z.
    + apply Vg. intros p Hp. rewrite !(ca_group _ _ _ _ _ _ C) by lia. reflexivity.
    + intros E8. apply Vi; auto. intros p Hp. pose proof (ca_stream _ _ _ _ _ _ C p Hp E8) as X1.
      pose proof (ca_stream _ _ _ _ _ _ C 0 ltac:(lia) E8) as X2. cbn [in_stream] in X1, X2. congruence.
Qed.
