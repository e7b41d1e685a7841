(** Lemmas: where the payload bytes and the packet headers of a system exclusive
    message sit in the byte view, and what the reading functions of Sysex.v
    return on a message whose packets are all full except the last. *)
From Coq Require Import NArith List Bool Arith Lia.
From Verif Require Import Base BitOps SpecLayout BitLemmas ListLemmas Helpers Message Sysex ByteView.
Import ListNotations.
Local Open Scope nat_scope.

(** The two formats. *)
Definition okf (f : fmt) : Prop := f = fmt7 \/ f = fmt8.

(** Bytes per packet. *)
Definition pb (f : fmt) : nat := 4 * f_words f.

Lemma okf_facts f : okf f ->
  pb f = f_head f + f_cap f /\ 2 <= f_head f /\ f_head f <= 3 /\ 6 <= f_cap f /\ f_cap f <= 13 /\
  2 <= f_words f /\ (f_words f <= 4) /\ (f_ext f + N.of_nat (f_cap f) < 16)%N /\ (f_type f < 16)%N
  /\ (0 < f_type f)%N /\ (f_ext f <= 1)%N /\ (f_check f = f_words f \/ f_check f = 2 * f_words f).
Proof. intros [->| ->]; cbn; repeat split; lia. Qed.

Ltac okf_lia H :=
  let F := fresh "F" in pose proof (okf_facts _ H) as F; unfold pb in *; lia.

(** Position of payload byte [i]. *)
Definition pos (f : fmt) (i : nat) : nat := pb f * (i / f_cap f) + f_head f + i mod f_cap f.

Lemma byte_index_pos f i : okf f -> byte_index f i = pos f i.
Proof.
  intros H. pose proof (okf_facts f H) as F. unfold byte_index, pos.
  pose proof (Nat.div_mod i (f_cap f) ltac:(lia)) as D.
  set (q := i / f_cap f) in *. set (r := i mod f_cap f) in *.
  destruct F as (E & _). rewrite E. nia.
Qed.

Lemma div_mod_unique_small q r m : r < m -> (m * q + r) / m = q /\ (m * q + r) mod m = r.
Proof.
  intros. split.
  - rewrite Nat.mul_comm, Nat.div_add_l by lia. rewrite Nat.div_small by lia. lia.
  - rewrite Nat.mul_comm, Nat.add_comm, Nat.mod_add by lia. now apply Nat.mod_small.
Qed.

Lemma pos_div f i : okf f -> pos f i / pb f = i / f_cap f /\ pos f i mod pb f = f_head f + i mod f_cap f.
Proof.
  intros H. pose proof (okf_facts f H) as F. unfold pos.
  pose proof (Nat.mod_upper_bound i (f_cap f) ltac:(lia)).
  rewrite <- Nat.add_assoc. apply div_mod_unique_small. lia.
Qed.

Lemma pos_inj f i j : okf f -> pos f i = pos f j -> i = j.
Proof.
  intros H E. pose proof (okf_facts f H) as F.
  destruct (pos_div f i H) as [A B], (pos_div f j H) as [A' B'].
  rewrite E in A, B.
  rewrite (Nat.div_mod i (f_cap f)), (Nat.div_mod j (f_cap f)) by lia. nia.
Qed.

Lemma pos_mono f i j : okf f -> i < j -> pos f i < pos f j.
Proof.
  intros H L. rewrite <- !byte_index_pos by auto. unfold byte_index.
  pose proof (okf_facts f H) as F.
  assert (i / f_cap f <= j / f_cap f) by (apply Nat.div_le_mono; lia). nia.
Qed.

Lemma pos_ge_head f i p k : okf f -> k < f_head f -> pos f i <> pb f * p + k.
Proof.
  intros H Hk E. destruct (pos_div f i H) as [_ B]. pose proof (okf_facts f H) as F.
  destruct (div_mod_unique_small p k (pb f) ltac:(unfold pb in *; lia)) as [_ B'].
  rewrite E, B' in B. lia.
Qed.

(** Number of packets needed for [n] payload bytes. *)
Definition np (f : fmt) (n : nat) : nat := if n =? 0 then 1 else (n + f_cap f - 1) / f_cap f.

Lemma np_pos f n : okf f -> 1 <= np f n.
Proof.
  intros H. pose proof (okf_facts f H). unfold np. destruct (Nat.eqb_spec n 0); auto.
  apply Nat.div_le_lower_bound; lia.
Qed.

Lemma np_bounds f n : okf f -> n <= f_cap f * np f n /\ (0 < n -> f_cap f * (np f n - 1) < n).
Proof.
  intros H. pose proof (okf_facts f H). unfold np. destruct (Nat.eqb_spec n 0); [lia|].
  pose proof (Nat.div_mod (n + f_cap f - 1) (f_cap f) ltac:(lia)).
  pose proof (Nat.mod_upper_bound (n + f_cap f - 1) (f_cap f) ltac:(lia)).
  set (q := (n + f_cap f - 1) / f_cap f) in *. nia.
Qed.

Lemma np_unique f n k : okf f -> 1 <= k -> n <= f_cap f * k -> (f_cap f * (k - 1) < n \/ k = 1) -> np f n = k.
Proof.
  intros H Hk Hle Hlt. pose proof (okf_facts f H) as F.
  destruct (np_bounds f n H) as [A B]. pose proof (np_pos f n H) as C.
  destruct (Nat.eq_dec n 0) as [->|Hn].
  - unfold np. cbn. destruct Hlt; nia.
  - specialize (B ltac:(lia)). destruct Hlt as [Hlt| ->]; nia.
Qed.

Lemma np_mono f m n : okf f -> m <= n -> np f m <= np f n.
Proof.
  intros H L. pose proof (okf_facts f H). pose proof (np_pos f n H).
  destruct (np_bounds f n H) as [A _]. destruct (np_bounds f m H) as [_ B].
  pose proof (np_pos f m H).
  destruct (Nat.eq_dec m 0) as [->|]; [unfold np at 1; cbn; lia|].
  specialize (B ltac:(lia)). nia.
Qed.

Lemma div_lt_np f i n : okf f -> i < n -> i / f_cap f < np f n.
Proof.
  intros H L. pose proof (okf_facts f H). destruct (np_bounds f n H) as [A _].
  apply Nat.div_lt_upper_bound; lia.
Qed.

Lemma pos_lt f i n : okf f -> i < n -> pos f i < pb f * np f n.
Proof.
  intros H L. pose proof (okf_facts f H). pose proof (div_lt_np f i n H L).
  pose proof (Nat.mod_upper_bound i (f_cap f) ltac:(lia)). unfold pos. nia.
Qed.

Lemma buffer_size_np f n : okf f -> buffer_size f n = f_words f * np f n.
Proof.
  intros H. pose proof (okf_facts f H) as F. unfold buffer_size.
  pose proof (Nat.div_mod n (f_cap f) ltac:(lia)) as D.
  pose proof (Nat.mod_upper_bound n (f_cap f) ltac:(lia)) as M.
  destruct (Nat.eqb_spec (n mod f_cap f) 0) as [E|E].
  - destruct (Nat.eqb_spec n 0) as [->|Hn]; [unfold np; cbn; lia|].
    rewrite E in D. rewrite Nat.add_0_r in D.
    assert (np f n = n / f_cap f) as ->.
    { apply np_unique; auto; nia. }
    rewrite D at 1. rewrite (Nat.mul_comm (f_cap f)), <- Nat.mul_assoc, (Nat.mul_comm (f_cap f)),
      Nat.mul_assoc, Nat.div_mul by lia. lia.
  - f_equal. symmetry. apply np_unique; auto; nia.
Qed.

(** What the header of packet [p] of a message with [n] payload bytes says. *)
Definition status_of (f : fmt) (n p : nat) : N :=
  if np f n =? 1 then 0 else if p =? 0 then 1 else if S p <? np f n then 2 else 3.
Definition count_of (f : fmt) (n p : nat) : nat :=
  if S p <? np f n then f_cap f else n - f_cap f * p.

Lemma count_of_le f n p : okf f -> p < np f n -> count_of f n p <= f_cap f.
Proof.
  intros H L. destruct (np_bounds f n H) as [A B]. unfold count_of.
  destruct (Nat.ltb_spec (S p) (np f n)); auto. assert (np f n = S p) by lia. nia.
Qed.

Lemma count_of_pos f n p : okf f -> 0 < n -> p < np f n -> 0 < count_of f n p.
Proof.
  intros H Hn L. destruct (np_bounds f n H) as [A B]. pose proof (okf_facts f H).
  unfold count_of. destruct (Nat.ltb_spec (S p) (np f n)); [lia|].
  specialize (B Hn). assert (np f n = S p) by lia. replace (np f n - 1) with p in B by lia. lia.
Qed.

Lemma status_of_cases f n p : okf f -> p < np f n ->
  (status_of f n p = 0%N /\ np f n = 1 /\ p = 0) \/
  (status_of f n p = 1%N /\ p = 0 /\ 1 < np f n) \/
  (status_of f n p = 2%N /\ 0 < p /\ S p < np f n) \/
  (status_of f n p = 3%N /\ 0 < p /\ S p = np f n).
Proof.
  intros H L. unfold status_of. pose proof (np_pos f n H).
  destruct (Nat.eqb_spec (np f n) 1); [left; lia|].
  destruct (Nat.eqb_spec p 0); [right; left; lia|].
  destruct (Nat.ltb_spec (S p) (np f n)); lia.
Qed.

(** The buffer [b] starts with a message of group [g] and [n] payload bytes whose
    packets are all full except the last. *)
Record framed (f : fmt) (g : N) (n : nat) (b : list N) : Prop := {
  fr_len : f_words f * np f n <= List.length b;
  fr_h0 : forall p, p < np f n -> oct b (pb f * p) = (f_type f * 16 + g)%N;
  fr_h1 : forall p, p < np f n ->
    oct b (pb f * p + 1) = (status_of f n p * 16 + (f_ext f + N.of_nat (count_of f n p)))%N
}.

(** No packet in the buffer of this type claims to be an unfinished, partly
    filled one. *)
Definition tidy (f : fmt) (b : list N) : Prop :=
  forall p, p < List.length b / f_words f -> (oct b (pb f * p) / 16 = f_type f)%N ->
    (oct b (pb f * p + 1) / 16 = 1 \/ oct b (pb f * p + 1) / 16 = 2)%N ->
    (oct b (pb f * p + 1) mod 16 = f_ext f + N.of_nat (f_cap f))%N.

(** Payload unit [i]. *)
Definition rd (f : fmt) (b : list N) (i : nat) : N := keep f (oct b (pos f i)).

Lemma hd0_oct f b p k : okf f -> (k < 4)%N ->
  octet32 (hd0 (chunk (f_words f) p b)) k = oct b (pb f * p + N.to_nat k).
Proof.
  intros H Hk. pose proof (okf_facts f H). rewrite hd0_chunk by lia.
  unfold pb. replace (4 * f_words f * p + N.to_nat k) with (4 * (f_words f * p) + N.to_nat k) by lia.
  rewrite oct_word by lia. rewrite N2Nat.id. reflexivity.
Qed.

Lemma hd0_oct0 f b p : okf f -> octet32 (hd0 (chunk (f_words f) p b)) 0 = oct b (pb f * p).
Proof. intros. rewrite hd0_oct by (auto; lia). f_equal. cbn. lia. Qed.
Lemma hd0_oct1 f b p : okf f -> octet32 (hd0 (chunk (f_words f) p b)) 1 = oct b (pb f * p + 1).
Proof. intros. rewrite hd0_oct by (auto; lia). f_equal. Qed.

Lemma byte_halves a c : (c < 16)%N -> ((a * 16 + c) / 16 = a /\ (a * 16 + c) mod 16 = c)%N.
Proof.
  intros. split.
  - rewrite N.div_add_l by lia. rewrite N.div_small by lia. lia.
  - rewrite N.add_comm, N.mod_add by lia. now apply N.mod_small.
Qed.

(** Reading the header. *)
Lemma framed_status f g n b p : okf f -> framed f g n b -> p < np f n ->
  nibble32 (hd0 (chunk (f_words f) p b)) 2 = status_of f n p
  /\ nibble32 (hd0 (chunk (f_words f) p b)) 3 = (f_ext f + N.of_nat (count_of f n p))%N.
Proof.
  intros H I L. rewrite nibble32_2, nibble32_3, hd0_oct1 by auto.
  rewrite (fr_h1 _ _ _ _ I p L).
  pose proof (okf_facts f H) as F. pose proof (count_of_le f n p H L) as C.
  apply byte_halves. lia.
Qed.

Lemma packet_size_ok f n c : okf f -> (nibble32 (hd0 c) 3 = f_ext f + N.of_nat n)%N ->
  packet_size f c = Val n.
Proof.
  intros H E. unfold packet_size. rewrite E.
  destruct (N.ltb_spec (f_ext f + N.of_nat n) (f_ext f)); [lia|]. f_equal. lia.
Qed.

Lemma position_map_seq (P : list N -> bool) (g : nat -> list N) k n a :
  k < n -> (forall i, i < k -> P (g (a + i)) = false) -> P (g (a + k)) = true ->
  position P (map g (seq a n)) = Some k.
Proof.
  revert k a; induction n as [|n IH]; intros k a Hk Hf Ht; [lia|].
  cbn [seq map position]. destruct k as [|k].
  - rewrite Nat.add_0_r in Ht. now rewrite Ht.
  - specialize (Hf 0 ltac:(lia)) as H0. rewrite Nat.add_0_r in H0. rewrite H0.
    rewrite (IH k (S a)); [reflexivity|lia| |].
    + intros i Hi. specialize (Hf (S i) ltac:(lia)). now replace (S a + i) with (a + S i) by lia.
    + now replace (S a + k) with (a + S k) by lia.
Qed.

Lemma np_le_packets f g n b : okf f -> framed f g n b -> np f n <= List.length b / f_words f.
Proof.
  intros H I. pose proof (okf_facts f H). apply Nat.div_le_lower_bound; [lia|]. apply (fr_len _ _ _ _ I).
Qed.

Lemma framed_size f g n b : okf f -> framed f g n b ->
  sx_size f b = Val (f_words f * np f n).
Proof.
  intros H I. pose proof (okf_facts f H). pose proof (np_pos f n H).
  pose proof (np_le_packets f g n b H I) as HL.
  unfold sx_size. rewrite chunks_exact_spec by lia.
  rewrite (position_map_seq is_last _ (np f n - 1)).
  - f_equal. nia.
  - lia.
  - intros i Hi. cbn [Nat.add]. unfold is_last.
    destruct (framed_status f g n b i H I ltac:(lia)) as [-> _].
    destruct (status_of_cases f n i H ltac:(lia)) as [?|[?|[?|?]]]; try lia;
      intuition (rewrite H2 || rewrite H3; reflexivity).
  - cbn [Nat.add]. unfold is_last.
    destruct (framed_status f g n b (np f n - 1) H I ltac:(lia)) as [-> _].
    destruct (status_of_cases f n (np f n - 1) H ltac:(lia)) as [(E&?)|[?|[?|(E&?)]]]; try lia;
      rewrite E; reflexivity.
Qed.

Lemma sum_sizes_map f (g : nat -> list N) (c : nat -> nat) l :
  (forall i, In i l -> packet_size f (g i) = Val (c i)) ->
  sum_sizes f (map g l) = Val (list_sum (map c l)).
Proof.
  induction l as [|i l IH]; intros Hc; [reflexivity|].
  cbn [map sum_sizes]. rewrite Hc by (left; reflexivity). cbn [bind].
  rewrite IH by (intros; apply Hc; now right). reflexivity.
Qed.

Lemma count_sum f n k : okf f -> k < np f n ->
  list_sum (map (count_of f n) (seq 0 k)) = f_cap f * k.
Proof.
  intros H. induction k as [|k IH]; intros L; [cbn; lia|].
  rewrite seq_S, map_app, list_sum_app, IH by lia. cbn [map list_sum Nat.add fold_right].
  unfold count_of. destruct (Nat.ltb_spec (S k) (np f n)); lia.
Qed.

Lemma count_total f n : okf f -> list_sum (map (count_of f n) (seq 0 (np f n))) = n.
Proof.
  intros H. pose proof (np_pos f n H). destruct (np_bounds f n H) as [A B].
  pose proof (okf_facts f H).
  replace (np f n) with (S (np f n - 1)) at 1 by lia.
  rewrite seq_S, map_app, list_sum_app, count_sum by (auto; lia). cbn [map list_sum Nat.add fold_right].
  unfold count_of at 1. destruct (Nat.ltb_spec (S (np f n - 1)) (np f n)); [lia|].
  destruct (Nat.eq_dec n 0) as [->|]; [unfold np; cbn; lia|]. specialize (B ltac:(lia)). lia.
Qed.

Lemma chunk_firstn n p b k : n * S p <= k -> chunk n p (firstn k b) = chunk n p b.
Proof.
  intros. unfold chunk. rewrite skipn_firstn_comm, firstn_firstn. f_equal. lia.
Qed.

Lemma framed_payload f g n b : okf f -> framed f g n b ->
  payload f b = Val {| it_data := b; it_payload := 0; it_packet := 0; it_left := n |}.
Proof.
  intros H I. pose proof (okf_facts f H) as F. unfold payload, sx_data.
  rewrite (framed_size f g n b H I). cbn [bind]. unfold prefix.
  pose proof (fr_len _ _ _ _ I) as HL.
  destruct (Nat.leb_spec (f_words f * np f n) (List.length b)); [|lia]. cbn [bind].
  rewrite chunks_exact_spec by lia. rewrite firstn_length, Nat.min_l by lia.
  rewrite (Nat.mul_comm (f_words f)), Nat.div_mul by lia.
  rewrite (sum_sizes_map f _ (count_of f n)).
  - cbn [bind]. rewrite count_total by auto. reflexivity.
  - intros i Hi. apply in_seq in Hi. apply packet_size_ok; auto.
    rewrite chunk_firstn by nia. apply (framed_status f g n b i H I). lia.
Qed.

Lemma framed_payload_size f g n b : okf f -> framed f g n b -> payload_size f b = Val n.
Proof. intros. unfold payload_size. erewrite framed_payload by eauto. reflexivity. Qed.

Lemma chunk_check f b p : okf f -> 
  exists q, forall k, (k < 4)%N -> p < List.length b / f_check f ->
    octet32 (hd0 (chunk (f_check f) p b)) k = oct b (pb f * q + N.to_nat k)
    /\ q < List.length b / f_words f.
Proof.
  intros H. pose proof (okf_facts f H) as F.
  assert (E : exists m, f_check f = m * f_words f /\ 1 <= m).
  { destruct F as (_&_&_&_&_&_&_&_&_&_&_&[->| ->]); [exists 1|exists 2]; lia. }
  destruct E as (m & E & Hm). exists (m * p). intros k Hk HL.
  split.
  - rewrite hd0_chunk by nia. rewrite E.
    replace (m * f_words f * p) with (f_words f * (m * p)) by lia.
    unfold pb. replace (4 * f_words f * (m * p) + N.to_nat k)
      with (4 * (f_words f * (m * p)) + N.to_nat k) by lia.
    rewrite oct_word by lia. now rewrite N2Nat.id.
  - apply Nat.lt_le_trans with (m * S p); [nia|]. apply Nat.div_le_lower_bound; [lia|].
    assert (f_check f * S p <= List.length b).
    { pose proof (Nat.mul_div_le (List.length b) (f_check f) ltac:(nia)). nia. }
    nia.
Qed.

Lemma tidy_compact f b : okf f -> tidy f b -> is_compact f b = true.
Proof.
  intros H T. pose proof (okf_facts f H) as F. unfold is_compact.
  rewrite chunks_exact_spec by lia. rewrite take_while_map, forallb_map.
  apply forallb_forall. intros p Hp.
  destruct (take_while_seq (fun i => is_packet f (chunk (f_check f) i b)) 0
              (List.length b / f_check f)) as (k & Hk & E & Ht & _).
  rewrite E in Hp. apply in_seq in Hp.
  specialize (Ht p ltac:(lia)). cbn [Nat.add] in Ht. unfold is_packet in Ht.
  destruct (chunk_check f b p H) as (q & Hq).
  destruct (Hq 0%N ltac:(lia) ltac:(lia)) as [Q0 Hlt].
  destruct (Hq 1%N ltac:(lia) ltac:(lia)) as [Q1 _].
  rewrite nibble32_0, Q0 in Ht. rewrite nibble32_2, nibble32_3, Q1.
  replace (pb f * q + N.to_nat 0) with (pb f * q) in Ht by (cbn; lia).
  change (N.to_nat 1) with 1 in *.
  specialize (T q Hlt). apply N.eqb_eq in Ht. specialize (T Ht).
  apply negb_true_iff. apply andb_false_iff.
  destruct (N.eqb_spec (oct b (pb f * q + 1) / 16) 1) as [E1|E1];
    [right; rewrite T by auto; rewrite N.add_comm, N.eqb_refl; reflexivity|].
  destruct (N.eqb_spec (oct b (pb f * q + 1) / 16) 2) as [E2|E2];
    [right; rewrite T by auto; rewrite N.add_comm, N.eqb_refl; reflexivity|].
  now left.
Qed.
