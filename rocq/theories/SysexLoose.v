(** Lemmas: edits of messages whose packets are not all full. *)
From Coq Require Import NArith List Bool Arith Lia ZifyN ZifyNat ZifyBool.
From Verif Require Import Base BitOps Message Sysex Splice SpecSysex SpecEdits SysexClient
  BitLemmas ListLemmas ByteView SysexLayout SysexRead SysexEdit SpliceLemmas SysexLaws
  SysexBridge SysexHold SysexMore SysexHistory SysexCompact.
Import ListNotations.
Local Open Scope nat_scope.

Lemma needed_of fm n : packets_needed fm n = np (fmt_of fm) n.
Proof. unfold packets_needed, np. now rewrite cap_of. Qed.

(** Not an unfinished, partly filled packet. *)
Definition tid (f : fmt) (b : list N) (p : nat) : Prop :=
  (oct b (pb f * p) / 16 = f_type f)%N ->
  (oct b (pb f * p + 1) / 16 = 1 \/ oct b (pb f * p + 1) / 16 = 2)%N ->
  (oct b (pb f * p + 1) mod 16 = f_ext f + N.of_nat (f_cap f))%N.

(** No examined packet from [a] on is. *)
Definition tidy_from (fm : form) (a : nat) (b : list N) : Prop :=
  forall p, a <= p -> p < List.length b / packet_words fm -> examined fm p -> tid (fmt_of fm) b p.

Lemma tid_of fm b p : tid (fmt_of fm) b p <->
  (type_of fm b p = type_code fm -> status_nibble fm b p = 1%N \/ status_nibble fm b p = 2%N ->
   size_nibble fm b p = (size_bias fm + N.of_nat (packet_room fm))%N).
Proof.
  unfold tid, type_of, status_nibble, size_nibble. rewrite !byte_oct, pb_of, ext_of, cap_of, type_fmt. reflexivity.
Qed.

Lemma chunk_examined fm b p : p < List.length b / f_check (fmt_of fm) ->
  exists q, examined fm q /\ q < List.length b / packet_words fm
    /\ forall k, (k < 4)%N -> octet32 (hd0 (chunk (f_check (fmt_of fm)) p b)) k = oct b (pb (fmt_of fm) * q + N.to_nat k).
Proof.
  intros Hp. exists (match fm with SevenBit => 2 * p | EightBit => p end). split; [|split].
  - intros ->. apply Nat.even_spec. now exists p.
  - destruct fm; cbn [fmt_of fmt7 fmt8 f_check packet_words] in *; [|exact Hp].
    apply Nat.lt_le_trans with (2 * S p); [lia|]. apply Nat.div_le_lower_bound; [lia|].
    pose proof (Nat.mul_div_le (List.length b) 4 ltac:(lia)). lia.
  - intros k Hk. rewrite hd0_chunk by (destruct fm; cbn; lia).
    replace (pb (fmt_of fm) * match fm with SevenBit => 2 * p | EightBit => p end + N.to_nat k)
      with (4 * (f_check (fmt_of fm) * p) + N.to_nat k)
      by (destruct fm; unfold pb; cbn [fmt_of fmt7 fmt8 f_check f_words]; lia).
    rewrite oct_word by lia. now rewrite N2Nat.id.
Qed.

Lemma tidy_from_compact fm b : tidy_from fm 0 b -> is_compact (fmt_of fm) b = true.
Proof.
  intros T. assert (Hc : 0 < f_check (fmt_of fm)) by (destruct fm; cbn; lia). unfold is_compact.
  rewrite chunks_exact_spec by lia. rewrite take_while_map, forallb_map.
  apply forallb_forall. intros p Hp.
  destruct (take_while_seq (fun i => is_packet (fmt_of fm) (chunk (f_check (fmt_of fm)) i b)) 0
              (List.length b / f_check (fmt_of fm))) as (k & Hk & E & Ht & _).
  rewrite E in Hp. apply in_seq in Hp.
  specialize (Ht p ltac:(lia)). cbn [Nat.add] in Ht. unfold is_packet in Ht.
  destruct (chunk_examined fm b p ltac:(lia)) as (q & Ex & Hq & Q).
  pose proof (Q 0%N ltac:(lia)) as Q0. pose proof (Q 1%N ltac:(lia)) as Q1.
  rewrite nibble32_0, Q0 in Ht. rewrite nibble32_2, nibble32_3, Q1.
  replace (pb (fmt_of fm) * q + N.to_nat 0) with (pb (fmt_of fm) * q) in Ht by (cbn; lia).
  change (N.to_nat 1) with 1 in *.
  specialize (T q ltac:(lia) Hq Ex). apply N.eqb_eq in Ht. specialize (T Ht).
  apply negb_true_iff. apply andb_false_iff.
  set (x := oct b (pb (fmt_of fm) * q + 1)) in *.
  destruct (N.eqb_spec (x / 16) 1) as [E1|E1];
    [right; rewrite T by auto; rewrite N.add_comm, N.eqb_refl; reflexivity|].
  destruct (N.eqb_spec (x / 16) 2) as [E2|E2];
    [right; rewrite T by auto; rewrite N.add_comm, N.eqb_refl; reflexivity|].
  now left.
Qed.

(** A partly filled packet that is found. *)
Lemma untidy_found fm b p : (forall q, q <= p -> (oct b (pb (fmt_of fm) * q) / 16 = f_type (fmt_of fm))%N) ->
  packet_words fm * S (S p) <= List.length b -> examined fm p -> ~ tid (fmt_of fm) b p ->
  is_compact (fmt_of fm) b = false.
Proof.
  intros Ty Le Ex NT. destruct (is_compact (fmt_of fm) b) eqn:E; [|reflexivity]. exfalso. apply NT.
  intros _ St. unfold is_compact in E. rewrite forallb_forall in E. set (cw := f_check (fmt_of fm)) in *.
  assert (Cw : 0 < cw) by (unfold cw; destruct fm; cbn; lia).
  assert (Q : exists q, packet_words fm * p = cw * q /\ q < List.length b / cw
      /\ forall i, i <= q -> exists p', p' <= p /\ cw * i = packet_words fm * p').
  { destruct fm; cbn [fmt_of fmt7 fmt8 f_check packet_words] in *; unfold cw.
    - specialize (Ex eq_refl). apply Nat.even_spec in Ex. destruct Ex as [q Eq]. exists q.
      split; [lia|]. split; [apply Nat.div_le_lower_bound; lia|]. intros i Hi. exists (2 * i). lia.
    - exists p. split; [reflexivity|]. split; [apply Nat.div_le_lower_bound; lia|]. intros i Hi. exists i. lia. }
  destruct Q as (q & Eq & Hq & HQ).
  assert (In1 : In (chunk cw q b) (take_while (is_packet (fmt_of fm)) (chunks_exact cw b))).
  { rewrite chunks_exact_spec by exact Cw. rewrite take_while_map.
    assert (TW : forall n a, a <= q -> q < a + n ->
      In q (take_while (fun i => is_packet (fmt_of fm) (chunk cw i b)) (seq a n))).
    { induction n as [|n IH]; intros a A B; [lia|]. cbn [seq take_while].
      assert (T : is_packet (fmt_of fm) (chunk cw a b) = true).
      { destruct (HQ a A) as (p' & Hp' & Ep'). unfold is_packet. rewrite hd0_chunk by exact Cw.
        rewrite Ep', type_nib. unfold type_of. rewrite byte_oct, <- pb_of, (Ty p' Hp'). apply N.eqb_refl. }
      rewrite T. destruct (Nat.eq_dec a q) as [->|Hn]; [now left|right]. apply IH; lia. }
    apply (in_map (fun i => chunk cw i b)), TW; lia. }
  specialize (E _ In1). rewrite hd0_chunk in E by exact Cw. rewrite <- Eq in E.
  rewrite status_nib, size_nib in E. unfold status_nibble, size_nibble in E. rewrite !byte_oct, <- !pb_of in E.
  assert (ST : ((oct b (pb (fmt_of fm) * p + 1) / 16 =? 1) || (oct b (pb (fmt_of fm) * p + 1) / 16 =? 2))%N = true)
    by lia.
  rewrite ST in E. cbn [andb] in E. rewrite negb_involutive in E. apply N.eqb_eq in E. rewrite E. lia.
Qed.

(** The buffer starts with a message of [c] packets, all full but the last. *)
Record lay (fm : form) (g : N) (c n : nat) (b : list N) : Prop := {
  ly_some : 1 <= c;
  ly_len : packet_words fm * c <= List.length b;
  ly_n : f_cap (fmt_of fm) * (c - 1) <= n <= f_cap (fmt_of fm) * c;
  ly_h0 : forall p, p < c -> oct b (pb (fmt_of fm) * p) = (f_type (fmt_of fm) * 16 + g)%N;
  ly_h1 : forall p, p < c -> oct b (pb (fmt_of fm) * p + 1)
    = (status_code c p * 16 + (f_ext (fmt_of fm)
        + N.of_nat (if (S p <? c)%nat then f_cap (fmt_of fm) else (n - f_cap (fmt_of fm) * (c - 1))%nat)))%N
}.

Lemma status_code_cases c p : p < c ->
  (status_code c p = 0%N /\ c = 1) \/ (status_code c p = 1%N /\ S p < c)
  \/ (status_code c p = 2%N /\ S p < c) \/ (status_code c p = 3%N /\ S p = c).
Proof.
  intros H. unfold status_code. destruct (Nat.eqb_spec c 1); [auto|].
  destruct (Nat.eqb_spec p 0); [right; left; split; [reflexivity|lia]|].
  destruct (Nat.eqb_spec (S p) c); [auto|]. right. right. left. split; [reflexivity|lia].
Qed.

Lemma lay_tid fm g c n b p : lay fm g c n b -> p < c -> tid (fmt_of fm) b p.
Proof.
  intros Ly Hp _ St. pose proof (okf_facts _ (okf_of fm)) as F. pose proof (ly_n _ _ _ _ _ Ly) as Hn.
  rewrite (ly_h1 _ _ _ _ _ Ly p Hp) in *.
  assert (B : (f_ext (fmt_of fm) + N.of_nat (if (S p <? c)%nat then f_cap (fmt_of fm) else (n - f_cap (fmt_of fm) * (c - 1))%nat) < 16)%N).
  { destruct (S p <? c); [lia|]. nia. }
  rewrite halves_div in St by exact B. rewrite halves_mod by exact B.
  destruct (status_code_cases c p Hp) as [(E & _)|[(E & L)|[(E & L)|(E & _)]]]; rewrite E in St; try lia;
    now replace (S p <? c) with true by lia.
Qed.

Lemma framed_lay fm g n b : framed (fmt_of fm) g n b -> lay fm g (np (fmt_of fm) n) n b.
Proof.
  intros FR. pose proof (okf_of fm) as H. pose proof (okf_facts _ H) as F.
  pose proof (np_pos _ n H) as Np. pose proof (np_bounds _ n H) as [A B].
  assert (C : f_cap (fmt_of fm) * (np (fmt_of fm) n - 1) <= n).
  { destruct (Nat.eq_dec n 0) as [->|Hn]; [cbn; lia|]. specialize (B ltac:(lia)). lia. }
  constructor.
  - exact Np.
  - rewrite <- words_of. apply (fr_len _ _ _ _ FR).
  - lia.
  - apply (fr_h0 _ _ _ _ FR).
  - intros p Hp. rewrite (fr_h1 _ _ _ _ FR p Hp). do 2 f_equal.
    + unfold status_of, status_code. destruct (_ =? 1); [reflexivity|]. destruct (p =? 0); [reflexivity|].
      destruct (Nat.eqb_spec (S p) (np (fmt_of fm) n)), (Nat.ltb_spec (S p) (np (fmt_of fm) n)); try lia; reflexivity.
    + f_equal. unfold count_of. destruct (Nat.ltb_spec (S p) (np (fmt_of fm) n)); [reflexivity|].
      now replace p with (np (fmt_of fm) n - 1) by lia.
Qed.

Lemma full_length fm k g s l b : carries fm k g s l b ->
  (forall p, S p < k -> units_in fm b p = packet_room fm) ->
  List.length l = f_cap (fmt_of fm) * (k - 1) + cnt (fmt_of fm) b (k - 1).
Proof.
  intros C Fu. pose proof (ca_payload _ _ _ _ _ _ C) as El. rewrite payload_span in El.
  pose proof (ca_some _ _ _ _ _ _ C) as K1. rewrite <- El. replace k with (S (k - 1)) at 1 by lia.
  rewrite span_snoc, app_length, units_length. cbn [Nat.add].
  rewrite (span_full (fmt_of fm) b (f_cap (fmt_of fm))); [reflexivity|].
  intros i Hi. cbn [Nat.add]. rewrite <- units_in_cnt, cap_of. apply Fu. lia.
Qed.

Lemma carries_lay fm k g s l b : carries fm k g s l b ->
  (forall p, S p < k -> units_in fm b p = packet_room fm) -> lay fm g k (List.length l) b.
Proof.
  intros C Fu. pose proof (okf_of fm) as H. pose proof (okf_facts _ H) as F.
  pose proof (carries_sized _ _ _ _ _ _ C) as S0. pose proof (ca_some _ _ _ _ _ _ C) as K1.
  pose proof (full_length _ _ _ _ _ _ C Fu) as Ln. pose proof (cnt_le _ b k (k - 1) S0 ltac:(lia)) as Ck.
  constructor.
  - exact K1.
  - apply C.
  - nia.
  - intros p Hp. rewrite (div16_mod16 (oct b _)).
    pose proof (ca_type _ _ _ _ _ _ C p Hp) as T. pose proof (ca_group _ _ _ _ _ _ C p Hp) as G.
    unfold type_of, group_of in *. rewrite byte_oct, <- pb_of in T, G. rewrite T, G. now rewrite type_fmt.
  - intros p Hp. rewrite (div16_mod16 (oct b _)).
    pose proof (ca_status _ _ _ _ _ _ C p Hp) as T. unfold status_nibble in T.
    rewrite byte_oct, <- pb_of in T. rewrite T. apply N.add_cancel_l.
    destruct S0 as [_ Sz]. specialize (Sz p Hp).
    assert (Cn : cnt (fmt_of fm) b p = if S p <? k then f_cap (fmt_of fm) else List.length l - f_cap (fmt_of fm) * (k - 1)).
    { destruct (Nat.ltb_spec (S p) k); [rewrite <- units_in_cnt, cap_of; now apply Fu|].
      replace p with (k - 1) by lia. lia. }
    rewrite <- Cn. unfold cnt. lia.
Qed.

Lemma lay_cnt fm g c n b p : lay fm g c n b -> p < c ->
  cnt (fmt_of fm) b p = (if S p <? c then f_cap (fmt_of fm) else n - f_cap (fmt_of fm) * (c - 1))
  /\ (oct b (pb (fmt_of fm) * p + 1) / 16 = status_code c p)%N
  /\ (f_ext (fmt_of fm) <= oct b (pb (fmt_of fm) * p + 1) mod 16 <= f_ext (fmt_of fm) + N.of_nat (f_cap (fmt_of fm)))%N.
Proof.
  intros Ly Hp. pose proof (okf_facts _ (okf_of fm)) as F. pose proof (ly_n _ _ _ _ _ Ly) as Hn.
  assert (B : (if S p <? c then f_cap (fmt_of fm) else n - f_cap (fmt_of fm) * (c - 1)) <= f_cap (fmt_of fm)).
  { destruct (S p <? c); [lia|]. nia. }
  unfold cnt. rewrite (ly_h1 _ _ _ _ _ Ly p Hp). set (x := if S p <? c then _ else _) in *.
  rewrite halves_div, halves_mod by lia. lia.
Qed.

Lemma lay_carries fm g c n b : (g < 16)%N -> lay fm g c n b ->
  carries fm c g None (map (rd (fmt_of fm) b) (seq 0 n)) b
  /\ (forall p, S p < c -> units_in fm b p = packet_room fm).
Proof.
  intros Hg Ly. pose proof (okf_of fm) as H. pose proof (okf_facts _ H) as F.
  pose proof (ly_n _ _ _ _ _ Ly) as Hn. pose proof (ly_some _ _ _ _ _ Ly) as Hc.
  assert (Fu : forall p, S p < c -> units_in fm b p = packet_room fm).
  { intros p Hp. rewrite units_in_cnt, (proj1 (lay_cnt _ _ _ _ _ p Ly ltac:(lia))).
    replace (S p <? c) with true by lia. apply cap_of. }
  split; [|exact Fu]. constructor.
  - exact Hc.
  - apply Ly.
  - intros p Hp. unfold type_of. rewrite byte_oct, <- pb_of.
    rewrite (ly_h0 _ _ _ _ _ Ly p Hp), halves_div by auto. apply type_fmt.
  - intros p Hp. unfold group_of. rewrite byte_oct, <- pb_of.
    now rewrite (ly_h0 _ _ _ _ _ Ly p Hp), halves_mod by auto.
  - intros p Hp E. exact Logic.I.
  - intros p Hp. unfold status_nibble. rewrite byte_oct, <- pb_of. now apply (lay_cnt _ _ _ _ _ p Ly Hp).
  - intros p Hp. unfold size_nibble. rewrite byte_oct, <- pb_of, <- ext_of, <- cap_of.
    now apply (lay_cnt _ _ _ _ _ p Ly Hp).
  - rewrite payload_span. set (f := fmt_of fm) in *.
    assert (Fc : forall j, j < c - 1 -> cnt f b (0 + j) = f_cap f).
    { intros j Hj. cbn [Nat.add]. unfold f. rewrite <- units_in_cnt, cap_of. apply Fu. lia. }
    destruct (lay_cnt _ _ _ _ _ (c - 1) Ly ltac:(lia)) as (Cl & _). fold f in Cl.
    replace (S (c - 1) <? c) with false in Cl by lia.
    assert (Len : List.length (span_units f b 0 c) = n).
    { replace c with (S (c - 1)) at 1 by lia. rewrite span_snoc, app_length, units_length. cbn [Nat.add].
      rewrite (span_full f b (f_cap f)) by auto. lia. }
    apply nth_ext with (d := 0%N) (d' := rd f b 0).
    + now rewrite Len, map_length, seq_length.
    + intros i Hi. rewrite Len in Hi. rewrite map_nth, seq_nth by auto. cbn [Nat.add].
      replace c with (S (c - 1)) at 1 by lia.
      rewrite (nth_span f b (f_cap f)); [|lia|exact Fc| |]; cbn [Nat.add]; rewrite ?Cl.
      * unfold rd, unit_at, pos. reflexivity.
      * lia.
      * nia.
Qed.

Lemma lay_size fm g c n b : (g < 16)%N -> lay fm g c n b -> payload_size (fmt_of fm) b = Val n.
Proof.
  intros Hg Ly. destruct (lay_carries fm g c n b Hg Ly) as [C _].
  destruct (carries_reads _ _ _ _ _ _ C) as (_ & _ & E). now rewrite E, map_length, seq_length.
Qed.

Lemma lay_heads fm g c n b b' : same_heads (fmt_of fm) b b' -> lay fm g c n b -> lay fm g c n b'.
Proof.
  intros [L S] Ly. pose proof (okf_facts _ (okf_of fm)) as F. destruct Ly as [A B C D E]. constructor; auto.
  - now rewrite L.
  - intros p Hp. pose proof (S p 0 ltac:(lia)) as X. rewrite Nat.add_0_r in X. rewrite X. auto.
  - intros p Hp. rewrite S by lia. auto.
Qed.

Lemma tidy_from_heads fm a b b' : same_heads (fmt_of fm) b b' -> tidy_from fm a b -> tidy_from fm a b'.
Proof.
  intros [L S] T p Ha Hp Ex. pose proof (okf_facts _ (okf_of fm)) as F. rewrite L in Hp.
  specialize (T p Ha Hp Ex). unfold tid in *. pose proof (S p 0 ltac:(lia)) as X. rewrite Nat.add_0_r in X.
  now rewrite X, S by lia.
Qed.

Lemma np_le_lay fm g c n b : lay fm g c n b -> np (fmt_of fm) n <= c.
Proof.
  intros Ly. pose proof (okf_of fm) as H. pose proof (okf_facts _ H) as F.
  pose proof (ly_n _ _ _ _ _ Ly) as Hn. pose proof (ly_some _ _ _ _ _ Ly) as Hc.
  destruct (Nat.eq_dec n 0) as [->|Hn0]; [cbn; lia|].
  destruct (np_bounds _ n H) as [_ B]. specialize (B ltac:(lia)). nia.
Qed.

Lemma lay_len fm g c n b : lay fm g c n b -> f_words (fmt_of fm) * np (fmt_of fm) n <= List.length b.
Proof.
  intros Ly. pose proof (np_le_lay _ _ _ _ _ Ly). pose proof (ly_len _ _ _ _ _ Ly). rewrite words_of. nia.
Qed.

Lemma lay_group fm g c n b : (g < 16)%N -> lay fm g c n b -> (oct b 0 mod 16)%N = g.
Proof.
  intros Hg Ly. pose proof (ly_h0 _ _ _ _ _ Ly 0 ltac:(apply Ly)) as E. rewrite Nat.mul_0_r in E. rewrite E.
  now apply halves_mod.
Qed.

(** Rewriting the headers of the first packets. *)
Lemma reheaded_heads f n g b b' p : okf f -> np f n <= p -> (forall j, oct b' j = reheaded f n g b j) ->
  oct b' (pb f * p) = oct b (pb f * p) /\ oct b' (pb f * p + 1) = oct b (pb f * p + 1).
Proof.
  intros H Hp O. rewrite !O. unfold reheaded.
  replace (pb f * p <? pb f * np f n) with false by nia.
  now replace (pb f * p + 1 <? pb f * np f n) with false by nia.
Qed.

Lemma reheaded_tidy_from fm n g b b' : (g < 16)%N -> f_words (fmt_of fm) * np (fmt_of fm) n <= List.length b ->
  List.length b' = List.length b -> (forall j, oct b' j = reheaded (fmt_of fm) n g b j) ->
  tidy_from fm (np (fmt_of fm) n) b -> tidy_from fm 0 b'.
Proof.
  intros Hg HL L O T p _ Hp Ex. pose proof (okf_of fm) as H.
  destruct (Nat.lt_ge_cases p (np (fmt_of fm) n)) as [X|X].
  - apply (lay_tid fm g (np (fmt_of fm) n) n); [|exact X]. apply framed_lay.
    now apply (reheaded_framed _ n g b).
  - rewrite L in Hp. specialize (T p X Hp Ex). unfold tid in *.
    destruct (reheaded_heads _ n g b b' p H X O) as [-> ->]. exact T.
Qed.

(** States while editing, and after the last resize. *)
Definition loose (fm : form) (g : N) (k : room) (len n : nat) (b : list N) : Prop :=
  (exists c, lay fm g c n b) /\ tidy_from fm 0 b
  /\ match k with Growable => True | _ => List.length b = len end.
Definition loose_done (fm : form) (g : N) (k : room) (len n : nat) (b : list N) : Prop :=
  loose fm g k len n b /\ framed (fmt_of fm) g n b
  /\ match k with Growable => List.length b = packet_words fm * np (fmt_of fm) n | _ => True end.

Lemma tidy_from_le fm a a' b : a <= a' -> tidy_from fm a b -> tidy_from fm a' b.
Proof. intros L T p Hp. apply T. lia. Qed.

(** Resizing, from any buffer whose group is right. *)
Lemma loose_grow fm g b m : (g < 16)%N -> 0 < List.length b -> (oct b 0 mod 16)%N = g ->
  exists b', try_resize (fmt_of fm) Growable b m = Val (b', None) /\ loose_done fm g Growable 0 m b'
    /\ forall i, i < m -> rd (fmt_of fm) b' i = rd (fmt_of fm) b i.
Proof.
  intros Hg Hb G0. pose proof (okf_of fm) as H. set (f := fmt_of fm) in *. pose proof (okf_facts f H) as F.
  pose proof (np_pos f m H) as Np.
  set (b1 := vec_resize b (buffer_size f m)).
  assert (L1 : List.length b1 = f_words f * np f m)
    by (unfold b1; rewrite vec_resize_length; now apply buffer_size_np).
  assert (O1 : forall j, oct b1 j = if j <? 4 * (f_words f * np f m) then oct b j else 0%N)
    by (intros j; unfold b1; rewrite oct_vec_resize, buffer_size_np by auto; reflexivity).
  destruct (resize_at f Growable b m b1 g H Hg eq_refl ltac:(lia)) as (b' & E & L' & O').
  { rewrite O1. replace (0 <? 4 * (f_words f * np f m)) with true by nia. exact G0. }
  exists b'. split; [exact E|].
  assert (FR : framed f g m b') by (eapply reheaded_framed; eauto; lia).
  assert (LE : List.length b' = packet_words fm * np f m) by (rewrite <- words_of; fold f; lia).
  split; [split; [split; [|split]|split]|].
  - exists (np f m). now apply framed_lay.
  - intros p _ Hp _. apply (lay_tid fm g (np f m) m); [now apply framed_lay|].
    rewrite LE, exact_div in Hp by apply words_pos. exact Hp.
  - exact Logic.I.
  - exact FR.
  - exact LE.
  - intros i Hm. unfold rd. rewrite O', reheaded_pos, O1 by auto.
    pose proof (pos_lt f i m H Hm). unfold pb in *.
    replace (pos f i <? 4 * (f_words f * np f m)) with true by lia. reflexivity.
Qed.

Lemma loose_fit fm g b m : (g < 16)%N -> packet_words fm <= List.length b -> (oct b 0 mod 16)%N = g ->
  m <= room_in fm (List.length b) -> tidy_from fm (np (fmt_of fm) m) b ->
  exists b', try_resize (fmt_of fm) Fixed b m = Val (b', None) /\ loose_done fm g Fixed (List.length b) m b'
    /\ forall i, i < m -> rd (fmt_of fm) b' i = rd (fmt_of fm) b i.
Proof.
  intros Hg Hb G0 Hm T. pose proof (okf_of fm) as H. set (f := fmt_of fm) in *.
  rewrite <- capacity_of in Hm. rewrite <- words_of in Hb. fold f in Hm, Hb. apply fits_np in Hm; [|exact H|exact Hb].
  destruct (resize_at f Fixed b m b g H Hg) as (b' & E & L' & O').
  { cbn [request]. f_equal. unfold fixed_try_resize. rewrite buffer_size_np by auto. lia. }
  { lia. } { exact G0. }
  exists b'. split; [exact E|].
  assert (FR : framed f g m b') by (eapply reheaded_framed; eauto; lia).
  split; [split; [split; [|split]|split]|].
  - exists (np f m). now apply framed_lay.
  - eapply reheaded_tidy_from; eauto.
  - exact L'.
  - exact FR.
  - exact Logic.I.
  - intros i Hi. unfold rd. now rewrite O', reheaded_pos by auto.
Qed.

Lemma loose_full fm g b m : (g < 16)%N -> packet_words fm <= List.length b -> (oct b 0 mod 16)%N = g ->
  room_in fm (List.length b) < m ->
  exists b', try_resize (fmt_of fm) Fixed b m = Val (b', Some (room_in fm (List.length b)))
    /\ loose_done fm g Fixed (List.length b) (room_in fm (List.length b)) b'
    /\ forall i, i < room_in fm (List.length b) -> rd (fmt_of fm) b' i = rd (fmt_of fm) b i.
Proof.
  intros Hg Hb G0 Hm. pose proof (okf_of fm) as H. pose proof (okf_facts _ H) as F.
  set (f := fmt_of fm) in *. set (c := room_in fm (List.length b)) in *.
  assert (Ec : c = capacity f (List.length b)) by (unfold f; now rewrite capacity_of).
  pose proof Hb as Hb'. rewrite <- words_of in Hb'. fold f in Hb'.
  assert (HL : f_words f * np f c <= List.length b) by (apply fits_np; auto; lia).
  destruct (resize_fail_at f Fixed b m b g c H Hg) as (b' & E & L' & O').
  { cbn [request]. f_equal. unfold fixed_try_resize. rewrite buffer_size_np by auto. apply negb_false_iff, Nat.ltb_lt.
    apply Nat.nle_gt. intros X. apply fits_np in X; auto. lia. }
  { lia. } { exact G0. } { exact Ec. }
  exists b'. split; [exact E|].
  assert (FR : framed f g c b') by (eapply reheaded_framed; eauto).
  assert (NP : np f c = List.length b / packet_words fm).
  { rewrite <- words_of. fold f. assert (1 <= List.length b / f_words f) by (apply Nat.div_le_lower_bound; lia).
    apply np_unique; auto; rewrite Ec; unfold capacity; nia. }
  split; [split; [split; [|split]|split]|].
  - exists (np f c). now apply framed_lay.
  - eapply reheaded_tidy_from; eauto. fold f. rewrite NP. intros p A B. lia.
  - exact L'.
  - exact FR.
  - exact Logic.I.
  - intros i Hi. unfold rd. now rewrite O', reheaded_pos by auto.
Qed.

Lemma loose_heads fm g k len n b b' : same_heads (fmt_of fm) b b' -> loose fm g k len n b -> loose fm g k len n b'.
Proof.
  intros S ((c & Ly) & T & Z). split; [exists c; now apply (lay_heads fm g c n b)|].
  split; [now apply (tidy_from_heads fm 0 b)|]. destruct S as [L _]. destruct k; [exact Z| | |]; now rewrite L.
Qed.

Lemma loose_write fm g k len n b v i : loose fm g k len n b -> i < n -> unit_ok (fmt_of fm) v ->
  exists b', write_datum (fmt_of fm) b v i = Val b' /\ loose fm g k len n b'
    /\ forall j, j < n -> rd (fmt_of fm) b' j = if j =? i then v else rd (fmt_of fm) b j.
Proof.
  intros HI Hi Hv. pose proof HI as ((c & Ly) & _). pose proof (lay_len _ _ _ _ _ Ly) as HL.
  pose proof (okf_of fm) as H. set (f := fmt_of fm) in *.
  destruct (write_datum_ok f n b v i H HL Hi Hv) as (b' & x & E & L' & K & K7 & O).
  exists b'. split; [exact E|]. split.
  - apply (loose_heads fm g k len n b b'); auto. eapply same_heads_pos; eauto.
  - intros j Hj. unfold rd. rewrite O. destruct (Nat.eqb_spec j i) as [->|Hn].
    + now rewrite Nat.eqb_refl.
    + destruct (Nat.eqb_spec (pos f j) (pos f i)) as [X|X]; [|reflexivity].
      apply pos_inj in X; auto. lia.
Qed.

Lemma loose_move fm g k len n b tail to : (g < 16)%N -> loose fm g k len n b ->
  (tail < to /\ to <= n) \/ (to < tail /\ tail <= n) \/ tail = to ->
  exists b', move_tail (fmt_of fm) b tail to = Val b' /\ loose fm g k len n b'
    /\ forall j, j < n -> rd (fmt_of fm) b' j =
        if tail <? to then if to <=? j then rd (fmt_of fm) b (j - (to - tail)) else rd (fmt_of fm) b j
        else if (to <=? j) && (j <? n - (tail - to)) then rd (fmt_of fm) b (j + (tail - to)) else rd (fmt_of fm) b j.
Proof.
  intros Hg HI D. pose proof HI as ((c & Ly) & T & _). pose proof (lay_len _ _ _ _ _ Ly) as HL.
  pose proof (okf_of fm) as H. unfold move_tail. rewrite tidy_from_compact by auto. cbn [negb].
  rewrite (lay_size fm g c n b Hg Ly). cbn [bind]. set (f := fmt_of fm) in *.
  destruct (Nat.ltb_spec tail to) as [Lt|Ge].
  - unfold sub_chk. replace (n <? to - tail) with false by lia. cbn [bind].
    destruct (move_right_fold f n b (to - tail) tail (n - (to - tail)) H HL) as (b' & E & Sh & Q & O);
      [lia|lia|].
    exists b'. split; [exact E|]. split; [now apply (loose_heads fm g k len n b b')|].
    intros j Hj. unfold rd. rewrite O by auto.
    replace ((tail + (to - tail) <=? j) && (j <? n - (to - tail) + (to - tail))) with (to <=? j) by lia.
    destruct (to <=? j); reflexivity.
  - destruct (Nat.ltb_spec to tail) as [Lt|Ge'].
    + destruct (move_left_fold f n b (tail - to) tail H HL) as (b' & E & Sh & Q & O); [lia|lia|lia|].
      exists b'. split; [exact E|]. split; [now apply (loose_heads fm g k len n b b')|].
      intros j Hj. unfold rd. rewrite O by auto.
      replace (tail - (tail - to) <=? j) with (to <=? j) by lia.
      destruct (_ && _); reflexivity.
    + exists b. split; [reflexivity|]. split; [exact HI|]. intros j Hj.
      replace (tail - to) with 0 by lia. rewrite Nat.add_0_r. destruct (_ && _); reflexivity.
Qed.

Lemma lay_facts fm g c n b : (g < 16)%N -> lay fm g c n b ->
  0 < List.length b /\ packet_words fm <= List.length b /\ (oct b 0 mod 16)%N = g /\ n <= room_in fm (List.length b).
Proof.
  intros Hg Ly. pose proof (ly_some _ _ _ _ _ Ly) as Hc. pose proof (ly_len _ _ _ _ _ Ly) as HL.
  pose proof (words_pos fm) as W. assert (packet_words fm <= List.length b) by nia.
  split; [lia|]. split; [lia|]. split; [now apply (lay_group fm g c n b)|].
  rewrite <- capacity_of. apply fits_np; [apply okf_of|now rewrite words_of|]. now apply (lay_len fm g c n b).
Qed.

Lemma loose_laws_growable fm g : (g < 16)%N ->
  laws (ump_ops (fmt_of fm) Growable) (loose fm g Growable 0) (loose_done fm g Growable 0)
    (rd (fmt_of fm)) (unit_ok (fmt_of fm)) None true.
Proof.
  intros Hg. constructor; cbn [ump_ops o_compact o_payload_size o_resize o_write o_move].
  - intros n b (_ & T & _). unfold compact. now rewrite tidy_from_compact.
  - intros n b ((c & Ly) & _). now apply (lay_size fm g c n b).
  - intros. exact I.
  - intros n b m ((c & Ly) & _) _ _. destruct (lay_facts _ _ _ _ _ Hg Ly) as (A & B & C & D).
    destruct (loose_grow fm g b m Hg A C) as (b' & E & [X _] & R). eauto.
  - discriminate.
  - intros n b m ((c & Ly) & _) _. destruct (lay_facts _ _ _ _ _ Hg Ly) as (A & B & C & D).
    destruct (loose_grow fm g b m Hg A C) as (b' & E & X & R).
    exists b'. split; [exact E|]. split; [exact X|]. split; [intros _; apply X|auto].
  - intros n b v i. now apply loose_write.
  - intros n b tail to HI A B.
    destruct (loose_move fm g Growable 0 n b tail to Hg HI) as (b' & E & I' & R); [auto|].
    exists b'. split; [exact E|]. split; [exact I'|]. intros j Hj. rewrite R by auto.
    now replace (tail <? to) with true by lia.
  - intros n b tail to HI A B.
    destruct (loose_move fm g Growable 0 n b tail to Hg HI) as (b' & E & I' & R); [auto|].
    exists b'. split; [exact E|]. split; [exact I'|]. intros j Hj. rewrite R by auto.
    now replace (tail <? to) with false by lia.
  - intros n b t ((c & Ly) & T & _). unfold move_tail. rewrite tidy_from_compact by auto. cbn [negb].
    rewrite (lay_size fm g c n b Hg Ly). cbn [bind]. now rewrite Nat.ltb_irrefl.
Qed.

Lemma loose_laws_fixed fm g len : (g < 16)%N ->
  laws (ump_ops (fmt_of fm) Fixed) (loose fm g Fixed len) (loose_done fm g Fixed len)
    (rd (fmt_of fm)) (unit_ok (fmt_of fm)) (Some (room_in fm len)) true.
Proof.
  intros Hg. constructor; cbn [ump_ops o_compact o_payload_size o_resize o_write o_move fits_in].
  - intros n b (_ & T & _). unfold compact. now rewrite tidy_from_compact.
  - intros n b ((c & Ly) & _). now apply (lay_size fm g c n b).
  - intros n b ((c & Ly) & _ & <-). now apply (lay_facts fm g c n b).
  - intros n b m ((c & Ly) & T & <-) _ Hm. destruct (lay_facts _ _ _ _ _ Hg Ly) as (A & B & C & D).
    destruct (loose_fit fm g b m Hg B C Hm) as (b' & E & [X _] & R); [apply (tidy_from_le fm 0); auto; lia|]. eauto.
  - intros n b m c' ((c & Ly) & T & <-) [= <-] Hm. destruct (lay_facts _ _ _ _ _ Hg Ly) as (A & B & C & D).
    destruct (loose_full fm g b m Hg B C Hm) as (b' & E & [X _] & R).
    exists b'. split; [exact E|]. split; [exact X|]. intros i Hi. apply R. lia.
  - intros n b m ((c & Ly) & T & <-) Hm. destruct (lay_facts _ _ _ _ _ Hg Ly) as (A & B & C & D).
    destruct (loose_fit fm g b m Hg B C Hm) as (b' & E & X & R); [apply (tidy_from_le fm 0); auto; lia|].
    exists b'. split; [exact E|]. split; [exact X|]. split; [intros _; apply X|auto].
  - intros n b v i. now apply loose_write.
  - intros n b tail to HI A B.
    destruct (loose_move fm g Fixed len n b tail to Hg HI) as (b' & E & I' & R); [auto|].
    exists b'. split; [exact E|]. split; [exact I'|]. intros j Hj. rewrite R by auto.
    now replace (tail <? to) with true by lia.
  - intros n b tail to HI A B.
    destruct (loose_move fm g Fixed len n b tail to Hg HI) as (b' & E & I' & R); [auto|].
    exists b'. split; [exact E|]. split; [exact I'|]. intros j Hj. rewrite R by auto.
    now replace (tail <? to) with false by lia.
  - intros n b t ((c & Ly) & T & _). unfold move_tail. rewrite tidy_from_compact by auto. cbn [negb].
    rewrite (lay_size fm g c n b Hg Ly). cbn [bind]. now rewrite Nat.ltb_irrefl.
Qed.

(** ** After compaction *)

Lemma units_nib fm k g s l b p : carries fm k g s l b -> p < k -> units_in fm b p <> packet_room fm ->
  (oct b (pb (fmt_of fm) * p + 1) mod 16 <> f_ext (fmt_of fm) + N.of_nat (f_cap (fmt_of fm)))%N.
Proof.
  intros C Hp Nu E. apply Nu. rewrite units_in_cnt, <- cap_of. unfold cnt. rewrite E. lia.
Qed.

Lemma carries_types fm k g s l b p : carries fm k g s l b -> p < k ->
  (oct b (pb (fmt_of fm) * p) / 16 = f_type (fmt_of fm))%N.
Proof.
  intros C Hp. pose proof (ca_type _ _ _ _ _ _ C p Hp) as T. unfold type_of in T.
  now rewrite byte_oct, <- pb_of, <- type_fmt in T.
Qed.

Lemma carries_status fm k g s l b p : carries fm k g s l b -> p < k ->
  (oct b (pb (fmt_of fm) * p + 1) / 16 = status_code k p)%N.
Proof.
  intros C Hp. pose proof (ca_status _ _ _ _ _ _ C p Hp) as T. unfold status_nibble in T.
  now rewrite byte_oct, <- pb_of in T.
Qed.

Lemma carries_count fm k k' g g' s s' l l' b : carries fm k g s l b -> carries fm k' g' s' l' b -> k = k'.
Proof.
  intros C C'. pose proof (ca_some _ _ _ _ _ _ C) as A. pose proof (ca_some _ _ _ _ _ _ C') as A'.
  destruct (Nat.lt_trichotomy k k') as [L|[E|L]]; [exfalso|exact E|exfalso].
  - pose proof (carries_status _ _ _ _ _ _ (k - 1) C ltac:(lia)) as S1.
    pose proof (carries_status _ _ _ _ _ _ (k - 1) C' ltac:(lia)) as S2. rewrite S1 in S2.
    unfold status_code in S2. replace (S (k - 1)) with k in S2 by lia. rewrite Nat.eqb_refl in S2.
    destruct (Nat.eqb_spec k 1), (Nat.eqb_spec k' 1), (Nat.eqb_spec (k - 1) 0), (Nat.eqb_spec k k'); try lia; discriminate.
  - pose proof (carries_status _ _ _ _ _ _ (k' - 1) C ltac:(lia)) as S1.
    pose proof (carries_status _ _ _ _ _ _ (k' - 1) C' ltac:(lia)) as S2. rewrite S1 in S2.
    unfold status_code in S2. replace (S (k' - 1)) with k' in S2 by lia. rewrite Nat.eqb_refl in S2.
    destruct (Nat.eqb_spec k 1), (Nat.eqb_spec k' 1), (Nat.eqb_spec (k' - 1) 0), (Nat.eqb_spec k' k); try lia; discriminate.
Qed.

(** A packet of a message is partly filled or not. *)
Lemma untidy_packet fm k g s l b p : carries fm k g s l b -> S p < k -> units_in fm b p <> packet_room fm ->
  ~ tid (fmt_of fm) b p.
Proof.
  intros C Hp Nu T. apply (units_nib _ _ _ _ _ _ p C ltac:(lia) Nu). apply T.
  - apply (carries_types fm k g s l b); [exact C|lia].
  - rewrite (carries_status fm k g s l b p C) by lia.
    destruct (status_code_cases k p ltac:(lia)) as [(E & X)|[(E & X)|[(E & X)|(E & X)]]]; try lia; rewrite E; auto.
Qed.
Lemma tidy_packet fm k g s l b p : carries fm k g s l b -> p < k ->
  (S p < k -> units_in fm b p = packet_room fm) -> tid (fmt_of fm) b p.
Proof.
  intros C Hp Fu _ St. rewrite (carries_status fm k g s l b p C Hp) in St.
  destruct (status_code_cases k p Hp) as [(E & X)|[(E & X)|[(E & X)|(E & X)]]]; rewrite E in St; try lia.
  all: specialize (Fu X); rewrite units_in_cnt, <- cap_of in Fu; pose proof (carries_sized _ _ _ _ _ _ C) as [_ Sz];
    specialize (Sz p Hp); unfold cnt in Fu; lia.
Qed.

(** Packets from that of byte [m] on that will stop the next move. *)
Definition stuck (fm : form) (m : nat) (b : list N) : Prop :=
  exists p, np (fmt_of fm) m <= p /\ packet_words fm * S (S p) <= List.length b /\ examined fm p
    /\ ~ tid (fmt_of fm) b p /\ forall q, q <= p -> (oct b (pb (fmt_of fm) * q) / 16 = f_type (fmt_of fm))%N.

Lemma left_behind_stuck fm k g s l b m : carries fm k g s l b -> left_behind fm k m b -> stuck fm m b.
Proof.
  intros C (p & A & B & Nu & Ex). exists p. rewrite needed_of in A. split; [exact A|].
  split; [pose proof (ca_fits _ _ _ _ _ _ C); pose proof (words_pos fm); nia|]. split; [exact Ex|].
  split; [now apply (untidy_packet fm k g s l b)|]. intros q Hq. apply (carries_types fm k g s l b); [exact C|lia].
Qed.

Lemma not_left_behind_tidy fm k g s l b m : carries fm k g s l b -> nothing_behind fm k b ->
  ~ left_behind fm k m b -> tidy_from fm (np (fmt_of fm) m) b.
Proof.
  intros C Nb Nl p Hp HL Ex. destruct (Nat.lt_ge_cases p k) as [L|G].
  - apply (tidy_packet fm k g s l b); [exact C|exact L|]. intros Sp.
    destruct (Nat.eq_dec (units_in fm b p) (packet_room fm)) as [E|E]; [exact E|]. exfalso. apply Nl.
    exists p. rewrite needed_of. auto.
  - apply tid_of. now apply Nb.
Qed.

Lemma left_behind_dec fm k m b : left_behind fm k m b \/ ~ left_behind fm k m b.
Proof.
  assert (D : forall p, {packets_needed fm m <= p /\ units_in fm b p <> packet_room fm /\ (fm = SevenBit -> Nat.even p = true)}
                      + {~ (packets_needed fm m <= p /\ units_in fm b p <> packet_room fm /\ (fm = SevenBit -> Nat.even p = true))}).
  { intros p. destruct (le_dec (packets_needed fm m) p); [|right; tauto].
    destruct (Nat.eq_dec (units_in fm b p) (packet_room fm)); [right; tauto|].
    destruct fm; [destruct (Nat.even p) eqn:E; [left; auto|right; intros (_ & _ & X); specialize (X eq_refl); discriminate]|].
    left. split; [assumption|]. split; [assumption|]. discriminate. }
  destruct (find (fun p => if D p then true else false) (seq 0 (k - 1))) as [p|] eqn:E.
  - apply find_some in E. destruct E as [I T]. destruct (D p) as [X|]; [|discriminate]. apply in_seq in I.
    left. exists p. unfold examined. intuition lia.
  - right. intros (p & A & B & Nu & Ex). pose proof (find_none _ _ E p) as X.
    rewrite in_seq in X. specialize (X ltac:(lia)). cbv beta in X. destruct (D p) as [|Y]; [discriminate|]. apply Y. auto.
Qed.

Lemma noticed_cases fm k b : noticed fm k b ->
  fm = SevenBit -> (forall p, S p < k -> units_in fm b p = packet_room fm)
    \/ exists p, S p < k /\ Nat.even p = true /\ units_in fm b p <> packet_room fm.
Proof.
  intros Nt E. destruct (find (fun p => negb (units_in fm b p =? packet_room fm)) (seq 0 (k - 1))) as [p|] eqn:Ef.
  - apply find_some in Ef. destruct Ef as [I T]. apply in_seq in I.
    destruct (Nt p ltac:(lia) ltac:(lia)) as (q & A & B & C). right. exists q. split; [exact A|]. split; [now apply C|exact B].
  - left. intros p Hp. pose proof (find_none _ _ Ef p) as X. rewrite in_seq in X. specialize (X ltac:(lia)). cbv beta in X. lia.
Qed.

Lemma compacted fm k g s l b : carries fm k g s l b -> noticed fm k b ->
  exists b0 c, compact (fmt_of fm) b = Val b0 /\ List.length b0 = List.length b
    /\ lay fm g c (List.length l) b0 /\ payload_size (fmt_of fm) b0 = Val (List.length l)
    /\ (forall i, i < List.length l -> rd (fmt_of fm) b0 i = nth i l 0%N)
    /\ (forall p, np (fmt_of fm) (List.length l) <= p -> oct b0 (pb (fmt_of fm) * p) = oct b (pb (fmt_of fm) * p)
          /\ oct b0 (pb (fmt_of fm) * p + 1) = oct b (pb (fmt_of fm) * p + 1)).
Proof.
  intros C Nt. destruct (compact_ok fm k g s l b C (noticed_cases _ _ _ Nt))
    as (b0 & k0 & E0 & L0 & Hk0 & C0 & Fu0 & _ & Hd).
  exists b0, k0. split; [exact E0|]. split; [exact L0|].
  split; [now apply (carries_lay fm k0 g s l b0)|]. split; [apply (carries_reads _ _ _ _ _ _ C0)|].
  split; [apply (full_reads fm k0 g s l b0 C0 Fu0)|]. intros p Hp.
  destruct Hd as [->|(_ & -> & Hd)]; [auto|]. rewrite pb_of.
  pose proof (Hd p 0 Hp ltac:(lia)) as X. rewrite Nat.add_0_r in X. split; [exact X|apply Hd; [exact Hp|lia]].
Qed.

Lemma tid_eq f b b' p : oct b' (pb f * p) = oct b (pb f * p) -> oct b' (pb f * p + 1) = oct b (pb f * p + 1) ->
  tid f b p -> tid f b' p.
Proof. unfold tid. now intros -> ->. Qed.

Lemma stuck_uncompact fm m b : stuck fm m b -> is_compact (fmt_of fm) b = false.
Proof. intros (p & _ & L & Ex & T & Ty). now apply (untidy_found fm b p). Qed.

(** The same packets, when the first ones are right. *)
Lemma stuck_heads fm m b b' : List.length b' = List.length b ->
  (forall p, p < np (fmt_of fm) m -> (oct b' (pb (fmt_of fm) * p) / 16 = f_type (fmt_of fm))%N) ->
  (forall p, np (fmt_of fm) m <= p -> oct b' (pb (fmt_of fm) * p) = oct b (pb (fmt_of fm) * p)
          /\ oct b' (pb (fmt_of fm) * p + 1) = oct b (pb (fmt_of fm) * p + 1)) ->
  stuck fm m b -> stuck fm m b'.
Proof.
  intros L Ty Hd (p & A & B & Ex & T & Q). exists p. split; [exact A|]. split; [now rewrite L|]. split; [exact Ex|].
  destruct (Hd p A) as [X Y]. split.
  - intros T'. apply T. now apply (tid_eq _ b' b).
  - intros q Hq. destruct (Nat.lt_ge_cases q (np (fmt_of fm) m)) as [G|G]; [auto|]. rewrite (proj1 (Hd q G)). auto.
Qed.

Lemma tidy_heads fm m b b' : List.length b' = List.length b ->
  (forall p, np (fmt_of fm) m <= p -> oct b' (pb (fmt_of fm) * p) = oct b (pb (fmt_of fm) * p)
          /\ oct b' (pb (fmt_of fm) * p + 1) = oct b (pb (fmt_of fm) * p + 1)) ->
  tidy_from fm (np (fmt_of fm) m) b -> tidy_from fm (np (fmt_of fm) m) b'.
Proof.
  intros L Hd T p A B Ex. rewrite L in B. destruct (Hd p A). apply (tid_eq _ b b'); auto.
Qed.

Lemma lay_type fm g c n b p : (g < 16)%N -> lay fm g c n b -> p < c -> (oct b (pb (fmt_of fm) * p) / 16 = f_type (fmt_of fm))%N.
Proof. intros Hg Ly Hp. rewrite (ly_h0 _ _ _ _ _ Ly p Hp). now apply halves_div. Qed.

(** Everything behind the message is in order: so is the whole buffer. *)
Lemma lay_tidy fm g c n b : lay fm g c n b -> tidy_from fm (np (fmt_of fm) n) b -> tidy_from fm 0 b.
Proof.
  intros Ly T p _ B Ex. destruct (Nat.lt_ge_cases p c) as [G|G]; [now apply (lay_tid fm g c n b)|].
  apply T; [|exact B|exact Ex]. pose proof (np_le_lay _ _ _ _ _ Ly). lia.
Qed.

Lemma compact_again o b b0 src lo hi : o_compact o b = Val b0 -> o_compact o b0 = Val b0 ->
  splice_detail o b src lo hi = splice_detail o b0 src lo hi.
Proof. intros A B. unfold splice_detail. now rewrite A, B. Qed.

Lemma estimate_announced src : estimate (s_hint src) = announced src.
Proof. unfold estimate, announced. destruct (s_hint src) as [x [y|]]; reflexivity. Qed.

(** ** Growable buffers *)

Lemma framed_full fm g l b : (g < 16)%N -> framed (fmt_of fm) g (List.length l) b ->
  (forall i, i < List.length l -> rd (fmt_of fm) b i = nth i l 0%N) ->
  carries fm (np (fmt_of fm) (List.length l)) g None l b /\ full_packets fm (np (fmt_of fm) (List.length l)) b.
Proof.
  intros Hg FR R. destruct (lay_carries fm g _ _ b Hg (framed_lay fm g _ b FR)) as [C Fu].
  assert (El : map (rd (fmt_of fm) b) (seq 0 (List.length l)) = l) by now apply map_rd.
  rewrite El in C. split; [exact C|]. split; [exact Fu|].
  pose proof (np_bounds _ (List.length l) (okf_of fm)) as [A B].
  pose proof (full_length _ _ _ _ _ _ C Fu) as Ln. rewrite <- units_in_cnt in Ln.
  destruct (Nat.eq_dec (List.length l) 0) as [Z|Z]; [left; rewrite Z; reflexivity|right].
  specialize (B ltac:(lia)). lia.
Qed.

(** The list outcome of [splice_detail_ok] and its variants. *)
Lemma spliced_reads l a e data (rdb : nat -> N) : a <= e -> e <= List.length l ->
  (forall i, i < List.length l - (e - a) + List.length data ->
     rdb i = target (fun i => nth i l 0%N) a e data i) ->
  forall i, i < List.length (edited l a e data) -> rdb i = nth i (edited l a e data) 0%N.
Proof.
  intros A B T i. rewrite edited_length by auto. intros Hi. rewrite T by exact Hi.
  unfold target. now rewrite edited_nth by auto.
Qed.

Lemma splice_loose fm k g s l b src lo hi : carries fm k g s l b -> noticed fm k b ->
  Forall (is_unit fm) (s_items src) ->
  range_begin lo <= range_end hi (List.length l) <= List.length l ->
  range_end hi (List.length l) - range_begin lo < announced src
    \/ tidy_from fm (np (fmt_of fm) (List.length l)) b ->
  exists b', splice (ump_ops (fmt_of fm) Growable) b src lo hi = Val b'
    /\ message fm g None (replaced l (range_begin lo) (range_end hi (List.length l)) (s_items src)) b'.
Proof.
  intros C Nt Hv [A B] HT. destruct (compacted fm k g s l b C Nt) as (b0 & c & E0 & L0 & Ly & Sz & R0 & Hd).
  assert (Hg : (g < 16)%N) by (eapply carries_group_lt; eauto).
  set (a := range_begin lo) in *. set (e := range_end hi (List.length l)) in *.
  pose proof (loose_laws_growable fm g Hg) as L.
  assert (X : exists b' ok, splice_detail (ump_ops (fmt_of fm) Growable) b src lo hi = Val (b', ok)
      /\ if ok then fits_in None (List.length l - (e - a) + List.length (s_items src))
           /\ loose_done fm g Growable 0 (List.length l - (e - a) + List.length (s_items src)) b'
           /\ (List.length (s_items src) = estimate (s_hint src) -> e - a <= List.length (s_items src) ->
               loose fm g Growable 0 (List.length l - (e - a) + List.length (s_items src)) b')
           /\ forall i, i < List.length l - (e - a) + List.length (s_items src) ->
              rd (fmt_of fm) b' i = target (fun i => nth i l 0%N) a e (s_items src) i
         else exists c, @None nat = Some c /\ c < List.length l - (e - a) + List.length (s_items src)
           /\ loose fm g Growable 0 c b').
  { destruct (Nat.lt_ge_cases (e - a) (announced src)) as [G|G].
    - destruct (lay_facts _ _ _ _ _ Hg Ly) as (P1 & P2 & P3 & P4).
      set (m := estimate (s_hint src) + List.length l - (e - a)).
      destruct (loose_grow fm g b0 m Hg P1 P3) as (b1 & E1 & [I1 _] & R1).
      apply (splice_detail_grow _ _ _ _ _ None true L (fun i => nth i l 0%N) (List.length l) a e (s_items src)
        A B (units_ok fm _ Hv) b b0 b1 src lo hi); auto.
      intros i Hi. rewrite R1; [now apply R0|]. unfold m. rewrite estimate_announced. lia.
    - assert (T : tidy_from fm 0 b0).
      { destruct HT as [HT|HT]; [lia|]. apply (lay_tidy fm g c (List.length l)); [exact Ly|].
        now apply (tidy_heads fm _ b). }
      rewrite (compact_again _ b b0); [|exact E0|cbn [ump_ops o_compact]; unfold compact; now rewrite tidy_from_compact].
      apply (splice_detail_ok _ _ _ _ _ None true L (fun i => nth i l 0%N) (List.length l) a e (s_items src)
        A B (units_ok fm _ Hv) b0 src lo hi); auto.
      split; [eauto|]. split; [exact T|exact Logic.I]. }
  destruct X as (b' & ok & E & R). destruct ok.
  - destruct R as (_ & (_ & FR & LE) & _ & T). exists b'. split; [unfold splice; now rewrite E|].
    change (replaced l a e (s_items src)) with (edited l a e (s_items src)).
    rewrite <- (edited_length l a e (s_items src) A B) in FR, LE.
    destruct (framed_full fm g (edited l a e (s_items src)) b' Hg FR) as [C' F'].
    { now apply spliced_reads. }
    eexists. split; [exact C'|]. split; [exact F'|]. exact LE.
  - destruct R as (? & X & _). discriminate.
Qed.

Lemma splice_detail_stuck fm k0 k g s l b src lo hi : carries fm k g s l b -> noticed fm k b ->
  range_begin lo <= range_end hi (List.length l) <= List.length l ->
  announced src <= range_end hi (List.length l) - range_begin lo ->
  stuck fm (List.length l) b ->
  splice_detail (ump_ops (fmt_of fm) k0) b src lo hi = Panic.
Proof.
  intros C Nt [A B] An St. destruct (compacted fm k g s l b C Nt) as (b0 & c & E0 & L0 & Ly & Sz & R0 & Hd).
  assert (Hg : (g < 16)%N) by (eapply carries_group_lt; eauto).
  unfold splice_detail. cbn [ump_ops o_compact o_payload_size o_resize o_move]. rewrite E0. cbn [bind]. rewrite Sz. cbn [bind].
  change (begin_of lo) with (range_begin lo). change (end_of hi (List.length l)) with (range_end hi (List.length l)).
  set (a := range_begin lo) in *. set (e := range_end hi (List.length l)) in *.
  unfold sub_chk at 1. replace (e <? a) with false by lia. cbn [bind]. rewrite estimate_announced.
  replace (e <? e + announced src - (e - a)) with false by lia. cbn [bind]. unfold move_tail at 1.
  rewrite (stuck_uncompact fm (List.length l) b0); [reflexivity|].
  apply (stuck_heads fm _ b); auto. intros p Hp. apply (lay_type fm g c (List.length l)); auto.
  pose proof (np_le_lay _ _ _ _ _ Ly). lia.
Qed.

(** ** Fixed buffers *)

Definition settled (fm : form) (g : N) (l : list N) (b : list N) : Prop :=
  exists k, carries fm k g None l b /\ full_packets fm k b /\ nothing_behind fm k b.

Lemma done_settled fm g len l b : (g < 16)%N -> loose_done fm g Fixed len (List.length l) b ->
  (forall i, i < List.length l -> rd (fmt_of fm) b i = nth i l 0%N) -> settled fm g l b /\ List.length b = len.
Proof.
  intros Hg ((_ & T & Len) & FR & _) R. split; [|exact Len].
  destruct (framed_full fm g l b Hg FR R) as [C F]. eexists. split; [exact C|]. split; [exact F|].
  intros p A B Ex. apply tid_of. apply T; [lia|exact B|exact Ex].
Qed.

Lemma try_splice_loose fm k g s l b src lo hi : carries fm k g s l b -> noticed fm k b ->
  Forall (is_unit fm) (s_items src) ->
  range_begin lo <= range_end hi (List.length l) <= List.length l ->
  range_begin lo = range_end hi (List.length l) \/ List.length (s_items src) <= announced src ->
  tidy_from fm (np (fmt_of fm) (List.length l + (announced src - (range_end hi (List.length l) - range_begin lo)))) b ->
  let l' := replaced l (range_begin lo) (range_end hi (List.length l)) (s_items src) in
  let fits := List.length l' <=? room_in fm (List.length b) in
  exists b', try_splice (ump_ops (fmt_of fm) Fixed) b src lo hi = Val (b', fits)
    /\ settled fm g (if fits then l' else []) b' /\ List.length b' = List.length b.
Proof.
  intros C Nt Hv [A B] HC HT. destruct (compacted fm k g s l b C Nt) as (b0 & c & E0 & L0 & Ly & Sz & R0 & Hd).
  assert (Hg : (g < 16)%N) by (eapply carries_group_lt; eauto).
  set (a := range_begin lo) in *. set (e := range_end hi (List.length l)) in *.
  set (len := List.length b) in *. set (cap := room_in fm len).
  pose proof (loose_laws_fixed fm g len Hg) as L. fold cap in L.
  destruct (lay_facts _ _ _ _ _ Hg Ly) as (P1 & P2 & P3 & P4). rewrite L0 in P4. fold cap in P4.
  assert (Hd' : forall p, np (fmt_of fm) (List.length l + (announced src - (e - a))) <= p ->
     oct b0 (pb (fmt_of fm) * p) = oct b (pb (fmt_of fm) * p)
          /\ oct b0 (pb (fmt_of fm) * p + 1) = oct b (pb (fmt_of fm) * p + 1)).
  { intros p Hp. apply Hd. pose proof (np_mono (fmt_of fm) (List.length l) (List.length l + (announced src - (e - a))) (okf_of fm) ltac:(lia)). lia. }
  assert (T0 : tidy_from fm (np (fmt_of fm) (List.length l + (announced src - (e - a)))) b0) by (now apply (tidy_heads fm _ b)).
  assert (HC' : a = e \/ List.length (s_items src) <= estimate (s_hint src) \/ (Some cap = None /\ true = true))
    by (rewrite estimate_announced; tauto).
  assert (X : exists b' ok, splice_detail (ump_ops (fmt_of fm) Fixed) b src lo hi = Val (b', ok)
      /\ if ok then fits_in (Some cap) (List.length l - (e - a) + List.length (s_items src))
           /\ loose_done fm g Fixed len (List.length l - (e - a) + List.length (s_items src)) b'
           /\ (List.length (s_items src) = estimate (s_hint src) -> e - a <= List.length (s_items src) ->
               loose fm g Fixed len (List.length l - (e - a) + List.length (s_items src)) b')
           /\ forall i, i < List.length l - (e - a) + List.length (s_items src) ->
              rd (fmt_of fm) b' i = target (fun i => nth i l 0%N) a e (s_items src) i
         else exists c, Some cap = Some c /\ c < List.length l - (e - a) + List.length (s_items src)
           /\ loose fm g Fixed len c b').
  { destruct (Nat.lt_ge_cases (e - a) (announced src)) as [G|G].
    - set (m := estimate (s_hint src) + List.length l - (e - a)).
      assert (Em : m = List.length l + (announced src - (e - a))) by (unfold m; rewrite estimate_announced; lia).
      rewrite <- Em in T0.
      destruct (Nat.le_gt_cases m cap) as [F|F].
      + destruct (loose_fit fm g b0 m Hg P2 P3) as (b1 & E1 & [I1 _] & R1); [now rewrite L0|exact T0|].
        rewrite L0 in I1. fold len in I1.
        apply (splice_detail_grow _ _ _ _ _ (Some cap) true L (fun i => nth i l 0%N) (List.length l) a e (s_items src)
          A B (units_ok fm _ Hv) b b0 b1 src lo hi); auto.
        intros i Hi. rewrite R1; [now apply R0|]. lia.
      + destruct (loose_full fm g b0 m Hg P2 P3) as (b1 & E1 & [I1 _] & R1); [now rewrite L0|].
        rewrite L0 in E1, I1, R1. fold len cap in E1, I1, R1.
        apply (splice_detail_full _ _ _ _ _ (Some cap) true L (fun i => nth i l 0%N) (List.length l) a e (s_items src)
          A B (units_ok fm _ Hv) b b0 b1 cap src lo hi); auto.
        intros i Hi. rewrite R1; [now apply R0|]. lia.
    - replace (List.length l + (announced src - (e - a))) with (List.length l) in T0 by lia.
      assert (T : tidy_from fm 0 b0) by (now apply (lay_tidy fm g c (List.length l))).
      rewrite (compact_again _ b b0); [|exact E0|cbn [ump_ops o_compact]; unfold compact; now rewrite tidy_from_compact].
      apply (splice_detail_ok _ _ _ _ _ (Some cap) true L (fun i => nth i l 0%N) (List.length l) a e (s_items src)
        A B (units_ok fm _ Hv) b0 src lo hi); auto.
      split; [eauto|]. split; [exact T|exact L0]. }
  destruct X as (b' & ok & E & R). change (replaced l a e (s_items src)) with (edited l a e (s_items src)).
  intros l' fits. assert (Ll : List.length l' = List.length l - (e - a) + List.length (s_items src))
    by (unfold l'; now rewrite edited_length).
  unfold try_splice. rewrite E. cbn [bind]. destruct ok.
  - destruct R as (F & D & _ & T). cbn [fits_in] in F. assert (Ef : fits = true) by (unfold fits; fold cap; lia). rewrite Ef.
    exists b'. split; [reflexivity|]. rewrite <- Ll in D.
    apply done_settled; auto. now apply spliced_reads.
  - destruct R as (c' & [= <-] & F & ((c1 & Ly1) & T1 & L1)). assert (Ef : fits = false) by (unfold fits; fold cap; lia). rewrite Ef.
    destruct (lay_facts _ _ _ _ _ Hg Ly1) as (Q1 & Q2 & Q3 & Q4).
    destruct (loose_fit fm g b' 0 Hg Q2 Q3 ltac:(lia) ltac:(apply (tidy_from_le fm 0); [lia|exact T1])) as (b2 & E2 & D2 & _).
    cbn [ump_ops o_resize]. rewrite E2. cbn [bind fst]. exists b2. split; [reflexivity|]. rewrite L1 in D2.
    apply done_settled; auto. cbn. lia.
Qed.

Lemma try_splice_stuck fm k g s l b src lo hi : carries fm k g s l b -> noticed fm k b ->
  range_begin lo <= range_end hi (List.length l) <= List.length l ->
  stuck fm (List.length l + (announced src - (range_end hi (List.length l) - range_begin lo))) b ->
  try_splice (ump_ops (fmt_of fm) Fixed) b src lo hi = Panic.
Proof.
  intros C Nt AB St.
  destruct (Nat.lt_ge_cases (range_end hi (List.length l) - range_begin lo) (announced src)) as [G|G].
  2: { replace (announced src - _) with 0 in St by lia. rewrite Nat.add_0_r in St.
       unfold try_splice. now rewrite (splice_detail_stuck fm Fixed k g s l). }
  destruct AB as [A B]. destruct (compacted fm k g s l b C Nt) as (b0 & c & E0 & L0 & Ly & Sz & R0 & Hd).
  assert (Hg : (g < 16)%N) by (eapply carries_group_lt; eauto).
  unfold try_splice, splice_detail. cbn [ump_ops o_compact o_payload_size o_resize o_move]. rewrite E0. cbn [bind].
  rewrite Sz. cbn [bind].
  change (begin_of lo) with (range_begin lo). change (end_of hi (List.length l)) with (range_end hi (List.length l)).
  set (a := range_begin lo) in *. set (e := range_end hi (List.length l)) in *.
  set (m := List.length l + (announced src - (e - a))) in *.
  unfold sub_chk at 1. replace (e <? a) with false by lia. cbn [bind]. rewrite estimate_announced.
  replace (e <? e + announced src - (e - a)) with true by lia. unfold sub_chk at 1.
  replace (announced src + List.length l <? e - a) with false by lia. cbn [bind].
  replace (announced src + List.length l - (e - a)) with m by (unfold m; lia).
  destruct (lay_facts _ _ _ _ _ Hg Ly) as (P1 & P2 & P3 & P4).
  pose proof (okf_of fm) as H.
  assert (HL : f_words (fmt_of fm) * np (fmt_of fm) m <= List.length b0).
  { destruct St as (p & X & Y & _). rewrite words_of, L0. nia. }
  destruct (resize_at (fmt_of fm) Fixed b0 m b0 g H Hg) as (b1 & E1 & L1 & O1).
  { cbn [request]. f_equal. unfold fixed_try_resize. rewrite buffer_size_np by auto. lia. }
  { pose proof (np_pos (fmt_of fm) m H). lia. } { exact P3. }
  rewrite E1. cbn [bind]. unfold move_tail at 1.
  rewrite (stuck_uncompact fm m b1); [reflexivity|].
  assert (FR : framed (fmt_of fm) g m b1) by (eapply reheaded_framed; eauto).
  apply (stuck_heads fm m b); auto; [lia| |].
  - intros p Hp. apply (lay_type fm g _ m _ _ Hg (framed_lay fm g m b1 FR) Hp).
  - intros p Hp. destruct (reheaded_heads _ m g b0 b1 p H Hp O1) as [-> ->]. apply Hd.
    pose proof (np_mono (fmt_of fm) (List.length l) m H ltac:(unfold m; lia)). lia.
Qed.

(** [try_set_payload]: the message is emptied first. *)
Lemma try_reset_loose fm k g s l b : carries fm k g s l b ->
  exists b1, try_resize (fmt_of fm) Fixed b 0 = Val (b1, None) /\ List.length b1 = List.length b
    /\ carries fm 1 g None [] b1 /\ noticed fm 1 b1
    /\ forall m, (tidy_from fm (np (fmt_of fm) m) b -> tidy_from fm (np (fmt_of fm) m) b1)
       /\ (stuck fm m b -> stuck fm m b1).
Proof.
  intros C. pose proof (okf_of fm) as H.
  assert (Hg : (g < 16)%N) by (eapply carries_group_lt; eauto).
  pose proof (ca_some _ _ _ _ _ _ C) as K1. pose proof (ca_fits _ _ _ _ _ _ C) as HL. pose proof (words_pos fm) as Wp.
  assert (HL1 : f_words (fmt_of fm) * np (fmt_of fm) 0 <= List.length b) by (rewrite words_of; change (np (fmt_of fm) 0) with 1; nia).
  destruct (resize_at (fmt_of fm) Fixed b 0 b g H Hg) as (b1 & E1 & L1 & O1).
  { cbn [request]. f_equal. unfold fixed_try_resize. rewrite buffer_size_np by auto. lia. }
  { exact HL1. }
  { pose proof (ca_group _ _ _ _ _ _ C 0 ltac:(lia)) as Y. unfold group_of in Y. now rewrite Nat.mul_0_r, byte_oct in Y. }
  assert (FR : framed (fmt_of fm) g 0 b1) by (eapply reheaded_framed; eauto).
  exists b1. split; [exact E1|]. split; [exact L1|].
  destruct (framed_full fm g [] b1 Hg FR) as [C1 _]; [cbn; lia|].
  split; [exact C1|]. split; [intros p Hp; lia|]. intros m.
  assert (Hd : forall p, np (fmt_of fm) m <= p ->
     oct b1 (pb (fmt_of fm) * p) = oct b (pb (fmt_of fm) * p) /\ oct b1 (pb (fmt_of fm) * p + 1) = oct b (pb (fmt_of fm) * p + 1)).
  { intros p Hp. apply (reheaded_heads _ 0 g b b1 p H); [|exact O1].
    pose proof (np_pos (fmt_of fm) m H). change (np (fmt_of fm) 0) with 1. lia. }
  split; [now apply tidy_heads|].
  intros (p & A & B & Ex & T & Q). exists p. split; [exact A|]. split; [now rewrite L1|]. split; [exact Ex|].
  destruct (Hd p A) as [X Y]. split; [intros T'; apply T; now apply (tid_eq _ b1 b)|].
  intros q Hq. destruct (Nat.eq_dec q 0) as [->|Nq].
  - apply (carries_types fm 1 g None [] b1); [exact C1|lia].
  - destruct (reheaded_heads _ 0 g b b1 q H ltac:(change (np (fmt_of fm) 0) with 1; lia) O1) as [-> _]. now apply Q.
Qed.

(** ** All edits *)

Lemma same_packets fm k b b' : List.length b' = List.length b ->
  (forall p, type_of fm b' p = type_of fm b p) -> (forall p, status_nibble fm b' p = status_nibble fm b p) ->
  (forall p, size_nibble fm b' p = size_nibble fm b p) ->
  (noticed fm k b -> noticed fm k b') /\ (nothing_behind fm k b -> nothing_behind fm k b').
Proof.
  intros L T St Sz. assert (U : forall p, units_in fm b' p = units_in fm b p) by (intros p; unfold units_in; now rewrite Sz).
  split.
  - intros Nt p Hp Nu. rewrite U in Nu. destruct (Nt p Hp Nu) as (q & A & B & Ex). exists q. now rewrite U.
  - intros Nb p A B Ex. rewrite L in B. rewrite T, St, Sz. now apply Nb.
Qed.

Lemma set_byte_loose fm k g l b v i : loose_message fm k g l b -> i < List.length l -> is_unit fm v ->
  exists b', set_byte (fmt_of fm) b v i = Val b' /\ loose_message fm k g (with_unit l i v) b'
    /\ List.length b' = List.length b.
Proof.
  intros (C & Nt & Nb) Hi Hv. destruct (set_byte_carries fm k g None l b v i C Hi Hv) as (b' & E & C' & L & _).
  exists b'. split; [exact E|]. split; [|exact L].
  pose proof (carries_sized _ _ _ _ _ _ C) as Sz. pose proof (okf_facts _ (okf_of fm)) as F.
  pose proof (ca_payload _ _ _ _ _ _ C) as P. rewrite payload_span in P.
  pose proof (ca_fits _ _ _ _ _ _ C). pose proof (words_pos fm).
  destruct (set_byte_aux_ok (fmt_of fm) b v k (okf_of fm) Sz (proj2 (unit_ok_of fm v) Hv)
     (List.length b) 0 i) as (p & q & b2 & _ & Hp & Hq & Ei & E2 & UE); [lia|nia|now rewrite Nat.sub_0_r, P|].
  unfold set_byte in E. rewrite E in E2. injection E2 as <-.
  pose proof (cnt_le _ b k p Sz Hp) as Hc.
  assert (Hh : forall p' r, r < 2 -> byte b' (packet_bytes fm * p' + r) = byte b (packet_bytes fm * p' + r)).
  { intros p' r Hr. rewrite !byte_oct, <- pb_of.
    apply (unit_edit_head (fmt_of fm) (okf_of fm) b b' p q v); [lia|exact UE|lia]. }
  destruct (same_packets fm k b b' L) as [X Y].
  - intros p'. unfold type_of. pose proof (Hh p' 0 ltac:(lia)) as Z. rewrite Nat.add_0_r in Z. now rewrite Z.
  - intros p'. unfold status_nibble. now rewrite Hh by lia.
  - intros p'. unfold size_nibble. now rewrite Hh by lia.
  - split; [exact C'|]. auto.
Qed.

Lemma set_group_loose fm k g l b g' : loose_message fm k g l b -> (g' < 16)%N ->
  exists b', set_group (fmt_of fm) b g' = Val b' /\ loose_message fm k g' l b' /\ List.length b' = List.length b.
Proof.
  intros (C & Nt & Nb) Hg. destruct (set_group_packets fm b g' Hg) as (b' & E & L & T & G & X).
  exists b'. split; [exact E|]. split; [|exact L].
  destruct (set_group_carries fm k g None l b g' b' C Hg E) as (C' & _). split; [exact C'|].
  destruct (same_packets fm k b b' L T) as [A B]; [| |auto]; intros p; now apply payload_of_ext.
Qed.

Lemma message_loose fm g l b : message fm g None l b -> exists k, loose_message fm k g l b.
Proof.
  intros (k & C & [Fu _] & Len). exists k. split; [exact C|]. split.
  - intros p Hp Nu. now destruct (Nu (Fu p Hp)).
  - intros p A B. rewrite Len, exact_div in B by apply words_pos. lia.
Qed.
Lemma settled_loose fm g l b : settled fm g l b -> exists k, loose_message fm k g l b.
Proof.
  intros (k & C & [Fu _] & Nb). exists k. split; [exact C|]. split; [|exact Nb].
  intros p Hp Nu. now destruct (Nu (Fu p Hp)).
Qed.

Lemma replaced_end l x : replaced l (List.length l) (List.length l) x = l ++ x.
Proof. unfold replaced. now rewrite firstn_all, skipn_all, app_nil_r. Qed.

Lemma edit_loose fm k e b g l : loose_message fm k g l b -> legal fm e l -> ~ blocked fm k e l b ->
  exists b', apply_edit fm e b = Val b' /\ (exists k', loose_message fm k' (new_group e g) (new_payload e l) b')
    /\ (resizes e -> message fm g None (new_payload e l) b').
Proof.
  intros LM Lg Nbl. pose proof LM as (C & Nt & Nb).
  assert (Sp : forall src lo hi, legal fm (SplicePayload src lo hi) l ->
     ~ (announced src - (range_end hi (List.length l) - range_begin lo) = 0 /\ left_behind fm k (List.length l) b) ->
     exists b', splice (ump_ops (fmt_of fm) Growable) b src lo hi = Val b'
       /\ message fm g None (new_payload (SplicePayload src lo hi) l) b').
  { intros src lo hi [Hv R] X. apply (splice_loose fm k g None l b src lo hi C Nt Hv R).
    destruct (Nat.lt_ge_cases (range_end hi (List.length l) - range_begin lo) (announced src)) as [G|G]; [now left|right].
    apply (not_left_behind_tidy fm k g None l b); auto. intros Y. apply X. split; [lia|exact Y]. }
  pose proof (carries_reads _ _ _ _ _ _ C) as (_ & _ & Z).
  assert (Fin : forall b' l', message fm g None l' b' -> exists k', loose_message fm k' g l' b') by (intros; now apply message_loose).
  destruct e as [src|src lo hi|src i|src|v|v i|g']; cbn [apply_edit new_group new_payload blocked room_made resizes] in *;
    change (fmt_for fm) with (fmt_of fm).
  - destruct (set_payload_any fm b src None false) as (b' & E & M & _); auto; try discriminate.
    { now left. } { intros _. exact Logic.I. }
    rewrite (ca_group _ _ _ _ _ _ C 0) in M by apply C.
    exists b'. split; [exact E|]. split; [now apply Fin|auto].
  - destruct (Sp src lo hi Lg Nbl) as (b' & E & M). exists b'. split; [exact E|]. split; [now apply Fin|auto].
  - destruct (Sp src (Included i) (Excluded i)) as (b' & E & M).
    { destruct Lg. split; [assumption|]. cbn. lia. }
    { cbn [range_begin range_end]. now rewrite Nat.sub_diag, Nat.sub_0_r. }
    exists b'. split; [exact E|]. split; [now apply Fin|auto].
  - unfold append_payload. cbn [ump_ops o_payload_size]. rewrite Z. cbn [bind].
    destruct (Sp src (Included (List.length l)) (Excluded (List.length l))) as (b' & E & M).
    { split; [assumption|]. cbn. lia. }
    { cbn [range_begin range_end]. now rewrite Nat.sub_diag, Nat.sub_0_r. }
    cbn [new_payload range_begin range_end] in M. rewrite replaced_end in M.
    exists b'. split; [exact E|]. split; [now apply Fin|auto].
  - unfold append_byte, append_payload. cbn [ump_ops o_payload_size]. rewrite Z. cbn [bind].
    destruct (Sp {| s_items := [v]; s_hint := (1, Some 1) |} (Included (List.length l)) (Excluded (List.length l))) as (b' & E & M).
    { split; [repeat constructor; assumption|]. cbn. lia. }
    { cbn [range_begin range_end announced s_hint]. now rewrite Nat.sub_diag, Nat.sub_0_r. }
    cbn [new_payload range_begin range_end s_items] in M. rewrite replaced_end in M.
    exists b'. split; [exact E|]. split; [now apply Fin|auto].
  - destruct Lg as [Hv Hi]. destruct (set_byte_loose fm k g l b v i LM Hi Hv) as (b' & E & M & _).
    exists b'. split; [exact E|]. split; [eauto|tauto].
  - destruct (set_group_loose fm k g l b g' LM Lg) as (b' & E & M & _).
    exists b'. split; [exact E|]. split; [eauto|tauto].
Qed.

Lemma edit_blocked fm k e b g l : loose_message fm k g l b -> legal fm e l -> blocked fm k e l b ->
  apply_edit fm e b = Panic.
Proof.
  intros (C & Nt & Nb) Lg Bl.
  assert (Sp : forall src lo hi, range_begin lo <= range_end hi (List.length l) <= List.length l ->
     announced src - (range_end hi (List.length l) - range_begin lo) = 0 /\ left_behind fm k (List.length l) b ->
     splice (ump_ops (fmt_of fm) Growable) b src lo hi = Panic).
  { intros src lo hi R [X Y]. unfold splice. rewrite (splice_detail_stuck fm Growable k g None l b); auto; [lia|].
    now apply (left_behind_stuck fm k g None l b). }
  pose proof (carries_reads _ _ _ _ _ _ C) as (_ & _ & Z).
  destruct e as [src|src lo hi|src i|src|v|v i|g']; cbn [apply_edit blocked room_made legal] in *;
    change (fmt_for fm) with (fmt_of fm); try tauto.
  - apply Sp; tauto.
  - apply Sp; [cbn; lia|]. cbn [range_begin range_end]. now rewrite Nat.sub_diag, Nat.sub_0_r.
  - unfold append_payload. cbn [ump_ops o_payload_size]. rewrite Z. cbn [bind].
    apply Sp; [cbn; lia|]. cbn [range_begin range_end]. now rewrite Nat.sub_diag, Nat.sub_0_r.
  - destruct Bl as [Bl _]. discriminate.
Qed.

Lemma try_edit_loose fm k e b g l : loose_message fm k g l b -> legal fm e l -> announced_enough e l ->
  ~ fixed_blocked fm k e l b ->
  let '(l', ok) := fixed_outcome (room_in fm (List.length b)) e l in
  exists b', try_edit fm e b = Val (b', ok) /\ (exists k', loose_message fm k' (new_group e g) l' b')
    /\ List.length b' = List.length b
    /\ (resizes e -> exists k', carries fm k' g None l' b' /\ full_packets fm k' b').
Proof.
  intros LM Lg An Nbl. pose proof LM as (C & Nt & Nb).
  assert (Fin : forall b' l', settled fm g l' b' -> (exists k', loose_message fm k' g l' b')
     /\ exists k', carries fm k' g None l' b' /\ full_packets fm k' b').
  { intros b' l' M. split; [now apply settled_loose|]. destruct M as (k' & A & B & _). eauto. }
  assert (Sp : forall src lo hi, legal fm (SplicePayload src lo hi) l -> announced_enough (SplicePayload src lo hi) l ->
     ~ left_behind fm k (List.length l + (announced src - (range_end hi (List.length l) - range_begin lo))) b ->
     let l' := new_payload (SplicePayload src lo hi) l in let fits := List.length l' <=? room_in fm (List.length b) in
     exists b', try_splice (ump_ops (fmt_of fm) Fixed) b src lo hi = Val (b', fits)
       /\ settled fm g (if fits then l' else []) b' /\ List.length b' = List.length b).
  { intros src lo hi [Hv R] A X. apply (try_splice_loose fm k g None l b src lo hi C Nt Hv R A).
    now apply (not_left_behind_tidy fm k g None l b). }
  pose proof (carries_reads _ _ _ _ _ _ C) as (_ & _ & Z).
  assert (Room : List.length l <= room_in fm (List.length b)).
  { destruct (compacted fm k g None l b C Nt) as (b0 & c & _ & L0 & Ly & _).
    rewrite <- L0. apply (lay_facts fm g c (List.length l) b0); auto. eapply carries_group_lt; eauto. }
  unfold fixed_outcome.
  destruct e as [src|src lo hi|src i|src|v|v i|g']; cbn [try_edit new_group fixed_blocked room_made resizes legal announced_enough] in *;
    change (fmt_for fm) with (fmt_of fm).
  - cbn [new_payload]. unfold try_set_payload. cbn [ump_ops o_resize].
    destruct (try_reset_loose fm k g None l b C) as (b1 & E1 & L1 & C1 & N1 & T1). rewrite E1. cbn [bind].
    destruct (try_splice_loose fm 1 g None [] b1 src (Included 0) (Excluded 0) C1 N1 Lg) as (b' & E & M & L');
      [cbn; lia|now left| |].
    { cbn [range_begin range_end List.length Nat.add Nat.sub]. rewrite Nat.sub_0_r. apply T1.
      now apply (not_left_behind_tidy fm k g None l b). }
    cbn [range_begin range_end List.length] in E, M. unfold replaced in E, M. cbn [firstn skipn app] in E, M.
    rewrite app_nil_r in E, M. rewrite L1 in E, M, L'.
    unfold try_insert_payload. destruct (_ <=? _); exists b'; (split; [exact E|]); destruct (Fin _ _ M); auto.
  - destruct (Sp src lo hi Lg An Nbl) as (b' & E & M & L').
    destruct (_ <=? _); exists b'; (split; [exact E|]); destruct (Fin _ _ M); auto.
  - destruct (Sp src (Included i) (Excluded i)) as (b' & E & M & L').
    { destruct Lg. split; [assumption|]. cbn. lia. } { now left. }
    { cbn [range_begin range_end]. now rewrite Nat.sub_diag, Nat.sub_0_r. }
    unfold try_insert_payload. change (new_payload (InsertPayload src i) l) with (new_payload (SplicePayload src (Included i) (Excluded i)) l).
    destruct (_ <=? _); exists b'; (split; [exact E|]); destruct (Fin _ _ M); auto.
  - unfold try_append_payload. cbn [ump_ops o_payload_size]. rewrite Z. cbn [bind].
    destruct (Sp src (Included (List.length l)) (Excluded (List.length l))) as (b' & E & M & L').
    { split; [assumption|]. cbn. lia. } { now left. }
    { cbn [range_begin range_end]. now rewrite Nat.sub_diag, Nat.sub_0_r. }
    cbn [new_payload range_begin range_end] in E, M |- *. rewrite replaced_end in E, M. unfold try_insert_payload.
    destruct (_ <=? _); exists b'; (split; [exact E|]); destruct (Fin _ _ M); auto.
  - unfold try_append_byte, try_append_payload. cbn [ump_ops o_payload_size]. rewrite Z. cbn [bind].
    destruct (Sp {| s_items := [v]; s_hint := (1, Some 1) |} (Included (List.length l)) (Excluded (List.length l))) as (b' & E & M & L').
    { split; [repeat constructor; assumption|]. cbn. lia. } { now left. }
    { cbn [range_begin range_end announced s_hint]. now rewrite Nat.sub_diag, Nat.sub_0_r. }
    cbn [new_payload range_begin range_end s_items] in E, M |- *. rewrite replaced_end in E, M. unfold try_insert_payload.
    destruct (_ <=? _); exists b'; (split; [exact E|]); destruct (Fin _ _ M); auto.
  - destruct Lg as [Hv Hi]. destruct (set_byte_loose fm k g l b v i LM Hi Hv) as (b' & E & M & L'). cbn [new_payload].
    assert (Lw : List.length (with_unit l i v) = List.length l).
    { unfold with_unit. rewrite app_length. cbn [List.length]. rewrite firstn_length, skipn_length. lia. }
    replace (List.length (with_unit l i v) <=? room_in fm (List.length b)) with true by lia.
    exists b'. rewrite E. split; [reflexivity|]. split; [eauto|]. split; [exact L'|tauto].
  - destruct (set_group_loose fm k g l b g' LM Lg) as (b' & E & M & L'). cbn [new_payload].
    replace (List.length l <=? room_in fm (List.length b)) with true by lia.
    exists b'. rewrite E. split; [reflexivity|]. split; [eauto|]. split; [exact L'|tauto].
Qed.

Lemma try_edit_blocked fm k e b g l : loose_message fm k g l b -> legal fm e l -> fixed_blocked fm k e l b ->
  try_edit fm e b = Panic.
Proof.
  intros (C & Nt & Nb) Lg Bl.
  assert (Sp : forall src lo hi, range_begin lo <= range_end hi (List.length l) <= List.length l ->
     left_behind fm k (List.length l + (announced src - (range_end hi (List.length l) - range_begin lo))) b ->
     try_splice (ump_ops (fmt_of fm) Fixed) b src lo hi = Panic).
  { intros src lo hi R X. apply (try_splice_stuck fm k g None l b); auto. now apply (left_behind_stuck fm k g None l b). }
  pose proof (carries_reads _ _ _ _ _ _ C) as (_ & _ & Z).
  destruct e as [src|src lo hi|src i|src|v|v i|g']; cbn [try_edit fixed_blocked room_made legal] in *;
    change (fmt_for fm) with (fmt_of fm); try tauto.
  - unfold try_set_payload. cbn [ump_ops o_resize].
    destruct (try_reset_loose fm k g None l b C) as (b1 & E1 & L1 & C1 & N1 & T1). rewrite E1. cbn [bind].
    apply (try_splice_stuck fm 1 g None [] b1 src (Included 0) (Excluded 0) C1 N1); [cbn; lia|].
    cbn [range_begin range_end List.length Nat.add Nat.sub]. rewrite Nat.sub_0_r. apply T1.
    now apply (left_behind_stuck fm k g None l b).
  - apply Sp; tauto.
  - apply Sp; [cbn; lia|]. cbn [range_begin range_end]. now rewrite Nat.sub_diag, Nat.sub_0_r.
  - unfold try_append_payload. cbn [ump_ops o_payload_size]. rewrite Z. cbn [bind].
    apply Sp; [cbn; lia|]. cbn [range_begin range_end]. now rewrite Nat.sub_diag, Nat.sub_0_r.
  - unfold try_append_byte, try_append_payload. cbn [ump_ops o_payload_size]. rewrite Z. cbn [bind].
    apply Sp; [cbn; lia|]. cbn [range_begin range_end announced s_hint]. now rewrite Nat.sub_diag, Nat.sub_0_r.
Qed.

(** Every message of 8-bit packets that fills its buffer is of this kind. *)
Lemma exact_loose fm k g s l b : carries fm k g s l b -> List.length b = packet_words fm * k ->
  (fm = SevenBit -> forall p, S p < k -> units_in fm b p <> packet_room fm -> Nat.even p = true) ->
  loose_message fm k g l b.
Proof.
  intros C Len Ev. split.
  - destruct C as [A B T G I S Z P]. constructor; auto. intros p Hp E. exact Logic.I.
  - split.
    + intros p Hp Nu. exists p. split; [exact Hp|]. split; [exact Nu|]. intros E. now apply Ev.
    + intros p A B. rewrite Len, exact_div in B by apply words_pos. lia.
Qed.
