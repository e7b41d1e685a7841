(** C67: what edits of growable system exclusive messages cost. *)
From Coq Require Import NArith List Bool Arith Lia.
From Verif Require Import Base BitOps ByteView Message Sysex Splice ListLemmas SpliceLemmas SysexLayout SysexEdit SysexLaws SysexBytes SpecSysex SpecEdits SysexClient SysexBridge SysexHold SysexInit SysexHistory
  SpecCost Meter CostLemmas PropertiesSysex.
Import ListNotations.
Local Open Scope nat_scope.

Lemma needed_mono fm x y : x <= y -> packets_needed fm x <= packets_needed fm y.
Proof.
  intros H. unfold packets_needed. destruct (Nat.eqb_spec x 0) as [X|X], (Nat.eqb_spec y 0) as [Y|Y]; try lia.
  - destruct fm; cbn [packet_room]; apply Nat.div_le_lower_bound; lia.
  - destruct fm; cbn [packet_room]; apply Nat.div_le_mono; lia.
Qed.

Lemma within_chain k0 k1 k c d : within k1 (both k0 c) -> within k (both k1 d) -> within k (both k0 (both c d)).
Proof. unfold within, both. cbn [resizings headings peak moved stored]. lia. Qed.
Lemma both_nothing c : both nothing_yet c = c.
Proof. destruct c. reflexivity. Qed.

(** A resize of packets writes the header of every packet once. *)
Theorem C67_resize_heads : forall fm b n,
  try_resize (fmt_for fm) Growable b n
  = (let packets := packets_needed fm n in
     b' <- fold_left (fun acc i => b' <- acc ;; g <- idx b' 0 ;; head_packet (fmt_for fm) packets n (nibble32 g 1) i b')
             (seq 0 packets) (Val (vec_resize b (packet_words fm * packets))) ;;
     Val (b', None)).
Proof.
  intros fm b n. unfold try_resize. cbn [request]. rewrite (buffer_size_np (fmt_for fm) n (okf_of fm)).
  change (np (fmt_for fm) n) with (np (fmt_of fm) n). replace (np (fmt_of fm) n) with (packets_needed fm n) by (destruct fm; reflexivity).
  rewrite fmt_for_of, words_of, vec_resize_length. rewrite Nat.min_id, exact_div by apply words_pos. reflexivity.
Qed.
Print Assumptions C67_resize_heads.

(** Any history of payload edits of packets in a growable buffer, run with and without
    counters: the same buffers, and the counters are within the limits of SpecCost.v. *)
Theorem C67_packets : forall fm g l b es, message fm g None l b -> Forall resizes es -> all_legal fm es l ->
  exists b' k, run_edits (apply_edit fm) es b = Val b'
    /\ edits_over (metered_packets fm (fmt_for fm)) es (costed nothing_yet b) = Val (costed k b')
    /\ message fm g None (final_payload es l) b' /\ within k (limits (packets_needed fm) es l).
Proof.
  assert (G : forall es fm g l b k0, message fm g None l b -> Forall resizes es -> all_legal fm es l ->
    exists b' k, run_edits (apply_edit fm) es b = Val b'
    /\ edits_over (metered_packets fm (fmt_for fm)) es (costed k0 b) = Val (costed k b')
    /\ message fm g None (final_payload es l) b' /\ within k (both k0 (limits (packets_needed fm) es l))).
  { induction es as [|e es IH]; intros fm g l b k0 M Rz Lg; cbn [run_edits edits_over final_payload limits all_legal] in *.
    - exists b, k0. split; [reflexivity|]. split; [reflexivity|]. split; [exact M|]. unfold within, both. cbn. lia.
    - destruct Lg as [Lg Ls]. inversion Rz as [|? ? R1 R2]; subst.
      destruct (message_inv fm g None l b false M (or_introl eq_refl) ltac:(discriminate)) as [[HI _] Hg].
      destruct (edit_cost (packets_needed fm) _ _ _ _ _ (needed_mono fm) (ump_laws_growable (fmt_of fm) g None false (okf_of fm) Hg) fm e l b k0 HI)
        as (b1 & k1 & A & B & C & _); [intros v; apply unit_ok_of|exact R1|exact Lg|].
      destruct (edit_step fm e b g None l M (or_introl eq_refl) Lg) as (b2 & E2 & M2 & _).
      assert (A' : apply_edit fm e b = Val b1) by (destruct e; try contradiction; exact A).
      assert (b2 = b1) by congruence. subst b2.
      assert (M1 : message fm g None (new_payload e l) b1) by (destruct e; try contradiction; exact M2).
      destruct (IH fm g _ b1 k1 M1 R2 Ls) as (b' & k & D1 & D2 & D3 & D4).
      exists b', k. rewrite A'. unfold metered_packets at 1. rewrite fmt_for_of in *. rewrite B. cbn [bind].
      split; [exact D1|]. split; [exact D2|]. split; [exact D3|]. eapply within_chain; eauto. }
  intros fm g l b es M Rz Lg. destruct (G es fm g l b nothing_yet M Rz Lg) as (b' & k & A & B & C & D).
  rewrite both_nothing in D. eauto 6.
Qed.
Print Assumptions C67_packets.

(** Byte streams in a growable buffer. *)
Theorem C67_bytes : forall es l, Forall septet l -> Forall resizes es -> all_legal SevenBit es l ->
  exists k, run_edits apply_edit_b es (stream_bytes l) = Val (stream_bytes (final_payload es l))
    /\ edits_over metered_bytes es (costed nothing_yet (stream_bytes l)) = Val (costed k (stream_bytes (final_payload es l)))
    /\ within k (limits (fun _ => 1) es l).
Proof.
  assert (G : forall es l k0, Forall septet l -> Forall resizes es -> all_legal SevenBit es l ->
    exists k, run_edits apply_edit_b es (stream_bytes l) = Val (stream_bytes (final_payload es l))
    /\ edits_over metered_bytes es (costed k0 (stream_bytes l)) = Val (costed k (stream_bytes (final_payload es l)))
    /\ within k (both k0 (limits (fun _ => 1) es l))).
  { induction es as [|e es IH]; intros l k0 F Rz Lg; cbn [run_edits edits_over final_payload limits all_legal] in *.
    - exists k0. split; [reflexivity|]. split; [reflexivity|]. unfold within, both. cbn. lia.
    - destruct Lg as [Lg Ls]. inversion Rz as [|? ? R1 R2]; subst.
      pose proof (stream_inv l (septets_no_end l F)) as [HI _].
      destruct (edit_cost (fun _ => 1) _ _ _ _ _ (fun _ _ _ => le_n 1) bytes_laws_growable SevenBit e l _ k0 HI) as (b1 & k1 & A & B & C & _);
        [auto|exact R1|exact Lg|].
      pose proof (edit_step_b e l F Lg) as E2.
      assert (A' : apply_edit_b e (stream_bytes l) = Val b1) by (destruct e; try contradiction; exact A).
      assert (b1 = stream_bytes (new_payload e l)) by congruence. subst b1.
      destruct (IH (new_payload e l) k1 (new_payload_units SevenBit e l F Lg) R2 Ls) as (k & D1 & D2 & D3).
      exists k. rewrite A'. unfold metered_bytes at 1. rewrite B. cbn [bind].
      split; [exact D1|]. split; [exact D2|]. eapply within_chain; eauto. }
  intros es l F Rz Lg. destruct (G es l nothing_yet F Rz Lg) as (k & A & B & D).
  rewrite both_nothing in D. eauto.
Qed.
Print Assumptions C67_bytes.

(** Iterators that announce what they yield: two resizes (three for [set_payload]), room for
    the new payload and no more, every old byte moved at most twice, and at most three times
    as many headers written as the message has. *)
Theorem C67_announced : forall fm g l b e, message fm g None l b -> resizes e -> legal fm e l ->
  announced (given e) = items e ->
  exists b' k, apply_edit fm e b = Val b'
    /\ edit_over (metered_packets fm (fmt_for fm)) e (costed nothing_yet b) = Val (costed k b')
    /\ resizings k <= (match e with SetPayload _ => 3 | _ => 2 end) /\ headings k <= 3 * packets_needed fm (List.length (new_payload e l))
    /\ moved k <= 2 * List.length l /\ stored k = items e
    /\ peak k = List.length (new_payload e l).
Proof.
  intros fm g l b e M Rz Lg An.
  destruct (message_inv fm g None l b false M (or_introl eq_refl) ltac:(discriminate)) as [[HI _] Hg].
  destruct (edit_cost (packets_needed fm) _ _ _ _ _ (needed_mono fm) (ump_laws_growable (fmt_of fm) g None false (okf_of fm) Hg) fm e l b nothing_yet HI)
    as (b' & k & A & B & C & _ & _ & D & _); [intros v; apply unit_ok_of|exact Rz|exact Lg|].
  exists b', k. split; [destruct e; try contradiction; exact A|]. split; [exact B|].
  rewrite both_nothing in C. destruct C as (C1 & C0 & C2 & C3 & C4). unfold limit in *. cbn [resizings headings peak moved stored] in *.
  unfold raises in *. rewrite An in *. rewrite Nat.leb_refl in *.
  assert (Ln : kept_before e l + kept_behind e l + items e = List.length (new_payload e l) /\ 2 * kept_behind e l + replaced_by e l <= 2 * List.length l).
  { destruct e; cbn [kept_before kept_behind replaced_by legal new_payload] in *; try contradiction; unfold items, replaced in *; cbn [given s_items List.length] in *;
      rewrite ?app_length, ?firstn_length, ?skipn_length; cbn [List.length]; lia. }
  destruct Ln as [Ln Lm]. rewrite Ln in *. rewrite Nat.add_0_l, Nat.add_0_r in *.
  split; [exact C1|]. split; [|split; [lia|split; [exact C4|lia]]].
  apply (Nat.le_trans _ _ _ C0), Nat.mul_le_mono_r. destruct e; lia.
Qed.
Print Assumptions C67_announced.

Lemma fresh_none fm : message fm 0 None [] (fresh_words fm).
Proof. destruct (fresh_message fm) as [(k & [] & R) _]. exists k. split; [constructor; auto; intros; exact Logic.I|exact R]. Qed.

(** The room is not in proportion to what the iterator yields.  An iterator that may
    yield up to [n] bytes says so ([filter] over [n] bytes), and room for [n] bytes is
    asked for when it yields one. *)
Theorem C67_hint_refuted : ~ exists c, forall fm g l b e, message fm g None l b -> resizes e -> legal fm e l ->
  fst (s_hint (given e)) <= items e <= announced (given e) ->
  forall k b', edit_over (metered_packets fm (fmt_for fm)) e (costed nothing_yet b) = Val (costed k b') ->
    peak k <= c * (List.length l + items e) + c.
Proof.
  intros [c H]. set (n := 2 * c + 1).
  set (e := AppendPayload {| s_items := [0%N]; s_hint := (0, Some n) |}).
  pose proof (fresh_none SevenBit) as M.
  assert (Lg : legal SevenBit e []) by (repeat constructor).
  destruct (message_inv SevenBit 0 None [] _ false M (or_introl eq_refl) ltac:(discriminate)) as [[HI _] Hg].
  destruct (edit_cost (packets_needed SevenBit) _ _ _ _ _ (needed_mono SevenBit) (ump_laws_growable (fmt_of SevenBit) 0 None false (okf_of SevenBit) Hg) SevenBit e [] _ nothing_yet HI)
    as (b' & k & _ & B & _ & _ & _ & _ & C);
    [intros v; apply unit_ok_of|exact Logic.I|exact Lg|].
  specialize (H SevenBit 0%N [] _ e M Logic.I Lg). cbn [given e s_hint fst announced items s_items List.length snd kept_before kept_behind replaced_by] in *.
  specialize (H ltac:(lia) k b' B). specialize (C ltac:(lia)). unfold items in H. cbn [given e s_items List.length] in H. lia.
Qed.
Print Assumptions C67_hint_refuted.

(** A message that is built byte by byte takes work that grows with the square of its
    length, because every call writes all headers again. *)
Lemma append_heads : forall n l b k0, message SevenBit 0 None l b ->
  exists b' k, edits_over (metered_packets SevenBit fmt7) (repeat (AppendByte 0%N) n) (costed k0 b) = Val (costed k b')
    /\ 12 * headings k0 + n * n + 2 * n * List.length l <= 12 * headings k.
Proof.
  induction n as [|n IH]; intros l b k0 M; cbn [repeat edits_over].
  - exists b, k0. split; [reflexivity|]. lia.
  - destruct (message_inv SevenBit 0 None l b false M (or_introl eq_refl) ltac:(discriminate)) as [[HI _] Hg].
    destruct (edit_cost (packets_needed SevenBit) _ _ _ _ _ (needed_mono SevenBit) (ump_laws_growable (fmt_of SevenBit) 0 None false (okf_of SevenBit) Hg) SevenBit (AppendByte 0%N) l b k0 HI)
      as (b1 & k1 & A & B & _ & _ & C & _); [intros v; apply unit_ok_of|exact Logic.I|reflexivity|].
    destruct (edit_step SevenBit (AppendByte 0%N) b 0%N None l M (or_introl eq_refl) ltac:(reflexivity)) as (b2 & E2 & M2 & _).
    change (edit_over (ump_ops (fmt_of SevenBit) Growable) (AppendByte 0) b) with (apply_edit SevenBit (AppendByte 0) b) in A.
    assert (b2 = b1) by congruence. subst b2.
    destruct (IH _ b1 k1 M2) as (b' & k & D1 & D2). exists b', k. change fmt7 with (fmt_of SevenBit) in *. unfold metered_packets at 1. rewrite B. cbn [bind].
    split; [exact D1|]. cbn [kept_before kept_behind] in C. unfold items in C. cbn [given s_items List.length] in C.
    cbn [new_payload] in D2. rewrite app_length in D2. cbn [List.length] in D2.
    assert (List.length l + 0 + 1 <= 6 * packets_needed SevenBit (List.length l + 0 + 1)).
    { unfold packets_needed. destruct (Nat.eqb_spec (List.length l + 0 + 1) 0); [lia|]. cbn [packet_room].
      pose proof (Nat.div_mod (List.length l + 0 + 1 + 6 - 1) 6 ltac:(lia)). pose proof (Nat.mod_upper_bound (List.length l + 0 + 1 + 6 - 1) 6 ltac:(lia)). lia. }
    nia.
Qed.
Theorem C67_appending_refuted : ~ exists c, forall n k b',
  edits_over (metered_packets SevenBit fmt7) (repeat (AppendByte 0%N) n) (costed nothing_yet (fresh_words SevenBit)) = Val (costed k b') ->
  headings k <= c * n + c.
Proof.
  intros [c H]. destruct (append_heads (12 * c + 12) [] _ nothing_yet (fresh_none SevenBit)) as (b' & k & A & B).
  specialize (H _ _ _ A). cbn [List.length nothing_yet headings] in B. nia.
Qed.
Print Assumptions C67_appending_refuted.

(** Seven bytes replaced by twenty in a message of ten, from an iterator that announces none of
    them: the estimate is raised five times, to 1, 3, 7, 15 and 31. *)
Definition ten_bytes : list N := [1; 2; 3; 4; 5; 6; 7; 8; 9; 10]%N.
Definition twenty : source := {| s_items := repeat 9%N 20; s_hint := (0, None) |}.
Definition replace_seven : edit := SplicePayload twenty (Included 2) (Excluded 9).
Example C67_case :
  all_legal SevenBit [replace_seven; AppendByte 5%N] ten_bytes /\ raises replace_seven = 5
  /\ edits_over metered_bytes [replace_seven] (costed nothing_yet (stream_bytes ten_bytes))
     = Val (costed {| resizings := 6; headings := 6; peak := 34; moved := 7; stored := 20 |} (stream_bytes ([1; 2]%N ++ repeat 9%N 20 ++ [10%N])))
  /\ edits_over metered_bytes [replace_seven; AppendByte 5%N] (costed nothing_yet (stream_bytes ten_bytes))
     = Val (costed {| resizings := 8; headings := 8; peak := 34; moved := 7; stored := 21 |} (stream_bytes ([1; 2]%N ++ repeat 9%N 20 ++ [10; 5]%N))).
Proof.
  split; [split; [split; [|cbn; lia]|split; [reflexivity|exact Logic.I]]|split; [vm_compute; reflexivity|split; vm_compute; reflexivity]].
  cbn [twenty s_items repeat]. repeat constructor.
Qed.

(** The same edit of packets. *)
Definition ten_packed : list N := match apply_edit EightBit (SetPayload (exactly ten_bytes)) (fresh_words EightBit) with Val b => b | Panic => [] end.
Example C67_case_packets :
  message EightBit 0 None ten_bytes ten_packed
  /\ match edits_over (metered_packets EightBit fmt8) [replace_seven] (costed nothing_yet ten_packed) with
     | Val x => firstn 5 x = [6; 10; 34; 7; 20]%N /\ payload_list fmt8 (skipn 5 x) = Val ([1; 2]%N ++ repeat 9%N 20 ++ [10%N])
     | Panic => False
     end.
Proof.
  split; [|vm_compute; split; reflexivity].
  destruct (edit_step EightBit (SetPayload (exactly ten_bytes)) _ _ _ _ (fresh_none EightBit) (or_introl eq_refl)) as (b & E & Mb & _).
  { cbn [legal exactly s_items ten_bytes]. repeat constructor. }
  unfold ten_packed. rewrite E. exact Mb.
Qed.
