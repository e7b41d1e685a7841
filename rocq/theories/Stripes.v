(** Fields repeated at the head of every packet. *)
From Coq Require Import NArith List String Bool Arith Lia ZifyBool ZifyNat ZifyN.
From Verif Require Import Base BitOps Helpers Props SpecLayout BitLemmas ListLemmas PropLemmas PropWrite
  PropValidate.
Import ListNotations.
Local Open Scope N_scope.

(** The field [lo, lo+n) of the first word of packets [a .. a+k). *)
Definition stripes (stride : nat) (lo n : N) (a k : nat) : list seg :=
  map (fun i => Seg (stride * i) lo n) (seq a k).

Lemma stripes_in stride lo n a k s : In s (stripes stride lo n a k) <->
  exists i, (a <= i < a + k)%nat /\ s = Seg (stride * i) lo n.
Proof.
  unfold stripes. rewrite in_map_iff. split.
  - intros (i & <- & Hi). apply in_seq in Hi. exists i. split; auto.
  - intros (i & Hi & ->). exists i. split; auto. apply in_seq. lia.
Qed.

Lemma stripes_pairwise stride lo n a k : (0 < stride)%nat ->
  pairwise_disjoint (stripes stride lo n a k) = true.
Proof.
  intros Hs. revert a; induction k as [|k IH]; intros a; auto.
  unfold stripes. cbn [seq map pairwise_disjoint]. fold (stripes stride lo n (S a) k).
  rewrite IH, andb_true_r. apply forallb_forall. intros t Ht.
  apply stripes_in in Ht as (i & Hi & ->). unfold seg_disjoint. cbn [sg_w].
  destruct (Nat.eqb_spec (stride * a) (stride * i)) as [E|E]; auto. nia.
Qed.

Lemma fold_bind_panic {A} (f : A -> list N -> outcome (list N)) l :
  fold_left (fun acc i => b' <- acc ;; f i b') l Panic = Panic.
Proof. induction l; cbn; auto. Qed.

Lemma for_heads_puts_aux stride lo n (v : nat -> N) f k a b :
  (forall i, (a <= i < a + k)%nat -> (stride * i < List.length b)%nat) ->
  (forall i x, (a <= i < a + k)%nat -> f i x = replace_bits x (N.ones n) lo (v i)) ->
  fold_left (fun acc i => b' <- acc ;; upd b' (stride * i) (f i)) (seq a k) (Val b)
  = Val (puts b (map (fun i => (Seg (stride * i) lo n, v i)) (seq a k))).
Proof.
  revert a b; induction k as [|k IH]; intros a b Hl Hf; auto.
  cbn [seq fold_left bind map puts fst snd].
  rewrite (upd_put b (stride * a) (f a) lo n (v a)).
  - apply IH; intros; [rewrite put_length; apply Hl; lia|apply Hf; lia].
  - apply Hl. lia.
  - intros; apply Hf; lia.
Qed.

Lemma for_heads_puts stride lo n (v : nat -> N) f k b :
  (forall i, (i < k)%nat -> (stride * i < List.length b)%nat) ->
  (forall i x, (i < k)%nat -> f i x = replace_bits x (N.ones n) lo (v i)) ->
  for_heads stride k f b
  = Val (puts b (map (fun i => (Seg (stride * i) lo n, v i)) (seq 0 k))).
Proof. intros. apply for_heads_puts_aux; intros; [apply H|apply H0]; lia. Qed.

(** Effect of a loop over packet heads. *)
Lemma for_heads_spec u stride lo n (v : nat -> N) f k b :
  (0 < stride)%nat -> wf_buf u b -> lo + n <= unit_bits u ->
  (forall i, (i < k)%nat -> (stride * i < List.length b)%nat) ->
  (forall i x, (i < k)%nat -> f i x = replace_bits x (N.ones n) lo (v i)) ->
  (forall i, (i < k)%nat -> v i < 2 ^ n) ->
  exists b', for_heads stride k f b = Val b' /\ wf_buf u b' /\
    only_changes (stripes stride lo n 0 k) b b' /\
    forall i, (i < k)%nat -> bits b' (Seg (stride * i) lo n) = v i.
Proof.
  intros Hs Hwf Hu Hl Hf Hv. eexists. split; [apply (for_heads_puts stride lo n v f k b); assumption|].
  set (ps := map (fun i => (Seg (stride * i) lo n, v i)) (seq 0 k)).
  assert (E : map fst ps = stripes stride lo n 0 k) by (unfold ps; rewrite map_map; reflexivity).
  assert (Hok : puts_ok (List.length b) ps).
  { apply Forall_forall. intros x Hx. apply in_map_iff in Hx as (i & <- & Hi).
    apply in_seq in Hi. cbn [fst snd sg_w sg_n]. split; [apply Hl|apply Hv]; lia. }
  split; [|split].
  - apply puts_wf; auto. apply forallb_forall. intros x Hx. apply in_map_iff in Hx as (i & <- & Hi).
    unfold seg_fits. cbn [fst sg_lo sg_n]. lia.
  - rewrite <- E. now apply puts_only_changes.
  - intros i Hi. apply puts_bits; auto.
    + rewrite E. now apply stripes_pairwise.
    + apply in_map_iff. exists i. split; auto. apply in_seq. lia.
Qed.

Lemma stripes_disjoint_from s stride lo n a k :
  (forall i, (a <= i < a + k)%nat -> seg_disjoint s (Seg (stride * i) lo n) = true) ->
  forallb (seg_disjoint s) (stripes stride lo n a k) = true.
Proof.
  intros H. apply forallb_forall. intros t Ht. apply stripes_in in Ht as (i & Hi & ->). auto.
Qed.

(** A segment of the first packet is disjoint from a stripe when it is disjoint
    from its first element. *)
Lemma stripes_disjoint_first s stride lo n k :
  seg_disjoint s (Seg 0 lo n) = true -> (sg_w s < stride)%nat ->
  forallb (seg_disjoint s) (stripes stride lo n 0 k) = true.
Proof.
  intros H Hw. apply stripes_disjoint_from. intros i _. destruct i as [|i].
  - now rewrite Nat.mul_0_r.
  - unfold seg_disjoint. cbn [sg_w]. destruct (Nat.eqb_spec (sg_w s) (stride * S i)); auto. nia.
Qed.

(** *** The stream status and format setters *)

Lemma stream_status_write s b : wf_buf U32 b -> s < 2 ^ 10 ->
  exists b', prop_write U32 (PStreamStatus s) b Values.VUnit = Val b' /\ wf_buf U32 b' /\
    only_changes (stripes 4 16 10 0 (List.length b / 4)) b b' /\
    forall i, (i < List.length b / 4)%nat -> bits b' (Seg (4 * i) 16 10) = s.
Proof.
  intros Hwf Hs. cbn [prop_write].
  destruct (for_heads_spec U32 4 16 10 (fun _ => s)
              (fun _ x => N.lor (N.ldiff x 0x03FF0000) (N.shiftl s 16))
              (List.length b / 4) b) as (b' & H1 & H2 & H3 & H4); auto; try lia.
  - cbn. lia.
  - eauto.
Qed.

(** The number of whole leading packets of type F. *)
Lemma stream_packet_count_spec b :
  let k := stream_packet_count b in
  (k <= List.length b / 4)%nat /\
  (forall i, (i < k)%nat -> bits b (Seg (4 * i) 28 4) = 0xF) /\
  ((k < List.length b / 4)%nat -> bits b (Seg (4 * k) 28 4) <> 0xF).
Proof.
  unfold stream_packet_count. rewrite chunks_exact_spec by lia.
  rewrite take_while_map, map_length.
  rewrite (take_while_ext _ (fun i => bits b (Seg (4 * i) 28 4) =? 0xF)).
  2:{ intros i _. rewrite hd0_chunk by lia. now rewrite nibble32_bits. }
  destruct (take_while_seq (fun i => bits b (Seg (4 * i) 28 4) =? 0xF) 0 (List.length b / 4))
    as (k & H1 & H0 & H2 & H3).
  rewrite H0, seq_length. cbv zeta. split; [exact H1|]. split.
  - intros i Hi. specialize (H2 i Hi). cbn beta in H2. now apply N.eqb_eq in H2.
  - intros Hk. specialize (H3 Hk). cbn beta in H3. now apply N.eqb_neq in H3.
Qed.

Lemma stream_format_lt i k : stream_format i k < 2 ^ 2.
Proof. unfold stream_format. repeat destruct (_ : bool); cbn; lia. Qed.

Lemma set_format_fields_spec b : wf_buf U32 b -> (0 < stream_packet_count b)%nat ->
  exists b', set_format_fields b = Val b' /\ wf_buf U32 b' /\
    only_changes (stripes 4 26 2 0 (stream_packet_count b)) b b' /\
    forall i, (i < stream_packet_count b)%nat ->
      bits b' (Seg (4 * i) 26 2) = stream_format i (stream_packet_count b).
Proof.
  intros Hwf Hk. unfold set_format_fields.
  destruct (Nat.eqb_spec (stream_packet_count b) 0); [lia|].
  destruct (stream_packet_count_spec b) as (Hle & _ & _).
  apply (for_heads_spec U32 4 26 2 (fun i => stream_format i (stream_packet_count b))); auto; try lia.
  - cbn. lia.
  - intros. apply stream_format_lt.
Qed.
