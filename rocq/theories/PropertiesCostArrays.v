(** C67 in arrays: what edits of system exclusive messages in arrays cost. *)
From Coq Require Import NArith List Bool Arith Lia.
From Verif Require Import Base BitOps ByteView Message Sysex Splice ListLemmas SpliceLemmas SysexLayout SysexEdit SysexLaws SysexBytes SpecSysex SpecEdits SysexClient SysexBridge SysexHold SysexInit SysexHistory SysexFixedBytes
  SpecCost Meter CostLemmas CostArrays PropertiesSysex PropertiesCost.
Import ListNotations.
Local Open Scope nat_scope.

Lemma new_length e fm l : resizes e -> legal fm e l ->
  kept_before e l + kept_behind e l + items e = List.length (new_payload e l).
Proof.
  intros Rz Lg. destruct e; cbn [kept_before kept_behind legal new_payload resizes] in *; try contradiction; unfold items, replaced in *; cbn [given s_items List.length] in *;
    rewrite ?app_length, ?firstn_length, ?skipn_length; cbn [List.length]; lia.
Qed.
Lemma tried e fm b : resizes e -> try_over (ump_ops (fmt_for fm) Fixed) e b = try_edit fm e b.
Proof. destruct e; cbn [resizes]; try contradiction; reflexivity. Qed.
Lemma same_group e g : resizes e -> new_group e g = g.
Proof. destruct e; cbn [resizes]; try contradiction; reflexivity. Qed.
Lemma peak_new e fm l : resizes e -> legal fm e l -> List.length (new_payload e l) <= peak (limit (packets_needed fm) e l).
Proof.
  intros Rz Lg. rewrite <- (new_length e fm l Rz Lg). unfold limit. cbn [peak].
  destruct (Nat.leb_spec (items e) (announced (given e))); lia.
Qed.

(** A resize in an array writes the header of every packet of the new payload once, or,
    if there is no room for it, that of every packet of the array. *)
Theorem C67_array_resize_heads : forall fm b n,
  try_resize (fmt_for fm) Fixed b n
  = (let room := List.length b / packet_words fm in
     let fits := packet_words fm * packets_needed fm n <=? List.length b in
     let packets := if fits then packets_needed fm n else room in
     let n' := if fits then n else room_in fm (List.length b) in
     b' <- fold_left (fun acc i => b' <- acc ;; g <- idx b' 0 ;; head_packet (fmt_for fm) packets n' (nibble32 g 1) i b')
             (seq 0 packets) (Val b) ;;
     Val (b', if fits then None else Some n')).
Proof.
  intros fm b n. unfold try_resize. cbn [request]. rewrite (buffer_size_np (fmt_for fm) n (okf_of fm)).
  change (np (fmt_for fm) n) with (np (fmt_of fm) n). replace (np (fmt_of fm) n) with (packets_needed fm n) by (destruct fm; reflexivity).
  rewrite fmt_for_of, words_of, cap_of. unfold fixed_try_resize, room_in. cbn zeta.
  pose proof (words_pos fm) as W.
  destruct (Nat.ltb_spec (List.length b) (packet_words fm * packets_needed fm n)) as [X|X]; cbn [negb].
  - replace (packet_words fm * packets_needed fm n <=? List.length b) with false by (symmetry; apply Nat.leb_gt; exact X).
    now rewrite Nat.min_id.
  - replace (packet_words fm * packets_needed fm n <=? List.length b) with true by (symmetry; apply Nat.leb_le; exact X).
    rewrite exact_div by exact W. rewrite Nat.min_l; [reflexivity|]. apply Nat.div_le_lower_bound; lia.
Qed.
Print Assumptions C67_array_resize_heads.

(** A history of edits none of which asks for more than the array holds: all are
    accepted, and they cost no more than on a growable buffer. *)
Theorem C67_arrays : forall fm g s l b es, message_in fm g s l b -> Forall resizes es ->
  fixed_legal fm (room_in fm (List.length b)) es l ->
  peak (limits (packets_needed fm) es l) <= room_in fm (List.length b) ->
  exists b' k, run_tries (try_edit fm) es b = Val (b', map (fun _ => true) es)
    /\ tries_over (metered_array fm (fmt_for fm)) es (costed nothing_yet b) = Val (costed k b', map (fun _ => true) es)
    /\ message_in fm g s (final_payload es l) b' /\ within k (limits (packets_needed fm) es l).
Proof.
  assert (G : forall es fm g s l b k0, message_in fm g s l b -> Forall resizes es ->
    fixed_legal fm (room_in fm (List.length b)) es l ->
    peak (limits (packets_needed fm) es l) <= room_in fm (List.length b) ->
    exists b' k, run_tries (try_edit fm) es b = Val (b', map (fun _ => true) es)
    /\ tries_over (metered_array fm (fmt_for fm)) es (costed k0 b) = Val (costed k b', map (fun _ => true) es)
    /\ message_in fm g s (final_payload es l) b' /\ within k (both k0 (limits (packets_needed fm) es l))).
  { induction es as [|e es IH]; intros fm g s l b k0 M Rz Lg Pk; cbn [run_tries tries_over final_payload limits fixed_legal map] in *.
    - exists b, k0. split; [reflexivity|]. split; [reflexivity|]. split; [exact M|]. unfold within, both. cbn. lia.
    - destruct Lg as (Lg & An & Ls). inversion Rz as [|? ? R1 R2]; subst.
      unfold both in Pk. cbn [peak] in Pk. pose proof (peak_new e fm l R1 Lg) as Pn.
      destruct (message_in_inv fm g s l b false M ltac:(discriminate)) as [[HI _] Hg].
      pose proof (ump_laws_fixed (fmt_of fm) g s false (List.length b) (okf_of fm) Hg) as L.
      destruct (try_cost (packets_needed fm) _ _ _ _ _ _ _ (needed_mono fm) L fm e l b k0 HI)
        as (b1 & k1 & A & B & C & _); [intros v; apply unit_ok_of|exact R1|exact Lg|rewrite capacity_of; cbn [fits_in]; lia|now left|].
      destruct (fixed_step fm e b g s l M Lg An) as (b2 & E2 & M2 & Len & _).
      rewrite (same_group e g R1) in M2. unfold fixed_outcome in *.
      replace (List.length (new_payload e l) <=? room_in fm (List.length b)) with true in * by (symmetry; apply Nat.leb_le; lia).
      cbn [fst snd] in *. rewrite <- fmt_for_of in A. rewrite (tried e fm b R1) in A.
      assert (b2 = b1) by congruence. subst b2.
      rewrite <- Len in Ls, Pk. destruct (IH fm g s _ b1 k1 M2 R2 Ls ltac:(lia)) as (b' & k & D1 & D2 & D3 & D4).
      exists b', k. rewrite E2. unfold metered_array at 1. rewrite fmt_for_of in *. rewrite B. cbn [bind fst snd].
      rewrite D1, D2. cbn [bind fst snd].
      split; [reflexivity|]. split; [reflexivity|]. split; [exact D3|]. eapply within_chain; eauto. }
  intros fm g s l b es M Rz Lg Pk. destruct (G es fm g s l b nothing_yet M Rz Lg Pk) as (b' & k & A & B & C & D).
  rewrite both_nothing in D. eauto 6.
Qed.
Print Assumptions C67_arrays.

(** Iterators that announce what they yield, when the result fits: as on growable buffers. *)
Theorem C67_arrays_announced : forall fm g s l b e, message_in fm g s l b -> resizes e -> legal fm e l ->
  announced (given e) = items e -> List.length (new_payload e l) <= room_in fm (List.length b) ->
  exists b' k, try_edit fm e b = Val (b', true)
    /\ try_over (metered_array fm (fmt_for fm)) e (costed nothing_yet b) = Val (costed k b', true)
    /\ message_in fm g s (new_payload e l) b'
    /\ resizings k <= (match e with SetPayload _ => 3 | _ => 2 end) /\ headings k <= 3 * packets_needed fm (List.length (new_payload e l))
    /\ moved k <= 2 * List.length l /\ stored k = items e
    /\ peak k = List.length (new_payload e l).
Proof.
  intros fm g s l b e M Rz Lg An Ft. pose proof (new_length e fm l Rz Lg) as Ln.
  destruct (message_in_inv fm g s l b false M ltac:(discriminate)) as [[HI _] Hg].
  pose proof (ump_laws_fixed (fmt_of fm) g s false (List.length b) (okf_of fm) Hg) as L.
  destruct (try_cost (packets_needed fm) _ _ _ _ _ _ _ (needed_mono fm) L fm e l b nothing_yet HI)
    as (b' & k & A & B & C & _ & _ & D & _); [intros v; apply unit_ok_of|exact Rz|exact Lg|
      rewrite capacity_of; unfold limit; cbn [fits_in peak]; rewrite An, Nat.leb_refl; lia|now left|].
  rewrite <- fmt_for_of in A, B. rewrite (tried e fm b Rz) in A.
  destruct (fixed_step fm e b g s l M Lg) as (b2 & E2 & M2 & _ & _).
  { destruct e; cbn [announced_enough] in *; auto. right. cbn [given] in An. unfold items in An. cbn [given] in An. lia. }
  rewrite (same_group e g Rz) in M2. unfold fixed_outcome in *.
  replace (List.length (new_payload e l) <=? room_in fm (List.length b)) with true in * by (symmetry; apply Nat.leb_le; lia).
  cbn [fst snd] in *. assert (b2 = b') by congruence. subst b2.
  exists b', k. split; [exact A|]. split; [exact B|]. split; [exact M2|].
  rewrite both_nothing in C. destruct C as (C1 & C0 & C2 & C3 & C4). unfold limit in *. cbn [resizings headings peak moved stored] in *.
  unfold raises in *. rewrite An in *. rewrite Nat.leb_refl in *.
  assert (Lm : 2 * kept_behind e l + replaced_by e l <= 2 * List.length l).
  { destruct e; cbn [kept_behind replaced_by legal] in *; try contradiction; lia. }
  rewrite Ln in *. rewrite Nat.add_0_l, Nat.add_0_r in *.
  split; [exact C1|]. split; [|split; [lia|split; [exact C4|lia]]].
  apply (Nat.le_trans _ _ _ C0), Nat.mul_le_mono_r. destruct e; lia.
Qed.
Print Assumptions C67_arrays_announced.

(** An edit that does not fit is not refused at once: the bytes supplied are written until
    the array is full, the bytes behind the edit are moved up to twice, and the message is
    resized three times (four by [set_payload]), at last to nothing. *)
Theorem C67_arrays_refused : forall fm g s l b e, message_in fm g s l b -> resizes e -> legal fm e l ->
  items e <= announced (given e) -> room_in fm (List.length b) < List.length (new_payload e l) ->
  exists b' k, try_edit fm e b = Val (b', false)
    /\ try_over (metered_array fm (fmt_for fm)) e (costed nothing_yet b) = Val (costed k b', false)
    /\ message_in fm g s [] b'
    /\ resizings k = (match e with SetPayload _ => 4 | _ => 3 end)
    /\ headings k <= 2 * (List.length b / packet_words fm) + 2
    /\ peak k = List.length (new_payload e l) + (announced (given e) - items e)
    /\ moved k <= 2 * kept_behind e l
    /\ stored k = items e - (List.length (new_payload e l) - room_in fm (List.length b)).
Proof.
  intros fm g s l b e M Rz Lg An Ft. pose proof (new_length e fm l Rz Lg) as Ln.
  destruct (message_in_inv fm g s l b false M ltac:(discriminate)) as [[HI _] Hg].
  pose proof (ump_laws_fixed (fmt_of fm) g s false (List.length b) (okf_of fm) Hg) as L.
  rewrite capacity_of in L. pose proof (l_le _ _ _ _ _ _ _ L _ _ HI) as Hn. cbn [fits_in] in Hn.
  destruct (try_refused_cost (packets_needed fm) _ _ _ _ _ _ _ L fm e l b nothing_yet HI)
    as (b' & k & A & B & C1 & C2 & C3 & C4 & C5); [intros v; apply unit_ok_of|exact Rz|exact Lg|exact An|lia|now left|].
  rewrite <- fmt_for_of in A, B. rewrite (tried e fm b Rz) in A.
  destruct (fixed_step fm e b g s l M Lg) as (b2 & E2 & M2 & _ & _).
  { destruct e; cbn [announced_enough] in *; auto. }
  rewrite (same_group e g Rz) in M2. unfold fixed_outcome in *.
  replace (List.length (new_payload e l) <=? room_in fm (List.length b)) with false in * by (symmetry; apply Nat.leb_gt; lia).
  cbn [fst snd] in *. assert (b2 = b') by congruence. subst b2.
  exists b', k. split; [exact A|]. split; [exact B|]. split; [exact M2|].
  cbn [nothing_yet resizings headings peak moved stored] in *.
  split; [exact C1|]. split; [|split; [lia|split; [lia|]]].
  - assert (P : 1 <= List.length b / packet_words fm).
    { destruct M as [(q & Cq & _) _]. pose proof (ca_fits _ _ _ _ _ _ Cq). pose proof (ca_some _ _ _ _ _ _ Cq).
      apply Nat.div_le_lower_bound; destruct fm; cbn [packet_words] in *; lia. }
    assert (H0 : packets_needed fm 0 = 1) by reflexivity. rewrite H0 in C2.
    assert (Hc : packets_needed fm (room_in fm (List.length b)) = List.length b / packet_words fm).
    { unfold packets_needed, room_in. set (q := List.length b / packet_words fm) in *. clearbody q. clear - P.
      destruct fm; cbn [packet_room] in *; replace (_ =? 0) with false by (symmetry; apply Nat.eqb_neq; lia); symmetry.
      - apply Nat.div_unique with (r := 5); lia.
      - apply Nat.div_unique with (r := 12); lia. }
    rewrite Hc in C2. destruct e; lia.
  - assert (kept_before e l + kept_behind e l <= List.length l); [|lia].
    destruct e; cbn [kept_before kept_behind legal resizes] in *; try contradiction; lia.
Qed.
Print Assumptions C67_arrays_refused.

(** ** Arrays of bytes *)

Lemma tried_bytes e b : resizes e -> try_over (bytes_ops Fixed) e b = try_edit_b e b.
Proof. destruct e; cbn [resizes]; try contradiction; reflexivity. Qed.

(** Byte streams in an array: edits that announce what they yield and do not make the payload
    shorter, of a message with no stray end byte behind it. *)
Theorem C67_byte_arrays_announced : forall l r e, Forall septet l -> Forall (fun x => x <> 0xF7%N) r -> resizes e -> legal SevenBit e l ->
  not_shrinking e l -> List.length (new_payload e l) <= List.length l + List.length r ->
  exists r' k, try_edit_b e (stream_bytes l ++ r) = Val (stream_bytes (new_payload e l) ++ r', true)
    /\ try_over metered_byte_array e (costed nothing_yet (stream_bytes l ++ r))
       = Val (costed k (stream_bytes (new_payload e l) ++ r'), true)
    /\ resizings k <= (match e with SetPayload _ => 3 | _ => 2 end) /\ headings k <= 3
    /\ moved k <= 2 * List.length l /\ stored k = items e
    /\ peak k = List.length (new_payload e l).
Proof.
  intros l r e Hl Hr Rz Lg G Ft. pose proof (new_length e SevenBit l Rz Lg) as Ln.
  assert (An : announced (given e) = items e /\ match e with SetPayload _ => l = [] | _ => True end).
  { unfold items. destruct e; cbn [not_shrinking given resizes s_items List.length] in *; try contradiction; tauto. }
  destruct An as [An Se].
  destruct (fixed_bytes_inv l r _ (septets_no_end l Hl) Hr eq_refl) as [HI _].
  destruct (try_cost (fun _ => 1) _ _ _ _ _ _ _ (fun _ _ _ => le_n 1) (bytes_laws_fixed _) SevenBit e l _ nothing_yet HI)
    as (b' & k & A & B & C & _ & _ & D & _); [auto|exact Rz|exact Lg| |right; split; [rewrite An; lia|exact Se]|].
  { rewrite app_length, stream_bytes_length. unfold limit. cbn [fits_in peak]. rewrite An, Nat.leb_refl. lia. }
  rewrite (tried_bytes e _ Rz) in A.
  pose proof (grow_step_b e l r Hl Hr Lg G) as S.
  replace (List.length (new_payload e l) <=? List.length l + List.length r) with true in S by (symmetry; apply Nat.leb_le; lia).
  destruct S as (r' & E & _). rewrite A in E. injection E as E. subst b'.
  exists r', k. split; [exact A|]. split; [exact B|].
  rewrite both_nothing in C. destruct C as (C1 & C0 & C2 & C3 & C4). unfold limit in *. cbn [resizings headings peak moved stored] in *.
  unfold raises in *. rewrite An in *. rewrite Nat.leb_refl in *.
  assert (Lm : 2 * kept_behind e l + replaced_by e l <= 2 * List.length l).
  { destruct e; cbn [kept_behind replaced_by legal] in *; try contradiction; lia. }
  rewrite Ln in *. rewrite Nat.add_0_l, Nat.add_0_r in *.
  split; [exact C1|]. split; [destruct e; lia|split; [lia|split; [exact C4|lia]]].
Qed.
Print Assumptions C67_byte_arrays_announced.

Theorem C67_byte_arrays_refused : forall l r e, Forall septet l -> Forall (fun x => x <> 0xF7%N) r -> resizes e -> legal SevenBit e l ->
  not_shrinking e l -> List.length l + List.length r < List.length (new_payload e l) ->
  exists r' k, try_edit_b e (stream_bytes l ++ r) = Val (stream_bytes [] ++ r', false)
    /\ try_over metered_byte_array e (costed nothing_yet (stream_bytes l ++ r)) = Val (costed k (stream_bytes [] ++ r'), false)
    /\ resizings k = (match e with SetPayload _ => 4 | _ => 3 end) /\ headings k = resizings k
    /\ peak k = List.length (new_payload e l) /\ moved k <= 2 * kept_behind e l
    /\ stored k = items e - (List.length (new_payload e l) - (List.length l + List.length r)).
Proof.
  intros l r e Hl Hr Rz Lg G Ft. pose proof (new_length e SevenBit l Rz Lg) as Ln.
  assert (An : announced (given e) = items e /\ match e with SetPayload _ => l = [] | _ => True end).
  { unfold items. destruct e; cbn [not_shrinking given resizes s_items List.length] in *; try contradiction; tauto. }
  destruct An as [An Se].
  destruct (fixed_bytes_inv l r _ (septets_no_end l Hl) Hr eq_refl) as [HI _].
  pose proof (bytes_laws_fixed (List.length (stream_bytes l ++ r))) as L.
  replace (List.length (stream_bytes l ++ r) - 2) with (List.length l + List.length r) in L
    by (rewrite app_length, stream_bytes_length; lia).
  destruct (try_refused_cost (fun _ => 1) _ _ _ _ _ _ _ L SevenBit e l _ nothing_yet HI)
    as (b' & k & A & B & C1 & C2 & C3 & C4 & C5); [auto|exact Rz|exact Lg|rewrite An; lia|lia|now right|].
  rewrite (tried_bytes e _ Rz) in A.
  pose proof (grow_step_b e l r Hl Hr Lg G) as S.
  replace (List.length (new_payload e l) <=? List.length l + List.length r) with false in S by (symmetry; apply Nat.leb_gt; lia).
  destruct S as (r' & E & _). rewrite A in E. injection E as E. subst b'.
  exists r', k. split; [exact A|]. split; [exact B|].
  cbn [nothing_yet resizings headings peak moved stored] in *.
  split; [exact C1|]. split; [destruct e; lia|]. split; [lia|]. split; [lia|].
  assert (kept_before e l + kept_behind e l <= List.length l); [|lia].
  destruct e; cbn [kept_before kept_behind legal resizes] in *; try contradiction; lia.
Qed.
Print Assumptions C67_byte_arrays_refused.

(** Three packets of room: eighteen bytes.  Ten bytes are set and two inserted; then an
    insertion of ten more is refused after six of them were written and the eight bytes
    behind them moved. *)
Definition roomy : list N := match sx_try_new fmt7 6 with Val (Ok b) => b | _ => [] end.
Definition accepted : list edit := [SetPayload (exactly ten_bytes); InsertPayload (exactly [20; 21]%N) 4].
Definition refused : edit := InsertPayload (exactly ten_bytes) 4.
Definition edited : list N := match run_tries (try_edit SevenBit) accepted roomy with Val (b, _) => b | Panic => [] end.
Example C67_arrays_case :
  message_in SevenBit 0 (Some 0%N) [] roomy /\ fixed_legal SevenBit (room_in SevenBit (List.length roomy)) accepted []
  /\ peak (limits (packets_needed SevenBit) accepted []) = 12 /\ room_in SevenBit (List.length roomy) = 18
  /\ tries_over (metered_array SevenBit fmt7) accepted (costed nothing_yet roomy)
     = Val (costed {| resizings := 5; headings := 9; peak := 12; moved := 6; stored := 12 |} edited, [true; true])
  /\ List.length (new_payload refused (final_payload accepted [])) = 22
  /\ exists b', try_over (metered_array SevenBit fmt7) refused (costed nothing_yet edited)
     = Val (costed {| resizings := 3; headings := 7; peak := 22; moved := 8; stored := 6 |} b', false).
Proof.
  split; [|split; [|split; [reflexivity|split; [reflexivity|split; [vm_compute; reflexivity|split; [reflexivity|eexists; vm_compute; reflexivity]]]]]].
  - pose proof (try_new_fresh SevenBit 6) as T. cbn [packet_words Nat.ltb Nat.leb] in T. destruct T as (b0 & E0 & _ & M0 & _).
    assert (b0 = roomy) by (unfold roomy; change fmt7 with (fmt_of SevenBit); rewrite E0; reflexivity). now subst.
  - cbn. repeat split; auto; repeat constructor; try (cbn; lia).
Qed.

(** Room for five bytes: two are appended to two; then three more are refused. *)
Definition two_bytes : list N := [1; 2]%N.
Definition behind : list N := [0; 0; 0]%N.
Example C67_byte_arrays_case :
  Forall septet two_bytes /\ Forall (fun x => x <> 0xF7%N) behind /\ not_shrinking (AppendPayload (exactly two_bytes)) two_bytes
  /\ try_over metered_byte_array (AppendPayload (exactly two_bytes)) (costed nothing_yet (stream_bytes two_bytes ++ behind))
     = Val (costed {| resizings := 2; headings := 2; peak := 4; moved := 0; stored := 2 |} (stream_bytes (two_bytes ++ two_bytes) ++ [0]%N), true)
  /\ exists r', try_over metered_byte_array (InsertPayload (exactly [7; 8; 9]%N) 1) (costed nothing_yet (stream_bytes (two_bytes ++ two_bytes) ++ [0]%N))
     = Val (costed {| resizings := 3; headings := 3; peak := 7; moved := 3; stored := 1 |} (stream_bytes [] ++ r'), false).
Proof.
  split; [repeat constructor|]. split; [|split; [reflexivity|split; [vm_compute; reflexivity|]]].
  - unfold behind. repeat constructor; discriminate.
  - match goal with |- exists r', ?x = _ => let y := eval vm_compute in x in
      match y with Val (_ :: _ :: _ :: _ :: _ :: _ :: _ :: ?r, _) => exists r; vm_compute; reflexivity end end.
Qed.
