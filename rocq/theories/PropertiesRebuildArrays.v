(** C53 on arrays: a system exclusive message built in an array is its group and payload. *)
From Coq Require Import NArith List Bool Arith Lia.
From Verif Require Import Base BitOps ListLemmas Message Sysex Splice SpecSysex SpecEdits SpecSysexWire SysexClient Clients ByteView
  SysexLayout SysexBridge SysexHold SysexInit SysexHistory RebuildSysex RebuildArrays PropertiesRebuildSysex.
Import ListNotations.
Local Open Scope nat_scope.

Lemma try_new_blank fm n b : sx_try_new (fmt_of fm) n = Val (Ok b) -> blank (fmt_of fm) 0 b.
Proof.
  intros E i _. revert E. unfold sx_try_new, fixed_try_resize. rewrite repeat_length, words_of.
  destruct (Nat.ltb_spec n (packet_words fm)); cbn [negb]; [discriminate|].
  destruct (init_front fm (repeat 0%N n)) as (b2 & E & L & H0 & M & R).
  - now rewrite repeat_length.
  - intros. apply nth_repeat.
  - rewrite E. cbn [bind]. intros [= <-].
    assert (Rz : forall j, 0 < j -> nth j b2 0%N = 0%N).
    { intros j Hj. destruct (Nat.lt_ge_cases j (packet_words fm)); [apply M; lia|].
      rewrite R; [apply nth_repeat| |auto]. apply type_zero, byte_zero_word, nth_repeat. }
    rewrite <- byte_oct.
    destruct (Nat.lt_ge_cases (pos (fmt_of fm) i) 4) as [X|X].
    + unfold byte. rewrite Nat.div_small, Nat.mod_small by lia. rewrite H0. revert X. unfold pos, pb.
      destruct fm; cbn -[Nat.div Nat.modulo Nat.mul Nat.add]; intros X.
      * assert (i / 6 = 0) by lia. pose proof (Nat.mod_upper_bound i 6 ltac:(lia)).
        assert (i mod 6 = 0 \/ i mod 6 = 1) as [->| ->] by lia; rewrite H1; reflexivity.
      * assert (i / 13 = 0) by lia. assert (i mod 13 = 0) by lia. rewrite H1, H2. reflexivity.
    + apply byte_zero_word, Rz. apply Nat.div_str_pos. lia.
Qed.

Lemma clean_firstn fm n b : clean_bytes fm b -> clean_bytes fm (firstn n b).
Proof.
  intros C E j Hj. specialize (C E j Hj). unfold byte in *. rewrite nth_firstn.
  destruct (_ <? _); [exact C|]. rewrite N.div_0_l by (apply N.pow_nonzero; discriminate). reflexivity.
Qed.

(** Whatever happened before, accepted or refused for lack of room: a message of
    more than one packet is sent as its group and payload and nothing else, though
    the array may still hold other bytes behind it. *)
Theorem C53_arrays_long : forall fm n es, packet_words fm <= n ->
  fixed_legal fm (room_in fm n) es [] ->
  packet_room fm < List.length (fst (fixed_history (room_in fm n) es [])) ->
  exists b0 b' d, sx_try_new (fmt_for fm) n = Val (Ok b0)
    /\ run_tries (try_edit fm) es b0 = Val (b', snd (fixed_history (room_in fm n) es []))
    /\ sx_data (fmt_for fm) b' = Val d
    /\ sent_bytes d = sysex_wire fm (final_group es 0%N) (fst (fixed_history (room_in fm n) es [])).
Proof.
  intros fm n es Hn Lg Lo. pose proof (try_new_fresh fm n) as T. replace (n <? packet_words fm) with false in T
    by (symmetry; apply Nat.ltb_ge; lia).
  destruct T as (b0 & E0 & L0 & M0 & C0). rewrite <- L0 in Lg, Lo.
  destruct (fixed_history_ump fm (Some 0%N) es b0 _ _ M0 Lg) as (b' & E & M & Len & Cl).
  destruct (message_in_reads _ _ _ _ _ M) as ((d & D & Md & Ed) & _).
  exists b0, b', d. rewrite fmt_for_of. rewrite L0 in *.
  split; [exact E0|]. split; [exact E|]. split; [exact D|].
  apply blank_wire.
  - destruct Md as (k & C & _). exact (carries_group_lt _ _ _ _ _ _ C).
  - exact Md.
  - rewrite Ed. apply clean_firstn. auto.
  - apply (blank_end_data fm _ _ _ b' d Md Ed). rewrite <- L0 in *.
    apply (fixed_history_clears fm (Some 0%N) es b0 0%N [] b' (snd (fixed_history (room_in fm (List.length b0)) es [])) M0 Lg); [|exact E|exact Lo].
    cbn [List.length]. lia.
Qed.
Print Assumptions C53_arrays_long.

(** So is a message of any length whose payload was never shortened, if it fits. *)
Theorem C53_arrays_growing : forall fm n es, packet_words fm <= n -> growing fm es [] ->
  List.length (final_payload es []) <= room_in fm n ->
  exists b0 b' d, sx_try_new (fmt_for fm) n = Val (Ok b0)
    /\ run_tries (try_edit fm) es b0 = Val (b', map (fun _ => true) es)
    /\ sx_data (fmt_for fm) b' = Val d
    /\ sent_bytes d = sysex_wire fm (final_group es 0%N) (final_payload es []).
Proof.
  intros fm n es Hn Gr Ft. pose proof (try_new_fresh fm n) as T. replace (n <? packet_words fm) with false in T
    by (symmetry; apply Nat.ltb_ge; lia).
  destruct T as (b0 & E0 & L0 & M0 & C0). rewrite <- L0 in Ft.
  destruct (fixed_growing_history fm (Some 0%N) es b0 _ _ M0 Gr Ft (try_new_blank fm n b0 E0))
    as (b' & E & M & Len & Cl & Bl).
  destruct (message_in_reads _ _ _ _ _ M) as ((d & D & Md & Ed) & _).
  exists b0, b', d. rewrite fmt_for_of.
  split; [exact E0|]. split; [exact E|]. split; [exact D|].
  apply blank_wire.
  - destruct Md as (k & C & _). exact (carries_group_lt _ _ _ _ _ _ C).
  - exact Md.
  - rewrite Ed. apply clean_firstn. auto.
  - apply (blank_end_data fm _ _ _ b' d Md Ed). intros i Hi _. now apply Bl.
Qed.
Print Assumptions C53_arrays_growing.

(** An array and a vector that went through the same growing history send the same. *)
Theorem C53_arrays_like_vectors : forall fm n es, packet_words fm <= n -> growing fm es [] ->
  List.length (final_payload es []) <= room_in fm n ->
  exists b0 b' d v0 v, sx_try_new (fmt_for fm) n = Val (Ok b0)
    /\ run_tries (try_edit fm) es b0 = Val (b', map (fun _ => true) es) /\ sx_data (fmt_for fm) b' = Val d
    /\ sx_new (fmt_for fm) = Val v0 /\ run_edits (apply_edit fm) es v0 = Val v
    /\ sent_bytes d = sent_bytes v.
Proof.
  intros fm n es Hn Gr Ft. destruct (C53_arrays_growing fm n es Hn Gr Ft) as (b0 & b' & d & A & B & C & D).
  destruct (C53_sysex_growing fm es Gr) as (v0 & v & E & F & G).
  exists b0, b', d, v0, v. repeat (split; [assumption|]). congruence.
Qed.
Print Assumptions C53_arrays_like_vectors.

(** An edit refused for lack of room empties the message, but what it held stays
    in the packet and is sent behind the next short payload. *)
Definition refused : list edit :=
  [SetPayload (listed (bytes_up 6)); AppendPayload (listed (bytes_up 20)); AppendByte 9].
Theorem C53_arrays_refused_refuted : exists b0 b c d e oks,
  fixed_legal SevenBit (room_in SevenBit 4) refused []
  /\ sx_try_new (fmt_for SevenBit) 4 = Val (Ok b0)
  /\ run_tries (try_edit SevenBit) refused b0 = Val (b, oks) /\ oks = [true; false; true]
  /\ run_tries (try_edit SevenBit) [AppendByte 9] b0 = Val (c, [true])
  /\ payload_list (fmt_for SevenBit) b = Val [9]%N /\ payload_list (fmt_for SevenBit) c = Val [9]%N
  /\ sx_data (fmt_for SevenBit) b = Val d /\ sx_data (fmt_for SevenBit) c = Val e
  /\ sent_bytes e = sysex_wire SevenBit 0 [9]%N /\ sent_bytes d = [0x30; 0x01; 9; 2; 3; 4; 5; 6]%N.
Proof.
  do 6 eexists. split.
  - split; [exact (bytes_up_units SevenBit 6 ltac:(lia))|]. split; [exact I|].
    split; [exact (bytes_up_units SevenBit 20 ltac:(lia))|]. split; [exact I|]. repeat split; cbn; lia.
  - repeat (split; [vm_compute; reflexivity|]). vm_compute. reflexivity.
Qed.
Print Assumptions C53_arrays_refused_refuted.

(** Concrete histories that meet the hypotheses. *)
Example C53_arrays_case :
  let es := [SetPayload (listed (bytes_up 30)); SetPayload (listed (bytes_up 18)); SetGroup 9;
             SplicePayload (listed (bytes_up 2)) (Excluded 3) (Included 12)] in
  let fs := [SetPayload (listed (bytes_up 4)); AppendByte 77; InsertPayload (listed (bytes_up 3)) 2] in
  (packet_words SevenBit <= 7 /\ fixed_legal SevenBit (room_in SevenBit 7) es []
   /\ fixed_history (room_in SevenBit 7) es [] = ([1; 2; 3; 4; 1; 2; 14; 15; 16; 17; 18]%N, [false; true; true; true])
   /\ packet_room SevenBit < 11)
  /\ (growing EightBit fs [] /\ List.length (final_payload fs []) <= room_in EightBit 5).
Proof.
  assert (A : Forall (is_unit SevenBit) (bytes_up 30)) by (apply bytes_up_units; lia).
  assert (B : Forall (is_unit SevenBit) (bytes_up 18)) by (apply bytes_up_units; lia).
  split; [split; [cbn; lia|split; [|split; [vm_compute; reflexivity|cbn; lia]]]|split].
  - split; [exact A|]. split; [exact I|]. split; [exact B|]. split; [exact I|]. split; [reflexivity|]. split; [exact I|].
    split; [split; [exact (bytes_up_units SevenBit 2 ltac:(lia))|vm_compute; lia]|]. split; [vm_compute; lia|exact I].
  - split; [exact (bytes_up_units EightBit 4 ltac:(lia))|]. split; [split; reflexivity|].
    split; [reflexivity|]. split; [exact I|].
    split; [split; [exact (bytes_up_units EightBit 3 ltac:(lia))|cbn; lia]|]. split; [reflexivity|exact I].
  - cbn. lia.
Qed.
