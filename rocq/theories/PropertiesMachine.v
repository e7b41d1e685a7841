(** C55: builds.  Every build of the library, with or without overflow checks and
    debug assertions and for any size of [usize], edits and reads system exclusive
    messages like the unbounded model of Sysex.v and Splice.v, provided the buffer
    and the caller's numbers fit the machine ([fits_machine], SpecMachine.v).

    [apply_edit_m bd], [try_edit_m bd] and [run_calls_m bd] (MachineClient.v) call
    the methods of MachineSysex.v, compiled for the build [bd]. *)
From Coq Require Import NArith List String Bool Arith Lia ZifyN ZifyNat ZifyBool.
From Verif Require Import Base BitOps Message Sysex Splice SpecSysex SpecEdits SysexClient
  SysexLayout SysexBridge SysexHold SysexInit SysexHistory SysexLoose SysexMore PropertiesSysex.
From Verif Require Import Machine MachineSysex MachineLemmas MachineOps MachineSplice MachineClient SpecMachine
  MachineEdits MachineRelease.
Import ListNotations.
Local Open Scope nat_scope.

(** ** Whatever the buffer holds *)

Theorem C55_edits : forall bd fm e b b', fits_machine bd (List.length b) e ->
  apply_edit fm e b = Val b' -> apply_edit_m bd fm e b = Val b'.
Proof. intros bd fm e b b' F. now apply apply_edit_refines. Qed.
Print Assumptions C55_edits.
Theorem C55_bytes_edits : forall bd e b b', fits_machine bd (List.length b) e ->
  apply_edit_b e b = Val b' -> apply_edit_b_m bd e b = Val b'.
Proof. intros bd e b b' F. now apply apply_edit_b_refines. Qed.
Print Assumptions C55_bytes_edits.
Theorem C55_tries : forall bd fm e b r, fits_machine bd (List.length b) e ->
  try_edit fm e b = Val r -> try_edit_m bd fm e b = Val r.
Proof. intros bd fm e b r F. now apply try_edit_refines. Qed.
Print Assumptions C55_tries.
Theorem C55_bytes_tries : forall bd e b r, fits_machine bd (List.length b) e ->
  try_edit_b e b = Val r -> try_edit_b_m bd e b = Val r.
Proof. intros bd e b r F. now apply try_edit_b_refines. Qed.
Print Assumptions C55_bytes_tries.

(** [usize] of [n] bits. *)
Definition bits (n : N) : nat := N.to_nat (2 ^ n).
Lemma fits_bits bd n len e : usize_values bd = bits n ->
  (1024 * N.of_nat (len + asked e + 8) <=? 2 ^ n)%N = true -> fits_machine bd len e.
Proof. unfold bits, fits_machine. intros -> H. lia. Qed.
Ltac fits n := apply (fits_bits _ n); [reflexivity|vm_compute; reflexivity].
Example C55_case : Forall (fun e => fits_machine (release (bits 32)) 12 e /\ fits_machine (dev (bits 32)) 12 e) sample_history
  /\ fits_machine (release (bits 16)) 12 (InsertPayload (exactly (up 10)) 7).
Proof. split; [|fits 16%N]. unfold sample_history. repeat (apply Forall_cons; [split; fits 32%N|]). apply Forall_nil. Qed.

(** ** Messages: the effect on the payload *)

Lemma message_length fm g s l b : message fm g s l b -> List.length b <= List.length l + 4.
Proof.
  intros (k & C & Fu & Len). destruct (carries_framed _ _ _ _ _ _ C Fu) as (_ & Ek & _). rewrite Len, Ek.
  unfold np. rewrite cap_of. destruct (Nat.eqb_spec (List.length l) 0); [destruct fm; cbn; lia|].
  destruct fm; cbn [packet_words packet_room];
    [pose proof (Nat.mul_div_le (List.length l + 6 - 1) 6)|pose proof (Nat.mul_div_le (List.length l + 13 - 1) 13)]; lia.
Qed.
Lemma fits_less bd n m e : n <= m -> fits_machine bd m e -> fits_machine bd n e.
Proof. unfold fits_machine. lia. Qed.

Theorem C55_edit_is_list_edit : forall bd fm e b g s l,
  message fm g s l b -> s = None \/ s = Some 0%N -> legal fm e l -> fits_machine bd (List.length b) e ->
  exists b', apply_edit_m bd fm e b = Val b' /\ message fm (new_group e g) s (new_payload e l) b'.
Proof.
  intros bd fm e b g s l M K Lg F. destruct (C21_edit_is_list_edit fm e b g s l M K Lg) as (b' & E & _ & _ & _ & M').
  exists b'. split; [now apply C55_edits|exact M'].
Qed.
Print Assumptions C55_edit_is_list_edit.

Lemma machine_history bd fm : forall es b g l, message fm g (Some 0%N) l b -> all_legal fm es l -> history_fits bd es l ->
  exists b', run_edits (apply_edit_m bd fm) es b = Val b'
    /\ message fm (final_group es g) (Some 0%N) (final_payload es l) b'.
Proof.
  induction es as [|e es IH]; intros b g l M Lg F; cbn [run_edits final_group final_payload]; [eauto|].
  destruct Lg as [L1 L2]. destruct F as [F1 F2]. pose proof (message_length _ _ _ _ _ M).
  destruct (C55_edit_is_list_edit bd fm e b g (Some 0%N) l M ltac:(now right) L1 (fits_less _ _ _ _ ltac:(eassumption) F1)) as (b1 & E1 & M1).
  rewrite E1. cbn [bind]. now apply IH.
Qed.
(** Histories from [new()], in every build. *)
Theorem C55_histories : forall bd fm es, all_legal fm es [] -> history_fits bd es [] ->
  exists b0 b', sx_new (fmt_for fm) = Val b0 /\ run_edits (apply_edit_m bd fm) es b0 = Val b'
    /\ payload_list (fmt_for fm) b' = Val (final_payload es [])
    /\ message fm (final_group es 0%N) (Some 0%N) (final_payload es []) b'.
Proof.
  intros bd fm es Lg F. destruct (fresh_message fm) as [M0 _].
  destruct (machine_history bd fm es _ _ _ M0 Lg F) as (b' & E & M).
  exists (fresh_words fm), b'. split; [apply new_fresh|]. split; [exact E|]. split; [apply (message_reads _ _ _ _ _ M)|exact M].
Qed.
Print Assumptions C55_histories.

Theorem C55_bytes_histories : forall bd es, all_legal SevenBit es [] -> history_fits bd es [] ->
  exists b0, new_b = Val b0 /\ run_edits (apply_edit_b_m bd) es b0 = Val (stream_bytes (final_payload es [])).
Proof.
  intros bd es Lg F. exists (stream_bytes []). split; [exact new_b_fresh|].
  assert (H : forall es l, Forall (is_unit SevenBit) l -> all_legal SevenBit es l -> history_fits bd es l ->
    run_edits (apply_edit_b_m bd) es (stream_bytes l) = Val (stream_bytes (final_payload es l))).
  { clear. induction es as [|e es IH]; intros l Hl Lg F; cbn [run_edits final_payload]; [reflexivity|].
    destruct Lg as [L1 L2]. destruct F as [F1 F2].
    rewrite (C55_bytes_edits bd e _ (stream_bytes (new_payload e l))).
    - cbn [bind]. apply IH; auto. destruct (history_bytes [e] l Hl ltac:(split; [exact L1|exact Logic.I])) as [_ S]. exact S.
    - apply (fits_less bd _ (List.length l + 4)); [|exact F1]. unfold stream_bytes. cbn [List.length]. rewrite app_length. cbn. lia.
    - now apply C21_bytes_edit_is_list_edit. }
  now apply H.
Qed.
Print Assumptions C55_bytes_histories.

Example C55_history_case : all_legal EightBit sample_history [] /\ all_legal SevenBit sample_history []
  /\ history_fits (release (bits 32)) sample_history [] /\ history_fits (dev (bits 32)) sample_history [].
Proof.
  split; [apply C34_case|]. split; [apply C34_case|].
  unfold sample_history. split; repeat (split; [fits 32%N|]); exact Logic.I.
Qed.

(** Buffers of a fixed size. *)
Theorem C55_fixed_edit : forall bd fm e b g s l,
  message_in fm g s l b -> legal fm e l -> announced_enough e l -> fits_machine bd (List.length b) e ->
  let fits := List.length (new_payload e l) <=? room_in fm (List.length b) in
  exists b', try_edit_m bd fm e b = Val (b', fits) /\ List.length b' = List.length b
    /\ message_in fm (new_group e g) s (if fits then new_payload e l else []) b'.
Proof.
  intros bd fm e b g s l M Lg An F. destruct (C22_fixed_edit fm e b g s l M Lg An) as (b' & E & L & M' & _).
  exists b'. split; [now apply C55_tries|]. split; [exact L|exact M'].
Qed.
Print Assumptions C55_fixed_edit.

Theorem C55_fixed_histories : forall bd fm n es, packet_words fm <= n ->
  fixed_legal fm (room_in fm n) es [] -> Forall (fits_machine bd n) es ->
  exists b0 b', sx_try_new (fmt_for fm) n = Val (Ok b0)
    /\ run_tries (try_edit_m bd fm) es b0 = Val (b', snd (fixed_history (room_in fm n) es []))
    /\ List.length b' = n
    /\ payload_list (fmt_for fm) b' = Val (fst (fixed_history (room_in fm n) es [])).
Proof.
  intros bd fm n es Hn Lg F. destruct (C22_fixed_histories fm n es Hn Lg) as (b0 & b' & N0 & E & L & P & _).
  exists b0, b'. split; [exact N0|]. split; [|auto].
  pose proof (try_new_fresh fm n) as T. replace (n <? packet_words fm) with false in T by lia.
  destruct T as (b1 & N1 & L0 & M0 & _). assert (b1 = b0) by (change (fmt_of fm) with (fmt_for fm) in N1; rewrite N0 in N1; now injection N1). subst b1.
  clear N0 N1 P. revert E. generalize (snd (fixed_history (room_in fm n) es [])). intros oks.
  assert (H : forall es b g l oks, message_in fm g (Some 0%N) l b -> List.length b = n -> fixed_legal fm (room_in fm n) es l ->
    Forall (fits_machine bd n) es -> run_tries (try_edit fm) es b = Val (b', oks) -> run_tries (try_edit_m bd fm) es b = Val (b', oks)).
  { clear. induction es as [|e es IH]; intros b g l oks M L Lg F E; cbn [run_tries] in *; [exact E|].
    destruct Lg as (L1 & L2 & L3). inversion F as [|? ? F1 F2]. subst.
    destruct (fixed_step fm e b g (Some 0%N) l M L1 L2) as (b1 & E1 & M1 & Len1 & _).
    rewrite E1 in E. rewrite (C55_tries bd fm e b _ F1 E1). cbn [bind fst snd] in *.
    destruct (bind_val _ _ _ E) as ([q1 q2] & Q & E2). cbn [fst snd] in E2. injection E2 as -> <-.
    rewrite (IH b1 _ _ q2 M1 Len1 L3 F2 Q). reflexivity. }
  intros E. now apply (H es b0 _ _ oks M0 L0 Lg F E).
Qed.
Print Assumptions C55_fixed_histories.

Example C55_fixed_case : packet_words SevenBit <= 12 /\ room_in SevenBit 12 = 36
  /\ fixed_legal SevenBit 36 [SetPayload (exactly (up 20)); AppendPayload (exactly (up 17)); AppendByte 5] []
  /\ Forall (fits_machine (release (bits 16)) 12) [SetPayload (exactly (up 20)); AppendPayload (exactly (up 17)); AppendByte 5].
Proof.
  split; [cbn; lia|]. split; [reflexivity|]. split.
  - cbn [fixed_legal legal announced_enough]. repeat split; try (apply up_units; lia); cbn; lia.
  - repeat (apply Forall_cons; [fits 16%N|]). apply Forall_nil.
Qed.

(** ** Iterators *)

Theorem C55_iterators : forall bd fm k g s l b cs, carries fm k g s l b -> within cs l ->
  16 * List.length b + 64 <= usize_values bd ->
  exists it, payload_m bd (fmt_for fm) b = Val it /\ it_len it = List.length l
    /\ payload_size_m bd (fmt_for fm) b = Val (List.length l)
    /\ run_calls_m bd (fmt_for fm) cs it = Val (answers cs l).
Proof.
  intros bd fm k g s l b cs C W R. destruct (C27_calls fm k g s l b cs C W) as (it & P & Le & E).
  exists it. split; [apply payload_refines; [apply std_for|lia|exact P]|]. split; [exact Le|].
  split; [apply payload_size_refines; [apply std_for|lia|apply (carries_reads _ _ _ _ _ _ C)]|].
  apply (run_calls_refines bd _ cs (std_for fm) it); [|exact E]. unfold roomy.
  unfold payload in P. destruct (bind_val _ _ _ P) as (d & D & E1). destruct (bind_val _ _ _ E1) as (x & _ & E2).
  injection E2 as <-. cbn [it_data]. apply data_le in D. lia.
Qed.
Print Assumptions C55_iterators.
Theorem C55_bytes_iterators : forall bd l r cs, Forall (is_unit SevenBit) l -> within cs l ->
  List.length l < usize_values bd ->
  exists it, payload_b (stream_bytes l ++ r) = Val it /\ run_calls_b_m bd cs it = Val (answers cs l).
Proof.
  intros bd l r cs Hl W R. destruct (C27_calls_bytes l r cs Hl W) as (it & P & E).
  exists it. split; [exact P|]. apply run_calls_b_refines; [|exact E].
  pose proof (C26_bytes_accepted_reads l r Hl) as (_ & _ & _ & Z). unfold payload_size_b in Z. rewrite P in Z. cbn [bind] in Z.
  unfold payload_b in P. destruct (bind_val _ _ _ P) as (d & _ & E1). destruct (bind_val _ _ _ E1) as (e & _ & E2).
  destruct (_ || _); [discriminate|]. injection E2 as <-. unfold ib_len in Z. apply sub_chk_ok in Z. cbn [ib_data ib_index] in *. lia.
Qed.
Print Assumptions C55_bytes_iterators.

Example C55_iterators_case : within [Next; Nth 4; Next; Nth 5; Next; Next; Next] (up 14)
  /\ 16 * List.length sparse + 64 <= usize_values (release (bits 16)).
Proof. split; [cbn; lia|]. cbn [usize_values release]. unfold bits. cbn [sparse List.length]. lia. Qed.

(** ** Builds without debug assertions *)

(** Packets of any size: no edit is blocked by what is left behind the message
    (compare C39_blocked_edits); what follows the message does not matter. *)
Theorem C55_release_edits : forall bd fm k e b g l, debug_assertions bd = false ->
  carries fm k g None l b -> noticed fm k b -> legal fm e l -> fits_machine bd (List.length b) e ->
  exists b', apply_edit_m bd fm e b = Val b'
    /\ payload_list (fmt_for fm) b' = Val (new_payload e l) /\ group b' = Val (new_group e g)
    /\ (exists k', carries fm k' (new_group e g) None (new_payload e l) b' /\ noticed fm k' b')
    /\ (resizes e -> message fm g None (new_payload e l) b').
Proof.
  intros bd fm k e b g l D C Nt Lg F. destruct (release_edit bd fm k e b g l D F C Nt Lg) as (b' & E & (k' & C' & N') & R).
  exists b'. split; [exact E|]. split; [apply (carries_reads _ _ _ _ _ _ C')|]. split; [exact (group_first _ _ _ _ _ _ C')|].
  split; [eauto|exact R].
Qed.
Print Assumptions C55_release_edits.
Theorem C55_release_fixed_edits : forall bd fm k e b g l, debug_assertions bd = false ->
  carries fm k g None l b -> noticed fm k b -> legal fm e l -> announced_enough e l -> fits_machine bd (List.length b) e ->
  let '(l', ok) := fixed_outcome (room_in fm (List.length b)) e l in
  exists b', try_edit_m bd fm e b = Val (b', ok) /\ List.length b' = List.length b
    /\ payload_list (fmt_for fm) b' = Val l' /\ group b' = Val (new_group e g)
    /\ (exists k', carries fm k' (new_group e g) None l' b' /\ noticed fm k' b')
    /\ (resizes e -> exists k', carries fm k' g None l' b' /\ full_packets fm k' b').
Proof.
  intros bd fm k e b g l D C Nt Lg An F. pose proof (release_try_edit bd fm k e b g l D F C Nt Lg An) as H.
  destruct (fixed_outcome _ e l) as [l' ok]. destruct H as (b' & E & L & (k' & C' & N') & R).
  exists b'. split; [exact E|]. split; [exact L|]. split; [apply (carries_reads _ _ _ _ _ _ C')|].
  split; [exact (group_first _ _ _ _ _ _ C')|]. split; [eauto|exact R].
Qed.
Print Assumptions C55_release_fixed_edits.

(** An edit that is blocked in a debug build: C39_case. *)
Example C55_release_case : carries EightBit 4 0 None [1; 2; 3; 4; 5]%N sparse /\ noticed EightBit 4 sparse
  /\ blocked EightBit 4 (InsertPayload (src (up 3) (0, None)) 2) [1; 2; 3; 4; 5]%N sparse
  /\ legal EightBit (InsertPayload (src (up 3) (0, None)) 2) [1; 2; 3; 4; 5]%N
  /\ fits_machine (release (bits 32)) (List.length sparse) (InsertPayload (src (up 3) (0, None)) 2).
Proof.
  destruct sparse_loose as (C & Nt & _). split; [exact C|]. split; [exact Nt|]. split; [apply C39_case|].
  split; [split; [apply up_units; lia|cbn; lia]|fits 32%N].
Qed.

(** ** Where builds differ *)

Lemma madd_wrap m a b : m <= a + b -> a + b < 2 * m -> madd (release m) a b = Val (a + b - m) /\ madd (dev m) a b = Panic.
Proof. intros A B. unfold madd. cbn [usize_values overflow_checks release dev]. replace (a + b <? m) with false by lia. auto. Qed.

(** An iterator may announce up to [usize::MAX] items and yield one.  A debug build
    panics; a release build spoils the payload and reports success. *)
Definition lavish (m : nat) : source := src [9]%N (0, Some (m - 1)).
Definition shaky : list N := [0x30160102; 0x03040506; 0x30320708; 0; 0; 0]%N.
Definition shaky' : list N := [0x30160103; 0x09030905; 0x30330607; 0; 0; 0]%N.
Lemma shaky_message : message_in SevenBit 0 (Some 0%N) (up 8) shaky.
Proof.
  split; [exists 2; split|].
  - constructor; try (vm_compute; reflexivity); try lia; try (cbn; lia); try discriminate.
    all: intros p Hp; do 2 (destruct p as [|p]; [vm_compute; try split; try discriminate; reflexivity|]); lia.
  - split; [|right; vm_compute; lia]. intros p Hp. assert (p = 0) by lia. subst p. reflexivity.
  - intros p Hp. split; [|discriminate]. change (_ / _) with 3 in Hp.
    do 3 (destruct p as [|p]; [vm_compute; try discriminate; try (intros _ [X|X]); try discriminate; try split; try reflexivity; try discriminate|]); lia.
Qed.
Lemma release_move m b t to b' : 16 * List.length b + 64 <= m -> move_tail fmt7 b t to = Val b' ->
  move_tail_m (release m) fmt7 b t to = Val b'.
Proof. intros R. apply (move_tail_refines (release m) fmt7 b t to); [now left|exact R]. Qed.
Theorem C55_hint_refuted : forall m, 4096 <= m ->
  let e := InsertPayload (lavish m) 2 in
  message_in SevenBit 0 (Some 0%N) (up 8) shaky /\ legal SevenBit e (up 8) /\ announced_enough e (up 8)
  /\ new_payload e (up 8) = [1; 2; 9; 3; 4; 5; 6; 7; 8]%N /\ room_in SevenBit (List.length shaky) = 18
  /\ try_edit_m (dev m) SevenBit e shaky = Panic
  /\ try_edit_m (release m) SevenBit e shaky = Val (shaky', true)
  /\ payload_list fmt7 shaky' = Val [1; 3; 9; 3; 9; 5; 6; 7; 0]%N.
Proof.
  intros m Hm e. split; [exact shaky_message|]. split; [split; [repeat constructor|cbn; lia]|]. split; [exact Logic.I|].
  split; [reflexivity|]. split; [reflexivity|].
  destruct (madd_wrap m 2 (m - 1) ltac:(lia) ltac:(lia)) as [W1 W2]. replace (2 + (m - 1) - m) with 1 in W1 by lia.
  assert (Cp : forall bd, compact_m bd fmt7 shaky = Val shaky) by (intros; reflexivity).
  assert (Sz : forall bd, m <= usize_values bd -> payload_size_m bd fmt7 shaky = Val 8).
  { intros bd H. apply payload_size_refines; [now left|cbn [shaky List.length]; lia|vm_compute; reflexivity]. }
  split; [|split; [|vm_compute; reflexivity]].
  - unfold e, try_edit_m, try_insert_payload_m, try_splice_m, splice_detail_m. cbn [ump_ops_m o_compact o_payload_size o_resize o_move fmt_for].
    rewrite Cp. cbn [bind]. rewrite Sz by (cbn; lia). cbn [bind begin_of_m end_of_m]. rewrite msub_ok by lia. cbn [bind].
    cbn [lavish src s_hint estimate]. rewrite W2. reflexivity.
  - unfold e, try_edit_m, try_insert_payload_m, try_splice_m, splice_detail_m. cbn [ump_ops_m o_compact o_payload_size o_resize o_move fmt_for].
    rewrite Cp. cbn [bind]. rewrite Sz by (cbn; lia). cbn [bind begin_of_m end_of_m]. rewrite msub_ok by lia. cbn [bind Nat.sub].
    cbn [lavish src s_hint estimate s_items]. rewrite W1. cbn [bind]. rewrite msub_ok by lia. cbn [bind].
    change (2 <? 1 - 0) with false. cbn [bind]. rewrite W1. cbn [bind]. rewrite msub_ok by lia. cbn [bind].
    erewrite release_move; [|cbn [shaky List.length]; lia|vm_compute; reflexivity]. cbn [bind].
    cbn [main_loop_m List.length fill_m]. replace (0 <? m - 1) with true by lia.
    rewrite madd_ok by (cbn; lia). cbn [bind Nat.add ump_ops_m o_write].
    match goal with |- context [write_datum fmt7 ?b 9%N 2] => let v := eval vm_compute in (write_datum fmt7 b 9%N 2) in
      replace (write_datum fmt7 b 9%N 2) with v by (vm_compute; reflexivity) end.
    cbn [bind]. replace (1 <? m - 1) with true by lia. cbn [bind]. rewrite madd_ok by (cbn; lia). cbn [bind Nat.add].
    erewrite release_move; [|cbn [List.length]; lia|vm_compute; reflexivity]. cbn [bind].
    rewrite madd_ok by (cbn; lia). cbn [bind Nat.add]. rewrite msub_ok by lia. cbn [bind Nat.sub].
    erewrite (try_resize_refines (release m) fmt7 Fixed); [|now left|now right; left|cbn; lia|cbn [List.length usize_values release]; lia|vm_compute; reflexivity].
    reflexivity.
Qed.
Print Assumptions C55_hint_refuted.

(** Byte form: [nth(usize::MAX)] after [next()] panics in a debug build and starts
    again from the first byte in a release build. *)
Theorem C55_nth_refuted : forall m, 4 <= m ->
  exists it, payload_b (stream_bytes (up 3)) = Val it
  /\ answers [Next; Nth (m - 1)] (up 3) = [(Some 1%N, 2); (None, 0)]
  /\ run_calls_b_m (dev m) [Next; Nth (m - 1)] it = Panic
  /\ run_calls_b_m (release m) [Next; Nth (m - 1)] it = Val [(Some 1%N, 2); (Some 1%N, 2)].
Proof.
  intros m Hm. eexists. split; [vm_compute; reflexivity|]. destruct (madd_wrap m 1 (m - 1) ltac:(lia) ltac:(lia)) as [W1 W2].
  replace (1 + (m - 1) - m) with 0 in W1 by lia.
  split; [|split].
  - cbn [answers answer left_after up map seq tl hd_error List.length]. replace (S (m - 1)) with (S (S (S (S (m - 4))))) by lia.
    replace (m - 1) with (S (S (S (m - 4)))) by lia. cbn. destruct (m - 4); reflexivity.
  - cbn [run_calls_b_m]. match goal with |- context [ib_next ?i] => let v := eval vm_compute in (ib_next i) in replace (ib_next i) with v by (vm_compute; reflexivity) end.
    cbn [bind fst snd]. match goal with |- context [ib_len ?i] => let v := eval vm_compute in (ib_len i) in replace (ib_len i) with v by (vm_compute; reflexivity) end.
    cbn [bind]. unfold ib_nth_m. cbn [ib_index]. rewrite W2. reflexivity.
  - cbn [run_calls_b_m]. match goal with |- context [ib_next ?i] => let v := eval vm_compute in (ib_next i) in replace (ib_next i) with v by (vm_compute; reflexivity) end.
    cbn [bind fst snd]. match goal with |- context [ib_len ?i] => let v := eval vm_compute in (ib_len i) in replace (ib_len i) with v by (vm_compute; reflexivity) end.
    cbn [bind]. unfold ib_nth_m. cbn [ib_index]. rewrite W1. vm_compute. reflexivity.
Qed.
Print Assumptions C55_nth_refuted.

Lemma msub_wrap m a b : a < b -> b <= m -> msub (release m) a b = Val (a + m - b) /\ msub (dev m) a b = Panic.
Proof. intros A B. unfold msub. cbn [usize_values overflow_checks release dev]. replace (b <=? a) with false by lia. auto. Qed.
(** A range that ends before it begins: a debug build panics; a release build
    repeats the bytes between. *)
Theorem C55_inverted_range_refuted : forall m, 100 <= m ->
  let e := SplicePayload (exactly [7]%N) (Included 2) (Excluded 1) in
  ~ legal SevenBit e (up 3)
  /\ apply_edit_b_m (dev m) e (stream_bytes (up 3)) = Panic
  /\ apply_edit_b_m (release m) e (stream_bytes (up 3)) = Val (stream_bytes [1; 2; 7; 2; 3]%N).
Proof.
  intros m Hm e. split; [cbn; lia|].
  destruct (msub_wrap m 1 2 ltac:(lia) ltac:(lia)) as [W1 W2]. replace (1 + m - 2) with (m - 1) in W1 by lia.
  assert (W3 : msub (release m) 2 (m - 1) = Val 3) by (rewrite (proj1 (msub_wrap m 2 (m - 1) ltac:(lia) ltac:(lia))); f_equal; lia).
  assert (W4 : msub (release m) 4 (m - 1) = Val 5) by (rewrite (proj1 (msub_wrap m 4 (m - 1) ltac:(lia) ltac:(lia))); f_equal; lia).
  split.
  - unfold e, apply_edit_b_m, splice_m, splice_detail_m. cbn [bytes_ops_m o_compact o_payload_size o_resize o_move bind].
    change (payload_size_b (stream_bytes (up 3))) with (@Val nat 3). cbn [bind begin_of_m end_of_m]. rewrite W2. reflexivity.
  - unfold e, apply_edit_b_m, splice_m, splice_detail_m. cbn [bytes_ops_m o_compact o_payload_size o_resize o_move bind].
    change (payload_size_b (stream_bytes (up 3))) with (@Val nat 3). cbn [bind begin_of_m end_of_m]. rewrite W1. cbn [bind].
    cbn [exactly src s_hint estimate s_items List.length]. rewrite madd_ok by (cbn; lia). cbn [bind Nat.add]. rewrite W3. cbn [bind].
    change (1 <? 3) with true. cbn [bind]. rewrite madd_ok by (cbn; lia). cbn [bind Nat.add]. rewrite W4. cbn [bind].
    erewrite resize_b_refines; [|cbn; lia|cbn [stream_bytes up map seq app List.length usize_values release]; lia|vm_compute; reflexivity]. cbn [bind].
    rewrite madd_ok by (cbn; lia). cbn [bind Nat.add]. rewrite W3. cbn [bind].
    erewrite move_tail_b_refines; [|cbn; lia|cbn; lia|vm_compute; reflexivity]. cbn [bind].
    cbn [main_loop_m fill_m Nat.ltb Nat.leb]. rewrite madd_ok by (cbn; lia). cbn [bind Nat.add bytes_ops_m o_write].
    unfold write_datum_b_m. rewrite !madd_ok by (cbn; lia). cbn [bind Nat.add].
    repeat match goal with |- context [upd ?b ?i ?f] => let v := eval vm_compute in (upd b i f) in
      replace (upd b i f) with v by (vm_compute; reflexivity) end.
    cbn [bind massert Nat.eqb]. rewrite madd_ok by (cbn; lia). cbn [bind Nat.add].
    erewrite move_tail_b_refines; [|cbn; lia|cbn; lia|vm_compute; reflexivity]. cbn [bind].
    rewrite madd_ok by (cbn; lia). cbn [bind Nat.add]. rewrite W4. cbn [bind].
    erewrite resize_b_refines; [|cbn; lia|cbn; lia|vm_compute; reflexivity]. reflexivity.
Qed.
Print Assumptions C55_inverted_range_refuted.

(** A 3-byte message in an array that held 18 bytes before (C27_trailing_nth_refuted):
    [nth(5)] panics in a debug build; a release build yields a byte that is not in
    the payload, and almost [usize::MAX] bytes seem to be left. *)
Theorem C55_trailing_nth_refuted : forall m, 1024 <= m ->
  exists b0 b it, sx_try_new fmt7 6 = Val (Ok b0)
  /\ run_tries (try_edit SevenBit) [SetPayload (exactly (up 18)); SetPayload (exactly (up 3))] b0 = Val (b, [true; true])
  /\ payload fmt7 b = Val it /\ answers [Nth 5] (up 3) = [(None, 0)]
  /\ run_calls_m (dev m) fmt7 [Nth 5] it = Panic
  /\ run_calls_m (release m) fmt7 [Nth 5] it = Val [(Some 9%N, m - 3)].
Proof.
  intros m Hm. eexists. eexists. eexists. split; [vm_compute; reflexivity|]. split; [vm_compute; reflexivity|].
  split; [vm_compute; reflexivity|]. split; [reflexivity|].
  destruct (msub_wrap m 0 2 ltac:(lia) ltac:(lia)) as [W1 W2].
  assert (Ch : chunks_exact 2 [805503234; 50595078; 807798536; 151653132; 808848654; 252711186]%N
    = [[805503234; 50595078]; [807798536; 151653132]; [808848654; 252711186]]%N) by (vm_compute; reflexivity).
  assert (Ps : forall bd, packet_size_m bd fmt7 [805503234; 50595078]%N = Val 3 /\ packet_size_m bd fmt7 [807798536; 151653132]%N = Val 6)
    by (intros; split; reflexivity).
  split; cbn [run_calls_m]; unfold it_nth_m; cbn [it_data it_packet it_payload it_left]; rewrite mmul_ok by (cbn; lia);
    cbn [bind Nat.mul f_words fmt7]; change (_ <? 0) with false; cbn [skipn]; rewrite Ch; rewrite (proj1 (Ps _)); cbn [bind];
    rewrite (msub_ok _ 3 0) by lia; cbn [bind Nat.sub]; change (5 <? 3) with false; cbn iota;
    rewrite (msub_ok _ 3 3) by lia; cbn [bind Nat.sub nth_loop_m]; rewrite (proj2 (Ps _)); cbn [bind];
    change (2 <? 6) with true; cbn iota; cbn [it_packet it_left it_data]; rewrite madd_ok by (cbn; lia); cbn [bind Nat.add].
  - rewrite W2. reflexivity.
  - rewrite W1. cbn [bind]. replace (0 + m - 2) with (S (S (m - 4))) by lia.
    set (d := [805503234; 50595078; 807798536; 151653132; 808848654; 252711186]%N) in *.
    assert (Cs : forall p l, current_size_m (release m) fmt7 {| it_data := d; it_payload := p; it_packet := 1; it_left := l |} = Val 6).
    { intros p l. unfold current_size_m. cbn [it_packet it_data]. rewrite mmul_ok by (cbn; lia). cbn [bind Nat.mul f_words fmt7].
      rewrite madd_ok by (cbn; lia). cbn [bind]. reflexivity. }
    assert (Sk : forall p l, it_skip_m (release m) fmt7 {| it_data := d; it_payload := p; it_packet := 1; it_left := S l |}
      = Val {| it_data := d; it_payload := p; it_packet := 1; it_left := S l |}).
    { intros p l. unfold it_skip_m. cbn [it_data d List.length it_skip_aux_m it_left Nat.eqb]. fold d. rewrite Cs. reflexivity. }
    unfold it_next_m. cbn [it_left Nat.eqb]. rewrite Sk. cbn [bind].
    assert (Vl : forall l, it_value_m (release m) fmt7 {| it_data := d; it_payload := 2; it_packet := 1; it_left := l |} = Val 9%N).
    { intros l. unfold it_value_m. cbn [it_packet it_data it_payload]. rewrite mmul_ok by (cbn; lia). cbn [bind Nat.mul f_words fmt7].
      rewrite madd_ok by (cbn; lia). cbn [bind]. rewrite madd_ok by (cbn; lia). cbn [bind]. vm_compute. reflexivity. }
    rewrite Vl. cbn [bind]. unfold it_advance_m. cbn [it_payload it_left Nat.eqb]. rewrite madd_ok by (cbn; lia). cbn [bind].
    rewrite msub_ok by lia. cbn [bind]. rewrite Cs. cbn [bind f_seven fmt7]. change (2 + 1 =? 6) with false. cbn [bind it_data it_packet Nat.sub].
    rewrite Sk. cbn [bind fst snd it_len it_left]. do 3 f_equal. lia.
Qed.
Print Assumptions C55_trailing_nth_refuted.
