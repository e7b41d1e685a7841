(** C55, continued: conversion between the two forms of [Sysex7], and reading whole payloads, in any build.
    Functions ending in [_m] are those of MachineSysex.v and MachineConvert.v, for the build [bd]. *)
From Coq Require Import NArith List String Bool Arith Lia ZifyN ZifyNat ZifyBool.
From Verif Require Import Base BitOps Props Message Sysex Splice SpecSysex SpecEdits SysexClient
  SysexLayout SysexBridge SysexHold SysexInit SysexHistory SysexLoose SysexMore PropertiesSysex.
From Verif Require Import Machine MachineSysex MachineLemmas MachineOps MachineSplice MachineClient SpecMachine
  MachineEdits MachineConvert PropertiesMachine SysexConvert.
Import ListNotations.
Local Open Scope nat_scope.

Lemma it_collect_refines bd f : std f -> forall n it, roomy bd it -> refines (it_collect n f it) (it_collect_m n bd f it).
Proof.
  intros F. induction n as [|n IH]; intros it R; cbn [it_collect it_collect_m]; [apply refines_refl|].
  apply refines_bind; [now apply next_refines|]. intros [[v|] it'] E; [|apply refines_refl].
  apply refines_bind; [|intros; apply refines_refl]. apply IH. apply next_data in E. cbn [snd] in E. unfold roomy. now rewrite E.
Qed.
Lemma payload_list_refines bd f b : std f -> 16 * List.length b + 64 <= usize_values bd ->
  refines (payload_list f b) (payload_list_m bd f b).
Proof.
  intros F R. apply refines_bind; [apply payload_refines; [exact F|lia]|]. intros it E. apply it_collect_refines; [exact F|].
  unfold payload in E. destruct (bind_val _ _ _ E) as (d & _ & E1). destruct (bind_val _ _ _ E1) as (s & _ & E2). injection E2 as <-. exact R.
Qed.

(** No more items than the fuel. *)
Lemma it_collect_length n f : forall it l, it_collect n f it = Val l -> List.length l <= n.
Proof.
  induction n as [|n IH]; intros it l E; cbn [it_collect] in E; [now injection E as <-|].
  destruct (bind_val _ _ _ E) as ([[v|] it'] & _ & E1); [|injection E1 as <-; cbn; lia].
  destruct (bind_val _ _ _ E1) as (t & Et & E2). injection E2 as <-. apply IH in Et. cbn [List.length]. lia.
Qed.
Lemma ib_collect_length n : forall it l, ib_collect n it = Val l -> List.length l <= n.
Proof.
  induction n as [|n IH]; intros it l E; cbn [ib_collect] in E; [now injection E as <-|].
  destruct (bind_val _ _ _ E) as ([[v|] it'] & _ & E1); [|injection E1 as <-; cbn; lia].
  destruct (bind_val _ _ _ E1) as (t & Et & E2). injection E2 as <-. apply IH in Et. cbn [List.length]. lia.
Qed.

(** A buffer of [n] units is small against the address space. *)
Definition roomy_for (bd : build) (n : nat) : Prop := 4096 * (n + 8) <= usize_values bd.

Theorem C55_payload : forall bd fm b l, roomy_for bd (List.length b) -> payload_list (fmt_for fm) b = Val l ->
  payload_list_m bd (fmt_for fm) b = Val l.
Proof. unfold roomy_for. intros bd fm b l R. apply payload_list_refines; [apply std_for|lia]. Qed.
Print Assumptions C55_payload.

Lemma source_of_ump_refines bd b : 16 * List.length b + 64 <= usize_values bd ->
  refines (source_of_ump b) (source_of_ump_m bd b).
Proof.
  intros R. assert (F : std fmt7) by now left. apply refines_bind; [apply payload_refines; [exact F|lia]|]. intros it _.
  apply refines_bind; [now apply payload_list_refines|]. intros l _. apply refines_refl.
Qed.
Lemma source_of_ump_size b src : source_of_ump b = Val src -> items_and_hint src <= 24 * List.length b + 1.
Proof.
  intros E. unfold source_of_ump in E. destruct (bind_val _ _ _ E) as (it & P & E1). destruct (bind_val _ _ _ E1) as (l & L & E2).
  injection E2 as <-. unfold items_and_hint, announced. cbn [s_items s_hint].
  pose proof (proj1 (payload_le fmt7 b it (or_introl eq_refl) P)) as B. unfold payload_list in L. destruct (bind_val _ _ _ L) as (it0 & _ & L1).
  apply it_collect_length in L1. unfold it_len. lia.
Qed.
Lemma source_of_bytes_size b src : source_of_bytes b = Val src -> items_and_hint src <= List.length b + 1.
Proof.
  intros E. unfold source_of_bytes in E. destruct (bind_val _ _ _ E) as (it & P & E1). destruct (bind_val _ _ _ E1) as (l & L & E2).
  injection E2 as <-. unfold items_and_hint, announced. cbn [s_items s_hint ib_size_hint].
  unfold payload_list_b in L. destruct (bind_val _ _ _ L) as (it0 & _ & L1). apply ib_collect_length in L1. lia.
Qed.

Lemma for_heads_len stride k g b : forall b', for_heads stride k g b = Val b' -> List.length b' = List.length b.
Proof.
  induction k as [|k IH]; intros b' E; unfold for_heads in *; [now injection E as <-|].
  rewrite seq_S, fold_left_app in E. cbn [fold_left] in E. destruct (bind_val _ _ _ E) as (b1 & E1 & E2).
  apply IH in E1. apply upd_in in E2. lia.
Qed.

Lemma ump_from_bytes_refines bd k buffer b : k = Growable \/ k = Fixed ->
  roomy_for bd (List.length buffer + List.length b) -> refines (ump_from_bytes k buffer b) (ump_from_bytes_m bd k buffer b).
Proof.
  unfold roomy_for. intros K R. apply refines_bind; [apply refines_refl|]. intros b1 E1. apply refines_bind; [apply refines_refl|]. intros b2 E2.
  apply refines_bind; [apply refines_refl|]. intros src S. apply source_of_bytes_size in S. apply upd_in in E1. apply for_heads_len in E2.
  set (size := 28 * (List.length b2 + 4) + 4 * items_and_hint src + 16).
  assert (Z : 16 * size + 64 <= usize_values bd) by (unfold size; lia).
  assert (A : agree size (ump_ops fmt7 k) (ump_ops_m bd fmt7 k)) by (apply ump_agree; [now left|exact K|exact Z]).
  destruct (set_call bd _ _ _ b2 src A Z ltac:(unfold size; lia)) as [G T].
  destruct K as [-> | ->]; [|exact T]. apply refines_bind; [exact G|]. intros. apply refines_refl.
Qed.
Lemma bytes_from_ump_refines bd k buffer b : k = Growable \/ k = Fixed ->
  roomy_for bd (List.length buffer + List.length b) -> refines (bytes_from_ump k buffer b) (bytes_from_ump_m bd k buffer b).
Proof.
  unfold roomy_for. intros K R. apply refines_bind; [apply refines_refl|]. intros b1 E1. apply refines_bind; [apply refines_refl|]. intros gr _.
  apply refines_bind; [apply source_of_ump_refines; lia|]. intros src S. apply source_of_ump_size in S.
  unfold init_b in E1. destruct (bind_val _ _ _ E1) as (b0 & E0 & E2). apply upd_in in E0. apply upd_in in E2.
  set (size := 28 * (List.length b1 + 4) + 4 * items_and_hint src + 16).
  assert (Z : 16 * size + 64 <= usize_values bd) by (unfold size; lia).
  assert (A : agree size (bytes_ops k) (bytes_ops_m bd k)) by (apply bytes_agree; [exact K|exact Z]).
  destruct (set_call bd _ _ _ b1 src A Z ltac:(unfold size; lia)) as [G T].
  destruct K as [-> | ->]; [|exact T]. apply refines_bind; [exact G|]. intros. apply refines_refl.
Qed.

(** ** Whatever the buffers hold *)

Theorem C55_conversions : forall bd b n, roomy_for bd (List.length b + n + 2) ->
  (forall b', sysex7_from_bytes b = Val b' -> sysex7_from_bytes_m bd b = Val b')
  /\ (forall b', sysex7_from_ump b = Val b' -> sysex7_from_ump_m bd b = Val b')
  /\ (forall r, sysex7_try_from_bytes b n = Val r -> sysex7_try_from_bytes_m bd b n = Val r)
  /\ (forall r, sysex7_try_from_ump b n = Val r -> sysex7_try_from_ump_m bd b n = Val r).
Proof.
  intros bd b n R. assert (L : List.length (repeat 0%N n) = n) by apply repeat_length.
  assert (V2 : List.length (vec_resize [] 2) = 2) by reflexivity. unfold roomy_for in *.
  split; [|split; [|split]].
  - apply refines_bind; [|intros; apply refines_refl]. apply ump_from_bytes_refines; [now left|]. unfold roomy_for. rewrite V2. lia.
  - apply refines_bind; [|intros; apply refines_refl]. apply bytes_from_ump_refines; [now left|]. unfold roomy_for. rewrite V2. lia.
  - unfold sysex7_try_from_bytes, sysex7_try_from_bytes_m. destruct (fixed_try_resize _ _); [|apply refines_refl].
    apply refines_bind; [apply ump_from_bytes_refines; [now right|]; unfold roomy_for; rewrite L; lia|]. intros; apply refines_refl.
  - unfold sysex7_try_from_ump, sysex7_try_from_ump_m. destruct (fixed_try_resize _ _); [|apply refines_refl].
    apply refines_bind; [apply bytes_from_ump_refines; [now right|]; unfold roomy_for; rewrite L; lia|]. intros; apply refines_refl.
Qed.
Print Assumptions C55_conversions.

(** ** Messages: C25 in any build *)

Theorem C55_from_bytes : forall bd l r n, Forall (is_unit SevenBit) l -> roomy_for bd (List.length l + List.length r + n + 8) ->
  (exists b, sysex7_from_bytes_m bd (stream_bytes l ++ r) = Val b
     /\ message SevenBit 0 None l b /\ clean_bytes SevenBit b
     /\ sx_try_from fmt7 b = Ok b /\ payload_list_m bd fmt7 b = Val l)
  /\ if (2 <=? n) && (List.length l <=? room_in SevenBit n)
     then exists b, sysex7_try_from_bytes_m bd (stream_bytes l ++ r) n = Val (Ok b) /\ List.length b = n
            /\ message_in SevenBit 0 None l b /\ clean_bytes SevenBit b /\ payload_list_m bd fmt7 b = Val l
     else sysex7_try_from_bytes_m bd (stream_bytes l ++ r) n = Val (Err "BufferOverflow"%string).
Proof.
  intros bd l r n Hl R. assert (Ls : List.length (stream_bytes l ++ r) = List.length l + List.length r + 2).
  { unfold stream_bytes. rewrite app_length. cbn [List.length]. rewrite app_length. cbn [List.length]. lia. }
  destruct (C55_conversions bd (stream_bytes l ++ r) n) as (V & _ & T & _); [unfold roomy_for in *; lia|].
  destruct (C25_from_bytes l r n Hl) as [(b & E & M & Cl & A & P) X]. split.
  - exists b. split; [now apply V|]. split; [exact M|]. split; [exact Cl|]. split; [exact A|].
    apply message_length in M. apply (payload_list_refines bd fmt7 b (or_introl eq_refl)); [unfold roomy_for in R; lia|exact P].
  - destruct ((2 <=? n) && (List.length l <=? room_in SevenBit n)); [|now apply T].
    destruct X as (b2 & E2 & L2 & M2 & C2 & P2). exists b2. repeat (split; [solve [eauto]|]).
    apply (payload_list_refines bd fmt7 b2 (or_introl eq_refl)); [unfold roomy_for in R; lia|exact P2].
Qed.
Print Assumptions C55_from_bytes.

Theorem C55_from_ump : forall bd k g s l b n, carries SevenBit k g s l b -> roomy_for bd (List.length b + n + 2) ->
  sysex7_from_ump_m bd b = Val (stream_bytes l)
  /\ if List.length l + 2 <=? n
     then exists r, sysex7_try_from_ump_m bd b n = Val (Ok (stream_bytes l ++ r))
            /\ List.length (stream_bytes l ++ r) = n /\ Forall (fun x => x <> 0xF7%N) r
     else sysex7_try_from_ump_m bd b n = Val (Err "BufferOverflow"%string).
Proof.
  intros bd k g s l b n C R. destruct (C55_conversions bd b n R) as (_ & V & _ & T).
  destruct (C25_from_ump k g s l b n C) as [E X]. split; [now apply V|].
  destruct (List.length l + 2 <=? n); [|now apply T]. destruct X as (r & E2 & L). exists r. split; [now apply T|exact L].
Qed.
Print Assumptions C55_from_ump.

Theorem C55_conversion_round_trips : forall bd k g s l b r,
  (carries SevenBit k g s l b -> roomy_for bd (4 * List.length b + 8) ->
   exists b', (m <- sysex7_from_ump_m bd b ;; sysex7_from_bytes_m bd m) = Val b' /\ payload_list_m bd fmt7 b' = payload_list_m bd fmt7 b
     /\ payload_list_m bd fmt7 b = Val l)
  /\ (Forall (is_unit SevenBit) l -> roomy_for bd (List.length l + List.length r + 8) ->
      (m <- sysex7_from_bytes_m bd (stream_bytes l ++ r) ;; sysex7_from_ump_m bd m) = Val (stream_bytes l)).
Proof.
  intros bd k g s l b r. split.
  - intros C R. destruct (C55_from_ump bd k g s l b 0 C) as [-> _]; [unfold roomy_for in *; lia|]. cbn [bind].
    assert (Ll : List.length l <= 3 * List.length b).
    { pose proof (ca_fits _ _ _ _ _ _ C) as Ft. rewrite <- (ca_payload _ _ _ _ _ _ C). cbn [packet_words] in Ft.
      assert (Q : List.length (flat_map (payload_of SevenBit b) (seq 0 k)) <= 6 * List.length (seq 0 k)).
      { assert (H : forall p, In p (seq 0 k) -> List.length (payload_of SevenBit b p) <= 6).
        { intros p Hp. apply in_seq in Hp. pose proof (ca_size _ _ _ _ _ _ C p ltac:(lia)) as Sz. cbn [size_bias packet_room] in Sz.
          unfold payload_of, units_in. rewrite map_length, seq_length. cbn [size_bias]. lia. }
        revert H. generalize (seq 0 k). induction l0 as [|x l0 IH]; intros H; cbn [flat_map List.length]; [lia|].
        rewrite app_length. pose proof (H x (or_introl eq_refl)). pose proof (IH (fun p Hp => H p (or_intror Hp))). lia. }
      rewrite seq_length in Q. lia. }
    destruct (C55_from_bytes bd l [] 0 (carries_units _ _ _ _ _ _ C)) as [(b' & E & _ & _ & _ & P) _];
      [unfold roomy_for in *; cbn [List.length]; lia|]. rewrite app_nil_r in E.
    exists b'. split; [exact E|].
    assert (Pb : payload_list_m bd fmt7 b = Val l).
    { apply (payload_list_refines bd fmt7 b (or_introl eq_refl)); [unfold roomy_for in R; lia|].
      destruct (carries_reads _ _ _ _ _ _ C) as (_ & P' & _). exact P'. }
    rewrite P, Pb. split; reflexivity.
  - intros Hl R. destruct (C55_from_bytes bd l r 0 Hl) as [(b' & E & M & _) _]; [unfold roomy_for in *; lia|].
    rewrite E. cbn [bind]. pose proof (message_length _ _ _ _ _ M) as Lb. destruct M as (k' & C' & _).
    apply (C55_from_ump bd k' 0 None l b' 0 C'). unfold roomy_for in *. lia.
Qed.
Print Assumptions C55_conversion_round_trips.

(** A message with partly filled packets, on a machine with 32-bit [usize] without checks, and a byte stream with bytes behind it. *)
Example C55_conversion_case : (exists s, carries SevenBit 3 4 s (up 14) loose7)
  /\ roomy_for (release (bits 32)) (4 * List.length loose7 + 8)
  /\ Forall (is_unit SevenBit) (up 14) /\ roomy_for (release (bits 32)) (List.length (up 14) + List.length [1%N; 2%N] + 12 + 8).
Proof.
  assert (Z : forall n, (4096 * N.of_nat (n + 8) <=? 2 ^ 32)%N = true -> roomy_for (release (bits 32)) n).
  { intros n H. unfold roomy_for, bits. cbn [usize_values release]. lia. }
  split; [exact C24_case|]. split; [apply Z; vm_compute; reflexivity|].
  split; [apply up_units; lia|apply Z; vm_compute; reflexivity].
Qed.
