(** Properties: edits of system exclusive messages with other packets behind them (C39). *)
From Coq Require Import NArith List Bool Arith Lia.
From Verif Require Import Base Message Sysex Splice SpecSysex SpecEdits SpecBehind SysexClient
  SysexBridge SysexMore SysexInit SysexLoose SysexBehind.
Import ListNotations.
Local Open Scope nat_scope.

(** A message at the front of a growable buffer, whatever follows it: every legal
    edit edits the payload as a list, unless it works in place and a partly filled
    packet is in the way. *)
Theorem C39_anything_behind : forall fm k e b g s l,
  carries fm k g s l b -> noticed fm k b -> legal fm e l ->
  ~ (in_place e l /\ in_the_way fm (List.length l) b) ->
  exists b', apply_edit fm e b = Val b'
    /\ payload_list (fmt_for fm) b' = Val (new_payload e l)
    /\ group b' = Val (new_group e g)
    /\ (resizes e -> message fm g None (new_payload e l) b').
Proof.
  intros fm k e b g s l C Nt Lg Nw. destruct (edit_behind fm k e b g s l C Nt Lg Nw) as (b' & E & (k' & C') & R).
  exists b'. split; [exact E|]. split; [apply (carries_reads _ _ _ _ _ _ C')|].
  split; [exact (group_first _ _ _ _ _ _ C')|exact R].
Qed.
Print Assumptions C39_anything_behind.

(** Those edits panic. *)
Theorem C39_in_the_way : forall fm k e b g s l,
  carries fm k g s l b -> noticed fm k b -> legal fm e l -> in_place e l ->
  in_the_way fm (List.length l) b -> apply_edit fm e b = Panic.
Proof. exact edit_in_the_way. Qed.
Print Assumptions C39_in_the_way.

(** Nothing is in the way in an accepted buffer whose message has full packets and,
    in the 7-bit form, an even number of them or nothing behind it. *)
Theorem C39_accepted : forall fm k e b g s l,
  List.length b mod packet_words fm = 0 -> sx_try_from (fmt_for fm) b = Ok b ->
  carries fm k g s l b -> full_packets fm k b ->
  (fm = SevenBit -> Nat.even k = true \/ List.length b = packet_words fm * k) -> legal fm e l ->
  exists b', apply_edit fm e b = Val b'
    /\ payload_list (fmt_for fm) b' = Val (new_payload e l)
    /\ group b' = Val (new_group e g)
    /\ (resizes e -> message fm g None (new_payload e l) b').
Proof.
  intros fm k e b g s l Lb Ac C Fu Ev Lg.
  apply (C39_anything_behind fm k e b g s l C); [|exact Lg|].
  - intros p Hp Nu. now destruct (Nu (proj1 Fu p Hp)).
  - intros [_ W]. apply (accepts_spec fm b Lb) in Ac. destruct Ac as (k' & g' & s' & l' & C' & Nk & _).
    rewrite <- (carries_count _ _ _ _ _ _ _ _ _ _ C C') in Nk.
    assert (X : examined fm k \/ List.length b = packet_words fm * k).
    { destruct fm; [|left; discriminate]. destruct (Ev eq_refl) as [A|A]; [left; intros _; exact A|now right]. }
    destruct X as [X|X]; [now apply (clear_way fm k g s l b) in W|].
    destruct W as (p & A & B & Ex & St & Sz & Ty). destruct (Nat.lt_ge_cases p k) as [L|G].
    + apply Sz. apply tid_of; auto. apply (tidy_packet fm k g s l b); auto. intros Y. now apply Fu.
    + rewrite X in B. destruct fm; cbn [packet_words] in B; lia.
Qed.
Print Assumptions C39_accepted.

(** An 8-bit message of two bytes, another packet, and the start of a second 8-bit
    message. *)
Definition followed8 : list N :=
  [0x50030001; 0x02000000; 0; 0; 0x40916040; 0x12340000; 0; 0; 0x50120003; 0; 0; 0]%N.
Lemma followed8_carries : carries EightBit 1 0 (Some 0%N) [1; 2]%N followed8.
Proof.
  constructor; try (vm_compute; reflexivity); try lia; try (cbn; lia).
  all: intros p Hp; destruct p as [|p]; [vm_compute; try (intros _); try split; try discriminate; reflexivity|lia].
Qed.
Example C39_accepted_case : sx_try_from fmt8 followed8 = Ok followed8
  /\ exists b', apply_edit EightBit (SplicePayload {| s_items := []; s_hint := (0, Some 0) |} (Included 0) (Excluded 1)) followed8 = Val b'
    /\ payload_list fmt8 b' = Val [2]%N.
Proof.
  split; [vm_compute; reflexivity|].
  destruct (C39_accepted EightBit 1 (SplicePayload {| s_items := []; s_hint := (0, Some 0) |} (Included 0) (Excluded 1))
    followed8 0 (Some 0%N) [1; 2]%N) as (b' & E & P & _).
  - reflexivity.
  - vm_compute; reflexivity.
  - exact followed8_carries.
  - split; [intros p Hp; lia|now left].
  - discriminate.
  - split; [constructor|cbn; lia].
  - exists b'. split; [exact E|exact P].
Qed.

(** Not so for 7-bit messages with an odd number of packets: a second message
    behind an unrelated packet makes removals from the first one panic, in an
    accepted buffer. *)
Definition followed7 : list N :=
  [0x30020102; 0; 0x40906040; 0x12340000; 0x30120304; 0; 0x30320506; 0]%N.
Theorem C39_behind_refuted : exists b l e, sx_try_from fmt7 b = Ok b /\ payload_list fmt7 b = Val l
  /\ message SevenBit 0 None l (firstn 2 b) /\ legal SevenBit e l /\ apply_edit SevenBit e b = Panic.
Proof.
  exists followed7, [1; 2]%N, (SplicePayload {| s_items := []; s_hint := (0, Some 0) |} (Included 0) (Excluded 1)).
  split; [vm_compute; reflexivity|]. split; [vm_compute; reflexivity|].
  split; [|split; [split; [constructor|cbn; lia]|vm_compute; reflexivity]].
  exists 1. split; [|split; [split; [intros p Hp; lia|now left]|reflexivity]].
  constructor; try (vm_compute; reflexivity); try lia; try (cbn; lia).
  all: intros p Hp; destruct p as [|p]; [vm_compute; try (intros _); try split; try discriminate; reflexivity|lia].
Qed.
Print Assumptions C39_behind_refuted.
Lemma followed7_carries : carries SevenBit 1 0 None [1; 2]%N followed7.
Proof.
  constructor; try (vm_compute; reflexivity); try lia; try (cbn; lia).
  all: intros p Hp; destruct p as [|p]; [vm_compute; try (intros _); try split; try discriminate; try reflexivity|lia].
Qed.
Example C39_in_the_way_case : in_the_way SevenBit 2 followed7.
Proof.
  exists 2. split; [vm_compute; lia|]. split; [cbn; lia|]. split; [intros _; reflexivity|]. split; [left; vm_compute; reflexivity|].
  split; [vm_compute; discriminate|]. intros q Hq Ex. specialize (Ex eq_refl).
  destruct q as [|[|[|q]]]; [vm_compute; reflexivity|discriminate|vm_compute; reflexivity|lia].
Qed.
Example C39_anything_behind_case : exists b',
  apply_edit SevenBit (AppendPayload {| s_items := [9; 10]%N; s_hint := (2, Some 2) |}) followed7 = Val b'
  /\ payload_list fmt7 b' = Val [1; 2; 9; 10]%N.
Proof.
  destruct (C39_anything_behind SevenBit 1 (AppendPayload {| s_items := [9; 10]%N; s_hint := (2, Some 2) |})
    followed7 0 None [1; 2]%N) as (b' & E & P & _).
  - exact followed7_carries.
  - intros p Hp. lia.
  - repeat (constructor; [reflexivity|]). constructor.
  - intros [X _]. discriminate.
  - exists b'. split; [exact E|exact P].
Qed.

(** In a buffer of a fixed size an edit that fits may panic because the message
    grows up to a second one. *)
Theorem C39_fixed_behind_refuted : exists b l v, sx_try_from fmt8 b = Ok b /\ payload_list fmt8 b = Val l
  /\ message EightBit 0 None l (firstn 4 b) /\ Forall (is_unit EightBit) v
  /\ List.length (l ++ v) <= room_in EightBit 8 /\ 8 < List.length b
  /\ try_edit EightBit (AppendPayload {| s_items := v; s_hint := (List.length v, Some (List.length v)) |}) b = Panic.
Proof.
  exists followed8, [1; 2]%N, [1; 2; 3; 4; 5; 6; 7; 8; 9; 10; 11; 12; 13; 14; 15; 16]%N.
  split; [vm_compute; reflexivity|]. split; [vm_compute; reflexivity|].
  split; [|split; [repeat (apply Forall_cons; [reflexivity|]); constructor
    |split; [vm_compute; lia|split; [cbn; lia|vm_compute; reflexivity]]]].
  exists 1. split; [|split; [split; [intros p Hp; lia|now left]|reflexivity]].
  constructor; try (vm_compute; reflexivity); try lia; try (cbn; lia).
  all: intros p Hp; destruct p as [|p]; [vm_compute; try (intros _); try split; try discriminate; reflexivity|lia].
Qed.
Print Assumptions C39_fixed_behind_refuted.
