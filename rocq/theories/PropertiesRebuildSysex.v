(** C53: system exclusive messages are their group and payload. *)
From Coq Require Import NArith List Bool Arith Lia.
From Verif Require Import Base Sysex Splice SpecSysex SpecEdits SpecSysexWire SysexClient Clients
  SysexBridge SysexHold SysexInit SysexHistory RebuildSysex.
Import ListNotations.
Local Open Scope nat_scope.

Lemma fresh_blank fm : blank (fmt_of fm) 0 (fresh_words fm).
Proof.
  intros i _. destruct (fresh_message fm) as [M Cl]. destruct fm.
  - destruct (Nat.lt_ge_cases i 6) as [L|L].
    + do 6 (destruct i as [|i]; [reflexivity|]). lia.
    + apply ByteView.oct_beyond. unfold SysexLayout.pos. cbn. pose proof (Nat.div_le_lower_bound i 6 1 ltac:(lia) ltac:(lia)).
      cbn in *. lia.
  - destruct (Nat.lt_ge_cases i 13) as [L|L].
    + do 13 (destruct i as [|i]; [reflexivity|]). lia.
    + apply ByteView.oct_beyond. unfold SysexLayout.pos. cbn. pose proof (Nat.div_le_lower_bound i 13 1 ltac:(lia) ltac:(lia)).
      cbn in *. lia.
Qed.

(** Whatever happened before: a message of more than one packet is sent as its
    group and payload and nothing else. *)
Theorem C53_sysex_long : forall fm es, all_legal fm es [] ->
  packet_room fm < List.length (final_payload es []) ->
  exists b0 b, sx_new (fmt_for fm) = Val b0 /\ run_edits (apply_edit fm) es b0 = Val b
    /\ sent_bytes b = sysex_wire fm (final_group es 0%N) (final_payload es []).
Proof.
  intros fm es Lg Lo. exists (fresh_words fm). destruct (fresh_message fm) as [M0 C0].
  destruct (history_ump fm (Some 0%N) ltac:(now right) es _ _ _ M0 Lg) as (b' & E & M & Cl).
  exists b'. split; [apply new_fresh|]. split; [exact E|].
  apply blank_wire; [destruct M as (k & C & _); exact (carries_group_lt _ _ _ _ _ _ C)|exact M|auto|].
  apply (history_clears fm (Some 0%N) ltac:(now right) es _ _ _ b' M0 Lg); [|exact E|exact Lo].
  intros X. destruct fm; cbn in X; lia.
Qed.
Print Assumptions C53_sysex_long.

(** So is a message of any length whose payload was never shortened (and whose
    iterators stated their length). *)
Theorem C53_sysex_growing : forall fm es, growing fm es [] ->
  exists b0 b, sx_new (fmt_for fm) = Val b0 /\ run_edits (apply_edit fm) es b0 = Val b
    /\ sent_bytes b = sysex_wire fm (final_group es 0%N) (final_payload es []).
Proof.
  intros fm es Gr. pose proof (growing_legal fm es [] Gr) as Lg.
  exists (fresh_words fm). destruct (fresh_message fm) as [M0 C0].
  destruct (history_ump fm (Some 0%N) ltac:(now right) es _ _ _ M0 Lg) as (b' & E & M & Cl).
  exists b'. split; [apply new_fresh|]. split; [exact E|].
  apply blank_wire; [destruct M as (k & C & _); exact (carries_group_lt _ _ _ _ _ _ C)|exact M|auto|].
  exact (history_blank fm (Some 0%N) ltac:(now right) es _ _ _ b' M0 Gr (fresh_blank fm) E).
Qed.
Print Assumptions C53_sysex_growing.

(** In particular the usual way to make one. *)
Theorem C53_sysex_set : forall fm g l, (g < 16)%N -> Forall (is_unit fm) l ->
  exists b0 b, sx_new (fmt_for fm) = Val b0
    /\ run_edits (apply_edit fm) [SetGroup g; SetPayload (listed l)] b0 = Val b
    /\ sent_bytes b = sysex_wire fm g l.
Proof.
  intros fm g l Hg Hl. apply (C53_sysex_growing fm [SetGroup g; SetPayload (listed l)]).
  cbn. repeat split; auto.
Qed.
Print Assumptions C53_sysex_set.

(** But a payload that is replaced by a shorter one in a single packet stays in
    the message, behind the new one, and is sent: the message differs from one
    with the same group and payload.  Both forms. *)
Definition shrunk (fm : form) : list edit :=
  [SetPayload (listed [1; 2; 3; 4; 5; 6]%N); SetPayload (listed [9]%N)].
Theorem C53_sysex_short_refuted : forall fm, exists b0 b c,
  all_legal fm (shrunk fm) []
  /\ sx_new (fmt_for fm) = Val b0
  /\ run_edits (apply_edit fm) (shrunk fm) b0 = Val b
  /\ run_edits (apply_edit fm) [SetPayload (listed [9]%N)] b0 = Val c
  /\ payload_list (fmt_for fm) b = Val [9]%N /\ payload_list (fmt_for fm) c = Val [9]%N
  /\ group b = group c /\ sx_data (fmt_for fm) b = Val b
  /\ sent_bytes c = sysex_wire fm 0 [9]%N
  /\ b <> c
  /\ exists before, sent_bytes b
       = before ++ [9; 2; 3; 4; 5; 6]%N ++ repeat 0%N (packet_room fm - 6).
Proof.
  intros fm. destruct fm; eexists _, _, _; (split; [cbn; repeat constructor|]).
  - split; [vm_compute; reflexivity|]. split; [vm_compute; reflexivity|]. split; [vm_compute; reflexivity|].
    repeat (split; [vm_compute; reflexivity|]). split; [discriminate|].
    exists [0x30; 0x01]%N. vm_compute. reflexivity.
  - split; [vm_compute; reflexivity|]. split; [vm_compute; reflexivity|]. split; [vm_compute; reflexivity|].
    repeat (split; [vm_compute; reflexivity|]). split; [discriminate|].
    exists [0x50; 0x02; 0]%N. vm_compute. reflexivity.
Qed.
Print Assumptions C53_sysex_short_refuted.

(** A history with shrinking steps and one without. *)
Definition bytes_up (n : nat) : list N := map N.of_nat (seq 1 n).
Lemma bytes_up_units fm n : n < 128 -> Forall (is_unit fm) (bytes_up n).
Proof.
  intros H. apply Forall_forall. intros v Hv. apply in_map_iff in Hv as (i & <- & Hi). apply in_seq in Hi.
  destruct fm; cbn; lia.
Qed.
Example C53_sysex_case :
  let es := [SetPayload (listed (bytes_up 30)); SetGroup 9;
             SplicePayload {| s_items := bytes_up 3; s_hint := (0, None) |} (Excluded 3) (Included 14)] in
  let fs := [SetPayload (listed (bytes_up 4)); AppendByte 77; InsertPayload (listed (bytes_up 3)) 2] in
  (all_legal SevenBit es [] /\ packet_room SevenBit < List.length (final_payload es []))
  /\ growing EightBit fs []
  /\ sysex_wire SevenBit 9 (bytes_up 8)
     = ([0x39; 0x16; 1; 2; 3; 4; 5; 6] ++ [0x39; 0x32; 7; 8; 0; 0; 0; 0])%N.
Proof.
  split; [split|split].
  - split; [exact (bytes_up_units SevenBit 30 ltac:(lia))|]. split; [cbn; lia|]. split; [|exact I].
    split; [exact (bytes_up_units SevenBit 3 ltac:(lia))|cbn; lia].
  - cbn. lia.
  - split; [exact (bytes_up_units EightBit 4 ltac:(lia))|]. split; [split; reflexivity|].
    split; [reflexivity|]. split; [exact I|].
    split; [split; [exact (bytes_up_units EightBit 3 ltac:(lia))|cbn; lia]|]. split; [reflexivity|exact I].
  - reflexivity.
Qed.
