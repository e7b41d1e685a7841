(** C60 and C70 for system exclusive messages built in arrays: the order of setting the group and changing the payload
    does not matter, and an array that was used before is as good as a new one. *)
From Coq Require Import NArith List Bool Arith Lia.
From Verif Require Import Base Sysex Splice SpecSysex SpecEdits SpecSysexWire SysexClient Clients
  PropertiesRebuildSysex PropertiesRebuildArrays PropertiesOrderMore PropertiesReuseMore.
Import ListNotations.
Local Open Scope nat_scope.

(** [es] on a new array of [n] words: what [data()] holds afterwards, as bytes. *)
Definition array_sends (fm : form) (n : nat) (es : list edit) (out : list N) : Prop :=
  exists b0 b' oks d, sx_try_new (fmt_for fm) n = Val (Ok b0) /\ run_tries (try_edit fm) es b0 = Val (b', oks)
    /\ sx_data (fmt_for fm) b' = Val d /\ sent_bytes d = out.

Lemma outcome_le c e l : List.length (fst (fixed_outcome c e l)) <= c.
Proof.
  unfold fixed_outcome. cbv zeta. destruct (Nat.leb_spec (List.length (new_payload e l)) c); cbn [fst List.length]; lia.
Qed.

Lemma fixed_history_cons c e es l :
  fst (fixed_history c (e :: es) l) = fst (fixed_history c es (fst (fixed_outcome c e l))).
Proof.
  cbn [fixed_history]. destruct (fixed_outcome c e l) as [l1 ok]. cbn [fst].
  now destruct (fixed_history c es l1).
Qed.

Lemma fixed_payload_edits c es : forall l, List.length l <= c ->
  fst (fixed_history c es l) = fst (fixed_history c (filter (fun e => negb (regroups e)) es) l).
Proof.
  induction es as [|e es IH]; intros l H; [reflexivity|].
  rewrite fixed_history_cons, IH by apply outcome_le.
  destruct e; cbn [filter regroups negb]; try (now rewrite fixed_history_cons).
  unfold fixed_outcome. cbn [new_payload]. cbv zeta. now replace (List.length l <=? c) with true by (symmetry; now apply Nat.leb_le).
Qed.

(** The same payload edits in the same order, some of which may be refused, and the same groups set in the same order. *)
Theorem C60_sysex_arrays : forall fm n es es', packet_words fm <= n ->
  fixed_legal fm (room_in fm n) es [] -> fixed_legal fm (room_in fm n) es' [] ->
  filter regroups es = filter regroups es' -> filter (fun e => negb (regroups e)) es = filter (fun e => negb (regroups e)) es' ->
  packet_room fm < List.length (fst (fixed_history (room_in fm n) es [])) ->
  exists out, array_sends fm n es out /\ array_sends fm n es' out.
Proof.
  intros fm n es es' Hn L L' G P S. set (c := room_in fm n) in *.
  assert (EP : fst (fixed_history c es []) = fst (fixed_history c es' [])).
  { rewrite (fixed_payload_edits c es), (fixed_payload_edits c es') by (cbn; lia). now rewrite P. }
  assert (EG : final_group es 0%N = final_group es' 0%N) by (rewrite (group_edits es), (group_edits es'); now rewrite G).
  destruct (C53_arrays_long fm n es Hn L S) as (b0 & b & d & N & R & D & W). fold c in W. rewrite EP in S.
  destruct (C53_arrays_long fm n es' Hn L' S) as (b1 & b' & d' & N' & R' & D' & W'). fold c in W'.
  exists (sent_bytes d). split; [exists b0, b; eexists; exists d; eauto|]. exists b1, b'. eexists. exists d'.
  split; [exact N'|]. split; [exact R'|]. split; [exact D'|]. congruence.
Qed.
Print Assumptions C60_sysex_arrays.

Lemma fixed_payload_after c h g l : List.length l <= c -> forall l0, List.length l0 <= c ->
  fst (fixed_history c (h ++ [SetGroup g; SetPayload (listed l)]) l0) = l.
Proof.
  intros Hl. induction h as [|e h IH]; intros l0 H0.
  - cbn [List.app]. rewrite !fixed_history_cons. cbn [fixed_history fst]. unfold fixed_outcome at 1. cbn [new_payload]. cbv zeta.
    change (s_items (listed l)) with l. now replace (List.length l <=? c) with true by (symmetry; now apply Nat.leb_le).
  - cbn [List.app]. rewrite fixed_history_cons. apply IH, outcome_le.
Qed.

Lemma fixed_legal_then fm c h : forall last l0, fixed_legal fm c h l0 -> (forall l, fixed_legal fm c last l) ->
  fixed_legal fm c (h ++ last) l0.
Proof.
  induction h as [|e h IH]; intros last l0 H L; [apply L|]. destruct H as (H1 & H2 & H3).
  split; [exact H1|]. split; [exact H2|]. now apply IH.
Qed.

(** After any edits, refused ones among them: the group and a payload of more than one packet that fits. *)
Theorem C70_sysex_arrays : forall fm n h g l, packet_words fm <= n -> fixed_legal fm (room_in fm n) h [] ->
  (g < 16)%N -> Forall (is_unit fm) l -> packet_room fm < List.length l -> List.length l <= room_in fm n ->
  let last := [SetGroup g; SetPayload (listed l)] in
  array_sends fm n (h ++ last) (sysex_wire fm g l) /\ array_sends fm n last (sysex_wire fm g l).
Proof.
  intros fm n h g l Hn Hh Hg Hl Lo Ft last. set (c := room_in fm n) in *.
  assert (L : forall l0, fixed_legal fm c last l0) by (intros l0; repeat split; auto).
  assert (X : forall k, fixed_legal fm c k [] -> array_sends fm n (k ++ last) (sysex_wire fm g l)).
  { intros k Hk. pose proof (fixed_payload_after c k g l Ft [] ltac:(cbn; lia)) as P. fold last in P.
    destruct (C53_arrays_long fm n (k ++ last) Hn) as (b0 & b & d & N & R & D & W).
    - now apply fixed_legal_then.
    - fold c. rewrite P. exact Lo.
    - fold c in W. rewrite P in W. unfold last in W at 1. rewrite group_after in W.
      exists b0, b. eexists. exists d. eauto. }
  split; [now apply X|]. apply (X []). exact I.
Qed.
Print Assumptions C70_sysex_arrays.

(** Non-vacuity: histories with a refused edit. *)
Example C60_C70_arrays_case :
  let es := [SetGroup 5; SetPayload (listed (bytes_up 30)); SetPayload (listed (bytes_up 11)); AppendByte 3]%N in
  let es' := [SetPayload (listed (bytes_up 30)); SetPayload (listed (bytes_up 11)); SetGroup 5; AppendByte 3]%N in
  (fixed_legal SevenBit (room_in SevenBit 7) es [] /\ fixed_legal SevenBit (room_in SevenBit 7) es' [])
  /\ (filter regroups es = filter regroups es'
      /\ filter (fun e => negb (regroups e)) es = filter (fun e => negb (regroups e)) es')
  /\ fixed_history (room_in SevenBit 7) es [] = (bytes_up 11 ++ [3%N], [true; false; true; true])
  /\ (Forall (is_unit SevenBit) (bytes_up 17) /\ packet_room SevenBit < 17 /\ 17 <= room_in SevenBit 7).
Proof.
  assert (A : Forall (is_unit SevenBit) (bytes_up 30)) by (apply bytes_up_units; lia).
  assert (B : Forall (is_unit SevenBit) (bytes_up 11)) by (apply bytes_up_units; lia).
  cbv zeta. split; [split|split; [split; reflexivity|split; [vm_compute; reflexivity|]]].
  - split; [reflexivity|]. split; [exact I|]. split; [exact A|]. split; [exact I|]. split; [exact B|]. repeat split.
  - split; [exact A|]. split; [exact I|]. split; [exact B|]. repeat split.
  - split; [apply bytes_up_units; lia|]. cbn. lia.
Qed.
