(** C60 for messages of several packets: setting the group and changing the contents can be done in any order. *)
From Coq Require Import NArith List String Bool Arith Lia.
From Verif Require Import Base Sysex Splice SpecSysex SpecEdits SpecSysexWire SysexClient Text SpecText TextClient TextFlexInit TextHistory TextFresh
  PropertiesRebuildSysex PropertiesText.
Import ListNotations.
Local Open Scope nat_scope.

(** ** System exclusive messages *)

Definition regroups (e : edit) : bool := match e with SetGroup _ => true | _ => false end.

Lemma payload_edits es l : final_payload es l = final_payload (filter (fun e => negb (regroups e)) es) l.
Proof. revert l. induction es as [|e es IH]; intros l; [reflexivity|]. destruct e; cbn [filter regroups negb final_payload new_payload]; apply IH. Qed.
Lemma group_edits es g : final_group es g = final_group (filter regroups es) g.
Proof. revert g. induction es as [|e es IH]; intros g; [reflexivity|]. destruct e; cbn [filter regroups final_group new_group]; apply IH. Qed.

(** The same payload edits in the same order, and the same groups set in the same order: the messages sent are the same,
    if they are longer than a packet or never became shorter on the way. *)
Theorem C60_sysex : forall fm es es', all_legal fm es [] -> all_legal fm es' [] ->
  filter regroups es = filter regroups es' -> filter (fun e => negb (regroups e)) es = filter (fun e => negb (regroups e)) es' ->
  packet_room fm < List.length (final_payload es []) \/ (growing fm es [] /\ growing fm es' []) ->
  exists b0 b b', sx_new (fmt_for fm) = Val b0 /\ run_edits (apply_edit fm) es b0 = Val b /\ run_edits (apply_edit fm) es' b0 = Val b'
    /\ sent_bytes b = sent_bytes b'.
Proof.
  intros fm es es' L L' G P S.
  assert (EP : final_payload es [] = final_payload es' []) by (rewrite (payload_edits es), (payload_edits es'); now rewrite P).
  assert (EG : final_group es 0%N = final_group es' 0%N) by (rewrite (group_edits es), (group_edits es'); now rewrite G).
  destruct S as [S|[S S']].
  - destruct (C53_sysex_long fm es L S) as (b0 & b & N & R & W). rewrite EP in S. destruct (C53_sysex_long fm es' L' S) as (b1 & b' & N' & R' & W').
    assert (b1 = b0) by congruence. subst b1. exists b0, b, b'. repeat split; auto. congruence.
  - destruct (C53_sysex_growing fm es S) as (b0 & b & N & R & W). destruct (C53_sysex_growing fm es' S') as (b1 & b' & N' & R' & W').
    assert (b1 = b0) by congruence. subst b1. exists b0, b, b'. repeat split; auto. congruence.
Qed.
Print Assumptions C60_sysex.
Definition early := [SetGroup 5; AppendByte 1; AppendByte 2; SetByte 3 0]%N.
Definition late := [AppendByte 1; AppendByte 2; SetByte 3 0; SetGroup 5]%N.
Example C60_sysex_case :
  all_legal SevenBit early [] /\ all_legal SevenBit late [] /\ growing SevenBit early [] /\ growing SevenBit late []
  /\ filter regroups early = filter regroups late /\ filter (fun e => negb (regroups e)) early = filter (fun e => negb (regroups e)) late.
Proof. repeat split; cbn; try lia; auto. Qed.

(** ** Flex data texts *)

Definition sets_group (e : flex_edit) : bool := match e with FGroup _ => true | _ => false end.

Lemma flex_group_calls room h : forall s, fs_group (fold_left (flex_after room) h s) = fs_group (fold_left (flex_after room) (filter sets_group h) s).
Proof.
  assert (X : forall l s s', fs_group s = fs_group s' -> forallb sets_group l = true ->
    fs_group (fold_left (flex_after room) l s) = fs_group (fold_left (flex_after room) l s')).
  { induction l as [|e l IH]; intros s s' E F; [exact E|]. cbn [forallb] in F. destruct e; try discriminate F. cbn [fold_left]. apply IH; [reflexivity|exact F]. }
  assert (A : forall l, forallb sets_group (filter sets_group l) = true).
  { intros l. apply forallb_forall. intros x Hx. apply filter_In in Hx. tauto. }
  induction h as [|e h IH]; intros s; [reflexivity|]. destruct e; cbn [filter sets_group fold_left]; rewrite IH; auto; apply X; auto;
    unfold flex_after; destruct (flex_accepted room _); reflexivity.
Qed.
Lemma flex_other_calls room h : forall s s', fs_channel s = fs_channel s' -> fs_text s = fs_text s' ->
  let t := fold_left (flex_after room) h s in let t' := fold_left (flex_after room) (filter (fun e => negb (sets_group e)) h) s' in
  fs_channel t = fs_channel t' /\ fs_text t = fs_text t'.
Proof.
  induction h as [|e h IH]; intros s s' C T; [now split|]. destruct e; cbn [filter sets_group negb fold_left]; apply IH;
    unfold flex_after; destruct (flex_accepted room _); cbn [negb]; cbn [fs_channel fs_text]; rewrite ?C, ?T; auto.
Qed.

(** The same groups in the same order, and the same channels and texts in the same order: the same message. *)
Theorem C60_flex : forall K h h', In K flex_texts -> Forall flex_edit_ok h -> Forall flex_edit_ok h' ->
  filter sets_group h = filter sets_group h' -> filter (fun e => negb (sets_group e)) h = filter (fun e => negb (sets_group e)) h' ->
  exists b b', (x <- flex_new K ;; run_all flex_do h x) = Val b /\ (x <- flex_new K ;; run_all flex_do h' x) = Val b'
    /\ all_bytes b = all_bytes b'.
Proof.
  intros K h h' HK Hh Hh' G P. destruct (C42_flex_histories K h HK Hh) as (b & R & _ & _ & _ & _ & W & _).
  destruct (C42_flex_histories K h' HK Hh') as (b' & R' & _ & _ & _ & _ & W' & _). exists b, b'. split; [exact R|]. split; [exact R'|].
  rewrite W, W', (flex_group_calls None h), (flex_group_calls None h'), G.
  destruct (flex_other_calls None h flex_fresh flex_fresh eq_refl eq_refl) as [C T].
  destruct (flex_other_calls None h' flex_fresh flex_fresh eq_refl eq_refl) as [C' T']. cbn zeta in *. rewrite C, T, C', T', P. reflexivity.
Qed.
Print Assumptions C60_flex.
Example C60_flex_case :
  let h := [FGroup 3%N; FText (repeat 97%N 20); FChannel (Some 2%N)] in let h' := [FText (repeat 97%N 20); FChannel (Some 2%N); FGroup 3%N] in
  Forall flex_edit_ok h /\ filter sets_group h = filter sets_group h' /\ filter (fun e => negb (sets_group e)) h = filter (fun e => negb (sets_group e)) h'.
Proof.
  cbn zeta. split; [|split; reflexivity]. repeat constructor; cbn; try lia. intros c [= <-]. lia.
Qed.

(** Channel and text do not change places: the channel set last reaches the first packet only. *)
Theorem C60_flex_channel_refuted : exists K t b b', In K flex_texts /\ Forall flex_edit_ok [FChannel (Some 3%N); FText t]
  /\ (x <- flex_new K ;; run_all flex_do [FChannel (Some 3%N); FText t] x) = Val b
  /\ (x <- flex_new K ;; run_all flex_do [FText t; FChannel (Some 3%N)] x) = Val b'
  /\ b <> b'.
Proof.
  destruct flex_texts as [|K r] eqn:EK; [discriminate EK|]. exists K, (repeat 97%N 13).
  assert (F1 : Forall flex_edit_ok [FChannel (Some 3%N); FText (repeat 97%N 13)]).
  { repeat constructor; cbn; try lia. intros c [= <-]. lia. }
  unfold flex_texts in EK. injection EK as <- _.
  eexists. eexists. split; [left; reflexivity|]. split; [exact F1|]. split; [vm_compute; reflexivity|]. split; [vm_compute; reflexivity|].
  discriminate.
Qed.
Print Assumptions C60_flex_channel_refuted.
