(** PROPERTIES of messages laid out in one array, as in the crate's second example.
    See properties.jsonl; vocabulary in SpecGenerator.v, the program in Generator.v. *)
From Coq Require Import NArith ZArith List String Bool Arith Lia Zify ZifyBool ZifyNat ZifyN.
From Verif Require Import Base BitOps ListLemmas Values Props Message MessageTable SpecLayout SpecFixed.
From Verif Require Import Sysex Splice SpecSysex SpecEdits Text Aggregate SpecAggregate StreamClient SpecStream StreamLemmas
  AggregateMore Clients Show Generator SpecGenerator GeneratorLemmas PropertiesFixed.
Import ListNotations.
Local Open Scope string_scope.
Local Open Scope list_scope.
Local Open Scope nat_scope.

(** ** C54: messages laid out side by side in one array *)

Lemma ump_only : forallb (fun m => negb (supports U8 m))
  (utility_messages ++ channel_voice2_messages ++ flex_data_messages ++ ump_stream_messages) = true.
Proof. vm_compute. reflexivity. Qed.
Lemma byte_type_of m : In m all_messages -> supports U8 m = true -> In (CFixed m) byte_types.
Proof.
  intros Hm Hs. pose proof ump_only as U. rewrite forallb_forall in U. specialize (U m). rewrite Hs in U.
  rewrite !in_app_iff in U. unfold all_messages in Hm. rewrite !in_app_iff in Hm.
  right. apply in_map, in_app_iff. intuition discriminate.
Qed.
Lemma sound_delivered mem os ps : Forall2 (sound_in mem) os ps -> Forall2 delivered os (messages_of mem ps).
Proof. intros F. induction F as [|o p os ps [D _] F IH]; cbn [messages_of map]; constructor; auto. Qed.

(** Whatever the array held, every message asked for is there at the end, in its own region, whatever was
    built behind it; nothing outside the regions changes. *)
Theorem C54_all_delivered : forall slots mem os,
  wf_buf U8 mem -> Forall proper os -> Forall (fun o => needed o <= order_size o) os ->
  List.length os <= slots -> total os <= List.length mem ->
  exists mem', generate slots mem 0 [] os = Val (Ok (mem', laid_out 0 os))
    /\ List.length mem' = List.length mem /\ skipn (total os) mem' = skipn (total os) mem
    /\ Forall2 delivered os (messages_of mem' (laid_out 0 os)).
Proof.
  intros slots mem os W P N0 Ls Lt.
  assert (F : Forall fitting os) by (rewrite Forall_forall in *; intros o Ho; split; auto).
  destruct (generate_ok os slots mem 0 [] ltac:(lia) W F ltac:(cbn; lia) ltac:(lia)) as (mem' & E & L & _ & S & D).
  exists mem'. specialize (E []). rewrite app_nil_r in E. cbn [generate app] in E.
  split; [exact E|]. split; [exact L|]. split; [exact S|now apply sound_delivered].
Qed.
Print Assumptions C54_all_delivered.

(** When every region is as long as its message the array is a MIDI 1.0 byte stream, from which a reader gets
    those messages back. *)
Theorem C54_stream : forall slots mem os,
  wf_buf U8 mem -> Forall proper os -> Forall (fun o => needed o = order_size o) os ->
  List.length os <= slots -> total os <= List.length mem ->
  exists mem', generate slots mem 0 [] os = Val (Ok (mem', laid_out 0 os))
    /\ read_messages U8 (firstn (total os) mem') = Val (Ok (messages_of mem' (laid_out 0 os)))
    /\ Forall2 delivered os (messages_of mem' (laid_out 0 os)).
Proof.
  intros slots mem os W P N0 Ls Lt.
  assert (F : Forall fitting os).
  { rewrite Forall_forall in *. intros o Ho. split; auto. rewrite N0 by auto. apply Nat.le_refl. }
  destruct (generate_ok os slots mem 0 [] ltac:(lia) W F ltac:(cbn; lia) ltac:(lia)) as (mem' & E & L & _ & _ & D).
  exists mem'. specialize (E []). rewrite app_nil_r in E. cbn [generate app] in E.
  split; [exact E|]. split; [|now apply sound_delivered]. clear E F.
  assert (X : forall at_, at_ + total os <= List.length mem' -> Forall2 (sound_in mem') os (laid_out at_ os) ->
    firstn (total os) (skipn at_ mem') = stream_of_messages (messages_of mem' (laid_out at_ os))
    /\ Forall (fun m => In (fst m) byte_types /\ whole U8 m /\ wf_buf U8 (snd m)) (messages_of mem' (laid_out at_ os))).
  { clear D Ls Lt. induction os as [|o os IH]; intros at_ La D; [split; [reflexivity|constructor]|].
    inversion P as [|? ? Po P']; subst. inversion N0 as [|? ? No N']; subst. cbn [laid_out total] in *.
    inversion D as [|? ? ? ? [Do Wo] D']; subst. specialize (IH P' N' (at_ + order_size o) ltac:(lia) D'). destruct IH as [I1 I2].
    destruct Do as (_ & A & (d & Ed & Wd & Ld) & _).
    set (p := {| p_type := order_type o; p_at := at_; p_len := order_size o |}) in *.
    assert (Lp : List.length (snd (deref mem' p)) = order_size o).
    { cbn [deref snd p p_at p_len]. rewrite firstn_length, skipn_length. lia. }
    assert (d = snd (deref mem' p)).
    { destruct (data_prefix U8 _ _ _ Ed) as [(t & Et) _]. rewrite Et in Lp |- *. rewrite app_length in Lp.
      destruct t; [now rewrite app_nil_r|cbn [List.length] in Lp; lia]. }
    subst d. split.
    - unfold stream_of_messages, messages_of in *. cbn [map List.concat]. rewrite <- I1.
      cbn [deref snd p p_at p_len]. rewrite <- skipn_skipn'. rewrite <- (firstn_skipn (order_size o) (skipn at_ mem')) at 1.
      rewrite firstn_app, firstn_firstn. rewrite firstn_length, skipn_length.
      replace (Nat.min (order_size o + total os) (order_size o)) with (order_size o) by lia. f_equal. f_equal. lia.
    - cbn [messages_of map]. constructor; [|exact I2]. split; [|split].
      + cbn [deref fst p p_type]. destruct o as [m n h|n s]; cbn [order_type]; [|now left].
        destruct Po as (Hm & Hs & _). now apply byte_type_of.
      + rewrite <- surjective_pairing in Wd. exact Wd.
      + now apply Wo. }
  destruct (X 0 ltac:(lia) D) as [E1 F1]. cbn [skipn] in E1. rewrite E1. unfold read_messages.
  apply bytes_complete; [exact F1|apply Nat.le_refl].
Qed.
Print Assumptions C54_stream.

(** What stops the program: a region too short for its message is an error, a region larger than what is left
    of the array, or one message more than there are slots, a panic. *)
Theorem C54_stops : forall slots mem os o rest,
  wf_buf U8 mem -> Forall proper (os ++ [o]) -> Forall (fun o => needed o <= order_size o) os ->
  List.length os <= slots -> total os <= List.length mem ->
  (List.length mem < total os + order_size o -> generate slots mem 0 [] (os ++ o :: rest) = Panic)
  /\ (total os + order_size o <= List.length mem -> order_size o < needed o ->
      generate slots mem 0 [] (os ++ o :: rest) = Val (Err "BufferOverflow"))
  /\ (total os + order_size o <= List.length mem -> needed o <= order_size o -> List.length os = slots ->
      generate slots mem 0 [] (os ++ o :: rest) = Panic).
Proof.
  intros slots mem os o rest W P N0 Ls Lt. apply Forall_app in P as [P Po]. inversion Po as [|? ? Pr _]; subst.
  assert (F : Forall fitting os) by (rewrite Forall_forall in *; intros x Hx; split; auto).
  destruct (generate_ok os slots mem 0 [] ltac:(lia) W F ltac:(cbn; lia) ltac:(lia)) as (mem' & E & L & _ & S & _).
  cbn [Nat.add app] in E. rewrite E. cbn [generate]. rewrite L. split; [|split].
  - intros H. replace (List.length mem - total os <? order_size o) with true by lia. reflexivity.
  - intros H1 H2. replace (List.length mem - total os <? order_size o) with false by lia.
    rewrite (build_small o) by (auto; rewrite firstn_length; lia). reflexivity.
  - intros H1 H2 H3. replace (List.length mem - total os <? order_size o) with false by lia.
    destruct (build_ok o (firstn (order_size o) (skipn (total os) mem')) Pr) as (b & Eb & _).
    + rewrite firstn_length, skipn_length. lia.
    + apply FixedLemmas.wf_firstn. cbn [Nat.add] in S. rewrite S. now apply wf_skipn.
    + rewrite Eb. cbn [try_bind]. rewrite laid_out_length. replace (slots <=? List.length os) with true by lia. reflexivity.
Qed.
Print Assumptions C54_stops.

(** The program as it is: its orders meet the hypotheses above, with regions of exactly the size needed, and what
    it prints. *)
Example C54_case :
  Forall proper example /\ Forall (fun o => needed o = order_size o) example /\ total example = 30
  /\ wf_buf U8 (repeat 0%N 128) /\ generator_main = Val
     ["ChannelVoice1(ChannelPressure(ChannelPressure([0xD0, 0x50])))";
      "ChannelVoice1(NoteOn(NoteOn([0x90, 0x38, 0x20])))";
      "ChannelVoice1(ControlChange(ControlChange([0xB0, 0x34, 0x2A])))";
      "Sysex7(Sysex7([0xF0, 0x00, 0x01, 0x02, 0x03, 0x04, 0x05, 0x06, 0x07, 0x08, 0x09, 0x0A, 0x0B, 0x0C, 0x0D, 0x0E, 0x0F, 0x10, 0x11, 0x12, 0x13, 0xF7]))"].
Proof.
  split; [|split; [|split; [|split]]].
  - assert (M : forall m, In m [cv1_channel_pressure; cv1_note_on; cv1_control_change] ->
      In m all_messages /\ supports U8 m = true /\ constructible U8 m).
    { intros m H. split; [unfold all_messages; rewrite !in_app_iff; right; right; left; cbn in *; tauto|].
      cbn [In] in H. destruct H as [<-|[<-|[<-|[]]]]; (split; [vm_compute; reflexivity|vm_compute; intros X; discriminate X]). }
    unfold example. repeat apply Forall_cons; [..|apply Forall_nil]; cbn [proper].
    1-3: match goal with |- In ?m _ /\ _ => destruct (M m) as (A & B & C); [cbn [In]; tauto|] end; split; [exact A|split; [exact B|split; [exact C|]]].
    1-3: repeat constructor; cbn [fst snd]; try (eexists; laid_out); stored.
    split; [|reflexivity]. cbn. repeat constructor.
  - repeat constructor.
  - reflexivity.
  - cbn [repeat]. repeat constructor.
  - vm_compute. reflexivity.
Qed.

(** The three ends of [C54_stops]: behind a channel pressure of two bytes, a note on in an array of four; in a
    region of two; with one slot. *)
Example C54_stops_case :
  let os := [Simple cv1_channel_pressure 2 [("pressure", VNum 0x50)]] in
  let m := Simple cv1_note_on 3 [("velocity", VNum 0x20)] in
  generate 16 [1; 2; 3; 4]%N 0 [] (os ++ [m]) = Panic
  /\ generate 16 [1; 2; 3; 4]%N 0 [] (os ++ [Simple cv1_note_on 2 [("velocity", VNum 0x20)]]) = Val (Err "BufferOverflow")
  /\ generate 1 [1; 2; 3; 4; 5; 6]%N 0 [] (os ++ [m]) = Panic
  /\ generate 2 [1; 2; 3; 4; 5; 6]%N 0 [] (os ++ [m])
     = Val (Ok ([0xD0; 0x50; 0x90; 0; 0x20; 6]%N, laid_out 0 (os ++ [m]))).
Proof. repeat split; vm_compute; reflexivity. Qed.
