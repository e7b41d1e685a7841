(** Lemmas: which error the enums of one family answer for bytes. *)
From Coq Require Import NArith List String Bool Arith Lia ZifyBool ZifyNat ZifyN.
From Verif Require Import Base BitOps Values Props Message MessageTable SpecLayout SpecFixed Sysex Text
  Aggregate SpecAggregate SpecErrors SpecErrorsMore BitLemmas ListLemmas PropLemmas PropWrite PropValidate MessageLemmas
  AggregateLemmas ErrorLemmas ErrorSysex ErrorAggregate.
Import ListNotations.
Local Open Scope string_scope.
Local Open Scope nat_scope.
Local Open Scope list_scope.

(** What the enum of a family looks up for the first byte. *)
Definition byte_arm (f : family) (x : N) : option concrete :=
  match f with ChannelVoice1 => select cv1_arms (nibble8 x 0) | _ => select sys_arms x end.
Definition byte_family_try_from (f : family) (b : list N) : outcome (res aggregate) :=
  match f with ChannelVoice1 => cv1_try_from U8 b | _ => sys_try_from U8 b end.

Lemma byte_family_dispatch f x b : byte_family_try_from f (x :: b) =
  match byte_arm f x with Some c => wrap U8 c (x :: b) | None => Val (Err "Unknown midi1 channel voice status") end.
Proof. destruct f; reflexivity. Qed.

Definition named (f : family) (x : N) : option string :=
  match find (fun c => match midi1_type x with Some n => (type_name c =? n)%string | None => false end) (types_of f) with
  | Some c => Some (type_name c) | None => None end.
Lemma cv1_named : forall x, (x < 256)%N -> option_map type_name (byte_arm ChannelVoice1 x) = named ChannelVoice1 x.
Proof. finite 256%nat. Qed.
Lemma sys_named : forall x, (x < 256)%N -> option_map type_name (byte_arm SystemCommon x) = named SystemCommon x.
Proof. finite 256%nat. Qed.
Lemma byte_arm_in f x c : f = ChannelVoice1 \/ f = SystemCommon -> byte_arm f x = Some c -> In c (types_of f).
Proof.
  intros F H. destruct F as [F|F]; subst f; cbn [byte_arm types_of] in *; apply select_in in H; unfold cv1_arms, sys_arms in H; cbn [map snd] in H;
    unfold system_common_messages, channel_voice1_messages; cbn [map];
    repeat (destruct H as [<-|H]; [solve [repeat (first [left; reflexivity|right])]|]); destruct H.
Qed.

Lemma family_bytes f c : f = ChannelVoice1 \/ f = SystemCommon -> In c (types_of f) -> In c byte_types.
Proof.
  intros F H. unfold byte_types. right. destruct F as [F|F]; subst f; cbn [types_of] in H; rewrite map_app, in_app_iff; tauto.
Qed.

Lemma byte_family_judged f b : f = ChannelVoice1 \/ f = SystemCommon -> wf_buf U8 b ->
  exists r, byte_family_try_from f b = Val r /\ judged r (byte_family_defects f b).
Proof.
  intros F Hwf. unfold byte_family_defects. destruct b as [|x b].
  { exists (Err "Slice is too short"). split; [destruct F as [F|F]; subst f; reflexivity|now apply judged_here]. }
  assert (Hx : (x < 256)%N) by (exact (wf_nth U8 (x :: b) 0 Hwf)).
  rewrite byte_family_dispatch. cbn [nth].
  assert (T : option_map type_name (byte_arm f x) = named f x) by (destruct F as [F|F]; subst f; [now apply cv1_named|now apply sys_named]).
  unfold named in T.
  destruct (byte_arm f x) as [c|] eqn:E; cbn [option_map] in T.
  - pose proof (byte_arm_in f x c F E) as Hc.
    destruct (find _ (types_of f)) as [d|] eqn:Fd; [|discriminate]. apply find_some in Fd as [_ Fd].
    destruct (midi1_type x) as [n|] eqn:M; [|discriminate]. apply String.eqb_eq in Fd.
    assert (Nm : n = type_name c) by congruence. subst n.
    destruct (wrap_judged U8 c (x :: b) _ (byte_concrete c (x :: b) (family_bytes f c F Hc) Hwf)) as (r & Er & J). exists r. split; [exact Er|].
    apply judged_skip; [discriminate|]. apply judged_skip; [intros H; apply (H c Hc); congruence|].
    apply (one_judged r (fun c' => Some (type_name d) = Some (type_name c')) (fun c => type_defects U8 c (x :: b)) _ c); auto.
    intros c' H'. destruct (string_dec (type_name c') (type_name c)) as [D|D]; [left|right; congruence].
    apply byte_names; auto; now apply (family_bytes f).
  - eexists. split; [reflexivity|]. apply judged_skip; [discriminate|]. apply judged_here.
    intros c Hc M. destruct (find _ (types_of f)) as [d|] eqn:Fd; [discriminate|].
    pose proof (find_none _ _ Fd c Hc) as X. cbv beta in X. rewrite M, String.eqb_refl in X. discriminate.
Qed.
