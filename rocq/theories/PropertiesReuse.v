(** C70: a fixed-size message whose fields are all set anew is the message that was never used before. *)
From Coq Require Import NArith List String Bool Arith Lia.
From Verif Require Import Base BitOps Values Schema Helpers Props Message MessageTable SpecLayout SpecFixed SpecRebuild SpecOrder SpecReuse
  BitLemmas ListLemmas PropLemmas MessageLemmas FixedLemmas FixedProofs ConvertLemmas ConvertProofs RebuildLemmas OrderLemmas PropertiesRebuild PropertiesOrder.
Import ListNotations.
Local Open Scope string_scope.
Local Open Scope N_scope.
Local Open Scope list_scope.

Lemma last_set_app f h g : last_set f (h ++ g) = match last_set f g with Some v => Some v | None => last_set f h end.
Proof.
  induction h as [|[x v] h IH]; cbn [List.app last_set]; [now destruct (last_set f g)|]. rewrite IH.
  now destruct (last_set f g).
Qed.
Lemma legal_app u m h g : legal u m h -> legal u m g -> legal u m (h ++ g).
Proof. intros H G. now apply Forall_app. Qed.
Lemma all_last u m h g f : legal u m h -> sets_all u m g -> last_set f (h ++ g) = last_set f g.
Proof.
  intros H C. rewrite last_set_app. destruct (last_set f g) as [v|] eqn:E; [reflexivity|].
  destruct (last_set f h) as [v|] eqn:L; [|reflexivity]. exfalso. apply last_set_in in L.
  unfold legal in H. rewrite Forall_forall in H. destruct (H _ L) as [(w & Hw) _]. cbn [fst] in Hw.
  destruct (C f w Hw) as (x & Hx). exact (last_set_none f g E x Hx).
Qed.

(** Whatever was set before: once every field is set anew, the buffer is what it would be without the earlier calls.
    The buffer may be of any kind and have any contents at the beginning. *)
Theorem C70_fixed_size : forall u m b h g,
  In m all_messages -> holds u m b -> legal u m h -> legal u m g -> sets_all u m g -> never_withdrawn (h ++ g) ->
  exists c, run_sets u m b (h ++ g) = Val c /\ run_sets u m b g = Val c.
Proof.
  intros u m b h g Hm Hb Hl Hg C N. assert (S : same_last (h ++ g) g) by (intros f; now apply (all_last u m)).
  apply (C60_last_counts u m b (h ++ g) g Hm Hb); auto using legal_app.
  intros f E a Hin. rewrite <- (S f) in E. apply (N f E a). apply in_or_app. now right.
Qed.
Print Assumptions C70_fixed_size.

(** A message that was received, with reserved bits zero and fields that have setters for their values, can be used
    like a new one. *)
Theorem C70_received : forall u m a z g,
  In m all_messages -> supports u m = true -> constructible u m -> new u m = Val z ->
  holds u m a -> accepts u m a -> writable u m a -> tidy_message u m a ->
  legal u m g -> sets_all u m g -> takes_nothing_back g ->
  exists c, run_sets u m a g = Val c /\ run_sets u m z g = Val c.
Proof.
  intros u m a z g Hm Hs Hc Ez Hh Ha Hw Ht Hg C N.
  destruct (new_fresh u m Hm Hs Hc) as (z1 & E1 & Hf). assert (z1 = z) by congruence. subst z1.
  pose proof (fresh_holds u m z Hm Hs Hc Hf) as Hhz.
  set (names := map fst (filter (fun fw => settable (snd fw)) (layout u (m_name m)))).
  assert (Hall : all_fields u m names).
  { intros f. unfold names. rewrite in_map_iff. split.
    - intros ((f' & w) & <- & Hin). apply filter_In in Hin as [Hin Hset]. exists w. split; [exact Hin|exact Hset].
    - intros (w & Hin & Hset). exists (f, w). split; [reflexivity|]. apply filter_In. auto. }
  destruct (copy_history u m names a z) as (h & E & En & Hget).
  { intros f Hin. apply Hall in Hin as (w & Hfw). destruct (accepts_get u m a f w Hm Hfw Hh Ha) as (v & t & Ev & _). eauto. }
  assert (Hl : legal u m h).
  { apply Forall_forall. intros [f v] Hin. cbn [fst snd]. pose proof (Hget f v Hin) as Ev.
    assert (Hf' : In f names) by (rewrite <- En; apply in_map_iff; exists (f, v); auto).
    apply Hall in Hf' as (w & Hfw). split; [eauto|].
    destruct (accepts_get u m a f w Hm Hfw Hh Ha) as (v' & t & Ev' & _ & Htt & Hty). assert (v' = v) by congruence. subst v'.
    exists t. split; [exact Htt|]. split; [exact Hty|]. exact (Hw f v Ev). }
  destruct (C53_copy u m z a names Hm Hs Hc Ez Hh Ha Hw Hall) as (b & Eb & _ & _ & _ & Eq). specialize (Eq Ht). subst b.
  rewrite E in Eb.
  destruct (C70_fixed_size u m z h g Hm Hhz Hl Hg C) as (c & E2 & E3).
  { intros f Hlast. exfalso. rewrite (all_last u m h g f Hl C) in Hlast. apply last_set_in in Hlast. exact (N f Hlast). }
  exists c. split; [|exact E3]. rewrite <- E2. clear - Eb.
  revert z Eb. induction h as [|[f v] h IH]; intros z Eb; cbn [run_sets List.app] in *; [now injection Eb as ->|].
  destruct (set u m z f v) as [z'|]; [|discriminate]. cbn [bind] in *. now apply IH.
Qed.
Print Assumptions C70_received.

(** Refuted: an attribute that is taken back leaves its data in the message that is used again. *)
Definition anew (o : option attribute) (v : N) : history :=
  [("channel", VNum 3); ("group", VNum 5); ("note_number", VNum 64); ("velocity", VNum v); ("attribute", VAttr o)].
Lemma anew_legal o v : v < 65536 -> has_type TyAttr (VAttr o) = true -> legal U32 cv2_note_on (anew o v).
Proof.
  intros Hv Ho. unfold legal, anew. repeat apply Forall_cons; [split..|apply Forall_nil]; cbn [fst snd];
    match goal with
    | |- exists w, settable_field _ _ ?f w =>
        let x := eval vm_compute in (find (fun fw => String.eqb (fst fw) f) (layout U32 (m_name cv2_note_on))) in
        match x with Some (_, ?w) => exists w; split; [vm_compute; tauto|reflexivity] end
    | |- storable _ ?f _ => let x := eval vm_compute in (field_type cv2_note_on f) in
        match x with Some ?t => exists t; split; [reflexivity|]; split; [first [reflexivity|assumption|now apply N.ltb_lt]|reflexivity] end
    end.
Qed.
Lemma anew_all o v : sets_all U32 cv2_note_on (anew o v).
Proof.
  intros f w [Hin Hs]. vm_compute in Hin. unfold anew.
  repeat (destruct Hin as [Hin|Hin]; [injection Hin as <- <-; try discriminate Hs; eexists; cbn [In]; tauto|]). destruct Hin.
Qed.
Theorem C70_attribute_refuted : exists z h g c c',
  new U32 cv2_note_on = Val z /\ legal U32 cv2_note_on h /\ legal U32 cv2_note_on g /\ sets_all U32 cv2_note_on g
  /\ run_sets U32 cv2_note_on z (h ++ g) = Val c /\ run_sets U32 cv2_note_on z g = Val c'
  /\ same_fields U32 cv2_note_on c c' /\ c <> c'.
Proof.
  exists [0x40900000; 0], (anew (Some (ProfileSpecific 7)) 1), (anew None 2), [0x45934000; 0x20007], [0x45934000; 0x20000].
  split; [reflexivity|]. split; [apply anew_legal; [lia|reflexivity]|]. split; [apply anew_legal; [lia|reflexivity]|].
  split; [apply anew_all|]. split; [reflexivity|]. split; [reflexivity|]. split; [|discriminate].
  intros f w [Hin Hs]. vm_compute in Hin.
  repeat (destruct Hin as [Hin|Hin]; [injection Hin as <- <-; try discriminate Hs; vm_compute; reflexivity|]). destruct Hin.
Qed.
Print Assumptions C70_attribute_refuted.

(** Non-vacuity: a note on message that was received, and one that was built, used for another note. *)
Example C70_case_fixed_size :
  let a := [0x4F9F7F02; 0xFFFF1234] in let g := anew (Some (Pitch7_9 9)) 2 in
  holds U32 cv2_note_on a /\ accepts U32 cv2_note_on a /\ writable U32 cv2_note_on a /\ tidy_message U32 cv2_note_on a
  /\ legal U32 cv2_note_on g /\ sets_all U32 cv2_note_on g /\ takes_nothing_back g /\ never_withdrawn (anew None 7 ++ g)
  /\ run_sets U32 cv2_note_on a g = Val [0x45934003; 0x20009] /\ run_sets U32 cv2_note_on [0x40900000; 0] (anew None 7 ++ g) = Val [0x45934003; 0x20009].
Proof.
  cbv zeta. split; [split; [repeat constructor|split; [cbn; lia|discriminate]]|]. split; [reflexivity|].
  split.
  { intros f v E. destruct (field (m_fields cv2_note_on) f) as [p|] eqn:F.
    - apply field_in in F. vm_compute in F.
      repeat (destruct F as [F|F]; [injection F as <- <-; vm_compute in E; injection E as <-; reflexivity|]). destruct F.
    - unfold get in E. rewrite F in E. discriminate. }
  split.
  { split; [reflexivity|]. split; [apply reserved_checked; vm_compute; reflexivity|].
    intros f w Hin. vm_compute in Hin.
    repeat (destruct Hin as [Hin|Hin]; [injection Hin as <- <-; cbn [tidy]; first [exact I|vm_compute; discriminate]|]). destruct Hin. }
  split; [apply anew_legal; [lia|reflexivity]|]. split; [apply anew_all|].
  split; [intros f Hin; vm_compute in Hin; repeat (destruct Hin as [Hin|Hin]; [discriminate|]); destruct Hin|].
  split; [|split; reflexivity].
  intros f Hlast. exfalso. apply last_set_in in Hlast as Hin. rewrite last_set_app in Hlast.
  destruct (String.eqb_spec "attribute" f) as [<-|Hn]; [discriminate Hlast|].
  cbn in Hin. repeat (destruct Hin as [Hin|Hin]; [congruence|]). destruct Hin.
Qed.
