(** PROPERTIES C53: messages are their fields.  Two built messages are equal
    exactly when their fields are, and a message copied field by field is the
    message.  See properties.jsonl. *)
From Coq Require Import NArith List String Bool Arith Lia.
From Verif Require Import Base Values Props Message MessageTable SpecLayout SpecFixed PropLemmas MessageLemmas FixedLemmas FixedProofs
  ConvertLemmas ConvertProofs SpecRebuild RebuildLemmas.
Import ListNotations.
Local Open Scope string_scope.
Local Open Scope N_scope.

(** Accepted messages that hold nothing but their fields are determined by them. *)
Theorem C53_determined : forall u m a b,
  In m all_messages -> supports u m = true -> constructible u m -> wf_buf u a -> wf_buf u b ->
  accepts u m a -> accepts u m b -> tidy_message u m a -> tidy_message u m b ->
  (same_fields u m a b <-> a = b).
Proof.
  intros u m a b Hm Hs Hc Wa Wb Aa Ab Ta Tb. split; [|intros ->; intros f w _; reflexivity].
  intros H. pose proof (accepted_meaningful u m a Hm Hs Hc Wa Aa (proj1 Ta)) as Ma.
  pose proof (accepted_meaningful u m b Hm Hs Hc Wb Ab (proj1 Tb)) as Mb.
  apply (tidy_determined u m a b Hm Wa Wb Ta Tb Ma). intros f w Hin. destruct (settable w) eqn:Hset.
  - assert (Hf : settable_field u m f w) by (split; auto). specialize (H f w Hf).
    rewrite (get_settable u m a f w), (get_settable u m b f w) in H by (auto; eapply exact_holds; eauto; first [apply Ta|apply Tb]).
    destruct (decode w a), (decode w b); cbn [of_option] in H; congruence.
  - apply decode_constant; eauto.
Qed.
Print Assumptions C53_determined.

Example C53_determined_case :
  accepts U32 flex_set_chord_name [0xD0100006; 0xF1011234; 0; 0x02070000] /\
  tidy_message U32 flex_set_chord_name [0xD0100006; 0xF1011234; 0; 0x02070000] /\
  ~ tidy_message U32 flex_set_chord_name [0xD0100006; 0xF1011205; 0; 0x02070000].
Proof.
  split; [reflexivity|]. split.
  - split; [reflexivity|]. split; [apply reserved_checked; vm_compute; reflexivity|].
    intros f w Hin. apply tidyb_tidy. revert f w Hin.
    assert (H : forallb (fun fw => tidyb (snd fw) [0xD0100006; 0xF1011234; 0; 0x02070000])
              (layout U32 (m_name flex_set_chord_name)) = true) by (vm_compute; reflexivity).
    rewrite forallb_forall in H. intros f w Hin. exact (H (f, w) Hin).
  - intros (_ & _ & H). specialize (H "chord_alteration2" (Code (Seg 1 0 8) KAlteration)).
    assert (Hin : In ("chord_alteration2", Code (Seg 1 0 8) KAlteration) (layout U32 (m_name flex_set_chord_name)))
      by (vm_compute; tauto).
    specialize (H Hin eq_refl). discriminate.
Qed.

(** A new message, after any setter calls, holds nothing but its fields, unless
    an attribute was taken back. *)
Theorem C53_built : forall u m z h,
  In m all_messages -> supports u m = true -> constructible u m -> new u m = Val z -> legal u m h ->
  exists b, run_sets u m z h = Val b /\ accepts u m b /\ (never_withdrawn h -> tidy_message u m b).
Proof.
  intros u m z h Hm Hs Hc Ez Hl. destruct (new_fresh u m Hm Hs Hc) as (z1 & E1 & Hf). assert (z1 = z) by congruence. subst z1.
  pose proof (fresh_holds u m z Hm Hs Hc Hf) as Hh.
  destruct (run_sets_ok u m h Hm Hl z Hh) as (b & E & _ & _ & Ha & _). exists b. split; [exact E|].
  split; [apply Ha; apply Hf|]. exact (proj2 (built_tidy u m z h b Hm Hs Hc Ez Hl E)).
Qed.
Print Assumptions C53_built.

(** So built messages are equal exactly when all their getters agree, whatever
    calls they were built with. *)
Theorem C53_equal : forall u m z h h' b b',
  In m all_messages -> supports u m = true -> constructible u m -> new u m = Val z ->
  legal u m h -> legal u m h' -> never_withdrawn h -> never_withdrawn h' ->
  run_sets u m z h = Val b -> run_sets u m z h' = Val b' ->
  (same_fields u m b b' <-> b = b').
Proof.
  intros u m z h h' b b' Hm Hs Hc Ez Hl Hl' Hn Hn' E E'.
  destruct (C53_built u m z h Hm Hs Hc Ez Hl) as (b1 & E1 & A1 & T1). assert (b1 = b) by congruence. subst b1.
  destruct (C53_built u m z h' Hm Hs Hc Ez Hl') as (b2 & E2 & A2 & T2). assert (b2 = b') by congruence. subst b2.
  destruct (new_fresh u m Hm Hs Hc) as (z1 & E3 & Hf). assert (z1 = z) by congruence. subst z1.
  pose proof (fresh_holds u m z Hm Hs Hc Hf) as Hh.
  apply C53_determined; auto.
  - destruct (run_sets_ok u m h Hm Hl z Hh) as (x & Ex & [Hx _] & _). congruence.
  - destruct (run_sets_ok u m h' Hm Hl' z Hh) as (x & Ex & [Hx _] & _). congruence.
Qed.
Print Assumptions C53_equal.

(** Two ways of building the same note. *)
Example C53_equal_case :
  new U32 cv2_note_on = Val [0x40900000; 0] /\
  never_withdrawn [("note_number", VNum 60); ("attribute", VAttr (Some (Pitch7_9 7))); ("channel", VNum 3)] /\
  run_sets U32 cv2_note_on [0x40900000; 0]
    [("note_number", VNum 60); ("attribute", VAttr (Some (Pitch7_9 7))); ("channel", VNum 3)] = Val [0x40933C03; 7] /\
  run_sets U32 cv2_note_on [0x40900000; 0]
    [("channel", VNum 9); ("attribute", VAttr (Some (ManufacturerSpecific 0xFFFF))); ("channel", VNum 3);
     ("note_number", VNum 60); ("attribute", VAttr (Some (Pitch7_9 7)))] = Val [0x40933C03; 7].
Proof.
  split; [reflexivity|]. split; [|split; reflexivity].
  intros f H a Hin. cbn [In] in Hin. destruct Hin as [E|[E|[E|[]]]]; try discriminate. injection E as <- <-. discriminate.
Qed.

(** Taking an attribute back does not restore the message: the data of the old
    attribute stays in it.  All getters give what they gave before. *)
Theorem C53_attribute_refuted : exists z h b,
  new U32 cv2_note_on = Val z /\ legal U32 cv2_note_on h /\ run_sets U32 cv2_note_on z h = Val b /\
  same_fields U32 cv2_note_on z b /\ z <> b.
Proof.
  set (h := [("attribute", VAttr (Some (Pitch7_9 0xABCD))); ("attribute", VAttr None)]).
  exists [0x40900000; 0], h, [0x40900000; 0xABCD].
  assert (Hm : In cv2_note_on all_messages) by (vm_compute; tauto).
  assert (Hl : legal U32 cv2_note_on h).
  { assert (Hf : settable_field U32 cv2_note_on "attribute" (Attribute (Seg 0 0 8) (Seg 1 0 16)))
      by (split; [vm_compute; tauto|reflexivity]).
    repeat constructor; cbn [fst snd]; eauto; exists TyAttr; repeat split; reflexivity. }
  assert (E : run_sets U32 cv2_note_on [0x40900000; 0] h = Val [0x40900000; 0xABCD]) by reflexivity.
  split; [reflexivity|]. split; [exact Hl|]. split; [exact E|]. split; [|discriminate].
  assert (Hh : holds U32 cv2_note_on [0x40900000; 0]) by (split; [repeat constructor|split; [cbn; lia|discriminate]]).
  destruct (run_sets_ok U32 cv2_note_on h Hm Hl [0x40900000; 0] Hh) as (b' & E' & Hh' & _ & _ & Hg & _).
  assert (b' = [0x40900000; 0xABCD]) by congruence. subst b'.
  intros f w Hf. rewrite !(get_settable U32 cv2_note_on _ f w) by auto. rewrite (Hg f w Hf).
  destruct (string_dec f "attribute") as [->|Hne].
  - assert (w = Attribute (Seg 0 0 8) (Seg 1 0 16)).
    { eapply (layout_unique U32 cv2_note_on "attribute"); [exact Hm|apply Hf|]. vm_compute; tauto. }
    subst w. reflexivity.
  - cbn [last_set h]. destruct (String.eqb_spec "attribute" f); [congruence|]. reflexivity.
Qed.
Print Assumptions C53_attribute_refuted.

(** A message copied field by field, in any order, has the fields of the original
    and nothing else; it is the original's data if that has nothing else in it. *)
Theorem C53_copy : forall u m z a names,
  In m all_messages -> supports u m = true -> constructible u m -> new u m = Val z ->
  holds u m a -> accepts u m a -> writable u m a -> all_fields u m names ->
  exists b, copy_fields u m names a z = Val b /\ accepts u m b /\ same_fields u m b a /\ tidy_message u m b /\
    (tidy_message u m a -> b = a).
Proof.
  intros u m z a names Hm Hs Hc Ez Hh Ha Hw Hall.
  destruct (new_fresh u m Hm Hs Hc) as (z1 & E1 & Hf). assert (z1 = z) by congruence. subst z1.
  pose proof (fresh_holds u m z Hm Hs Hc Hf) as Hhz.
  destruct (copy_history u m names a z) as (h & E & En & Hget).
  { intros f Hin. apply Hall in Hin as (w & Hfw). destruct (accepts_get u m a f w Hm Hfw Hh Ha) as (v & t & Ev & _). eauto. }
  assert (Hl : legal u m h).
  { apply Forall_forall. intros [f v] Hin. cbn [fst snd]. pose proof (Hget f v Hin) as Ev.
    assert (Hf' : In f names) by (rewrite <- En; apply in_map_iff; exists (f, v); auto).
    apply Hall in Hf' as (w & Hfw). split; [eauto|].
    destruct (accepts_get u m a f w Hm Hfw Hh Ha) as (v' & t & Ev' & _ & Ht & Hty). assert (v' = v) by congruence. subst v'.
    exists t. split; [exact Ht|]. split; [exact Hty|]. exact (Hw f v Ev). }
  assert (Hn : never_withdrawn h).
  { intros f Hlast x Hin. apply last_set_in in Hlast. apply Hget in Hlast. apply Hget in Hin. congruence. }
  destruct (C53_built u m z h Hm Hs Hc Ez Hl) as (b & Eb & Ab & Tb). specialize (Tb Hn). exists b.
  destruct (run_sets_ok u m h Hm Hl z Hhz) as (b1 & E2 & Hb & _ & _ & Hg & _). assert (b1 = b) by congruence. subst b1.
  assert (Hsame : same_fields u m b a).
  { intros f w Hfw. destruct (accepts_get u m a f w Hm Hfw Hh Ha) as (v & t & Ev & _). rewrite Ev.
    rewrite (get_settable u m b f w), (Hg f w) by auto.
    destruct (last_set f h) as [x|] eqn:El.
    - apply last_set_in in El. apply Hget in El. cbn [of_option]. congruence.
    - exfalso. assert (Hin : In f names) by (apply Hall; eauto). rewrite <- En in Hin.
      apply in_map_iff in Hin as ([g x] & <- & Hin). exact (last_set_none _ h El x Hin). }
  split; [congruence|]. split; [exact Ab|]. split; [exact Hsame|]. split; [exact Tb|].
  intros Ta. apply (C53_determined u m b a); auto; [apply Hb|apply Hh].
Qed.
Print Assumptions C53_copy.

(** A program change with a bank, copied in two orders. *)
Example C53_copy_case :
  holds U32 cv2_program_change [0x4BC30001; 0x4500227F] /\ accepts U32 cv2_program_change [0x4BC30001; 0x4500227F] /\
  new U32 cv2_program_change = Val [0x40C00000; 0] /\
  copy_fields U32 cv2_program_change ["group"; "channel"; "program"; "bank"] [0x4BC30001; 0x4500227F] [0x40C00000; 0]
    = Val [0x4BC30001; 0x4500227F] /\
  copy_fields U32 cv2_program_change ["bank"; "program"; "channel"; "bank"; "group"] [0x4BC30001; 0x4500227F] [0x40C00000; 0]
    = Val [0x4BC30001; 0x4500227F] /\
  copy_fields U32 cv2_program_change ["bank"; "program"; "channel"; "group"] [0x4BC300FE; 0x4512227F] [0x40C00000; 0]
    = Val [0x4BC30000; 0x45000000].
Proof.
  split; [split; [repeat constructor|split; [cbn; lia|discriminate]]|]. repeat split; reflexivity.
Qed.

(** The fifth effect depth can be received and read but not written: copying it
    panics. *)
Theorem C53_effect_depth_refuted : exists a z names,
  holds U32 cv2_registered_per_note_controller a /\ accepts U32 cv2_registered_per_note_controller a /\
  new U32 cv2_registered_per_note_controller = Val z /\ all_fields U32 cv2_registered_per_note_controller names /\
  copy_fields U32 cv2_registered_per_note_controller names a z = Panic.
Proof.
  exists [0x4000005F; 9], [0x40000001; 0], ["channel"; "group"; "note_number"; "controller"].
  split; [split; [repeat constructor|split; [cbn; lia|discriminate]]|]. split; [reflexivity|]. split; [reflexivity|].
  split; [|reflexivity].
  intros f. split.
  - intros H. cbn [In] in H. decompose [or] H; subst; try contradiction;
      (eexists; split; [vm_compute; tauto|]; reflexivity).
  - intros (w & Hin & Hset). vm_compute in Hin. decompose [or] Hin; try contradiction;
      match goal with H : _ = (f, w) |- _ => injection H as <- <- end; try discriminate; cbn; tauto.
Qed.
Print Assumptions C53_effect_depth_refuted.
