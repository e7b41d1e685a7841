(** C60: setters of different fields can be called in any order; calling one again changes nothing; the last call
    counts. *)
From Coq Require Import NArith List String Bool Arith Lia ZifyBool ZifyNat ZifyN.
From Verif Require Import Base BitOps Values Schema Helpers Props Message MessageTable SpecLayout SpecFixed SpecRebuild SpecOrder
  BitLemmas ListLemmas PropLemmas MessageLemmas FixedLemmas ConvertLemmas RebuildLemmas OrderLemmas.
Import ListNotations.
Local Open Scope string_scope.
Local Open Scope N_scope.
Local Open Scope list_scope.

(** The buffer is the same, bit for bit, in whatever order the setters of different fields are called; it may have been
    any buffer before. *)
Theorem C60_any_order : forall u m b h h',
  In m all_messages -> holds u m b -> legal u m h -> same_calls h h' ->
  exists c, run_sets u m b h = Val c /\ run_sets u m b h' = Val c.
Proof.
  intros u m b h h' Hm Hb Hl S. pose proof (legal_same u m h h' Hl S) as Hl'.
  destruct (run_sets_ok u m h Hm Hl b Hb) as (c & E & _). destruct (run_sets_ok u m h' Hm Hl' b Hb) as (c' & E' & _).
  exists c. split; [exact E|]. rewrite E'. f_equal. symmetry. apply (run_same u m h h' b); auto. intros g x Hg.
  destruct (run_sets_ok u m _ Hm (legal_calls u m g h Hl) b Hb) as (d & Ed & _).
  apply agree_trans with (b := d).
  - exact (run_own u m g x Hm Hg h b b c d Hl Hb Hb (agree_refl x b) E Ed).
  - apply agree_sym. apply (run_own u m g x Hm Hg h' b b c' d Hl' Hb Hb (agree_refl x b) E'). now rewrite <- (S g).
Qed.
Print Assumptions C60_any_order.

(** Two neighbouring calls. *)
Theorem C60_commute : forall u m b f v g y w x,
  In m all_messages -> holds u m b -> settable_field u m f w -> settable_field u m g x -> f <> g -> storable m f v -> storable m g y ->
  exists c, run_sets u m b [(f, v); (g, y)] = Val c /\ run_sets u m b [(g, y); (f, v)] = Val c.
Proof.
  intros u m b f v g y w x Hm Hb Hf Hg Hne Hv Hy. apply C60_any_order; auto.
  - repeat constructor; cbn [fst snd]; eauto.
  - intros k. unfold calls_of. cbn [filter fst]. destruct (String.eqb_spec f k), (String.eqb_spec g k); congruence.
Qed.
Print Assumptions C60_commute.

(** Only the last call of each setter counts, as long as no attribute is taken back. *)
Theorem C60_last_counts : forall u m b h h',
  In m all_messages -> holds u m b -> legal u m h -> legal u m h' -> same_last h h' -> never_withdrawn h -> never_withdrawn h' ->
  exists c, run_sets u m b h = Val c /\ run_sets u m b h' = Val c.
Proof.
  intros u m b h h' Hm Hb Hl Hl' S N N'.
  destruct (run_sets_ok u m h Hm Hl b Hb) as (c & E & _). destruct (run_sets_ok u m h' Hm Hl' b Hb) as (c' & E' & _).
  exists c. split; [exact E|]. rewrite E'. f_equal. symmetry. apply (run_same u m h h' b); auto. intros g x Hg.
  pose proof (run_last u m g x Hm Hg h b c Hl Hb E) as R. pose proof (run_last u m g x Hm Hg h' b c' Hl' Hb E') as R'.
  rewrite (S g) in R. destruct (last_set g h') as [v|] eqn:L.
  - destruct R as (a & Ha & A & a1 & Ea & Hv & Ag), R' as (a' & Ha' & A' & a1' & Ea' & _ & Ag').
    eapply agree_trans; [exact Ag|]. apply agree_sym. eapply agree_trans; [exact Ag'|]. apply agree_sym.
    assert (LS : last_set g h = Some v) by (rewrite (S g); exact L).
    destruct (is_attribute x) eqn:At.
    2:{ eapply (set_local u m g x v a a'); eauto. intros ->.
        exfalso. destruct (set_ok u m a g x _ Hm Hg Ha Hv) as (q & _ & _ & _ & D).
        destruct (field_type_wire u m g x Hm (proj1 Hg)) as [Ht _]. destruct Hv as (t & T & Ty & _).
        assert (t = wire_ty x) by congruence. subst t. clear -At D Hg. destruct x; try discriminate At; cbn [decode] in D; try discriminate D.
        - apply assoc_in in D. assert (X : forallb (fun p => match snd p with VAttr _ => false | _ => true end) (codes k) = true) by (destruct k; vm_compute; reflexivity).
          rewrite forallb_forall in X. specialize (X _ D). discriminate X.
        - destruct (assoc _ _) in D; discriminate D.
        - destruct (_ =? _) in D; discriminate D.
        - destruct (_ =? _) in D; discriminate D.
        - injection D as ->. destruct Hg as [_ Hs]. discriminate Hs. }
    destruct x as [ | | | | |t d| | | | | | ]; try discriminate At.
    destruct (facts_of_layout u m g _ Hm (proj1 Hg)) as (p & F). destruct (attribute_wire u p t d (ff_wire _ _ _ _ _ F)) as (-> & _ & _ & _).
    intros s Hs. destruct (set_ok U32 m a g _ v Hm Hg Ha Hv) as (q & Q & _ & _ & Da). assert (q = a1) by congruence. subst q.
    destruct (set_ok U32 m a' g _ v Hm Hg Ha' Hv) as (q & Q' & _ & _ & Da'). assert (q = a1') by congruence. subst q.
    cbn [decode] in Da, Da'. apply assoc_attribute in Da, Da'. cbn [occupies In] in Hs.
    assert (X : v = VAttr None -> bits a1 d = bits a1' d).
    { intros ->. rewrite (set_attribute_bits m g t d a _ a1 Hm Hg Ha Hv Ea eq_refl), (set_attribute_bits m g t d a' _ a1' Hm Hg Ha' Hv Ea' eq_refl).
      assert (bits a d = bits b d) as -> by (destruct (A eq_refl (N g LS) At) as [Q1|Q1]; [apply Q1; cbn; auto|exact Q1]).
      destruct (A' eq_refl (N' g L) At) as [Q1|Q1]; [symmetry; apply Q1; cbn; auto|symmetry; exact Q1]. }
    destruct Da as [(A1 & A2)|[(A1 & A2)|[(A1 & A2)|(A1 & A2)]]];
    destruct Da' as [(B1 & B2)|[(B1 & B2)|[(B1 & B2)|(B1 & B2)]]]; subst v; try discriminate;
    destruct Hs as [<-|[<-|[]]]; try congruence. now apply X.
  - eapply agree_trans; [exact R|]. now apply agree_sym.
Qed.
Print Assumptions C60_last_counts.

(** Calling a setter a second time with the same value changes nothing. *)
Theorem C60_repeated : forall u m b f w v b',
  In m all_messages -> settable_field u m f w -> holds u m b -> storable m f v ->
  set u m b f v = Val b' -> set u m b' f v = Val b'.
Proof.
  intros u m b f w v b' Hm Hf Hb Hv E.
  destruct (set_ok u m b f w v Hm Hf Hb Hv) as (b1 & E1 & _ & Hb1 & _). assert (b1 = b') by congruence. subst b1.
  destruct (set_ok u m b' f w v Hm Hf Hb1 Hv) as (b2 & E2 & _). rewrite E2. f_equal.
  assert (L1 : legal u m [(f, v)]) by (repeat constructor; cbn [fst snd]; eauto).
  assert (L2 : legal u m [(f, v); (f, v)]) by (repeat constructor; cbn [fst snd]; eauto).
  destruct (C60_last_counts u m b [(f, v)] [(f, v); (f, v)] Hm Hb L1 L2) as (c & R1 & R2).
  - intros g. cbn [last_set]. now destruct (String.eqb f g).
  - intros g. cbn [last_set]. destruct (String.eqb f g); [|discriminate]. intros [= ->] a [H|[]]. discriminate.
  - intros g. cbn [last_set]. destruct (String.eqb f g); [|discriminate]. intros [= ->] a [H|[H|[]]]; discriminate.
  - cbn [run_sets] in R1, R2. rewrite E in R1, R2. cbn [bind] in R1, R2. rewrite E2 in R2. cbn [bind] in R2. congruence.
Qed.
Print Assumptions C60_repeated.

(** Giving a field the value it has changes nothing, if the field holds nothing but that value. *)
Theorem C60_put_back : forall u m b f w v,
  In m all_messages -> settable_field u m f w -> holds u m b -> tidy w b ->
  get u m b f = Val v -> storable m f v -> set u m b f v = Val b.
Proof.
  intros u m b f w v Hm Hf Hb T G Hv. rewrite (get_settable u m b f w) in G by auto.
  destruct (decode w b) as [v0|] eqn:D; [|discriminate]. cbn [of_option] in G. injection G as ->.
  destruct (set_ok u m b f w v Hm Hf Hb Hv) as (b1 & E1 & Hc & Hb1 & D1). rewrite E1. f_equal.
  assert (Ag : agree w b1 b).
  { intros s Hs. destruct (field_type_wire u m f w Hm (proj1 Hf)) as [_ Hsh]. destruct (is_attribute w) eqn:At.
    - destruct w as [ | | | | |t d| | | | | | ]; try discriminate At.
      destruct (facts_of_layout u m f _ Hm (proj1 Hf)) as (p & F). destruct (attribute_wire u p t d (ff_wire _ _ _ _ _ F)) as (-> & _ & _ & _).
      pose proof (set_attribute_bits m f t d b v b1 Hm Hf Hb Hv E1) as X.
      cbn [decode] in D, D1. apply assoc_attribute in D, D1. cbn [occupies In] in Hs.
      destruct D as [(A1 & A2)|[(A1 & A2)|[(A1 & A2)|(A1 & A2)]]];
      destruct D1 as [(B1 & B2)|[(B1 & B2)|[(B1 & B2)|(B1 & B2)]]]; subst v; try discriminate;
      destruct Hs as [<-|[<-|[]]]; try congruence. now apply X.
    - apply (tidy_inj w); auto.
      + exact (flag_shape_of u m f w Hm (proj1 Hf)).
      + congruence.
      + congruence.
      + exact (set_tidy u m b f w v b1 Hm Hf Hb Hv E1 At). }
  apply nth_ext with (d := 0) (d' := 0); [apply Hc|]. intros i _. apply N.bits_inj. intros j.
  destruct (seg_or_not (occupies w) i j) as [(s & Hsg & Hin)|Hn].
  - rewrite !(testbit_of_bits _ s i j Hin). f_equal. now apply Ag.
  - now apply (proj2 Hc).
Qed.
Print Assumptions C60_put_back.

(** An attribute that is taken back leaves its data behind, so the last call is not all that counts. *)
Theorem C60_withdrawn_refuted : exists b h h' c c',
  In cv2_note_off all_messages /\ holds U32 cv2_note_off b /\ legal U32 cv2_note_off h /\ legal U32 cv2_note_off h' /\ same_last h h'
  /\ run_sets U32 cv2_note_off b h = Val c /\ run_sets U32 cv2_note_off b h' = Val c' /\ c <> c'.
Proof.
  assert (Hm : In cv2_note_off all_messages) by (vm_compute; tauto).
  assert (L : forall v, has_type TyAttr (VAttr v) = true -> (exists w, settable_field U32 cv2_note_off "attribute" w) /\ storable cv2_note_off "attribute" (VAttr v)).
  { intros v Hv. split.
    - exists (Attribute (Seg 0 0 8) (Seg 1 0 16)). split; [vm_compute; tauto|reflexivity].
    - exists TyAttr. repeat split; auto. }
  exists [0x40800000; 0], [("attribute", VAttr (Some (ProfileSpecific 7))); ("attribute", VAttr None)], [("attribute", VAttr None)],
    [0x40800000; 7], [0x40800000; 0].
  split; [exact Hm|]. split; [split; [repeat constructor|split; [cbn; lia|discriminate]]|].
  split; [constructor; [apply L; reflexivity|constructor; [apply L; reflexivity|constructor]]|].
  split; [constructor; [apply L; reflexivity|constructor]|].
  split; [intros f; cbn [last_set]; now destruct (String.eqb "attribute" f)|]. repeat split; discriminate.
Qed.
Print Assumptions C60_withdrawn_refuted.

(** ** A case *)

(** A note-on message of MIDI 2.0 in a buffer with stale contents: three setters in three orders, with repetitions. *)
Definition played : history :=
  [("velocity", VNum 0xABCD); ("note_number", VNum 60); ("attribute", VAttr (Some (Pitch7_9 0x1234)))].
Definition reordered : history :=
  [("attribute", VAttr (Some (Pitch7_9 0x1234))); ("velocity", VNum 0xABCD); ("note_number", VNum 60)].
Definition corrected : history :=
  [("note_number", VNum 61); ("velocity", VNum 1); ("attribute", VAttr (Some (Pitch7_9 0x1234))); ("velocity", VNum 0xABCD); ("note_number", VNum 60)].
Example C60_case :
  legal U32 cv2_note_on played /\ same_calls played reordered /\ same_last played corrected /\ never_withdrawn played /\ never_withdrawn corrected
  /\ forall h, In h [played; reordered; corrected] -> run_sets U32 cv2_note_on [0x4591FFFF; 0xFFFFFFFF; 0x77] h = Val [0x4591BC03; 0xABCD1234; 0x77].
Proof.
  split.
  { unfold legal, played. repeat constructor; cbn [fst snd];
      match goal with
      | |- exists w, settable_field _ _ ?f w => 
          let x := eval vm_compute in (find (fun fw => String.eqb (fst fw) f) (layout U32 (m_name cv2_note_on))) in
          match x with Some (_, ?w) => exists w; split; [vm_compute; tauto|reflexivity] end
      | |- storable _ ?f _ => let x := eval vm_compute in (field_type cv2_note_on f) in match x with Some ?t => exists t; repeat split; reflexivity end
      end. }
  split; [intros f; unfold calls_of, played, reordered; cbn [filter fst]; destruct (String.eqb_spec "velocity" f); [subst; reflexivity|];
    destruct (String.eqb_spec "note_number" f); [subst; reflexivity|]; reflexivity|].
  split; [intros f; unfold played, corrected; cbn [last_set]; destruct (String.eqb_spec "velocity" f); [subst; reflexivity|];
    destruct (String.eqb_spec "note_number" f); [subst; reflexivity|]; now destruct (String.eqb_spec "attribute" f)|].
  split; [intros f; unfold played; cbn [last_set]; repeat destruct (String.eqb _ f); discriminate|].
  split; [intros f; unfold corrected; cbn [last_set]; repeat destruct (String.eqb _ f); discriminate|].
  intros h [<-|[<-|[<-|[]]]]; vm_compute; reflexivity.
Qed.
